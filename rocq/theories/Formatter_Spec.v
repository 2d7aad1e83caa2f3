(** * Specifications for the concurrent formatter *)

From Coq Require Import List ZArith QArith Bool.
From Verif Require Import Common_Model Formatter_Model.
Import ListNotations.
Open Scope Z_scope.

(** [interleaving threads h]: the sequence [h] is one way of scheduling the
    sequences of the threads, each kept in its own order. *)
Inductive interleaving {A : Type} : list (list A) -> list A -> Prop :=
| inter_done : forall threads, (forall l, In l threads -> l = []) -> interleaving threads []
| inter_step : forall before x l after h,
    interleaving (before ++ l :: after) h ->
    interleaving (before ++ (x :: l) :: after) (x :: h).

(** Order on doubles that may be infinite. *)
Definition xle (a b : xQ) : Prop :=
  match a, b with
  | _, PInf => True
  | MInf, _ => True
  | Fin p, Fin q => (p <= q)%Q
  | _, _ => False
  end.

(** Same double. *)
Definition xeq (a b : xQ) : Prop :=
  match a, b with
  | Fin p, Fin q => (p == q)%Q
  | PInf, PInf => True
  | MInf, MInf => True
  | _, _ => False
  end.

(** [b'] is at least as tight as [b]: upper bounds decrease, lower bounds
    increase, a proof of infeasibility stays. *)
Record tighter (b b' : Bounds) : Prop := {
  ti_knapsack : xle (bo_knapsack b') (bo_knapsack b);
  ti_bin_packing : bo_bin_packing b <= bo_bin_packing b';
  ti_variable : (bo_variable b <= bo_variable b')%Q;
  ti_x : bo_x b <= bo_x b';
  ti_y : bo_y b <= bo_y b';
  ti_infeasible : bo_infeasible b = true -> bo_infeasible b' = true
}.

(** One bound is strictly better. *)
Definition some_strictly_tighter (b b' : Bounds) : Prop :=
  (xle (bo_knapsack b') (bo_knapsack b) /\ ~ xeq (bo_knapsack b') (bo_knapsack b))
  \/ bo_bin_packing b < bo_bin_packing b'
  \/ (bo_variable b < bo_variable b')%Q
  \/ bo_x b < bo_x b'
  \/ bo_y b < bo_y b'
  \/ (bo_infeasible b = false /\ bo_infeasible b' = true).

(** [b] holds exactly the best of the bounds reported in [calls]. *)
Record best_bounds {Sol : Type} (instance_bins : Z) (calls : list (Call Sol)) (b : Bounds) : Prop := {
  bb_knapsack_le : forall q, In (UpdKnapsack Sol q) calls -> xle (bo_knapsack b) q;
  bb_knapsack_in : bo_knapsack b = PInf \/ In (UpdKnapsack Sol (bo_knapsack b)) calls;
  bb_bin_packing_ge : forall n, In (UpdBinPacking Sol n) calls -> n <= bo_bin_packing b;
  bb_bin_packing_in : bo_bin_packing b = 0 \/ In (UpdBinPacking Sol (bo_bin_packing b)) calls;
  bb_variable_ge : forall q, In (UpdVariable Sol q) calls -> (q <= bo_variable b)%Q;
  bb_variable_in : bo_variable b = 0%Q \/ In (UpdVariable Sol (bo_variable b)) calls;
  bb_x_ge : forall n, In (UpdX Sol n) calls -> n <= bo_x b;
  bb_x_in : bo_x b = 0 \/ In (UpdX Sol (bo_x b)) calls;
  bb_y_ge : forall n, In (UpdY Sol n) calls -> n <= bo_y b;
  bb_y_in : bo_y b = 0 \/ In (UpdY Sol (bo_y b)) calls;
  bb_infeasible : bo_infeasible b = true <->
    In (UpdInfeasible Sol) calls \/ exists n, In (UpdBinPacking Sol n) calls /\ 0 < n /\ instance_bins < n
}.

(** On the solutions satisfying [P], [lt] is a strict partial order. *)
Record PartialOrderOn {Sol : Type} (P : Sol -> Prop) (lt : Sol -> Sol -> bool) : Prop := {
  po_irrefl : forall a, P a -> lt a a = false;
  po_trans : forall a b c, P a -> P b -> P c -> lt a b = true -> lt b c = true -> lt a c = true
}.

(** [ok s] describes the solutions of the problem; every bound in [calls] is
    valid and every solution in [calls] that is flagged feasible is one. *)
Record valid_reports {Sol : Type} (ok : Sol -> Prop)
    (profit cost : Sol -> Q) (bins x_max y_max : Sol -> Z) (instance_bins : Z)
    (calls : list (Call Sol)) : Prop := {
  vr_knapsack : forall q s, In (UpdKnapsack Sol q) calls -> ok s -> xle (Fin (profit s)) q;
  vr_bin_packing : forall n s, In (UpdBinPacking Sol n) calls -> ok s -> n <= bins s;
  vr_available : forall s, ok s -> bins s <= instance_bins;
  vr_variable : forall q s, In (UpdVariable Sol q) calls -> ok s -> (q <= cost s)%Q;
  vr_x : forall n s, In (UpdX Sol n) calls -> ok s -> n <= x_max s;
  vr_y : forall n s, In (UpdY Sol n) calls -> ok s -> n <= y_max s;
  vr_infeasible : forall s, In (UpdInfeasible Sol) calls -> ~ ok s
}.

(** [s] is at least as good as [s'] for the objective, up to the tolerance of
    the comparators of common.hpp:90-128. *)
Definition as_good_as {Sol : Type} (objective : Objective)
    (profit cost : Sol -> Q) (bins x_max y_max : Sol -> Z) (s s' : Sol) : Prop :=
  match objective with
  | OKnapsack => strictly_greater_profit (profit s') (profit s) = false
  | OBinPacking => bins s <= bins s'
  | OVariableSizedBinPacking => strictly_lesser_cost (cost s') (cost s) = false
  | OOpenDimensionX => x_max s <= x_max s'
  | OOpenDimensionY => y_max s <= y_max s'
  | _ => True
  end.

(** What the user sees from one callback to the next. *)
Definition improves {Sol : Type} (lt : Sol -> Sol -> bool) (older newer : FOut Sol) : Prop :=
  lt (fo_best Sol older) (fo_best Sol newer) = true
  \/ some_strictly_tighter (fo_bounds Sol older) (fo_bounds Sol newer).

(** [newest first] log: each output improves on the previous one. *)
Fixpoint improving_log {Sol : Type} (lt : Sol -> Sol -> bool) (first : FOut Sol) (log : list (FOut Sol)) : Prop :=
  match log with
  | [] => True
  | o :: rest => improves lt (hd first rest) o /\ improving_log lt first rest
  end.

(** Task [t], run with the end flag at [flag], reports event [e] at some point. *)
Inductive emits {Sol T Exc : Type} (tstep : T -> bool -> Outcome Sol T Exc) (flag : bool)
    : T -> Event Sol -> Prop :=
| emits_now : forall t t' e, tstep t flag = Step Sol T Exc t' (Some e) -> emits tstep flag t e
| emits_later : forall t t' o e, tstep t flag = Step Sol T Exc t' o ->
    emits tstep flag t' e -> emits tstep flag t e.

(** Task [t] ends with exception [e]. *)
Inductive throws {Sol T Exc : Type} (tstep : T -> bool -> Outcome Sol T Exc) (flag : bool)
    : T -> Exc -> Prop :=
| throws_now : forall t e, tstep t flag = Throw Sol T Exc e -> throws tstep flag t e
| throws_later : forall t t' o e, tstep t flag = Step Sol T Exc t' o ->
    throws tstep flag t' e -> throws tstep flag t e.

Definition event_solution {Sol : Type} (e : Event Sol) : Sol :=
  match e with Found _ s => s | FoundWithBounds _ s _ => s end.

(** The bounds [b] take into account the bounds [b'], as far as they matter for
    the objective. *)
Definition covers (objective : Objective) (b b' : Bounds) : Prop :=
  (bo_infeasible b' = true -> bo_infeasible b = true) /\
  match objective with
  | OKnapsack => xle (bo_knapsack b) (bo_knapsack b')
  | OBinPacking => bo_bin_packing b' <= bo_bin_packing b
  | OVariableSizedBinPacking => (bo_variable b' <= bo_variable b)%Q
  | OOpenDimensionX => bo_x b' <= bo_x b
  | OOpenDimensionY => bo_y b' <= bo_y b
  | _ => True
  end.
