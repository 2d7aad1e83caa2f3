(** * What the bar relaxation is meant to be, independently of the algorithm *)

From Coq Require Import List ZArith QArith Bool.
From Verif Require Import Util Common_Model Common_Spec Rect_Model Rect_Spec Scale_Model Scale_Spec Bar_Model.
Import ListNotations.
Open Scope Z_scope.

(** ** Linear programs given by rows and columns *)

Definition brow_eq_dec (r s : BRow) : {r = s} + {r <> s}.
Proof. decide equality; apply Nat.eq_dec. Defined.

Definition coefficient (c : BCol) (r : BRow) : Q := qsum snd (filter (fun p => if brow_eq_dec (fst p) r then true else false) (bc_terms c)).
Definition activity (cs : list (BCol * Q)) (r : BRow) : Q := qsum (fun c => coefficient (fst c) r * snd c)%Q cs.
Definition lp_value (cs : list (BCol * Q)) : Q := qsum (fun c => bc_obj (fst c) * snd c)%Q cs.

Definition above (lower : option Q) (x : Q) : Prop := match lower with None => True | Some l => (l <= x)%Q end.
Definition below (upper : option Q) (x : Q) : Prop := match upper with None => True | Some u => (x <= u)%Q end.

(** Values of the columns within their bounds and such that the rows are within
    theirs. *)
Record lp_point (rows : list (BRow * option Q * option Q)) (cs : list (BCol * Q)) : Prop := {
  lp_in_columns : forall c, In c cs -> (bc_lower (fst c) <= snd c)%Q /\ below (bc_upper (fst c)) (snd c);
  lp_in_rows : forall r lower upper, In (r, lower, upper) rows -> above lower (activity cs r) /\ below upper (activity cs r)
}.

(** ** Bars *)

Section Spec.
Variable i : RInstance.

(** A row ([true]) or a column of bin type [t], with [a v] copies of variant [v] side
    by side in it. *)
Definition bar_column (rows : bool) (t : nat) (a : nat -> Z) : BCol :=
  mkBC 0 None 0 (((if rows then RowCap t else ColCap t), 1%Q)
    :: map (fun v => ((if rows then Link1 t v else Link2 t v), inject_Z (a v))) (filter (fun v => 0 <? a v) (eligible_variants i t))).
Definition bar_fits (rows : bool) (t : nat) (a : nat -> Z) : Prop :=
  (forall v, In v (eligible_variants i t) -> 0 <= a v <= ri_copies (ritem i (va_type (variant i v))))
  /\ zsum (fun v => a v * (if rows then va_w (variant i v) else va_h (variant i v))) (eligible_variants i t)
     <= (if rows then rb_x (rbin i t) else rb_y (rbin i t)).
Definition bar_pattern (c : BCol) : Prop :=
  exists rows t a, (t < length (rin_bins i))%nat /\ bar_fits rows t a /\ c = bar_column rows t a.

(** The bar relaxation: the static columns and any number of bars. *)
Definition bar_point (cs : list (BCol * Q)) : Prop :=
  exists bars, map fst cs = static_columns i ++ bars /\ (forall c, In c bars -> bar_pattern c) /\ lp_point (bar_rows i) cs.

(** A number is a bound of the relaxation: no point is better. *)
Definition bar_bound (b : Q) : Prop := forall cs, bar_point cs ->
  (if knapsack i then lp_value cs <= b else b <= lp_value cs)%Q.

(** A bound of the column generation solver is right: an infinite one in the sense of
    an infeasible program means that there is no point. *)
Definition cg_right (bound : CgBound) : Prop := match bound with
  | CgFinite b => bar_bound b
  | CgMinusInf => knapsack i = true -> forall cs, ~ bar_point cs
  | CgPlusInf => knapsack i = false -> forall cs, ~ bar_point cs
  end.

(** ** The Lagrangian bound for given duals *)

(** A number that no value [x] between the bounds makes [c * x] exceed (maximize), or
    fall below (minimize). *)
Definition extreme_ok (maximize : bool) (c : Q) (lower upper : option Q) (e : Q) : Prop :=
  forall x, above lower x -> below upper x -> (if maximize then c * x <= e else e <= c * x)%Q.

(** A dual value of the program without the bars: every row contributes the extreme of
    its dual times its activity, every static column the extreme of its reduced cost
    times its value. *)
Definition reduced_cost (duals : BRow -> Q) (c : BCol) : Q := (bc_obj c - qsum (fun p => snd p * duals (fst p)) (bc_terms c))%Q.
Definition dual_value (duals : BRow -> Q) (d : Q) : Prop :=
  exists (re : BRow -> Q) (ce : BCol -> Q),
    (forall r lower upper, In (r, lower, upper) (bar_rows i) -> extreme_ok (knapsack i) (duals r) lower upper (re r))
    /\ (forall c, In c (static_columns i) -> extreme_ok (knapsack i) (reduced_cost duals c) (Some (bc_lower c)) (bc_upper c) (ce c))
    /\ (d == qsum (fun r => re (fst (fst r))) (bar_rows i) + qsum ce (static_columns i))%Q.

(** A knapsack solver that returns optimal selections. *)
Definition bar_solver_exact (solver : bool -> nat -> Z -> list KItem -> nat -> Z) : Prop :=
  forall rows t cap ks, 0 <= cap -> NoDup (map ki_id ks) -> (forall k, In k ks -> 0 < ki_len k /\ 0 <= ki_copies k) ->
    kp_feasible cap ks (solver rows t cap ks) /\ forall s, kp_feasible cap ks s -> (kp_value ks s <= kp_value ks (solver rows t cap ks))%Q.
(** A knapsack solver that returns selections that fit. *)
Definition bar_solver_sound (solver : bool -> nat -> Z -> list KItem -> nat -> Z) : Prop :=
  forall rows t cap ks, 0 <= cap -> NoDup (map ki_id ks) -> (forall k, In k ks -> 0 < ki_len k /\ 0 <= ki_copies k) ->
    kp_feasible cap ks (solver rows t cap ks).

(** ** Packings the relaxation is about *)

Record bar_packing (ds : list RDesc) : Prop := {
  bp_packing : packing_ok i ds;
  bp_eligible : relig_ok i ds;
  bp_bins : forall t, (t < length (rin_bins i))%nat -> rb_copies_min (rbin i t) <= rused_bins t ds <= rb_copies (rbin i t);
  bp_items : forall x, (x < length (rin_items i))%nat -> ri_copies_min (ritem i x) <= rpacked x ds
}.

Definition packing_cost (ds : list RDesc) : Q := qsum (fun d => inject_Z (rd_copies d) * rb_cost (rbin i (rd_type d)))%Q ds.

(** What a claim says about the packings. *)
Definition claim_right (c : BarClaim) : Prop := match c with
  | BarInfeasible => forall ds, ~ bar_packing ds
  | BarProfit b => forall ds, bar_packing ds -> (rnet_profit i ds <= b)%Q
  | BarCost b => forall ds, bar_packing ds -> (b <= packing_cost ds)%Q
  | BarBins n => forall ds, bar_packing ds -> n <= rbins_used ds
  | BarNothing => True
  | BarUndefined => True
  end.
End Spec.
