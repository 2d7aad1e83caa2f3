(** * Specification for the rectangle reduction *)

From Coq Require Import List ZArith QArith Bool.
From Verif Require Import Util Common_Model Rect_Model Rect_Spec Reduc_Model.
Import ListNotations.
Open Scope Z_scope.

(** The sums of at most one value of each group. *)
Inductive picks : list (list Z) -> Z -> Prop :=
| picks_nil : picks [] 0
| picks_skip : forall g gs v, picks gs v -> picks (g :: gs) v
| picks_take : forall g gs v w, In w g -> picks gs v -> picks (g :: gs) (w + v).

(** The subset-sum solver returns the largest sum within the capacity. *)
Definition subset_sum_honest (f : Z -> list (list Z) -> Z) : Prop :=
  forall cap gs, f cap gs <= cap /\ forall v, picks gs v -> v <= cap -> v <= f cap gs.

(** The sub-solver only returns complete packings, within the numbers of copies
    of the bin types. *)
Definition solver_honest (solve : nat -> RInstance -> option (list RDesc)) : Prop :=
  forall c j ds, solve c j = Some ds ->
    packing_ok j ds /\ rall_packed j ds
    /\ forall t, (t < length (rin_bins j))%nat -> 0 <= rb_copies (rbin j t) -> rused_bins t ds <= rb_copies (rbin j t).

(** The sub-solver uses either none or all the copies of a bin type. *)
Definition uses_all_copies (solve : nat -> RInstance -> option (list RDesc)) : Prop :=
  forall c j ds, solve c j = Some ds -> forall t, (t < length (rin_bins j))%nat ->
    rused_bins t ds = 0 \/ rused_bins t ds = rb_copies (rbin j t).

(** An item larger than the half of the bin in both directions for one of its two
    orientations is so for the other one too, if it fits. *)
Definition big_both_ways (W H x y : Z) : Prop :=
  (W < 2 * x -> H < 2 * y -> y <= W -> x <= H -> W < 2 * y /\ H < 2 * x)
  /\ (W < 2 * y -> H < 2 * x -> x <= W -> y <= H -> W < 2 * x /\ H < 2 * y).

(** A solution of an instance: a complete packing within the numbers of copies of
    the bin types. *)
Definition solves (i : RInstance) (ds : list RDesc) : Prop :=
  packing_ok i ds /\ rall_packed i ds
  /\ forall t, (t < length (rin_bins i))%nat -> 0 <= rb_copies (rbin i t) -> rused_bins t ds <= rb_copies (rbin i t).

(** What is asked of the instance and of the sub-solvers.  [W] and [H] are the
    largest sums of widths and of heights within the bin. *)
Record reducible (solve : nat -> RInstance -> option (list RDesc)) (subset_sum : Z -> list (list Z) -> Z) (W H : Z) (i : RInstance) : Prop := {
  rd_positive : positive_items i;
  rd_bins : forall t, (t < length (rin_bins i))%nat -> 0 <= rb_x (rbin i t) /\ 0 <= rb_y (rbin i t) /\ rb_copies_min (rbin i t) <= 0;
  rd_sums : subset_sum_honest subset_sum;
  rd_solver : solver_honest solve;
  rd_copy : uses_all_copies solve \/ forall x, (x < length (rin_items i))%nat -> ri_copies (ritem i x) = 1;
  rd_ways : forall x, (x < length (rin_items i))%nat -> ri_oriented (ritem i x) = false ->
    big_both_ways W H (ri_x (ritem i x)) (ri_y (ritem i x))
}.

(** [m] is the smallest number of bins of a solution. *)
Definition minimum_bins (i : RInstance) (m : Z) : Prop :=
  (exists ds, solves i ds /\ rbins_used ds = m) /\ forall ds, solves i ds -> m <= rbins_used ds.
