(** * What sequential value correction should do *)

From Coq Require Import List ZArith QArith Bool.
From Verif Require Import Util Common_Model OneDim_Model ColGen_Model ColGen_Spec Svc_Model.
Import ListNotations.
Open Scope Z_scope.

(** Instances as the builders leave them: the copies of an item type fixed in
    bins are counted in copies_fixed, and there are enough copies for them. *)
Record sinst_ok (i : SInst) : Prop := {
  io_bins : forall t, (t < cnb (si_base i))%nat -> 0 <= cb_copies (cbin (si_base i) t);
  io_fixed : forall x, (x < cni (si_base i))%nat ->
    ci_copies_fixed (citem (si_base i) x)
    = zsum (fun t => cb_copies (cbin (si_base i) t) * sfixed i t x) (seq 0 (cnb (si_base i)));
  io_enough : forall x, (x < cni (si_base i))%nat -> ci_copies_fixed (citem (si_base i) x) <= ci_copies (citem (si_base i) x)
}.

(** The bins are bins of the instance, in at least one copy, and no bin type and
    no item type is used more than the instance allows. *)
Record svalid (i : SInst) (s : CBins) : Prop := {
  sv_bins : forall b, In b s -> (b_type b < cnb (si_base i))%nat /\ 1 <= b_copies b /\ forall x, In x (b_items b) -> (x < cni (si_base i))%nat;
  sv_types : forall t, (t < cnb (si_base i))%nat -> used_bins s t <= cb_copies (cbin (si_base i) t);
  sv_items : forall x, (x < cni (si_base i))%nat -> used_items s x <= ci_copies (citem (si_base i) x)
}.

(** All that is asked of any solver: the bins of its solutions have at least one
    copy. *)
Definition solutions (o : Oracle) : Prop := forall c k b, In b (sa_bins (or_solve o c k)) -> 1 <= fst b.

(** The items of a bin of an answer, in the ids of the instance. *)
Definition decode (k : SKp) (positions : list nat) : list nat := map (fun p => nth p (sk_ids k) O) positions.

(** [items] are the items of the first bin of an answer to a sub-problem of bin
    type [t]. *)
Definition returned (o : Oracle) (t : nat) (items : list nat) : Prop :=
  exists c k n positions rest, sk_bin k = t /\ sa_bins (or_solve o c k) = (n, positions) :: rest /\ items = decode k positions.

(** A solver that respects the sub-problems: at most one bin, item types of the
    sub-problem and no more copies than it has, the fixed items in place; and the
    comparison prefers a solution to no solution. *)
Record honest (i : SInst) (o : Oracle) : Prop := {
  ho_one : forall c k, ksol_bins (sa_bins (or_solve o c k)) <= 1;
  ho_positive : solutions o;
  ho_ids : forall c k b p, In b (sa_bins (or_solve o c k)) -> In p (snd b) -> (p < length (sk_items k))%nat;
  ho_copies : forall c k b p, In b (sa_bins (or_solve o c k)) -> (p < length (sk_items k))%nat ->
    occ (snd b) p <= Z.max 0 (snd (nth p (sk_items k) (O, 0)));
  ho_fixed : forall c k b x, In b (sa_bins (or_solve o c k)) ->
    (x < cni (si_base i))%nat -> sfixed i (sk_bin k) x <= occ (decode k (snd b)) x;
  ho_less : forall c a b, sa_bins a = [] -> sa_bins b <> [] -> or_less o c a b = true
}.

(** The bins of a solution in order, one entry per copy. *)
Definition expand (s : CBins) : list nat := flat_map (fun b => repeat (b_type b) (Z.to_nat (b_copies b))) s.

(** [fits t x]: an item of type [x] can be packed in a bin of type [t].  A solver
    is complete for [fits] if it packs only such items and returns a bin of
    positive profit as soon as the sub-problem has such an item. *)
Record complete (fits : nat -> nat -> Prop) (o : Oracle) : Prop := {
  co_fits : forall c k b p, In b (sa_bins (or_solve o c k)) -> In p (snd b) -> (p < length (sk_items k))%nat /\ fits (sk_bin k) (nth p (sk_ids k) O);
  co_profit : forall c k x n, In (x, n) (sk_items k) -> 0 < n -> fits (sk_bin k) x ->
    sa_bins (or_solve o c k) <> [] /\ (0 < sa_profit (or_solve o c k))%Q
}.

(** The order in which the bins must be used when sizes do not vary: the bin types
    in the order of the instance, or by increasing space (then id) for Knapsack;
    all the copies of a type before the next one. *)
Definition use_order (i : SInst) (order : list nat) : Prop :=
  Permutation.Permutation (seq 0 (cnb (si_base i))) order
  /\ (cn_objective (si_base i) <> OKnapsack -> order = seq 0 (cnb (si_base i)))
  /\ (cn_objective (si_base i) = OKnapsack -> forall a b x y, order = a ++ x :: b -> In y b ->
        sspace i x < sspace i y \/ (sspace i x = sspace i y /\ (x < y)%nat)).
Definition positions_of (i : SInst) (order : list nat) : list nat :=
  flat_map (fun t => repeat t (Z.to_nat (cb_copies (cbin (si_base i) t)))) order.
