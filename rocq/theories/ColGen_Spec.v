(** * What column generation should do *)

From Coq Require Import List ZArith QArith Bool.
From Verif Require Import Util Common_Model Common_Spec OneDim_Model ColGen_Model.
Import ListNotations.
Open Scope Z_scope.

(** A set of bins: (type, number of copies, items). *)
Definition CBins := list (nat * Z * list nat).
Definition b_type (b : nat * Z * list nat) : nat := fst (fst b).
Definition b_copies (b : nat * Z * list nat) : Z := snd (fst b).
Definition b_items (b : nat * Z * list nat) : list nat := snd b.

Definition used_bins (bins : CBins) (t : nat) : Z := zsum (fun b => if (b_type b =? t)%nat then b_copies b else 0) bins.
Definition used_items (bins : CBins) (x : nat) : Z := zsum (fun b => b_copies b * occ (b_items b) x) bins.
Definition total_cost (i : CInst) (bins : CBins) : Q := qsum (fun b => inject_Z (b_copies b) * cb_cost (cbin i (b_type b)))%Q bins.
Definition total_profit (i : CInst) (bins : CBins) : Q :=
  qsum (fun b => inject_Z (b_copies b) * qsum (fun x => ci_profit (citem i x)) (b_items b))%Q bins.
Definition total_bins (bins : CBins) : Z := zsum b_copies bins.
(** The bins that hold an item. *)
Definition filled_bins (bins : CBins) : Z := zsum (fun b => match b_items b with [] => 0 | _ => b_copies b end) bins.

(** The bins respect the numbers of copies of the instance. *)
Record within_copies (i : CInst) (bins : CBins) : Prop := {
  wc_bins : forall b, In b bins -> (b_type b < cnb i)%nat /\ 0 <= b_copies b /\ forall x, In x (b_items b) -> (x < cni i)%nat;
  wc_types : forall t, (t < cnb i)%nat -> cb_copies_min (cbin i t) <= used_bins bins t <= cb_copies (cbin i t);
  wc_items : forall x, (x < cni i)%nat -> used_items bins x <= ci_copies (citem i x)
}.

(** A column describes the bin it keeps: its type and the number of copies of
    each item type in it, each in one term. *)
Record describes (i : CInst) (col : CCol) : Prop := {
  ds_type : (cc_type col < cnb i)%nat;
  ds_items : forall x, In x (cc_items col) -> (x < cni i)%nat;
  ds_rows : NoDup (map fst (cc_elements col));
  ds_terms : forall r q, In (r, q) (cc_elements col) <->
    (r = cc_type col /\ q = 1%Q)
    \/ (exists x, r = (cnb i + x)%nat /\ In x (cc_items col) /\ q = inject_Z (occ (cc_items col) x))
}.

(** Two of the three item types of a cut are in the bin. *)
Definition covers_two (c : Triple) (items : list nat) : Prop :=
  exists x y, x <> y /\ In x (tmembers c) /\ In y (tmembers c) /\ In x items /\ In y items.

(** Three different item types. *)
Definition proper (c : Triple) : Prop := (fst (fst c) < snd (fst c) < snd c)%nat.

(** The left-hand side of a cut on a fractional solution. *)
Definition cut_activity (c : Triple) (sol : list (CCol * Q)) : Q := qsum (fun p => ccoefficient c (fst p) * snd p)%Q sol.

(** The use of an item type in a fractional solution. *)
Definition item_activity (x : nat) (sol : list (CCol * Q)) : Q :=
  qsum (fun p => inject_Z (occ (cc_items (fst p)) x) * snd p)%Q sol.

(** std::sort by decreasing violation. *)
Definition sorts (sort : list (Triple * Q) -> list (Triple * Q)) : Prop :=
  forall l, Permutation.Permutation l (sort l) /\
    forall a b p q, sort l = a ++ p :: b -> In q b -> (snd q <= snd p)%Q.

(** ** Pricing *)

(** The value of a set of items (positions) in a sub-problem: the profits, minus
    the penalties of the resources whose capacity is exceeded. *)
Definition kp_consumption (k : CKp) (r : Resource) (ps : list nat) : Q :=
  qsum (fun p => Common_Spec.schedule_total (nth p (res_item_consumptions r) []) (count_occ Nat.eq_dec ps p))
    (seq 0 (length (kp_items k))).
Definition kp_profit (k : CKp) (p : nat) : Q := snd (fst (nth p (kp_items k) (O, 0%Q, 0))).
Definition kp_copies (k : CKp) (p : nat) : Z := snd (nth p (kp_items k) (O, 0%Q, 0)).
Definition kp_value (k : CKp) (ps : list nat) : Q :=
  (qsum (kp_profit k) ps
   - qsum (fun r => if res_penalize r && Qltb (res_capacity r) (kp_consumption k r ps) then res_penalty r else 0) (kp_resources k))%Q.

(** The items of a solution of a sub-problem respect its numbers of copies. *)
Definition kp_within (k : CKp) (ps : list nat) : Prop :=
  (forall p, In p ps -> (p < length (kp_items k))%nat) /\ forall p, (p < length (kp_items k))%nat -> occ ps p <= kp_copies k p.
Definition kp_types (k : CKp) (ps : list nat) : list nat := map (fun p => nth p (kp_ids (kp_items k)) O) ps.

(** The bound of the answer is a bound on every packing of the sub-problem. *)
Definition kp_bound_valid (fits : nat -> list nat -> Prop) (k : CKp) (a : KAns) : Prop :=
  forall ps, kp_within k ps -> fits (kp_bin k) (kp_types k ps) -> (kp_value k ps <= ka_bound a)%Q.

(** [fits t items]: a bin of type [t] can hold the items.  Items other than the
    fixed ones can be taken out of a bin. *)
Definition hereditary (i : CInst) (fits : nat -> list nat -> Prop) : Prop :=
  forall t a, fits t a ->
    (forall x, occ (cb_fixed (cbin i t)) x <= occ a x)
    /\ forall b, (forall x, occ (cb_fixed (cbin i t)) x <= occ b x <= occ a x) -> fits t b.

(** The reduced cost of a pattern for the duals of the rows and of the cuts. *)
Definition pattern_objective (i : CInst) (t : nat) (items : list nat) : Q :=
  match cn_objective i with
  | OVariableSizedBinPacking | OBinPacking => cb_cost (cbin i t) / cn_mult_cost i
  | OFeasibility => 1
  | OKnapsack => qsum (fun x => ci_profit (citem i x)) items / cn_mult_profit i
  | _ => 0
  end%Q.
Definition covers (c : Triple) (items : list nat) : bool :=
  (2 <=? length (filter (fun x => if in_dec Nat.eq_dec x items then true else false) (tmembers c)))%nat.
Definition reduced_cost (i : CInst) (sf : bool) (duals : list Q) (cut_duals : list (Triple * Q)) (t : nat) (items : list nat) : Q :=
  ((if sf then 0 else pattern_objective i t items) - nth t duals 0
   - qsum (fun x => nth (cnb i + x) duals 0) items
   - qsum (fun cd => if covers (fst cd) items then snd cd else 0) cut_duals)%Q.

(** The duals of the cuts have the sign of "<=" rows; the cuts are on different
    item types of one copy. *)
Definition sound_cuts (i : CInst) (cut_duals : list (Triple * Q)) : Prop :=
  forall cd, In cd cut_duals -> proper (fst cd)
    /\ (forall x, In x (tmembers (fst cd)) -> (x < cni i)%nat /\ ci_copies (citem i x) = 1)
    /\ (match cn_objective i with OKnapsack => 0 <= snd cd | _ => snd cd <= 0 end)%Q.

(** The value of the duals: the best of the bounds of every row, one for a cut. *)
Definition dual_value (minimize : bool) (i : CInst) (duals : list Q) (cut_duals : list (Triple * Q)) : Q :=
  (qsum (fun r => let d := nth r duals 0 in
          let '(lower, upper) := nth r (crows i) (0, 0)%Z in
          d * inject_Z (if Bool.eqb minimize (Qltb 0 d) then lower else upper)) (seq 0 (cnb i + cni i))
   + qsum snd cut_duals)%Q.

Definition minimizes (o : Objective) : Prop := o = OVariableSizedBinPacking \/ o = OBinPacking \/ o = OFeasibility.

(** A solution of the master problem with whole numbers of patterns. *)
Record solves (i : CInst) (fits : nat -> list nat -> Prop) (bins : CBins) : Prop := {
  sv_copies : within_copies i bins;
  sv_minimum : forall x, (x < cni i)%nat -> ci_copies_min (citem i x) <= used_items bins x;
  sv_fits : forall b, In b bins -> 0 < b_copies b -> fits (b_type b) (b_items b)
}.
Definition objective_of (i : CInst) (bins : CBins) : Q :=
  qsum (fun b => inject_Z (b_copies b) * pattern_objective i (b_type b) (b_items b))%Q bins.
Definition no_fixed_items (i : CInst) : Prop :=
  (forall t, cb_fixed (cbin i t) = []) /\ forall x, ci_copies_fixed (citem i x) = 0.
