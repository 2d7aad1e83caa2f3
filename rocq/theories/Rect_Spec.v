(** * What a rectangle packing is, independently of the algorithms *)

From Coq Require Import List ZArith QArith Bool.
From Verif Require Import Util Common_Model Common_Spec Rect_Model.
Import ListNotations.
Open Scope Z_scope.

(** An item placed in a bin: item type, position of the bottom-left corner,
    rotated or not. *)
Record Place : Type := mkPl { pl_type : nat; pl_x : Z; pl_y : Z; pl_rot : bool }.

(** A bin of a packing. *)
Record RDesc : Type := mkRD { rd_type : nat; rd_copies : Z; rd_items : list Place }.

Section Spec.

Variable i : RInstance.

(** Right and top ends. *)
Definition pl_w (p : Place) : Z := if pl_rot p then ri_y (ritem i (pl_type p)) else ri_x (ritem i (pl_type p)).
Definition pl_h (p : Place) : Z := if pl_rot p then ri_x (ritem i (pl_type p)) else ri_y (ritem i (pl_type p)).
Definition pl_xe (p : Place) : Z := pl_x p + pl_w p.
Definition pl_ye (p : Place) : Z := pl_y p + pl_h p.

(** A placed item is an item of the instance, inside the bin, and rotated only
    if it may be. *)
Record place_ok (bt : RBin) (p : Place) : Prop := {
  pk_type : (pl_type p < length (rin_items i))%nat;
  pk_x : 0 <= pl_x p /\ pl_xe p <= rb_x bt;
  pk_y : 0 <= pl_y p /\ pl_ye p <= rb_y bt;
  pk_rot : pl_rot p = true -> ri_oriented (ritem i (pl_type p)) = false
}.

(** Two items do not overlap. *)
Definition disjoint (p q : Place) : Prop :=
  pl_xe p <= pl_x q \/ pl_xe q <= pl_x p \/ pl_ye p <= pl_y q \/ pl_ye q <= pl_y p.

(** An item does not touch the inside of a defect. *)
Definition avoids (p : Place) (d : Defect) : Prop :=
  pl_xe p <= df_x d \/ df_x d + df_lx d <= pl_x p \/ pl_ye p <= df_y d \/ df_y d + df_ly d <= pl_y p.

(** The geometric constraints on a bin. *)
Record geometry_ok (bt : RBin) (ps : list Place) : Prop := {
  ge_places : forall p, In p ps -> place_ok bt p;
  ge_disjoint : ForallOrdPairs disjoint ps;
  ge_defects : forall p d, In p ps -> In d (rb_defects bt) -> avoids p d
}.

(** Copies of item type [x] in a bin, in a packing. *)
Definition rcount (x : nat) (ps : list Place) : Z :=
  Z.of_nat (length (filter (fun p => Nat.eqb (pl_type p) x) ps)).
Definition rpacked (x : nat) (ds : list RDesc) : Z := zsum (fun d => rd_copies d * rcount x (rd_items d)) ds.

Definition rused_bins (t : nat) (ds : list RDesc) : Z :=
  zsum (fun d => if Nat.eqb (rd_type d) t then rd_copies d else 0) ds.

(** A packing: bins of the instance's types, with at least one copy each,
    satisfying the geometric constraints, and no item type used more than its
    number of copies. *)
Record packing_ok (ds : list RDesc) : Prop := {
  pa_bins : forall d, In d ds -> (rd_type d < length (rin_bins i))%nat /\ 1 <= rd_copies d
    /\ geometry_ok (rbin i (rd_type d)) (rd_items d);
  pa_copies : forall x, (x < length (rin_items i))%nat -> rpacked x ds <= ri_copies (ritem i x)
}.

(** Every copy of every item type is packed. *)
Definition rall_packed (ds : list RDesc) : Prop :=
  forall x, (x < length (rin_items i))%nat -> rpacked x ds = ri_copies (ritem i x).

Definition rbins_used (ds : list RDesc) : Z := zsum rd_copies ds.

(** Total profit of the items. *)
Definition rprofit (ds : list RDesc) : Q :=
  qsum (fun d => (inject_Z (rd_copies d) * qsum (fun p => ri_profit (ritem i (pl_type p))) (rd_items d))%Q) ds.

(** Consumption of a resource by the items of a bin: for each item type, its
    first [n] schedule entries, [n] being the number of copies in the bin. *)
Definition rconsumption (r : Resource) (ps : list Place) : Q :=
  qsum (fun x => schedule_total (nth x (res_item_consumptions r) []) (Z.to_nat (rcount x ps)))
    (seq 0 (length (rin_items i))).

(** Every penalized resource used above its capacity in a bin of the solution
    costs its penalty once. *)
Definition rpenalties (d : RDesc) : Q :=
  qsum (fun r => if res_penalize r && Qltb (res_capacity r) (rconsumption r (rd_items d)) then res_penalty r else 0%Q)
    (rb_resources (rbin i (rd_type d))).

(** The profit the objective counts. *)
Definition rnet_profit (ds : list RDesc) : Q := (rprofit ds - qsum rpenalties ds)%Q.

(** Items are only in bins they are eligible for. *)
Definition relig_ok (ds : list RDesc) : Prop :=
  forall d p, In d ds -> In p (rd_items d) ->
    ri_eligibility (ritem i (pl_type p)) = -1
    \/ In (ri_eligibility (ritem i (pl_type p))) (rb_eligibility_ids (rbin i (rd_type d))).

(** Positive sizes and numbers of copies. *)
Definition positive_items : Prop :=
  forall it, In it (rin_items i) -> 0 < ri_x it /\ 0 < ri_y it /\ 1 <= ri_copies it.

Definition positive_bins : Prop := forall bt, In bt (rin_bins i) -> 1 <= rb_x bt /\ 1 <= rb_y bt.

End Spec.
