(** * What a box packing is, independently of the algorithms *)

From Coq Require Import List ZArith QArith Bool.
From Verif Require Import Util Common_Model Common_Spec Box_Model.
Import ListNotations.
Open Scope Z_scope.

(** An item placed in a bin: item type, position of the corner closest to the
    origin, orientation. *)
Record BPlace : Type := mkBP { bp_type : nat; bp_pos : Vec; bp_rot : Rotation }.

(** A bin of a packing. *)
Record XDesc : Type := mkXD { xd_type : nat; xd_copies : Z; xd_items : list BPlace }.

Section Spec.

Variable i : BInstance.

(** Size along an axis: each letter of the orientation says which side of the item
    lies along x, y and z. *)
Definition bp_size (p : BPlace) (a : Axis) : Z :=
  let b := bi_box (bxitem i (bp_type p)) in
  match bp_rot p, a with
  | XYZ, AX | XZY, AX | YXZ, AY | ZXY, AY | ZYX, AZ | YZX, AZ => v_x b
  | YXZ, AX | YZX, AX | XYZ, AY | ZYX, AY | XZY, AZ | ZXY, AZ => v_y b
  | ZYX, AX | ZXY, AX | XZY, AY | YZX, AY | XYZ, AZ | YXZ, AZ => v_z b
  end.
Definition bp_end (p : BPlace) (a : Axis) : Z := vat (bp_pos p) a + bp_size p a.

(** A placed item is an item of the instance, inside the bin, in an allowed
    orientation. *)
Record bplace_ok (bt : BBin) (p : BPlace) : Prop := {
  bk_type : (bp_type p < length (bx_items i))%nat;
  bk_inside : forall a, 0 <= vat (bp_pos p) a /\ bp_end p a <= vat (bn_box bt) a;
  bk_rot : In (bp_rot p) (bi_rotations (bxitem i (bp_type p)))
}.

(** Two items do not overlap: they are separated along some axis. *)
Definition bdisjoint (p q : BPlace) : Prop :=
  exists a, bp_end p a <= vat (bp_pos q) a \/ bp_end q a <= vat (bp_pos p) a.

Record bgeometry_ok (bt : BBin) (ps : list BPlace) : Prop := {
  bg_places : forall p, In p ps -> bplace_ok bt p;
  bg_disjoint : ForallOrdPairs bdisjoint ps
}.

(** Copies of item type [x] in a bin, in a packing. *)
Definition bcount (x : nat) (ps : list BPlace) : Z :=
  Z.of_nat (length (filter (fun p => Nat.eqb (bp_type p) x) ps)).
Definition bpacked (x : nat) (ds : list XDesc) : Z := zsum (fun d => xd_copies d * bcount x (xd_items d)) ds.
Definition bused_bins (t : nat) (ds : list XDesc) : Z :=
  zsum (fun d => if Nat.eqb (xd_type d) t then xd_copies d else 0) ds.

(** A packing: bins of the instance's types, with at least one copy each,
    satisfying the geometric constraints, and no item type used more than its
    number of copies. *)
Record bpacking_ok (ds : list XDesc) : Prop := {
  bpa_bins : forall d, In d ds -> (xd_type d < length (bx_bins i))%nat /\ 1 <= xd_copies d
    /\ bgeometry_ok (bxbin i (xd_type d)) (xd_items d);
  bpa_copies : forall x, (x < length (bx_items i))%nat -> bpacked x ds <= bi_copies (bxitem i x)
}.

Definition ball_packed (ds : list XDesc) : Prop :=
  forall x, (x < length (bx_items i))%nat -> bpacked x ds = bi_copies (bxitem i x).

Definition bbins_used (ds : list XDesc) : Z := zsum xd_copies ds.

(** Volume of an item and of a bin. *)
Definition bi_vol (it : BItem) : Z := v_x (bi_box it) * v_y (bi_box it) * v_z (bi_box it).
Definition bn_vol (bt : BBin) : Z := v_x (bn_box bt) * v_y (bn_box bt) * v_z (bn_box bt).

(** Total profit of the items. *)
Definition bprofit (ds : list XDesc) : Q :=
  qsum (fun d => (inject_Z (xd_copies d) * qsum (fun p => bi_profit (bxitem i (bp_type p))) (xd_items d))%Q) ds.

(** Consumption of a resource by the items of a bin: for each item type, its
    first [n] schedule entries, [n] being the number of copies in the bin. *)
Definition bconsumption (r : Resource) (ps : list BPlace) : Q :=
  qsum (fun x => schedule_total (nth x (res_item_consumptions r) []) (Z.to_nat (bcount x ps)))
    (seq 0 (length (bx_items i))).

(** Every penalized resource used above its capacity in a bin of the solution
    costs its penalty once. *)
Definition bpenalties (d : XDesc) : Q :=
  qsum (fun r => if res_penalize r && Qltb (res_capacity r) (bconsumption r (xd_items d)) then res_penalty r else 0%Q)
    (bn_resources (bxbin i (xd_type d))).

(** The profit the objective counts. *)
Definition bnet_profit (ds : list XDesc) : Q := (bprofit ds - qsum bpenalties ds)%Q.

(** Farthest end along an axis, from 0. *)
Definition extent (a : Axis) (ps : list BPlace) : Z := fold_right Z.max 0 (map (fun p => bp_end p a) ps).

(** Sizes and numbers of copies. *)
Definition bpositive_items : Prop :=
  forall it, In it (bx_items i) -> (forall a, 0 < vat (bi_box it) a) /\ 1 <= bi_copies it.
Definition bnonneg_items : Prop :=
  forall it, In it (bx_items i) -> (forall a, 0 <= vat (bi_box it) a) /\ 0 <= bi_copies it.
Definition bpositive_bins : Prop := forall bt, In bt (bx_bins i) -> forall a, 1 <= vat (bn_box bt) a.

End Spec.
