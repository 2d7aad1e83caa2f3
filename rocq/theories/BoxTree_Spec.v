(** * What the nodes of the box branching scheme stand for *)

From Coq Require Import List ZArith QArith Bool Arith.
From Verif Require Import Util Common_Model OneDim_Model Tree1D_Spec Box_Model Box_Spec BoxSol_Model BoxSol_Spec BoxBuilder_Model BoxBuilder_Spec BoxFlip_Model BoxFlip_Spec BoxTree_Model.
Import ListNotations.
Open Scope Z_scope.

Section Spec.

Variable i : BInstance.

Definition bweight (ps : list BPlace) : Q := qsum (fun p => bi_weight (bxitem i (bp_type p))) ps.

(** Constraints on a bin: items in the bin, without overlap, the weight up to the
    tolerance. *)
Record zbin_ok (d : XDesc) : Prop := {
  zk_geometry : bgeometry_ok i (bxbin i (xd_type d)) (xd_items d);
  zk_weight : xd_items d <> [] -> within_tol (bweight (xd_items d)) (bn_max_weight (bxbin i (xd_type d)))
}.

(** Capacities of the resources without penalty, up to the tolerance. *)
Definition zcapacities_ok (d : XDesc) : Prop :=
  forall r, In r (bn_resources (bxbin i (xd_type d))) -> res_penalize r = false ->
    (bconsumption i r (xd_items d) <= res_capacity r * PSTOL)%Q.

(** The item is over the unit cell [y, y+1) x [z, z+1) of the face x = 0. *)
Definition over (p : BPlace) (y z : Z) : bool :=
  (v_y (bp_pos p) <=? y) && (y <? bp_end i p AY) && (v_z (bp_pos p) <=? z) && (z <? bp_end i p AZ).

(** Farthest end along x of the items over a cell, from 0. *)
Definition cell_end (ps : list BPlace) (y z : Z) : Z :=
  fold_right Z.max 0 (map (fun p => if over p y z then bp_end i p AX else 0) ps).

(** Volume between the face x = 0 and the ends of the items. *)
Definition zrows (a b : Z) : list Z := map (fun k => a + Z.of_nat k) (seq 0 (Z.to_nat (b - a))).
Definition bshadow (bt : BBin) (ps : list BPlace) : Z :=
  zsum (fun y => zsum (fun z => cell_end ps y z) (zrows 0 (v_z (bn_box bt)))) (zrows 0 (v_y (bn_box bt))).

(** Total volume of items. *)
Definition bitems_volume (ps : list BPlace) : Z := zsum (fun p => bi_vol (bxitem i (bp_type p))) ps.

End Spec.

(** The piece contains a cell. *)
Definition covers (u : ZPiece) (y z : Z) : bool := (zp_ys u <=? y) && (y <? zp_ye u) && (zp_zs u <=? z) && (z <? zp_ze u).

(** The schemes of the theorems: a built instance that the flipper accepts, with
    non-negative capacities and consumptions. *)
Record ztree_domain (s : ZScheme) : Prop := {
  zd_consistent : wconsistent (zs_i s) (zs_d s);
  zd_flippable : bflippable (zs_i s);
  zd_flip_y : exists o, bflip o AY (zs_i s) = WBuilt (zs_jy s) (zs_dy s);
  zd_flip_z : exists o, bflip o AZ (zs_i s) = WBuilt (zs_jz s) (zs_dz s);
  zd_resources : xsane_resources (zs_i s)
}.

(** Schemes that see the resources: the flipper does not copy them. *)
Definition zsees_resources (s : ZScheme) : Prop :=
  zs_direction s = Some AX \/ forall bt, In bt (bx_bins (zs_i s)) -> bn_resources bt = [].

(** No uncovered item of the node has been raised for the dominances. *)
Definition znot_raised (n : ZNode) : Prop := forall u, In u (zn_pieces n) -> zp_xd u = zp_x u.
