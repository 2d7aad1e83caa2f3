(** * What flipping a box instance means *)

From Coq Require Import List ZArith QArith Bool.
From Verif Require Import Util Common_Model OneDim_Model Box_Model Box_Spec BoxSol_Model BoxSol_Spec.
Import ListNotations.
Open Scope Z_scope.

(** Exchange of the axes x and [d]. *)
Definition other_axis (d a : Axis) : Axis :=
  if axis_eqb a AX then d else if axis_eqb a d then AX else a.
Definition exchanged (d : Axis) (v w : Vec) : Prop := forall a, vat w a = vat v (other_axis d a).

(** Exchange of the letters of an orientation: the first two, or the first and
    the last. *)
Definition exchange_rot (d : Axis) (r : Rotation) : Rotation :=
  match d with
  | AX => r
  | AY => match r with XYZ => YXZ | YXZ => XYZ | ZYX => YZX | YZX => ZYX | XZY => ZXY | ZXY => XZY end
  | AZ => match r with XYZ => ZYX | ZYX => XYZ | YXZ => ZXY | ZXY => YXZ | YZX => XZY | XZY => YZX end
  end.

(** The same bin seen with the axes exchanged. *)
Definition exchange (d : Axis) (v : Vec) : Vec :=
  mkV (vat v (other_axis d AX)) (vat v (other_axis d AY)) (vat v (other_axis d AZ)).
Definition bswap_place (d : Axis) (p : BPlace) : BPlace :=
  mkBP (bp_type p) (exchange d (bp_pos p)) (exchange_rot d (bp_rot p)).
Definition bswap_desc (d : Axis) (b : XDesc) : XDesc :=
  mkXD (xd_type b) (xd_copies b) (map (bswap_place d) (xd_items b)).

(** Instance [j] is [i] with the axes exchanged, as far as geometry, weights,
    profits and costs are concerned. *)
Record bswapped (d : Axis) (i j : BInstance) : Prop := {
  bs_items : length (bx_items j) = length (bx_items i) /\
    forall x, (x < length (bx_items i))%nat ->
      let t := bxitem i x in let t' := bxitem j x in
      bi_box t' = bi_box t /\ bi_profit t' = bi_profit t /\ bi_copies t' = bi_copies t /\ bi_weight t' = bi_weight t /\
      bi_rotations t' = map (exchange_rot d) (bi_rotations t);
  bs_bins : length (bx_bins j) = length (bx_bins i) /\
    forall k, (k < length (bx_bins i))%nat ->
      let t := bxbin i k in let t' := bxbin j k in
      exchanged d (bn_box t) (bn_box t') /\ bn_cost t' = bn_cost t /\ bn_copies t' = bn_copies t /\
      bn_max_weight t' = bn_max_weight t
}.

(** Instances whose flip every call accepts. *)
Record bflippable (i : BInstance) : Prop := {
  bf_bins : forall t, In t (bx_bins i) -> (forall a, 0 < vat (bn_box t) a) /\ (0 < bn_cost t)%Q /\ 1 <= bn_copies t;
  bf_items : forall t, In t (bx_items i) -> (forall a, 0 < vat (bi_box t) a) /\ 1 <= bi_copies t /\ bi_rotations t <> [];
  (** one bin when a dimension is open *)
  bf_open : bx_objective i = OOpenDimensionX \/ bx_objective i = OOpenDimensionY \/ bx_objective i = OOpenDimensionZ ->
    zsum bn_copies (bx_bins i) = 1
}.
