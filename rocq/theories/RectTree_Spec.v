(** * Specification for the rectangle branching scheme *)

From Coq Require Import List ZArith QArith Bool.
From Verif Require Import Util Common_Model OneDim_Model Tree1D_Spec Rect_Model Rect_Spec RectSol_Model RectSol_Spec RectBuilder_Model RectBuilder_Spec
  RectFlip_Model RectFlip_Spec RectTree_Model.
Import ListNotations.
Open Scope Z_scope.

Section Spec.
Variable i : RInstance.

(** Group of a placed item; weight of the items of a bin. *)
Definition pl_group (p : Place) : nat := ri_group (ritem i (pl_type p)).
Definition rweight (ps : list Place) : Q := qsum (fun p => ri_weight (ritem i (pl_type p))) ps.

(** Items share a row (a column). *)
Definition same_rows (p q : Place) : Prop := pl_y p < pl_ye i q /\ pl_y q < pl_ye i p.
Definition same_columns (p q : Place) : Prop := pl_x p < pl_xe i q /\ pl_x q < pl_xe i p.

(** Unloading by movements along one axis only, from the far end and by increasing
    groups: an item behind another one is never blocked by an item of a later group. *)
Definition unloadable_x (ps : list Place) : Prop :=
  forall p q, In p ps -> In q ps -> same_rows p q -> pl_xe i p <= pl_x q -> (pl_group q <= pl_group p)%nat.
Definition unloadable_y (ps : list Place) : Prop :=
  forall p q, In p ps -> In q ps -> same_columns p q -> pl_ye i p <= pl_y q -> (pl_group q <= pl_group p)%nat.
Definition only_movements_ok (ps : list Place) : Prop :=
  match rp_unloading (rin_params i) with UOnlyX => unloadable_x ps | UOnlyY => unloadable_y ps | _ => True end.

(** Items of a later group are not further along the axis. *)
Definition increasing_ok (ps : list Place) : Prop :=
  match rp_unloading (rin_params i) with
  | UIncreasingX => forall p q, In p ps -> In q ps -> (pl_group p < pl_group q)%nat -> pl_x q <= pl_x p
  | UIncreasingY => forall p q, In p ps -> In q ps -> (pl_group p < pl_group q)%nat -> pl_y q <= pl_y p
  | _ => True
  end.

(** The constraints on a bin: geometry and unloading are exact, the weight and the
    resources without penalty may exceed their limits by the relative tolerance. *)
Record rtol_bin_ok (d : RDesc) : Prop := {
  rk_geometry : geometry_ok i (rbin i (rd_type d)) (rd_items d);
  rk_weight : rd_items d <> [] -> within_tol (rweight (rd_items d)) (rb_max_weight (rbin i (rd_type d)));
  rk_resources : forall r, In r (rb_resources (rbin i (rd_type d))) -> res_penalize r = false ->
    (rconsumption i r (rd_items d) <= res_capacity r * PSTOL)%Q;
  rk_unloading : only_movements_ok (rd_items d);
  (** only without defects: C20_increasing_refuted *)
  rk_increasing : rb_defects (rbin i (rd_type d)) = [] -> increasing_ok (rd_items d)
}.

(** Area to the left of the items of a bin: for each row (a unit of height), the right
    end of the last item in it. *)
Definition row_end (ps : list Place) (y : Z) : Z :=
  fold_right Z.max 0 (map (fun p => if (pl_y p <=? y) && (y <? pl_ye i p) then pl_xe i p else 0) ps).
Definition rows (a b : Z) : list Z := map (fun k => a + Z.of_nat k) (seq 0 (Z.to_nat (b - a))).
Definition shadow (bt : RBin) (ps : list Place) : Z := zsum (row_end ps) (rows 0 (rb_y bt)).

(** Total area of items. *)
Definition items_area (ps : list Place) : Z := zsum (fun p => ri_x (ritem i (pl_type p)) * ri_y (ritem i (pl_type p))) ps.

End Spec.

(** No defect is entirely on the negative side of an axis. *)
Definition defects_reach (i : RInstance) : Prop :=
  forall t f, In t (rin_bins i) -> In f (rb_defects t) -> 0 <= df_x f + df_lx f /\ 0 <= df_y f + df_ly f.

(** The schemes of the theorems: a built instance that the flipper accepts, with
    non-negative capacities and consumptions and defects that reach the bin. *)
Record rtree_domain (s : Scheme) : Prop := {
  rd_consistent : rconsistent (sc_i s) (sc_d s);
  rd_flippable : flippable (sc_i s);
  rd_flip : rflip (sc_i s) = UBuilt (sc_j s) (sc_dj s);
  rd_resources : rsane_resources (sc_i s);
  rd_defects : defects_reach (sc_i s)
}.
