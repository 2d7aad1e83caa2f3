(** * What the cheap bounds of the rectangleguillotine optimize function claim

    A packing is a list of bins as the getters show them ([GView]): only the items of
    their nodes count, whatever the cuts.  A bound that holds for all of them holds for
    the guillotine cutting plans. *)

From Coq Require Import List ZArith QArith Bool.
From Verif Require Import Util Common_Model OneDim_Model OneDim_Spec OneDimBuilder_Model Guil_Model Guil_Spec GuilSol_Model GuilSol_Spec
  RectBounds_Model GuilBounds_Model.
Import ListNotations.
Open Scope Z_scope.

(** The part of the plate without its trims, "borders of a bin which are not used to pack
    items" (instance.hpp:15-25), hard or soft. *)
Definition inner_l (bt : GBinType) : Z := gt_length (gb_left bt).
Definition inner_r (bt : GBinType) : Z := gb_w bt - gt_length (gb_right bt).
Definition inner_b (bt : GBinType) : Z := gt_length (gb_bottom bt).
Definition inner_t (bt : GBinType) : Z := gb_h bt - gt_length (gb_top bt).

Section Spec.
Variable i : GInstance.

(** The node of an item has the dimensions of its item type, turned only if it may be. *)
Definition gplaced (n : GNode) : Prop :=
  let it := gitem i (Z.to_nat (gn_item n)) in
  (Z.to_nat (gn_item n) < length (gin_items i))%nat
  /\ ((gwidth_of n = gi_w it /\ gheight_of n = gi_h it)
      \/ (gi_oriented it = false /\ gwidth_of n = gi_h it /\ gheight_of n = gi_w it)).

(** The items of a bin are outside the trims, and do not overlap. *)
Record gbin_geometry (v : GView) : Prop := {
  bg_placed : forall n, In n (item_nodes (gv_nodes v)) -> gplaced n;
  bg_inside : forall n, In n (item_nodes (gv_nodes v)) ->
    inner_l (gbin i (gv_type v)) <= gn_l n /\ gn_r n <= inner_r (gbin i (gv_type v))
    /\ inner_b (gbin i (gv_type v)) <= gn_b n /\ gn_t n <= inner_t (gbin i (gv_type v));
  bg_apart : ForallOrdPairs (apart 0) (item_nodes (gv_nodes v))
}.

(** Bins of the instance's types, numbers of bins and items within their limits. *)
Record gpacking (vs : list GView) : Prop := {
  gq_bins : forall v, In v vs -> (gv_type v < length (gin_bins i))%nat /\ 1 <= gv_copies v /\ gbin_geometry v;
  gq_used : forall t, (t < length (gin_bins i))%nat -> gb_copies_min (gbin i t) <= gused t vs <= gb_copies (gbin i t);
  gq_packed : forall x, (x < length (gin_items i))%nat -> gi_copies_min (gitem i x) <= gpacked x vs <= gi_copies (gitem i x)
}.

Definition gall_packed (vs : list GView) : Prop :=
  forall x, (x < length (gin_items i))%nat -> gpacked x vs = gi_copies (gitem i x).

(** Bins are used in the order of the instance. *)
Definition gin_order (vs : list GView) : Prop :=
  forall t u, (t < u < length (gin_bins i))%nat -> 0 < gused u vs -> gused t vs = gb_copies (gbin i t).

Definition gbins_used (vs : list GView) : Z := zsum gv_copies vs.

(** Profit of the items, profit net of penalties, cost, as in the indicators of the
    solutions (gi_ind_profit, gi_ind_cost). *)
Definition gprofit_of (vs : list GView) : Q :=
  qsum (fun v => inject_Z (gv_copies v) * qsum (fun x => gi_profit (gitem i x)) (gv_items v))%Q vs.
Definition gnet_profit (vs : list GView) : Q :=
  qsum (fun v => inject_Z (gv_copies v) * qsum (fun x => gi_profit (gitem i x)) (gv_items v) - gpenalties i v)%Q vs.
Definition gcost_of (vs : list GView) : Q := qsum (fun v => inject_Z (gv_copies v) * gb_cost (gbin i (gv_type v)))%Q vs.

(** Right and top ends of the items of a bin. *)
Definition gitems_right (v : GView) : Z := fold_right Z.max 0 (map gn_r (item_nodes (gv_nodes v))).
Definition gitems_top (v : GView) : Z := fold_right Z.max 0 (map gn_t (item_nodes (gv_nodes v))).

(** What a claim says about the packings. *)
Definition gclaim_right (c : RClaim) : Prop :=
  match c with
  | RcProfit q => forall vs, gpacking vs -> (gnet_profit vs <= q)%Q
  | RcBins n => forall vs, gpacking vs -> gall_packed vs -> gin_order vs -> n <= gbins_used vs
  | RcCost q => forall vs, gpacking vs -> gall_packed vs -> (q <= gcost_of vs)%Q
  | RcX n => forall v, gpacking [v] -> gv_type v = 0%nat -> gv_copies v = 1 -> gall_packed [v] -> n <= gitems_right v
  | RcY n => forall v, gpacking [v] -> gv_type v = 0%nat -> gv_copies v = 1 -> gall_packed [v] -> n <= gitems_top v
  | RcNothing => True
  | RcThrow => False
  end.

(** Items of positive size, plates larger than their trims, limited bins of positive cost,
    a number of items in the range of its type. *)
Record grelaxable : Prop := {
  gr_items : forall it, In it (gin_items i) -> 0 < gi_w it /\ 0 < gi_h it /\ 1 <= gi_copies it;
  gr_trims : forall bt tr, In bt (gin_bins i) -> In tr [gb_bottom bt; gb_top bt; gb_left bt; gb_right bt] -> 0 <= gt_length tr;
  gr_bins : forall bt, In bt (gin_bins i) -> inner_l bt < inner_r bt /\ inner_b bt < inner_t bt
    /\ 1 <= gb_copies bt /\ 0 <= gb_copies_min bt <= gb_copies bt /\ (0 < gb_cost bt)%Q;
  gr_size : zsum gi_copies (gin_items i) <= max_item_pos
}.

(** Every trim is hard, or empty. *)
Definition hard_trims : Prop :=
  forall bt tr, In bt (gin_bins i) -> In tr [gb_bottom bt; gb_top bt; gb_left bt; gb_right bt] -> gt_hard tr = true \/ gt_length tr = 0.

(** What the claims of the dual feasible functions say: no packing of all the items in the
    available plates, or a number of plates. *)
Definition gdff_right (c : GDffClaim) : Prop :=
  match c with
  | GdInfeasible => forall vs, gpacking vs -> gall_packed vs -> False
  | GdBins n => forall vs, gpacking vs -> gall_packed vs -> n <= gbins_used vs
  | GdThrow => False
  end.

End Spec.

(** A packing seen as a packing of lengths. *)
Definition grelax_desc (v : GView) : BinDesc := mkBD (gv_type v) (gv_copies v) (gv_items v).
