(** * What a guillotine cutting plan is, independently of the builder

    A plan is the list of the nodes of a bin, as [SolutionNode]
    (solution.hpp:22-33) exposes them: father, depth, rectangle, item. *)

From Coq Require Import List ZArith QArith Bool.
From Verif Require Import Util Common_Model Guil_Model.
Import ListNotations.
Open Scope Z_scope.

(** The part of the plate left by the hard trims. *)
Definition hard (t : GTrim) : Z := if gt_hard t then Z.max 0 (gt_length t) else 0.
Definition usable_l (bt : GBinType) : Z := hard (gb_left bt).
Definition usable_r (bt : GBinType) : Z := gb_w bt - hard (gb_right bt).
Definition usable_b (bt : GBinType) : Z := hard (gb_bottom bt).
Definition usable_t (bt : GBinType) : Z := gb_h bt - hard (gb_top bt).

(** Direction of the cuts that produce the nodes of a depth: the first cuts have
    the direction of the bin, then the directions alternate. *)
Definition vertical_at (o : GOrient) (depth : Z) : bool :=
  match o with
  | GVertical => Z.odd depth
  | GHorizontal => Z.even depth
  | GAny => false
  end.

(** [child] is a part of [parent] obtained by cutting across it, in the direction
    of its depth. *)
Definition cut_from (o : GOrient) (parent child : GNode) : Prop :=
  gn_d child = gn_d parent + 1 /\
  if vertical_at o (gn_d child)
  then gn_l parent <= gn_l child /\ gn_l child < gn_r child /\ gn_r child <= gn_r parent
       /\ gn_b child = gn_b parent /\ gn_t child = gn_t parent
  else gn_b parent <= gn_b child /\ gn_b child < gn_t child /\ gn_t child <= gn_t parent
       /\ gn_l child = gn_l parent /\ gn_r child = gn_r parent.

(** [m] lies after [n] in the direction of the cuts of their depth, at a
    distance at least the cut thickness. *)
Definition after (o : GOrient) (ct : Z) (n m : GNode) : Prop :=
  if vertical_at o (gn_d n) then gn_r n + ct <= gn_l m else gn_t n + ct <= gn_b m.

(** A node carrying an item; the item field of a root is a bin type. *)
Definition carries (n : GNode) (x : nat) : Prop := gn_f n <> None /\ gn_item n = Z.of_nat x.

Definition has_dimensions (n : GNode) (w h : Z) : Prop :=
  (gn_r n - gn_l n = w /\ gn_t n - gn_b n = h) \/ (gn_r n - gn_l n = h /\ gn_t n - gn_b n = w).

(** The nodes of a bin form a guillotine cutting plan: the node [base] is the
    usable part of the plate; the nodes before it are the plate itself and its
    trims; every other node is cut from its father; the parts cut from one
    father are apart; a node with an item is not cut and has the dimensions of
    its item. *)
Record guillotine_plan (i : GInstance) (t : nat) (o : GOrient) (ns : list GNode) (base : nat) : Prop := {
  gp_base : (base < length ns)%nat;
  gp_usable : gn_d (gnode ns base) = 0
    /\ gn_l (gnode ns base) = usable_l (gbin i t) /\ gn_r (gnode ns base) = usable_r (gbin i t)
    /\ gn_b (gnode ns base) = usable_b (gbin i t) /\ gn_t (gnode ns base) = usable_t (gbin i t);
  gp_plate : gn_f (gnode ns 0) = None /\ gn_d (gnode ns 0) = 0
    /\ gn_l (gnode ns 0) = 0 /\ gn_r (gnode ns 0) = gb_w (gbin i t)
    /\ gn_b (gnode ns 0) = 0 /\ gn_t (gnode ns 0) = gb_h (gbin i t);
  gp_trimmed : base <> 0%nat -> gn_f (gnode ns base) = Some 0%nat;
  gp_trims : forall id, (0 < id < base)%nat ->
    gn_f (gnode ns id) = Some 0%nat /\ gn_d (gnode ns id) = -1 /\ gn_item (gnode ns id) = -1;
  gp_father : forall id, (base < id < length ns)%nat ->
    exists p, gn_f (gnode ns id) = Some p /\ (base <= p < id)%nat /\ cut_from o (gnode ns p) (gnode ns id);
  gp_brothers : forall j k, (base < j < length ns)%nat -> (base < k < length ns)%nat -> j <> k ->
    gn_f (gnode ns j) = gn_f (gnode ns k) ->
    after o (gp_ct (gin_params i)) (gnode ns j) (gnode ns k)
    \/ after o (gp_ct (gin_params i)) (gnode ns k) (gnode ns j);
  gp_items : forall id x, (id < length ns)%nat -> carries (gnode ns id) x ->
    (x < length (gin_items i))%nat
    /\ (base <= id)%nat
    /\ (forall k, (k < length ns)%nat -> gn_f (gnode ns k) <> Some id)
    /\ has_dimensions (gnode ns id) (gi_w (gitem i x)) (gi_h (gitem i x))
}.

(** Nothing is lost when a node is cut: the first part starts where the node
    starts, each other part starts one cut thickness after the end of a
    brother, and less than one cut thickness remains after the last part. *)
Definition starts (o : GOrient) (n : GNode) : Z := if vertical_at o (gn_d n) then gn_l n else gn_b n.
Definition ends (o : GOrient) (n : GNode) : Z := if vertical_at o (gn_d n) then gn_r n else gn_t n.
Definition father_start (o : GOrient) (p : GNode) : Z := if vertical_at o (gn_d p + 1) then gn_l p else gn_b p.
Definition father_end (o : GOrient) (p : GNode) : Z := if vertical_at o (gn_d p + 1) then gn_r p else gn_t p.

Record complete_plan (ct : Z) (o : GOrient) (ns : list GNode) (base : nat) : Prop := {
  cp_start : forall id p, (base < id < length ns)%nat -> gn_f (gnode ns id) = Some p ->
    starts o (gnode ns id) = father_start o (gnode ns p)
    \/ exists j, (base < j < length ns)%nat /\ gn_f (gnode ns j) = Some p
         /\ starts o (gnode ns id) = ends o (gnode ns j) + ct;
  cp_end : forall id p, (base < id < length ns)%nat -> gn_f (gnode ns id) = Some p ->
    exists j, (base < j < length ns)%nat /\ gn_f (gnode ns j) = Some p
      /\ ends o (gnode ns j) <= father_end o (gnode ns p) <= ends o (gnode ns j) + ct
}.

(** The parts of a node, and everything cut from them, follow it in the list: a
    node between a node and its father is not above the node. *)
Definition depth_first (ns : list GNode) (base : nat) : Prop :=
  forall id p k, (base < id < length ns)%nat -> gn_f (gnode ns id) = Some p -> (p < k < id)%nat ->
    gn_d (gnode ns id) <= gn_d (gnode ns k).

(** Two nodes are apart by at least [ct] along an axis. *)
Definition apart (ct : Z) (n m : GNode) : Prop :=
  gn_r n + ct <= gn_l m \/ gn_r m + ct <= gn_l n \/ gn_t n + ct <= gn_b m \/ gn_t m + ct <= gn_b n.

(** A set of rectangles can be produced from a region by edge-to-edge cuts,
    each destroying a strip of width [ct]: the region is thrown away, kept
    whole, or cut into two regions that are processed in turn.  When less than
    [ct] remains beyond a cut, the second region is empty and thrown away. *)
Record GRect : Type := mkGR { rl : Z; rr : Z; rb : Z; rt : Z }.

Inductive cuttable (ct : Z) : GRect -> list GRect -> Prop :=
| cut_waste : forall R, cuttable ct R []
| cut_keep : forall R, cuttable ct R [R]
| cut_vertical : forall l r b t x L1 L2, l <= x -> x <= r ->
    cuttable ct (mkGR l x b t) L1 -> cuttable ct (mkGR (x + ct) r b t) L2 ->
    cuttable ct (mkGR l r b t) (L1 ++ L2)
| cut_horizontal : forall l r b t y L1 L2, b <= y -> y <= t ->
    cuttable ct (mkGR l r b y) L1 -> cuttable ct (mkGR l r (y + ct) t) L2 ->
    cuttable ct (mkGR l r b t) (L1 ++ L2).

Definition grect (n : GNode) : GRect := mkGR (gn_l n) (gn_r n) (gn_b n) (gn_t n).

(** The rectangles of the items of a bin, in the order of its nodes. *)
Definition gis_item (n : GNode) : bool :=
  match gn_f n with None => false | Some _ => 0 <=? gn_item n end.
Definition item_nodes (ns : list GNode) : list GNode := filter gis_item ns.
