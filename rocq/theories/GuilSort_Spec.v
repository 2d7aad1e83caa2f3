(** * Specification of the sort of the subplates *)

From Coq Require Import List ZArith QArith Bool.
From Verif Require Import Util Guil_Model GuilSol_Model GuilBuild_Model GuilBuild_Proof GuilSort_Model.
Import ListNotations.
Open Scope Z_scope.

(** An item with its width and height. *)
Definition pl_size (p : Placement) : nat * Z * Z := (pl_item p, pl_r p - pl_l p, pl_t p - pl_b p).

(** The children of a node that are not waste: -1 is a waste, -3 the residual. *)
Definition content_kids (ns : list GNode) (id : nat) : list nat :=
  filter (fun k => negb (gn_item (gnode ns k) =? -1) && negb (gn_item (gnode ns k) =? -3)
                   && match gn_f (gnode ns k) with Some f => Nat.eqb f id | None => false end) (seq 0 (length ns)).

(** The items met when the cutting pattern is walked below a node, with their sizes. *)
Definition node_size (n : GNode) : list (nat * Z * Z) :=
  if 0 <=? gn_item n then [(Z.to_nat (gn_item n), gn_r n - gn_l n, gn_t n - gn_b n)] else [].
Fixpoint walk (ns : list GNode) (kids : nat -> list nat) (fuel : nat) (id : nat) : list (nat * Z * Z) :=
  match fuel with
  | O => []
  | S fuel => flat_map (fun k => node_size (gnode ns k) ++ walk ns kids fuel k) (kids id)
  end.

(** A cutting pattern from the node [root]: a child is one stage below its father,
    has its extent along the cut that makes it, and an item is not cut. *)
Definition Pattern (o : GOrient) (ns : list GNode) (root : nat) : Prop :=
  gn_d (gnode ns root) = 0 /\
  forall id kid, (root <= id)%nat -> In kid (content_kids ns id) ->
    (id < kid)%nat /\ gn_d (gnode ns kid) = gn_d (gnode ns id) + 1 /\ (root = id \/ gn_item (gnode ns id) < 0)
    /\ if gvertical o (gn_d (gnode ns kid))
       then gn_b (gnode ns kid) = gn_b (gnode ns id) /\ gn_t (gnode ns kid) = gn_t (gnode ns id)
       else gn_l (gnode ns kid) = gn_l (gnode ns id) /\ gn_r (gnode ns kid) = gn_r (gnode ns id).

(** The region of a plate inside its hard trims. *)
Definition Usable (bt : GBinType) (n : GNode) : Prop :=
  gn_l n = use_l bt /\ gn_r n = use_r bt /\ gn_b n = use_b bt /\ gn_t n = use_t bt.

(** The order of the documentation, on the content lengths, the waste and the area
    of two subplates. *)
Definition density (waste area : Z) : Q := inject_Z (area - waste) / inject_Z area.
Definition better (c : SortCriterion) (a b : Lengths) : Prop :=
  match c with
  | SLength1 => le_1 b < le_1 a
  | SLength2 => le_2 b < le_2 a
  | SWaste => le_waste a < le_waste b
  | SDensity => (density (le_waste b) (le_area b) < density (le_waste a) (le_area a))%Q
  end.
Definition tie (c : SortCriterion) (a b : Lengths) : Prop :=
  match c with
  | SLength1 => le_1 a = le_1 b
  | SLength2 => le_2 a = le_2 b
  | SWaste => le_waste a = le_waste b
  | SDensity => (density (le_waste a) (le_area a) == density (le_waste b) (le_area b))%Q
  end.
Fixpoint Comes_first (cs : list SortCriterion) (a b : Lengths) : Prop :=
  match cs with
  | [] => False
  | c :: cs => better c a b \/ tie c a b /\ Comes_first cs a b
  end.

(** The values the 64-bit products compare exactly. *)
Definition Fits64 (a : Lengths) : Prop := 0 <= le_waste a < 2 ^ 64 /\ 0 < le_area a < 2 ^ 64.

(** The measures of a node, from those of its children. *)
Definition zsum_by (f : nat -> Z) (l : list nat) : Z := fold_right (fun c s => f c + s) 0 l.
Definition zmax_by (f : nat -> Z) (l : list nat) : Z := fold_right (fun c s => Z.max (f c) s) 0 l.
Definition Measured (ns : list GNode) (m : nat -> Lengths) : Prop :=
  forall id, (id < length ns)%nat -> let n := gnode ns id in
    le_area (m id) = (gn_r n - gn_l n) * (gn_t n - gn_b n)
    /\ (0 <= gn_item n -> le_waste (m id) = 0
        /\ (le_1 (m id) = gn_r n - gn_l n /\ le_2 (m id) = gn_t n - gn_b n
            \/ le_1 (m id) = gn_t n - gn_b n /\ le_2 (m id) = gn_r n - gn_l n))
    /\ (gn_item n = -2 -> le_1 (m id) = zmax_by (fun c => le_2 (m c)) (gn_children n)
        /\ le_2 (m id) = zsum_by (fun c => le_1 (m c)) (gn_children n)
        /\ le_waste (m id) = zsum_by (fun c => le_waste (m c)) (gn_children n))
    /\ (gn_item n = -1 \/ gn_item n = -3 -> le_1 (m id) = 0 /\ le_2 (m id) = 0 /\ le_waste (m id) = le_area (m id)).

(** Every node that is not waste hangs below the node [root], which is no item. *)
Definition Content (ns : list GNode) (k : nat) : Prop := gn_item (gnode ns k) <> -1 /\ gn_item (gnode ns k) <> -3.
Definition Rooted (ns : list GNode) (root : nat) : Prop :=
  (gn_f (gnode ns root) = None \/ gn_item (gnode ns root) < 0)
  /\ forall k f, (k < length ns)%nat -> Content ns k -> gn_f (gnode ns k) = Some f -> k <> root ->
     (root <= f < length ns)%nat /\ (f = root \/ Content ns f /\ gn_f (gnode ns f) <> None).

(** The node of the usable region: the only one of depth 0 inside the plate, or
    else the plate, which is the first node. *)
Definition UsableRoot (ns : list GNode) (root : nat) : Prop :=
  (root < length ns)%nat /\ gn_d (gnode ns root) = 0 /\ (gn_f (gnode ns root) = None -> root = 0%nat)
  /\ forall k, (k < length ns)%nat -> gn_d (gnode ns k) = 0 -> gn_f (gnode ns k) <> None -> k = root.

(** A plate with a well-formed cutting pattern of its usable region. *)
Definition Sortable (i : GInstance) (b : GBin) : Prop :=
  gs_orient b <> GAny /\ TrimsNonneg (gbin i (gs_type b)) /\
  exists root, UsableRoot (gs_nodes b) root /\ Pattern (gs_orient b) (gs_nodes b) root /\ Rooted (gs_nodes b) root
    /\ Usable (gbin i (gs_type b)) (gnode (gs_nodes b) root).
