(** * Model of the box branching scheme

    [src/box/tree_search.hpp], [src/box/tree_search.cpp].

    The beam search itself ([treesearchsolver::iterative_beam_search_2], an external
    library) is not modelled: it only calls [root], [children], [leaf], [better],
    [bound], [dominates] and [to_solution], which are.  Left out: the guides and the
    attributes only they read ([guide_volume], [xs_max], [item_weight]), the ids of the
    nodes and the exports.  Weights, profits and consumptions are exact rationals. *)

From Coq Require Import List ZArith QArith Bool Arith.
From Verif Require Import Util Common_Model OneDim_Model Tree1D_Model Box_Model Box_Spec BoxSol_Model BoxBuilder_Model BoxFlip_Model.
Import ListNotations.
Open Scope Z_scope.

(** ** The scheme *)

(** BranchingScheme, tree_search.hpp:335-376: the instance with its computed
    attributes, the instances flipped along y and z with theirs, and the direction
    ([None]: any). *)
Record ZScheme : Type := mkZS {
  zs_i : BInstance;
  zs_d : BDerived;
  zs_jy : BInstance;
  zs_dy : BDerived;
  zs_jz : BInstance;
  zs_dz : BDerived;
  zs_direction : option Axis
}.

(** [instance(direction)], tree_search.hpp:384-400. *)
Definition zinst (s : ZScheme) (a : Axis) : BInstance := match a with AX => zs_i s | AY => zs_jy s | AZ => zs_jz s end.
Definition zder (s : ZScheme) (a : Axis) : BDerived := match a with AX => zs_d s | AY => zs_dy s | AZ => zs_dz s end.

(** One insertion of a stable sort by increasing volume. *)
Fixpoint zinsert_bin (i : BInstance) (t : nat) (l : list nat) : list nat :=
  match l with
  | [] => [t]
  | u :: r => if vol (bn_box (bxbin i t)) <? vol (bn_box (bxbin i u)) then t :: l else u :: zinsert_bin i t r
  end.

(** Bin types in the order they are tried, tree_search.cpp:47-58; [space()] is the
    volume (instance.hpp:240). *)
Definition zbin_order (i : BInstance) : list nat :=
  match bx_objective i with
  | OKnapsack => fold_left (fun acc t => zinsert_bin i t acc) (seq 0 (length (bx_bins i))) []
  | _ => seq 0 (length (bx_bins i))
  end.

(** [bin_type_ids_], tree_search.cpp:60-67. *)
Definition zts_bins (i : BInstance) : list nat :=
  flat_map (fun t => repeat t (Z.to_nat (bn_copies (bxbin i t)))) (zbin_order i).

(** [previous_bins_volume_] at position [k], tree_search.cpp:59-67. *)
Definition zts_previous (i : BInstance) (k : nat) : Z := zsum (fun t => vol (bn_box (bxbin i t))) (firstn k (zts_bins i)).

(** dominates on item types, tree_search.cpp:19-27. *)
Definition zitem_dominates (i : BInstance) (x y : nat) : bool :=
  Qle_bool (bi_profit (bxitem i y)) (bi_profit (bxitem i x)) && Qle_bool (bi_weight (bxitem i x)) (bi_weight (bxitem i y)).

(** Equality of the vectors of rotations, tree_search.cpp:93. *)
Fixpoint rots_eqb (l1 l2 : list Rotation) : bool :=
  match l1, l2 with
  | [], [] => true
  | r :: l1, s :: l2 => rot_eqb r s && rots_eqb l1 l2
  | _, _ => false
  end.

(** [predecessors_[x]], tree_search.cpp:72-98. *)
Definition zpredecessor (i : BInstance) (x y : nat) : bool :=
  negb (y =? x)%nat
  && zitem_dominates i y x
  && negb ((x <? y)%nat && zitem_dominates i x y)
  && veqb (bi_box (bxitem i x)) (bi_box (bxitem i y))
  && rots_eqb (bi_rotations (bxitem i x)) (bi_rotations (bxitem i y)).
Definition zpredecessors (i : BInstance) (x : nat) : list nat := filter (zpredecessor i x) (seq 0 (length (bx_items i))).

(** ** Nodes *)

(** UncoveredItem, tree_search.hpp:30-51. *)
Record ZPiece : Type := mkZP { zp_x : Z; zp_xd : Z; zp_ys : Z; zp_ye : Z; zp_zs : Z; zp_ze : Z }.
Definition dummy_zpiece : ZPiece := mkZP 0 0 0 0 0 0.

(** BranchingScheme::Node, tree_search.hpp:98-182.  The chain of parents is only read by
    [to_solution], which uses the number of bins, the direction and the placed item of
    each ancestor: [zn_path] lists them from the root to the node. *)
Record ZNode : Type := mkZN {
  zn_path : list (nat * Axis * BPlace);
  zn_dir : Axis;
  zn_pieces : list ZPiece;
  zn_weight : Q;
  zn_copies : list Z;
  zn_bins : nat;
  zn_items : Z;
  zn_volume : Z;
  zn_current : Z;
  zn_waste : Z;
  zn_xe_max : Z;
  zn_profit : Q;
  zn_last_copies : list nat;
  zn_resources : list Q
}.

(** root, tree_search.cpp:683-689. *)
Definition zroot (s : ZScheme) : ZNode :=
  mkZN [] AX [] 0%Q (repeat 0 (length (bx_items (zs_i s)))) 0 0 0 0 0 0 0%Q [] [].

(** Insertion, tree_search.hpp:53-93: item type, rotation, position, and for a new bin
    its position and direction. *)
Record ZInsertion : Type := mkZI { zi_type : nat; zi_rot : Rotation; zi_pos : Vec; zi_new : option (nat * Axis) }.

(** ** Children *)

Definition zset_y (a b : Z) (u : ZPiece) : ZPiece := mkZP (zp_x u) (zp_xd u) a b (zp_zs u) (zp_ze u).
Definition zset_z (a b : Z) (u : ZPiece) : ZPiece := mkZP (zp_x u) (zp_xd u) (zp_ys u) (zp_ye u) a b.

(** update_uncovered_item, tree_search.cpp:105-202: what is appended to the list.  The
    four cases :140-196 only differ in the ends [y1], [y2] of the middle band. *)
Definition zclip (ys ye zs ze : Z) (u : ZPiece) : list ZPiece :=
  if (zp_ye u <=? ys) || (ye <=? zp_ys u) || (zp_ze u <=? zs) || (ze <=? zp_zs u) then [u]
  else
    let y_low := zp_ys u <? ys in
    let y_high := ye <? zp_ye u in
    let y1 := if y_low then ys else zp_ys u in
    let y2 := if y_high then ye else zp_ye u in
    (if y_low then [zset_y (zp_ys u) ys u] else [])
    ++ (if zp_zs u <? zs then [zset_z (zp_zs u) zs (zset_y y1 y2 u)] else [])
    ++ (if ze <? zp_ze u then [zset_z ze (zp_ze u) (zset_y y1 y2 u)] else [])
    ++ (if y_high then [zset_y ye (zp_ye u) u] else []).

(** [x_dominance = max(x_dominance, v)] for the pieces chosen by [f],
    tree_search.cpp:293-317. *)
Definition zraise (v : Z) (f : ZPiece -> bool) (l : list ZPiece) : list ZPiece :=
  map (fun u => if f u then mkZP (zp_x u) (Z.max (zp_xd u) v) (zp_ys u) (zp_ye u) (zp_zs u) (zp_ze u) else u) l.
Definition zraise_all (d : BDerived) (yi zi : Z) (p : ZPiece) (l : list ZPiece) : list ZPiece :=
  let l := if yi - zp_ye p <? db_smallest_y d then zraise (zp_xd p) (fun u => zp_ye p <=? zp_ys u) l else l in
  let l := if zp_ys p <? db_smallest_y d then zraise (zp_xd p) (fun u => zp_ye u <=? zp_ys p) l else l in
  let l := if zi - zp_ze p <? db_smallest_z d then zraise (zp_xd p) (fun u => zp_ze p <=? zp_zs u) l else l in
  if zp_zs p <? db_smallest_z d then zraise (zp_xd p) (fun u => zp_ze u <=? zp_zs p) l else l.

(** The bin after the insertions, and what it holds before: for a new bin a single
    piece, tree_search.cpp:270-280. *)
Definition zfree (bt : BBin) : ZPiece := mkZP 0 0 0 (v_y (bn_box bt)) 0 (v_z (bn_box bt)).

(** Loops on the resources, tree_search.cpp:345-353 and :359-369. *)
Definition znew_resource_step (bt : BBin) (x : nat) (st : list Q * Q) (r : nat) : list Q * Q :=
  let resource := nth r (bn_resources bt) dummy_resource in
  let consumption := item_consumption resource x 0 in
  (upd r (fun _ => consumption) (fst st),
   if res_penalize resource && Qltb (res_capacity resource) consumption then (snd st - res_penalty resource)%Q else snd st).
Definition zsame_resource_step (bt : BBin) (x copy : nat) (st : list Q * Q) (r : nat) : list Q * Q :=
  let resource := nth r (bn_resources bt) dummy_resource in
  let previous := nth r (fst st) 0%Q in
  let current := (previous + item_consumption resource x copy)%Q in
  (upd r (fun _ => current) (fst st),
   if res_penalize resource && Qltb (res_capacity resource) current && Qle_bool previous (res_capacity resource)
   then (snd st - res_penalty resource)%Q else snd st).

(** [last_bin_resource_consumption], [last_bin_item_number_of_copies] and [profit],
    tree_search.cpp:330-372. *)
Definition zchild_resources (n : ZNode) (new : option (nat * Axis)) (inst : BInstance) (t x : nat) (profit : Q) : list Q * list nat * Q :=
  let bt := bxbin inst t in
  if (length (bn_resources bt) =? 0)%nat then ([], [], profit)
  else match new with
       | Some _ =>
           let st := fold_left (znew_resource_step bt x) (nth t (bi_resource_ids (bxitem inst x)) [])
                       (repeat 0%Q (length (bn_resources bt)), profit) in
           (fst st, upd x (fun _ => 1%nat) (repeat 0%nat (length (bx_items inst))), snd st)
       | None =>
           let st := fold_left (zsame_resource_step bt x (nth x (zn_last_copies n) 0%nat)) (nth t (bi_resource_ids (bxitem inst x)) [])
                       (zn_resources n, profit) in
           (fst st, upd x S (zn_last_copies n), snd st)
       end.

(** Volume below the skyline and its highest point, tree_search.cpp:380-391. *)
Definition zpiece_area (u : ZPiece) : Z := (zp_ye u - zp_ys u) * (zp_ze u - zp_zs u).
Definition zpieces_volume (l : list ZPiece) : Z := zsum (fun u => zp_xd u * (zp_ye u - zp_ys u) * (zp_ze u - zp_zs u)) l.
Definition zpieces_xe_max (l : list ZPiece) : Z := fold_left (fun m u => if m <? zp_x u then zp_x u else m) l 0.

(** Position and direction of the bin of an insertion, tree_search.cpp:220-234. *)
Definition zins_pos (n : ZNode) (new : option (nat * Axis)) : nat := match new with Some (p, _) => p | None => zn_bins n - 1 end.
Definition zins_dir (n : ZNode) (new : option (nat * Axis)) : Axis := match new with Some (_, d) => d | None => zn_dir n end.

(** child_tmp, tree_search.cpp:204-403.  [None]: the [runtime_error] of an item that is
    too high. *)
Definition zchild (s : ZScheme) (n : ZNode) (ins : ZInsertion) : option ZNode :=
  let x := zi_type ins in
  let new := zi_new ins in
  let nb := match new with Some (p, _) => S p | None => zn_bins n end in
  let dir := zins_dir n new in
  let inst := zinst s dir in
  let t := nth (nb - 1) (zts_bins (zs_i s)) 0%nat in
  let bt := bxbin inst t in
  let it := bxitem inst x in
  let box := rotate (bi_box it) (zi_rot ins) in
  let xs := v_x (zi_pos ins) in
  let ys := v_y (zi_pos ins) in
  let zs := v_z (zi_pos ins) in
  let xe := xs + v_x box in
  let ye := ys + v_y box in
  let ze := zs + v_z box in
  let yi := v_y (bn_box bt) in
  let zi := v_z (bn_box bt) in
  if zi <? zs + v_z box then None
  else
    let piece := mkZP xe xe ys ye zs ze in
    let l := flat_map (zclip ys ye zs ze) (match new with Some _ => [zfree bt] | None => zn_pieces n end) ++ [piece] in
    let l := zraise_all (zder s dir) yi zi piece l in
    let weight := match new with Some _ => bi_weight it | None => (zn_weight n + bi_weight it)%Q end in
    let volume := zn_volume n + vol box in
    let '(resources, last_copies, profit) := zchild_resources n new inst t x (zn_profit n + bi_profit it)%Q in
    let current := zts_previous (zs_i s) (nb - 1) + zpieces_volume l in
    Some (mkZN (zn_path n ++ [(nb, dir, mkBP x (zi_pos ins) (zi_rot ins))]) dir l weight
            (upd x (fun c => c + 1) (zn_copies n)) nb (zn_items n + 1) volume current (current - volume)
            (zpieces_xe_max l) profit last_copies resources).

(** ** Insertions *)

(** The piece meets the rectangle in the plane y-z, tree_search.cpp:638-641. *)
Definition zmeets (ys ye zs ze : Z) (u : ZPiece) : bool :=
  negb ((zp_ye u <=? ys) || (ye <=? zp_ys u)) && negb ((zp_ze u <=? zs) || (ze <=? zp_zs u)).

(** [xs], tree_search.cpp:635-645. *)
Definition zleft (n : ZNode) (new : option (nat * Axis)) (ys ye zs ze : Z) : Z :=
  match new with
  | Some _ => 0
  | None => fold_left (fun xs u => if zmeets ys ye zs ze u then (if xs <? zp_x u then zp_x u else xs) else xs) (zn_pieces n) 0
  end.

(** insertion_item, tree_search.cpp:532-677; [py] and [pz] are the two uncovered items,
    [None] for -1. *)
Definition zinsertion_item (s : ZScheme) (n : ZNode) (x : nat) (rot : Rotation) (new : option (nat * Axis)) (py pz : option nat)
    : list ZInsertion :=
  let inst := zinst s (zins_dir n new) in
  let it := bxitem inst x in
  let t := nth (zins_pos n new) (zts_bins (zs_i s)) 0%nat in
  let bt := bxbin inst t in
  let box := rotate (bi_box it) rot in
  let uy := option_map (fun k => nth k (zn_pieces n) dummy_zpiece) py in
  let uz := option_map (fun k => nth k (zn_pieces n) dummy_zpiece) pz in
  let ys := match uy with Some u => zp_ye u | None => 0 end in
  let zs := match uz with Some u => zp_ze u | None => 0 end in
  let ye := ys + v_y box in
  let ze := zs + v_z box in
  if v_y (bn_box bt) <? ye then []
  else if v_z (bn_box bt) <? ze then []
  else if exceeds (match new with Some _ => bi_weight it | None => zn_weight n + bi_weight it end)%Q (times_tol (bn_max_weight bt)) then []
  else if (0 <? length (bn_resources bt))%nat
          && negb (forallb (fun r =>
             let resource := nth r (bn_resources bt) dummy_resource in
             let consumption := match new with
               | Some _ => item_consumption resource x 0
               | None => (nth r (zn_resources n) 0 + item_consumption resource x (nth x (zn_last_copies n) 0%nat))%Q
               end in
             res_penalize resource || negb (Qltb (res_capacity resource * PSTOL) consumption))
           (nth t (bi_resource_ids it) [])) then []
  else if match uz with Some u => (ye <=? zp_ys u) || (zp_ye u <=? ys) | None => false end then []
  else if match uy with Some u => (ze <=? zp_zs u) || (zp_ze u <=? zs) | None => false end then []
  else
    let xs := zleft n new ys ye zs ze in
    if v_x (bn_box bt) <? xs + v_x box then []
    else if match uy with Some u => zp_x u <=? xs | None => false end then []
    else if match uz with Some u => zp_x u <=? xs | None => false end then []
    else [mkZI x rot (mkV xs ys zs) new].

(** [ok], tree_search.cpp:422-430. *)
Definition zitem_ok (s : ZScheme) (n : ZNode) (x : nat) : bool :=
  forallb (fun y => nth y (zn_copies n) 0 =? bi_copies (bxitem (zs_i s) y)) (zpredecessors (zs_i s) x).

(** All the rotations of all the item types, tree_search.cpp:447-466 and :502-523. *)
Definition zitems_insertions (s : ZScheme) (n : ZNode) (new : option (nat * Axis)) (py pz : option nat) : list ZInsertion :=
  let inst := zinst s (zins_dir n new) in
  flat_map (fun x =>
      if zitem_ok s n x && negb (nth x (zn_copies n) 0 =? bi_copies (bxitem inst x))
      then flat_map (fun rot => zinsertion_item s n x rot new py pz) (bi_rotations (bxitem inst x))
      else []) (seq 0 (length (bx_items inst))).

(** Insertions in the current bin, tree_search.cpp:433-469. *)
Definition zpositions (n : ZNode) : list (option nat) := None :: map Some (seq 0 (length (zn_pieces n))).
Definition zsame_bin_insertions (s : ZScheme) (n : ZNode) : list ZInsertion :=
  if (zn_bins n =? 0)%nat then []
  else flat_map (fun py => flat_map (fun pz => zitems_insertions s n None py pz) (zpositions n)) (zpositions n).

(** Direction of a new bin, tree_search.cpp:477-494. *)
Definition znew_direction (s : ZScheme) (p : nat) : Axis :=
  match zs_direction s with
  | Some a => a
  | None =>
      let b := bn_box (bxbin (zs_i s) (nth p (zts_bins (zs_i s)) 0%nat)) in
      if Z.max (v_y b) (v_z b) <=? v_x b then AX else if v_z b <=? v_y b then AY else AZ
  end.
Definition znew_bin_insertions (s : ZScheme) (n : ZNode) (p : nat) : list ZInsertion :=
  zitems_insertions s n (Some (p, znew_direction s p)) None None.

(** The first of the positions with an insertion, tree_search.cpp:474-476. *)
Fixpoint zfirst_insertions (s : ZScheme) (n : ZNode) (positions : list nat) : list ZInsertion :=
  match positions with
  | [] => []
  | p :: rest => match znew_bin_insertions s n p with [] => zfirst_insertions s n rest | l => l end
  end.

(** insertions, tree_search.cpp:415-530. *)
Definition zinsertions (s : ZScheme) (n : ZNode) : list ZInsertion :=
  match zsame_bin_insertions s n with
  | [] => zfirst_insertions s n (seq (zn_bins n) (length (db_bin_type_ids (zs_d s)) - zn_bins n))
  | l => l
  end.

(** leaf, tree_search.hpp:231-235. *)
Definition zleaf (s : ZScheme) (n : ZNode) : bool := zn_items n =? db_number_of_items (zs_d s).

(** ** Solutions *)

(** The item in the axes of the instance, tree_search.cpp:829-834. *)
Definition zplace_of (dir : Axis) (p : BPlace) : BPlace :=
  mkBP (bp_type p) (convert_point_back (bp_pos p) dir) (get_flipped_rotation (bp_rot p) dir).

(** Calls to the solution builder, tree_search.cpp:816-850; [k] is the number of bins
    added before. *)
Fixpoint zpath_calls (s : ZScheme) (k : nat) (path : list (nat * Axis * BPlace)) : list XBuilderCall :=
  match path with
  | [] => []
  | (nb, dir, p) :: rest =>
      map (fun k => XAddBin (nth k (zts_bins (zs_i s)) 0%nat) 1) (seq k (nb - k))
      ++ XAddItem (Nat.max k nb - 1) (zplace_of dir p) :: zpath_calls s (Nat.max k nb) rest
  end.

(** to_solution, tree_search.cpp:804-852.  [None]: the builder throws. *)
Definition zto_solution (s : ZScheme) (cb : XCallback) (n : ZNode) : option XSolution :=
  xhistory (zs_i s) cb (zpath_calls s 0 (zn_path n)) [].

(** ** Comparisons *)

(** better, tree_search.cpp:691-739.  [None]: exception. *)
Definition zbetter (s : ZScheme) (n1 n2 : ZNode) : option bool :=
  match bx_objective (zs_i s) with
  | ODefault =>
      if Qltb (zn_profit n1) (zn_profit n2) then Some false
      else if Qltb (zn_profit n2) (zn_profit n1) then Some true
      else Some (zn_waste n1 <? zn_waste n2)
  | OBinPacking | OVariableSizedBinPacking =>
      if negb (zleaf s n1) then Some false
      else if negb (zleaf s n2) then Some true
      else Some (zn_bins n1 <? zn_bins n2)%nat
  | OBinPackingWithLeftovers =>
      if negb (zleaf s n1) then Some false
      else if negb (zleaf s n2) then Some true
      else Some (zn_waste n1 <? zn_waste n2)
  | OOpenDimensionX | OOpenDimensionY =>
      if negb (zleaf s n1) then Some false
      else if negb (zleaf s n2) then Some true
      else Some (zn_xe_max n1 <? zn_xe_max n2)
  | OKnapsack | OFeasibility => Some (Qltb (zn_profit n2) (zn_profit n1))
  | _ => None
  end.

(** ubkp, tree_search.hpp:508-520; without item types, a node without items has the
    volume of its items.  The division is exact. *)
Definition zubkp (s : ZScheme) (n : ZNode) : Q :=
  let remaining := db_item_volume (zs_d s) - zn_volume n in
  let packable := db_bin_volume (zs_d s) - zn_current n in
  if remaining <=? packable then db_item_profit (zs_d s)
  else match db_largest_efficiency (zs_d s) with
       | None => 0%Q
       | Some x => (zn_profit n + inject_Z packable * bi_profit (bxitem (zs_i s) x) / inject_Z (vol (bi_box (bxitem (zs_i s) x))))%Q
       end.

(** The loop of [bound] for bin packing, tree_search.cpp:757-766: [None] if the bins are
    not large enough ([return true]), otherwise the number of bins. *)
Fixpoint zbins_needed (i : BInstance) (bins : list nat) (k : nat) (a : Z) : option nat :=
  if a <=? 0 then Some k
  else match bins with
       | [] => None
       | t :: rest => zbins_needed i rest (S k) (a - vol (bn_box (bxbin i t)))
       end.

(** bound, tree_search.cpp:741-798: [Some true] cuts [n1] given the solution [n2].
    [None]: exception. *)
Definition zbound (s : ZScheme) (n1 n2 : ZNode) : option bool :=
  match bx_objective (zs_i s) with
  | ODefault =>
      if negb (zleaf s n2) then Some (Qle_bool (zubkp s n1) (zn_profit n2))
      else if negb (Qeq_bool (zubkp s n1) (zn_profit n2)) then Some (Qle_bool (zubkp s n1) (zn_profit n2))
      else Some (zn_waste n2 <=? zn_waste n1)
  | OBinPacking | OVariableSizedBinPacking =>
      if negb (zleaf s n2) then Some false
      else match zbins_needed (zs_i s) (zts_bins (zs_i s)) 0 (db_item_volume (zs_d s) + zn_waste n1) with
           | None => Some true
           | Some k => Some (zn_bins n2 <=? k)%nat
           end
  | OBinPackingWithLeftovers =>
      if negb (zleaf s n2) then Some false else Some (zn_waste n2 <=? zn_waste n1)
  | OKnapsack | OFeasibility => Some (zleaf s n2)
  | OOpenDimensionX | OOpenDimensionY | OOpenDimensionZ =>
      if negb (zleaf s n2) then Some false
      else
        let b := bn_box (bxbin (zs_i s) 0) in
        Some (zn_xe_max n2 <=? Z.max (zn_xe_max n1) (Z.quot (zn_waste n1 + db_item_volume (zs_d s) - 1) (v_y b * v_z b + 1)))
  | _ => None
  end.

(** dominates on nodes, tree_search.hpp:288-312, called for nodes with the same
    copies. *)
Definition zdominates (n1 n2 : ZNode) : bool :=
  if (zn_bins n1 <? zn_bins n2)%nat then true
  else if (zn_bins n2 <? zn_bins n1)%nat then false
  else forallb (fun u1 => forallb (fun u2 =>
         (zp_ye u2 <=? zp_ys u1) || (zp_ye u1 <=? zp_ys u2) || (zp_ze u2 <=? zp_zs u1) || (zp_ze u1 <=? zp_zs u2)
         || negb (zp_xd u2 <? zp_xd u1)) (zn_pieces n2)) (zn_pieces n1).

(** ** The tree *)

(** Nodes below [n]. *)
Inductive zbelow (s : ZScheme) (n : ZNode) : ZNode -> Prop :=
| zbelow_refl : zbelow s n n
| zbelow_child m ins m' : zbelow s n m -> In ins (zinsertions s m) -> zchild s m ins = Some m' -> zbelow s n m'.

(** Nodes of the tree. *)
Definition zreachable (s : ZScheme) (n : ZNode) : Prop := zbelow s (zroot s) n.

(** ** Claims *)

(** The bounds set when the search says that it explored everything,
    tree_search.cpp:1138-1158, for the solution of its best node. *)
Record ZClaims : Type := mkZC { zc_infeasible : bool; zc_bins : option Z; zc_profit : option Q }.
Definition zclaims (s : ZScheme) (sol : XSolution) : ZClaims :=
  if negb (xsol_feasible sol) then mkZC true None None
  else match bx_objective (zs_i s) with
       | OBinPacking => mkZC false (Some (xc_number_of_bins (xsol_core sol))) None
       | OKnapsack => mkZC false None (Some (xc_item_profit (xsol_core sol)))
       | _ => mkZC false None None
       end.

(** The directions of the schemes of [tree_search], tree_search.cpp:1065-1076. *)
Definition zdirections (i : BInstance) : list (option Axis) :=
  match bx_objective i with
  | OOpenDimensionX => [Some AX]
  | OOpenDimensionY => [Some AY]
  | OOpenDimensionZ => [Some AZ]
  | _ => if (length (bx_bins i) =? 1)%nat then [Some AX; Some AY; Some AZ] else [None]
  end.
