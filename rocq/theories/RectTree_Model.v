(** * Model of the rectangle branching scheme

    [src/rectangle/tree_search.hpp], [src/rectangle/tree_search.cpp].

    The beam search itself ([treesearchsolver::iterative_beam_search_2], an external
    library) is not modelled: it only calls [root], [children], [leaf], [better],
    [bound], [dominates] and [to_solution], which are.  Left out: the guides and the
    attributes only they read (guide areas, [xs_max], [weight_profit], [group_score]),
    the axle weights of the nodes (only read for the subproblem objective), the ids of
    the nodes, the parameter [fixed_items] and the parameter [staircase], which
    [tree_search()] never sets.  Weights, profits and consumptions are exact
    rationals. *)

From Coq Require Import List ZArith QArith Bool Arith.
From Verif Require Import Util Common_Model OneDim_Model Tree1D_Model Rect_Model Rect_Spec RectSol_Model RectBuilder_Model.
Import ListNotations.
Open Scope Z_scope.

(** ** The scheme *)

(** BranchingScheme, tree_search.hpp:497-520: the instance [sc_i] with its
    computed attributes, the flipped instance [sc_j] with its own, the direction
    ([Some false]: X, [Some true]: Y, [None]: any) and the predecessor strategy. *)
Record Scheme : Type := mkScheme {
  sc_i : RInstance;
  sc_d : RDerived;
  sc_j : RInstance;
  sc_dj : RDerived;
  sc_direction : option bool;
  sc_strategy : nat
}.

(** [instance(direction)], tree_search.hpp:548; [true] is the direction Y. *)
Definition sinst (s : Scheme) (dir : bool) : RInstance := if dir then sc_j s else sc_i s.
Definition sder (s : Scheme) (dir : bool) : RDerived := if dir then sc_dj s else sc_d s.

(** One insertion of a stable sort by increasing area. *)
Fixpoint rinsert_bin (i : RInstance) (t : nat) (l : list nat) : list nat :=
  match l with
  | [] => [t]
  | u :: r => if rb_area (rbin i t) <? rb_area (rbin i u) then t :: l else u :: rinsert_bin i t r
  end.

(** Bin types in the order they are tried, tree_search.cpp:51-69; [space()] is the
    area (instance.hpp:287). *)
Definition rbin_order (i : RInstance) : list nat :=
  match rin_objective i with
  | OKnapsack => fold_left (fun acc t => rinsert_bin i t acc) (seq 0 (length (rin_bins i))) []
  | _ => seq 0 (length (rin_bins i))
  end.

(** [bin_type_ids_], tree_search.cpp:70-79. *)
Definition rts_bins (i : RInstance) : list nat :=
  flat_map (fun t => repeat t (Z.to_nat (rb_copies (rbin i t)))) (rbin_order i).

(** [previous_bins_area_] at position [k], tree_search.cpp:70-79. *)
Definition rts_previous (i : RInstance) (k : nat) : Z := zsum (fun t => rb_area (rbin i t)) (firstn k (rts_bins i)).

(** dominates on item types, tree_search.cpp:22-39. *)
Definition item_dominates (s : Scheme) (x y : nat) : bool :=
  let a := ritem (sc_i s) x in
  let b := ritem (sc_i s) y in
  match sc_strategy s with
  | O => Qle_bool (ri_profit b) (ri_profit a)
  | S O => Qle_bool (ri_weight a) (ri_weight b)
  | _ => Qle_bool (ri_weight b) (ri_weight a)
  end.

(** [y] comes before [x] if the sizes agree, tree_search.cpp:83-103. *)
Definition before_item (s : Scheme) (x y : nat) : bool :=
  negb (x =? y)%nat
  && (ri_group (ritem (sc_i s) x) =? ri_group (ritem (sc_i s) y))%nat
  && item_dominates s y x
  && negb ((x <? y)%nat && item_dominates s x y).

(** The conditions on the sizes for [predecessors_], [predecessors_1_] and
    [predecessors_2_], tree_search.cpp:105-129. *)
Definition same_sizes (a b : RItem) : bool := (ri_x a =? ri_x b) && (ri_y a =? ri_y b).
Definition swapped_sizes (a b : RItem) : bool := (ri_x a =? ri_y b) && (ri_y a =? ri_x b).
Definition pred_0 (a b : RItem) : bool :=
  same_sizes a b && Bool.eqb (ri_oriented a) (ri_oriented b)
  || swapped_sizes a b && negb (ri_oriented a) && negb (ri_oriented b).
Definition pred_1 (a b : RItem) : bool := same_sizes a b && negb (ri_oriented a) && ri_oriented b.
Definition pred_2 (a b : RItem) : bool := swapped_sizes a b && negb (ri_oriented a) && ri_oriented b.

(** [predecessors_[x]] and the two others, tree_search.cpp:81-131. *)
Definition predecessors (s : Scheme) (pred : RItem -> RItem -> bool) (x : nat) : list nat :=
  filter (fun y => before_item s x y && pred (ritem (sc_i s) x) (ritem (sc_i s) y)) (seq 0 (length (rin_items (sc_i s)))).

(** ** Nodes *)

(** UncoveredItem, tree_search.hpp:30-51. *)
Record Piece : Type := mkPc {
  pc_type : option nat;
  pc_xs : Z;
  pc_xe : Z;
  pc_xd : Z;
  pc_ys : Z;
  pc_ye : Z
}.
Definition dummy_piece : Piece := mkPc None 0 0 0 0 0.

(** BranchingScheme::Node, tree_search.hpp:137-260.  The chain of parents is only read
    by [to_solution], which uses the number of bins, the direction and the placed item
    of each ancestor: [rn_path] lists them from the root to the node.  [rn_weight] is
    [groups.front().last_bin_weight]: it counts every item, groups being numbered from
    0.  [rn_xmin] and [rn_xmax] are the [x_min] and [x_max] of the groups; [None] is the
    largest length. *)
Record RNode : Type := mkRN {
  rn_path : list (nat * bool * Place);
  rn_dir : bool;
  rn_pieces : list Piece;
  rn_copies : list Z;
  rn_bins : nat;
  rn_items : Z;
  rn_area : Z;
  rn_current : Z;
  rn_waste : Z;
  rn_leftover : Z;
  rn_xe_max : Z;
  rn_ye_max : Z;
  rn_profit : Q;
  rn_weight : Q;
  rn_xmin : list (option Z);
  rn_xmax : list Z;
  rn_resources : list Q;
  rn_last_copies : list nat
}.

(** root, tree_search.cpp:1113-1126. *)
Definition rroot (s : Scheme) : RNode :=
  let groups := length (dv_groups (sc_d s)) in
  mkRN [] false [] (repeat 0 (length (rin_items (sc_i s)))) 0 0 0 0 0 0 0 0 0%Q 0%Q
    (repeat None groups) (repeat 0 groups) [] [].

(** Insertion, tree_search.hpp:53-95: item type, rotation, position, and for a new bin
    its position and direction. *)
Record RInsertion : Type := mkRIn {
  in_type : nat;
  in_rotate : bool;
  in_x : Z;
  in_y : Z;
  in_new : option (nat * bool)
}.

(** ** Children *)

Definition set_ye (u : Piece) (y : Z) : Piece := mkPc (pc_type u) (pc_xs u) (pc_xe u) (pc_xd u) (pc_ys u) y.
Definition set_ys (u : Piece) (y : Z) : Piece := mkPc (pc_type u) (pc_xs u) (pc_xe u) (pc_xd u) y (pc_ye u).
Definition free_piece (ys ye : Z) : Piece := mkPc None 0 0 0 ys ye.

(** The uncovered items of a new bin and the position of the new one,
    tree_search.cpp:230-261. *)
Definition new_pieces (p : Piece) (yi : Z) : list Piece * option nat :=
  let start := if 0 <? pc_ys p then [free_piece 0 (pc_ys p)] else [] in
  (start ++ [p] ++ (if pc_ye p <? yi then [free_piece (pc_ye p) yi] else []), Some (length start)).

(** Body of the loop on the uncovered items of the parent, tree_search.cpp:262-300. *)
Definition cover_step (p : Piece) (st : list Piece * option nat) (u : Piece) : list Piece * option nat :=
  let (out, pos) := st in
  if pc_ye u <=? pc_ys p then (out ++ [u], pos)
  else if pc_ys u <=? pc_ys p then
    let out1 := out ++ (if pc_ys u <? pc_ys p then [set_ye u (pc_ys p)] else []) in
    (out1 ++ [p] ++ (if pc_ye p <? pc_ye u then [set_ys u (pc_ye p)] else []), Some (length out1))
  else if pc_ye p <=? pc_ys u then (out ++ [u], pos)
  else (out ++ (if pc_ye p <? pc_ye u then [set_ys u (pc_ye p)] else []), pos).

(** [xe_dominance = max(xe_dominance, v)], tree_search.cpp:302-324. *)
Definition raise (v : Z) (u : Piece) : Piece :=
  mkPc (pc_type u) (pc_xs u) (pc_xe u) (Z.max (pc_xd u) v) (pc_ys u) (pc_ye u).
Definition raise_after (pos : nat) (v : Z) (l : list Piece) : list Piece := firstn (S pos) l ++ map (raise v) (skipn (S pos) l).
Definition raise_before (pos : nat) (v : Z) (l : list Piece) : list Piece := map (raise v) (firstn pos l) ++ skipn pos l.

(** [v < smallest_item_height()]; [None] is the largest length. *)
Definition below_smallest (v : Z) (smallest : option Z) : bool := match smallest with None => true | Some h => v <? h end.

(** Loops on the resources, tree_search.cpp:348-360 and :361-377. *)
Definition rnew_resource_step (bt : RBin) (x : nat) (st : list Q * Q) (r : nat) : list Q * Q :=
  let resource := nth r (rb_resources bt) dummy_resource in
  let consumption := item_consumption resource x 0 in
  (upd r (fun _ => consumption) (fst st),
   if res_penalize resource && Qltb (res_capacity resource) consumption then (snd st - res_penalty resource)%Q else snd st).
Definition rsame_resource_step (bt : RBin) (x copy : nat) (st : list Q * Q) (r : nat) : list Q * Q :=
  let resource := nth r (rb_resources bt) dummy_resource in
  let previous := nth r (fst st) 0%Q in
  let current := (previous + item_consumption resource x copy)%Q in
  (upd r (fun _ => current) (fst st),
   if res_penalize resource && Qltb (res_capacity resource) current && Qle_bool previous (res_capacity resource)
   then (snd st - res_penalty resource)%Q else snd st).

(** Loop on the uncovered items, tree_search.cpp:426-446: area to the left of the
    skyline, largest [xe], largest [ye]. *)
Definition pieces_area (l : list Piece) : Z := zsum (fun u => pc_xe u * (pc_ye u - pc_ys u)) l.
Definition pieces_xe_max (l : list Piece) : Z := fold_left (fun m u => if m <? pc_xe u then pc_xe u else m) (rev l) 0.
Definition pieces_ye_max (m0 : Z) (l : list Piece) : Z :=
  fold_left (fun m u => if 0 <? pc_xe u then (if m <? pc_ye u then pc_ye u else m) else m) (rev l) m0.

(** Whether the tests of tree_search.cpp:470-489 find room for item type [it];
    [yj] is the height of the item just inserted. *)
Definition least_side (it : RItem) : Z := if ri_oriented it then ri_x it else Z.min (ri_x it) (ri_y it).
Definition room_left (bt : RBin) (yj : Z) (it : RItem) (l : list Piece) : bool :=
  let xj := least_side it in
  existsb (fun u => (pc_ys u + yj <=? rb_y bt) && (pc_xe u + xj <=? rb_x bt)
                    || negb (ri_oriented it) && (pc_ys u + xj <=? rb_y bt) && (pc_xe u + yj <=? rb_x bt)) l.

(** The loop on the item types, tree_search.cpp:460-500: waste if an extra bin is
    needed for some item type. *)
Definition extra_waste (s : Scheme) (inst : RInstance) (dv : RDerived) (bt : RBin) (nb : nat) (yj : Z)
    (copies : list Z) (l : list Piece) : option Z :=
  match find (fun x => negb (nth x copies 0 =? ri_copies (ritem inst x)) && negb (room_left bt yj (ritem inst x) l))
          (seq 0 (length (rin_items inst))) with
  | None => None
  | Some x =>
      let it := ritem inst x in
      let xj := if negb (ri_oriented it) && (yj <? least_side it) then yj else least_side it in
      Some (rts_previous (sc_i s) nb + xj * rb_y bt - dv_item_area dv)
  end.

(** [x_min], [x_max] of the group of the item, tree_search.cpp:548-553. *)
Definition min_x (x : Z) (m : option Z) : option Z := match m with None => Some x | Some v => if x <? v then Some x else Some v end.
Definition max_x (x v : Z) : Z := if v <? x then x else v.

(** child_tmp, tree_search.cpp:182-558.  [None]: the item is above the last bin (the
    position of the new uncovered item stays -1 and is used as an index), or the
    [runtime_error] of a negative waste. *)
Definition rchild (s : Scheme) (n : RNode) (ins : RInsertion) : option RNode :=
  let x := in_type ins in
  let nb := match in_new ins with Some (p, _) => S p | None => rn_bins n end in
  let dir := match in_new ins with Some (_, d) => d | None => rn_dir n end in
  let inst := sinst s dir in
  let dv := sder s dir in
  let t := nth (nb - 1) (rts_bins (sc_i s)) 0%nat in
  let bt := rbin inst t in
  let it := ritem inst x in
  let xj := ri_width it (in_rotate ins) in
  let yj := ri_height it (in_rotate ins) in
  let xs := in_x ins in
  let xe := xs + xj in
  let ys := in_y ins in
  let ye := ys + yj in
  let yi := rb_y bt in
  let piece := mkPc (Some x) xs xe xe ys ye in
  let '(l, found) := match in_new ins with
    | Some _ => new_pieces piece yi
    | None => fold_left (cover_step piece) (rn_pieces n) ([], None)
    end in
  match found with
  | None => None
  | Some k =>
      let l := if below_smallest (yi - ye) (dv_smallest_height dv) then raise_after k xe l else l in
      let l := if below_smallest ys (dv_smallest_height dv) then raise_before k xe l else l in
      let copies := upd x (fun c => c + 1) (rn_copies n) in
      let items := rn_items n + 1 in
      let area := rn_area n + ri_area it in
      let profit := (rn_profit n + ri_profit it)%Q in
      let no_resource := (length (rb_resources bt) =? 0)%nat in
      let '(resources, last_copies, profit) :=
        if no_resource then ([], [], profit)
        else match in_new ins with
             | Some _ =>
                 let st := fold_left (rnew_resource_step bt x) (nth t (ri_resource_ids it) [])
                             (repeat 0%Q (length (rb_resources bt)), profit) in
                 (fst st, upd x (fun _ => 1%nat) (repeat 0%nat (length (rin_items inst))), snd st)
             | None =>
                 let st := fold_left (rsame_resource_step bt x (nth x (rn_last_copies n) 0%nat)) (nth t (ri_resource_ids it) [])
                             (rn_resources n, profit) in
                 (fst st, upd x S (rn_last_copies n), snd st)
             end in
      let weight := match in_new ins with Some _ => ri_weight it | None => (rn_weight n + ri_weight it)%Q end in
      let previous := rts_previous (sc_i s) (nb - 1) in
      let xe_max := pieces_xe_max l in
      let ye_max := pieces_ye_max (match in_new ins with Some _ => 0 | None => rn_ye_max n end) l in
      let current := if items =? dv_number_of_items dv then previous + xe_max * yi else previous + pieces_area l in
      let waste := Z.max (current - area) (previous + xe_max * yi - dv_item_area dv) in
      let waste :=
        if (nb <? length (dv_bin_type_ids dv))%nat && (dv_item_area dv - area <? rb_area bt)
        then match extra_waste s inst dv bt nb yj copies l with Some w => Z.max waste w | None => waste end
        else waste in
      if waste <? 0 then None
      else
        let leftover := match rp_leftover (rin_params inst) with
          | LArea => rb_area bt - xe_max * ye_max
          | LX | LY => rb_x bt - xe_max
          end in
        let increasing := match rp_unloading (rin_params inst) with UIncreasingX => true | _ => false end in
        Some (mkRN (rn_path n ++ [(nb, dir, mkPl x xs ys (in_rotate ins))]) dir l copies nb items area current waste
                leftover xe_max ye_max profit weight
                (if increasing then upd (ri_group it) (min_x xs) (rn_xmin n) else rn_xmin n)
                (if increasing then upd (ri_group it) (max_x xs) (rn_xmax n) else rn_xmax n)
                resources last_copies)
  end.

(** ** Insertions *)

(** Where the bottom of the item is: an uncovered item or a defect. *)
Inductive Source : Type := FromPiece (pos : nat) | FromDefect (id : nat).

Definition df_xe (d : Defect) : Z := df_x d + df_lx d.
Definition df_ye (d : Defect) : Z := df_y d + df_ly d.

(** The piece shares a row with [ys, ye). *)
Definition overlaps (ys ye : Z) (u : Piece) : bool := negb ((pc_ye u <=? ys) || (ye <=? pc_ys u)).

(** Unloading constraints, tree_search.cpp:917-948.  [None]: [logic_error]; [Some
    false]: no insertion. *)
Definition unloading_allows (inst : RInstance) (n : RNode) (g : nat) (xs ys ye : Z) : option bool :=
  match rp_unloading (rin_params inst) with
  | UNone => Some true
  | UOnlyX =>
      Some (forallb (fun u => negb (overlaps ys ye u)
              || match pc_type u with None => true | Some y => negb (ri_group (ritem inst y) <? g)%nat end) (rn_pieces n))
  | UIncreasingX =>
      Some (forallb (fun h => negb (xs <? nth h (rn_xmax n) 0)) (seq (S g) (length (rn_xmax n) - S g))
            && forallb (fun h => match nth h (rn_xmin n) None with None => true | Some v => negb (v <? xs) end) (seq 0 g))
  | _ => None
  end.

(** One pass on the defects, tree_search.cpp:953-965: new [xs], and whether nothing
    moved. *)
Definition defect_step (xj ys ye : Z) (st : Z * bool) (d : Defect) : Z * bool :=
  let (xs, stop) := st in
  if (xs + xj <=? df_x d) || (df_xe d <=? xs) || (ye <=? df_y d) || (df_ye d <=? ys) then (xs, stop) else (df_xe d, false).

(** The loop, tree_search.cpp:950-968.  Every pass that moves the item leaves a defect
    behind, so [length defects + 1] passes are enough (proved). *)
Fixpoint avoid_defects (fuel : nat) (defects : list Defect) (xj ys ye xs : Z) : Z :=
  match fuel with
  | O => xs
  | S fuel =>
      let (xs', stop) := fold_left (defect_step xj ys ye) defects (xs, true) in
      if stop then xs' else avoid_defects fuel defects xj ys ye xs'
  end.

(** insertion_item, tree_search.cpp:837-1004.  [None]: exception. *)
Definition insertion_item (s : Scheme) (n : RNode) (x : nat) (rotate : bool) (new : option (nat * bool)) (src : Source)
    : option (list RInsertion) :=
  let dir := match new with Some (_, d) => d | None => rn_dir n end in
  let inst := sinst s dir in
  let it := ritem inst x in
  let t := nth (match new with Some (p, _) => p | None => rn_bins n - 1 end)%nat (rts_bins (sc_i s)) 0%nat in
  let bt := rbin inst t in
  let xj := ri_width it rotate in
  let yj := ri_height it rotate in
  let ys := match src with
    | FromPiece O => 0
    | FromPiece pos => pc_ys (nth pos (rn_pieces n) dummy_piece)
    | FromDefect k => df_ye (nth k (rb_defects bt) (mkDefect 0 0 0 0))
    end in
  let ye := ys + yj in
  if rb_y bt <? ye then Some []
  else if exceeds (match new with Some _ => ri_weight it | None => rn_weight n + ri_weight it end)%Q (times_tol (rb_max_weight bt)) then Some []
  else if negb (forallb (fun r =>
             let resource := nth r (rb_resources bt) dummy_resource in
             let consumption := match new with
               | Some _ => item_consumption resource x 0
               | None => (nth r (rn_resources n) 0 + item_consumption resource x (nth x (rn_last_copies n) 0%nat))%Q
               end in
             res_penalize resource || negb (Qltb (res_capacity resource * PSTOL) consumption))
           (nth t (ri_resource_ids it) [])) then Some []
  else
    let xs := match new with
      | Some _ => 0
      | None => fold_left (fun xs u => if overlaps ys ye u then (if xs <? pc_xe u then pc_xe u else xs) else xs) (rn_pieces n) 0
      end in
    match unloading_allows inst n (ri_group it) xs ys ye with
    | None => None
    | Some false => Some []
    | Some true =>
        let xs := avoid_defects (S (length (rb_defects bt))) (rb_defects bt) xj ys ye xs in
        let xe := xs + xj in
        if rb_x bt <? xe then Some []
        else if match src with
                | FromPiece O => false
                | FromPiece (S pos) => xe <=? pc_xs (nth pos (rn_pieces n) dummy_piece)
                | FromDefect k =>
                    let d := nth k (rb_defects bt) (mkDefect 0 0 0 0) in (xe <=? df_x d) || (df_xe d <=? xs)
                end then Some []
        else Some [mkRIn x rotate xs ys new]
    end.

(** Exceptions go up. *)
Fixpoint oconcat {A : Type} (l : list (option (list A))) : option (list A) :=
  match l with
  | [] => Some []
  | None :: _ => None
  | Some a :: rest => match oconcat rest with None => None | Some b => Some (a ++ b) end
  end.

(** [ok], [ok_1], [ok_2], tree_search.cpp:590-608. *)
Definition all_packed (s : Scheme) (n : RNode) (l : list nat) : bool :=
  forallb (fun y => nth y (rn_copies n) 0 =? ri_copies (ritem (sc_i s) y)) l.
Definition item_ok (s : Scheme) (n : RNode) (pred : RItem -> RItem -> bool) (x : nat) : bool :=
  all_packed s n (predecessors s pred x).

(** Insertions of an item type, tree_search.cpp:617-746 and :779-830 without fixed
    items: for each source both rotations. *)
Definition item_insertions (s : Scheme) (n : RNode) (inst : RInstance) (new : option (nat * bool)) (sources : list Source) (x : nat)
    : option (list RInsertion) :=
  if item_ok s n pred_0 x && negb (nth x (rn_copies n) 0 =? ri_copies (ritem inst x))
  then oconcat (flat_map (fun src =>
         (if item_ok s n pred_1 x then [insertion_item s n x false new src] else [])
         ++ (if negb (ri_oriented (ritem inst x)) && item_ok s n pred_2 x then [insertion_item s n x true new src] else [])) sources)
  else Some [].

Definition defect_sources (bt : RBin) : list Source := map FromDefect (seq 0 (length (rb_defects bt))).

(** Insertions in the current bin, tree_search.cpp:610-748. *)
Definition same_bin_insertions (s : Scheme) (n : RNode) : option (list RInsertion) :=
  if (rn_bins n =? 0)%nat then Some []
  else
    let t := nth (rn_bins n - 1) (rts_bins (sc_i s)) 0%nat in
    let bt := rbin (sinst s (rn_dir n)) t in
    oconcat (map (item_insertions s n (sinst s (rn_dir n)) None
                    (map FromPiece (seq 0 (length (rn_pieces n))) ++ defect_sources bt))
               (nth t (dv_item_type_ids (sder s (rn_dir n))) [])).

(** Direction of a new bin, tree_search.cpp:757-773; the quotients are compared as
    exact rationals. *)
Definition new_bin_direction (s : Scheme) (p : nat) : bool :=
  match sc_direction s with
  | Some d => d
  | None =>
      let bt := rbin (sc_i s) (nth p (rts_bins (sc_i s)) 0%nat) in
      negb (dv_total_width (sc_d s) * rb_y bt <=? dv_total_height (sc_d s) * rb_x bt)
  end.

(** Insertions in the new bin at position [p], tree_search.cpp:757-831. *)
Definition rnew_bin_insertions (s : Scheme) (n : RNode) (p : nat) : option (list RInsertion) :=
  let dir := new_bin_direction s p in
  let t := nth p (rts_bins (sc_i s)) 0%nat in
  let bt := rbin (sinst s dir) t in
  oconcat (map (item_insertions s n (sinst s dir) (Some (p, dir)) (FromPiece 0 :: defect_sources bt))
             (nth t (dv_item_type_ids (sder s dir)) [])).

(** The first of the positions with an insertion, tree_search.cpp:750-756. *)
Fixpoint rfirst_insertions (s : Scheme) (n : RNode) (positions : list nat) : option (list RInsertion) :=
  match positions with
  | [] => Some []
  | p :: rest =>
      match rnew_bin_insertions s n p with
      | None => None
      | Some [] => rfirst_insertions s n rest
      | Some l => Some l
      end
  end.

(** insertions, tree_search.cpp:570-835. *)
Definition rinsertions (s : Scheme) (n : RNode) : option (list RInsertion) :=
  match same_bin_insertions s n with
  | None => None
  | Some [] => rfirst_insertions s n (seq (rn_bins n) (length (dv_bin_type_ids (sc_d s)) - rn_bins n))
  | Some l => Some l
  end.

(** leaf, tree_search.hpp:332-336. *)
Definition rleaf (s : Scheme) (n : RNode) : bool := rn_items n =? dv_number_of_items (sc_d s).

(** ** Solutions *)

(** Position in the solution of an item placed in direction [dir],
    tree_search.cpp:1276-1278. *)
Definition place_of (dir : bool) (p : Place) : Place :=
  if dir then mkPl (pl_type p) (pl_y p) (pl_x p) (pl_rot p) else p.

(** Calls to the solution builder, tree_search.cpp:1256-1294; [n] is the number of bins
    added before. *)
Fixpoint rpath_calls (s : Scheme) (n : nat) (path : list (nat * bool * Place)) : list RBuilderCall :=
  match path with
  | [] => []
  | (nb, dir, p) :: rest =>
      map (fun k => RAddBin (nth k (rts_bins (sc_i s)) 0%nat) 1) (seq n (nb - n))
      ++ RAddItem (Nat.max n nb - 1) (place_of dir p) :: rpath_calls s (Nat.max n nb) rest
  end.

(** to_solution, tree_search.cpp:1254-1317.  [None]: the builder throws, or the
    [runtime_error] of different extents. *)
Definition rto_solution (s : Scheme) (cb : RCallback) (n : RNode) : option RSolution :=
  match rhistory (sc_i s) cb (rpath_calls s 0 (rn_path n)) [] with
  | None => None
  | Some sol =>
      if (rn_bins n =? 1)%nat && rn_dir n && negb (rn_xe_max n =? rc_y_max (rs_core sol)) then None else Some sol
  end.

(** ** Comparisons *)

(** better, tree_search.cpp:1128-1182.  [None]: exception, or the subproblem objective,
    which is not modelled. *)
Definition rbetter (s : Scheme) (n1 n2 : RNode) : option bool :=
  match rin_objective (sc_i s) with
  | ODefault =>
      if Qltb (rn_profit n1) (rn_profit n2) then Some false
      else if Qltb (rn_profit n2) (rn_profit n1) then Some true
      else Some (rn_waste n1 <? rn_waste n2)
  | OBinPacking | OVariableSizedBinPacking =>
      if negb (rleaf s n1) then Some false
      else if negb (rleaf s n2) then Some true
      else Some (rn_bins n1 <? rn_bins n2)%nat
  | OBinPackingWithLeftovers =>
      if negb (rleaf s n1) then Some false
      else if negb (rleaf s n2) then Some true
      else if negb (rn_bins n2 =? rn_bins n1)%nat then Some (rn_bins n1 <? rn_bins n2)%nat
      else Some (rn_leftover n2 <? rn_leftover n1)
  | OOpenDimensionX | OOpenDimensionY =>
      if negb (rleaf s n1) then Some false
      else if negb (rleaf s n2) then Some true
      else Some (rn_xe_max n1 <? rn_xe_max n2)
  | OKnapsack | OFeasibility => Some (Qltb (rn_profit n2) (rn_profit n1))
  | _ => None
  end.

(** The loop of [bound] for bin packing, tree_search.cpp:1199-1212: [None] if the bins
    are not large enough ([return true]), otherwise the number of bins. *)
Fixpoint rbins_needed (i : RInstance) (bins : list nat) (k : nat) (a : Z) : option nat :=
  if a <=? 0 then Some k
  else match bins with
       | [] => None
       | t :: rest => rbins_needed i rest (S k) (a - rb_area (rbin i t))
       end.

(** bound, tree_search.cpp:1184-1248: [Some true] cuts [n1] given the solution [n2].
    [None]: exception. *)
Definition rbound (s : Scheme) (n1 n2 : RNode) : option bool :=
  match rin_objective (sc_i s) with
  | ODefault | OSequentialOneDimensionalRectangleSubproblem => Some false
  | OBinPacking | OVariableSizedBinPacking =>
      if negb (rleaf s n2) then Some false
      else match rbins_needed (sc_i s) (rts_bins (sc_i s)) 0 (dv_item_area (sc_d s) + rn_waste n1) with
           | None => Some true
           | Some k => Some (rn_bins n2 <=? k)%nat
           end
  | OBinPackingWithLeftovers =>
      if negb (rleaf s n2) then Some false
      else if (rn_bins n2 <? rn_bins n1)%nat then Some true
      else if (rn_bins n1 <? rn_bins n2)%nat then Some false
      else Some (rn_leftover n1 <=? rn_leftover n2)
  | OKnapsack | OFeasibility => Some (rleaf s n2)
  | OOpenDimensionX | OOpenDimensionY =>
      if negb (rleaf s n2) then Some false
      else Some (rn_xe_max n2 <=? Z.max (rn_xe_max n1)
             (Z.quot (rn_waste n1 + dv_item_area (sc_d s) - 1) (rb_y (rbin (sc_i s) 0) + 1)))
  | _ => None
  end.

(** The loop of [dominates] from the tops of the two skylines,
    tree_search.hpp:430-470. *)
Fixpoint skyline_dominates (fuel : nat) (x1 x2 : Z) (l1 l2 : list Piece) : bool :=
  match fuel with
  | O => false
  | S fuel =>
      if x2 <? x1 then false
      else match l1, l2 with
           | [_], [_] => true
           | u1 :: r1, u2 :: r2 =>
               if pc_ys u1 =? pc_ys u2 then
                 skyline_dominates fuel (pc_xd (hd dummy_piece r1)) (pc_xd (hd dummy_piece r2)) r1 r2
               else if pc_ys u1 <? pc_ys u2 then skyline_dominates fuel x1 (pc_xd (hd dummy_piece r2)) l1 r2
               else skyline_dominates fuel (pc_xd (hd dummy_piece r1)) x2 r1 l2
           | _, _ => false
           end
  end.

(** dominates on nodes, tree_search.hpp:391-473, called for nodes with the same copies
    (the guides of the subproblem objective are not modelled). *)
Definition rdominates (n1 n2 : RNode) : bool :=
  if (rn_bins n1 <? rn_bins n2)%nat then true
  else if (rn_bins n2 <? rn_bins n1)%nat then false
  else
    forallb (fun r => negb (Qltb (nth r (rn_resources n2) 0%Q) (nth r (rn_resources n1) 0%Q))) (seq 0 (length (rn_resources n1)))
    && (let l1 := rev (rn_pieces n1) in
        let l2 := rev (rn_pieces n2) in
        skyline_dominates (S (length l1 + length l2)) (pc_xe (hd dummy_piece l1)) (pc_xd (hd dummy_piece l2)) l1 l2).

(** ** The tree *)

(** Nodes below [n]. *)
Inductive rbelow (s : Scheme) (n : RNode) : RNode -> Prop :=
| rbelow_refl : rbelow s n n
| rbelow_child m l ins m' : rbelow s n m -> rinsertions s m = Some l -> In ins l -> rchild s m ins = Some m' -> rbelow s n m'.

(** Nodes of the tree. *)
Definition rreachable (s : Scheme) (n : RNode) : Prop := rbelow s (rroot s) n.
