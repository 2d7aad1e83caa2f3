(** * Model of the boxstacks instance flipper and branching scheme

    [src/boxstacks/instance_flipper.cpp], [src/boxstacks/tree_search.hpp],
    [src/boxstacks/tree_search.cpp].

    The beam search itself ([treesearchsolver::iterative_beam_search_2], an external
    library) is not modelled: it only calls [root], [children], [leaf], [better],
    [bound], [dominates] and [to_solution].  Left out: [dominates], the guides and the
    attributes only they read (guide volumes and profits, [xs_max], squared volumes, item
    weight, number of stacked items, axle weights of the last bin), the lifted length and
    the expected lengths and axle weights of the constructor, the ids of the nodes.  The
    predecessors of the item types (tree_search.cpp:37-224, :271-313), which only restrict
    the insertions, are an arbitrary function.  Weights, profits and densities are exact
    rationals. *)

From Coq Require Import List ZArith QArith Bool Arith.
From Verif Require Import Util Common_Model OneDim_Model Rect_Model Box_Model RectFlip_Model RectTree_Model Stack_Model.
Import ListNotations.
Open Scope Z_scope.

(** ** The flipped instance *)

(** instance_flipper.cpp:9-96.  The minimum copies are not copied by the code (those of
    the items are computed again by [build]); no function below reads them, they are kept
    here.  [build] is not modelled. *)
Definition swap_box (v : Vec) : Vec := mkV (v_y v) (v_x v) (v_z v).
Definition swap_defect (d : Defect) : Defect := mkDefect (df_y d) (df_x d) (df_ly d) (df_lx d).
Definition kflip_bin (b : KBin) : KBin :=
  mkKB (swap_box (kb_box b)) (kb_cost b) (kb_copies b) (kb_copies_min b) (map swap_defect (kb_defects b))
    (kb_max_weight b) (kb_max_density b) (kb_truck b).
Definition kflip_item (it : KItem) : KItem :=
  mkKI (swap_box (ki_box it)) (ki_profit it) (ki_copies it) (ki_copies_min it) (ki_group it) (ki_rotations it)
    (ki_weight it) (ki_stackability it) (ki_nesting it) (ki_max_stackability it) (ki_max_above it).
Definition kflip (i : KInstance) : KInstance :=
  mkKInst (match kx_objective i with OOpenDimensionY => OOpenDimensionX | o => o end)
    (kx_check_weight i) (map kflip_item (kx_items i)) (map kflip_bin (kx_bins i)).

(** unflip_solution, instance_flipper.cpp:98-128: the calls of the solution builder. *)
Definition unflip_stack_calls (pos : nat) (ks : nat * KStack) : list KBuilderCall :=
  let (k, s) := ks in
  KAddStack pos (ks_y s) (ks_ye s) (ks_x s) (ks_xe s) :: map (fun p => KAddItem pos k (kp_pair p)) (ks_items s).
Definition unflip_bin_calls (pb : nat * KSBin) : list KBuilderCall :=
  let (pos, b) := pb in
  KAddBin (kn_type b) (kn_copies b)
  :: flat_map (unflip_stack_calls pos) (combine (seq 0 (length (kn_stacks b))) (kn_stacks b)).
Definition unflip_calls (s : KSolution) : list KBuilderCall :=
  let bins := kc_bins (ksol_core s) in flat_map unflip_bin_calls (combine (seq 0 (length bins)) bins).
Definition kunflip (i : KInstance) (cb : KCallback) (s : KSolution) : option KSolution := khistory i cb (unflip_calls s) [].

(** ** The scheme *)

(** BranchingScheme, tree_search.hpp:265-273, :405-440: the instance, its unloading
    constraint, the direction ([Some false]: X, [Some true]: Y, [None]: any) and
    [predecessors_]. *)
Record VScheme : Type := mkVS {
  vs_i : KInstance;
  vs_unloading : Unloading;
  vs_direction : option bool;
  vs_predecessors : nat -> list nat
}.

(** [instance(direction)], tree_search.hpp:446; [true] is the direction Y. *)
Definition vinst (s : VScheme) (dir : bool) : KInstance := if dir then kflip (vs_i s) else vs_i s.
Definition vunloading (s : VScheme) (dir : bool) : Unloading := if dir then flip_unloading (vs_unloading s) else vs_unloading s.

(** One insertion of a stable sort by increasing volume. *)
Fixpoint vinsert_bin (i : KInstance) (t : nat) (l : list nat) : list nat :=
  match l with
  | [] => [t]
  | u :: r => if vol (kb_box (kbin i t)) <? vol (kb_box (kbin i u)) then t :: l else u :: vinsert_bin i t r
  end.

(** tree_search.cpp:247-259. *)
Definition vbin_order (i : KInstance) : list nat :=
  match kx_objective i with
  | OKnapsack => fold_left (fun acc t => vinsert_bin i t acc) (seq 0 (length (kx_bins i))) []
  | _ => seq 0 (length (kx_bins i))
  end.

(** [bin_type_ids_], tree_search.cpp:260-268.  The volumes of the flipped bin types are the
    same. *)
Definition vbins (i : KInstance) : list nat :=
  flat_map (fun t => repeat t (Z.to_nat (kb_copies (kbin i t)))) (vbin_order i).

(** [previous_bins_volume_] at position [k]. *)
Definition vprevious (i : KInstance) (k : nat) : Z := zsum (fun t => vol (kb_box (kbin i t))) (firstn k (vbins i)).

(** ** Nodes *)

(** UncoveredItem, tree_search.hpp:30-66; [vp_rem]: [None] is infinite.  [ze] is not
    initialised when there is no item; it is then only multiplied by 0 and is 0 here. *)
Record VPiece : Type := mkVP {
  vp_items : list nat;
  vp_weight : Q;
  vp_max : Z;
  vp_rem : option Q;
  vp_xs : Z;
  vp_xe : Z;
  vp_ys : Z;
  vp_ye : Z;
  vp_ze : Z
}.
Definition dummy_vpiece : VPiece := mkVP [] 0 (-1) (Some (-1)%Q) 0 0 0 0 0.

(** One ancestor, as [to_solution] reads it: number of bins, direction, [new_stack], item
    type, rotation, position. *)
Record VStep : Type := mkVT {
  vt_bins : nat;
  vt_dir : bool;
  vt_new : bool;
  vt_item : nat * Rotation;
  vt_x : Z;
  vt_y : Z
}.

(** BranchingScheme::Node and NodeGroup, tree_search.hpp:120-251.  [vn_path]: the
    ancestors from the root.  [vn_x]: the [x] of the last item.  [vn_w], [vn_m],
    [vn_count], [vn_xmin], [vn_xmax]: the attributes of the groups; [None] is the largest
    length. *)
Record VNode : Type := mkVN {
  vn_path : list VStep;
  vn_dir : bool;
  vn_x : Z;
  vn_pieces : list VPiece;
  vn_copies : list Z;
  vn_bins : nat;
  vn_items : Z;
  vn_volume : Z;
  vn_current : Z;
  vn_waste : Z;
  vn_xe_max : Z;
  vn_profit : Q;
  vn_w : list Q;
  vn_m : list Q;
  vn_count : list Z;
  vn_xmin : list (option Z);
  vn_xmax : list Z;
  vn_middle : Q;
  vn_rear : Q
}.

(** root, tree_search.cpp:1396-1406. *)
Definition vroot (s : VScheme) : VNode :=
  let g := kgroups (vs_i s) in
  mkVN [] false 0 [] (repeat 0 (length (kx_items (vs_i s)))) 0 0 0 0 0 0 0%Q (repeat 0%Q g) (repeat 0%Q g) (repeat 0 g)
    (repeat None g) (repeat 0 g) 0%Q 0%Q.

(** Insertion, tree_search.hpp:68-118; [vi_above]: [uncovered_item_pos]; [vi_to]: the new
    bin and its direction. *)
Record VInsertion : Type := mkVI {
  vi_type : nat;
  vi_rot : Rotation;
  vi_x : Z;
  vi_y : Z;
  vi_z : Z;
  vi_above : option nat;
  vi_to : option (nat * bool)
}.

(** ** Children *)

Definition vset_ye (u : VPiece) (y : Z) : VPiece :=
  mkVP (vp_items u) (vp_weight u) (vp_max u) (vp_rem u) (vp_xs u) (vp_xe u) (vp_ys u) y (vp_ze u).
Definition vset_ys (u : VPiece) (y : Z) : VPiece :=
  mkVP (vp_items u) (vp_weight u) (vp_max u) (vp_rem u) (vp_xs u) (vp_xe u) y (vp_ye u) (vp_ze u).
Definition vfree (ys ye : Z) : VPiece := mkVP [] 0 (-1) (Some (-1)%Q) 0 0 ys ye 0.

(** An item on top of an uncovered item, tree_search.cpp:589-600. *)
Definition vstack_on (x : nat) (it : KItem) (zj : Z) (u : VPiece) : VPiece :=
  mkVP (vp_items u ++ [x]) (vp_weight u + ki_weight it)%Q (Z.min (vp_max u) (ki_max_stackability it))
    (qmin_opt (option_map (fun r => r - ki_weight it)%Q (vp_rem u)) (ki_max_above it))
    (vp_xs u) (vp_xe u) (vp_ys u) (vp_ye u) (vp_ze u + zj).

(** The uncovered item of a new stack, tree_search.cpp:610-622 and :648-659. *)
Definition vnew_piece (x : nat) (it : KItem) (xs xe ys ye zj : Z) : VPiece :=
  mkVP [x] (ki_weight it) (ki_max_stackability it) (ki_max_above it) xs xe ys ye zj.

(** The uncovered items of a new bin, tree_search.cpp:601-631. *)
Definition vnew_pieces (p : VPiece) (yi : Z) : list VPiece :=
  (if 0 <? vp_ys p then [vfree 0 (vp_ys p)] else []) ++ [p] ++ (if vp_ye p <? yi then [vfree (vp_ye p) yi] else []).

(** Body of the loop on the uncovered items of the parent, tree_search.cpp:633-676. *)
Definition vcover (p u : VPiece) : list VPiece :=
  if vp_ye u <=? vp_ys p then [u]
  else if vp_ys u <=? vp_ys p then
    (if vp_ys u <? vp_ys p then [vset_ye u (vp_ys p)] else []) ++ [p]
    ++ (if vp_ye p <? vp_ye u then [vset_ys u (vp_ye p)] else [])
  else if vp_ye p <=? vp_ys u then [u]
  else if vp_ye p <? vp_ye u then [vset_ys u (vp_ye p)] else [].

(** current_volume and xe_max, tree_search.cpp:745-765, without the previous bins. *)
Definition vpieces_volume (zi : Z) (l : list VPiece) : Z :=
  zsum (fun u => vp_xs u * (vp_ye u - vp_ys u) * zi + (vp_xe u - vp_xs u) * (vp_ye u - vp_ys u) * vp_ze u) l.
Definition vpieces_xe_max (l : list VPiece) : Z := fold_left (fun m u => if m <? vp_xe u then vp_xe u else m) l 0.

(** Centre of an item along x, tree_search.cpp:711. *)
Definition vcenter (xs xj : Z) : Q := (inject_Z xs + inject_Z xj / 2)%Q.

(** Axle overweights of the groups, tree_search.cpp:714-736; [axle], [maximum]: which
    axle. *)
Definition voverweight (inst : KInstance) (truck : Truck) (axle : Q * Q -> Q) (maximum : option Q) (ws ms : list Q) : Q :=
  fold_left (fun v g =>
    if negb (kcheck_weight inst g) then v
    else if Qeq_bool (nth g ws 0%Q) 0 then v
    else let a := option_map axle (compute_axle_weights truck (nth g ms 0%Q) (nth g ws 0%Q)) in
         if kexceeds a maximum then match a, maximum with Some a, Some m => (v + (a - m))%Q | _, _ => v end else v)
    (seq 0 (length ws)) 0%Q.

(** child_tmp, tree_search.cpp:532-772.  [None]: [runtime_error], or a position out of
    range. *)
Definition vchild (s : VScheme) (n : VNode) (ins : VInsertion) : option VNode :=
  let x := vi_type ins in
  let nb := match vi_to ins with Some (p, _) => S p | None => vn_bins n end in
  let dir := match vi_to ins with Some (_, d) => d | None => vn_dir n end in
  let inst := vinst s dir in
  let bt := kbin inst (nth (nb - 1) (vbins (vs_i s)) 0%nat) in
  let it := kitem inst x in
  let size := ksize inst (x, vi_rot ins) in
  let xj := v_x size in
  let yj := v_y size in
  let zj := match vi_above ins with Some _ => v_z size - ki_nesting it | None => v_z size end in
  let xs := vi_x ins in
  let ys := vi_y ins in
  let yi := v_y (kb_box bt) in
  let zi := v_z (kb_box bt) in
  if zi <? vi_z ins + zj then None
  else
    let piece := vnew_piece x it xs (xs + xj) ys (ys + yj) zj in
    let pieces := match vi_above ins with
      | Some k => if (k <? length (vn_pieces n))%nat then Some (upd k (vstack_on x it zj) (vn_pieces n)) else None
      | None => Some (match vi_to ins with Some _ => vnew_pieces piece yi | None => flat_map (vcover piece) (vn_pieces n) end)
      end in
    match pieces with
    | None => None
    | Some l =>
        let volume := vn_volume n + xj * yj * zj in
        let zero := repeat 0%Q (length (vn_w n)) in
        let ws := add_groups (ki_group it) (ki_weight it) (match vi_to ins with Some _ => zero | None => vn_w n end) in
        let ms := add_groups (ki_group it) (vcenter xs xj * ki_weight it)%Q (match vi_to ins with Some _ => zero | None => vn_m n end) in
        let current := vprevious (vs_i s) (nb - 1) + vpieces_volume zi l in
        let increasing := match vunloading s dir with UIncreasingX => true | _ => false end in
        Some (mkVN (vn_path n ++ [mkVT nb dir (match vi_above ins with Some _ => false | None => true end) (x, vi_rot ins) xs ys])
                dir xs l (upd x (fun c => c + 1) (vn_copies n)) nb (vn_items n + 1) volume current (current - volume)
                (vpieces_xe_max l) (vn_profit n + ki_profit it)%Q ws ms (upd (ki_group it) (fun c => c + 1) (vn_count n))
                (if increasing then upd (ki_group it) (min_x xs) (vn_xmin n) else vn_xmin n)
                (if increasing then upd (ki_group it) (max_x xs) (vn_xmax n) else vn_xmax n)
                (voverweight inst (kb_truck bt) fst (tr_middle_maximum (kb_truck bt)) ws ms)
                (voverweight inst (kb_truck bt) snd (tr_rear_maximum (kb_truck bt)) ws ms))
    end.

(** ** Insertions *)

(** Group::number_of_items, instance_builder.cpp:1023-1036. *)
Definition vgroup_items (i : KInstance) (g : nat) : Z :=
  zsum (fun it => if (ki_group it =? g)%nat then ki_copies it else 0) (kx_items i).

(** The weight constraints of the groups of which this could be the last item,
    tree_search.cpp:1042-1065, :1209-1231, :1359-1381. *)
Definition vaxles_ok (inst : KInstance) (truck : Truck) (n : VNode) (new : bool) (it : KItem) (center : Q) : bool :=
  forallb (fun g =>
    negb (kcheck_weight inst g)
    || negb (nth g (vn_count n) 0 + 1 =? vgroup_items inst g)
    || (let w := if new then ki_weight it else (nth g (vn_w n) 0 + ki_weight it)%Q in
        let m := if new then (center * ki_weight it)%Q else (nth g (vn_m n) 0 + center * ki_weight it)%Q in
        let axles := compute_axle_weights truck m w in
        negb (kexceeds (option_map snd axles) (tr_rear_maximum truck))
        && negb (kexceeds (option_map fst axles) (tr_middle_maximum truck))))
    (seq 0 (S (ki_group it))).

(** [stack_density > maximum_stack_density * PSTOL]. *)
Definition vtoo_dense (bt : KBin) (weight : Q) (xj yj : Z) : bool :=
  kexceeds (Some (weight / inject_Z xj / inject_Z yj)%Q) (kb_max_density bt).

(** insertion_item_above, tree_search.cpp:987-1076.  The centre of the item is computed
    from the last item of the node ([parent->x]), as in the code. *)
Definition vinsertion_above (s : VScheme) (n : VNode) (x : nat) (r : Rotation) (k : nat) : list VInsertion :=
  let inst := vinst s (vn_dir n) in
  let it := kitem inst x in
  let bt := kbin inst (nth (vn_bins n - 1) (vbins (vs_i s)) 0%nat) in
  let size := ksize inst (x, r) in
  let xj := v_x size in
  let yj := v_y size in
  let zj := v_z size - ki_nesting it in
  let u := nth k (vn_pieces n) dummy_vpiece in
  let below := kitem inst (last (vp_items u) 0%nat) in
  if negb ((xj =? vp_xe u - vp_xs u) && (yj =? vp_ye u - vp_ys u)) then []
  else if negb (ki_stackability it =? ki_stackability below) then []
  else if v_z (kb_box bt) <? vp_ze u + zj then []
  else if kexceeds (Some (hd 0%Q (vn_w n) + ki_weight it)%Q) (kb_max_weight bt) then []
  else if vtoo_dense bt (vp_weight u + ki_weight it) xj yj then []
  else if Z.min (vp_max u) (ki_max_stackability it) <? Z.of_nat (length (vp_items u)) + 1 then []
  else if match vp_rem u with Some r => Qltb r (ki_weight it) | None => false end then []
  else if negb (ki_group it =? ki_group below)%nat then []
  else if negb (vaxles_ok inst (kb_truck bt) n false it (vcenter (vn_x n) xj)) then []
  else [mkVI x r (vp_xs u) (vp_ys u) (vp_ze u) (Some k) None].

(** The piece shares a row with [ys, ye). *)
Definition voverlaps (ys ye : Z) (u : VPiece) : bool := negb ((vp_ye u <=? ys) || (ye <=? vp_ys u)).

(** Unloading constraints, tree_search.cpp:1139-1170 and :1305-1334.  [None]: [logic_error],
    or [item_type_ids.back()] of an uncovered item without items (undefined behaviour). *)
Fixpoint vonly_x (inst : KInstance) (g : nat) (ys ye : Z) (l : list VPiece) : option bool :=
  match l with
  | [] => Some true
  | u :: r =>
      if negb (voverlaps ys ye u) then vonly_x inst g ys ye r
      else match vp_items u with
           | [] => None
           | _ => if (ki_group (kitem inst (last (vp_items u) 0%nat)) <? g)%nat then Some false else vonly_x inst g ys ye r
           end
  end.
Definition vunloading_allows (inst : KInstance) (un : Unloading) (n : VNode) (g : nat) (xs ys ye : Z) : option bool :=
  match un with
  | UNone => Some true
  | UOnlyX => vonly_x inst g ys ye (vn_pieces n)
  | UIncreasingX =>
      Some (forallb (fun h => negb (xs <? nth h (vn_xmax n) 0)) (seq (S g) (length (vn_xmax n) - S g))
            && forallb (fun h => match nth h (vn_xmin n) None with None => true | Some v => negb (v <? xs) end) (seq 0 g))
  | _ => None
  end.

(** insertion_item, tree_search.cpp:1078-1244.  [None]: see above. *)
Definition vinsertion_item (s : VScheme) (n : VNode) (x : nat) (r : Rotation) (new : option (nat * bool)) (src : Source)
    : option (list VInsertion) :=
  let dir := match new with Some (_, d) => d | None => vn_dir n end in
  let inst := vinst s dir in
  let it := kitem inst x in
  let t := nth (match new with Some (p, _) => p | None => vn_bins n - 1 end)%nat (vbins (vs_i s)) 0%nat in
  let bt := kbin inst t in
  let size := ksize inst (x, r) in
  let xj := v_x size in
  let yj := v_y size in
  let isnew := match new with Some _ => true | None => false end in
  let ys := match src with
    | FromPiece O => 0
    | FromPiece pos => vp_ys (nth pos (vn_pieces n) dummy_vpiece)
    | FromDefect k => df_ye (nth k (kb_defects bt) (mkDefect 0 0 0 0))
    end in
  let ye := ys + yj in
  if v_y (kb_box bt) <? ye then Some []
  else if kexceeds (Some (if isnew then ki_weight it else hd 0 (vn_w n) + ki_weight it)%Q) (kb_max_weight bt) then Some []
  else if vtoo_dense bt (ki_weight it) xj yj then Some []
  else
    let xs := match new with
      | Some _ => 0
      | None => fold_left (fun xs u => if voverlaps ys ye u then (if xs <? vp_xe u then vp_xe u else xs) else xs) (vn_pieces n) 0
      end in
    match vunloading_allows inst (vunloading s dir) n (ki_group it) xs ys ye with
    | None => None
    | Some false => Some []
    | Some true =>
        let xs := avoid_defects (S (length (kb_defects bt))) (kb_defects bt) xj ys ye xs in
        let xe := xs + xj in
        if v_x (kb_box bt) <? xe then Some []
        else if v_z (kb_box bt) <? v_z size then Some []
        else if match src with
                | FromPiece O => false
                | FromPiece (S pos) => xe <=? vp_xs (nth pos (vn_pieces n) dummy_vpiece)
                | FromDefect k =>
                    let d := nth k (kb_defects bt) (mkDefect 0 0 0 0) in (xe <=? df_x d) || (df_xe d <=? xs)
                end then Some []
        else if negb (vaxles_ok inst (kb_truck bt) n isnew it (vcenter xs xj)) then Some []
        else Some [mkVI x r xs ys 0 None new]
    end.

(** insertion_item_left, tree_search.cpp:1246-1390. *)
Definition vinsertion_left (s : VScheme) (n : VNode) (x : nat) (r : Rotation) (k : nat) : option (list VInsertion) :=
  let inst := vinst s (vn_dir n) in
  let it := kitem inst x in
  let bt := kbin inst (nth (vn_bins n - 1) (vbins (vs_i s)) 0%nat) in
  let size := ksize inst (x, r) in
  let xj := v_x size in
  let yj := v_y size in
  let u := nth k (vn_pieces n) dummy_vpiece in
  let ys := vp_ye u in
  let xs := vp_xe u in
  let xe := xs + xj in
  let ye := ys + yj in
  if v_y (kb_box bt) <? ye then Some []
  else if v_x (kb_box bt) <? xe then Some []
  else if v_z (kb_box bt) <? v_z size then Some []
  else if kexceeds (Some (hd 0 (vn_w n) + ki_weight it)%Q) (kb_max_weight bt) then Some []
  else if vtoo_dense bt (ki_weight it) xj yj then Some []
  else if existsb (fun v => voverlaps ys ye v && (xs <? vp_xe v)) (vn_pieces n) then Some []
  else
    match vunloading_allows inst (vunloading s (vn_dir n)) n (ki_group it) xs ys ye with
    | None => None
    | Some false => Some []
    | Some true =>
        if existsb (fun d => negb ((xs + xj <=? df_x d) || (df_xe d <=? xs) || (ye <=? df_y d) || (df_ye d <=? ys))) (kb_defects bt) then Some []
        else if match k with O => false | S pos => xe <=? vp_xs (nth pos (vn_pieces n) dummy_vpiece) end then Some []
        else if negb (vaxles_ok inst (kb_truck bt) n false it (vcenter xs xj)) then Some []
        else Some [mkVI x r xs ys 0 None None]
    end.

(** [ok], tree_search.cpp:786-795, and the copies left. *)
Definition vitem_ok (s : VScheme) (n : VNode) (x : nat) : bool :=
  forallb (fun y => nth y (vn_copies n) 0 =? ki_copies (kitem (vs_i s) y)) (vs_predecessors s x)
  && negb (nth x (vn_copies n) 0 =? ki_copies (kitem (vs_i s) x)).

(** The loops on the item types and their rotations. *)
Definition vfor_items (s : VScheme) (n : VNode) (f : nat -> Rotation -> list (option (list VInsertion))) : list (option (list VInsertion)) :=
  flat_map (fun x => if vitem_ok s n x then flat_map (f x) (ki_rotations (kitem (vs_i s) x)) else [])
    (seq 0 (length (kx_items (vs_i s)))).

(** Whether the start of a defect is after the uncovered items, tree_search.cpp:866-881. *)
Definition vdefect_ahead (n : VNode) (d : Defect) : bool :=
  forallb (fun u => (vp_ye u <? df_y d) || (df_ye d <? vp_ys u) || negb (df_x d <? vp_xe u)) (vn_pieces n).

(** Insertions in the current bin, tree_search.cpp:797-903. *)
Definition vsame_bin (s : VScheme) (n : VNode) : option (list VInsertion) :=
  if (vn_bins n =? 0)%nat then Some []
  else
    let bt := kbin (vinst s (vn_dir n)) (nth (vn_bins n - 1) (vbins (vs_i s)) 0%nat) in
    let positions := seq 0 (length (vn_pieces n)) in
    oconcat
      (flat_map (fun k => match vp_items (nth k (vn_pieces n) dummy_vpiece) with
                          | [] => []
                          | _ => vfor_items s n (fun x r => [Some (vinsertion_above s n x r k)])
                          end) positions
       ++ flat_map (fun k => vfor_items s n (fun x r => [vinsertion_item s n x r None (FromPiece k); vinsertion_left s n x r k])) positions
       ++ flat_map (fun k => if vdefect_ahead n (nth k (kb_defects bt) (mkDefect 0 0 0 0))
                             then vfor_items s n (fun x r => [vinsertion_item s n x r None (FromDefect k)]) else [])
            (seq 0 (length (kb_defects bt)))).

(** Direction of a new bin, tree_search.cpp:914-928. *)
Definition vnew_direction (s : VScheme) (p : nat) : bool :=
  match vs_direction s with
  | Some d => d
  | None => let b := kb_box (kbin (vs_i s) (nth p (vbins (vs_i s)) 0%nat)) in v_x b <? v_y b
  end.

(** Insertions in the new bin at position [p], tree_search.cpp:929-982. *)
Definition vnew_bin (s : VScheme) (n : VNode) (p : nat) : option (list VInsertion) :=
  let dir := vnew_direction s p in
  let bt := kbin (vinst s dir) (nth p (vbins (vs_i s)) 0%nat) in
  oconcat
    (vfor_items s n (fun x r => [vinsertion_item s n x r (Some (p, dir)) (FromPiece 0)])
     ++ flat_map (fun k => vfor_items s n (fun x r => [vinsertion_item s n x r (Some (p, dir)) (FromDefect k)]))
          (seq 0 (length (kb_defects bt)))).

(** The first of the positions with an insertion, tree_search.cpp:906-911. *)
Fixpoint vfirst (s : VScheme) (n : VNode) (positions : list nat) : option (list VInsertion) :=
  match positions with
  | [] => Some []
  | p :: rest =>
      match vnew_bin s n p with
      | None => None
      | Some [] => vfirst s n rest
      | Some l => Some l
      end
  end.

(** insertions, tree_search.cpp:778-985. *)
Definition vinsertions (s : VScheme) (n : VNode) : option (list VInsertion) :=
  match vsame_bin s n with
  | None => None
  | Some [] => vfirst s n (seq (vn_bins n) (length (vbins (vs_i s)) - vn_bins n))
  | Some l => Some l
  end.

(** leaf, tree_search.hpp:303-307. *)
Definition vleaf (s : VScheme) (n : VNode) : bool := vn_items n =? knumber_of_items (vs_i s).

(** ** Solutions *)

(** [coord2stack], tree_search.cpp:1540; a missing key reads as stack 0. *)
Definition VKey : Type := (nat * Z * Z)%type.
Definition vkey_eqb (a b : VKey) : bool :=
  let '(p, x, y) := a in let '(q, u, v) := b in (p =? q)%nat && (x =? u) && (y =? v).
Fixpoint vlookup (m : list (VKey * nat)) (k : VKey) : nat :=
  match m with
  | [] => 0%nat
  | (k', v) :: r => if vkey_eqb k' k then v else vlookup r k
  end.

(** Calls to the solution builder, tree_search.cpp:1537-1589.  [n]: number of bins added
    before; [count]: number of stacks of the last bin. *)
Fixpoint vpath_calls (s : VScheme) (n : nat) (count : nat) (m : list (VKey * nat)) (path : list VStep) : list KBuilderCall :=
  match path with
  | [] => []
  | e :: rest =>
      let n' := Nat.max n (vt_bins e) in
      let count := if (n <? vt_bins e)%nat then 0%nat else count in
      let pos := (n' - 1)%nat in
      let size := ksize (vinst s (vt_dir e)) (vt_item e) in
      let key := (pos, vt_x e, vt_y e) in
      let m' := if vt_new e then (key, count) :: m else m in
      map (fun k => KAddBin (nth k (vbins (vs_i s)) 0%nat) 1) (seq n (vt_bins e - n))
      ++ (if vt_new e
          then [if vt_dir e
                then KAddStack pos (vt_y e) (vt_y e + v_y size) (vt_x e) (vt_x e + v_x size)
                else KAddStack pos (vt_x e) (vt_x e + v_x size) (vt_y e) (vt_y e + v_y size)]
          else [])
      ++ KAddItem pos (vlookup m' key) (vt_item e)
      :: vpath_calls s n' (if vt_new e then S count else count) m' rest
  end.
Definition vcalls (s : VScheme) (n : VNode) : list KBuilderCall := vpath_calls s 0 0 [] (vn_path n).

(** to_solution, tree_search.cpp:1526-1616. *)
Definition vto_solution (s : VScheme) (cb : KCallback) (n : VNode) : option KSolution := khistory (vs_i s) cb (vcalls s n) [].

(** ** Comparisons *)

(** better, tree_search.cpp:1408-1466.  [None]: exception. *)
Definition vbetter (s : VScheme) (n1 n2 : VNode) : option bool :=
  if Qltb 0 (vn_middle n1) || Qltb 0 (vn_rear n1) then Some false
  else if Qltb 0 (vn_middle n2) || Qltb 0 (vn_rear n2) then Some true
  else match kx_objective (vs_i s) with
  | ODefault =>
      if Qltb (vn_profit n1) (vn_profit n2) then Some false
      else if Qltb (vn_profit n2) (vn_profit n1) then Some true
      else Some (vn_waste n1 <? vn_waste n2)
  | OBinPacking | OVariableSizedBinPacking =>
      if negb (vleaf s n1) then Some false
      else if negb (vleaf s n2) then Some true
      else Some (vn_bins n1 <? vn_bins n2)%nat
  | OBinPackingWithLeftovers =>
      if negb (vleaf s n1) then Some false
      else if negb (vleaf s n2) then Some true
      else Some (vn_waste n1 <? vn_waste n2)
  | OOpenDimensionX | OOpenDimensionY =>
      if negb (vleaf s n1) then Some false
      else if negb (vleaf s n2) then Some true
      else Some (vn_xe_max n1 <? vn_xe_max n2)
  | OKnapsack | OFeasibility => Some (Qltb (vn_profit n2) (vn_profit n1))
  | _ => None
  end.

(** Instance::item_volume. *)
Definition kitem_volume (i : KInstance) : Z := zsum (fun it => ki_copies it * vol (ki_box it)) (kx_items i).

(** The loop of [bound] for bin packing, tree_search.cpp:1478-1490: [None] if the bins are
    not large enough ([return true]), otherwise the number of bins. *)
Fixpoint vbins_needed (i : KInstance) (bins : list nat) (k : nat) (a : Z) : option nat :=
  if a <=? 0 then Some k
  else match bins with
       | [] => None
       | t :: rest => vbins_needed i rest (S k) (a - vol (kb_box (kbin i t)))
       end.

(** bound, tree_search.cpp:1468-1520: [Some true] cuts [n1] given the solution [n2].
    [None]: exception, or the default objective, whose knapsack bound is not modelled. *)
Definition vbound (s : VScheme) (n1 n2 : VNode) : option bool :=
  match kx_objective (vs_i s) with
  | OBinPacking | OVariableSizedBinPacking =>
      if negb (vleaf s n2) then Some false
      else match vbins_needed (vs_i s) (vbins (vs_i s)) 0 (kitem_volume (vs_i s) + vn_waste n1) with
           | None => Some true
           | Some k => Some (vn_bins n2 <=? k)%nat
           end
  | OBinPackingWithLeftovers => if negb (vleaf s n2) then Some false else Some (vn_waste n2 <=? vn_waste n1)
  | OKnapsack | OFeasibility => Some (vleaf s n2)
  | OOpenDimensionX | OOpenDimensionY =>
      if negb (vleaf s n2) then Some false
      else Some (vn_xe_max n2 <=?
        Z.quot (Z.max (vn_xe_max n1) (vn_waste n1 + kitem_volume (vs_i s) - 1)) (v_x (kb_box (kbin (vs_i s) 0)) + 1))
  | _ => None
  end.

(** ** The tree *)

(** Nodes below [n]. *)
Inductive vbelow (s : VScheme) (n : VNode) : VNode -> Prop :=
| vbelow_refl : vbelow s n n
| vbelow_child m l ins m' : vbelow s n m -> vinsertions s m = Some l -> In ins l -> vchild s m ins = Some m' -> vbelow s n m'.

(** Nodes of the tree. *)
Definition vreachable (s : VScheme) (n : VNode) : Prop := vbelow s (vroot s) n.
