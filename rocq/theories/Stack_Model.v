(** * Model of the boxstacks instance, solution and solution builder
    (/repo/include/packingsolver/boxstacks/instance.hpp,
    /repo/include/packingsolver/boxstacks/solution.hpp,
    /repo/src/boxstacks/solution.cpp, /repo/src/boxstacks/solution_builder.cpp).

    Integers are unbounded, doubles are exact rationals; a possibly infinite
    double is an option.  Fixed items are left out.  A function that runs several
    accumulations in one loop is written with one loop per accumulation, in the same
    order of the elements. *)

From Coq Require Import List ZArith QArith Qminmax Bool.
From Verif Require Import Util Common_Model OneDim_Model Rect_Model Box_Model.
Import ListNotations.
Open Scope Z_scope.

(** ** Instance *)

(** ItemType, instance.hpp:114-250; [ki_copies_min] is resolved.  The box and the
    rotations are those of the box problem (Box_Model). *)
Record KItem : Type := mkKI {
  ki_box : Vec;
  ki_profit : Q;
  ki_copies : Z;
  ki_copies_min : Z;
  ki_group : nat;
  ki_rotations : list Rotation;
  ki_weight : Q;
  ki_stackability : Z;
  ki_nesting : Z;
  ki_max_stackability : Z;
  ki_max_above : option Q
}.

(** BinType, instance.hpp:274-319; [None]: infinite weight, largest density. *)
Record KBin : Type := mkKB {
  kb_box : Vec;
  kb_cost : Q;
  kb_copies : Z;
  kb_copies_min : Z;
  kb_defects : list Defect;
  kb_max_weight : option Q;
  kb_max_density : option Q;
  kb_truck : Truck
}.

(** Instance, instance.hpp:325-552: objective, check_weight_constraints, types. *)
Record KInstance : Type := mkKInst {
  kx_objective : Objective;
  kx_check_weight : list bool;
  kx_items : list KItem;
  kx_bins : list KBin
}.
Definition dummy_kitem : KItem := mkKI (mkV 0 0 0) 0 0 0 0 [] 0 0 0 0 None.
Definition dummy_kbin : KBin := mkKB (mkV 0 0 0) 0 0 0 [] None None no_truck.
Definition kitem (i : KInstance) (id : nat) : KItem := nth id (kx_items i) dummy_kitem.
Definition kbin (i : KInstance) (id : nat) : KBin := nth id (kx_bins i) dummy_kbin.

(** number_of_groups, instance_builder.cpp:1023-1035. *)
Definition kgroups (i : KInstance) : nat := fold_left (fun n it => Nat.max n (S (ki_group it))) (kx_items i) 0%nat.

(** Instance::check_weight_constraints, instance.hpp:382. *)
Definition kcheck_weight (i : KInstance) (g : nat) : bool := nth g (kx_check_weight i) true.

(** ItemType::can_rotate, instance.hpp:241-246. *)
Definition kcan_rotate (it : KItem) (r : Rotation) : bool := existsb (fun s => rot_eqb s r) (ki_rotations it).
Definition kb_area (bt : KBin) : Z := v_x (kb_box bt) * v_y (kb_box bt).

(** Instance::number_of_items. *)
Definition knumber_of_items (i : KInstance) : Z := zsum ki_copies (kx_items i).

(** ** Solution *)

(** SolutionItem, solution.hpp:10-20. *)
Record KPlaced : Type := mkKP { kp_type : nat; kp_z : Z; kp_rot : Rotation }.

(** SolutionStack, solution.hpp:25-58. *)
Record KStack : Type := mkKS {
  ks_x : Z; ks_xe : Z; ks_y : Z; ks_ye : Z;
  ks_z : Z;
  ks_items : list KPlaced;
  ks_weight : list Q;
  ks_moment : list Q;
  ks_profit : Q
}.

(** SolutionBin, solution.hpp:63-87. *)
Record KSBin : Type := mkKSB {
  kn_type : nat;
  kn_copies : Z;
  kn_stacks : list KStack;
  kn_weight : list Q;
  kn_moment : list Q;
  kn_profit : Q
}.

(** The members the feasibility callback may look at, solution.hpp:342-398. *)
Record KCore : Type := mkKC {
  kc_bins : list KSBin;
  kc_number_of_bins : Z;
  kc_number_of_stacks : Z;
  kc_number_of_items : Z;
  kc_volume : Z;
  kc_bin_volume : Z;
  kc_bin_area : Z;
  kc_stack_area : Z;
  kc_bin_weight : option Q;
  kc_bin_cost : Q;
  kc_item_volume : Z;
  kc_item_weight : Q;
  kc_item_profit : Q;
  kc_x_max : Z;
  kc_y_max : Z;
  kc_bin_copies : list Z;
  kc_item_copies : list Z;
  kc_missing : Z;
  kc_item_copies_ok : bool
}.
Record KSolution : Type := mkKSol { ksol_core : KCore; ksol_callback_ok : bool; ksol_feasible : bool }.
Definition KCallback : Type := KCore -> bool.

(** Constructor, solution.hpp:105-118. *)
Definition ksol_new (i : KInstance) : KSolution :=
  let missing := fold_left (fun n it => if 0 <? ki_copies_min it then n + 1 else n) (kx_items i) 0 in
  mkKSol (mkKC [] 0 0 0 0 0 0 0 (Some 0%Q) 0 0 0 0 0 0
            (repeat 0 (length (kx_bins i))) (repeat 0 (length (kx_items i))) missing true)
    true (missing =? 0).

(** Size of an item along each axis, instance.hpp:184-232. *)
Definition ksize (i : KInstance) (p : nat * Rotation) : Vec := rotate (ki_box (kitem i (fst p))) (snd p).
Definition kp_pair (p : KPlaced) : nat * Rotation := (kp_type p, kp_rot p).

(** Positions of the items of a stack, solution.cpp:65-70; [z]: stack.z_end. *)
Fixpoint kplace_items (i : KInstance) (z : Z) (first : bool) (items : list KPlaced) : list KPlaced * Z :=
  match items with
  | [] => ([], z)
  | p :: items' =>
      let start := if first then z else z - ki_nesting (kitem i (kp_type p)) in
      let (ps, e) := kplace_items i (start + v_z (ksize i (kp_pair p))) false items' in
      (mkKP (kp_type p) start (kp_rot p) :: ps, e)
  end.

(** The loop on the groups, solution.cpp:71-75 and 78-82. *)
Definition add_groups (g : nat) (v : Q) (l : list Q) : list Q :=
  fold_left (fun l h => upd h (fun w => w + v)%Q l) (seq 0 (S g)) l.

(** Abscissa of the centre of a stack, solution.cpp:74, 81. *)
Definition kcenter (s : KStack) : Q := (inject_Z (ks_x s) + inject_Z (ks_xe s - ks_x s) / 2)%Q.

Definition kadd_weights (i : KInstance) (items : list KPlaced) (l : list Q) : list Q :=
  fold_left (fun l p => let it := kitem i (kp_type p) in add_groups (ki_group it) (ki_weight it) l) items l.
Definition kadd_moments (i : KInstance) (c : Q) (items : list KPlaced) (l : list Q) : list Q :=
  fold_left (fun l p => let it := kitem i (kp_type p) in add_groups (ki_group it) (c * ki_weight it)%Q l) items l.
Definition kadd_profits (i : KInstance) (items : list KPlaced) (q : Q) : Q :=
  fold_left (fun q p => q + ki_profit (kitem i (kp_type p)))%Q items q.

(** A stack after solution.cpp:40-93. *)
Definition kupdate_stack (i : KInstance) (s : KStack) : KStack :=
  let (ps, z) := kplace_items i 0 true (ks_items s) in
  let zero := repeat 0%Q (kgroups i) in
  mkKS (ks_x s) (ks_xe s) (ks_y s) (ks_ye s) z ps (kadd_weights i (ks_items s) zero)
    (kadd_moments i (kcenter s) (ks_items s) zero) (kadd_profits i (ks_items s) 0%Q).

(** The loop on the stacks of the last bin, solution.cpp:46-55: x_max_, y_max_ and
    volume_.  The last product is (yi - y_max_ * xi), as in the code. *)
Definition klast_step (bt : KBin) (bin_volume : Z) (st : Z * Z * Z) (s : KStack) : Z * Z * Z :=
  let '(xm, ym, _) := st in
  let xm := if xm <? ks_xe s then ks_xe s else xm in
  let ym := if ym <? ks_ye s then ks_ye s else ym in
  let xi := v_x (kb_box bt) in
  let yi := v_y (kb_box bt) in
  (xm, ym, bin_volume - v_z (kb_box bt) * Z.max ((xi - xm) * yi) (yi - ym * xi)).

(** The items of a bin with the area of their stack. *)
Definition kall_items (b : KSBin) : list KPlaced := flat_map ks_items (kn_stacks b).

(** item_volume_, solution.cpp:87-89: the height of an item is z_end - z_start. *)
Definition kvolume_step (i : KInstance) (copies : Z) (v : Z) (s : KStack) : Z :=
  fold_left (fun v p => v + copies * v_z (ksize i (kp_pair p)) * (ks_ye s - ks_y s) * (ks_xe s - ks_x s)) (ks_items s) v.

(** [bin_weight_ += copies * maximum_weight], solution.cpp:30. *)
Definition kadd_bin_weight (total : option Q) (copies : Z) (maximum : option Q) : option Q :=
  match total, maximum with
  | Some w, Some m => Some (w + inject_Z copies * m)%Q
  | _, _ => None
  end.

(** solution.cpp:95-105. *)
Definition kcount_missing (i : KInstance) (item_copies : list Z) : Z :=
  fold_left (fun n x => if nth x item_copies 0 <? ki_copies_min (kitem i x) then n + 1 else n)
    (seq 0 (length (kx_items i))) 0.
Definition kitem_copies_ok (i : KInstance) (item_copies : list Z) : bool :=
  forallb (fun x => nth x item_copies 0 <=? ki_copies (kitem i x)) (seq 0 (length (kx_items i))).

(** [axle > maximum * PSTOL]; an axle weight that is not a number is not above the
    maximum. *)
Definition kexceeds (axle maximum : option Q) : bool :=
  match axle, maximum with Some a, Some m => Qltb (m * PSTOL) a | _, _ => false end.

(** Solution::feasible_total_weight, solution.cpp:118-128. *)
Definition kfeasible_weight (i : KInstance) (bins : list KSBin) : bool :=
  forallb (fun b => negb (kexceeds (Some (match kn_weight b with [] => 0%Q | w :: _ => w end)) (kb_max_weight (kbin i (kn_type b))))) bins.

(** Solution::feasible_axle_weights, solution.cpp:130-147.  [None]: access beyond the
    end of [weight_weighted_sum] or [weight] (undefined behaviour). *)
Fixpoint kaxle_groups (i : KInstance) (truck : Truck) (ws ms : list Q) (gs : list nat) : option bool :=
  match gs with
  | [] => Some true
  | g :: gs' =>
      if negb (kcheck_weight i g) then kaxle_groups i truck ws ms gs'
      else match nth_error ms g, nth_error ws g with
           | Some m, Some w =>
               let axles := compute_axle_weights truck m w in
               if kexceeds (option_map fst axles) (tr_middle_maximum truck) then Some false
               else if kexceeds (option_map snd axles) (tr_rear_maximum truck) then Some false
               else kaxle_groups i truck ws ms gs'
           | _, _ => None
           end
  end.
Fixpoint kfeasible_axles (i : KInstance) (bins : list KSBin) : option bool :=
  match bins with
  | [] => Some true
  | b :: bins' =>
      match kaxle_groups i (kb_truck (kbin i (kn_type b))) (kn_weight b) (kn_moment b) (seq 0 (kgroups i)) with
      | Some true => kfeasible_axles i bins'
      | r => r
      end
  end.

(** feasible_, solution.cpp:113-115; the operands of && from left to right. *)
Definition kfeasible (i : KInstance) (c : KCore) (callback_ok : bool) : option bool :=
  if negb (kfeasible_weight i (kc_bins c)) then Some false
  else match kfeasible_axles i (kc_bins c) with
       | None => None
       | Some a => Some (a && callback_ok && kc_item_copies_ok c && (kc_missing c =? 0))
       end.

(** Solution::update_indicators, solution.cpp:21-116. *)
Definition kupdate (i : KInstance) (cb : KCallback) (bin_pos : nat) (s : KSolution) : option KSolution :=
  let c := ksol_core s in
  match nth_error (kc_bins c) bin_pos with
  | None => None
  | Some b =>
      let t := kn_type b in
      let bt := kbin i t in
      let n := kn_copies b in
      let items := kall_items b in
      let zero := repeat 0%Q (kgroups i) in
      let bin_volume := kc_bin_volume c + n * vol (kb_box bt) in
      let b' := mkKSB t n (map (kupdate_stack i) (kn_stacks b))
        (fold_left (fun l st => kadd_weights i (ks_items st) l) (kn_stacks b) zero)
        (fold_left (fun l st => kadd_moments i (kcenter st) (ks_items st) l) (kn_stacks b) zero)
        (kadd_profits i items 0%Q) in
      let '(xm, ym, volume) :=
        if Nat.eqb (bin_pos + 1) (length (kc_bins c))
        then fold_left (klast_step bt bin_volume) (kn_stacks b) (0, 0, kc_volume c) else (0, 0, kc_volume c) in
      let item_copies := fold_left (fun l p => upd (kp_type p) (fun k => k + n) l) items (kc_item_copies c) in
      let c' := mkKC (upd bin_pos (fun _ => b') (kc_bins c)) (kc_number_of_bins c + n)
        (fold_left (fun k _ => k + n) (kn_stacks b) (kc_number_of_stacks c))
        (fold_left (fun k _ => k + n) items (kc_number_of_items c))
        volume bin_volume (kc_bin_area c + n * kb_area bt)
        (fold_left (fun a st => a + n * (ks_xe st - ks_x st) * (ks_ye st - ks_y st)) (kn_stacks b) (kc_stack_area c))
        (kadd_bin_weight (kc_bin_weight c) n (kb_max_weight bt))
        (kc_bin_cost c + inject_Z n * kb_cost bt)%Q
        (fold_left (kvolume_step i n) (kn_stacks b) (kc_item_volume c))
        (fold_left (fun w p => w + inject_Z n * ki_weight (kitem i (kp_type p)))%Q items (kc_item_weight c))
        (fold_left (fun w p => w + inject_Z n * ki_profit (kitem i (kp_type p)))%Q items (kc_item_profit c))
        xm ym (upd t (fun k => k + n) (kc_bin_copies c)) item_copies
        (kcount_missing i item_copies) (kitem_copies_ok i item_copies) in
      let callback_ok := cb c' in
      match kfeasible i c' callback_ok with
      | None => None
      | Some f => Some (mkKSol c' callback_ok f)
      end
  end.

Definition kwith_bins (c : KCore) (bins : list KSBin) : KCore :=
  mkKC bins (kc_number_of_bins c) (kc_number_of_stacks c) (kc_number_of_items c) (kc_volume c) (kc_bin_volume c)
    (kc_bin_area c) (kc_stack_area c) (kc_bin_weight c) (kc_bin_cost c) (kc_item_volume c) (kc_item_weight c)
    (kc_item_profit c) (kc_x_max c) (kc_y_max c) (kc_bin_copies c) (kc_item_copies c) (kc_missing c) (kc_item_copies_ok c).

(** A stack and a bin before their indicators are computed (z_start, which is not
    initialised, is 0). *)
Definition kraw_stack (x xe y ye : Z) (items : list (nat * Rotation)) : KStack :=
  mkKS x xe y ye 0 (map (fun p => mkKP (fst p) 0 (snd p)) items) [] [] 0.
Definition kraw_bin (t : nat) (copies : Z) (stacks : list KStack) : KSBin := mkKSB t copies stacks [] [] 0.

(** Out-of-range ids are undefined behaviour in the code. *)
Definition kin_range (i : KInstance) (t : nat) (stacks : list KStack) : bool :=
  Nat.ltb t (length (kx_bins i))
  && forallb (fun s => forallb (fun p => Nat.ltb (kp_type p) (length (kx_items i))) (ks_items s)) stacks.

(** [bins_.push_back] then [update_indicators(bins_.size() - 1)]. *)
Definition kpush_bin (i : KInstance) (cb : KCallback) (s : KSolution) (b : KSBin) : option KSolution :=
  kupdate i cb (length (kc_bins (ksol_core s)))
    (mkKSol (kwith_bins (ksol_core s) (kc_bins (ksol_core s) ++ [b])) (ksol_callback_ok s) (ksol_feasible s)).

(** The item type ids of a stack after renumbering, solution.cpp:252-257. *)
Fixpoint kmap_items (ids : list nat) (l : list KPlaced) : option (list (nat * Rotation)) :=
  match l with
  | [] => Some []
  | p :: l' =>
      match map_id ids (kp_type p), kmap_items ids l' with
      | Some id, Some r => Some ((id, kp_rot p) :: r)
      | _, _ => None
      end
  end.
Fixpoint kmap_stacks (ids : list nat) (l : list KStack) : option (list KStack) :=
  match l with
  | [] => Some []
  | s :: l' =>
      match kmap_items ids (ks_items s), kmap_stacks ids l' with
      | Some items, Some r => Some (kraw_stack (ks_x s) (ks_xe s) (ks_y s) (ks_ye s) items :: r)
      | _, _ => None
      end
  end.

(** Solution::append_bin, solution.cpp:232-262. *)
Definition kappend_bin (i : KInstance) (cb : KCallback) (s source : KSolution) (bin_pos : nat)
    (copies : Z) (bin_type_ids item_type_ids : list nat) : option KSolution :=
  match nth_error (kc_bins (ksol_core source)) bin_pos with
  | None => None
  | Some b =>
      match map_id bin_type_ids (kn_type b), kmap_stacks item_type_ids (kn_stacks b) with
      | Some t, Some stacks =>
          if kin_range i t stacks then kpush_bin i cb s (kraw_bin t copies stacks) else None
      | _, _ => None
      end
  end.

(** Solution::append_bins, solution.cpp:264-273. *)
Fixpoint kappend_from (i : KInstance) (cb : KCallback) (s source : KSolution)
    (bin_type_ids item_type_ids : list nat) (positions : list nat) : option KSolution :=
  match positions with
  | [] => Some s
  | pos :: rest =>
      match nth_error (kc_bins (ksol_core source)) pos with
      | None => None
      | Some b =>
          match kappend_bin i cb s source pos (kn_copies b) bin_type_ids item_type_ids with
          | None => None
          | Some s' => kappend_from i cb s' source bin_type_ids item_type_ids rest
          end
      end
  end.
Definition kappend_bins (i : KInstance) (cb : KCallback) (s source : KSolution)
    (bin_type_ids item_type_ids : list nat) : option KSolution :=
  kappend_from i cb s source bin_type_ids item_type_ids (seq 0 (length (kc_bins (ksol_core source)))).

(** Solution::append_empty_bin, solution.cpp:275-284. *)
Definition kappend_empty (i : KInstance) (cb : KCallback) (s : KSolution) (t : nat) (copies : Z) : option KSolution :=
  if kin_range i t [] then kpush_bin i cb s (kraw_bin t copies []) else None.

(** ** SolutionBuilder, solution_builder.cpp *)

(** add_bin, :6-19.  The id is not checked: out of range is undefined. *)
Definition kb_add_bin (i : KInstance) (bins : list KSBin) (t : nat) (copies : Z) : option (list KSBin) :=
  if kin_range i t [] then Some (bins ++ [kraw_bin t copies []]) else None.

(** add_stack, :21-43. *)
Definition kb_add_stack (bins : list KSBin) (bin_pos : nat) (x xe y ye : Z) : option (list KSBin) :=
  if Nat.ltb bin_pos (length bins)
  then Some (upd bin_pos (fun b => kraw_bin (kn_type b) (kn_copies b) (kn_stacks b ++ [kraw_stack x xe y ye []])) bins)
  else None.

(** add_item, :45-113: throws if the bin or the item type is out of range, if the
    rotation is not allowed, or if the item does not cover the base of the stack.  The
    stack is not checked: out of range is undefined. *)
Definition kpush_item (p : nat * Rotation) (s : KStack) : KStack :=
  kraw_stack (ks_x s) (ks_xe s) (ks_y s) (ks_ye s) (map kp_pair (ks_items s) ++ [p]).
Definition kb_add_item (i : KInstance) (bins : list KSBin) (bin_pos stack : nat) (p : nat * Rotation) : option (list KSBin) :=
  match nth_error bins bin_pos with
  | None => None
  | Some b =>
      match nth_error (kn_stacks b) stack with
      | None => None
      | Some s =>
          if Nat.ltb (fst p) (length (kx_items i)) && kcan_rotate (kitem i (fst p)) (snd p)
             && (v_x (ksize i p) =? ks_xe s - ks_x s) && (v_y (ksize i p) =? ks_ye s - ks_y s)
          then Some (upd bin_pos (fun b => kraw_bin (kn_type b) (kn_copies b) (upd stack (kpush_item p) (kn_stacks b))) bins)
          else None
      end
  end.

(** build, :119-129. *)
Fixpoint kbuild_from (i : KInstance) (cb : KCallback) (positions : list nat) (s : KSolution) : option KSolution :=
  match positions with
  | [] => Some s
  | pos :: rest => match kupdate i cb pos s with Some s' => kbuild_from i cb rest s' | None => None end
  end.
Definition kb_build (i : KInstance) (cb : KCallback) (bins : list KSBin) : option KSolution :=
  let s := ksol_new i in
  kbuild_from i cb (seq 0 (length bins)) (mkKSol (kwith_bins (ksol_core s) bins) (ksol_callback_ok s) (ksol_feasible s)).

Inductive KBuilderCall : Type :=
| KAddBin (t : nat) (copies : Z)
| KAddStack (bin_pos : nat) (x xe y ye : Z)
| KAddItem (bin_pos stack : nat) (p : nat * Rotation).

Definition kb_call (i : KInstance) (bins : list KSBin) (c : KBuilderCall) : option (list KSBin) :=
  match c with
  | KAddBin t copies => kb_add_bin i bins t copies
  | KAddStack pos x xe y ye => kb_add_stack bins pos x xe y ye
  | KAddItem pos stack p => kb_add_item i bins pos stack p
  end.
Fixpoint kb_run (i : KInstance) (bins : list KSBin) (calls : list KBuilderCall) : option (list KSBin) :=
  match calls with
  | [] => Some bins
  | c :: rest => match kb_call i bins c with Some bins' => kb_run i bins' rest | None => None end
  end.

Inductive KSolutionCall : Type :=
| KAppendBin (source : KSolution) (bin_pos : nat) (copies : Z) (bin_type_ids item_type_ids : list nat)
| KAppendBins (source : KSolution) (bin_type_ids item_type_ids : list nat)
| KAppendEmpty (t : nat) (copies : Z).

Definition ksol_call (i : KInstance) (cb : KCallback) (s : KSolution) (c : KSolutionCall) : option KSolution :=
  match c with
  | KAppendBin source pos copies bids iids => kappend_bin i cb s source pos copies bids iids
  | KAppendBins source bids iids => kappend_bins i cb s source bids iids
  | KAppendEmpty t copies => kappend_empty i cb s t copies
  end.
Fixpoint ksol_run (i : KInstance) (cb : KCallback) (s : KSolution) (calls : list KSolutionCall) : option KSolution :=
  match calls with
  | [] => Some s
  | c :: rest => match ksol_call i cb s c with Some s' => ksol_run i cb s' rest | None => None end
  end.

(** Builder calls, [build], then appends. *)
Definition khistory (i : KInstance) (cb : KCallback) (calls1 : list KBuilderCall)
    (calls2 : list KSolutionCall) : option KSolution :=
  match kb_run i [] calls1 with
  | None => None
  | Some bins => match kb_build i cb bins with None => None | Some s => ksol_run i cb s calls2 end
  end.

(** Solution::waste, full_waste, full, solution.hpp:201, 259-266. *)
Definition kwaste (s : KSolution) : Z := kc_volume (ksol_core s) - kc_item_volume (ksol_core s).
Definition kfull_waste (s : KSolution) : Z := kc_bin_volume (ksol_core s) - kc_item_volume (ksol_core s).
Definition kfull (i : KInstance) (s : KSolution) : bool := kc_number_of_items (ksol_core s) =? knumber_of_items i.

(** Solution::operator<, solution.cpp:286-321.  [None]: logic_error. *)
Definition ksol_lt (i : KInstance) (s1 s2 : KSolution) : option bool :=
  let c1 := ksol_core s1 in
  let c2 := ksol_core s2 in
  if negb (ksol_feasible s2) then Some false
  else if negb (ksol_feasible s1) then Some true
  else match kx_objective i with
  | ODefault =>
      if strictly_lesser_profit (kc_item_profit c2) (kc_item_profit c1) then Some false
      else if strictly_greater_profit (kc_item_profit c2) (kc_item_profit c1) then Some true
      else Some (kwaste s2 <? kwaste s1)
  | OBinPacking => Some (kc_number_of_bins c2 <? kc_number_of_bins c1)
  | OBinPackingWithLeftovers => Some (kwaste s2 <? kwaste s1)
  | OOpenDimensionX => Some (kc_x_max c2 <? kc_x_max c1)
  | OOpenDimensionY => Some (kc_y_max c2 <? kc_y_max c1)
  | OKnapsack => Some (strictly_greater_profit (kc_item_profit c2) (kc_item_profit c1))
  | OFeasibility => Some (strictly_greater_profit (kc_item_profit c2) (kc_item_profit c1))
  | _ => None
  end.

(** compute_middle_axle_weight_constraints_violation and the same for the rear axle,
    solution.cpp:323-364, for one bin: the axle is chosen by [axle].  The vectors of a
    built solution are long enough. *)
Definition kviolation (i : KInstance) (axle : Q * Q -> Q) (maximum : Truck -> option Q) (b : KSBin) : Q :=
  let truck := kb_truck (kbin i (kn_type b)) in
  fold_left (fun v g =>
    if negb (kcheck_weight i g) then v
    else let a := option_map axle (compute_axle_weights truck (nth g (kn_moment b) 0%Q) (nth g (kn_weight b) 0%Q)) in
         if kexceeds a (maximum truck)
         then match a, maximum truck with
              | Some a, Some m => (v + inject_Z (Z.of_nat g + 1) * (a - m))%Q
              | _, _ => v
              end
         else v) (seq 0 (kgroups i)) 0%Q.

(** compute_weight_constraints_violation, solution.cpp:197-208. *)
Definition ksol_violation (i : KInstance) (s : KSolution) : Q :=
  fold_left (fun v b => v + kviolation i fst tr_middle_maximum b + kviolation i snd tr_rear_maximum b)%Q
    (kc_bins (ksol_core s)) 0%Q.

(** ** Solution::check_stack, solution.cpp:149-195 *)

(** The remaining weight, [None]: infinite. *)
Definition qmin_opt (a : option Q) (b : option Q) : option Q :=
  match a, b with
  | None, b => b
  | a, None => a
  | Some a, Some b => Some (Qmin a b)
  end.
(** [count]: number of items of the whole stack; [zj -= -nesting_height] adds the
    nesting height, as in the code.  The maximum numbers of items are checked one by one
    in place of their minimum so far. *)
Fixpoint kcheck_loop (i : KInstance) (bt : KBin) (count : Z) (first : bool) (z : Z) (weight : Q) (remaining : option Q)
    (items : list (nat * Rotation)) : bool :=
  match items with
  | [] => true
  | p :: items' =>
      let it := kitem i (fst p) in
      let zj := v_z (ksize i p) + (if first then 0 else ki_nesting it) in
      let z := z + zj in
      let weight := (weight + ki_weight it)%Q in
      if v_z (kb_box bt) <? z then false
      else if match kb_max_density bt with
              | Some d => strictly_greater (weight / inject_Z (v_x (ksize i p)) / inject_Z (v_y (ksize i p))) d
              | None => false
              end then false
      else if ki_max_stackability it <? count then false
      else if match remaining with Some r => strictly_greater (ki_weight it) r | None => false end then false
      else kcheck_loop i bt count false z weight
             (qmin_opt (option_map (fun r => r - ki_weight it)%Q remaining) (ki_max_above it)) items'
  end.
Definition kcheck_stack (i : KInstance) (t : nat) (items : list (nat * Rotation)) : bool :=
  kcheck_loop i (kbin i t) (Z.of_nat (length items)) true 0 0 None items.
