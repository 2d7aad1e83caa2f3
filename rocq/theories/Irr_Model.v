(** * Model of the irregular solution and solution builder
    (/repo/include/packingsolver/irregular/instance.hpp,
    /repo/include/packingsolver/irregular/solution.hpp,
    /repo/src/irregular/solution.cpp, /repo/src/irregular/solution_builder.cpp).

    Integers are unbounded and doubles are exact rationals.  Polygons are left
    out: an item type is known by its area and by the bounding box of its shape
    in each orientation (an arbitrary function), a bin type by its area and its
    bounding box. *)

From Coq Require Import List ZArith QArith Bool.
From Verif Require Import Util Common_Model OneDim_Model.
Import ListNotations.
Open Scope Z_scope.

(** AxisAlignedBoundingBox of the shape library. *)
Record IrBox : Type := mkIrBox { ix_min : Q; ix_max : Q; iy_min : Q; iy_max : Q }.

(** AllowedRotation, instance.hpp. *)
Record IrRot : Type := mkIrRot { irr_start : Q; irr_end : Q; irr_mirror : bool }.

(** ItemType, instance.hpp:296-371: area_orig, area_scaled, profit, copies, copies_min,
    allowed_rotations, resource_ids; [ii_aabb] is compute_min_max. *)
Record IrItem : Type := mkIrItem {
  ii_area : Q;
  ii_scaled : Q;
  ii_profit : Q;
  ii_copies : Z;
  ii_copies_min : Z;
  ii_rotations : list IrRot;
  ii_aabb : Q -> bool -> IrBox;
  ii_resource_ids : list (list nat)
}.

(** BinType, instance.hpp:120-200: area_orig, area_scaled, aabb_orig (the bounding box of
    shape_orig, instance_builder.cpp:28-29), cost, copies, copies_min,
    resources. *)
Record IrBin : Type := mkIrBin {
  ib_area : Q;
  ib_scaled : Q;
  ib_aabb : IrBox;
  ib_cost : Q;
  ib_copies : Z;
  ib_copies_min : Z;
  ib_resources : list Resource
}.

(** LeftoverMode, instance.hpp:20-30. *)
Inductive LeftoverMode : Type :=
| LBottomLeft | LBottomRight | LTopLeft | LTopRight | LLeft | LRight | LBottom | LTop.

(** Instance: objective, parameters leftover_mode, scale_value and
    open_dimension_xy_aspect_ratio, item and bin types. *)
Record IrInstance : Type := mkIrInst {
  ir_objective : Objective;
  ir_mode : LeftoverMode;
  ir_scale : Q;
  ir_ratio : Q;
  ir_items : list IrItem;
  ir_bins : list IrBin
}.

Definition dummy_iraabb : Q -> bool -> IrBox := fun _ _ => mkIrBox 0 0 0 0.
Definition dummy_iritem : IrItem := mkIrItem 0 0 0 0 0 [] dummy_iraabb [].
Definition dummy_irbin : IrBin := mkIrBin 0 0 (mkIrBox 0 0 0 0) 0 0 0 [].
(** item_type(id), bin_type(id). *)
Definition iritem (i : IrInstance) (id : nat) : IrItem := nth id (ir_items i) dummy_iritem.
Definition irbin (i : IrInstance) (id : nat) : IrBin := nth id (ir_bins i) dummy_irbin.

(** ItemType::is_rotation_allowed, instance.hpp:359-367. *)
Definition is_rotation_allowed (it : IrItem) (angle : Q) (mirror : bool) : bool :=
  existsb (fun r => Bool.eqb (irr_mirror r) mirror && Qle_bool (irr_start r) angle && Qle_bool angle (irr_end r))
    (ii_rotations it).

(** SolutionItem, instance.hpp: item_type_id, bl_corner, angle, mirror, is_fixed. *)
Record IrPlace : Type := mkIrP {
  ip_type : nat;
  ip_x : Q;
  ip_y : Q;
  ip_angle : Q;
  ip_mirror : bool;
  ip_fixed : bool
}.

(** Bounds that start at an infinity ([None]): +infinity for a minimum,
    -infinity for a maximum.  std::min, std::max. *)
Definition omin (a : option Q) (b : Q) : option Q :=
  match a with None => Some b | Some a => if Qltb b a then Some b else Some a end.
Definition omax (a : option Q) (b : Q) : option Q :=
  match a with None => Some b | Some a => if Qltb a b then Some b else Some a end.

(** The four bounds x_min, x_max, y_min, y_max of a bin or a solution. *)
Record IrExt : Type := mkIrE { ie_xmin : option Q; ie_xmax : option Q; ie_ymin : option Q; ie_ymax : option Q }.
Definition no_ext : IrExt := mkIrE None None None None.

(** SolutionBin, solution.hpp:10-38. *)
Record IrSBin : Type := mkIrSB {
  irs_type : nat;
  irs_copies : Z;
  irs_items : list IrPlace;
  irs_area : Q;
  irs_ext : IrExt;
  irs_resources : list Q
}.

(** The attributes the feasibility callback may look at, solution.hpp:262-325. *)
Record IrCore : Type := mkIrC {
  irc_bins : list IrSBin;
  irc_number_of_bins : Z;
  irc_number_of_items : Z;
  irc_leftover_orig : Q;
  irc_leftover_scaled : Q;
  irc_bin_area : Q;
  irc_item_area : Q;
  irc_item_profit : Q;
  irc_bin_cost : Q;
  irc_ext : IrExt;
  irc_bin_copies : list Z;
  irc_item_copies : list Z;
  irc_missing : Z;
  irc_item_copies_ok : bool;
  irc_resource_ok : bool
}.

Record IrSolution : Type := mkIrS { irsol_core : IrCore; irsol_callback_ok : bool; irsol_feasible : bool }.

Definition IrCallback : Type := IrCore -> bool.

(** Number of item types with fewer than [copies_min] copies, solution.cpp:141-151. *)
Definition ircount_missing (i : IrInstance) (item_copies : list Z) : Z :=
  fold_left (fun n x => if nth x item_copies 0 <? ii_copies_min (iritem i x) then n + 1 else n)
    (seq 0 (length (ir_items i))) 0.

(** Constructor, solution.hpp:52-66. *)
Definition irsol_new (i : IrInstance) : IrSolution :=
  let missing := fold_left (fun n it => if 0 <? ii_copies_min it then n + 1 else n) (ir_items i) 0 in
  mkIrS (mkIrC [] 0 0 0 0 0 0 0 0 no_ext
          (repeat 0 (length (ir_bins i))) (repeat 0 (length (ir_items i))) missing true true)
    true (missing =? 0).

(** The loop on the items of a bin: local variables and updated members. *)
Record IrLoop : Type := mkIrL {
  irl_area : Q;
  irl_ext : IrExt;
  irl_resources : list Q;
  irl_copies_in_bin : list nat;
  irl_number_of_items : Z;
  irl_item_area : Q;
  irl_item_profit : Q;
  irl_item_copies : list Z;
  irl_resource_ok : bool
}.

(** Loop on the resources, solution.cpp:63-84: consumptions, profit and flag. *)
Definition irresource_step (bt : IrBin) (id copy : nat) (st : list Q * Q * bool) (r : nat)
    : list Q * Q * bool :=
  let '(used, profit, ok) := st in
  let resource := nth r (ib_resources bt) dummy_resource in
  let previous := nth r used 0%Q in
  let current := (previous + item_consumption resource id copy)%Q in
  let used' := upd r (fun _ => current) used in
  if Qltb (res_capacity resource) current then
    if res_penalize resource then
      if Qle_bool previous (res_capacity resource)
      then (used', (profit - res_penalty resource)%Q, ok)
      else (used', profit, ok)
    else (used', profit, false)
  else (used', profit, ok).

(** The bounds after one more item, solution.cpp:56-60. *)
Definition ext_item (i : IrInstance) (e : IrExt) (item : IrPlace) : IrExt :=
  let b := ii_aabb (iritem i (ip_type item)) (ip_angle item) (ip_mirror item) in
  mkIrE (omin (ie_xmin e) (ip_x item + ix_min b)) (omax (ie_xmax e) (ip_x item + ix_max b))
        (omin (ie_ymin e) (ip_y item + iy_min b)) (omax (ie_ymax e) (ip_y item + iy_max b)).

(** Body of the loop on the items, solution.cpp:46-86. *)
Definition iritem_step (i : IrInstance) (t : nat) (copies : Z) (lo : IrLoop) (item : IrPlace) : IrLoop :=
  let id := ip_type item in
  let it := iritem i id in
  let bt := irbin i t in
  let profit := (irl_item_profit lo + inject_Z copies * ii_profit it)%Q in
  let '(resources, profit, resource_ok) :=
    fold_left (irresource_step bt id (nth id (irl_copies_in_bin lo) 0%nat))
      (nth t (ii_resource_ids it) []) (irl_resources lo, profit, irl_resource_ok lo) in
  mkIrL (irl_area lo + ii_area it)%Q (ext_item i (irl_ext lo) item) resources
    (upd id S (irl_copies_in_bin lo)) (irl_number_of_items lo + copies)
    (irl_item_area lo + inject_Z copies * ii_area it)%Q
    profit (upd id (fun c => c + copies) (irl_item_copies lo)) resource_ok.

Definition iritem_copies_ok (i : IrInstance) (item_copies : list Z) : bool :=
  forallb (fun x => nth x item_copies 0 <=? ii_copies (iritem i x)) (seq 0 (length (ir_items i))).

Definition ext_q (a : option Q) : Q := match a with Some q => q | None => 0%Q end.

(** The leftover of the last bin, solution.cpp:100-135; the bounds are those of
    a bin with items, hence finite. *)
Definition leftover_of (m : LeftoverMode) (b : IrBox) (e : IrExt) : Q :=
  let x_min := ext_q (ie_xmin e) in
  let x_max := ext_q (ie_xmax e) in
  let y_min := ext_q (ie_ymin e) in
  let y_max := ext_q (ie_ymax e) in
  let whole := ((ix_max b - ix_min b) * (iy_max b - iy_min b))%Q in
  match m with
  | LBottomLeft => (whole - (x_max - ix_min b) * (y_max - iy_min b))%Q
  | LBottomRight => (whole - (ix_max b - x_min) * (y_max - iy_min b))%Q
  | LTopLeft => (whole - (x_max - ix_min b) * (iy_max b - y_min))%Q
  | LTopRight => (whole - (ix_max b - x_min) * (iy_max b - y_min))%Q
  | LLeft => (whole - (x_max - ix_min b) * (iy_max b - iy_min b))%Q
  | LRight => (whole - (ix_max b - x_min) * (iy_max b - iy_min b))%Q
  | LBottom => (whole - (ix_max b - ix_min b) * (y_max - iy_min b))%Q
  | LTop => (whole - (ix_max b - ix_min b) * (iy_max b - y_min))%Q
  end.

(** Solution::update_indicators, solution.cpp:29-159. *)
Definition irupdate (i : IrInstance) (cb : IrCallback) (bin_pos : nat) (s : IrSolution) : IrSolution :=
  let c := irsol_core s in
  match nth_error (irc_bins c) bin_pos with
  | None => s
  | Some b =>
      let t := irs_type b in
      let bt := irbin i t in
      let n := irs_copies b in
      let last_bin := Nat.eqb (bin_pos + 1) (length (irc_bins c)) in
      let lo0 := mkIrL (irs_area b) (irs_ext b)
        (repeat 0%Q (length (ib_resources bt))) (repeat 0%nat (length (ir_items i)))
        (irc_number_of_items c) (irc_item_area c) (irc_item_profit c)
        (irc_item_copies c) (irc_resource_ok c) in
      let lo := fold_left (iritem_step i t n) (irs_items b) lo0 in
      let box := ib_aabb bt in
      let empty := match irs_items b with [] => true | _ => false end in
      let ext := if last_bin then
          if empty then mkIrE (Some (ix_max box)) (Some (ix_min box)) (Some (iy_max box)) (Some (iy_min box))
          else irl_ext lo
        else irc_ext c in
      let leftover := if last_bin && negb empty then leftover_of (ir_mode i) box ext else irc_leftover_orig c in
      let leftover_scaled := if last_bin && negb empty then (leftover * ir_scale i)%Q else irc_leftover_scaled c in
      let missing := ircount_missing i (irl_item_copies lo) in
      let copies_ok := iritem_copies_ok i (irl_item_copies lo) in
      let c' := mkIrC
        (upd bin_pos (fun _ => mkIrSB t n (irs_items b) (irl_area lo) (irl_ext lo) (irl_resources lo)) (irc_bins c))
        (irc_number_of_bins c + n) (irl_number_of_items lo) leftover leftover_scaled
        (irc_bin_area c + inject_Z n * ib_area bt)%Q (irl_item_area lo)
        (irl_item_profit lo) (irc_bin_cost c + inject_Z n * ib_cost bt)%Q ext
        (upd t (fun k => k + n) (irc_bin_copies c)) (irl_item_copies lo) missing copies_ok
        (irl_resource_ok lo) in
      let callback_ok := cb c' in
      mkIrS c' callback_ok (copies_ok && callback_ok && irl_resource_ok lo && (missing =? 0))
  end.

Definition irwith_bins (c : IrCore) (bins : list IrSBin) : IrCore :=
  mkIrC bins (irc_number_of_bins c) (irc_number_of_items c) (irc_leftover_orig c) (irc_leftover_scaled c)
    (irc_bin_area c) (irc_item_area c) (irc_item_profit c) (irc_bin_cost c)
    (irc_ext c) (irc_bin_copies c) (irc_item_copies c) (irc_missing c)
    (irc_item_copies_ok c) (irc_resource_ok c).

(** A bin before its indicators are computed. *)
Definition irraw_bin (t : nat) (copies : Z) (items : list IrPlace) : IrSBin := mkIrSB t copies items 0 no_ext [].

(** [bins_.push_back] then [update_indicators(bins_.size() - 1)]. *)
Definition irpush_bin (i : IrInstance) (cb : IrCallback) (s : IrSolution) (b : IrSBin) : IrSolution :=
  irupdate i cb (length (irc_bins (irsol_core s)))
    (mkIrS (irwith_bins (irsol_core s) (irc_bins (irsol_core s) ++ [b])) (irsol_callback_ok s) (irsol_feasible s)).

(** Out-of-range ids are undefined behaviour in the code. *)
Definition irin_range (i : IrInstance) (t : nat) (ps : list IrPlace) : bool :=
  Nat.ltb t (length (ir_bins i)) && forallb (fun p => Nat.ltb (ip_type p) (length (ir_items i))) ps.

Definition irplace_with (p : IrPlace) (id : nat) : IrPlace :=
  mkIrP id (ip_x p) (ip_y p) (ip_angle p) (ip_mirror p) (ip_fixed p).

Fixpoint irmap_ids (ids : list nat) (l : list IrPlace) : option (list IrPlace) :=
  match l with
  | [] => Some []
  | p :: l' =>
      match map_id ids (ip_type p), irmap_ids ids l' with
      | Some id, Some r => Some (irplace_with p id :: r)
      | _, _ => None
      end
  end.

(** Solution::append_bin, solution.cpp:161-191. *)
Definition irappend_bin (i : IrInstance) (cb : IrCallback) (s source : IrSolution) (bin_pos : nat)
    (copies : Z) (bin_type_ids item_type_ids : list nat) : option IrSolution :=
  match nth_error (irc_bins (irsol_core source)) bin_pos with
  | None => None
  | Some b =>
      match map_id bin_type_ids (irs_type b), irmap_ids item_type_ids (irs_items b) with
      | Some t, Some items =>
          if irin_range i t items then Some (irpush_bin i cb s (irraw_bin t copies items)) else None
      | _, _ => None
      end
  end.

(** Solution::append_bins, solution.cpp:193-202. *)
Fixpoint irappend_from (i : IrInstance) (cb : IrCallback) (s source : IrSolution)
    (bin_type_ids item_type_ids : list nat) (positions : list nat) : option IrSolution :=
  match positions with
  | [] => Some s
  | pos :: rest =>
      match nth_error (irc_bins (irsol_core source)) pos with
      | None => None
      | Some b =>
          match irappend_bin i cb s source pos (irs_copies b) bin_type_ids item_type_ids with
          | None => None
          | Some s' => irappend_from i cb s' source bin_type_ids item_type_ids rest
          end
      end
  end.
Definition irappend_bins (i : IrInstance) (cb : IrCallback) (s source : IrSolution)
    (bin_type_ids item_type_ids : list nat) : option IrSolution :=
  irappend_from i cb s source bin_type_ids item_type_ids (seq 0 (length (irc_bins (irsol_core source)))).

(** Solution::append_empty_bin, solution.cpp:204-213. *)
Definition irappend_empty (i : IrInstance) (cb : IrCallback) (s : IrSolution) (t : nat) (copies : Z)
    : option IrSolution :=
  if irin_range i t [] then Some (irpush_bin i cb s (irraw_bin t copies [])) else None.

(** ** SolutionBuilder, solution_builder.cpp *)

(** add_bin, :10-23.  The id is not checked: out of range is undefined. *)
Definition irb_add_bin (i : IrInstance) (bins : list IrSBin) (t : nat) (copies : Z) : option (list IrSBin) :=
  if irin_range i t [] then Some (bins ++ [irraw_bin t copies []]) else None.

(** add_item, :25-61: throws if the item type is out of range or if the
    orientation is not allowed; [bin_pos] is not checked (undefined). *)
Definition irb_add_item (i : IrInstance) (bins : list IrSBin) (bin_pos : nat) (p : IrPlace) : option (list IrSBin) :=
  if Nat.ltb bin_pos (length bins) && Nat.ltb (ip_type p) (length (ir_items i))
     && is_rotation_allowed (iritem i (ip_type p)) (ip_angle p) (ip_mirror p)
  then Some (upd bin_pos (fun b => mkIrSB (irs_type b) (irs_copies b) (irs_items b ++ [p]) (irs_area b)
                                     (irs_ext b) (irs_resources b)) bins)
  else None.

(** build, :96-106. *)
Definition irb_build (i : IrInstance) (cb : IrCallback) (bins : list IrSBin) : IrSolution :=
  fold_left (fun s pos => irupdate i cb pos s) (seq 0 (length bins))
    (mkIrS (irwith_bins (irsol_core (irsol_new i)) bins) (irsol_callback_ok (irsol_new i)) (irsol_feasible (irsol_new i))).

Inductive IrBuilderCall : Type :=
| IrAddBin (t : nat) (copies : Z)
| IrAddItem (bin_pos : nat) (p : IrPlace).

Definition irb_call (i : IrInstance) (bins : list IrSBin) (c : IrBuilderCall) : option (list IrSBin) :=
  match c with
  | IrAddBin t copies => irb_add_bin i bins t copies
  | IrAddItem pos p => irb_add_item i bins pos p
  end.

Fixpoint irb_run (i : IrInstance) (bins : list IrSBin) (calls : list IrBuilderCall) : option (list IrSBin) :=
  match calls with
  | [] => Some bins
  | c :: rest => match irb_call i bins c with Some bins' => irb_run i bins' rest | None => None end
  end.

Inductive IrSolutionCall : Type :=
| IrAppendBin (source : IrSolution) (bin_pos : nat) (copies : Z) (bin_type_ids item_type_ids : list nat)
| IrAppendBins (source : IrSolution) (bin_type_ids item_type_ids : list nat)
| IrAppendEmpty (t : nat) (copies : Z).

Definition irsol_call (i : IrInstance) (cb : IrCallback) (s : IrSolution) (c : IrSolutionCall) : option IrSolution :=
  match c with
  | IrAppendBin source pos copies bids iids => irappend_bin i cb s source pos copies bids iids
  | IrAppendBins source bids iids => irappend_bins i cb s source bids iids
  | IrAppendEmpty t copies => irappend_empty i cb s t copies
  end.

Fixpoint irsol_run (i : IrInstance) (cb : IrCallback) (s : IrSolution) (calls : list IrSolutionCall) : option IrSolution :=
  match calls with
  | [] => Some s
  | c :: rest => match irsol_call i cb s c with Some s' => irsol_run i cb s' rest | None => None end
  end.

(** Builder calls, [build], then appends. *)
Definition irhistory (i : IrInstance) (cb : IrCallback) (calls1 : list IrBuilderCall)
    (calls2 : list IrSolutionCall) : option IrSolution :=
  match irb_run i [] calls1 with
  | None => None
  | Some bins => irsol_run i cb (irb_build i cb bins) calls2
  end.

(** ** Derived values and comparison *)

(** Solution::density_x, solution.cpp:215-226: the area the items are divided
    by; a solution without bins has area 0 (0/0 is not a number).  [x_max_] is
    finite when there is a bin. *)
Definition density_x_area (i : IrInstance) (s : IrSolution) : Q :=
  let c := irsol_core s in
  match rev (irc_bins c) with
  | [] => irc_bin_area c
  | b :: _ =>
      let bt := irbin i (irs_type b) in
      (irc_bin_area c - ib_area bt + ext_q (ie_xmax (irc_ext c)) * (iy_max (ib_aabb bt) - iy_min (ib_aabb bt)))%Q
  end.
(** Solution::density_y, solution.cpp:228-239. *)
Definition density_y_area (i : IrInstance) (s : IrSolution) : Q :=
  let c := irsol_core s in
  match rev (irc_bins c) with
  | [] => irc_bin_area c
  | b :: _ =>
      let bt := irbin i (irs_type b) in
      (irc_bin_area c - ib_area bt + ext_q (ie_ymax (irc_ext c)) * (ix_max (ib_aabb bt) - ix_min (ib_aabb bt)))%Q
  end.

(** Solution::open_dimension_xy_area, solution.cpp:241-254; [None] is +infinity,
    the value without bins. *)
Definition xy_area (i : IrInstance) (e : IrExt) : option Q :=
  match ie_xmin e, ie_xmax e, ie_ymin e, ie_ymax e with
  | Some x_min, Some x_max, Some y_min, Some y_max =>
      let dx := (x_max - x_min)%Q in
      let dy := (y_max - y_min)%Q in
      if Qle_bool (ir_ratio i) 0 then Some (dx * dy)%Q
      else let a := (dx * dx * ir_ratio i)%Q in
           let b := (dy * dy / ir_ratio i)%Q in
           Some (if Qltb a b then b else a)
  | _, _, _, _ => None
  end.

(** Comparisons [v1 < v2] where [None] is +infinity ... *)
Definition lt_pinf (v1 v2 : option Q) : bool :=
  match v1, v2 with
  | Some a, Some b => Qltb a b
  | Some _, None => true
  | None, _ => false
  end.
(** ... and where it is -infinity. *)
Definition lt_minf (v1 v2 : option Q) : bool :=
  match v1, v2 with
  | Some a, Some b => Qltb a b
  | None, Some _ => true
  | _, None => false
  end.

(** [shape::strictly_greater(std::sqrt(a), std::sqrt(b))]: the difference of the
    roots is above the tolerance [e] of the shape library (an argument here).
    The square roots are not computed: the comparison of the roots is written
    on their squares ([sqrt_greater_spec] of Irr_Proof.v).  The root of a
    negative number is not a number and compares false. *)
Definition sqrt_greater (e a b : Q) : bool :=
  if Qltb a 0 || Qltb b 0 then false
  else let d := (a - b - e * e)%Q in
       Qltb 0 d && Qltb (4 * e * e * b) (d * d).

(** Solution::operator<, solution.cpp:398-441.  [None]: throws. *)
Definition irsol_lt (e : Q) (i : IrInstance) (s1 s2 : IrSolution) : option bool :=
  let c1 := irsol_core s1 in
  let c2 := irsol_core s2 in
  if negb (irsol_feasible s2) then Some false
  else if negb (irsol_feasible s1) then Some true
  else match ir_objective i with
  | OBinPacking => Some (irc_number_of_bins c2 <? irc_number_of_bins c1)
  | OBinPackingWithLeftovers =>
      if negb (irc_number_of_bins c2 =? irc_number_of_bins c1)
      then Some (irc_number_of_bins c2 <? irc_number_of_bins c1)
      else Some (sqrt_greater e (irc_leftover_scaled c2) (irc_leftover_scaled c1))
  | OOpenDimensionX => Some (lt_minf (ie_xmax (irc_ext c2)) (ie_xmax (irc_ext c1)))
  | OOpenDimensionY => Some (lt_minf (ie_ymax (irc_ext c2)) (ie_ymax (irc_ext c1)))
  | OOpenDimensionXY => Some (lt_pinf (xy_area i (irc_ext c2)) (xy_area i (irc_ext c1)))
  | OKnapsack => Some (strictly_greater_profit (irc_item_profit c2) (irc_item_profit c1))
  | OFeasibility => Some (strictly_greater_profit (irc_item_profit c2) (irc_item_profit c1))
  | OVariableSizedBinPacking => Some (strictly_lesser_cost (irc_bin_cost c2) (irc_bin_cost c1))
  | _ => None
  end.
