(** * Box blocks: compute_blocks and compute_max_reachable_lengths

    /repo/src/box/block.hpp and block.cpp.  Integers are unbounded: the conversion
    of bin_box.x / rotated_box.x to ItemPos (32 bits) is the identity. *)

From Coq Require Import List ZArith QArith Bool.
From Verif Require Import Util Common_Model Box_Model Box_Spec Block_Model RectBlock_Model.
Import ListNotations.
Open Scope Z_scope.

(** Block, /repo/src/box/block.hpp:19-60.  [xk_rot] is [None] where the code leaves
    the rotation uninitialised (combined blocks), which is never read. *)
Record XBlock : Type := mkXBlock {
  xk_box : Vec; xk_volume : Z; xk_profit : Q; xk_weight : Q;
  xk_simple : bool; xk_item : Z; xk_rot : option Rotation;
  xk_copies : Copies; xk_items : list BPlace; xk_number : Z
}.

(** fill_rate() and efficiency(), /repo/src/box/block.hpp:57-59; exact here. *)
Definition xk_fill (b : XBlock) : Q := (inject_Z (xk_volume b) / inject_Z (vol (xk_box b)))%Q.
Definition xk_efficiency (b : XBlock) : Q := (xk_profit b / inject_Z (vol (xk_box b)))%Q.

(** make_key and BlockKeyEqual, /repo/src/box/block.cpp:33-71. *)
Definition xk_key (b : XBlock) : Vec * Copies := (xk_box b, xk_copies b).
Definition xk_key_eqb (k1 k2 : Vec * Copies) : bool := veqb (fst k1) (fst k2) && copies_eqb (snd k1) (snd k2).

(** BlockFillRateLess, /repo/src/box/block.cpp:140-153. *)
Definition xk_less (a b : XBlock) : bool := rate_less (xk_number a) (xk_efficiency a) (xk_number b) (xk_efficiency b).

(** The vector with [d] along axis [a] and 0 along the others. *)
Definition along (a : Axis) (d : Z) : Vec :=
  match a with AX => mkV d 0 0 | AY => mkV 0 d 0 | AZ => mkV 0 0 d end.
Definition vshift (d : Vec) (p : BPlace) : BPlace :=
  mkBP (bp_type p) (mkV (v_x (bp_pos p) + v_x d) (v_y (bp_pos p) + v_y d) (v_z (bp_pos p) + v_z d)) (bp_rot p).

Section Box.

Variable i : BInstance.

(** item_type.box.rotate(rotation) *)
Definition rbox (x : nat) (r : Rotation) : Vec := rotate (bi_box (bxitem i x)) r.

(** /repo/src/box/block.cpp:205-230 *)
Definition xgrid_block (x : nat) (r : Rotation) (cx cy cz : Z) : XBlock :=
  let it := bxitem i x in
  let rb := rbox x r in
  {| xk_box := mkV (cx * v_x rb) (cy * v_y rb) (cz * v_z rb);
     xk_volume := cx * cy * cz * vol (bi_box it);
     xk_profit := (inject_Z (cx * cy * cz) * bi_profit it)%Q;
     xk_weight := (inject_Z (cx * cy * cz) * bi_weight it)%Q;
     xk_simple := true; xk_item := Z.of_nat x; xk_rot := Some r;
     xk_copies := [(x, cx * cy * cz)];
     xk_items := flat_map (fun ccx => flat_map (fun ccy => map (fun ccz =>
       mkBP x (mkV (ccx * v_x rb) (ccy * v_y rb) (ccz * v_z rb)) r) (below cz)) (below cy)) (below cx);
     xk_number := cx * cy * cz |}.

(** /repo/src/box/block.cpp:190-240, one item type and rotation; [None]: division by
    zero.  The division by the second side is only evaluated if the first loop is
    entered, the division by the third side if the second loop is. *)
Definition xgrids_rot (bt : BBin) (x : nat) (r : Rotation) : option (list XBlock) :=
  let c := bi_copies (bxitem i x) in
  let rb := rbox x r in let bb := bn_box bt in
  if v_x rb =? 0 then None
  else
    let mx := Z.min c (Z.quot (v_x bb) (v_x rb)) in
    if mx <? 1 then Some []
    else if v_y rb =? 0 then None
    else
      let my cx := Z.min (Z.quot c cx) (Z.quot (v_y bb) (v_y rb)) in
      if my 1 <? 1 then Some []
      else if v_z rb =? 0 then None
      else Some (flat_map (fun cx => flat_map (fun cy => map (xgrid_block x r cx cy)
        (one_to (Z.min (Z.quot c (cx * cy)) (Z.quot (v_z bb) (v_z rb))))) (one_to (my cx))) (one_to mx)).

(** /repo/src/box/block.cpp:181-243 *)
Definition xgrids (bt : BBin) : option (list XBlock) :=
  concat_all (flat_map (fun x =>
    if bi_copies (bxitem i x) <? 1 then []
    else map (xgrids_rot bt x) (bi_rotations (bxitem i x))) (seq 0 (length (bx_items i)))).

(** /repo/src/box/block.cpp:257-260 *)
Definition xk_skip (b : XBlock) : bool :=
  (Nat.leb (length (bx_items i)) 3) && negb (Qeq_bool (xk_fill b) 1).

(** /repo/src/box/block.cpp:277-330, one direction *)
Definition xcombined (b e : XBlock) (d : Axis) : XBlock :=
  {| xk_box :=
       match d with
       | AX => mkV (v_x (xk_box b) + v_x (xk_box e)) (Z.max (v_y (xk_box b)) (v_y (xk_box e))) (Z.max (v_z (xk_box b)) (v_z (xk_box e)))
       | AY => mkV (Z.max (v_x (xk_box b)) (v_x (xk_box e))) (v_y (xk_box b) + v_y (xk_box e)) (Z.max (v_z (xk_box b)) (v_z (xk_box e)))
       | AZ => mkV (Z.max (v_x (xk_box b)) (v_x (xk_box e))) (Z.max (v_y (xk_box b)) (v_y (xk_box e))) (v_z (xk_box b) + v_z (xk_box e))
       end;
     xk_volume := xk_volume b + xk_volume e;
     xk_profit := (xk_profit b + xk_profit e)%Q;
     xk_weight := (xk_weight b + xk_weight e)%Q;
     xk_simple := false; xk_item := -1; xk_rot := None;
     xk_copies := merge_copies (xk_copies b) (xk_copies e);
     xk_items := xk_items b ++ map (vshift (along d (vat (xk_box b) d))) (xk_items e);
     xk_number := xk_number b + xk_number e |}.

Definition same_rot (r s : option Rotation) : bool :=
  match r, s with Some a, Some b => rot_eqb a b | _, _ => false end.

(** /repo/src/box/block.cpp:271-332: the two blocks are not grids of the same item type
    and rotation, the envelope fits in the bin, the copies are available. *)
Definition xk_combine (bt : BBin) (cur : nat) (b : XBlock) (idx : nat) (e : XBlock) : list XBlock :=
  if xk_simple b && xk_simple e && (xk_item b =? xk_item e) && same_rot (xk_rot b) (xk_rot e) then []
  else flat_map (fun d =>
    let c := xcombined b e d in
    if (v_x (bn_box bt) <? v_x (xk_box c)) || (v_y (bn_box bt) <? v_y (xk_box c)) || (v_z (bn_box bt) <? v_z (xk_box c)) then []
    else if valid_copies (fun x => bi_copies (bxitem i x)) (xk_copies b) (xk_copies e) then [c] else []) axes.

(** Result of a call, as for rectangle blocks. *)
Inductive XBlocksResult : Type := XCrashed | XUnfinished | XBlocks (l : list XBlock).

(** compute_blocks_for_bin, /repo/src/box/block.cpp:155-335 *)
Definition xcompute_blocks_for_bin (bt : BBin) (maximum : Z) (fuel : nat) : XBlocksResult :=
  match xgrids bt with
  | None => XCrashed
  | Some g =>
      match blocks_run xk_key xk_key_eqb xk_less xk_skip (xk_combine bt) maximum fuel g with
      | None => XUnfinished
      | Some l => XBlocks l
      end
  end.

(** compute_blocks, /repo/src/box/block.cpp:406-419: the result for each bin type. *)
Definition xcompute_blocks (maximum : Z) (fuel : nat) : list XBlocksResult :=
  map (fun bt => xcompute_blocks_for_bin bt maximum fuel) (bx_bins i).

(** compute_max_reachable_lengths, /repo/src/box/block.cpp:343-404.  One axis at a time:
    the axes do not interact. *)
Definition xmax_side (a : Axis) : Z := fold_left (fun m bt => Z.max m (vat (bn_box bt) a)) (bx_bins i) 0.
Definition xreach_all (a : Axis) : list bool :=
  fold_left (fun reachable x =>
    Nat.iter (Z.to_nat (bi_copies (bxitem i x)))
      (reach_copy (map (fun r => vat (rbox x r) a) (bi_rotations (bxitem i x)))) reachable)
    (seq 0 (length (bx_items i))) (true :: repeat false (Z.to_nat (xmax_side a))).
Definition xmax_reachable (a : Axis) : list Z :=
  map (last_reachable (xreach_all a)) (seq 0 (S (Z.to_nat (xmax_side a)))).

End Box.
