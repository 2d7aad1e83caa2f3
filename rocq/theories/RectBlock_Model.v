(** * Rectangle blocks: compute_blocks and compute_max_reachable_lengths

    /repo/src/rectangle/block.hpp and block.cpp.  Integers are unbounded: the
    conversion of bin_rect.x / bx to ItemPos (32 bits) is the identity. *)

From Coq Require Import List ZArith QArith Bool.
From Verif Require Import Util Common_Model Rect_Model Rect_Spec Block_Model.
Import ListNotations.
Open Scope Z_scope.

(** Block, /repo/src/rectangle/block.hpp:19-62. *)
Record RBlock : Type := mkRBlock {
  bk_x : Z; bk_y : Z; bk_area : Z; bk_profit : Q; bk_weight : Q;
  bk_simple : bool; bk_item : Z; bk_rot : bool;
  bk_copies : Copies; bk_items : list Place; bk_number : Z
}.

(** fill_rate() and efficiency(), /repo/src/rectangle/block.hpp:59-61; exact here. *)
Definition bk_fill (b : RBlock) : Q := (inject_Z (bk_area b) / inject_Z (bk_x b * bk_y b))%Q.
Definition bk_efficiency (b : RBlock) : Q := (bk_profit b / inject_Z (bk_x b * bk_y b))%Q.

(** make_key and BlockKeyEqual, /repo/src/rectangle/block.cpp:52-69. *)
Definition bk_key (b : RBlock) : Z * Z * Copies := (bk_x b, bk_y b, bk_copies b).
Definition bk_key_eqb (k1 k2 : Z * Z * Copies) : bool :=
  (fst (fst k1) =? fst (fst k2)) && (snd (fst k1) =? snd (fst k2)) && copies_eqb (snd k1) (snd k2).

(** BlockFillRateLess, /repo/src/rectangle/block.cpp:125-138. *)
Definition bk_less (a b : RBlock) : bool := rate_less (bk_number a) (bk_efficiency a) (bk_number b) (bk_efficiency b).

(** 1, ..., n *)
Definition one_to (n : Z) : list Z := map (fun k => Z.of_nat k + 1) (seq 0 (Z.to_nat n)).
(** 0, ..., n - 1 *)
Definition below (n : Z) : list Z := map Z.of_nat (seq 0 (Z.to_nat n)).

Section Rect.

Variable i : RInstance.

(** ItemType::x(rotate), y(rotate), /repo/include/packingsolver/rectangle/instance.hpp. *)
Definition side_x (x : nat) (rot : bool) : Z := if rot then ri_y (ritem i x) else ri_x (ritem i x).
Definition side_y (x : nat) (rot : bool) : Z := if rot then ri_x (ritem i x) else ri_y (ritem i x).

(** /repo/src/rectangle/block.cpp:181-200 *)
Definition grid_block (x : nat) (rot : bool) (cx cy : Z) : RBlock :=
  let it := ritem i x in
  {| bk_x := cx * side_x x rot; bk_y := cy * side_y x rot;
     bk_area := cx * cy * (ri_x it * ri_y it);
     bk_profit := (inject_Z (cx * cy) * ri_profit it)%Q;
     bk_weight := (inject_Z (cx * cy) * ri_weight it)%Q;
     bk_simple := true; bk_item := Z.of_nat x; bk_rot := rot;
     bk_copies := [(x, cx * cy)];
     bk_items := flat_map (fun ccx => map (fun ccy => mkPl x (ccx * side_x x rot) (ccy * side_y x rot) rot) (below cy)) (below cx);
     bk_number := cx * cy |}.

(** /repo/src/rectangle/block.cpp:169-208, one item type and rotation; [None]:
    division by zero. *)
Definition grids_rot (bt : RBin) (x : nat) (rot : bool) : option (list RBlock) :=
  let c := ri_copies (ritem i x) in
  let bx := side_x x rot in let by_ := side_y x rot in
  if bx =? 0 then None
  else
    let mx := Z.min c (Z.quot (rb_x bt) bx) in
    if by_ =? 0 then if 1 <=? mx then None else Some []
    else Some (flat_map (fun cx =>
      map (grid_block x rot cx) (one_to (Z.min (Z.quot c cx) (Z.quot (rb_y bt) by_)))) (one_to mx)).

Fixpoint concat_all {A : Type} (l : list (option (list A))) : option (list A) :=
  match l with
  | [] => Some []
  | o :: r => match o, concat_all r with Some a, Some b => Some (a ++ b) | _, _ => None end
  end.

(** /repo/src/rectangle/block.cpp:162-209 *)
Definition grids (bt : RBin) : option (list RBlock) :=
  concat_all (flat_map (fun x =>
    if ri_copies (ritem i x) <? 1 then []
    else if ri_oriented (ritem i x) then [grids_rot bt x false]
    else [grids_rot bt x false; grids_rot bt x true]) (seq 0 (length (rin_items i)))).

(** /repo/src/rectangle/block.cpp:220-223 *)
Definition bk_skip (b : RBlock) : bool :=
  (Nat.leb (length (rin_items i)) 3) && negb (Qeq_bool (bk_fill b) 1).

Definition shift (dx dy : Z) (p : Place) : Place := mkPl (pl_type p) (pl_x p + dx) (pl_y p + dy) (pl_rot p).

(** /repo/src/rectangle/block.cpp:232-279, one direction ([true]: X). *)
Definition combined (b e : RBlock) (dir : bool) : RBlock :=
  {| bk_x := if dir then bk_x b + bk_x e else Z.max (bk_x b) (bk_x e);
     bk_y := if dir then Z.max (bk_y b) (bk_y e) else bk_y b + bk_y e;
     bk_area := bk_area b + bk_area e;
     bk_profit := (bk_profit b + bk_profit e)%Q;
     bk_weight := (bk_weight b + bk_weight e)%Q;
     bk_simple := false; bk_item := -1; bk_rot := false;
     bk_copies := merge_copies (bk_copies b) (bk_copies e);
     bk_items := bk_items b ++ map (if dir then shift (bk_x b) 0 else shift 0 (bk_y b)) (bk_items e);
     bk_number := bk_number b + bk_number e |}.

(** /repo/src/rectangle/block.cpp:226-281: the two blocks are not grids of the same
    item type and rotation, the envelope fits in the bin, the copies are available. *)
Definition bk_combine (bt : RBin) (cur : nat) (b : RBlock) (idx : nat) (e : RBlock) : list RBlock :=
  if bk_simple b && bk_simple e && (bk_item b =? bk_item e) && Bool.eqb (bk_rot b) (bk_rot e) then []
  else flat_map (fun dir =>
    let c := combined b e dir in
    if (rb_x bt <? bk_x c) || (rb_y bt <? bk_y c) then []
    else if valid_copies (fun x => ri_copies (ritem i x)) (bk_copies b) (bk_copies e) then [c] else []) [true; false].

(** Result of a call: undefined behaviour (integer division by zero), not finished
    after [fuel] iterations of the loop, or the blocks. *)
Inductive BlocksResult : Type := Crashed | Unfinished | Blocks (l : list RBlock).

(** compute_blocks_for_bin, /repo/src/rectangle/block.cpp:140-288 *)
Definition compute_blocks_for_bin (bt : RBin) (maximum : Z) (fuel : nat) : BlocksResult :=
  match grids bt with
  | None => Crashed
  | Some g =>
      match blocks_run bk_key bk_key_eqb bk_less bk_skip (bk_combine bt) maximum fuel g with
      | None => Unfinished
      | Some l => Blocks l
      end
  end.

(** compute_blocks, /repo/src/rectangle/block.cpp:349-361: the result for each bin type. *)
Definition compute_blocks (maximum : Z) (fuel : nat) : list BlocksResult :=
  map (fun bt => compute_blocks_for_bin bt maximum fuel) (rin_bins i).

(** compute_max_reachable_lengths, /repo/src/rectangle/block.cpp:296-347.  One axis at
    a time: the two axes do not interact. *)

(** :303-310 *)
Definition max_side (f : RBin -> Z) : Z := fold_left (fun m bt => Z.max m (f bt)) (rin_bins i) 0.

(** :329-334: temp_x, from reachable_x, for one rotation; the loop over [v] reads
    reachable_x and only sets temp_x. *)
Definition reach_rot (reachable temp : list bool) (r : Z) : list bool :=
  let m := Z.of_nat (length temp) - 1 in
  if r <=? m
  then map (fun v => nth v temp false
                     || ((r <=? Z.of_nat v) && nth (Z.to_nat (Z.of_nat v - r)) reachable false)) (seq 0 (length temp))
  else temp.

(** :323-338: one copy *)
Definition reach_copy (sides : list Z) (reachable : list bool) : list bool :=
  fold_left (fun temp r => reach_rot reachable temp r) sides reachable.

(** :318-339; [side x rot] is the length along the axis *)
Definition reach_all (side : nat -> bool -> Z) (m : Z) : list bool :=
  fold_left (fun reachable x =>
    Nat.iter (Z.to_nat (ri_copies (ritem i x)))
      (reach_copy (if ri_oriented (ritem i x) then [side x false] else [side x false; side x true])) reachable)
    (seq 0 (length (rin_items i))) (true :: repeat false (Z.to_nat m)).

(** :341-346 *)
Fixpoint last_reachable (reachable : list bool) (v : nat) : Z :=
  match v with
  | O => 0
  | S u => if nth v reachable false then Z.of_nat v else last_reachable reachable u
  end.
Definition max_reachable (side : nat -> bool -> Z) (f : RBin -> Z) : list Z :=
  map (last_reachable (reach_all side (max_side f))) (seq 0 (S (Z.to_nat (max_side f)))).

(** MaxReachableLengths::x and ::y *)
Definition max_reachable_x : list Z := max_reachable side_x rb_x.
Definition max_reachable_y : list Z := max_reachable side_y rb_y.

End Rect.
