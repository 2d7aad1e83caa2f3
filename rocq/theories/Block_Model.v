(** * The block generation loop, common to three problem types

    compute_blocks_for_bin is written three times with the same control flow:
    /repo/src/rectangle/block.cpp:140-288, /repo/src/box/block.cpp:153-335 and
    /repo/src/rectangleguillotine/block.cpp:124-257.  This file models the control
    flow once, for any type of blocks; the files RectBlock_Model, BoxBlock_Model and
    GuilBlock_Model give the blocks of each problem type. *)

From Coq Require Import List ZArith QArith Bool.
From Verif Require Import Util Common_Model.
Import ListNotations.
Open Scope Z_scope.

(** Sparse list of (item type, number of copies). *)
Definition Copies := list (nat * Z).

(** is_valid_item_copies, /repo/src/rectangle/block.cpp:71-96 (box:72-97,
    guillotine:56-81); [cap x] is the number of copies of item type [x]. *)
Fixpoint valid_copies (cap : nat -> Z) (l1 : Copies) : Copies -> bool :=
  fix go (l2 : Copies) : bool :=
    match l1, l2 with
    | [], [] => true
    | [], (x2, c2) :: r2 => if cap x2 <? c2 then false else go r2
    | (x1, c1) :: r1, [] => if cap x1 <? c1 then false else valid_copies cap r1 []
    | (x1, c1) :: r1, (x2, c2) :: r2 =>
        if Nat.ltb x1 x2 then if cap x1 <? c1 then false else valid_copies cap r1 l2
        else if Nat.ltb x2 x1 then if cap x2 <? c2 then false else go r2
        else if cap x1 <? c1 + c2 then false else valid_copies cap r1 r2
    end.

(** merge_item_copies, /repo/src/rectangle/block.cpp:98-123 (box:105-130,
    guillotine:83-107). *)
Fixpoint merge_copies (l1 : Copies) : Copies -> Copies :=
  fix go (l2 : Copies) : Copies :=
    match l1, l2 with
    | [], [] => []
    | [], (x2, c2) :: r2 => (x2, c2) :: go r2
    | (x1, c1) :: r1, [] => (x1, c1) :: merge_copies r1 []
    | (x1, c1) :: r1, (x2, c2) :: r2 =>
        if Nat.ltb x1 x2 then (x1, c1) :: merge_copies r1 l2
        else if Nat.ltb x2 x1 then (x2, c2) :: go r2
        else (x1, c1 + c2) :: merge_copies r1 r2
    end.

Fixpoint copies_eqb (l1 l2 : Copies) : bool :=
  match l1, l2 with
  | [], [] => true
  | (x1, c1) :: r1, (x2, c2) :: r2 => Nat.eqb x1 x2 && (c1 =? c2) && copies_eqb r1 r2
  | _, _ => false
  end.

(** BlockFillRateLess, /repo/src/rectangle/block.cpp:125-138 (box:139-152,
    guillotine:109-122), on the number of items and the efficiency of the two
    blocks; efficiencies are exact rationals here. *)
Definition rate_less (n1 : Z) (e1 : Q) (n2 : Z) (e2 : Q) : bool :=
  if (n1 =? 1) && negb (n2 =? 1) then false
  else if negb (n1 =? 1) && (n2 =? 1) then true
  else if negb (Qeq_bool e1 e2) then Qltb e1 e2
  else n2 <? n1.

Section Engine.

Context {B K : Type}.
Variable key : B -> K.
Variable key_eqb : K -> K -> bool.
Variable less : B -> B -> bool.
(** popped blocks that are neither combined nor returned *)
Variable skip : B -> bool.
(** [combine cur b idx e]: the combined blocks of the popped block [b], which will
    have index [cur] among the returned blocks, and of the returned block [e] of
    index [idx]: one for each direction in which the envelope fits in the bin, if
    the numbers of copies allow it and if the two blocks are not grids of the same
    item type and rotation.  In the code the check of the numbers of copies comes
    after the comparison with the worst waiting block; both only skip. *)
Variable combine : nat -> B -> nat -> B -> list B.
(** parameters.maximum_number_of_blocks; -1: no limit *)
Variable maximum : Z.

Definition capped : bool := negb (maximum =? -1).

(** std::multiset::insert: after the blocks that are not greater. *)
Fixpoint qinsert (b : B) (q : list B) : list B :=
  match q with
  | [] => [b]
  | c :: r => if less b c then b :: q else c :: qinsert b r
  end.

(** blocks_to_process (worst first) and seen. *)
Definition Waiting := (list B * list K)%type.

Definition seen_in (k : K) (seen : list K) : bool := existsb (key_eqb k) seen.

(** The lambda enqueue, /repo/src/rectangle/block.cpp:152-160 (box:170-178,
    guillotine:138-146). *)
Definition enqueue (w : Waiting) (b : B) : Waiting :=
  let '(q, seen) := w in
  let q' := qinsert b q in
  if capped && (maximum <? Z.of_nat (length q')) then
    match q' with
    | c :: r => (r, filter (fun k => negb (key_eqb (key c) k)) seen)
    | [] => (q', seen)
    end
  else (q', seen).

(** :201-205 (box:226-230, guillotine:178-182). *)
Definition offer (w : Waiting) (b : B) : Waiting :=
  if seen_in (key b) (snd w) then w else enqueue (fst w, key b :: snd w) b.

(** :251-255 and :266-280 (box:298-302 and :312-327, guillotine:229-233 and
    :242-249): a combined block must be better than the worst waiting block when
    there is no room left.  (The set is not empty at *begin(): it has at least
    [maximum] elements and the loop stops when [maximum] is not positive.) *)
Definition offer_combined (w : Waiting) (b : B) : Waiting :=
  if capped && (maximum <=? Z.of_nat (length (fst w)))
     && negb match fst w with c :: _ => less c b | [] => false end
  then w else offer w b.

(** :225-282 (box:263-330, guillotine:205-251). *)
Definition all_combined (returned : list B) (b : B) : list B :=
  flat_map (fun idx => match nth_error returned idx with
                       | Some e => combine (length returned) b idx e
                       | None => []
                       end) (seq 0 (length returned)).

(** The loop :211-285 (box:240-332, guillotine:188-254).  [None]: more iterations
    than [fuel]. *)
Fixpoint blocks_loop (fuel : nat) (w : Waiting) (returned : list B) : option (list B) :=
  match fuel with
  | O => None
  | S fuel' =>
      match rev (fst w) with
      | [] => Some returned
      | b :: r =>
          if capped && (maximum <=? Z.of_nat (length returned)) then Some returned
          else
            let w' := (rev r, snd w) in
            if skip b then blocks_loop fuel' w' returned
            else blocks_loop fuel' (fold_left offer_combined (all_combined returned b) w') (returned ++ [b])
      end
  end.

(** The whole function, from the list of the grids in the order they are made. *)
Definition blocks_run (fuel : nat) (grids : list B) : option (list B) :=
  blocks_loop fuel (fold_left offer grids ([], [])) [].

End Engine.
