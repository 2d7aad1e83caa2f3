(** * Maximal empty spaces and the search that fills them

    /repo/src/rectangle/tree_search_maximal_spaces.{hpp,cpp} (two axes) and
    /repo/src/box/tree_search_maximal_spaces.{hpp,cpp} (three axes).  The two files
    are the same code axis by axis; it is modelled once, a space or a block in a
    position being the list of its (position, length) along the axes.  Where two
    line ranges are given, the first is the rectangle file.

    Integers are unbounded.  The guide of an insertion (contact, loss of area, fill
    rate) is an arbitrary function; item_area, block_area, number_of_blocks and the
    reachable lengths of a node, which only serve the guide, are left out. *)

From Coq Require Import List ZArith QArith Bool.
From Verif Require Import Util Block_Model.
Import ListNotations.
Open Scope Z_scope.

(** EmptySpace, hpp:19-60; the same type for a block in a position. *)
Notation Space := (list (Z * Z)) (only parsing).

Definition a_start (a : Z * Z) : Z := fst a.
Definition a_end (a : Z * Z) : Z := fst a + snd a.

(** EmptySpace::contains, hpp:29-36 *)
Fixpoint sp_contains (e n : Space) : bool :=
  match e, n with
  | a :: e', b :: n' => (a_start a <=? a_start b) && (a_end b <=? a_end a) && sp_contains e' n'
  | _, _ => true
  end.

(** overlaps, cpp:598-606 / :742-750 *)
Fixpoint sp_overlaps (s b : Space) : bool :=
  match s, b with
  | x :: s', y :: b' => (a_start y <? a_end x) && (a_start x <? a_end y) && sp_overlaps s' b'
  | _, _ => true
  end.

(** add_empty_space, cpp:608-618 / :752-762 *)
Definition add_space (spaces : list Space) (n : Space) : list Space :=
  if existsb (fun a => snd a =? 0) n then spaces
  else if existsb (fun e => sp_contains e n) spaces then spaces
  else spaces ++ [n].

(** The sub-spaces of [s] around [b], cpp:632-672 / :783-848: along each axis, the
    part before the block then the part after it. *)
Fixpoint subs (s b : Space) : list Space :=
  match s, b with
  | x :: s', y :: b' =>
      (if a_start x <? a_start y then [(a_start x, a_start y - a_start x) :: s'] else [])
      ++ (if a_end y <? a_end x then [(a_end y, a_end x - a_end y) :: s'] else [])
      ++ map (cons x) (subs s' b')
  | _, _ => []
  end.

(** [l[i] = l.back(); l.pop_back()] *)
Definition swap_remove {A : Type} (i : nat) (l : list A) : list A :=
  match rev l with
  | [] => []
  | z :: r => if Nat.eqb i (length r) then rev r else upd i (fun _ => z) (rev r)
  end.

(** cut_spaces, cpp:620-675 / :764-852; [None]: the loop has not ended after [fuel]
    iterations. *)
Fixpoint cut_loop (fuel i : nat) (spaces : list Space) (b : Space) : option (list Space) :=
  match fuel with
  | O => None
  | S fuel' =>
      match nth_error spaces i with
      | None => Some spaces
      | Some s =>
          if sp_overlaps s b
          then cut_loop fuel' i (fold_left add_space (subs s b) (swap_remove i spaces)) b
          else cut_loop fuel' (S i) spaces b
      end
  end.

(** Enough iterations: see [cut_total] in Space_Proof.v. *)
Definition cut_fuel (spaces : list Space) (b : Space) : nat :=
  S (length spaces * S (2 * length b)).
Definition cut_spaces (spaces : list Space) (b : Space) : option (list Space) :=
  cut_loop (cut_fuel spaces b) 0 spaces b.

(** Successive cuts. *)
Fixpoint cut_all (spaces : list Space) (obstacles : list Space) : option (list Space) :=
  match obstacles with
  | [] => Some spaces
  | b :: rest => match cut_spaces spaces b with Some l => cut_all l rest | None => None end
  end.

(** The loops that remove the elements not kept, cpp:433-450, :458-480. *)
Fixpoint swap_filter_loop {A : Type} (keep : A -> bool) (fuel i : nat) (l : list A) : list A :=
  match fuel with
  | O => l
  | S fuel' =>
      match nth_error l i with
      | None => l
      | Some a => if keep a then swap_filter_loop keep fuel' (S i) l else swap_filter_loop keep fuel' i (swap_remove i l)
      end
  end.
Definition swap_filter {A : Type} (keep : A -> bool) (l : list A) : list A := swap_filter_loop keep (length l) 0 l.

(** A block as the search sees it, rectangle/block.hpp:19-62, box/block.hpp. *)
Record SBlock : Type := mkSBlock { sb_dims : list Z; sb_copies : Copies; sb_weight : Q; sb_number : Z }.

(** Node, hpp:128-190 *)
Record SNode : Type := mkSN {
  sn_spaces : list Space;
  sn_valid : list nat;
  sn_copies : list Z;
  sn_profit : Q;
  sn_weight : Q;
  sn_items : Z;
  sn_placed : list (nat * list Z)
}.

(** What the constructor receives, cpp:52-68: the (clipped) sides of the bin, the
    defects (none for box), the blocks, the maximum weight, and the numbers of copies
    and profits of the item types. *)
Record SData : Type := mkSD {
  sd_bin : list Z;
  sd_defects : list Space;
  sd_blocks : list SBlock;
  sd_max_weight : option Q;
  sd_copies : list Z;
  sd_profits : list Q
}.

Definition dummy_sblock : SBlock := mkSBlock [] [] 0 0.

Section Search.

Variable d : SData.

Definition sblock (id : nat) : SBlock := nth id (sd_blocks d) dummy_sblock.

(** The block fits in the space, cpp:235-237, :276-278, :466-467. *)
Fixpoint fits (dims : list Z) (s : Space) : bool :=
  match dims, s with
  | l :: dims', a :: s' => (l <=? snd a) && fits dims' s'
  | _, _ => true
  end.

(** remove_unusable_spaces, cpp:458-480 / :601-622 *)
Definition usable (valid : list nat) (s : Space) : bool := existsb (fun id => fits (sb_dims (sblock id)) s) valid.

Definition bin_space : Space := map (fun l => (0, l)) (sd_bin d).

(** root, cpp:70-90 / :125-139 (no defects). *)
Definition root : option SNode :=
  match cut_all [bin_space] (sd_defects d) with
  | None => None
  | Some spaces =>
      let valid := seq 0 (length (sd_blocks d)) in
      Some (mkSN (match sd_defects d with [] => spaces | _ => swap_filter (usable valid) spaces end)
              valid (map (fun _ => 0) (sd_copies d)) 0 0 0 [])
  end.

(** compute_anchor_info, cpp:20-34 / :29-50: the direction along each axis and the
    distance. *)
Fixpoint anchor (s : Space) (bin : list Z) : Z * list bool :=
  match s, bin with
  | a :: s', l :: bin' =>
      let '(dist, dirs) := anchor s' bin' in
      (Z.min (a_start a) (l - a_end a) + dist, (l - a_end a <? a_start a) :: dirs)
  | _, _ => (0, [])
  end.

Definition sp_volume (s : Space) : Z := fold_right Z.mul 1 (map snd s).
Definition corner (dirs : list bool) : Z := fold_left (fun c b => 2 * c + (if b : bool then 1 else 0)) dirs 0.

(** find_best_space, cpp:92-121 / :141-170; the first space always beats the initial
    values. *)
Definition better_space (s best : Space) : bool :=
  let '(ds, rs) := anchor s (sd_bin d) in
  let '(db, rb) := anchor best (sd_bin d) in
  (ds <? db) || ((ds =? db) && (sp_volume best <? sp_volume s))
  || ((ds =? db) && (sp_volume s =? sp_volume best) && (corner rb <? corner rs)).
Definition find_best_space (spaces : list Space) : option Space :=
  fold_left (fun best s => match best with
    | None => Some s
    | Some b => if better_space s b then Some s else Some b
    end) spaces None.

(** compute_block_position, cpp:36-45 / :52-64 *)
Fixpoint block_position (dirs : list bool) (s : Space) (dims : list Z) : list Z :=
  match dirs, s, dims with
  | b :: dirs', a :: s', l :: dims' => (if b : bool then a_end a - l else a_start a) :: block_position dirs' s' dims'
  | _, _, _ => []
  end.

(** [parent->weight + block.weight > maximum_weight] *)
Definition too_heavy (w : Q) : bool :=
  match sd_max_weight d with None => false | Some m => negb (Qle_bool w m) end.

(** insertions, cpp:207-257 / :287-334, before the sort by guide; an insertion is the
    block and its position. *)
Definition insertions (n : SNode) : list (nat * list Z) :=
  match find_best_space (sn_spaces n) with
  | None => []
  | Some s =>
      let dirs := snd (anchor s (sd_bin d)) in
      flat_map (fun id =>
        let b := sblock id in
        if negb (fits (sb_dims b) s) then []
        else if too_heavy (sn_weight n + sb_weight b)%Q then []
        else [(id, block_position dirs s (sb_dims b))]) (sn_valid n)
  end.

(** The copies in a block remain available, cpp:437-443 / :583-589. *)
Definition copies_left (copies : list Z) (b : SBlock) : bool :=
  forallb (fun xc => nth (fst xc) copies 0 + snd xc <=? nth (fst xc) (sd_copies d) 0) (sb_copies b).

(** The box a block occupies at a position. *)
Fixpoint at_pos (pos dims : list Z) : Space :=
  match pos, dims with
  | p :: pos', l :: dims' => (p, l) :: at_pos pos' dims'
  | _, _ => []
  end.

(** apply_insertion, cpp:409-455 / :553-624 *)
Definition apply_insertion (n : SNode) (ins : nat * list Z) : option SNode :=
  let b := sblock (fst ins) in
  let copies := fold_left (fun cs xc => upd (fst xc) (fun c => c + snd xc) cs) (sb_copies b) (sn_copies n) in
  let profit := fold_left (fun p xc => (p + nth (fst xc) (sd_profits d) 0 * inject_Z (snd xc))%Q) (sb_copies b) (sn_profit n) in
  let valid := swap_filter (fun id => copies_left copies (sblock id)) (sn_valid n) in
  match cut_spaces (sn_spaces n) (at_pos (snd ins) (sb_dims b)) with
  | None => None
  | Some spaces =>
      Some (mkSN (swap_filter (usable valid) spaces) valid copies profit (sn_weight n + sb_weight b)%Q
              (sn_items n + sb_number b) (sn_placed n ++ [ins]))
  end.

(** best_insertion, cpp:259-301 / :336-380; [score] is the guide. *)
Definition best_insertion (score : SNode -> nat * list Z -> Q) (n : SNode) : option (nat * list Z) :=
  fst (fold_left (fun acc ins =>
    if Qle_bool (score n ins) (snd acc) then acc else (Some ins, score n ins)) (insertions n) (None, 0%Q)).

(** The greedy completion in to_solution and compute_guide_greedy, cpp:531-537,
    :561-568 / :672-678, :702-709.  [None]: not ended after [fuel] insertions. *)
Fixpoint greedy (score : SNode -> nat * list Z -> Q) (fuel : nat) (n : SNode) : option SNode :=
  match fuel with
  | O => None
  | S fuel' =>
      match best_insertion score n with
      | None => Some n
      | Some ins => match apply_insertion n ins with None => None | Some n' => greedy score fuel' n' end
      end
  end.

(** The nodes of the search: the root and the children next_child gives, cpp:571-592 /
    :712-736. *)
Inductive node_of : SNode -> Prop :=
| no_root : forall n, root = Some n -> node_of n
| no_child : forall n ins n', node_of n -> In ins (insertions n) -> apply_insertion n ins = Some n' -> node_of n'.

End Search.
