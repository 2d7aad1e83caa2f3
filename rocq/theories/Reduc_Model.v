(** * Model of the rectangle reduction
    [include/packingsolver/rectangle/reduction.hpp], [src/rectangle/reduction.cpp]
    ("packing and removing some items").

    The sub-solver called on the companion bins, the subset-sum solver and the
    timer are oracles, given the number of the call.  An access out of the range
    of a vector is [None].  The builder used for the sub-instances and for the
    reduced instance is the subject of [RectBuilder_Model]; here the instances
    are written directly. *)

From Coq Require Import List ZArith QArith Bool Arith.
From Verif Require Import Util Common_Model OneDim_Model Rect_Model Rect_Spec.
Import ListNotations.
Open Scope Z_scope.

(** CompanionItem, reduction.hpp: an item type, its offset from the item it goes
    with, its rotation, and its own companions.  Also used for
    BothGroup::PlacedItem, whose offset is from the corner of the bin. *)
Inductive Comp : Type := mkComp (x : nat) (dx dy : Z) (rot : bool) (nested : list Comp).

Definition co_type (c : Comp) : nat := let '(mkComp x _ _ _ _) := c in x.
Definition co_dx (c : Comp) : Z := let '(mkComp _ dx _ _ _) := c in dx.
Definition co_dy (c : Comp) : Z := let '(mkComp _ _ dy _ _) := c in dy.
Definition co_rot (c : Comp) : bool := let '(mkComp _ _ _ r _) := c in r.
Definition co_nested (c : Comp) : list Comp := let '(mkComp _ _ _ _ n) := c in n.

(** place_item_and_companions, reduction.cpp:1412-1433: the items placed for an
    item at offset of a corner. *)
Fixpoint place_comp (x y : Z) (c : Comp) : list Place :=
  match c with
  | mkComp t dx dy r nested => mkPl t (x + dx) (y + dy) r :: flat_map (place_comp (x + dx) (y + dy)) nested
  end.

(** ReductionItemType, reduction.hpp. *)
Record RT : Type := mkRT {
  rt_x : Z;
  rt_y : Z;
  rt_copies : Z;
  rt_removed : bool;
  rt_comps : list (list Comp)
}.
Definition dummy_rt : RT := mkRT 0 0 0 true [].

(** FullBinItem, PerfectPair, reduction.hpp.  A BothGroup is a list of placed
    items. *)
Record FullBin : Type := mkFB { fb_item : nat; fb_rot : bool; fb_copies : Z; fb_comps : list (list Comp) }.
Record PPair : Type := mkPP {
  pp_1 : nat; pp_2 : nat; pp_dx : Z; pp_dy : Z; pp_copies : Z;
  pp_comps_1 : list (list Comp); pp_comps_2 : list (list Comp)
}.

(** The working representation, with the number of oracle calls made so far. *)
Record Red : Type := mkRed {
  re_types : list RT;
  re_full : list FullBin;
  re_pairs : list PPair;
  re_groups : list (list Comp);
  re_calls : nat
}.
Definition rtype (s : Red) (x : nat) : RT := nth x (re_types s) dummy_rt.
Definition with_types (s : Red) (l : list RT) : Red := mkRed l (re_full s) (re_pairs s) (re_groups s) (re_calls s).
Definition called (s : Red) : Red := mkRed (re_types s) (re_full s) (re_pairs s) (re_groups s) (S (re_calls s)).

Record ROracle : Type := mkRO {
  ro_solve : nat -> RInstance -> option (list RDesc);  (* the best solution of the sub-solve, if full *)
  ro_subset_sum : Z -> list (list Z) -> Z;              (* bound of the multiple-choice subset-sum solver *)
  ro_end : nat -> bool                                  (* timer.needs_to_end() *)
}.

(** number_of_dedicated_bins, reduction.cpp:1058-1067. *)
Definition dedicated (s : Red) : Z :=
  zsum fb_copies (re_full s) + zsum pp_copies (re_pairs s) + Z.of_nat (length (re_groups s)).

(** has_validated_companions, reduction.cpp:40-48. *)
Definition validated (entries : list (list Comp)) : bool :=
  existsb (fun e => match e with [] => false | _ => true end) entries.

(** extract_companions, reduction.cpp:50-67: the entries taken, and the entries
    left. *)
Definition extract (comps : list (list Comp)) (copies : Z) : option (list (list Comp) * list (list Comp)) :=
  match comps with
  | [] => Some (repeat [] (Z.to_nat copies), [])
  | _ => if Nat.ltb (length comps) (Z.to_nat copies) then None
         else Some (firstn (Z.to_nat copies) comps, skipn (Z.to_nat copies) comps)
  end.
(** The entries of all the copies of an item type; none if the access is out of
    range, so that every later access to them is. *)
Definition prior (t : RT) : list (list Comp) :=
  match extract (rt_comps t) (rt_copies t) with Some (l, _) => l | None => [] end.

(** Gives to the successive occurrences of an item type its successive entries
    (companion_next_copy_index, reduction.cpp:286-307; r_next_copy_index,
    :826-856; next_copy_index, :1440-1462). *)
Definition bump_at (x : nat) (cnt : nat -> nat) : nat -> nat := fun y => if Nat.eqb x y then S (cnt y) else cnt y.
Fixpoint hand_out (ent : nat -> nat -> option (list Comp)) (cnt : nat -> nat) (l : list Comp)
    : option (list Comp * (nat -> nat)) :=
  match l with
  | [] => Some ([], cnt)
  | mkComp x dx dy r _ :: l' =>
      match ent x (cnt x) with
      | None => None
      | Some e =>
          match hand_out ent (bump_at x cnt) l' with
          | None => None
          | Some (l'', cnt') => Some (mkComp x dx dy r e :: l'', cnt')
          end
      end
  end.
Fixpoint hand_out_all (ent : nat -> nat -> option (list Comp)) (cnt : nat -> nat) (ls : list (list Comp))
    : option (list (list Comp) * (nat -> nat)) :=
  match ls with
  | [] => Some ([], cnt)
  | l :: ls' =>
      match hand_out ent cnt l with
      | None => None
      | Some (l', cnt') =>
          match hand_out_all ent cnt' ls' with
          | None => None
          | Some (ls'', cnt'') => Some (l' :: ls'', cnt'')
          end
      end
  end.

(** The bins of a solution, one by one (the loops on [solution_bin.copies]). *)
Definition single_bins (ds : list RDesc) : list (nat * list Place) :=
  flat_map (fun d => repeat (rd_type d, rd_items d) (Z.to_nat (rd_copies d))) ds.

Section Reduce.
Variable o : ROracle.
Variable i : RInstance.
Variables W H : Z.   (* bin_w, bin_h *)

Definition n_types : nat := length (rin_items i).
Definition oriented (x : nat) : bool := ri_oriented (ritem i x).

(** Room for [extra] more dedicated bins, reduction.cpp:650-657, 809-816,
    941-948, 1002-1010. *)
Definition no_room (s : Red) (extra : Z) : bool :=
  (0 <=? rb_copies (rbin i 0)) && (rb_copies (rbin i 0) <? dedicated s + extra).

(** ** Enlarging big items ([wide]: EnlargementCase::Wide, else Tall) *)

(** companion_bin_dimensions, reduction.cpp:437-450. *)
Definition companion_bin (wide : bool) (t : RT) : Z * Z :=
  if wide then (W - rt_x t, rt_y t) else (rt_x t, H - rt_y t).

(** could_fit, reduction.cpp:351-382. *)
Definition could_fit (wide : bool) (big : RT) (x : nat) (t : RT) : bool :=
  if wide
  then (rt_x t <=? W - rt_x big) || (negb (oriented x) && (rt_y t <=? W - rt_x big))
  else (rt_y t <=? H - rt_y big) || (negb (oriented x) && (rt_x t <=? H - rt_y big)).

(** compute_offset, reduction.cpp:452-464. *)
Definition offset (wide : bool) (big : RT) (p : Place) : Z * Z :=
  if wide then (rt_x big + pl_x p, pl_y p) else (pl_x p, rt_y big + pl_y p).

(** checked_big_item_ids, reduction.cpp:83-88. *)
Definition checked (s : Red) (wide : bool) (cands : list nat) : list nat :=
  filter (fun b => (0 <? fst (companion_bin wide (rtype s b))) && (0 <? snd (companion_bin wide (rtype s b)))) cands.

(** candidate_r_ids, reduction.cpp:106-128. *)
Definition companions_of (s : Red) (fit : nat -> nat -> bool) (cands bigs : list nat) : list nat :=
  filter (fun x => negb (rt_removed (rtype s x)) && negb (existsb (Nat.eqb x) cands) && existsb (fun b => fit b x) bigs)
    (seq 0 n_types).

(** An item type of a sub-instance, reduction.cpp:173-181, 708-726. *)
Definition check_item (s : Red) (x : nat) : RItem :=
  let t := rtype s x in
  mkRI (rt_x t) (rt_y t) (inject_Z (rt_x t * rt_y t)) (rt_copies t) (rt_copies t) 0 (oriented x) 0 (-1) [].
Definition check_bin (w h copies : Z) : RBin := mkRB w h (inject_Z (w * h)) copies 0 None no_truck [] [] [].

(** The sub-instance, reduction.cpp:158-183. *)
Definition check_group (s : Red) (wide : bool) (bigs rs : list nat) : RInstance :=
  mkRInst OFeasibility (rin_params i) (map (check_item s) rs)
    (map (fun b => let d := companion_bin wide (rtype s b) in check_bin (fst d) (snd d) (rt_copies (rtype s b))) bigs).

(** The companions found for the big item at position [j], one entry per bin of
    its type, reduction.cpp:191-222. *)
Definition found (s : Red) (wide : bool) (rs : list nat) (bins : list (nat * list Place)) (j b : nat) : list (list Comp) :=
  map (fun bin => map (fun p =>
      let d := offset wide (rtype s b) p in mkComp (nth (pl_type p) rs O) (fst d) (snd d) (pl_rot p) []) (snd bin))
    (filter (fun bin => Nat.eqb (fst bin) j) bins).

(** The merge of the entries of two axes, reduction.cpp:262-270. *)
Fixpoint merge_entries (old new : list (list Comp)) : option (list (list Comp)) :=
  match old, new with
  | [], _ => Some []
  | a :: old', b :: new' => option_map (cons (a ++ b)) (merge_entries old' new')
  | _ :: _, [] => None
  end.

(** The lambda [enlarge], reduction.cpp:252-271. *)
Definition enlarge (wide : bool) (t : RT) (entries : list (list Comp)) : option RT :=
  option_map (mkRT (if wide then W else rt_x t) (if wide then rt_y t else H) (rt_copies t) (rt_removed t))
    (match rt_comps t with [] => Some entries | _ => merge_entries (rt_comps t) entries end).

(** An item type taken as a companion, reduction.cpp:297-302.  (There, the item
    type is taken at its first occurrence; here, after the loop: the entries
    of its copies are the same, since only big items change in the loop.) *)
Definition take (t : RT) : RT :=
  mkRT (rt_x t) (rt_y t) 0 true (match extract (rt_comps t) (rt_copies t) with Some (_, l) => l | None => rt_comps t end).

(** The application of a group, reduction.cpp:290-310: the pairs (big item,
    entries) kept, in order. *)
Fixpoint apply_group (wide : bool) (ent : nat -> nat -> option (list Comp)) (cnt : nat -> nat)
    (types : list RT) (l : list (nat * list (list Comp))) : option (list RT) :=
  match l with
  | [] => Some types
  | (b, entries) :: l' =>
      match hand_out_all ent cnt entries with
      | None => None
      | Some (entries', cnt') =>
          match enlarge wide (nth b types dummy_rt) entries' with
          | None => None
          | Some t => apply_group wide ent cnt' (upd b (fun _ => t) types) l'
          end
      end
  end.

(** try_reduce_group, reduction.cpp:69-313. *)
Definition try_group (wide : bool) (s : Red) (cands : list nat) : option (Red * bool) :=
  let bigs := checked s wide cands in
  let rs := companions_of s (fun b x => could_fit wide (rtype s b) x (rtype s x)) cands bigs in
  match bigs with
  | [] => Some (s, false)
  | _ =>
      match rs with
      | [] =>
          let l := map (fun b => (b, repeat [] (Z.to_nat (rt_copies (rtype s b))))) bigs in
          option_map (fun types => (with_types s types, true)) (apply_group wide (fun _ _ => None) (fun _ => O) (re_types s) l)
      | _ =>
          match ro_solve o (re_calls s) (check_group s wide bigs rs) with
          | None => Some (called s, false)
          | Some ds =>
              let l := filter (fun be => validated (snd be))
                (map (fun j => (nth j bigs O, found s wide rs (single_bins ds) j (nth j bigs O))) (seq 0 (length bigs))) in
              let used := flat_map (fun be => flat_map (map co_type) (snd be)) l in
              match apply_group wide (fun x k => nth_error (prior (rtype s x)) k) (fun _ => O) (re_types s) l with
              | None => None
              | Some types =>
                  Some (with_types (called s)
                          (map (fun x => if existsb (Nat.eqb x) used then take (nth x types dummy_rt) else nth x types dummy_rt)
                             (seq 0 (length types))),
                        match l with [] => false | _ => true end)
              end
          end
      end
  end.

(** is_big, reduction.cpp:315-331; size_greater, :333-349;
    gather_sorted_big_items, :466-493 (ties are kept in increasing order of the
    item type ids here; the order of ties of [std::sort] is unspecified). *)
Definition is_big (wide : bool) (x : nat) (t : RT) : bool :=
  oriented x && (if wide then W <? 2 * rt_x t else H <? 2 * rt_y t).
Definition size_greater (wide : bool) (t u : RT) : bool :=
  if wide
  then if rt_x t =? rt_x u then rt_y u <? rt_y t else rt_x u <? rt_x t
  else if rt_y t =? rt_y u then rt_x u <? rt_x t else rt_y u <? rt_y t.
Fixpoint insert_by (greater : nat -> nat -> bool) (x : nat) (l : list nat) : list nat :=
  match l with
  | [] => [x]
  | y :: l' => if greater x y then x :: l else y :: insert_by greater x l'
  end.
Definition sort_by (greater : nat -> nat -> bool) (l : list nat) : list nat :=
  fold_left (fun acc x => insert_by greater x acc) l [].
Definition gather (wide : bool) (s : Red) : list nat :=
  sort_by (fun x y => size_greater wide (rtype s x) (rtype s y))
    (filter (fun x => negb (rt_removed (rtype s x)) && is_big wide x (rtype s x)) (seq 0 n_types)).

(** ** Items big on both axes *)

(** could_fit_both, reduction.cpp:384-435. *)
Definition could_fit_both (b : nat) (big : RT) (x : nat) (t : RT) : bool :=
  let fits_o := (rt_x t <=? W) && (rt_y t <=? H) in
  let fits_r := negb (oriented x) && (rt_y t <=? W) && (rt_x t <=? H) in
  (fits_o || fits_r) &&
  existsb (fun r : bool =>
    let bw := if r then rt_y big else rt_x big in
    let bh := if r then rt_x big else rt_y big in
    (bw <=? W) && (bh <=? H)
    && ((fits_o && ((rt_x t + bw <=? W) || (rt_y t + bh <=? H)))
        || (fits_r && ((rt_y t + bw <=? W) || (rt_x t + bh <=? H)))))
    (if oriented b then [false] else [false; true]).

(** gather_sorted_both_big_items, reduction.cpp:495-529. *)
Definition both_big (x : nat) (t : RT) : bool :=
  ((W <? 2 * rt_x t) && (H <? 2 * rt_y t)) || (negb (oriented x) && (W <? 2 * rt_y t) && (H <? 2 * rt_x t)).
Definition gather_both (s : Red) : list nat :=
  sort_by (fun x y => rt_x (rtype s y) * rt_y (rtype s y) <? rt_x (rtype s x) * rt_y (rtype s x))
    (filter (fun x => negb (rt_removed (rtype s x)) && both_big x (rtype s x)) (seq 0 n_types)).

(** The empty group, reduction.cpp:618-670: a big item alone in its bins. *)
Definition capture_alone (acc : option (Red * bool)) (b : nat) : option (Red * bool) :=
  match acc with
  | None => None
  | Some (s, any) =>
      let t := rtype s b in
      let straight := (rt_x t <=? W) && (rt_y t <=? H) in
      let turned := negb (oriented b) && (rt_y t <=? W) && (rt_x t <=? H) in
      if negb straight && negb turned then acc
      else if no_room s (rt_copies t) then acc
      else
        match extract (rt_comps t) (rt_copies t) with
        | None => None
        | Some (entries, rest) =>
            Some (mkRed (upd b (fun t => mkRT (rt_x t) (rt_y t) 0 true rest) (re_types s)) (re_full s) (re_pairs s)
                    (re_groups s ++ map (fun e => [mkComp b 0 0 (negb straight) e]) entries) (re_calls s), true)
        end
  end.

(** The sub-instance, reduction.cpp:697-728. *)
Definition check_both (s : Red) (cands rs : list nat) : RInstance :=
  mkRInst OFeasibility (rin_params i) (map (check_item s) (cands ++ rs))
    [check_bin W H (zsum (fun b => rt_copies (rtype s b)) cands)].

(** The position of the first big item of a solved bin, reduction.cpp:763-775;
    [k] is the number of big items. *)
Definition first_big (k : nat) (ps : list Place) : option nat :=
  option_map pl_type (find (fun p => Nat.ltb (pl_type p) k) ps).

(** The placed items of a solved bin, reduction.cpp:777-794: none if there is
    another big item in the bin. *)
Definition placed_items (cands rs : list nat) (j : nat) (ps : list Place) : option (list Comp) :=
  if existsb (fun p => Nat.ltb (pl_type p) (length cands) && negb (Nat.eqb (pl_type p) j)) ps then None
  else Some (map (fun p => mkComp (nth (pl_type p) (cands ++ rs) O) (pl_x p) (pl_y p) (pl_rot p) []) ps).

(** groups_by_big_item, reduction.cpp:756-797, as a list of (position, placed
    items); [None] is a 'return false'. *)
Fixpoint both_groups (cands rs : list nat) (bins : list (nat * list Place)) : option (list (nat * list Comp)) :=
  match bins with
  | [] => Some []
  | (_, ps) :: bins' =>
      match first_big (length cands) ps with
      | None => both_groups cands rs bins'
      | Some j =>
          match placed_items cands rs j ps, both_groups cands rs bins' with
          | Some l, Some r => Some ((j, l) :: r)
          | _, _ => None
          end
      end
  end.

(** The dedicated bins of a big item, reduction.cpp:835-859: the copy number
    [copy] of the big item gets the entry of that number, the other items
    their next entries. *)
Fixpoint fill_groups (b : nat) (big_prior : list (list Comp)) (ent : nat -> nat -> option (list Comp)) (cnt : nat -> nat)
    (copy : nat) (ls : list (list Comp)) : option (list (list Comp) * (nat -> nat)) :=
  match ls with
  | [] => Some ([], cnt)
  | l :: ls' =>
      match hand_out (fun x k => if Nat.eqb x b then nth_error big_prior copy else ent x k) cnt l with
      | None => None
      | Some (l', cnt') =>
          match fill_groups b big_prior ent cnt' (S copy) ls' with
          | None => None
          | Some (ls'', cnt'') => Some (l' :: ls'', cnt'')
          end
      end
  end.

(** The application, reduction.cpp:818-861, for the positions [js] of the big
    items. *)
Fixpoint apply_both (cands : list nat) (ent : nat -> nat -> option (list Comp)) (groups : list (nat * list Comp))
    (cnt : nat -> nat) (types : list RT) (js : list nat) : option (list RT * list (list Comp)) :=
  match js with
  | [] => Some (types, [])
  | j :: js' =>
      let mine := map snd (filter (fun g => Nat.eqb (fst g) j) groups) in
      match mine with
      | [] => apply_both cands ent groups cnt types js'
      | _ =>
          let b := nth j cands O in
          let t := nth b types dummy_rt in
          let used := Z.of_nat (length mine) in
          match extract (rt_comps t) used with
          | None => None
          | Some (big_prior, rest) =>
              match fill_groups b big_prior ent cnt O mine with
              | None => None
              | Some (filled, cnt') =>
                  let t' := mkRT (rt_x t) (rt_y t) (rt_copies t - used) (rt_removed t || (rt_copies t - used =? 0)) rest in
                  match apply_both cands ent groups cnt' (upd b (fun _ => t') types) js' with
                  | None => None
                  | Some (types', more) => Some (types', filled ++ more)
                  end
              end
          end
      end
  end.

(** try_reduce_both_group, reduction.cpp:579-862. *)
Definition try_both (s : Red) (cands : list nat) : option (Red * bool) :=
  let rs := companions_of s (fun b x => could_fit_both b (rtype s b) x (rtype s x)) cands cands in
  match rs with
  | [] => fold_left capture_alone cands (Some (s, false))
  | _ =>
      match ro_solve o (re_calls s) (check_both s cands rs) with
      | None => Some (called s, false)
      | Some ds =>
          match both_groups cands rs (single_bins ds) with
          | None => Some (called s, false)
          | Some groups =>
              if Nat.eqb (length groups) 0 then Some (called s, false)
              else if no_room s (Z.of_nat (length groups)) then Some (called s, false)
              else
                let types := map (fun x => if existsb (Nat.eqb x) rs then take (rtype s x) else rtype s x)
                               (seq 0 (length (re_types s))) in
                match apply_both cands (fun x k => nth_error (prior (rtype s x)) k) groups (fun _ => O) types
                        (seq 0 (length cands)) with
                | None => None
                | Some (types', filled) =>
                    Some (mkRed types' (re_full s) (re_pairs s) (re_groups s ++ filled) (S (re_calls s)), true)
                end
          end
      end
  end.

(** ** The searches for groups
    (reduce_group, reduction.cpp:531-577; reduce_both_groups, :864-906) *)

Definition ends (s : Red) : bool := ro_end o (re_calls s).

(** Loop A: the state, whether something was found, whether the time is out. *)
Fixpoint singletons (try : Red -> list nat -> option (Red * bool)) (l : list nat) (s : Red) (any : bool)
    : option (Red * bool * bool) :=
  match l with
  | [] => Some (s, any, false)
  | b :: l' =>
      if rt_removed (rtype s b) then singletons try l' s any
      else if ends s then Some (called s, any, true)
      else match try (called s) [b] with
           | None => None
           | Some (s', ok) => singletons try l' s' (any || ok)
           end
  end.

(** One turn of loop B: the groups of the [size] first candidates. *)
Fixpoint growing (try : Red -> list nat -> option (Red * bool)) (cands : list nat) (sizes : list nat) (s : Red)
    : option (Red * bool * bool) :=
  match sizes with
  | [] => Some (s, false, false)
  | size :: sizes' =>
      if ends s then Some (called s, false, true)
      else match try (called s) (firstn size cands) with
           | None => None
           | Some (s', true) => Some (s', true, false)
           | Some (s', false) => growing try cands sizes' s'
           end
  end.

(** Loop B, with a bound on the number of turns that [Reduc_Props] shows is never
    reached. *)
Fixpoint regrow (turns : nat) (try : Red -> list nat -> option (Red * bool)) (gather : Red -> list nat) (s : Red) (any : bool)
    : option (Red * bool) :=
  match turns with
  | O => None
  | S turns' =>
      let cands := gather s in
      if Nat.ltb (length cands) 2 then Some (s, any)
      else match growing try cands (seq 2 (length cands - 1)) s with
           | None => None
           | Some (s', _, true) => Some (s', any)
           | Some (s', true, false) => regrow turns' try gather s' true
           | Some (s', false, false) => Some (s', any)
           end
  end.

Definition search (try : Red -> list nat -> option (Red * bool)) (gather : Red -> list nat) (s : Red) : option (Red * bool) :=
  match singletons try (gather s) s false with
  | None => None
  | Some (s', any, true) => Some (s', any)
  | Some (s', any, false) => regrow (S (length (re_types s))) try gather s' any
  end.

(** ** Full bin items, reduce_full_bin_items, reduction.cpp:908-963 *)
Definition full_bin_step (acc : option (Red * bool)) (x : nat) : option (Red * bool) :=
  match acc with
  | None => None
  | Some (s, any) =>
      let t := rtype s x in
      let straight := (rt_x t =? W) && (rt_y t =? H) in
      let turned := negb (oriented x) && (rt_y t =? W) && (rt_x t =? H) in
      if rt_removed t then acc
      else if negb straight && negb turned then acc
      else if no_room s (rt_copies t) then acc
      else
        match extract (rt_comps t) (rt_copies t) with
        | None => None
        | Some (entries, rest) =>
            Some (mkRed (upd x (fun t => mkRT (rt_x t) (rt_y t) (rt_copies t) true rest) (re_types s))
                    (re_full s ++ [mkFB x (negb straight) (rt_copies t) entries]) (re_pairs s) (re_groups s) (re_calls s), true)
        end
  end.
Definition full_bins (s : Red) : option (Red * bool) := fold_left full_bin_step (seq 0 n_types) (Some (s, false)).

(** ** Perfect pairs, reduce_perfect_pairs, reduction.cpp:965-1056 *)
Definition vertical_split (t u : RT) : bool := (rt_y t =? H) && (rt_y u =? H) && (rt_x t + rt_x u =? W).
Definition horizontal_split (t u : RT) : bool := (rt_x t =? W) && (rt_x u =? W) && (rt_y t + rt_y u =? H).
Definition pairs_with (s : Red) (x y : nat) : bool :=
  negb (Nat.eqb y x) && negb (rt_removed (rtype s y)) && oriented y
  && negb (no_room s (Z.min (rt_copies (rtype s x)) (rt_copies (rtype s y))))
  && (vertical_split (rtype s x) (rtype s y) || horizontal_split (rtype s x) (rtype s y)).
Definition consume (n : Z) (rest : list (list Comp)) (t : RT) : RT :=
  mkRT (rt_x t) (rt_y t) (rt_copies t - n) (rt_removed t || (rt_copies t - n =? 0)) rest.
Definition pair_step (acc : option (Red * bool)) (x : nat) : option (Red * bool) :=
  match acc with
  | None => None
  | Some (s, any) =>
      if rt_removed (rtype s x) || negb (oriented x) then acc
      else match find (pairs_with s x) (seq 0 n_types) with
      | None => acc
      | Some y =>
          let t := rtype s x in
          let u := rtype s y in
          let n := Z.min (rt_copies t) (rt_copies u) in
          match extract (rt_comps t) n, extract (rt_comps u) n with
          | Some (e1, r1), Some (e2, r2) =>
              let d := if vertical_split t u then (rt_x t, 0) else (0, rt_y t) in
              Some (mkRed (upd y (consume n r2) (upd x (consume n r1) (re_types s)))
                      (re_full s) (re_pairs s ++ [mkPP x y (fst d) (snd d) n e1 e2]) (re_groups s) (re_calls s), true)
          | _, _ => None
          end
      end
  end.
Definition perfect_pairs (s : Red) : option (Red * bool) := fold_left pair_step (seq 0 n_types) (Some (s, false)).

(** ** The rounds, reduction.cpp:1380-1407 *)

(** The phases of a round, the timer being checked before each: the state,
    whether something was found, whether the time is out. *)
Fixpoint phases (fs : list (Red -> option (Red * bool))) (s : Red) (any : bool) : option (Red * bool * bool) :=
  match fs with
  | [] => Some (s, any, false)
  | f :: fs' =>
      if ends s then Some (called s, any, true)
      else match f (called s) with
           | None => None
           | Some (s', ok) => phases fs' s' (any || ok)
           end
  end.
Definition round : list (Red -> option (Red * bool)) :=
  [search (try_group true) (gather true); search (try_group false) (gather false); search try_both gather_both;
   full_bins; perfect_pairs].
Fixpoint rounds (n : nat) (s : Red) : option Red :=
  match n with
  | O => Some s
  | S n' =>
      match phases round s false with
      | None => None
      | Some (s', any, stopped) => if stopped || negb any then Some s' else rounds n' s'
      end
  end.

End Reduce.

(** The working representation at the beginning, reduction.cpp:1342-1348. *)
Definition red0 (i : RInstance) : Red :=
  mkRed (map (fun it => mkRT (ri_x it) (ri_y it) (ri_copies it) false []) (rin_items i)) [] [] [] O.

(** max_achievable_dimension_sum, reduction.cpp:1203-1231: a group of values per
    item copy. *)
Definition dimension_groups (width : bool) (i : RInstance) : list (list Z) :=
  flat_map (fun it =>
      let value := if width then ri_x it else ri_y it in
      let rotated := if width then ri_y it else ri_x it in
      repeat (value :: (if negb (ri_oriented it) && negb (rotated =? value) then [rotated] else [])) (Z.to_nat (ri_copies it)))
    (rin_items i).

(** compute_shrunk_bin_sizes, reduction.cpp:1235-1266, with one bin type. *)
Definition shrunk (o : ROracle) (i : RInstance) : Z * Z :=
  let bt := rbin i 0 in
  if existsb (fun it => ri_copies it <? 0) (rin_items i) then (rb_x bt, rb_y bt)
  else (ro_subset_sum o (rb_x bt) (dimension_groups true i), ro_subset_sum o (rb_y bt) (dimension_groups false i)).

(** Instance::weight_matters, resources_matter, instance.cpp:269-288;
    Reduction::applies, reduction.cpp:1268-1321, with [parameters.reduce] set. *)
Definition weight_matters (i : RInstance) : bool :=
  match rb_max_weight (rbin i 0) with
  | None => false
  | Some _ => existsb (fun it => negb (Qeq_bool (ri_weight it) 0)) (rin_items i)
  end.
Definition applies (i : RInstance) : bool :=
  match rin_objective i with OBinPacking | OVariableSizedBinPacking | OFeasibility => true | _ => false end
  && Nat.eqb (length (rin_bins i)) 1
  && match rb_defects (rbin i 0) with [] => true | _ => false end
  && match rp_unloading (rin_params i) with UNone => true | _ => false end
  && negb (weight_matters i)
  && match rb_resources (rbin i 0) with [] => true | _ => false end.

(** A reduction: the reduced instance, the original ids of its item types, the
    working representation, proven_infeasible(). *)
Record Reduced : Type := mkReduced {
  rr_instance : RInstance;
  rr_ids : list nat;
  rr_state : Red;
  rr_infeasible : bool
}.

(** reduction_to_instance, reduction.cpp:1069-1189. *)
Definition remaining_ids (s : Red) : list nat := filter (fun x => negb (rt_removed (rtype s x))) (seq 0 (length (re_types s))).
Definition reduced_item (i : RInstance) (s : Red) (x : nat) : RItem :=
  let it := ritem i x in
  let t := rtype s x in
  mkRI (rt_x t) (rt_y t) (ri_profit it) (rt_copies t)
    (match rin_objective i with OKnapsack => 0 | _ => rt_copies t end) (* instance_builder.cpp:1046-1050 *)
    (ri_group it) (ri_oriented it) (ri_weight it)
    (ri_eligibility it) (ri_resource_ids it).
Definition reduced_bin (i : RInstance) (s : Red) (bt : RBin) : RBin :=
  let d := dedicated s in
  if d <=? 0 then bt
  else
    let copies := if (0 <=? rb_copies bt) && (0 <? rb_copies bt - d) then rb_copies bt - d else rb_copies bt in
    let copies_min := if 0 <? rb_copies_min bt then Z.max 0 (rb_copies_min bt - d) else rb_copies_min bt in
    mkRB (rb_x bt) (rb_y bt) (rb_cost bt) copies copies_min (rb_max_weight bt) (rb_truck bt) (rb_eligibility_ids bt)
      (rb_defects bt) (rb_resources bt).
Definition reduced_infeasible (i : RInstance) (s : Red) : bool :=
  let d := dedicated s in
  let left := zsum (fun x => ri_copies (ritem i x)) (remaining_ids s) in
  existsb (fun bt => (0 <? d) && (0 <=? rb_copies bt) && (rb_copies bt - d <=? 0) && negb (left =? 0)) (rin_bins i).
Definition to_instance (i : RInstance) (s : Red) : Reduced :=
  mkReduced
    (mkRInst (rin_objective i) (rin_params i) (map (reduced_item i s) (remaining_ids s)) (map (reduced_bin i s) (rin_bins i)))
    (remaining_ids s) s (reduced_infeasible i s).

(** InstanceBuilder::set_bin_type_copies throws if the mandatory copies (already
    set by add_bin_type, reduction.cpp:1089) are more than the new number of
    copies, reduction.cpp:1103, instance_builder.cpp:275-281. *)
Definition copies_rejected (i : RInstance) (s : Red) : bool :=
  let d := dedicated s in
  existsb (fun bt => (0 <? d) && (0 <=? rb_copies bt) && (0 <? rb_copies bt - d) && (rb_copies bt - d <? rb_copies_min bt)) (rin_bins i).

(** The constructor, reduction.cpp:1323-1410.  [None] is an exception or an access
    out of range. *)
Definition reduce (o : ROracle) (maximum_number_of_rounds : nat) (i : RInstance) : option Reduced :=
  if negb (applies i) then Some (to_instance i (red0 i))
  else
    match rounds o i (fst (shrunk o i)) (snd (shrunk o i)) maximum_number_of_rounds (red0 i) with
    | None => None
    | Some s => if copies_rejected i s then None else Some (to_instance i s)
    end.

(** ** unreduce_solution, reduction.cpp:1435-1534 *)

(** The entry of the [k]-th occurrence of an item type.  (The code does not count
    the occurrences of an item type without companions; its entry does not
    depend on the count.) *)
Definition entry (t : RT) (k : nat) : option (list Comp) :=
  match rt_comps t with [] => Some [] | _ => nth_error (rt_comps t) k end.
Definition unreduced_bins (r : Reduced) (bins : list (nat * list Place)) : option (list RDesc) :=
  option_map (fun filled => map (fun tc => mkRD (fst tc) 1 (flat_map (place_comp 0 0) (snd tc))) (combine (map fst bins) (fst filled)))
    (hand_out_all (fun x k => entry (rtype (rr_state r) x) k) (fun _ => O)
       (map (fun bin => map (fun p => mkComp (nth (pl_type p) (rr_ids r) O) (pl_x p) (pl_y p) (pl_rot p) []) (snd bin)) bins)).

Fixpoint opt_all {A : Type} (l : list (option A)) : option (list A) :=
  match l with
  | [] => Some []
  | Some a :: l' => option_map (cons a) (opt_all l')
  | None :: _ => None
  end.
Definition full_items (f : FullBin) : list (option (list Comp)) :=
  map (fun k => option_map (fun e => [mkComp (fb_item f) 0 0 (fb_rot f) e]) (nth_error (fb_comps f) k))
    (seq 0 (Z.to_nat (fb_copies f))).
Definition pair_items (p : PPair) : list (option (list Comp)) :=
  map (fun k =>
      match nth_error (pp_comps_1 p) k, nth_error (pp_comps_2 p) k with
      | Some e1, Some e2 => Some [mkComp (pp_1 p) 0 0 false e1; mkComp (pp_2 p) (pp_dx p) (pp_dy p) false e2]
      | _, _ => None
      end)
    (seq 0 (Z.to_nat (pp_copies p))).
Definition dedicated_bins (s : Red) : option (list (list Comp)) :=
  opt_all (flat_map full_items (re_full s) ++ flat_map pair_items (re_pairs s) ++ map Some (re_groups s)).

Definition unreduce (r : Reduced) (ds : list RDesc) : option (list RDesc) :=
  match unreduced_bins r (single_bins ds), dedicated_bins (rr_state r) with
  | Some bins, Some ded => Some (bins ++ map (fun cs => mkRD 0 1 (flat_map (place_comp 0 0) cs)) ded)
  | _, _ => None
  end.
