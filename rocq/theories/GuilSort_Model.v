(** * Model of the sort of the subplates of a cutting pattern
    (/repo/src/rectangleguillotine/post_process.cpp:305-588). *)

From Coq Require Import List ZArith QArith Bool.
From Verif Require Import Util Common_Model OneDim_Model Guil_Model GuilSol_Model GuilBuild_Model.
Import ListNotations.
Open Scope Z_scope.

(** NodeLengths, :324-330. *)
Record Lengths : Type := mkLe { le_1 : Z; le_2 : Z; le_waste : Z; le_area : Z }.
Definition le_zero : Lengths := mkLe 0 0 0 0.

(** The loop on the children in compute_node_lengths, :368-374. *)
Definition lengths_of_children (res : list Lengths) (area : Z) (children : list nat) : Lengths :=
  fold_left (fun acc c =>
    let lc := nth c res le_zero in
    mkLe (Z.max (le_1 acc) (le_2 lc)) (le_2 acc + le_1 lc) (le_waste acc + le_waste lc) (le_area acc))
    children (mkLe 0 0 0 area).

(** The body of the loop of compute_node_lengths, :351-377.  [node.d % 2] is the
    remainder of the C++ division: the depth -1 of the trims gives -1. *)
Definition node_lengths (o : GOrient) (res : list Lengths) (n : GNode) : Lengths :=
  let v := match o with GVertical => Z.rem (gn_d n) 2 =? 1 | _ => Z.rem (gn_d n) 2 =? 0 end in
  let w := gn_r n - gn_l n in
  let h := gn_t n - gn_b n in
  if 0 <=? gn_item n then (if v then mkLe w h 0 (w * h) else mkLe h w 0 (w * h))
  else if gn_item n =? -2 then lengths_of_children res (w * h) (gn_children n)
  else mkLe 0 0 (w * h) (w * h).

(** compute_node_lengths, :342-380: from the last node to the first. *)
Definition compute_node_lengths (o : GOrient) (ns : list GNode) : list Lengths :=
  fold_left (fun res id => upd id (fun _ => node_lengths o res (gnode ns id)) res)
    (rev (seq 0 (length ns))) (repeat le_zero (length ns)).

(** [mul128], :393-402, on unsigned integers of 64 bits; every sum and product
    wraps around. *)
Definition two64 : Z := 2 ^ 64.
Definition wrap64 (x : Z) : Z := x mod two64.
Definition lo32 (x : Z) : Z := Z.land x 4294967295.
Definition hi32 (x : Z) : Z := Z.shiftr x 32.
Definition mul128 (x y : Z) : Z * Z :=
  let p00 := wrap64 (lo32 x * lo32 y) in
  let p01 := wrap64 (lo32 x * hi32 y) in
  let p10 := wrap64 (hi32 x * lo32 y) in
  let p11 := wrap64 (hi32 x * hi32 y) in
  let mid := wrap64 (wrap64 (hi32 p00 + lo32 p01) + lo32 p10) in
  let lo := Z.lor (lo32 p00) (wrap64 (Z.shiftl mid 32)) in
  let hi := wrap64 (wrap64 (wrap64 (p11 + hi32 p01) + hi32 p10) + hi32 mid) in
  (hi, lo).

(** mul_less, :388-408: the signed values are converted to unsigned ones. *)
Definition mul_less (a b c d : Z) : bool :=
  let '(lhi, llo) := mul128 (wrap64 a) (wrap64 b) in
  let '(rhi, rlo) := mul128 (wrap64 c) (wrap64 d) in
  (lhi <? rhi) || ((lhi =? rhi) && (llo <? rlo)).

(** SortSubplatesCriterion, post_process.hpp:76-90. *)
Inductive SortCriterion : Type := SLength1 | SLength2 | SWaste | SDensity.

(** The comparison of the sort, :434-463. *)
Fixpoint subplate_less (criteria : list SortCriterion) (a b : Lengths) : bool :=
  match criteria with
  | [] => false
  | SLength1 :: r => if le_1 a =? le_1 b then subplate_less r a b else le_1 b <? le_1 a
  | SLength2 :: r => if le_2 a =? le_2 b then subplate_less r a b else le_2 b <? le_2 a
  | SWaste :: r => if le_waste a =? le_waste b then subplate_less r a b else le_waste a <? le_waste b
  | SDensity :: r =>
      if mul_less (le_waste a) (le_area b) (le_waste b) (le_area a) then true
      else if mul_less (le_waste b) (le_area a) (le_waste a) (le_area b) then false
      else subplate_less r a b
  end.

(** [std::stable_sort], :432: insertion after the elements that are not greater. *)
Fixpoint stable_insert {A : Type} (less : A -> A -> bool) (x : A) (l : list A) : list A :=
  match l with
  | [] => [x]
  | y :: l' => if less y x then y :: stable_insert less x l' else x :: l
  end.
Definition stable_sort {A : Type} (less : A -> A -> bool) (l : list A) : list A := fold_right (stable_insert less) [] l.

(** The children lists rebuilt from the fathers, :547-553. *)
Definition kids_of (ns : list GNode) (id : nat) : list nat :=
  filter (fun k => match gn_f (gnode ns k) with Some f => Nat.eqb f id | None => false end) (seq 0 (length ns)).

(** sort_node_subtrees, :417-471: the sorted children of one node.  The code sorts
    the lists of all the nodes it reaches from node 0; the lists do not depend on
    each other. *)
Definition sorted_kids (ns : list GNode) (lens : list Lengths) (criteria : list SortCriterion) (id : nat) : list nat :=
  stable_sort (fun a b => subplate_less criteria (nth a lens le_zero) (nth b lens le_zero))
    (filter (fun k => negb (gn_item (gnode ns k) =? -1) && negb (gn_item (gnode ns k) =? -3)) (kids_of ns id)).

(** The body of the loop of replay_group, :501-523; the state is the outcome so
    far and [current]. *)
Definition replay_step (i : GInstance) (v : bool) (depth perp : Z) (ns : list GNode)
    (rec : nat -> Z -> Z -> list GBin -> GRegion) (acc : GRegion * Z) (kid : nat) : GRegion * Z :=
  match fst acc with
  | GROk bins =>
      let n := gnode ns kid in
      let cut := snd acc + (if v then gn_r n - gn_l n else gn_t n - gn_b n) in
      match gof (gadd_node i bins depth cut) with
      | GROk bins =>
          match (if 0 <=? gn_item n then gof (gset_item i bins (Z.to_nat (gn_item n))) else GROk bins) with
          | GROk bins => (rec kid perp (snd acc) bins, cut + gp_ct (gin_params i))
          | x => (x, snd acc)
          end
      | x => (x, snd acc)
      end
  | _ => acc
  end.

(** replay_group, :484-525, on the sorted children of a node; the fuel bounds the
    depth of the tree. *)
Fixpoint replay (i : GInstance) (o : GOrient) (ns : list GNode) (kids : nat -> list nat) (fuel : nat) (id : nat)
    (depth cut perp : Z) (bins : list GBin) {struct fuel} : GRegion :=
  match kids id with
  | [] => GROk bins
  | sibs =>
      match fuel with
      | O => GRFuel
      | S fuel =>
          fst (fold_left (replay_step i (gvertical o depth) depth perp ns
                 (fun kid c p b => replay i o ns kids fuel kid (depth + 1) c p b)) sibs (GROk bins, cut))
      end
  end.

(** The effective root, :560-570. *)
Definition effective_root (ns : list GNode) : nat :=
  match find (fun k => (gn_d (gnode ns k) =? 0) && match gn_f (gnode ns k) with Some _ => true | None => false end)
          (seq 0 (length ns)) with
  | Some k => k
  | None => 0%nat
  end.

(** The body of the loop of sort_subplates, :541-584: the plate replayed. *)
Definition sort_bin (i : GInstance) (criteria : list SortCriterion) (fuel : nat) (b : GBin) : GRegion :=
  let ns := gs_nodes b in
  let lens := compute_node_lengths (gs_orient b) ns in
  let root := effective_root ns in
  let v := match gs_orient b with GVertical => true | _ => false end in
  match gadd_bin i [] (gs_type b) 1 (gs_orient b) with
  | GOk bins =>
      replay i (gs_orient b) ns (sorted_kids ns lens criteria) fuel root 1
        (if v then gn_l (gnode ns root) else gn_b (gnode ns root))
        (if v then gn_b (gnode ns root) else gn_l (gnode ns root)) bins
  | x => gof x
  end.

(** sort_subplates, :528-588.  [None]: an exception, undefined behaviour or the
    end of the process. *)
Fixpoint sort_from (i : GInstance) (cb : GCallback) (criteria : list SortCriterion) (bins : list GBin) (result : GSolution)
    : option GSolution :=
  match bins with
  | [] => Some result
  | b :: rest =>
      match sort_bin i criteria (length (gs_nodes b)) b with
      | GROk built =>
          match gbuild i cb built with
          | GDone s =>
              match gappend_bin i cb result s 0 (gs_copies b) [] [] with
              | GDone result => sort_from i cb criteria rest result
              | _ => None
              end
          | _ => None
          end
      | _ => None
      end
  end.
Definition sort_subplates (i : GInstance) (cb : GCallback) (criteria : list SortCriterion) (s : GSolution) : option GSolution :=
  sort_from i cb criteria (gc_bins (gs_core s)) (gsol_new i).
