(** * Model of the guillotine knapsack algorithms
    (/repo/src/rectangleguillotine/tree_search_hypergraph.cpp and
    /repo/src/rectangleguillotine/tree_search_hypergraph_infinite_copies.cpp).

    Doubles are exact rationals, minus infinity is [None].  The calls made to the
    solution builder are returned as a list ([GCall]); the builder itself is
    [Guil_Model].  The timer is any function of the number of times it has been
    asked.  The post-processing [minimize_number_of_stages] of the second
    algorithm is not modelled. *)

From Coq Require Import List ZArith QArith Bool.
From Verif Require Import Util Common_Model Guil_Model.
Import ListNotations.
Open Scope Z_scope.

(** [std::max]. *)
Definition hmax (a b : Q) : Q := if Qltb a b then b else a.
(** [std::max] and [+] on doubles that can be minus infinity. *)
Definition hltb_ext (a b : option Q) : bool :=
  match a, b with
  | None, Some _ => true
  | Some x, Some y => Qltb x y
  | _, None => false
  end.
Definition hmax_ext (a b : option Q) : option Q := if hltb_ext a b then b else a.
Definition hadd_ext (a : option Q) (b : Q) : option Q := option_map (fun x => (x + b)%Q) a.

(** The values of a loop [for (k = a; k <= b; ++k)]. *)
Definition hrange (a b : Z) : list Z := map (fun n => a + Z.of_nat n) (seq 0 (Z.to_nat (b - a + 1))).

(** [eff_width], [eff_height], tree_search_hypergraph.cpp:26-27. *)
Definition heff_w (i : GInstance) : Z :=
  gb_w (gbin i 0) - gt_length (gb_left (gbin i 0)) - gt_length (gb_right (gbin i 0)).
Definition heff_h (i : GInstance) : Z :=
  gb_h (gbin i 0) - gt_length (gb_bottom (gbin i 0)) - gt_length (gb_top (gbin i 0)).

(** The lambdas [dp] and [rdp]: a matrix stored by columns,
    tree_search_hypergraph.cpp:32-34, :76-81. *)
Definition hidx (W w h : Z) : nat := Z.to_nat (w + (W + 1) * h).
Definition hget (W : Z) (t : list Q) (w h : Z) : Q := nth (hidx W w h) t 0%Q.
Definition hgetr (W : Z) (t : list (option Q)) (w h : Z) : option Q := nth (hidx W w h) t None.

(** The item types of exactly these dimensions, tree_search_hypergraph.cpp:40-50. *)
Definition hdp_items (items : list GItem) (w h : Z) (v : Q) : Q :=
  fold_left (fun v it =>
    let v := if (gi_w it =? w) && (gi_h it =? h) then hmax v (gi_profit it) else v in
    if negb (gi_oriented it) && (gi_h it =? w) && (gi_w it =? h) then hmax v (gi_profit it) else v)
    items v.

(** [for (Length cut = 1; 2 * cut + cut_thickness <= length; ++cut)]. *)
Definition hcuts (ct length : Z) : list Z := hrange 1 ((length - ct) / 2).

(** The body of the loops, tree_search_hypergraph.cpp:38-58. *)
Definition hdp_cell (items : list GItem) (W ct : Z) (t : list Q) (c : Z * Z) : Q :=
  let (w, h) := c in
  let v := hdp_items items w h (hget W t w h) in
  let v := fold_left (fun v cut => hmax v (hget W t cut h + hget W t (w - cut - ct) h)) (hcuts ct w) v in
  fold_left (fun v cut => hmax v (hget W t w cut + hget W t w (h - cut - ct))) (hcuts ct h) v.

(** The order in which the cells are filled, tree_search_hypergraph.cpp:36-37. *)
Definition hcells (W H : Z) : list (Z * Z) := flat_map (fun w => map (fun h => (w, h)) (hrange 1 H)) (hrange 1 W).

(** compute_dp, tree_search_hypergraph.cpp:23-63; the same function is
    tree_search_hypergraph_infinite_copies.cpp:36-79. *)
Definition hdp (items : list GItem) (W H ct : Z) : list Q :=
  fold_left (fun t c => upd (hidx W (fst c) (snd c)) (fun _ => hdp_cell items W ct t c) t)
    (hcells W H) (repeat 0%Q (Z.to_nat ((W + 1) * (H + 1)))).

(** The body of the loops, tree_search_hypergraph.cpp:87-107. *)
Definition hrdp_cell (dp : list Q) (W H ct : Z) (t : list (option Q)) (c : Z * Z) : option Q :=
  let (w, h) := c in
  if (w =? W) && (h =? H) then hgetr W t w h
  else
    let v := fold_left (fun v total => hmax_ext v (hadd_ext (hgetr W t total h) (hget W dp (total - w - ct) h)))
               (hrange (w + ct + 1) W) (hgetr W t w h) in
    fold_left (fun v total => hmax_ext v (hadd_ext (hgetr W t w total) (hget W dp w (total - h - ct))))
      (hrange (h + ct + 1) H) v.

(** compute_rdp, tree_search_hypergraph.cpp:65-112. *)
Definition hrdp (dp : list Q) (W H ct : Z) : list (option Q) :=
  fold_left (fun t c => upd (hidx W (fst c) (snd c)) (fun _ => hrdp_cell dp W H ct t c) t)
    (rev (hcells W H))
    (upd (hidx W W H) (fun _ => Some 0%Q) (repeat None (Z.to_nat ((W + 1) * (H + 1))))).

(** StateBlock, tree_search_hypergraph.cpp:118-161.  [hb_vertical]: the
    orientation of the first cut is [Vertical]. *)
Record HBlock : Type := mkHB {
  hb_w : Z;
  hb_h : Z;
  hb_profit : Q;
  hb_copies : list (nat * Z);
  hb_number : Z;
  hb_vertical : bool;
  hb_simple : bool;
  hb_item : nat;
  hb_rotate : bool;
  hb_p1 : nat;
  hb_p2 : nat;
  hb_priority : option Q
}.
Definition hdummy : HBlock := mkHB 0 0 0 [] 0 true false 0 false 0 0 None.

(** StateBlockKey, StateBlockKeyEqual, make_key, tree_search_hypergraph.cpp:167-211.
    The set of the keys is a list. *)
Definition HKey : Type := (Z * Z * list (nat * Z) * bool)%type.
Definition hkey (b : HBlock) : HKey := (hb_w b, hb_h b, hb_copies b, hb_vertical b).
Definition hpair_eqb (a b : nat * Z) : bool := Nat.eqb (fst a) (fst b) && (snd a =? snd b).
Fixpoint hlist_eqb (a b : list (nat * Z)) : bool :=
  match a, b with
  | [], [] => true
  | x :: a, y :: b => hpair_eqb x y && hlist_eqb a b
  | _, _ => false
  end.
Definition hkey_eqb (k1 k2 : HKey) : bool :=
  match k1, k2 with
  | (w1, h1, c1, v1), (w2, h2, c2, v2) =>
      (w1 =? w2) && (h1 =? h2) && Bool.eqb v1 v2 && hlist_eqb c1 c2
  end.

(** is_valid_item_copies, tree_search_hypergraph.cpp:217-244.  The pair of
    iterators is a pair of lists. *)
Fixpoint hvalid (items : list GItem) (c1 : list (nat * Z)) : list (nat * Z) -> bool :=
  let ok j copies := copies <=? gi_copies (nth j items gdummy_item) in
  fix walk (c2 : list (nat * Z)) : bool :=
    match c1, c2 with
    | [], [] => true
    | [], (j2, n2) :: r2 => if ok j2 n2 then walk r2 else false
    | (j1, n1) :: r1, [] => if ok j1 n1 then hvalid items r1 [] else false
    | (j1, n1) :: r1, (j2, n2) :: r2 =>
        if Nat.ltb j1 j2 then (if ok j1 n1 then hvalid items r1 c2 else false)
        else if Nat.ltb j2 j1 then (if ok j2 n2 then walk r2 else false)
        else if ok j1 (n1 + n2) then hvalid items r1 r2 else false
    end.

(** merge_item_copies, tree_search_hypergraph.cpp:246-268. *)
Fixpoint hmerge (c1 : list (nat * Z)) : list (nat * Z) -> list (nat * Z) :=
  fix walk (c2 : list (nat * Z)) : list (nat * Z) :=
    match c1, c2 with
    | [], _ => c2
    | _, [] => c1
    | (j1, n1) :: r1, (j2, n2) :: r2 =>
        if Nat.ltb j1 j2 then (j1, n1) :: hmerge r1 c2
        else if Nat.ltb j2 j1 then (j2, n2) :: walk r2
        else (j1, n1 + n2) :: hmerge r1 r2
    end.

(** The direction of the cuts of a depth, tree_search_hypergraph.cpp:295-296. *)
Definition hcut_vertical (first_vertical : bool) (depth : Z) : bool :=
  Bool.eqb first_vertical (Z.rem depth 2 =? 1).

(** reconstruct_block, tree_search_hypergraph.cpp:283-378: the calls made to the
    builder.  [None]: no fuel left. *)
Fixpoint hblock_calls (fuel : nat) (returned : list HBlock) (fv : bool) (ct : Z) (b : HBlock)
    (depth x y aw ah : Z) : option (list GCall) :=
  match fuel with
  | O => None
  | S fuel =>
      let next b depth x y aw ah := hblock_calls fuel returned fv ct b depth x y aw ah in
      let vertical := hcut_vertical fv depth in
      if hb_w b <? aw then
        if vertical
        then option_map (cons (GAddNode depth (x + hb_w b))) (next b (depth + 1) x y (hb_w b) ah)
        else option_map (cons (GAddNode depth (y + ah))) (next b (depth + 1) x y aw ah)
      else if hb_h b <? ah then
        if negb vertical
        then option_map (cons (GAddNode depth (y + hb_h b))) (next b (depth + 1) x y aw (hb_h b))
        else option_map (cons (GAddNode depth (x + aw))) (next b (depth + 1) x y aw ah)
      else if hb_simple b then Some [GSetItem (hb_item b)]
      else if negb (Bool.eqb vertical (hb_vertical b)) then
        option_map (cons (GAddNode depth (if vertical then x + hb_w b else y + hb_h b)))
          (next b (depth + 1) x y (hb_w b) (hb_h b))
      else
        let b1 := nth (hb_p1 b) returned hdummy in
        let b2 := nth (hb_p2 b) returned hdummy in
        if hb_vertical b then
          match next b1 (depth + 1) x y (hb_w b1) (hb_h b),
                next b2 (depth + 1) (x + hb_w b1 + ct) y (hb_w b2) (hb_h b) with
          | Some c1, Some c2 =>
              Some (GAddNode depth (x + hb_w b1) :: c1 ++ GAddNode depth (x + hb_w b) :: c2)
          | _, _ => None
          end
        else
          match next b1 (depth + 1) x y (hb_w b) (hb_h b1),
                next b2 (depth + 1) x (y + hb_h b1 + ct) (hb_w b) (hb_h b2) with
          | Some c1, Some c2 =>
              Some (GAddNode depth (y + hb_h b1) :: c1 ++ GAddNode depth (y + hb_h b) :: c2)
          | _, _ => None
          end
  end.

(** The origin of the usable area and the orientation of the bin,
    tree_search_hypergraph.cpp:389-394. *)
Definition hx0 (i : GInstance) : Z :=
  if gt_hard (gb_left (gbin i 0)) then gt_length (gb_left (gbin i 0)) else 0.
Definition hy0 (i : GInstance) : Z :=
  if gt_hard (gb_bottom (gbin i 0)) then gt_length (gb_bottom (gbin i 0)) else 0.
Definition hfirst (i : GInstance) : GOrient :=
  match gp_first (gin_params i) with GAny => GVertical | o => o end.
Definition hfirst_vertical (i : GInstance) : bool :=
  match hfirst i with GVertical => true | _ => false end.

(** reconstruct_solution, tree_search_hypergraph.cpp:380-418, up to [build].  The
    fuel is enough for every list of blocks whose parents precede them. *)
Definition hsolution (i : GInstance) (returned : list HBlock) (root : HBlock) : option (list GCall) :=
  let W := heff_w i in let H := heff_h i in
  if Qltb 0 (hb_profit root) then
    option_map (fun calls => GAddBin 0 1 (hfirst i) :: GAddNode 1 (hx0 i + W) :: calls)
      (hblock_calls (6 * (length returned + 2)) returned (hfirst_vertical i) (gp_ct (gin_params i)) root 2
         (hx0 i) (hy0 i) W H)
  else Some [GAddBin 0 1 (hfirst i)].

(** bucket_index, tree_search_hypergraph.cpp:456-463: the largest [k] such that
    the priority is at most [0.99^k * init_bound], at most [n - 1]; the
    logarithms are exact. *)
Fixpoint hbucket_from (m k : nat) (bound p : Q) : nat :=
  match m with
  | O => k
  | S m => if Qltb (bound * (99 # 100)) p then k else hbucket_from m (S k) (bound * (99 # 100)) p
  end.
Definition hbucket (n : nat) (init p : Q) : nat :=
  if Qle_bool init 0 || Qle_bool init p then 0%nat
  else if Qle_bool p 0 then (n - 1)%nat
  else hbucket_from (n - 1) 0 init p.
(** [bucket_threshold], tree_search_hypergraph.cpp:522. *)
Definition hthreshold (init : Q) (k : nat) : Q := (init * (99 # 100) ^ Z.of_nat k)%Q.

(** [a <= b] where [a] can be minus infinity. *)
Definition hle_ext (a : option Q) (b : Q) : bool := match a with None => true | Some x => Qle_bool x b end.

(** The variables of tree_search_hypergraph: the vectors of a bucket hold their
    back first; [hs_out] are the solutions given to [update_solution], the last
    one first, with the profit of their block; [hs_asked] counts the calls of the
    timer. *)
Record HState : Type := mkHS {
  hs_buckets : list (list HBlock);
  hs_seen : list HKey;
  hs_returned : list HBlock;
  hs_best : Q;
  hs_out : list (Q * option (list GCall));
  hs_asked : nat
}.

Section Search.
Variable i : GInstance.
Variable nb : nat.
Variable rdp : list (option Q).
Variable init : Q.
Variable timer : nat -> bool.

Definition hpush (b : HBlock) (st : HState) : HState :=
  mkHS (upd (hbucket nb init (match hb_priority b with Some p => p | None => 0%Q end)) (cons b) (hs_buckets st))
    (hs_seen st) (hs_returned st) (hs_best st) (hs_out st) (hs_asked st).

(** The update of the best solution, tree_search_hypergraph.cpp:503-509, :589-595,
    :610-616. *)
Definition hrecord (b : HBlock) (st : HState) : HState :=
  if Qltb (hs_best st) (hb_profit b)
  then mkHS (hs_buckets st) (hs_seen st) (hs_returned st) (hb_profit b)
         ((hb_profit b, hsolution i (hs_returned st) b) :: hs_out st) (hs_asked st)
  else st.

(** One seed, tree_search_hypergraph.cpp:475-513. *)
Definition hseed (j : nat) (rotate : bool) (st : HState) : HState :=
  let it := gitem i j in
  if gi_copies it <? 1 then st
  else if rotate && gi_oriented it then st
  else if rotate && (gi_w it =? gi_h it) then st
  else
    let w := if rotate then gi_h it else gi_w it in
    let h := if rotate then gi_w it else gi_h it in
    if (heff_w i <? w) || (heff_h i <? h) then st
    else
      let priority := hadd_ext (hgetr (heff_w i) rdp w h) (gi_profit it) in
      if hle_ext priority (hs_best st) then st
      else
        let b := mkHB w h (gi_profit it) [(j, 1)] 1 true true j rotate 0 0 priority in
        let st := hrecord b st in
        if hle_ext priority (hs_best st) then st else hpush b st.

Definition hseeds (st : HState) : HState :=
  fold_left (fun st j => hseed j true (hseed j false st)) (seq 0 (length (gin_items i))) st.

(** The priority of a combination, tree_search_hypergraph.cpp:558-563. *)
Definition hcombined (profit : Q) (w h : Z) : option Q :=
  if (w <=? heff_w i) && (h <=? heff_h i)
  then hadd_ext (hgetr (heff_w i) rdp w h) profit
  else Some (-1 # 1)%Q.

(** The insertion of a combination, tree_search_hypergraph.cpp:580-597, :601-618. *)
Definition hinsert (b : HBlock) (st : HState) : HState := hpush b (hrecord b st).

(** The body of the loop on the existing blocks, tree_search_hypergraph.cpp:547-619. *)
Definition hcombine (cur idx : nat) (b : HBlock) (st : HState) : HState :=
  let e := nth idx (hs_returned st) hdummy in
  let profit := (hb_profit b + hb_profit e)%Q in
  let ct := gp_ct (gin_params i) in
  let vw := hb_w b + hb_w e + ct in
  let vh := Z.max (hb_h b) (hb_h e) in
  let hw := Z.max (hb_w b) (hb_w e) in
  let hh := hb_h b + hb_h e + ct in
  let vp := hcombined profit vw vh in
  let hp := hcombined profit hw hh in
  if hle_ext vp (hs_best st) && hle_ext hp (hs_best st) then st
  else if negb (hvalid (gin_items i) (hb_copies b) (hb_copies e)) then st
  else
    let copies := hmerge (hb_copies b) (hb_copies e) in
    let number := hb_number b + hb_number e in
    let st :=
      if hle_ext vp (hs_best st) then st
      else hinsert (mkHB vw vh profit copies number true false 0 false cur idx vp) st in
    if hle_ext hp (hs_best st) then st
    else hinsert (mkHB hw hh profit copies number false false 0 false cur idx hp) st.

(** The loop on a bucket, tree_search_hypergraph.cpp:526-621.  [None]: no fuel
    left. *)
Fixpoint hbucket_loop (fuel : nat) (k : nat) (st : HState) : option HState :=
  match nth k (hs_buckets st) [] with
  | [] => Some st
  | b :: rest =>
      match fuel with
      | O => None
      | S fuel =>
          let ended := timer (hs_asked st) in
          let st := mkHS (hs_buckets st) (hs_seen st) (hs_returned st) (hs_best st) (hs_out st) (S (hs_asked st)) in
          if ended then Some st
          else if Qle_bool (hthreshold init k) (hs_best st) then Some st
          else
            let st := mkHS (upd k (fun _ => rest) (hs_buckets st)) (hs_seen st) (hs_returned st) (hs_best st)
                        (hs_out st) (hs_asked st) in
            if hle_ext (hb_priority b) (hs_best st) then hbucket_loop fuel k st
            else if existsb (hkey_eqb (hkey b)) (hs_seen st) then hbucket_loop fuel k st
            else
              let cur := length (hs_returned st) in
              let st := mkHS (hs_buckets st) (hkey b :: hs_seen st) (hs_returned st ++ [b]) (hs_best st)
                          (hs_out st) (hs_asked st) in
              hbucket_loop fuel k (fold_left (fun st idx => hcombine cur idx b st) (seq 0 (S cur)) st)
      end
  end.

(** The loop on the buckets, tree_search_hypergraph.cpp:519-622. *)
Fixpoint hbuckets_loop (fuel : nat) (ks : list nat) (st : HState) : option HState :=
  match ks with
  | [] => Some st
  | k :: ks =>
      let ended := timer (hs_asked st) in
      let st := mkHS (hs_buckets st) (hs_seen st) (hs_returned st) (hs_best st) (hs_out st) (S (hs_asked st)) in
      if ended then Some st
      else if Qle_bool (hthreshold init k) (hs_best st) then Some st
      else
        match hbucket_loop fuel k st with
        | Some st => hbuckets_loop fuel ks st
        | None => None
        end
  end.

Definition hstart : HState := mkHS (repeat [] nb) [] [] 0 [] 0.
Definition hrun (fuel : nat) : option HState := hbuckets_loop fuel (seq 0 nb) (hseeds hstart).
End Search.

(** tree_search_hypergraph, tree_search_hypergraph.cpp:426-626: the state at the
    end.  An exception of the builder would end it at the first solution the
    builder refuses; the model goes on. *)
Definition hyper (i : GInstance) (timer : nat -> bool) (fuel : nat) : option HState :=
  let W := heff_w i in let H := heff_h i in
  let dp := hdp (gin_items i) W H (gp_ct (gin_params i)) in
  hrun i 2000 (hrdp dp W H (gp_ct (gin_params i))) (hget W dp W H) timer fuel.

(** ** The algorithm with infinite copies *)

(** The first item type of these dimensions and this profit,
    tree_search_hypergraph_infinite_copies.cpp:110-122. *)
Definition hfind_item (items : list GItem) (w h : Z) (v : Q) : option nat :=
  find (fun j =>
    let it := nth j items gdummy_item in
    (((gi_w it =? w) && (gi_h it =? h)) || (negb (gi_oriented it) && (gi_h it =? w) && (gi_w it =? h)))
    && Qeq_bool (gi_profit it) v) (seq 0 (length items)).

(** reconstruct_rec, tree_search_hypergraph_infinite_copies.cpp:92-173.  [None]:
    no fuel left. *)
Fixpoint hdp_calls (fuel : nat) (items : list GItem) (dp : list Q) (W ct : Z) (fv : bool)
    (w h depth x y : Z) : option (list GCall) :=
  match fuel with
  | O => None
  | S fuel =>
      let next w h depth x y := hdp_calls fuel items dp W ct fv w h depth x y in
      let v := hget W dp w h in
      if Qeq_bool v 0 then Some []
      else
        match hfind_item items w h v with
        | Some j => Some [GSetItem j]
        | None =>
            if hcut_vertical fv depth then
              match find (fun cut => Qeq_bool (hget W dp cut h + hget W dp (w - cut - ct) h) v) (hcuts ct w) with
              | Some cut =>
                  match next cut h (depth + 1) x y, next (w - cut - ct) h (depth + 1) (x + cut + ct) y with
                  | Some c1, Some c2 => Some (GAddNode depth (x + cut) :: c1 ++ GAddNode depth (x + w) :: c2)
                  | _, _ => None
                  end
              | None => option_map (cons (GAddNode depth (x + w))) (next w h (depth + 1) x y)
              end
            else
              match find (fun cut => Qeq_bool (hget W dp w cut + hget W dp w (h - cut - ct)) v) (hcuts ct h) with
              | Some cut =>
                  match next w cut (depth + 1) x y, next w (h - cut - ct) (depth + 1) x (y + cut + ct) with
                  | Some c1, Some c2 => Some (GAddNode depth (y + cut) :: c1 ++ GAddNode depth (y + h) :: c2)
                  | _, _ => None
                  end
              | None => option_map (cons (GAddNode depth (y + h))) (next w h (depth + 1) x y)
              end
        end
  end.

(** reconstruct_solution, tree_search_hypergraph_infinite_copies.cpp:175-205, up to
    [build]; the fuel is enough. *)
Definition hdp_solution (i : GInstance) (dp : list Q) : option (list GCall) :=
  let W := heff_w i in let H := heff_h i in
  if Qltb 0 (hget W dp W H) then
    option_map (fun calls => GAddBin 0 1 (hfirst i) :: GAddNode 1 (hx0 i + W) :: calls)
      (hdp_calls (Z.to_nat (2 * (W + H) + 2)) (gin_items i) dp W (gp_ct (gin_params i)) (hfirst_vertical i)
         W H 2 (hx0 i) (hy0 i))
  else Some [GAddBin 0 1 (hfirst i)].

(** tree_search_hypergraph_infinite_copies,
    tree_search_hypergraph_infinite_copies.cpp:213-231: the table and the calls. *)
Definition hyper_infinite (i : GInstance) : list Q * option (list GCall) :=
  let dp := hdp (gin_items i) (heff_w i) (heff_h i) (gp_ct (gin_params i)) in
  (dp, hdp_solution i dp).
