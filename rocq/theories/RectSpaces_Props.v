(** * C24, C40, C49: the maximal-space search *)

From Coq Require Import List ZArith QArith Bool Lia Arith.
From Verif Require Import Util Common_Model Rect_Model Rect_Spec RectSol_Model RectSol_Spec RectSol_Proof RectSol_Props Block_Model Block_Proof
  RectBlock_Model RectBlock_Spec RectBlock_Proof RectBlock_Props Space_Model Space_Spec Space_Proof SpaceNode_Proof
  RectSpaces_Model RectSpaces_Spec RectSpaces_Proof RectNormal_Proof.
Import ListNotations.
Open Scope Z_scope.

(** ** C24, C40 *)

(** Cutting the bin around obstacles, in any order, with any number of axes (two for
    rectangles, three for boxes) and with any overlaps between the obstacles, ends and
    gives exactly the maximal free boxes, each once. *)
Theorem C24_maximal_spaces : forall bin obstacles, positive bin -> (forall o, In o obstacles -> length o = length bin) ->
  exists l, cut_all [bin] obstacles = Some l /\ NoDup l /\ forall s, In s l <-> maximal_free bin obstacles s.
Proof.
  intros bin obs P L. destruct (start_good bin (fun _ => True) P) as [G C].
  destruct (cut_all_spec bin (fun _ => True) obs [] [bin] L G C) as (l & E & G' & C'). rewrite app_nil_l in *.
  exists l. split; [assumption|]. destruct (good_maximal bin obs (fun _ => True) l (fun _ _ _ _ => I) G' C') as [M1 M2].
  split; [apply G'|]. intro s. split; [intro Hs; apply M1; auto|intro Hs; apply M2; auto].
Qed.
Print Assumptions C24_maximal_spaces.

(** Every free box is inside one of them. *)
Theorem C24_free_boxes_covered : forall bin obstacles l, positive bin -> (forall o, In o obstacles -> length o = length bin) ->
  cut_all [bin] obstacles = Some l -> forall r, free bin obstacles r -> exists s, In s l /\ within r s.
Proof.
  intros bin obs l P L E r F. destruct (start_good bin (fun _ => True) P) as [G C].
  destruct (cut_all_spec bin (fun _ => True) obs [] [bin] L G C) as (l' & E' & _ & C'). rewrite app_nil_l in *.
  rewrite E in E'. injection E' as <-. apply C'; auto.
Qed.
Print Assumptions C24_free_boxes_covered.

Theorem C40_maximal_spaces : forall bin obstacles, length bin = 3%nat -> positive bin -> (forall o, In o obstacles -> length o = 3%nat) ->
  exists l, cut_all [bin] obstacles = Some l /\ NoDup l /\ (forall s, In s l <-> maximal_free bin obstacles s)
    /\ forall r, free bin obstacles r -> exists s, In s l /\ within r s.
Proof.
  intros bin obs E P L. rewrite <- E in L. destruct (C24_maximal_spaces bin obs P L) as (l & A & B & C).
  exists l. split; [assumption|]. split; [assumption|]. split; [assumption|]. apply C24_free_boxes_covered; assumption.
Qed.
Print Assumptions C40_maximal_spaces.

(** A concrete case: a 10 x 6 bin with a defect and a block, which leave four spaces;
    and a cube with a corner taken, which leaves three. *)
Example C24_maximal_spaces_example :
  cut_all [[(0, 10); (0, 6)]] [[(4, 2); (2, 1)]; [(0, 3); (0, 3)]]
  = Some [[(0, 10); (3, 3)]; [(6, 4); (0, 6)]; [(3, 1); (0, 6)]; [(3, 7); (0, 2)]].
Proof. vm_compute. reflexivity. Qed.
Example C40_maximal_spaces_example :
  cut_all [[(0, 4); (0, 4); (0, 4)]] [[(0, 1); (0, 2); (0, 3)]]
  = Some [[(1, 3); (0, 4); (0, 4)]; [(0, 4); (2, 2); (0, 4)]; [(0, 4); (0, 4); (3, 1)]].
Proof. vm_compute. reflexivity. Qed.

(** In the search, any number of axes: every node's blocks are inside the bin, off the
    defects, pairwise apart, within the numbers of copies and the maximum weight, its
    totals are right, and its spaces are the maximal free boxes that can still hold an
    available block. *)
Theorem C24_nodes : forall d n, sdata_ok d -> node_of d n -> node_ok d n /\ (sd_blocks d <> [] -> spaces_ok d n).
Proof.
  intros d n Hd Hn. split; [apply node_node_ok; assumption|]. intro Hne. apply node_spaces; [assumption| |assumption].
  destruct (da_bin d Hd) as [H|H]; [assumption|contradiction].
Qed.
Print Assumptions C24_nodes.

(** Every insertion offered at a node can be applied: the search never gets stuck. *)
Theorem C24_insertions_applicable : forall d n ins, sdata_ok d -> node_of d n -> In ins (insertions d n) ->
  exists n', apply_insertion d n ins = Some n' /\ node_of d n' /\ sn_placed n' = sn_placed n ++ [ins].
Proof.
  intros d n ins Hd Hn Hin. destruct (child_exists d Hd n ins Hn Hin) as (n' & A & B & _). exists n'.
  split; [assumption|]. split; [eapply no_child; eassumption|assumption].
Qed.
Print Assumptions C24_insertions_applicable.

(** For rectangles, with the blocks generated by [compute_blocks]: every node is a
    packing of one bin, with the stated totals. *)
Theorem C24_node_packing : forall i t maximum fuel out n,
  (forall it, In it (rin_items i) -> 0 < ri_x it /\ 0 < ri_y it /\ 0 <= ri_copies it) -> (t < length (rin_bins i))%nat ->
  compute_blocks_for_bin i (rbin i t) maximum fuel = Blocks out -> node_of (rs_data i t out) n ->
  let ps := rs_items out n in
  packing_ok i [mkRD t 1 ps] /\
  (forall w, rb_max_weight (rbin i t) = Some w -> ps = [] \/ (qsum (fun p => ri_weight (ritem i (pl_type p))) ps <= w)%Q) /\
  (sn_profit n == qsum (fun p => ri_profit (ritem i (pl_type p))) ps)%Q /\
  (sn_weight n == qsum (fun p => ri_weight (ritem i (pl_type p))) ps)%Q /\
  sn_items n = Z.of_nat (length ps).
Proof.
  intros i t maximum fuel out n Hpos Ht E Hn. cbv zeta.
  assert (Hout : forall b, In b out -> block_ok i (rbin i t) b) by (apply (C23_blocks_valid i _ maximum fuel out (rs_nonneg i t Ht Hpos) E)).
  pose proof (node_node_ok (rs_data i t out) (rs_ok i t Ht out Hpos Hout) n Hn) as K.
  split; [apply (rs_packing i t Ht out Hpos Hout n K)|]. split.
  - intros w Hw. destruct (nk_max_weight _ _ K w Hw) as [H|H]; [left; unfold rs_items; rewrite H; reflexivity|right].
    rewrite <- (rs_weight i t out Hout n K), (nk_weight _ _ K). assumption.
  - split; [apply (rs_profit i t Ht out Hout n K)|]. split; [apply (rs_weight i t out Hout n K)|apply (rs_number i t Ht out n K)].
Qed.
Print Assumptions C24_node_packing.

(** Completing a node greedily, whatever the guide, ends, and the solution built is a
    packing that contains the node's items and has the right indicators. *)
Theorem C24_to_solution : forall i cb t maximum fuel out n score fuel',
  (forall it, In it (rin_items i) -> 0 < ri_x it /\ 0 < ri_y it /\ 0 <= ri_copies it) -> rwf_resources i -> (t < length (rin_bins i))%nat ->
  compute_blocks_for_bin i (rbin i t) maximum fuel = Blocks out -> node_of (rs_data i t out) n ->
  zsum ri_copies (rin_items i) < Z.of_nat fuel' ->
  exists s more, rs_to_solution i cb t out score fuel' n = Some s /\
    rview s = [mkRD t 1 (rs_items out n ++ more)] /\ packing_ok i (rview s) /\ RIndicators i (rview s) (rs_core s) /\
    (forall w, rb_max_weight (rbin i t) = Some w ->
       rs_items out n ++ more = [] \/ (qsum (fun p => ri_weight (ritem i (pl_type p))) (rs_items out n ++ more) <= w)%Q).
Proof.
  intros i cb t maximum fuel out n score fuel' Hpos Hw Ht E Hn Hf.
  assert (Hout : forall b, In b out -> block_ok i (rbin i t) b) by (apply (C23_blocks_valid i _ maximum fuel out (rs_nonneg i t Ht Hpos) E)).
  pose proof (rs_ok i t Ht out Hpos Hout) as Hd.
  destruct (greedy_spec (rs_data i t out) Hd score n Hn) as (n' & Hn' & _ & (more & Hm) & Hg).
  pose proof (node_node_ok _ Hd n' Hn') as K. destruct (rs_history i t Ht out Hpos Hout Hw cb n' K) as (s & Hs & V).
  assert (I : rs_items out n' = rs_items out n ++ flat_map (fun pb => put (nth (fst pb) out dummy_rblock) (nth 0 (snd pb) 0) (nth 1 (snd pb) 0)) more)
    by (unfold rs_items; rewrite Hm, flat_map_app; reflexivity).
  exists s. eexists. rewrite I in V. split; [|split; [exact V|]].
  - unfold rs_to_solution. rewrite Hg; [exact Hs|].
    pose proof (node_node_ok _ Hd n Hn) as K0. pose proof (rs_number i t Ht out n K0) as N.
    cbn [rs_data sd_copies].
    assert (Zs : zsum (fun c => c) (map ri_copies (rin_items i)) = zsum ri_copies (rin_items i)).
    { clear. induction (rin_items i) as [|a l IH]; [reflexivity|]. cbn [map]. rewrite !zsum_cons, IH. reflexivity. }
    assert (0 <= zsum ri_copies (rin_items i)) by (apply zsum_nonneg; intros it Hit; apply (Hpos it Hit)).
    rewrite Zs. lia.
  - pose proof (rs_packing i t Ht out Hpos Hout n' K) as P. rewrite I in P. rewrite V. split; [assumption|]. split.
    + assert (Hc : rcopies_nonneg (rs_calls t out n') []).
      { intros e He. rewrite rs_calls_desc in He. cbn in He. destruct He as [<-|[]]. cbn. lia. }
      destruct (C42_indicators i cb _ _ s Hw Hc Hs) as [_ R]. rewrite V in R. exact R.
    + intros w Hw'. destruct (C24_node_packing i t maximum fuel out n' Hpos Ht E Hn') as (_ & W & _). rewrite I in W. apply W. assumption.
Qed.
Print Assumptions C24_to_solution.

(** When there is no maximum weight and the guide is positive, the greedy completion
    only stops when no available block can be added anywhere. *)
Theorem C24_greedy_maximal : forall d score n n' fuel, sdata_ok d -> node_of d n -> sd_max_weight d = None ->
  (forall m ins, (0 < score m ins)%Q) -> greedy d score fuel n = Some n' ->
  forall pos id, available d n' id -> length pos = length (sd_bin d) ->
    within (combine pos (sb_dims (sblock d id))) (bin_space d) ->
    ~ (forall o, In o (sd_defects d ++ map (occupied d) (sn_placed n')) -> apart (combine pos (sb_dims (sblock d id))) o).
Proof.
  intros d score n n' fuel Hd Hn Hw Hs Hg pos id Hav Hlen Hin Hap.
  assert (G : node_of d n' /\ best_insertion d score n' = None).
  { clear - Hn Hg Hd. revert n Hn Hg. induction fuel as [|fuel IH]; intros n Hn Hg; [discriminate|]. cbn [greedy] in Hg.
    destruct (best_insertion d score n) as [ins|] eqn:E; [|injection Hg as <-; auto].
    destruct (apply_insertion d n ins) as [n1|] eqn:Ea; [|discriminate]. apply (IH n1); [|assumption].
    eapply no_child; [exact Hn| |exact Ea]. eapply best_insertion_in; eassumption. }
  destruct G as [Hn' Hb].
  assert (Hemp : insertions d n' = []).
  { unfold best_insertion in Hb. destruct (insertions d n') as [|ins l] eqn:E; [reflexivity|exfalso].
    cbn [fold_left] in Hb. cbn [snd] in Hb. destruct (Qle_bool (score n' ins) 0) eqn:Ez.
    - apply Qle_bool_iff in Ez. apply (Qlt_not_le _ _ (Hs n' ins) Ez).
    - assert (T : forall l' acc, fst acc <> None ->
        fst (fold_left (fun acc ins => if Qle_bool (score n' ins) (snd acc) then acc else (Some ins, score n' ins)) l' acc) <> None).
      { induction l' as [|x l' IH]; intros acc Ha; cbn [fold_left]; [assumption|]. apply IH. destruct (Qle_bool (score n' x) (snd acc)); [exact Ha|discriminate]. }
      refine (T l _ _ Hb). discriminate. }
  assert (Hne : sd_blocks d <> []).
  { intro E. destruct Hav as [Hav _]. rewrite E in Hav. cbn in Hav. lia. }
  destruct (C24_nodes d n' Hd Hn') as [K S]. specialize (S Hne).
  destruct (so_covers d n' S pos id Hav Hlen Hin Hap) as (s & Hss & Ws).
  destruct (find_best_space d (sn_spaces n')) as [s0|] eqn:Eb.
  2:{ unfold find_best_space in Eb. destruct (sn_spaces n') as [|a l]; [destruct Hss|]. cbn [fold_left] in Eb.
      assert (T : forall l acc, acc <> None -> fold_left (fun best s => match best with None => Some s | Some b => if better_space d s b then Some s else Some b end) l acc <> None).
      { induction l0 as [|x l0 IH]; intros acc Ha; cbn [fold_left]; [assumption|]. apply IH. destruct acc; [|discriminate]. destruct (better_space d x l1); discriminate. }
      refine (T l (Some a) _ Eb). discriminate. }
  (* the best space has room for a valid block *)
  assert (U : usable d (sn_valid n') s0 = true).
  { pose proof (best_space_in d _ _ Eb) as H0.
    assert (Hid : In id (sn_valid n')) by (apply (nk_valid d n' K); assumption).
    assert (Hfit : fits (sb_dims (sblock d id)) s = true).
    { destruct (so_maximal d n' S s Hss) as [(_ & Wb & _) _].
      assert (Ls : length s = length (sd_bin d)).
      { apply within_length in Wb. rewrite Wb. unfold bin_space. apply map_length. }
      apply fits_room; [destruct (da_dims d Hd (sblock d id)) as [A _]; [apply nth_In, Hav|congruence]|].
      destruct (da_dims d Hd (sblock d id)) as [A _]; [apply nth_In, Hav|]. clear - Ws Hlen A Ls.
      unfold has_room. rewrite <- Ls in *. clear Ls. revert pos s Hlen A Ws. generalize (sb_dims (sblock d id)).
      induction l as [|a l IH]; intros [|p pos] [|e s] H1 H2 W; try discriminate; [constructor|].
      cbn [combine] in W. inversion W as [|? ? ? ? W1 W2]; subst. cbn [fst snd] in W1. constructor; [lia|]. apply (IH pos s); [|cbn in H2; lia|assumption]. cbn in H1; lia. }
    destruct Hn' as [n' Hr|n0 ins n' _ _ Ha].
    - unfold root in Hr. destruct (cut_all [bin_space d] (sd_defects d)) as [l|] eqn:Ec; [|discriminate].
      injection Hr as <-. cbn [sn_spaces sn_valid] in *. destruct (sd_defects d) as [|f fs].
      + cbn in Ec. injection Ec as <-. destruct H0 as [<-|[]]. destruct Hss as [<-|[]].
        unfold usable. apply existsb_exists. exists id. auto.
      + apply swap_filter_in in H0. apply H0.
    - unfold apply_insertion in Ha. destruct (cut_spaces _ _) as [l|]; [|discriminate]. injection Ha as <-. cbn [sn_spaces sn_valid] in *.
      apply swap_filter_in in H0. apply H0. }
  unfold usable in U. apply existsb_exists in U. destruct U as (id' & Hid' & Hf).
  unfold insertions in Hemp. rewrite Eb in Hemp.
  assert (I : forall x, In x (insertions d n') -> False) by (unfold insertions; rewrite Eb, Hemp; intros x []).
  eapply I. unfold insertions. rewrite Eb. apply in_flat_map. exists id'. split; [assumption|]. cbv zeta. rewrite Hf. cbn [negb].
  unfold too_heavy. rewrite Hw. left. reflexivity.
Qed.
Print Assumptions C24_greedy_maximal.

(** A concrete case: the instance of C23_example, with its first twenty blocks; the
    greedy completion by area packs all seven items. *)
Definition ex_score (out : list RBlock) : SNode -> nat * list Z -> Q :=
  fun _ ins => inject_Z (bk_area (nth (fst ins) out dummy_rblock)).
Definition ex_blocks (i : RInstance) (t : nat) (maximum : Z) (fuel : nat) : list RBlock :=
  match compute_blocks_for_bin i (rbin i t) maximum fuel with Blocks l => l | _ => [] end.

Example C24_example :
  let i := ex_block_instance in let out := ex_blocks i 0 20 200 in
  compute_blocks_for_bin i (rbin i 0) 20 200 = Blocks out /\ (forall it, In it (rin_items i) -> 0 < ri_x it /\ 0 < ri_y it /\ 0 <= ri_copies it) /\ rwf_resources i /\
  exists n s, node_of (rs_data i 0 out) n /\ rs_to_solution i raccept 0 out (ex_score out) 20 n = Some s /\
    match rview s with [d] => length (rd_items d) = 7%nat | _ => False end.
Proof.
  cbv zeta. split; [vm_compute; reflexivity|]. split; [intros it [<-|[<-|[]]]; simpl; lia|]. split.
  - intros x t Hx Ht. cbn in Hx, Ht. assert (t = 0%nat) by lia. subst t.
    assert (E : nth 0 (ri_resource_ids (ritem ex_block_instance x)) [] = []) by (destruct x as [|[|x]]; [reflexivity|reflexivity|lia]).
    rewrite E. split; [constructor|]. intro r. cbn. lia.
  - destruct (root (rs_data ex_block_instance 0 (ex_blocks ex_block_instance 0 20 200))) as [n|] eqn:E; [|vm_compute in E; discriminate].
    exists n. destruct (rs_to_solution ex_block_instance raccept 0 (ex_blocks ex_block_instance 0 20 200) (ex_score (ex_blocks ex_block_instance 0 20 200)) 20 n) as [s|] eqn:Es.
    + exists s. split; [constructor; assumption|]. split; [reflexivity|]. vm_compute in E. injection E as <-. vm_compute in Es. injection Es as <-. reflexivity.
    + exfalso. vm_compute in E. injection E as <-. vm_compute in Es. discriminate.
Qed.

(** ** Eligibility is not considered *)

Definition ex_ineligible : RInstance :=
  mkRInst OKnapsack default_params
    [ {| ri_x := 3; ri_y := 2; ri_profit := 6%Q; ri_copies := 1; ri_copies_min := 0; ri_group := 0%nat; ri_oriented := true;
         ri_weight := 0%Q; ri_eligibility := 1; ri_resource_ids := [[]] |} ]
    [ {| rb_x := 3; rb_y := 2; rb_cost := 6%Q; rb_copies := 1; rb_copies_min := 0; rb_max_weight := None;
         rb_truck := no_truck; rb_eligibility_ids := [2]; rb_defects := []; rb_resources := [] |} ].

(** An item that is not eligible for the bin is put in it, in a solution that says it
    is feasible: the search never looks at eligibility. *)
Theorem C24_eligibility_refuted :
  exists n s, node_of (rs_data ex_ineligible 0 (ex_blocks ex_ineligible 0 10000 100)) n /\
    rs_to_solution ex_ineligible raccept 0 (ex_blocks ex_ineligible 0 10000 100) (fun _ _ => 1%Q) 10 n = Some s /\
    rs_feasible s = true /\ ~ relig_ok ex_ineligible (rview s).
Proof.
  destruct (root (rs_data ex_ineligible 0 (ex_blocks ex_ineligible 0 10000 100))) as [n|] eqn:E; [|vm_compute in E; discriminate].
  exists n. destruct (rs_to_solution ex_ineligible raccept 0 (ex_blocks ex_ineligible 0 10000 100) (fun _ _ => 1%Q) 10 n) as [s|] eqn:Es.
  - exists s. split; [constructor; assumption|]. split; [reflexivity|]. vm_compute in E. injection E as <-. vm_compute in Es. injection Es as <-.
    split; [reflexivity|]. intro H. destruct (H (mkRD 0 1 [mkPl 0 0 0 false]) (mkPl 0 0 0 false)) as [H'|H'].
    + left. reflexivity.
    + left. reflexivity.
    + vm_compute in H'. discriminate.
    + vm_compute in H'. destruct H' as [H'|[]]. discriminate.
  - exfalso. vm_compute in E. injection E as <-. vm_compute in Es. discriminate.
Qed.
Print Assumptions C24_eligibility_refuted.

(** ** C49 *)

(** Without defects, replacing the bin by the lengths the items can reach loses no
    packing: every packing of the bin can be pushed into the smaller bin. *)
Theorem C49_clipping : forall i t ps out, (t < length (rin_bins i))%nat ->
  (forall it, In it (rin_items i) -> 0 < ri_x it /\ 0 < ri_y it /\ 0 <= ri_copies it) ->
  0 <= rb_x (rbin i t) -> 0 <= rb_y (rbin i t) -> rb_defects (rbin i t) = [] ->
  packing_ok i [mkRD t 1 ps] ->
  exists ps', same_items ps ps' /\ packing_ok i [mkRD t 1 ps'] /\
    forall p, In p ps' -> pl_xe i p <= nth 0 (sd_bin (rs_data i t out)) 0 /\ pl_ye i p <= nth 1 (sd_bin (rs_data i t out)) 0.
Proof.
  intros i t ps out Ht Hpos Hx Hy Hd [P1 P2].
  destruct (P1 _ (or_introl eq_refl)) as (_ & _ & G). cbn [rd_type rd_copies rd_items] in G.
  assert (C : forall x, (x < length (rin_items i))%nat -> rcount x ps <= ri_copies (ritem i x)).
  { intros x Hx'. specialize (P2 x Hx'). unfold rpacked in P2. rewrite zsum_cons, zsum_nil in P2. cbn [rd_copies rd_items] in P2. lia. }
  destruct (push_packing i ps (rbin i t) Hpos Hd G C) as (ps' & S & G' & St). exists ps'. split; [assumption|]. split.
  - constructor.
    + intros e [<-|[]]. cbn [rd_type rd_copies rd_items]. split; [assumption|]. split; [lia|assumption].
    + intros x Hx'. specialize (P2 x Hx'). unfold rpacked in *. rewrite zsum_cons, zsum_nil in *. cbn [rd_copies rd_items] in *.
      assert (E : rcount x ps' = rcount x ps); [|lia]. clear - S. induction S as [|p q ps ps' [E _] _ IH]; [reflexivity|].
      rewrite !rcount_cons, IH, E. reflexivity.
  - destruct (clip_spec i t Ht Hpos Hx Hy) as (_ & _ & Cx & Cy). intros p Hp. destruct (St p Hp) as [Sx Sy].
    destruct (ge_places _ _ _ G' p Hp) as [_ [_ A] [_ B] _]. cbn [rs_data sd_bin nth]. split; [apply Cx; assumption|apply Cy; assumption].
Qed.
Print Assumptions C49_clipping.

(** A concrete case: a bin of length ten, one item of length four, at the far end. *)
Definition ex_wide : RInstance :=
  mkRInst OFeasibility default_params
    [ {| ri_x := 4; ri_y := 3; ri_profit := 12%Q; ri_copies := 1; ri_copies_min := 1; ri_group := 0%nat; ri_oriented := true;
         ri_weight := 0%Q; ri_eligibility := -1; ri_resource_ids := [[]] |} ]
    [ {| rb_x := 10; rb_y := 3; rb_cost := 30%Q; rb_copies := 1; rb_copies_min := 0; rb_max_weight := None;
         rb_truck := no_truck; rb_eligibility_ids := []; rb_defects := []; rb_resources := [] |} ].
Example C49_clipping_example :
  packing_ok ex_wide [mkRD 0 1 [mkPl 0 6 0 false]] /\ sd_bin (rs_data ex_wide 0 []) = [4; 3].
Proof.
  split; [|vm_compute; reflexivity]. constructor.
  - intros e [<-|[]]. cbn [rd_type rd_copies rd_items]. split; [cbn; lia|]. split; [lia|]. constructor.
    + intros p [<-|[]]. constructor; vm_compute; repeat split; try discriminate; lia.
    + repeat constructor.
    + intros p f _ [].
  - intros x Hx. cbn in Hx. assert (x = 0%nat) by lia. subst x. vm_compute. discriminate.
Qed.

(** Checks a property of every node below a node; [false] when the fuel runs out. *)
Fixpoint all_below (d : SData) (P : SNode -> bool) (fuel : nat) (n : SNode) : bool :=
  match fuel with
  | O => false
  | S f => P n && forallb (fun ins => match apply_insertion d n ins with Some n' => all_below d P f n' | None => true end) (insertions d n)
  end.

Lemma all_below_nodes : forall d P fuel r, root d = Some r -> all_below d P fuel r = true -> forall n, node_of d n -> P n = true.
Proof.
  intros d P fuel r Hr H n Hn. assert (G : exists f, all_below d P f n = true).
  { induction Hn as [n E|n ins n' Hn [f IH] Hin Ha].
    - rewrite Hr in E. injection E as <-. exists fuel. assumption.
    - destruct f as [|f]; [discriminate|]. cbn [all_below] in IH. apply andb_prop in IH. destruct IH as [_ IH].
      rewrite forallb_forall in IH. specialize (IH ins Hin). rewrite Ha in IH. exists f. assumption. }
  destruct G as [f G]. destruct f as [|f]; [discriminate|]. cbn [all_below] in G. apply andb_prop in G. apply G.
Qed.

(** With a defect, the clipped bin can lose packings: a bin of length ten with a defect
    on its first unit, and one item of length four, which may only go after the defect.
    No node of the search contains it, so that an exhausted search declares the
    instance infeasible. *)
Definition ex_clip : RInstance :=
  mkRInst OFeasibility default_params
    [ {| ri_x := 4; ri_y := 3; ri_profit := 12%Q; ri_copies := 1; ri_copies_min := 1; ri_group := 0%nat; ri_oriented := true;
         ri_weight := 0%Q; ri_eligibility := -1; ri_resource_ids := [[]] |} ]
    [ {| rb_x := 10; rb_y := 3; rb_cost := 30%Q; rb_copies := 1; rb_copies_min := 0; rb_max_weight := None;
         rb_truck := no_truck; rb_eligibility_ids := []; rb_defects := [mkDefect 0 0 1 1]; rb_resources := [] |} ].

Theorem C49_defects_refuted :
  (forall maximum fuel out n, compute_blocks_for_bin ex_clip (rbin ex_clip 0) maximum fuel = Blocks out -> node_of (rs_data ex_clip 0 out) n ->
     rs_items out n = []) /\
  packing_ok ex_clip [mkRD 0 1 [mkPl 0 1 0 false]] /\ rall_packed ex_clip [mkRD 0 1 [mkPl 0 1 0 false]].
Proof.
  split; [|split].
  - intros maximum fuel out n E Hn.
    assert (Hpos : forall it, In it (rin_items ex_clip) -> 0 < ri_x it /\ 0 < ri_y it /\ 0 <= ri_copies it) by (intros it [<-|[]]; simpl; lia).
    assert (Ht : (0 < length (rin_bins ex_clip))%nat) by (cbn; lia).
    assert (Hout : forall b, In b out -> block_ok ex_clip (rbin ex_clip 0) b) by (apply (C23_blocks_valid ex_clip _ maximum fuel out (rs_nonneg _ _ Ht Hpos) E)).
    pose proof (node_node_ok _ (rs_ok ex_clip 0 Ht out Hpos Hout) n Hn) as K.
    destruct (sn_placed n) as [|p l] eqn:Ep; [unfold rs_items; rewrite Ep; reflexivity|exfalso].
    assert (Hp : In p (sn_placed n)) by (rewrite Ep; left; reflexivity).
    destruct (placed_two ex_clip 0 Ht out n p K Hp) as (B & O & X1 & X2 & Y1 & Y2). cbv zeta in *.
    pose proof (Hout _ B) as Bo. destruct (bo_tight _ _ _ Bo) as ((q & Hq & _) & _).
    destruct (bo_items _ _ _ Bo q Hq) as (A1 & A2 & A3 & A4 & A5 & A6).
    assert (T : pl_type q = 0%nat) by (cbn in A1; lia).
    assert (R : pl_rot q = false) by (destruct (pl_rot q); [rewrite T in A2; discriminate A2; reflexivity|reflexivity]).
    unfold pl_xe, pl_ye, pl_w, pl_h in *. rewrite T, R in *.
    change (ri_x (ritem ex_clip 0)) with 4 in A4. change (ri_y (ritem ex_clip 0)) with 3 in A6.
    assert (Cx : clip_x ex_clip 0 = 4) by (vm_compute; reflexivity). assert (Cy : clip_y ex_clip 0 = 3) by (vm_compute; reflexivity).
    pose proof (nk_defects _ _ K p (rs_defect (mkDefect 0 0 1 1)) Hp (or_introl eq_refl)) as D. rewrite O in D. unfold rs_defect in D. apply (apart2 ex_clip 0 Ht) in D. cbn [df_x df_y df_lx df_ly] in D. lia.
  - constructor.
    + intros e [<-|[]]. cbn [rd_type rd_copies rd_items]. split; [cbn; lia|]. split; [lia|]. constructor.
      * intros p [<-|[]]. constructor; vm_compute; repeat split; try discriminate; lia.
      * repeat constructor.
      * intros p f [<-|[]] [<-|[]]. vm_compute. right; left. discriminate.
    + intros x Hx. cbn in Hx. assert (x = 0%nat) by lia. subst x. vm_compute. discriminate.
  - intros x Hx. cbn in Hx. assert (x = 0%nat) by lia. subst x. vm_compute. reflexivity.
Qed.
Print Assumptions C49_defects_refuted.

(** Even without defects, the search only places a block in a corner of the space
    nearest to a corner of the bin, and so misses packings.  Here the six items fit in
    the bin, but no node of the tree contains them all, nor a profit larger than 23:
    an exhausted search declares the instance infeasible (objective Feasibility) or
    gives at most 23 as the knapsack bound, although 27 can be packed (objective Knapsack). *)
Definition ex_corner (o : Objective) : RInstance :=
  let item := fun x y c => {| ri_x := x; ri_y := y; ri_profit := inject_Z (x * y); ri_copies := c; ri_copies_min := match o with OKnapsack => 0 | _ => c end;
    ri_group := 0%nat; ri_oriented := true; ri_weight := 0%Q; ri_eligibility := -1; ri_resource_ids := [[]] |} in
  mkRInst o default_params [item 1 4 2; item 1 5 1; item 2 1 1; item 3 2 2]
    [ {| rb_x := 5; rb_y := 6; rb_cost := 30%Q; rb_copies := 1; rb_copies_min := 0; rb_max_weight := None;
         rb_truck := no_truck; rb_eligibility_ids := []; rb_defects := []; rb_resources := [] |} ].
Definition ex_corner_packing : list Place :=
  [mkPl 3 0 0 false; mkPl 3 1 4 false; mkPl 1 4 0 false; mkPl 0 0 2 false; mkPl 0 3 0 false; mkPl 2 1 2 false].

Theorem C49_exhausted_search_refuted : forall o, o = OFeasibility \/ o = OKnapsack ->
  exists out, compute_blocks_for_bin (ex_corner o) (rbin (ex_corner o) 0) 10000 1000 = Blocks out /\
  (forall n, node_of (rs_data (ex_corner o) 0 out) n -> sn_items n < 6 /\ (sn_profit n <= 23)%Q) /\
  packing_ok (ex_corner o) [mkRD 0 1 ex_corner_packing] /\ rall_packed (ex_corner o) [mkRD 0 1 ex_corner_packing] /\
  (rprofit (ex_corner o) [mkRD 0 1 ex_corner_packing] == 27)%Q.
Proof.
  intros o Ho. exists (ex_blocks (ex_corner o) 0 10000 1000).
  split; [destruct Ho as [-> | ->]; vm_compute; reflexivity|]. split; [|split; [|split]].
  - intros n Hn. pose (out := ex_blocks (ex_corner o) 0 10000 1000).
    assert (R : match root (rs_data (ex_corner o) 0 out) with
      | Some r => all_below (rs_data (ex_corner o) 0 out) (fun n => (sn_items n <? 6) && Qle_bool (sn_profit n) 23) 10 r
      | None => false end = true) by (destruct Ho as [-> | ->]; vm_compute; reflexivity).
    fold out in Hn. destruct (root (rs_data (ex_corner o) 0 out)) as [r|] eqn:Er; [|discriminate].
    pose proof (all_below_nodes _ _ _ _ Er R n Hn) as P. cbv beta in P. apply andb_prop in P. destruct P as [P1 P2].
    split; [apply Z.ltb_lt; assumption|apply Qle_bool_iff; assumption].
  - constructor.
    + intros e [<-|[]]. cbn [rd_type rd_copies rd_items]. split; [cbn; lia|]. split; [lia|]. constructor.
      * intros p Hp. unfold ex_corner_packing in Hp. cbn [In] in Hp.
        repeat (destruct Hp as [<-|Hp]; [constructor; vm_compute; repeat split; try discriminate; lia|]). destruct Hp.
      * assert (D : forall p q, (pl_xe (ex_corner o) p <=? pl_x q) || (pl_xe (ex_corner o) q <=? pl_x p) || (pl_ye (ex_corner o) p <=? pl_y q) || (pl_ye (ex_corner o) q <=? pl_y p) = true
          -> disjoint (ex_corner o) p q).
        { intros p q H. unfold disjoint. rewrite !orb_true_iff, !Z.leb_le in H. tauto. }
        unfold ex_corner_packing. repeat (constructor; [repeat (constructor; [apply D; vm_compute; reflexivity|]); constructor|]). constructor.
      * intros p f _ [].
    + intros x Hx. cbn in Hx. destruct x as [|[|[|[|x]]]]; [| | | |lia]; vm_compute; discriminate.
  - intros x Hx. cbn in Hx. destruct x as [|[|[|[|x]]]]; [| | | |lia]; vm_compute; reflexivity.
  - vm_compute. reflexivity.
Qed.
Print Assumptions C49_exhausted_search_refuted.
