(** * C40, C49: the maximal-space search on boxes *)

From Coq Require Import List ZArith QArith Bool Lia Arith.
From Verif Require Import Util Common_Model Box_Model Box_Spec BoxSol_Model BoxSol_Spec BoxSol_Proof BoxSol_Props Block_Model Block_Proof
  BoxBlock_Model BoxBlock_Spec BoxBlock_Proof BoxBlock_Props Space_Model Space_Spec Space_Proof SpaceNode_Proof
  BoxSpaces_Model BoxSpaces_Spec BoxSpaces_Proof BoxNormal_Proof.
From Verif Require RectSpaces_Props.
Import ListNotations.
Open Scope Z_scope.

(** ** C40 *)

(** With the blocks generated by [compute_blocks]: at every node, the blocks are inside
    the bin, pairwise apart, within the numbers of copies and the maximum weight, and
    the spaces are the maximal free boxes that can still hold an available block. *)
Theorem C40_nodes : forall i t maximum fuel out n,
  (forall it, In it (bx_items i) -> (forall a, 0 < vat (bi_box it) a) /\ 0 <= bi_copies it) -> (t < length (bx_bins i))%nat ->
  xcompute_blocks_for_bin i (bxbin i t) maximum fuel = XBlocks out -> node_of (xsp_data i t out) n ->
  node_ok (xsp_data i t out) n /\ (out <> [] -> spaces_ok (xsp_data i t out) n).
Proof.
  intros i t maximum fuel out n Hpos Ht E Hn.
  assert (Hout : forall b, In b out -> xblock_ok i (bxbin i t) b) by (apply (C41_blocks_valid i _ maximum fuel out (xsp_nonneg i t Ht Hpos) E)).
  destruct (RectSpaces_Props.C24_nodes (xsp_data i t out) n (xsp_ok i t Ht out Hpos Hout) Hn) as [A B]. split; [assumption|].
  intro Ho. apply B. destruct out; [contradiction|discriminate].
Qed.
Print Assumptions C40_nodes.

(** Every node is a packing of one bin, with the stated totals. *)
Theorem C40_node_packing : forall i t maximum fuel out n,
  (forall it, In it (bx_items i) -> (forall a, 0 < vat (bi_box it) a) /\ 0 <= bi_copies it) -> (t < length (bx_bins i))%nat ->
  xcompute_blocks_for_bin i (bxbin i t) maximum fuel = XBlocks out -> node_of (xsp_data i t out) n ->
  let ps := xsp_items out n in
  bpacking_ok i [mkXD t 1 ps] /\
  (forall w, bn_max_weight (bxbin i t) = Some w -> ps = [] \/ (qsum (fun p => bi_weight (bxitem i (bp_type p))) ps <= w)%Q) /\
  (sn_profit n == qsum (fun p => bi_profit (bxitem i (bp_type p))) ps)%Q /\
  (sn_weight n == qsum (fun p => bi_weight (bxitem i (bp_type p))) ps)%Q /\
  sn_items n = Z.of_nat (length ps).
Proof.
  intros i t maximum fuel out n Hpos Ht E Hn. cbv zeta.
  assert (Hout : forall b, In b out -> xblock_ok i (bxbin i t) b) by (apply (C41_blocks_valid i _ maximum fuel out (xsp_nonneg i t Ht Hpos) E)).
  pose proof (node_node_ok (xsp_data i t out) (xsp_ok i t Ht out Hpos Hout) n Hn) as K.
  split; [apply (xsp_packing i t Ht out Hpos Hout n K)|]. split.
  - intros w Hw. destruct (nk_max_weight _ _ K w Hw) as [H|H]; [left; unfold xsp_items; rewrite H; reflexivity|right].
    rewrite <- (xsp_weight i t out Hout n K), (nk_weight _ _ K). assumption.
  - split; [apply (xsp_profit i t Ht out Hout n K)|]. split; [apply (xsp_weight i t out Hout n K)|apply (xsp_number i t Ht out n K)].
Qed.
Print Assumptions C40_node_packing.

(** Completing a node greedily, whatever the guide, ends, and the solution built is a
    packing that contains the node's items and has the right indicators. *)
Theorem C40_to_solution : forall i cb t maximum fuel out n score fuel',
  (forall it, In it (bx_items i) -> (forall a, 0 < vat (bi_box it) a) /\ 0 <= bi_copies it) -> xwf_resources i -> (t < length (bx_bins i))%nat ->
  xcompute_blocks_for_bin i (bxbin i t) maximum fuel = XBlocks out -> node_of (xsp_data i t out) n ->
  zsum bi_copies (bx_items i) < Z.of_nat fuel' ->
  exists s more, xsp_to_solution i cb t out score fuel' n = Some s /\
    xview s = [mkXD t 1 (xsp_items out n ++ more)] /\ bpacking_ok i (xview s) /\ XIndicators i (xview s) (xsol_core s) /\
    (forall w, bn_max_weight (bxbin i t) = Some w ->
       xsp_items out n ++ more = [] \/ (qsum (fun p => bi_weight (bxitem i (bp_type p))) (xsp_items out n ++ more) <= w)%Q).
Proof.
  intros i cb t maximum fuel out n score fuel' Hpos Hw Ht E Hn Hf.
  assert (Hout : forall b, In b out -> xblock_ok i (bxbin i t) b) by (apply (C41_blocks_valid i _ maximum fuel out (xsp_nonneg i t Ht Hpos) E)).
  pose proof (xsp_ok i t Ht out Hpos Hout) as Hd.
  destruct (greedy_spec (xsp_data i t out) Hd score n Hn) as (n' & Hn' & _ & (more & Hm) & Hg).
  pose proof (node_node_ok _ Hd n' Hn') as K. destruct (xsp_history i t Ht out Hpos Hout Hw cb n' K) as (s & Hs & V).
  assert (I : xsp_items out n' = xsp_items out n ++ flat_map (fun pb => xput (nth (fst pb) out dummy_xblock) (vec_of (snd pb))) more)
    by (unfold xsp_items; rewrite Hm, flat_map_app; reflexivity).
  exists s. eexists. rewrite I in V. split; [|split; [exact V|]].
  - unfold xsp_to_solution. rewrite Hg; [exact Hs|].
    pose proof (node_node_ok _ Hd n Hn) as K0. pose proof (xsp_number i t Ht out n K0) as N.
    cbn [xsp_data sd_copies].
    assert (Zs : zsum (fun c => c) (map bi_copies (bx_items i)) = zsum bi_copies (bx_items i)).
    { clear. induction (bx_items i) as [|a l IH]; [reflexivity|]. cbn [map]. rewrite !zsum_cons, IH. reflexivity. }
    assert (0 <= zsum bi_copies (bx_items i)) by (apply zsum_nonneg; intros it Hit; apply (Hpos it Hit)).
    rewrite Zs. lia.
  - pose proof (xsp_packing i t Ht out Hpos Hout n' K) as P. rewrite I in P. rewrite V. split; [assumption|]. split.
    + assert (Hc : xcopies_nonneg (xsp_calls t out n') []).
      { intros e He. rewrite xsp_calls_desc in He. cbn in He. destruct He as [<-|[]]. cbn. lia. }
      destruct (C50_indicators i cb _ _ s Hw Hc Hs) as (_ & R & _). rewrite V in R. exact R.
    + intros w Hw'. destruct (C40_node_packing i t maximum fuel out n' Hpos Ht E Hn') as (_ & W & _). rewrite I in W. apply W. assumption.
Qed.
Print Assumptions C40_to_solution.

(** A concrete case: the instance of C41_example, with its first thirty blocks; the
    greedy completion by volume packs six of its seven items. *)
Definition xex_score (out : list XBlock) : SNode -> nat * list Z -> Q :=
  fun _ ins => inject_Z (xk_volume (nth (fst ins) out dummy_xblock)).
Definition xex_blocks (i : BInstance) (t : nat) (maximum : Z) (fuel : nat) : list XBlock :=
  match xcompute_blocks_for_bin i (bxbin i t) maximum fuel with XBlocks l => l | _ => [] end.

Example C40_example :
  let i := ex_xblock_instance in let out := xex_blocks i 0 30 300 in
  xcompute_blocks_for_bin i (bxbin i 0) 30 300 = XBlocks out /\ (forall it, In it (bx_items i) -> (forall a, 0 < vat (bi_box it) a) /\ 0 <= bi_copies it) /\ xwf_resources i /\
  exists n s, node_of (xsp_data i 0 out) n /\ xsp_to_solution i xaccept 0 out (xex_score out) 20 n = Some s /\
    match xview s with [d] => length (xd_items d) = 6%nat | _ => False end.
Proof.
  cbv zeta. split; [vm_compute; reflexivity|]. split; [intros it [<-|[<-|[]]]; (split; [intros []; simpl; lia|simpl; lia])|]. split.
  - intros x t Hx Ht. cbn in Hx, Ht. assert (t = 0%nat) by lia. subst t.
    assert (E : nth 0 (bi_resource_ids (bxitem ex_xblock_instance x)) [] = []) by (destruct x as [|[|x]]; [reflexivity|reflexivity|lia]).
    rewrite E. split; [constructor|]. intro r. cbn. lia.
  - destruct (root (xsp_data ex_xblock_instance 0 (xex_blocks ex_xblock_instance 0 30 300))) as [n|] eqn:E; [|vm_compute in E; discriminate].
    exists n. destruct (xsp_to_solution ex_xblock_instance xaccept 0 (xex_blocks ex_xblock_instance 0 30 300) (xex_score (xex_blocks ex_xblock_instance 0 30 300)) 20 n) as [s|] eqn:Es.
    + exists s. split; [constructor; assumption|]. split; [reflexivity|]. vm_compute in E. injection E as <-. vm_compute in Es. injection Es as <-. reflexivity.
    + exfalso. vm_compute in E. injection E as <-. vm_compute in Es. discriminate.
Qed.

(** ** C49 *)

(** Replacing the bin by the lengths the items can reach loses no packing: every
    packing of the bin can be pushed into the smaller bin. *)
Theorem C49_box_clipping : forall i t ps out, (t < length (bx_bins i))%nat ->
  (forall it, In it (bx_items i) -> (forall a, 0 < vat (bi_box it) a) /\ 0 <= bi_copies it) ->
  (forall a, 0 <= vat (bn_box (bxbin i t)) a) ->
  bpacking_ok i [mkXD t 1 ps] ->
  exists ps', same_boxes ps ps' /\ bpacking_ok i [mkXD t 1 ps'] /\
    forall p a, In p ps' -> bp_end i p a <= vat (vec_of (sd_bin (xsp_data i t out))) a.
Proof.
  intros i t ps out Ht Hpos Hb [P1 P2].
  destruct (P1 _ (or_introl eq_refl)) as (_ & _ & G). cbn [xd_type xd_copies xd_items] in G.
  assert (C : forall x, (x < length (bx_items i))%nat -> bcount x ps <= bi_copies (bxitem i x)).
  { intros x Hx'. specialize (P2 x Hx'). unfold bpacked in P2. rewrite zsum_cons, zsum_nil in P2. cbn [xd_copies xd_items] in P2. lia. }
  destruct (push_boxes i ps (bxbin i t) Hpos G C) as (ps' & S & G' & St). exists ps'. split; [assumption|]. split.
  - constructor.
    + intros e [<-|[]]. cbn [xd_type xd_copies xd_items]. split; [assumption|]. split; [lia|assumption].
    + intros x Hx'. specialize (P2 x Hx'). unfold bpacked in *. rewrite zsum_cons, zsum_nil in *. cbn [xd_copies xd_items] in *.
      assert (E : bcount x ps' = bcount x ps); [|lia]. clear - S. induction S as [|p q ps ps' [E _] _ IH]; [reflexivity|].
      rewrite !bcount_cons, IH, E. reflexivity.
  - intros p a Hp. destruct (clip_spec i t Ht Hpos a (Hb a)) as (_ & Ca).
    destruct (bg_places _ _ _ G' p Hp) as [_ A _].
    assert (E : vat (vec_of (sd_bin (xsp_data i t out))) a = clip i t a) by (destruct a; reflexivity).
    rewrite E. apply Ca; [apply St; assumption|apply A].
Qed.
Print Assumptions C49_box_clipping.

(** A concrete case: a bin of length ten, one item of length four, at the far end. *)
Definition ex_xwide : BInstance :=
  mkBInst OFeasibility [ mkBI (mkV 4 3 2) 24 1 1 [XYZ] 0 [[]] ] [ mkBB (mkV 10 3 2) 60 1 0 None [] ].
Example C49_box_clipping_example :
  bpacking_ok ex_xwide [mkXD 0 1 [mkBP 0 (mkV 6 0 0) XYZ]] /\ sd_bin (xsp_data ex_xwide 0 []) = [4; 3; 2].
Proof.
  split; [|vm_compute; reflexivity]. constructor.
  - intros e [<-|[]]. cbn [xd_type xd_copies xd_items]. split; [cbn; lia|]. split; [lia|]. constructor.
    + intros p [<-|[]]. constructor; [cbn; lia| |left; reflexivity]. intros []; vm_compute; split; discriminate.
    + repeat constructor.
  - intros x Hx. cbn in Hx. assert (x = 0%nat) by lia. subst x. vm_compute. discriminate.
Qed.

(** The search only places a block in a corner of the space nearest to a corner of the
    bin, and so misses packings.  Here the six items fit in the bin, but no node of the
    tree contains them all, nor a profit larger than 23: an exhausted search declares
    the instance infeasible (objective Feasibility) or gives at most 23 as the knapsack
    bound, although 27 can be packed (objective Knapsack). *)
Definition ex_xcorner (o : Objective) : BInstance :=
  let item := fun x y c => mkBI (mkV x y 1) (inject_Z (x * y)) c (match o with OKnapsack => 0 | _ => c end) [XYZ] 0 [[]] in
  mkBInst o [item 1 4 2; item 1 5 1; item 2 1 1; item 3 2 2] [ mkBB (mkV 5 6 1) 30 1 0 None [] ].
Definition ex_xcorner_packing : list BPlace :=
  [mkBP 3 (mkV 0 0 0) XYZ; mkBP 3 (mkV 1 4 0) XYZ; mkBP 1 (mkV 4 0 0) XYZ; mkBP 0 (mkV 0 2 0) XYZ; mkBP 0 (mkV 3 0 0) XYZ; mkBP 2 (mkV 1 2 0) XYZ].

Theorem C49_box_exhausted_search_refuted : forall o, o = OFeasibility \/ o = OKnapsack ->
  exists out, xcompute_blocks_for_bin (ex_xcorner o) (bxbin (ex_xcorner o) 0) 10000 1000 = XBlocks out /\
  (forall n, node_of (xsp_data (ex_xcorner o) 0 out) n -> sn_items n < 6 /\ (sn_profit n <= 23)%Q) /\
  bpacking_ok (ex_xcorner o) [mkXD 0 1 ex_xcorner_packing] /\ ball_packed (ex_xcorner o) [mkXD 0 1 ex_xcorner_packing] /\
  (bprofit (ex_xcorner o) [mkXD 0 1 ex_xcorner_packing] == 27)%Q.
Proof.
  intros o Ho. exists (xex_blocks (ex_xcorner o) 0 10000 1000).
  split; [destruct Ho as [-> | ->]; vm_compute; reflexivity|]. split; [|split; [|split]].
  - intros n Hn. pose (out := xex_blocks (ex_xcorner o) 0 10000 1000).
    assert (R : match root (xsp_data (ex_xcorner o) 0 out) with
      | Some r => RectSpaces_Props.all_below (xsp_data (ex_xcorner o) 0 out) (fun n => (sn_items n <? 6) && Qle_bool (sn_profit n) 23) 10 r
      | None => false end = true) by (destruct Ho as [-> | ->]; vm_compute; reflexivity).
    fold out in Hn. destruct (root (xsp_data (ex_xcorner o) 0 out)) as [r|] eqn:Er; [|discriminate].
    pose proof (RectSpaces_Props.all_below_nodes _ _ _ _ Er R n Hn) as P. cbv beta in P. apply andb_prop in P. destruct P as [P1 P2].
    split; [apply Z.ltb_lt; assumption|apply Qle_bool_iff; assumption].
  - constructor.
    + intros e [<-|[]]. cbn [xd_type xd_copies xd_items]. split; [cbn; lia|]. split; [lia|]. constructor.
      * intros p Hp. unfold ex_xcorner_packing in Hp. cbn [In] in Hp.
        repeat (destruct Hp as [<-|Hp]; [constructor; [cbn; lia| |left; reflexivity]; intros []; vm_compute; split; discriminate|]). destruct Hp.
      * assert (D : forall p q, existsb (fun a => (bp_end (ex_xcorner o) p a <=? vat (bp_pos q) a) || (bp_end (ex_xcorner o) q a <=? vat (bp_pos p) a)) axes = true
          -> bdisjoint (ex_xcorner o) p q).
        { intros p q H. apply existsb_exists in H. destruct H as (a & _ & H). rewrite orb_true_iff, !Z.leb_le in H. exists a. exact H. }
        unfold ex_xcorner_packing. repeat (constructor; [repeat (constructor; [apply D; vm_compute; reflexivity|]); constructor|]). constructor.
    + intros x Hx. cbn in Hx. destruct x as [|[|[|[|x]]]]; [| | | |lia]; vm_compute; discriminate.
  - intros x Hx. cbn in Hx. destruct x as [|[|[|[|x]]]]; [| | | |lia]; vm_compute; reflexivity.
  - vm_compute. reflexivity.
Qed.
Print Assumptions C49_box_exhausted_search_refuted.
