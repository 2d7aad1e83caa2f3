(** * Proofs about the reconstruction of guillotine cuts *)

From Coq Require Import List ZArith QArith Bool Lia Permutation Sorted.
From Verif Require Import Util Common_Model OneDim_Model Guil_Model GuilSol_Model Guil_Spec Guil_Proof GuilBuild_Model GuilBuild_Spec.
Import ListNotations.
Open Scope Z_scope.

(** ** Placements of nodes *)

Lemma placements_app : forall a b, bin_placements (a ++ b) = bin_placements a ++ bin_placements b.
Proof. intros. apply flat_map_app. Qed.

Lemma placements_upd : forall ns p f, (forall n, nth_error ns p = Some n -> node_placement (f n) = node_placement n) ->
  bin_placements (upd p f ns) = bin_placements ns.
Proof.
  induction ns as [|n ns IH]; intros [|p] f H; try reflexivity.
  - simpl. rewrite (H n eq_refl). reflexivity.
  - simpl. rewrite (IH p f); [reflexivity|]. intros m Hm. apply H. exact Hm.
Qed.

Lemma placements_child : forall ns p c, node_placement c = [] -> bin_placements (gpush_child ns p c) = bin_placements ns.
Proof.
  intros ns p c H. unfold gpush_child. rewrite placements_app. unfold bin_placements at 2. cbn [flat_map]. rewrite H. cbn [app]. rewrite app_nil_r.
  apply placements_upd. intros; reflexivity.
Qed.

(** ** The nodes below one *)

Definition below (ns : list GNode) (p : nat) : Prop :=
  (p < length ns)%nat /\
  forall j, (p < j < length ns)%nat -> exists q, gn_f (gnode ns j) = Some q /\ (p <= q < j)%nat
    /\ gn_d (gnode ns j) = gn_d (gnode ns q) + 1.

Lemma below_depth : forall ns p, below ns p -> forall j, (p < j < length ns)%nat -> gn_d (gnode ns p) < gn_d (gnode ns j).
Proof.
  intros ns p [Hp H] j. induction j as [j IH] using lt_wf_ind. intros Hj.
  destruct (H j Hj) as (q & _ & Hq & Hd).
  destruct (Nat.eq_dec q p) as [->|Hn]; [lia|]. specialize (IH q ltac:(lia) ltac:(lia)). lia.
Qed.

Lemma push_below : forall ns p j c, below ns p -> (p <= j < length ns)%nat -> gn_f c = Some j ->
  gn_d c = gn_d (gnode ns j) + 1 -> below (gpush_child ns j c) p.
Proof.
  intros ns p j c [Hp H] Hj Hf Hd. split; [rewrite gpush_length; lia|].
  intros k Hk. rewrite gpush_length in Hk. destruct (Nat.eq_dec k (length ns)) as [->|Hn].
  - rewrite gpush_new. exists j. split; [exact Hf|]. split; [lia|]. rewrite gpush_old by lia.
    rewrite Nat.eqb_refl. exact Hd.
  - destruct (H k ltac:(lia)) as (q & Hq1 & Hq2 & Hq3). exists q.
    rewrite !gpush_old by lia.
    destruct (Nat.eqb j k), (Nat.eqb j q); cbn [gn_add_child gn_f gn_d]; auto.
Qed.

Lemma finish_cases : forall ct ns p, gfinish ct ns p = ns \/
  exists c, gfinish ct ns p = gpush_child ns p c /\ gn_f c = Some p /\ gn_d c = gn_d (gnode ns p) + 1 /\ gn_item c = -1.
Proof.
  intros ct ns p. unfold gfinish. destruct (rev (gn_children (gnode ns p))) as [|c r]; [left; reflexivity|].
  destruct (_ <? _); [right; eexists; repeat split|].
  destruct (_ <? _); [right; eexists; repeat split|left; reflexivity].
Qed.

Lemma waste_placement : forall c, gn_item c = -1 -> node_placement c = [].
Proof. intros c H. unfold node_placement. rewrite H. destruct (gn_f c); reflexivity. Qed.

Definition same_frame (n m : GNode) : Prop :=
  gn_f n = gn_f m /\ gn_d n = gn_d m /\ gn_l n = gn_l m /\ gn_r n = gn_r m /\ gn_b n = gn_b m /\ gn_t n = gn_t m.

Lemma same_frame_refl : forall n, same_frame n n.
Proof. intros; repeat split. Qed.
Lemma same_frame_trans : forall a b c, same_frame a b -> same_frame b c -> same_frame a c.
Proof. unfold same_frame. intuition congruence. Qed.

Lemma climb_below : forall fuel ct ns p j depth, below ns p -> (p <= j < length ns)%nat -> (j - p <= fuel)%nat ->
  gn_d (gnode ns p) = depth - 1 ->
  exists ns', gclimb fuel ct ns j depth = Some (ns', p) /\ (length ns <= length ns')%nat
    /\ (forall k, (k <= p)%nat -> gnode ns' k = gnode ns k) /\ below ns' p
    /\ (forall k, (k < length ns)%nat -> same_frame (gnode ns k) (gnode ns' k))
    /\ bin_placements ns' = bin_placements ns.
Proof.
  induction fuel as [|fuel IH]; intros ct ns p j depth Hb Hj Hf Hd.
  - assert (j = p) as -> by lia. cbn [gclimb]. rewrite Hd, Z.eqb_refl. exists ns.
    split; [reflexivity|]. split; [lia|]. split; [reflexivity|]. split; [exact Hb|]. split; [intros; apply same_frame_refl|reflexivity].
  - cbn [gclimb]. destruct (Nat.eq_dec j p) as [->|Hn].
    + rewrite Hd, Z.eqb_refl. exists ns.
      split; [reflexivity|]. split; [lia|]. split; [reflexivity|]. split; [exact Hb|]. split; [intros; apply same_frame_refl|reflexivity].
    + pose proof (below_depth ns p Hb j ltac:(lia)) as Hlt.
      assert (Heq : (gn_d (gnode ns j) =? depth - 1) = false) by (apply Z.eqb_neq; lia). rewrite Heq.
      destruct Hb as [Hp Hb]. destruct (Hb j ltac:(lia)) as (q & Hq1 & Hq2 & Hq3).
      destruct (finish_cases ct ns j) as [E|(c & E & Hc1 & Hc2 & Hc3)].
      * rewrite E, Hq1. apply IH; try assumption; try lia. split; assumption.
      * rewrite E. rewrite gpush_old by lia. rewrite Nat.eqb_refl. cbn [gn_add_child gn_f]. rewrite Hq1.
        destruct (IH ct (gpush_child ns j c) p q depth) as (ns' & E' & Hl & Hk & Hb' & Hfr & Hpl).
        -- apply push_below; try assumption; try lia. split; assumption.
        -- rewrite gpush_length. lia.
        -- lia.
        -- rewrite gpush_old by lia. replace (Nat.eqb j p) with false by (symmetry; apply Nat.eqb_neq; lia). exact Hd.
        -- exists ns'. split; [exact E'|]. rewrite gpush_length in Hl. split; [lia|]. split; [|split; [exact Hb'|split]].
           ++ intros k Hkp. rewrite Hk by exact Hkp. rewrite gpush_old by lia.
              replace (Nat.eqb j k) with false by (symmetry; apply Nat.eqb_neq; lia). reflexivity.
           ++ intros k Hkn. eapply same_frame_trans; [|apply Hfr; rewrite gpush_length; lia].
              rewrite gpush_old by lia. destruct (Nat.eqb j k); repeat split.
           ++ rewrite Hpl. apply placements_child. apply waste_placement. exact Hc3.
Qed.

(** ** One cut of a node *)

(** The position from which the next piece of [p] starts. *)
Definition next_from (ct : Z) (v : bool) (ns : list GNode) (p : nat) : Z :=
  match rev (gn_children (gnode ns p)) with
  | [] => if v then gn_l (gnode ns p) else gn_b (gnode ns p)
  | c :: _ => (if v then gn_r (gnode ns c) else gn_t (gnode ns c)) + ct
  end.

Definition cuttable_node (n : GNode) : Prop := gn_f n = None \/ gn_item n < 0.

Definition piece (v : bool) (n : GNode) (p : nat) (from cut : Z) : GNode :=
  mkGN (Some p) (gn_d n + 1) (if v then from else gn_l n) (if v then cut else gn_r n)
    (if v then gn_b n else from) (if v then gn_t n else cut) [] (-1).

Lemma next_from_ext : forall ct v ns ns' p, gnode ns' p = gnode ns p ->
  (forall c, In c (gn_children (gnode ns p)) -> same_frame (gnode ns c) (gnode ns' c)) ->
  next_from ct v ns' p = next_from ct v ns p.
Proof.
  intros ct v ns ns' p E H. unfold next_from. rewrite E.
  destruct (rev (gn_children (gnode ns p))) as [|c r] eqn:Er; [reflexivity|].
  destruct (H c) as (_ & _ & _ & Hr & _ & Ht).
  { apply in_rev. rewrite Er. left. reflexivity. }
  rewrite Hr, Ht. reflexivity.
Qed.


Definition far (v : bool) (n : GNode) : Z := if v then gn_r n else gn_t n.

Lemma add_below : forall ct o ns depth cut p, below ns p -> gn_d (gnode ns p) = depth - 1 -> cuttable_node (gnode ns p) ->
  (forall c, In c (gn_children (gnode ns p)) -> (c < length ns)%nat) ->
  let v := gvertical o depth in
  let from := next_from ct v ns p in
  (cut <= from \/ far v (gnode ns p) < cut) /\ (exists ns', gadd_node_in ct o ns depth cut = Some (ns', false))
  \/ from < cut <= far v (gnode ns p) /\ exists ns' c, gadd_node_in ct o ns depth cut = Some (ns', true)
     /\ (length ns <= c)%nat /\ length ns' = Datatypes.S c /\ gnode ns' c = piece v (gnode ns p) p from cut
     /\ (forall k, (k < p)%nat -> gnode ns' k = gnode ns k) /\ same_frame (gnode ns p) (gnode ns' p)
     /\ gn_children (gnode ns' p) = gn_children (gnode ns p) ++ [c] /\ below ns' p /\ cuttable_node (gnode ns' p)
     /\ bin_placements ns' = bin_placements ns.
Proof.
  intros ct o ns depth cut p Hb Hd Hc Hch. cbv zeta.
  unfold gadd_node_in.
  assert (Hp : (p < length ns)%nat) by apply Hb.
  assert (Hlast : (gn_d (gnode ns (length ns - 1)) + 1 <? depth) = false).
  { apply Z.ltb_ge. destruct (Nat.eq_dec (length ns - 1) p) as [->|Hn]; [lia|].
    pose proof (below_depth ns p Hb (length ns - 1)%nat ltac:(lia)). lia. }
  rewrite Hlast.
  destruct (climb_below (length ns) ct ns p (length ns - 1)%nat depth Hb ltac:(lia) ltac:(lia) Hd)
    as (ns1 & E & Hl & Hk & Hb1 & Hfr & Hpl). rewrite E.
  rewrite (Hk p (le_n p)).
  set (isr := match gn_f (gnode ns p) with None => true | Some _ => false end).
  assert (Hcond : negb isr && (0 <=? gn_item (gnode ns p)) = false).
  { unfold isr. destruct Hc as [Hc|Hc].
    - rewrite Hc. reflexivity.
    - destruct (gn_f (gnode ns p)); [|reflexivity]. simpl. apply Z.leb_gt. exact Hc. }
  rewrite Hcond.
  set (ns2 := if isr then ns1 else upd p (fun n => gn_with_item n (-2)) ns1).
  assert (Hp1 : (p < length ns1)%nat) by lia.
  assert (L2 : length ns2 = length ns1) by (unfold ns2; destruct isr; [reflexivity|apply upd_length]).
  assert (Fr2 : forall k, same_frame (gnode ns1 k) (gnode ns2 k)).
  { intros k. unfold ns2. destruct isr; [apply same_frame_refl|]. rewrite gnode_upd by exact Hp1.
    destruct (Nat.eqb p k); repeat split. }
  assert (Ch2 : forall k, gn_children (gnode ns2 k) = gn_children (gnode ns1 k)).
  { intros k. unfold ns2. destruct isr; [reflexivity|]. rewrite gnode_upd by exact Hp1. destruct (Nat.eqb p k); reflexivity. }
  assert (O2 : forall k, (k < p)%nat -> gnode ns2 k = gnode ns k).
  { intros k Hkp. rewrite <- Hk by lia. unfold ns2. destruct isr; [reflexivity|]. rewrite gnode_upd by exact Hp1.
    replace (Nat.eqb p k) with false by (symmetry; apply Nat.eqb_neq; lia). reflexivity. }
  assert (C2 : cuttable_node (gnode ns2 p)).
  { unfold ns2, isr. destruct (gn_f (gnode ns p)) eqn:Ef.
    - right. rewrite gnode_upd by exact Hp1. rewrite Nat.eqb_refl. simpl. lia.
    - left. rewrite (Hk p (le_n p)). exact Ef. }
  assert (P2 : bin_placements ns2 = bin_placements ns).
  { rewrite <- Hpl. unfold ns2. destruct isr eqn:Eis; [reflexivity|]. apply placements_upd. intros n Hn.
    assert (En : gnode ns1 p = n) by (unfold gnode; apply (nth_error_nth ns1 p gdummy_node Hn)).
    rewrite (Hk p (le_n p)) in En. unfold node_placement. cbn [gn_with_item gn_f gn_item].
    destruct Hc as [Hc|Hc]; rewrite En in Hc.
    - rewrite Hc. reflexivity.
    - replace (0 <=? gn_item n) with false by (symmetry; apply Z.leb_gt; exact Hc). destruct (gn_f n); reflexivity. }
  assert (B2 : below ns2 p).
  { split; [lia|]. intros j Hj. destruct Hb1 as [_ Hb1]. destruct (Hb1 j ltac:(lia)) as (q & Q1 & Q2 & Q3).
    exists q. destruct (Fr2 j) as (Fa & Fb & _). destruct (Fr2 q) as (_ & Fd & _).
    split; [congruence|]. split; [exact Q2|]. lia. }
  assert (N2 : forall w : bool, match rev (gn_children (gnode ns p)) with
             | [] => if w then gn_l (gnode ns p) else gn_b (gnode ns p)
             | c :: _ => (if w then gn_r (gnode ns2 c) else gn_t (gnode ns2 c)) + ct end = next_from ct w ns p).
  { intros w. unfold next_from. destruct (rev (gn_children (gnode ns p))) as [|c rr] eqn:Er; [reflexivity|].
    assert (Hcl : (c < length ns)%nat).
    { apply Hch. apply in_rev. rewrite Er. left. reflexivity. }
    destruct (same_frame_trans _ _ _ (Hfr c Hcl) (Fr2 c)) as (_ & _ & _ & Hr & _ & Ht).
    rewrite Hr, Ht. reflexivity. }
  assert (Push : forall c, node_placement c = [] -> gn_f c = Some p -> gn_d c = gn_d (gnode ns p) + 1 ->
     let ns' := gpush_child ns2 p c in
     (length ns <= length ns2)%nat /\ length ns' = Datatypes.S (length ns2) /\ gnode ns' (length ns2) = c
     /\ (forall k, (k < p)%nat -> gnode ns' k = gnode ns k) /\ same_frame (gnode ns p) (gnode ns' p)
     /\ gn_children (gnode ns' p) = gn_children (gnode ns p) ++ [length ns2] /\ below ns' p /\ cuttable_node (gnode ns' p)
     /\ bin_placements ns' = bin_placements ns).
  { intros c Hcp Hcf Hcd ns'. unfold ns'. split; [lia|]. split; [apply gpush_length|]. split; [apply gpush_new|].
    assert (Gp : gnode (gpush_child ns2 p c) p = gn_add_child (gnode ns2 p) (length ns2)).
    { rewrite gpush_old by lia. rewrite Nat.eqb_refl. reflexivity. }
    pose proof (Fr2 p) as Frp. rewrite (Hk p (le_n p)) in Frp.
    split; [|split; [|split; [|split; [|split]]]].
    - intros k Hkp. rewrite gpush_old by lia. replace (Nat.eqb p k) with false by (symmetry; apply Nat.eqb_neq; lia).
      apply O2. exact Hkp.
    - rewrite Gp. eapply same_frame_trans; [exact Frp|]. repeat split.
    - rewrite Gp. cbn [gn_add_child gn_children]. rewrite Ch2, (Hk p (le_n p)). reflexivity.
    - apply push_below; try assumption; try lia. destruct Frp as (_ & Fd & _). lia.
    - rewrite Gp. exact C2.
    - rewrite placements_child by exact Hcp. exact P2. }
  assert (Dp : gn_d (gnode ns p) + 1 = depth) by lia.
  unfold piece, far.
  pose proof (N2 true) as Nt. pose proof (N2 false) as Nf. cbn iota in Nt, Nf.
  destruct (gvertical o depth) eqn:Ev.
  - replace (match rev (gn_children (gnode ns p)) with [] => gn_l (gnode ns p) | c :: _ => gn_r (gnode ns2 c) + ct end)
      with (next_from ct true ns p) by (rewrite <- Nt; destruct (rev (gn_children (gnode ns p))); reflexivity).
    destruct (cut <=? next_from ct true ns p) eqn:E1.
    { left. split; [left; apply Z.leb_le; exact E1|]. eexists; reflexivity. }
    destruct (gn_r (gnode ns p) <? cut) eqn:E2.
    { left. split; [right; apply Z.ltb_lt; exact E2|]. eexists; reflexivity. }
    right. split; [apply Z.leb_gt in E1; apply Z.ltb_ge in E2; lia|].
    eexists; exists (length ns2). split; [reflexivity|]. apply Push; reflexivity.
  - replace (match rev (gn_children (gnode ns p)) with [] => gn_b (gnode ns p) | c :: _ => gn_t (gnode ns2 c) + ct end)
      with (next_from ct false ns p) by (rewrite <- Nf; destruct (rev (gn_children (gnode ns p))); reflexivity).
    destruct (cut <=? next_from ct false ns p) eqn:E1.
    { left. split; [left; apply Z.leb_le; exact E1|]. eexists; reflexivity. }
    destruct (gn_t (gnode ns p) <? cut) eqn:E2.
    { left. split; [right; apply Z.ltb_lt; exact E2|]. eexists; reflexivity. }
    right. split; [apply Z.leb_gt in E1; apply Z.ltb_ge in E2; lia|].
    eexists; exists (length ns2). split; [reflexivity|]. apply Push; reflexivity.
Qed.

(** ** Groups *)

Section Groups.
Variable srt : bool -> list Placement -> list Placement.
Hypothesis Hsort : Sorts srt.

Lemma group_fold_concat : forall ct v l gs cur gs' cur', fold_left (group_step ct v) l (gs, cur) = (gs', cur') ->
  concat (map cg_items gs') ++ cg_items cur' = (concat (map cg_items gs) ++ cg_items cur) ++ l.
Proof.
  induction l as [|p l IH]; intros gs cur gs' cur' H; cbn [fold_left] in H.
  - inversion H; subst. rewrite app_nil_r. reflexivity.
  - destruct (group_step ct v (gs, cur) p) as [g1 c1] eqn:E. rewrite (IH _ _ _ _ H). clear IH H.
    unfold group_step in E. destruct (cg_cut cur <? 0); [|destruct (cg_cut cur + ct <=? pl_start v p)]; inversion E; subst;
      cbn [cg_items]; rewrite ?map_app, ?concat_app; cbn [map concat]; rewrite ?app_nil_r, <- ?app_assoc; reflexivity.
Qed.

Lemma find_groups_concat : forall ct v items, concat (map cg_items (find_groups srt ct v items)) = srt v items.
Proof.
  intros ct v items. unfold find_groups. destruct (fold_left _ _ _) as [gs cur] eqn:E.
  apply group_fold_concat in E. cbn in E. rewrite <- E. destruct (cg_items cur) eqn:Ec.
  - rewrite app_nil_r. reflexivity.
  - rewrite map_app, concat_app. cbn. rewrite Ec, app_nil_r. reflexivity.
Qed.

(** ** A run that returns *)

Variable i : GInstance.
Variable o : GOrient.
Local Notation ct := (gp_ct (gin_params i)).

Lemma add_node_one : forall bn depth cut, 1 <= depth -> gs_orient bn = o ->
  gof (gadd_node i [bn] depth cut) = match gadd_node_in ct o (gs_nodes bn) depth cut with
    | None => GRBad | Some (ns, true) => GROk [gwith_nodes bn ns] | Some (_, false) => GRThrow end.
Proof.
  intros bn depth cut Hd Ho. unfold gadd_node. cbn [gback rev app].
  replace (depth <? 1) with false by (symmetry; apply Z.ltb_ge; exact Hd). rewrite Ho.
  destruct (gadd_node_in _ _ _ _ _) as [[ns [|]]|]; reflexivity.
Qed.

Lemma step_stuck : forall v l r b t depth rec gs x prev, (forall bins, x <> GROk bins) ->
  fst (fold_left (region_step i v l r b t depth rec) gs (x, prev)) = x.
Proof.
  induction gs as [|g gs IH]; intros x prev H; [reflexivity|]. cbn [fold_left]. unfold region_step at 2. cbn [fst].
  destruct x; try (apply IH; exact H). exfalso. eapply H. reflexivity.
Qed.

Record Entry (ns : list GNode) (l r b t depth : Z) : Prop := {
  en_depth : 1 <= depth;
  en_some : ns <> [];
  en_d : gn_d (gnode ns (length ns - 1)) = depth - 1;
  en_l : gn_l (gnode ns (length ns - 1)) = l;
  en_r : gn_r (gnode ns (length ns - 1)) = r;
  en_b : gn_b (gnode ns (length ns - 1)) = b;
  en_t : gn_t (gnode ns (length ns - 1)) = t;
  en_children : gn_children (gnode ns (length ns - 1)) = [];
  en_cut : cuttable_node (gnode ns (length ns - 1));
  en_father : 1 < depth -> gn_f (gnode ns (length ns - 1)) <> None
}.

Record Ready (ns0 ns : list GNode) (p : nat) (prev depth : Z) : Prop := {
  rd_below : below ns p;
  rd_before : forall k, (k < p)%nat -> gnode ns k = gnode ns0 k;
  rd_frame : same_frame (gnode ns0 p) (gnode ns p);
  rd_cut : cuttable_node (gnode ns p);
  rd_children : forall c, In c (gn_children (gnode ns p)) -> (c < length ns)%nat;
  rd_next : next_from ct (gvertical o depth) ns p = prev
}.

Lemma add_ready : forall ns0 bn p prev depth cut, 1 <= depth -> gs_orient bn = o -> gn_d (gnode ns0 p) = depth - 1 ->
  Ready ns0 (gs_nodes bn) p prev depth ->
  let v := gvertical o depth in
  (cut <= prev \/ far v (gnode ns0 p) < cut) /\ gof (gadd_node i [bn] depth cut) = GRThrow
  \/ prev < cut <= far v (gnode ns0 p) /\ exists ns, gof (gadd_node i [bn] depth cut) = GROk [gwith_nodes bn ns]
     /\ Ready ns0 ns p (cut + ct) depth /\ (p < length ns - 1)%nat
     /\ gnode ns (length ns - 1) = piece v (gnode ns0 p) p prev cut
     /\ In (length ns - 1)%nat (gn_children (gnode ns p))
     /\ (exists cs, gn_children (gnode ns p) = cs ++ [(length ns - 1)%nat])
     /\ bin_placements ns = bin_placements (gs_nodes bn).
Proof.
  intros ns0 bn p prev depth cut Hd Ho Hdp [B1 B2 B3 B4 B5 B6]. cbv zeta.
  destruct B3 as (F1 & F2 & F3 & F4 & F5 & F6).
  assert (Hfar : far (gvertical o depth) (gnode (gs_nodes bn) p) = far (gvertical o depth) (gnode ns0 p))
    by (unfold far; destruct (gvertical o depth); congruence).
  rewrite add_node_one by assumption.
  destruct (add_below ct o (gs_nodes bn) depth cut p B1 ltac:(lia) B4 B5) as [[A (ns' & E)]|[A (ns' & c & E & C1 & C2 & C3 & C4 & C5 & C6 & C7 & C8 & C9)]];
    rewrite B6, Hfar in A; rewrite E.
  - left. split; [exact A|reflexivity].
  - right. split; [exact A|]. exists ns'. split; [reflexivity|].
    assert (Hc : (length ns' - 1)%nat = c) by lia. rewrite Hc.
    assert (Hp : (p < length (gs_nodes bn))%nat) by apply B1.
    split; [|split; [lia|split; [|split; [|split; [|exact C9]]]]].
    + split.
      * exact C7.
      * intros k Hk. rewrite C4 by exact Hk. apply B2. exact Hk.
      * eapply same_frame_trans; [|exact C5]. unfold same_frame. repeat split; assumption.
      * exact C8.
      * intros k Hk. rewrite C6 in Hk. apply in_app_or in Hk. destruct Hk as [Hk|[<-|[]]]; [|lia].
        specialize (B5 k Hk). lia.
      * unfold next_from. rewrite C6, rev_app_distr. cbn [rev app]. rewrite C3. unfold piece. cbn [gn_r gn_t].
        destruct (gvertical o depth); reflexivity.
    + rewrite C3, B6. unfold piece. rewrite <- F2, <- F3, <- F4, <- F5, <- F6. reflexivity.
    + rewrite C6. apply in_or_app. right. left. reflexivity.
    + exists (gn_children (gnode (gs_nodes bn) p)). exact C6.
Qed.

Definition After (ns ns' : list GNode) (p : nat) (items : list Placement) : Prop :=
  (forall k, (k < p)%nat -> gnode ns' k = gnode ns k) /\ same_frame (gnode ns p) (gnode ns' p) /\ below ns' p
  /\ Permutation (bin_placements ns') (bin_placements ns ++ items).

Lemma after_ready : forall ns0 ns ns' p prev depth items, Ready ns0 ns p prev depth -> (p < length ns - 1)%nat ->
  (exists cs, gn_children (gnode ns p) = cs ++ [(length ns - 1)%nat]) -> gn_f (gnode ns (length ns - 1)) = Some p ->
  gn_d (gnode ns (length ns - 1)) = gn_d (gnode ns p) + 1 ->
  After ns ns' (length ns - 1) items -> Ready ns0 ns' p prev depth.
Proof.
  intros ns0 ns ns' p prev depth items [B1 B2 B3 B4 B5 B6] Hp (cs & Hcs) Hf Hd (A1 & A2 & A3 & A4).
  assert (Ep : gnode ns' p = gnode ns p) by (apply A1; exact Hp).
  assert (Hlen : (length ns - 1 < length ns')%nat) by apply A3.
  split.
  - split; [lia|]. intros j Hj. destruct (lt_eq_lt_dec j (length ns - 1)) as [[H|H]|H].
    + destruct B1 as [_ B1]. destruct (B1 j ltac:(lia)) as (q & Q1 & Q2 & Q3). exists q.
      rewrite (A1 j H), (A1 q ltac:(lia)). split; [exact Q1|]. split; [lia|exact Q3].
    + subst j. exists p. destruct A2 as (F1 & F2 & _). rewrite Ep. split; [congruence|]. split; [lia|lia].
    + destruct A3 as [_ A3]. destruct (A3 j ltac:(lia)) as (q & Q1 & Q2 & Q3). exists q. split; [exact Q1|]. split; [lia|exact Q3].
  - intros k Hk. rewrite A1 by lia. apply B2. exact Hk.
  - rewrite Ep. exact B3.
  - rewrite Ep. exact B4.
  - intros c Hc. rewrite Ep in Hc. specialize (B5 c Hc). lia.
  - rewrite <- B6. unfold next_from. rewrite Ep, Hcs, rev_app_distr. cbn [rev app].
    destruct A2 as (_ & _ & _ & F4 & _ & F6). rewrite F4, F6. reflexivity.
Qed.

Lemma loop_sound : forall rec l r b t depth p ns0, 1 <= depth -> gn_d (gnode ns0 p) = depth - 1 ->
  gn_l (gnode ns0 p) = l -> gn_r (gnode ns0 p) = r -> gn_b (gnode ns0 p) = b -> gn_t (gnode ns0 p) = t ->
  (forall l r b t items depth' bn bins', gs_orient bn = o -> Entry (gs_nodes bn) l r b t depth' -> 1 < depth' ->
     rec l r b t items depth' [bn] = GROk bins' ->
     exists ns', bins' = [gwith_nodes bn ns'] /\ After (gs_nodes bn) ns' (length (gs_nodes bn) - 1) items) ->
  forall gs bn prev bins', gs_orient bn = o -> Ready ns0 (gs_nodes bn) p prev depth ->
  fst (fold_left (region_step i (gvertical o depth) l r b t depth rec) gs (GROk [bn], prev)) = GROk bins' ->
  exists ns' prev', bins' = [gwith_nodes bn ns'] /\ Ready ns0 ns' p prev' depth
    /\ Permutation (bin_placements ns') (bin_placements (gs_nodes bn) ++ concat (map cg_items gs)).
Proof.
  intros rec l r b t depth p ns0 Hd Hdp Hl Hr Hb Ht Hrec. set (v := gvertical o depth).
  induction gs as [|g gs IH]; intros bn prev bins' Ho HR H.
  - inversion H; subst. exists (gs_nodes bn), prev. split; [destruct bn; reflexivity|]. split; [exact HR|].
    cbn. rewrite app_nil_r. reflexivity.
  - cbn [fold_left] in H. unfold region_step at 2 in H. cbn [fst snd] in H.
    set (start := match cg_items g with [] => 0 | q :: _ => pl_start v q end) in *.
    assert (Hfirst : exists bn1 prev1, (if prev <? start - ct then (gof (gadd_node i [bn] depth (start - ct)), start) else (GROk [bn], prev))
        = (GROk [bn1], prev1) /\ gs_orient bn1 = o /\ Ready ns0 (gs_nodes bn1) p prev1 depth
        /\ bin_placements (gs_nodes bn1) = bin_placements (gs_nodes bn) /\ (exists m, bn1 = gwith_nodes bn m)).
    { destruct (prev <? start - ct) eqn:E.
      - destruct (add_ready ns0 bn p prev depth (start - ct) Hd Ho Hdp HR) as [[_ E']|[_ (ns & E' & R & _ & _ & _ & _ & Pl)]].
        + rewrite E' in H. rewrite step_stuck in H by discriminate. discriminate.
        + exists (gwith_nodes bn ns), start. rewrite E'. split; [reflexivity|]. split; [exact Ho|].
          replace (start - ct + ct) with start in R by lia. split; [exact R|]. split; [exact Pl|]. exists ns. reflexivity.
      - exists bn, prev. split; [reflexivity|]. split; [exact Ho|]. split; [exact HR|]. split; [reflexivity|].
        exists (gs_nodes bn). destruct bn; reflexivity. }
    destruct Hfirst as (bn1 & prev1 & E1 & Ho1 & R1 & Pl1 & (m1 & Em1)). rewrite E1 in H.
    destruct (add_ready ns0 bn1 p prev1 depth (cg_cut g) Hd Ho1 Hdp R1) as [[_ E']|[_ (ns & E' & R & Hlast & Hpiece & Hin & Hcs & Pl)]].
    { rewrite E' in H. rewrite step_stuck in H by discriminate. discriminate. }
    rewrite E' in H.
    destruct (rec (if v then prev1 else l) (if v then cg_cut g else r) (if v then b else prev1) (if v then t else cg_cut g)
       (cg_items g) (depth + 1) [gwith_nodes bn1 ns]) as [| | |bins1] eqn:Er;
      try (rewrite step_stuck in H by discriminate; discriminate).
    assert (HE : Entry (gs_nodes (gwith_nodes bn1 ns)) (if v then prev1 else l) (if v then cg_cut g else r)
        (if v then b else prev1) (if v then t else cg_cut g) (depth + 1)).
    { cbn [gwith_nodes gs_nodes]. constructor; try rewrite Hpiece; unfold piece;
        cbn [gn_d gn_l gn_r gn_b gn_t gn_children gn_f]; fold v; rewrite ?Hl, ?Hr, ?Hb, ?Ht; try reflexivity; try lia.
      - intros ->. simpl in Hlast. lia.
      - right. reflexivity.
      - intros _. discriminate. }
    destruct (Hrec _ _ _ _ _ _ _ _ (Ho1 : gs_orient (gwith_nodes bn1 ns) = o) HE ltac:(lia) Er) as (ns' & -> & HA). cbn [gwith_nodes gs_nodes] in HA.
    assert (HR' : Ready ns0 ns' p (cg_cut g + ct) depth).
    { apply (after_ready ns0 ns ns' p _ depth (cg_items g) R Hlast Hcs); [| |exact HA]; rewrite Hpiece; [reflexivity|].
      unfold piece. cbn [gn_d]. destruct (rd_frame _ _ _ _ _ R) as (_ & F2 & _). lia. }
    destruct (IH (gwith_nodes (gwith_nodes bn1 ns) ns') (cg_cut g + ct) bins' Ho1 HR' H) as (nsf & prevf & -> & HRf & Hperm).
    exists nsf, prevf. split; [subst bn1; reflexivity|]. split; [exact HRf|].
    cbn [gwith_nodes gs_nodes] in Hperm. rewrite Hperm. destruct HA as (_ & _ & _ & HA). rewrite HA, Pl, Pl1.
    cbn [map concat]. rewrite app_assoc. reflexivity.
Qed.

Lemma entry_ready : forall ns l r b t depth, Entry ns l r b t depth ->
  Ready ns ns (length ns - 1) (if gvertical o depth then l else b) depth.
Proof.
  intros ns l r b t depth H. destruct H.
  assert (0 < length ns)%nat by (destruct ns; [congruence|simpl; lia]).
  split.
  - split; [lia|]. intros; lia.
  - reflexivity.
  - apply same_frame_refl.
  - assumption.
  - rewrite en_children0. intros c [].
  - unfold next_from. rewrite en_children0. simpl. destruct (gvertical o depth); assumption.
Qed.

Lemma region_sound : forall fuel l r b t items depth bn bins', gs_orient bn = o -> Entry (gs_nodes bn) l r b t depth ->
  build_region srt i o fuel l r b t items depth [bn] = GROk bins' ->
  exists ns', bins' = [gwith_nodes bn ns'] /\ After (gs_nodes bn) ns' (length (gs_nodes bn) - 1) items.
Proof.
  induction fuel as [|fuel IH]; intros l r b t items depth bn bins' Ho HE H.
  all: assert (Hlen : (0 < length (gs_nodes bn))%nat) by (destruct (gs_nodes bn) eqn:En; [destruct HE; congruence|simpl; lia]).
  all: assert (Hex : forall x, exact_item l r b t items = Some x -> 1 < depth -> gof (gset_item i [bn] x) = GROk bins' ->
    exists ns', bins' = [gwith_nodes bn ns'] /\ After (gs_nodes bn) ns' (length (gs_nodes bn) - 1) items).
  1,3: intros x Hx Hd1 Hg; destruct items as [|q [|q' its]]; try discriminate; cbn in Hx;
    destruct ((pl_l q =? l) && (pl_r q =? r) && (pl_b q =? b) && (pl_t q =? t)) eqn:Eq; [|discriminate];
    inversion Hx; subst x; clear Hx;
    rewrite !andb_true_iff, !Z.eqb_eq in Eq; destruct Eq as [[[Q1 Q2] Q3] Q4];
    unfold gset_item in Hg; cbn [gback rev app] in Hg;
    destruct (Nat.ltb (pl_item q) (length (gin_items i))); [|discriminate];
    match type of Hg with gof (if ?c then _ else _) = _ => destruct c; [|discriminate] end;
    inversion Hg; subst bins'; eexists; split; [reflexivity|];
    unfold After; rewrite !gnode_upd by lia; rewrite Nat.eqb_refl;
    (split; [|split; [|split]]);
    [ intros k Hk; rewrite gnode_upd by lia; replace (Nat.eqb (length (gs_nodes bn) - 1) k) with false by (symmetry; apply Nat.eqb_neq; lia); reflexivity
    | repeat split
    | split; [rewrite upd_length; lia|rewrite upd_length; intros; lia]
    | idtac ].
  1,2: destruct HE as [_ _ _ E1 E2 E3 E4 _ E5 E6]; specialize (E6 Hd1);
    destruct (exists_last (l := gs_nodes bn)) as (front & n & Ef); [intros E0; rewrite E0 in Hlen; simpl in Hlen; lia|];
    assert (Hn : gnode (gs_nodes bn) (length (gs_nodes bn) - 1) = n) by
      (rewrite Ef; unfold gnode; rewrite app_length; simpl; replace (length front + 1 - 1)%nat with (length front) by lia;
       rewrite app_nth2 by lia; rewrite Nat.sub_diag; reflexivity);
    rewrite Hn in *;
    assert (Hu : upd (length (gs_nodes bn) - 1) (fun n0 => gn_with_item n0 (Z.of_nat (pl_item q))) (gs_nodes bn)
       = front ++ [gn_with_item n (Z.of_nat (pl_item q))]) by
      (rewrite Ef, app_length; simpl; replace (length front + 1 - 1)%nat with (length front) by lia; clear;
       induction front as [|a fr IHf]; [reflexivity|simpl; rewrite IHf; reflexivity]);
    rewrite Hu, Ef, !placements_app; unfold bin_placements at 2 4; cbn [flat_map]; rewrite !app_nil_r;
    unfold node_placement; cbn [gn_with_item gn_f gn_item gn_l gn_r gn_b gn_t];
    destruct (gn_f n) as [f|] eqn:Efn; [|congruence];
    destruct E5 as [E5|E5]; [congruence|];
    replace (0 <=? gn_item n) with false by (symmetry; apply Z.leb_gt; exact E5);
    replace (0 <=? Z.of_nat (pl_item q)) with true by (symmetry; apply Z.leb_le; lia);
    rewrite Nat2Z.id, app_nil_r, E1, E2, E3, E4, <- Q1, <- Q2, <- Q3, <- Q4; destruct q; reflexivity.
  all: assert (Hnil : items = [] -> exists ns', bins' = [gwith_nodes bn ns'] /\ After (gs_nodes bn) ns' (length (gs_nodes bn) - 1) items).
  1,3: intros ->; simpl in H; destruct fuel || idtac; inversion H; subst bins'; exists (gs_nodes bn); (split; [destruct bn; reflexivity|]);
    unfold After; rewrite app_nil_r; (split; [reflexivity|]); (split; [apply same_frame_refl|]); (split; [|reflexivity]);
    (split; [lia|]); intros; lia.
  - destruct items as [|q its]; [apply Hnil; reflexivity|]. cbn [build_region] in H.
    destruct (1 <? depth) eqn:Ed; [|discriminate]. destruct (exact_item l r b t (q :: its)) eqn:Ee; [|discriminate].
    apply (Hex n eq_refl ltac:(apply Z.ltb_lt; exact Ed) H).
  - destruct items as [|q its]; [apply Hnil; reflexivity|]. cbn [build_region] in H.
    destruct (if 1 <? depth then exact_item l r b t (q :: its) else None) eqn:Ee.
    + destruct (1 <? depth) eqn:Ed; [|discriminate]. apply (Hex n Ee ltac:(apply Z.ltb_lt; exact Ed) H).
    + destruct HE as [D0 D1 D2 E1 E2 E3 E4 E5 E6 E7] eqn:EHE.
      destruct (loop_sound (build_region srt i o fuel) l r b t depth (length (gs_nodes bn) - 1) (gs_nodes bn) D0 D2 E1 E2 E3 E4)
        with (gs := find_groups srt ct (gvertical o depth) (q :: its)) (bn := bn)
             (prev := if gvertical o depth then l else b) (bins' := bins') as (ns' & prev' & -> & HR & HP).
      * intros l' r' b' t' items' depth' bn' bins'' Ho' HE' _ H'. eapply IH; eassumption.
      * exact Ho.
      * eapply entry_ready. exact HE.
      * exact H.
      * exists ns'. split; [reflexivity|]. destruct HR as [B1 B2 B3 _ _ _].
        split; [exact B2|]. split; [exact B3|]. split; [exact B1|].
        rewrite HP. rewrite find_groups_concat. destruct (Hsort (gvertical o depth) (q :: its)) as [Hs _]. rewrite Hs. reflexivity.
Qed.


(** ** A run that does not return *)

Lemma group_fold_one : forall v l pr M, pr <> [] -> 0 <= M -> (forall p, In p (pr ++ l) -> 0 <= pl_end v p) ->
  (forall p, In p pr -> pl_end v p <= M) -> (exists p, In p pr /\ pl_end v p = M) ->
  StronglySorted (fun a b => pl_start v a <= pl_start v b) l -> NoCut ct v (pr ++ l) ->
  exists M', fold_left (group_step ct v) l ([], mkCG M pr) = ([], mkCG M' (pr ++ l))
    /\ (forall p, In p (pr ++ l) -> pl_end v p <= M') /\ (exists p, In p (pr ++ l) /\ pl_end v p = M').
Proof.
  intros v. induction l as [|q l IH]; intros pr M Hne HM Hpos Hmax Hex Hs Hno.
  - exists M. rewrite app_nil_r. split; [reflexivity|]. split; assumption.
  - cbn [fold_left]. unfold group_step at 2. cbn [cg_cut cg_items].
    replace (M <? 0) with false by (symmetry; apply Z.ltb_ge; exact HM).
    assert (E : (M + ct <=? pl_start v q) = false).
    { apply Z.leb_gt. destruct (Z_lt_ge_dec (pl_start v q) (M + ct)) as [H|H]; [exact H|]. exfalso.
      apply (Hno M).
      - intros p Hp. apply in_app_or in Hp. destruct Hp as [Hp|[<-|Hp]]; [left; apply Hmax; exact Hp|right; lia|].
        right. inversion Hs as [|? ? _ Hall]; subst. rewrite Forall_forall in Hall. specialize (Hall p Hp). simpl in Hall. lia.
      - destruct Hex as (p & Hp & E). exists p. split; [apply in_or_app; left; exact Hp|lia].
      - exists q. split; [apply in_or_app; right; left; reflexivity|lia]. }
    rewrite E. inversion Hs as [|? ? Hs' Hall]; subst.
    replace (pr ++ q :: l) with ((pr ++ [q]) ++ l) by (rewrite <- app_assoc; reflexivity).
    apply IH.
    + destruct pr; discriminate.
    + assert (0 <= pl_end v q) by (apply Hpos; apply in_or_app; right; left; reflexivity). destruct (M <? pl_end v q); lia.
    + intros p Hp. apply Hpos. rewrite <- app_assoc in Hp. exact Hp.
    + intros p Hp. apply in_app_or in Hp. destruct Hp as [Hp|[<-|[]]].
      * specialize (Hmax p Hp). destruct (M <? pl_end v q) eqn:El; [apply Z.ltb_lt in El; lia|lia].
      * destruct (M <? pl_end v q) eqn:El; [lia|apply Z.ltb_ge in El; lia].
    + destruct (M <? pl_end v q) eqn:El.
      * exists q. split; [apply in_or_app; right; left; reflexivity|reflexivity].
      * destruct Hex as (p & Hp & Ep). exists p. split; [apply in_or_app; left; exact Hp|exact Ep].
    + exact Hs'.
    + rewrite <- app_assoc. exact Hno.
Qed.

Lemma no_cut_perm : forall v l l', Permutation l l' -> NoCut ct v l -> NoCut ct v l'.
Proof.
  intros v l l' Hp H x Ha (p & Hp1 & Hp2) (q & Hq1 & Hq2). apply (H x).
  - intros z Hz. apply Ha. eapply Permutation_in; eassumption.
  - exists p. split; [|exact Hp2]. eapply Permutation_in; [apply Permutation_sym; eassumption|exact Hp1].
  - exists q. split; [|exact Hq2]. eapply Permutation_in; [apply Permutation_sym; eassumption|exact Hq1].
Qed.

Lemma find_groups_one : forall v items, items <> [] -> (forall p, In p items -> 0 <= pl_end v p) -> NoCut ct v items ->
  exists M, find_groups srt ct v items = [mkCG M (srt v items)]
    /\ (forall p, In p items -> pl_end v p <= M) /\ (exists p, In p items /\ pl_end v p = M).
Proof.
  intros v items Hne Hpos Hno. destruct (Hsort v items) as [Hp Hs]. unfold find_groups.
  destruct (srt v items) as [|q s] eqn:Es.
  { apply Permutation_nil in Hp. congruence. }
  cbn [fold_left]. unfold group_step at 2. cbn [cg_cut cg_items Z.ltb Z.compare app].
  assert (Hin : forall p, In p (q :: s) -> In p items) by (intros p H; eapply Permutation_in; eassumption).
  inversion Hs as [|? ? Hs' Hall]; subst.
  destruct (group_fold_one v s [q] (pl_end v q)) as (M & E & H1 & H2).
  - discriminate.
  - apply Hpos, Hin. left. reflexivity.
  - intros p H. apply Hpos, Hin. exact H.
  - intros p [<-|[]]. lia.
  - exists q. split; [left; reflexivity|reflexivity].
  - exact Hs'.
  - eapply no_cut_perm; [apply Permutation_sym; exact Hp|exact Hno].
  - rewrite E. cbn [cg_items app]. exists M. split; [reflexivity|]. split.
    + intros p H. apply H1. eapply Permutation_in; [apply Permutation_sym; exact Hp|exact H].
    + destruct H2 as (p & H & Ep). exists p. split; [apply Hin; exact H|exact Ep].
Qed.

Definition Stay (l b : Z) (items : list Placement) : Prop :=
  (2 <= length items)%nat \/ exists q, items = [q] /\ (l < pl_l q <= l + ct \/ b < pl_b q <= b + ct).

Lemma stay_exact : forall l r b t items, Stay l b items -> exact_item l r b t items = None.
Proof.
  intros l r b t items [H|(q & -> & H)].
  - destruct items as [|a [|c its]]; try (simpl in H; lia). reflexivity.
  - cbn. destruct ((pl_l q =? l) && (pl_r q =? r) && (pl_b q =? b) && (pl_t q =? t)) eqn:E; [|reflexivity].
    rewrite !andb_true_iff, !Z.eqb_eq in E. lia.
Qed.

Lemma region_hang : 0 <= ct -> forall fuel l r b t items depth bn, gs_orient bn = o -> Entry (gs_nodes bn) l r b t depth ->
  0 <= l -> 0 <= b -> Inside l r b t items -> (forall v, NoCut ct v items) -> Stay l b items ->
  build_region srt i o fuel l r b t items depth [bn] = GRFuel.
Proof.
  intros Hct. induction fuel as [|fuel IH]; intros l r b t items depth bn Ho HE Hl0 Hb0 Hin Hno Hst.
  - destruct items as [|q its]; [destruct Hst as [H|(q & H & _)]; [simpl in H; lia|discriminate]|].
    cbn [build_region]. rewrite stay_exact by exact Hst. destruct (1 <? depth); reflexivity.
  - assert (Hne : items <> []) by (intros ->; destruct Hst as [H|(q & H & _)]; [simpl in H; lia|discriminate]).
    assert (Hunf : build_region srt i o (Datatypes.S fuel) l r b t items depth [bn]
      = fst (fold_left (region_step i (gvertical o depth) l r b t depth (build_region srt i o fuel))
               (find_groups srt ct (gvertical o depth) items) (GROk [bn], if gvertical o depth then l else b))).
    { destruct items as [|q its]; [congruence|]. cbn [build_region]. rewrite stay_exact by exact Hst.
      destruct (1 <? depth); reflexivity. }
    rewrite Hunf. clear Hunf. set (v := gvertical o depth).
    destruct (find_groups_one v items Hne) as (M & EG & HM1 & HM2).
    { intros p Hp. specialize (Hin p Hp). unfold pl_end. destruct v; lia. }
    { apply Hno. }
    rewrite EG. destruct (Hsort v items) as [Hperm Hs].
    destruct (srt v items) as [|q s] eqn:Es; [apply Permutation_nil in Hperm; congruence|].
    assert (Hq : In q items) by (eapply Permutation_in; [exact Hperm|left; reflexivity]).
    assert (Hmin : forall p, In p items -> pl_start v q <= pl_start v p).
    { intros p Hp. apply (Permutation_in p (Permutation_sym Hperm)) in Hp. destruct Hp as [<-|Hp]; [lia|].
      inversion Hs as [|? ? _ Hall]; subst. rewrite Forall_forall in Hall. apply Hall. exact Hp. }
    cbn [fold_left]. unfold region_step. cbn [fst snd cg_items cg_cut].
    pose proof (entry_ready _ _ _ _ _ _ HE) as HR. fold v in HR.
    set (prev := if v then l else b) in *. set (p0 := (length (gs_nodes bn) - 1)%nat) in *.
    destruct HE as [D0 D1 D2 E1 E2 E3 E4 E5 E6 E7]. fold p0 in D2, E1, E2, E3, E4, E5, E6, E7.
    assert (Hfar : forall p, In p items -> pl_end v p <= far v (gnode (gs_nodes bn) p0)).
    { intros p Hp. specialize (Hin p Hp). unfold far, pl_end. rewrite E2, E4. destruct v; lia. }
    assert (Hse : pl_start v q < pl_end v q) by (specialize (Hin q Hq); unfold pl_start, pl_end; destruct v; lia).
    assert (Hprev : prev <= pl_start v q) by (specialize (Hin q Hq); unfold prev, pl_start; destruct v; lia).
    pose proof (Hfar q Hq) as Hfq. pose proof (HM1 q Hq) as HMq.
    assert (HMf : M <= far v (gnode (gs_nodes bn) p0)) by (destruct HM2 as (z & Hz & <-); apply Hfar; exact Hz).
    assert (Hfirst : exists bn1 prev1, (if prev <? pl_start v q - ct
          then (gof (gadd_node i [bn] depth (pl_start v q - ct)), pl_start v q) else (GROk [bn], prev)) = (GROk [bn1], prev1)
        /\ gs_orient bn1 = o /\ Ready (gs_nodes bn) (gs_nodes bn1) p0 prev1 depth
        /\ prev <= prev1 <= pl_start v q /\ (prev < pl_start v q - ct \/ prev1 = prev)).
    { destruct (prev <? pl_start v q - ct) eqn:E.
      - apply Z.ltb_lt in E.
        destruct (add_ready (gs_nodes bn) bn p0 prev depth (pl_start v q - ct) D0 Ho D2 HR) as [[A _]|[_ (ns & E' & R & _)]].
        + fold v in A. lia.
        + exists (gwith_nodes bn ns), (pl_start v q). rewrite E'. split; [reflexivity|]. split; [exact Ho|].
          replace (pl_start v q - ct + ct) with (pl_start v q) in R by lia. split; [exact R|]. split; [lia|left; exact E].
      - exists bn, prev. split; [reflexivity|]. split; [exact Ho|]. split; [exact HR|]. split; [lia|right; reflexivity]. }
    destruct Hfirst as (bn1 & prev1 & EF & Ho1 & R1 & Hp1 & Hp2). rewrite EF.
    destruct (add_ready (gs_nodes bn) bn1 p0 prev1 depth M D0 Ho1 D2 R1) as [[A _]|[_ (ns & E' & R & Hlast & Hpiece & _)]].
    { fold v in A. lia. }
    rewrite E'. cbn [fst]. apply IH.
    + exact Ho1.
    + cbn [gwith_nodes gs_nodes]. fold v in Hpiece. constructor; try rewrite Hpiece; unfold piece;
        cbn [gn_d gn_l gn_r gn_b gn_t gn_children gn_f]; rewrite ?E1, ?E2, ?E3, ?E4; try reflexivity; try lia.
      * intros ->. simpl in Hlast. lia.
      * right. reflexivity.
      * intros _. discriminate.
    + unfold prev in Hp1. destruct v; lia.
    + unfold prev in Hp1. destruct v; lia.
    + intros p Hp. apply (Permutation_in p Hperm) in Hp. pose proof (Hin p Hp) as Hi. pose proof (Hmin p Hp) as Hm.
      pose proof (HM1 p Hp) as HMp. clear - Hi Hm HMp Hp1. unfold pl_start, pl_end in *. destruct v; lia.
    + intros w. eapply no_cut_perm; [apply Permutation_sym; exact Hperm|apply Hno].
    + destruct Hst as [H|(z & Hz & H)].
      * left. rewrite (Permutation_length Hperm). exact H.
      * right. exists z. rewrite Hz in Hperm. apply Permutation_sym, Permutation_length_1_inv in Hperm.
        split; [exact Hperm|]. inversion Hperm; subst. unfold prev, pl_start in *. destruct v; lia.
Qed.

End Groups.

(** ** The plate *)

Definition TrimsNonneg (bt : GBinType) : Prop :=
  0 <= gt_length (gb_left bt) /\ 0 <= gt_length (gb_right bt) /\ 0 <= gt_length (gb_bottom bt) /\ 0 <= gt_length (gb_top bt).

Lemma init_entry : forall bt t, TrimsNonneg bt -> Entry (ginit_nodes bt t) (use_l bt) (use_r bt) (use_b bt) (use_t bt) 1.
Proof.
  intros bt t (T1 & T2 & T3 & T4).
  assert (U : use_l bt = gin_l bt /\ use_r bt = gin_r bt /\ use_b bt = gin_b bt /\ use_t bt = gin_t bt).
  { unfold use_l, use_r, use_b, use_t, gin_l, gin_r, gin_b, gin_t, gtrim.
    repeat split; match goal with |- context [gt_hard ?x] => destruct (gt_hard x); simpl end;
      try match goal with |- context [0 <? ?x] => destruct (0 <? x) eqn:E; [apply Z.ltb_lt in E|apply Z.ltb_ge in E] end; lia. }
  destruct U as (-> & -> & -> & ->).
  assert (L : gnode (ginit_nodes bt t) (length (ginit_nodes bt t) - 1) =
    if ghas_trims bt then mkGN (Some 0%nat) 0 (gin_l bt) (gin_r bt) (gin_b bt) (gin_t bt) [] (-1)
    else mkGN None 0 0 (gb_w bt) 0 (gb_h bt) [] (Z.of_nat t)).
  { unfold ginit_nodes. destruct (ghas_trims bt); [|reflexivity]. unfold gnode.
    rewrite app_comm_cons, app_length. cbn [length].
    match goal with |- nth ?n (?a ++ ?b) _ = _ => replace n with (length a) by (cbn [length]; lia) end.
    rewrite app_nth2 by lia. rewrite Nat.sub_diag. reflexivity. }
  assert (N : ghas_trims bt = false -> gin_l bt = 0 /\ gin_r bt = gb_w bt /\ gin_b bt = 0 /\ gin_t bt = gb_h bt).
  { unfold ghas_trims, gin_l, gin_r, gin_b, gin_t.
    destruct (gtrim (gb_left bt)), (gtrim (gb_right bt)), (gtrim (gb_bottom bt)), (gtrim (gb_top bt)); simpl; intros; try discriminate; auto. }
  constructor; try rewrite L; try lia; try discriminate;
    destruct (ghas_trims bt) eqn:E; try reflexivity; try (first [destruct (N E) as (N1 & N2 & N3 & N4)|destruct (N eq_refl) as (N1 & N2 & N3 & N4)]; cbn [gn_l gn_r gn_b gn_t]; symmetry; assumption).
  all: try (left; reflexivity); try (right; reflexivity).
  all: unfold ginit_nodes; discriminate.
Qed.

(** ** The solution *)

Lemma finish_placements : forall ct ns p, bin_placements (gfinish ct ns p) = bin_placements ns.
Proof.
  intros ct ns p. destruct (finish_cases ct ns p) as [->|(c & -> & _ & _ & H)]; [reflexivity|].
  apply placements_child, waste_placement, H.
Qed.

Lemma close_placements : forall fuel ct ns p ns', gclose fuel ct ns p = Some ns' -> bin_placements ns' = bin_placements ns.
Proof.
  induction fuel as [|fuel IH]; intros ct ns p ns' H; [discriminate|]. cbn [gclose] in H.
  destruct (gn_f (gnode (gfinish ct ns p) p)).
  - rewrite (IH _ _ _ _ H). apply finish_placements.
  - inversion H. apply finish_placements.
Qed.

Definition bin_key (b : GBin) : nat * Z * list Placement := (gs_type b, gs_copies b, bin_placements (gs_nodes b)).

Lemma residual_key : forall b, bin_key (gresidual_bin b) = bin_key b.
Proof.
  intros b. unfold gresidual_bin. destruct (_ && _) eqn:E; [|reflexivity]. unfold bin_key. cbn [gwith_nodes gs_type gs_copies gs_nodes].
  f_equal. apply placements_upd. intros n Hn. apply andb_true_iff in E. destruct E as [E _]. apply Z.eqb_eq in E.
  unfold gnode in E. rewrite (nth_error_nth _ _ _ Hn) in E. unfold node_placement. cbn [gn_with_item gn_f gn_item]. rewrite E.
  destruct (gn_f n); reflexivity.
Qed.

Lemma upd_map_same : forall {A B} (g : A -> B) n f l, (forall x, nth_error l n = Some x -> g (f x) = g x) ->
  map g (upd n f l) = map g l.
Proof.
  intros A B g. induction n as [|n IH]; intros f [|x l] H; try reflexivity.
  - simpl. rewrite (H x eq_refl). reflexivity.
  - simpl. rewrite IH; [reflexivity|]. intros y Hy. apply H. exact Hy.
Qed.

Lemma stage_key : forall i b r, bin_key (gstage_bin i b r) = bin_key b.
Proof. intros i b r. unfold gstage_bin. destruct (if 0 <? _ then _ else _). reflexivity. Qed.

Lemma update_keys : forall i cb pos c s, gupdate i cb pos c = GDone s ->
  map bin_key (gc_bins (gs_core s)) = map bin_key (gc_bins c).
Proof.
  intros i cb pos c s H. unfold gupdate in H. destruct (nth_error (gc_bins c) pos) as [b|] eqn:E; [|discriminate].
  assert (K : map bin_key (gc_bins (gcore_after i c pos b)) = map bin_key (gc_bins c)).
  { unfold gcore_after. cbn [gc_bins]. apply upd_map_same. intros x Hx. rewrite E in Hx. inversion Hx. apply stage_key. }
  destruct (gin_objective i), (gp_costs (gin_params i)); try discriminate;
    (destruct (gc_waste_ok _); [|discriminate]; inversion H; exact K).
Qed.

Lemma update_from_keys : forall i cb l s s', gupdate_from i cb l s = GDone s' ->
  map bin_key (gc_bins (gs_core s')) = map bin_key (gc_bins (gs_core s)).
Proof.
  intros i cb. induction l as [|pos l IH]; intros s s' H.
  - inversion H. reflexivity.
  - cbn [gupdate_from] in H. destruct (gupdate i cb pos (gs_core s)) as [s1| |] eqn:E; try discriminate.
    rewrite (IH _ _ H). apply (update_keys _ _ _ _ _ E).
Qed.

Lemma build_key : forall i cb bn s, gbuild i cb [bn] = GDone s -> map bin_key (gc_bins (gs_core s)) = [bin_key bn].
Proof.
  intros i cb bn s H. unfold gbuild, gfinish_bins in H. cbn [gmapo] in H.
  destruct (gclose_bin (gp_ct (gin_params i)) bn) as [b1|] eqn:E1; [|discriminate].
  assert (K1 : bin_key b1 = bin_key bn).
  { unfold gclose_bin in E1. destruct (gclose _ _ _ _) as [ns|] eqn:E2; [|discriminate]. inversion E1; subst b1.
    unfold bin_key. cbn [gwith_nodes gs_type gs_copies gs_nodes]. rewrite (close_placements _ _ _ _ _ E2). reflexivity. }
  cbn [option_map] in H. apply update_from_keys in H. rewrite H. cbn. rewrite residual_key, K1. reflexivity.
Qed.

Lemma update_orients : forall i cb pos c s, gupdate i cb pos c = GDone s ->
  map gs_orient (gc_bins (gs_core s)) = map gs_orient (gc_bins c).
Proof.
  intros i cb pos c s H. unfold gupdate in H. destruct (nth_error (gc_bins c) pos) as [b|] eqn:E; [|discriminate].
  assert (K : map gs_orient (gc_bins (gcore_after i c pos b)) = map gs_orient (gc_bins c)).
  { unfold gcore_after. cbn [gc_bins]. apply upd_map_same. intros x Hx. rewrite E in Hx. inversion Hx.
    unfold gstage_bin. destruct (if 0 <? _ then _ else _). reflexivity. }
  destruct (gin_objective i), (gp_costs (gin_params i)); try discriminate;
    (destruct (gc_waste_ok _); [|discriminate]; inversion H; exact K).
Qed.

Lemma update_from_orients : forall i cb l s s', gupdate_from i cb l s = GDone s' ->
  map gs_orient (gc_bins (gs_core s')) = map gs_orient (gc_bins (gs_core s)).
Proof.
  intros i cb. induction l as [|pos l IH]; intros s s' H.
  - inversion H. reflexivity.
  - cbn [gupdate_from] in H. destruct (gupdate i cb pos (gs_core s)) as [s1| |] eqn:E; try discriminate.
    rewrite (IH _ _ H). apply (update_orients _ _ _ _ _ E).
Qed.

Lemma build_orient : forall i cb bn s, gbuild i cb [bn] = GDone s -> map gs_orient (gc_bins (gs_core s)) = [gs_orient bn].
Proof.
  intros i cb bn s H. unfold gbuild, gfinish_bins in H. cbn [gmapo] in H.
  destruct (gclose_bin (gp_ct (gin_params i)) bn) as [b1|] eqn:E1; [|discriminate].
  assert (K1 : gs_orient b1 = gs_orient bn).
  { unfold gclose_bin in E1. destruct (gclose _ _ _ _); [|discriminate]. inversion E1; reflexivity. }
  cbn [option_map] in H. apply update_from_orients in H. rewrite H. cbn. unfold gresidual_bin. destruct (_ && _); cbn; rewrite K1; reflexivity.
Qed.

Lemma settle_keys : forall bins area, map bin_key (fst (gsettle bins area)) = map bin_key bins.
Proof.
  intros bins area. unfold gsettle. destruct (gback bins) as [[front b]|] eqn:E; [|reflexivity].
  destruct (gn_item _ =? -3) eqn:E3; [|reflexivity]. cbn [fst].
  assert (Hb : bins = front ++ [b]).
  { unfold gback in E. destruct (rev bins) as [|x r] eqn:Er; [discriminate|]. inversion E; subst.
    rewrite <- (rev_involutive bins), Er. reflexivity. }
  rewrite Hb, !map_app. f_equal. cbn [map]. f_equal. unfold bin_key. cbn [gwith_nodes gs_type gs_copies gs_nodes]. f_equal.
  apply placements_upd. intros n Hn. apply Z.eqb_eq in E3. unfold gnode in E3. rewrite (nth_error_nth _ _ _ Hn) in E3.
  unfold node_placement. cbn [gn_with_item gn_f gn_item]. rewrite E3. destruct (gn_f n); reflexivity.
Qed.

Lemma copy_placement : forall i t n n', gcopy_node i t [] n = Some n' -> node_placement n' = node_placement n.
Proof.
  intros i t n n' H. unfold gcopy_node in H. destruct (gn_t n =? -4); [inversion H; reflexivity|].
  unfold node_placement at 2. destruct (gn_f n) eqn:Ef; [|inversion H; reflexivity].
  destruct (0 <=? gn_item n) eqn:E.
  - cbn [map_id] in H. destruct (Nat.ltb _ _); [|discriminate]. inversion H. unfold node_placement.
    cbn [gn_with_item gn_f gn_item gn_l gn_r gn_b gn_t]. rewrite Ef. apply Z.leb_le in E. rewrite Z2Nat.id by exact E.
    replace (0 <=? gn_item n) with true by (symmetry; apply Z.leb_le; exact E). reflexivity.
  - inversion H; subst n'. unfold node_placement. rewrite Ef, E. reflexivity.
Qed.

Lemma copy_placements : forall i t ns ns', gmapo (gcopy_node i t []) ns = Some ns' -> bin_placements ns' = bin_placements ns.
Proof.
  intros i t. induction ns as [|n ns IH]; intros ns' H; cbn [gmapo] in H; [inversion H; reflexivity|].
  destruct (gcopy_node i t [] n) as [n'|] eqn:E1; [|discriminate]. destruct (gmapo _ ns) as [r|] eqn:E2; [|discriminate].
  inversion H. unfold bin_placements in *. cbn [flat_map]. rewrite (copy_placement _ _ _ _ E1), (IH _ eq_refl). reflexivity.
Qed.

Lemma append_keys : forall i cb s source pos copies s', gappend_bin i cb s source pos copies [] [] = GDone s' ->
  exists b, nth_error (gc_bins (gs_core source)) pos = Some b
    /\ map bin_key (gc_bins (gs_core s')) = map bin_key (gc_bins (gs_core s)) ++ [(gs_type b, copies, bin_placements (gs_nodes b))].
Proof.
  intros i cb s source pos copies s' H. unfold gappend_bin in H.
  destruct (nth_error (gc_bins (gs_core source)) pos) as [b|]; [|discriminate]. exists b. split; [reflexivity|].
  cbn [map_id] in H. destruct (Nat.ltb _ _); [|discriminate].
  destruct (gmapo _ _) as [ns|] eqn:En; [|discriminate].
  pose proof (settle_keys (gc_bins (gs_core s)) (gc_area (gs_core s))) as K.
  destruct (gsettle _ _) as [bins area]. apply update_keys in H. rewrite H. cbn [gwith_area gwith_bins gc_bins fst] in *.
  rewrite map_app, K. f_equal. cbn [map]. f_equal. unfold bin_key. cbn [gs_type gs_copies gs_nodes]. rewrite (copy_placements _ _ _ _ En). reflexivity.
Qed.

Lemma trims_placements : forall bt, bin_placements (gtrims bt) = [].
Proof.
  intros bt. unfold gtrims, bin_placements. cbv zeta. rewrite !flat_map_app.
  repeat match goal with |- context [flat_map _ (if ?c then _ else _)] => destruct c end; reflexivity.
Qed.

Lemma init_placements : forall bt t, bin_placements (ginit_nodes bt t) = [].
Proof.
  intros bt t. unfold ginit_nodes, bin_placements. cbn [flat_map node_placement gn_f app].
  destruct (ghas_trims bt); [|reflexivity]. rewrite flat_map_app. fold (bin_placements (gtrims bt)).
  rewrite trims_placements. reflexivity.
Qed.

Lemma try_sound : forall srt i cb fuel t items o sols, Sorts srt -> TrimsNonneg (gbin i t) ->
  try_orientation srt i cb fuel t items o = GBList sols ->
  (length sols <= 1)%nat /\ forall s, In s sols -> exists b, gc_bins (gs_core s) = [b] /\ gs_type b = t /\ gs_copies b = 1
    /\ gs_orient b = o /\ Permutation (bin_placements (gs_nodes b)) items.
Proof.
  intros srt i cb fuel t items o sols Hs Ht H. unfold try_orientation in H.
  destruct (try_region srt i fuel t items o) as [| | |bins] eqn:E; try discriminate.
  - inversion H. split; [simpl; lia|]. intros s [].
  - destruct (gbuild i cb bins) as [s| |] eqn:EB; try discriminate. inversion H; subst sols; clear H.
    split; [simpl; lia|]. intros s' [<-|[]].
    unfold try_region in E. destruct (Nat.ltb t (length (gin_bins i))) eqn:El; [|discriminate].
    unfold gadd_bin in E. rewrite El in E. cbn [app] in E.
    destruct (region_sound srt Hs i o fuel _ _ _ _ items 1 (mkGB t 1 o (ginit_nodes (gbin i t) t) 0 0 false false [])
      bins eq_refl (init_entry (gbin i t) t Ht) E) as (ns' & -> & _ & _ & _ & P). cbn [gs_nodes] in P. rewrite init_placements in P. cbn [app] in P.
    pose proof (build_orient _ _ _ _ EB) as EO. apply build_key in EB. destruct (gc_bins (gs_core s)) as [|b [|b' bs]]; try discriminate.
    exists b. cbn [map] in EB, EO. inversion EO as [K0]. inversion EB as [[K1 K2 K3]]. repeat (split; [first [assumption|reflexivity]|]).
    rewrite K3. cbn [gwith_nodes gs_nodes]. exact P.
Qed.

Lemma builds_sound : forall srt i cb fuel t items sols, Sorts srt -> TrimsNonneg (gbin i t) ->
  build_guillotine_solutions srt i cb fuel t items = GBList sols ->
  (length sols <= match gp_first (gin_params i) with GAny => 2 | _ => 1 end)%nat
  /\ (forall s, In s sols -> exists b, gc_bins (gs_core s) = [b] /\ gs_type b = t /\ gs_copies b = 1
       /\ (gp_first (gin_params i) = GAny \/ gs_orient b = gp_first (gin_params i))
       /\ Permutation (bin_placements (gs_nodes b)) items)
  /\ forall s1 s2, sols = [s1; s2] -> forall b1 b2, gc_bins (gs_core s1) = [b1] -> gc_bins (gs_core s2) = [b2] ->
       gs_orient b1 = GVertical /\ gs_orient b2 = GHorizontal.
Proof.
  intros srt i cb fuel t items sols Hs Ht H. unfold build_guillotine_solutions in H.
  assert (T : forall o, try_orientation srt i cb fuel t items o = GBList sols -> gp_first (gin_params i) = o ->
    (length sols <= 1)%nat /\ (forall s, In s sols -> exists b, gc_bins (gs_core s) = [b] /\ gs_type b = t /\ gs_copies b = 1
       /\ (gp_first (gin_params i) = GAny \/ gs_orient b = gp_first (gin_params i))
       /\ Permutation (bin_placements (gs_nodes b)) items)
    /\ forall s1 s2, sols = [s1; s2] -> forall b1 b2, gc_bins (gs_core s1) = [b1] -> gc_bins (gs_core s2) = [b2] ->
       gs_orient b1 = GVertical /\ gs_orient b2 = GHorizontal).
  { intros o E Eo. destruct (try_sound _ _ _ _ _ _ _ _ Hs Ht E) as [L P]. split; [exact L|]. split.
    - intros s Hin. destruct (P s Hin) as (b & B1 & B2 & B3 & B4 & B5). exists b. rewrite Eo. auto 8.
    - intros s1 s2 ->. simpl in L. lia. }
  destruct (gp_first (gin_params i)) eqn:Ef; try (rewrite <- Ef in T |- *; eapply T; [exact H|exact Ef]); try (eapply T; [exact H|reflexivity]).
  destruct (try_orientation srt i cb fuel t items GVertical) as [| | |l1] eqn:E1; try discriminate.
  destruct (try_orientation srt i cb fuel t items GHorizontal) as [| | |l2] eqn:E2; try discriminate.
  inversion H; subst sols. destruct (try_sound _ _ _ _ _ _ _ _ Hs Ht E1) as [L1 P1].
  destruct (try_sound _ _ _ _ _ _ _ _ Hs Ht E2) as [L2 P2]. split; [rewrite app_length; lia|]. split.
  - intros s Hin. apply in_app_or in Hin.
    destruct Hin as [Hin|Hin]; [destruct (P1 s Hin) as (b & B1 & B2 & B3 & _ & B5)|destruct (P2 s Hin) as (b & B1 & B2 & B3 & _ & B5)];
      exists b; auto 8.
  - intros s1 s2 E b1 b2 H1 H2. destruct l1 as [|x [|x' l1]]; [| |simpl in L1; lia]; [simpl in E; subst l2; simpl in L2; lia|].
    destruct l2 as [|y [|y' l2]]; try discriminate. inversion E; subst x y.
    destruct (P1 s1 (or_introl eq_refl)) as (c1 & C1 & _ & _ & C1' & _). destruct (P2 s2 (or_introl eq_refl)) as (c2 & C2 & _ & _ & C2' & _).
    rewrite H1 in C1. rewrite H2 in C2. inversion C1; inversion C2; subst. auto.
Qed.

Lemma builds_hang : forall srt i cb fuel t items, Sorts srt -> (t < length (gin_bins i))%nat -> TrimsNonneg (gbin i t) ->
  0 <= gp_ct (gin_params i) ->
  Inside (use_l (gbin i t)) (use_r (gbin i t)) (use_b (gbin i t)) (use_t (gbin i t)) items ->
  (forall v, NoCut (gp_ct (gin_params i)) v items) -> Stay i (use_l (gbin i t)) (use_b (gbin i t)) items ->
  build_guillotine_solutions srt i cb fuel t items = GBFuel.
Proof.
  intros srt i cb fuel t items Hs Ht Htr Hct Hin Hno Hst.
  assert (T : forall o, try_orientation srt i cb fuel t items o = GBFuel).
  { intros o. unfold try_orientation, try_region, gadd_bin. apply Nat.ltb_lt in Ht. rewrite Ht. cbn [app].
    rewrite (region_hang srt Hs i o Hct fuel _ _ _ _ items 1); try assumption; try reflexivity.
    - cbn [gs_nodes]. apply init_entry. exact Htr.
    - destruct Htr as (H1 & _). unfold use_l. destruct (gt_hard _); lia.
    - destruct Htr as (_ & _ & H3 & _). unfold use_b. destruct (gt_hard _); lia. }
  unfold build_guillotine_solutions. rewrite !T. destruct (gp_first _); reflexivity.
Qed.

Lemma solution_in : forall sols s, build_guillotine_solution sols = Some s -> In s sols.
Proof.
  intros [|s0 [|s1 l]] s H; try discriminate; simpl in *.
  - inversion H. left. reflexivity.
  - destruct (_ <=? _); inversion H; auto.
Qed.

Definition same_key (a b : nat * Z * list Placement) : Prop := fst a = fst b /\ Permutation (snd a) (snd b).

Lemma Forall2_nth_build : forall {A B} (R : A -> B -> Prop) l l', length l = length l' ->
  (forall n x y, nth_error l n = Some x -> nth_error l' n = Some y -> R x y) -> Forall2 R l l'.
Proof.
  intros A B R. induction l as [|x l IH]; intros [|y l'] HL H; try discriminate; constructor.
  - apply (H 0%nat); reflexivity.
  - apply IH; [inversion HL; reflexivity|]. intros n a b Ha Hb. apply (H (Datatypes.S n)); assumption.
Qed.

Lemma minimize_from_sound : forall srt i cb fuel source, Sorts srt ->
  (forall b, In b (gc_bins (gs_core source)) -> TrimsNonneg (gbin i (gs_type b))) ->
  forall l result r, minimize_from srt i cb fuel source result l = Some r ->
  exists keys, map bin_key (gc_bins (gs_core r)) = map bin_key (gc_bins (gs_core result)) ++ keys
    /\ Forall2 (fun pos k => exists b, nth_error (gc_bins (gs_core source)) pos = Some b /\ same_key k (bin_key b)) l keys.
Proof.
  intros srt i cb fuel source Hs Htr. induction l as [|pos l IH]; intros result r H.
  - inversion H. exists []. split; [rewrite app_nil_r; reflexivity|constructor].
  - cbn [minimize_from] in H. destruct (nth_error (gc_bins (gs_core source)) pos) as [b|] eqn:Eb; [|discriminate].
    destruct (build_guillotine_solutions srt i cb fuel (gs_type b) (bin_placements (gs_nodes b))) as [| | |sols] eqn:Ebs; try discriminate.
    match type of H with (match ?x with _ => _ end) = _ => destruct x as [res| |] eqn:Ex; try discriminate end.
    destruct (IH _ _ H) as (keys & K & F).
    assert (Hres : exists k, map bin_key (gc_bins (gs_core res)) = map bin_key (gc_bins (gs_core result)) ++ [k] /\ same_key k (bin_key b)).
    { destruct (build_guillotine_solution sols) as [s|] eqn:Es.
      - destruct (append_keys _ _ _ _ _ _ _ Ex) as (b' & Hb' & K'). eexists. split; [exact K'|].
        destruct (builds_sound _ _ _ _ _ _ _ Hs (Htr b (nth_error_In _ _ Eb)) Ebs) as (_ & P & _).
        destruct (P s (solution_in _ _ Es)) as (b'' & Hb'' & T1 & _ & _ & T3). rewrite Hb'' in Hb'. inversion Hb'; subst b''.
        split; cbn [fst snd]; [rewrite T1; reflexivity|exact T3].
      - destruct (append_keys _ _ _ _ _ _ _ Ex) as (b' & Hb' & K'). eexists. split; [exact K'|].
        rewrite Eb in Hb'. inversion Hb'; subst b'. split; reflexivity. }
    destruct Hres as (k & K' & S'). exists (k :: keys). split.
    + rewrite K, K', <- app_assoc. reflexivity.
    + constructor; [exists b; split; [exact Eb|exact S']|exact F].
Qed.
