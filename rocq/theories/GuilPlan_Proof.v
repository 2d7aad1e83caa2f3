(** * Proofs about the guillotine solution builder: histories of calls *)

From Coq Require Import List ZArith QArith Bool Lia Permutation.
From Verif Require Import Util Common_Model OneDim_Model Guil_Model Guil_Spec Guil_Proof.
Import ListNotations.
Open Scope Z_scope.

(** ** The first nodes of a bin *)

Definition gbase (bt : GBinType) : nat := if ghas_trims bt then S (length (gtrims bt)) else 0%nat.

Lemma gtrims_in : forall bt n, In n (gtrims bt) ->
  gn_f n = Some 0%nat /\ gn_d n = -1 /\ gn_children n = [] /\ gn_item n = -1.
Proof.
  intros bt n H. unfold gtrims in H. cbv zeta in H.
  repeat (apply in_app_or in H; destruct H as [H|H]);
    match type of H with In _ (if ?c then _ else _) => destruct c end;
    try (destruct H as [<-|[]]; repeat split; reflexivity); destruct H.
Qed.

Lemma init_length : forall bt t, length (ginit_nodes bt t) = S (gbase bt).
Proof.
  intros bt t. unfold ginit_nodes, gbase. destruct (ghas_trims bt); simpl; [|reflexivity].
  rewrite app_length. simpl. lia.
Qed.

Lemma init_before : forall bt t id, (0 < id < gbase bt)%nat ->
  gn_f (gnode (ginit_nodes bt t) id) = Some 0%nat /\ gn_d (gnode (ginit_nodes bt t) id) = -1
  /\ gn_children (gnode (ginit_nodes bt t) id) = [] /\ gn_item (gnode (ginit_nodes bt t) id) = -1.
Proof.
  intros bt t id Hid. unfold gbase in Hid. unfold ginit_nodes, gnode. destruct (ghas_trims bt); [|lia].
  destruct id as [|id]; [lia|]. cbn [nth]. rewrite app_nth1 by lia. apply gtrims_in with bt. apply nth_In. lia.
Qed.

Lemma init_base : forall bt t,
  geo (gnode (ginit_nodes bt t) (gbase bt))
  = ((if ghas_trims bt then Some 0%nat else None), 0, gin_l bt, gin_r bt, gin_b bt, gin_t bt).
Proof.
  intros bt t. unfold ginit_nodes, gbase. destruct (ghas_trims bt) eqn:E.
  - unfold gnode. cbn [nth]. rewrite app_nth2, Nat.sub_diag by lia. reflexivity.
  - unfold ghas_trims in E. apply orb_false_iff in E. destruct E as [E E4].
    apply orb_false_iff in E. destruct E as [E E3]. apply orb_false_iff in E. destruct E as [E1 E2].
    unfold gin_l, gin_r, gin_b, gin_t. rewrite E1, E2, E3, E4. reflexivity.
Qed.

Lemma init_base_node : forall bt t,
  gn_children (gnode (ginit_nodes bt t) (gbase bt)) = []
  /\ (gn_f (gnode (ginit_nodes bt t) (gbase bt)) <> None -> gn_item (gnode (ginit_nodes bt t) (gbase bt)) = -1).
Proof.
  intros bt t. unfold ginit_nodes, gbase. destruct (ghas_trims bt).
  - unfold gnode. cbn [nth]. rewrite app_nth2, Nat.sub_diag by lia. simpl. auto.
  - simpl. split; [reflexivity|]. intros H. congruence.
Qed.

Lemma init_root : forall bt t,
  geo (gnode (ginit_nodes bt t) 0) = (None, 0, 0, gb_w bt, 0, gb_h bt).
Proof. reflexivity. Qed.

Lemma init_d : forall bt t, gn_d (gnode (ginit_nodes bt t) (gbase bt)) = 0.
Proof. intros bt t. pose proof (init_base bt t) as H. unfold geo in H. congruence. Qed.

Lemma init_f : forall bt t id p, (id <= gbase bt)%nat ->
  gn_f (gnode (ginit_nodes bt t) id) = Some p -> (p < id)%nat.
Proof.
  intros bt t id p Hid Hf. destruct (Nat.eq_dec id 0) as [->|H0]; [discriminate|].
  destruct (Nat.eq_dec id (gbase bt)) as [->|Hb].
  - pose proof (init_base bt t) as H. unfold geo in H. destruct (ghas_trims bt); inversion H; [|congruence].
    rewrite Hf in H2. inversion H2. lia.
  - destruct (init_before bt t id ltac:(lia)) as [H _]. rewrite Hf in H. inversion H. lia.
Qed.

Lemma init_nochild : forall bt t id, (id < gbase bt)%nat -> gn_children (gnode (ginit_nodes bt t) id) = [].
Proof.
  intros bt t id Hid. destruct id as [|id]; [reflexivity|].
  apply (init_before bt t (S id)). lia.
Qed.

Lemma init_good : forall i o ct bt t,
  Good i o ct (ginit_nodes bt t) (gbase bt) (ginit_nodes bt t).
Proof.
  intros i o ct bt t. pose proof (init_length bt t) as HL.
  destruct (init_base_node bt t) as [HC HX].
  assert (Hb : forall id, (gbase bt <= id < length (ginit_nodes bt t))%nat -> id = gbase bt) by (intros; lia).
  split.
  - constructor.
    + lia.
    + reflexivity.
    + reflexivity.
    + intros id Hid. lia.
    + intros p c Hp Hc. rewrite (Hb p Hp), HC in Hc. destruct Hc.
    + intros p Hp. rewrite (Hb p Hp), HC. exact I.
    + intros id Hid. rewrite (Hb id Hid). intros H1 H2. rewrite (HX H2) in H1. lia.
    + intros id p k Hid. lia.
  - rewrite HL. simpl. rewrite Nat.sub_0_r. split; [lia|]. split.
    + intros q Hq. rewrite (Hb q Hq). left. left. exact HC.
    + rewrite HL. simpl. rewrite Nat.sub_0_r. apply anc_refl.
Qed.

(** ** Histories *)

Section Run.

Variable i : GInstance.
Hypothesis Hct : 0 <= gp_ct (gin_params i).
Let ct := gp_ct (gin_params i).

Definition bin_good (b : GBin) : Prop :=
  (gs_type b < length (gin_bins i))%nat /\
  Good i (gs_orient b) ct (ginit_nodes (gbin i (gs_type b)) (gs_type b)) (gbase (gbin i (gs_type b))) (gs_nodes b).

Lemma gback_some : forall bins front b, gback bins = Some (front, b) -> bins = front ++ [b].
Proof.
  unfold gback. intros bins front b H. destruct (rev bins) as [|x r] eqn:E; [discriminate|].
  inversion H. subst. rewrite <- (rev_involutive bins), E. reflexivity.
Qed.

Lemma bin_good_nodes : forall b ns, bin_good b ->
  Good i (gs_orient b) ct (ginit_nodes (gbin i (gs_type b)) (gs_type b)) (gbase (gbin i (gs_type b))) ns ->
  bin_good (gwith_nodes b ns).
Proof. intros b ns [H _] H'. split; [exact H|exact H']. Qed.

Lemma call_good : forall bins c, Forall bin_good bins ->
  match gcall i bins c with GOk bins' | GThrow bins' => Forall bin_good bins' | GUndef => False end.
Proof.
  intros bins c H. destruct c as [t copies o|depth cut|x]; simpl.
  - unfold gadd_bin. destruct (Nat.ltb_spec t (length (gin_bins i))) as [Ht|Ht]; [|exact H].
    apply Forall_app. split; [exact H|]. constructor; [|constructor]. split; [exact Ht|]. apply init_good.
  - unfold gadd_node. destruct (gback bins) as [[front b]|] eqn:E; [|exact H].
    destruct (Z.ltb_spec depth 1) as [Hd|Hd]; [exact H|].
    apply gback_some in E. subst bins. apply Forall_app in H. destruct H as [H1 H2]. inversion H2. subst.
    assert (Hg := H3). destruct H3 as [Ht HG].
    destruct (add_node_good i (gs_orient b) ct Hct _ _ (init_d _ _) (init_f _ _) (gs_nodes b) depth cut HG Hd)
      as (ns' & ok & Ea & HG').
    unfold ct in Ea. rewrite Ea.
    destruct ok; apply Forall_app; (split; [exact H1|]); (constructor; [|constructor]); apply bin_good_nodes; assumption.
  - unfold gset_item. destruct (gback bins) as [[front b]|] eqn:E; [|exact H].
    destruct (Nat.ltb_spec x (length (gin_items i))) as [Hx|Hx]; [|exact H].
    match goal with |- match (if ?c then _ else _) with _ => _ end => destruct c eqn:Ec end; [|exact H].
    apply gback_some in E. subst bins. apply Forall_app in H. destruct H as [H1 H2]. inversion H2. subst.
    apply Forall_app. split; [exact H1|]. constructor; [|constructor]. apply bin_good_nodes; [exact H3|].
    destruct H3 as [Ht HG]. apply set_item_good; [exact HG|exact Hx|].
    unfold has_dimensions. apply orb_true_iff in Ec.
    destruct Ec as [Ec|Ec]; apply andb_true_iff in Ec; destruct Ec as [E1 E2];
      apply Z.eqb_eq in E1; apply Z.eqb_eq in E2; [left|right]; auto.
Qed.

Lemma run_good : forall calls bins, Forall bin_good bins ->
  exists bins', grun i bins calls = Some bins' /\ Forall bin_good bins'.
Proof.
  induction calls as [|c calls IH]; intros bins H; simpl.
  - exists bins. auto.
  - pose proof (call_good bins c H) as Hc. destruct (gcall i bins c); [apply IH; exact Hc|apply IH; exact Hc|destruct Hc].
Qed.

(** The bins once [build] has finished them. *)
Definition bin_done (b : GBin) : Prop :=
  (gs_type b < length (gin_bins i))%nat /\
  Inv i (gs_orient b) ct (ginit_nodes (gbin i (gs_type b)) (gs_type b)) (gbase (gbin i (gs_type b))) (gs_nodes b) /\
  forall q, (gbase (gbin i (gs_type b)) <= q < length (gs_nodes b))%nat -> done (gs_orient b) ct (gs_nodes b) q.

Lemma close_done : forall b, bin_good b -> exists b', gclose_bin ct b = Some b' /\ bin_done b'
  /\ gs_type b' = gs_type b /\ gs_copies b' = gs_copies b /\ gs_orient b' = gs_orient b.
Proof.
  intros b [Ht [HI Ho]]. unfold gclose_bin.
  pose proof (iv_base _ _ _ _ _ _ HI) as Hb.
  destruct (gclose_spec i (gs_orient b) ct Hct _ _ (init_f _ _) (init_nochild _ _)
    (length (gs_nodes b)) (gs_nodes b) (length (gs_nodes b) - 1) HI Ho ltac:(lia)) as (ns' & -> & HI' & Hd).
  simpl. eexists. split; [reflexivity|]. split; [split; [exact Ht|split; [exact HI'|exact Hd]]|]. auto.
Qed.

Lemma residual_done : forall b, bin_done b -> bin_done (gresidual_bin b).
Proof.
  intros b [Ht [HI Hd]]. unfold gresidual_bin. cbv zeta. destruct (_ && _); [|split; [exact Ht|split; assumption]].
  pose proof (iv_base _ _ _ _ _ _ HI) as Hb.
  split; [exact Ht|]. cbn [gs_nodes gwith_nodes gs_orient gs_type]. split.
  - apply residual_inv. exact HI.
  - rewrite upd_length. intros q Hq. apply upd_done; [lia|]. apply Hd. exact Hq.
Qed.

Lemma finish_done : forall bins, Forall bin_good bins ->
  exists bins', gfinish_bins i bins = Some bins' /\ Forall bin_done bins' /\ length bins' = length bins.
Proof.
  intros bins H. unfold gfinish_bins.
  assert (G : exists bs, gmapo (gclose_bin ct) bins = Some bs /\ Forall bin_done bs /\ length bs = length bins).
  { induction H as [|b bins Hb H IH]; simpl.
    - exists []. auto.
    - destruct IH as (bs & E & IH1 & IH2). destruct (close_done b Hb) as (b' & E' & Hb' & _).
      rewrite E', E. exists (b' :: bs). split; [reflexivity|]. split; [constructor; assumption|simpl; lia]. }
  destruct G as (bs & E & G1 & G2). fold ct. rewrite E. simpl. eexists. split; [reflexivity|].
  unfold gresidual. destruct (gback bs) as [[front b]|] eqn:Eb; [|auto].
  apply gback_some in Eb. subst bs. apply Forall_app in G1. destruct G1 as [G3 G4]. inversion G4. subst. split.
  - apply Forall_app. split; [exact G3|]. constructor; [|constructor]. apply residual_done. assumption.
  - rewrite app_length in *. simpl in *. exact G2.
Qed.

End Run.

(** ** The plan *)

Lemma usable_same : forall bt, gin_l bt = usable_l bt /\ gin_r bt = usable_r bt /\ gin_b bt = usable_b bt /\ gin_t bt = usable_t bt.
Proof.
  intros bt. unfold gin_l, gin_r, gin_b, gin_t, usable_l, usable_r, usable_b, usable_t, hard, gtrim.
  repeat split;
    match goal with |- context [gt_hard ?x && (0 <? ?y)] => destruct (gt_hard x); simpl; [destruct (Z.ltb_spec 0 y)|] end; lia.
Qed.

Lemma inv_plan : forall i o t ns, 0 <= gp_ct (gin_params i) ->
  Inv i o (gp_ct (gin_params i)) (ginit_nodes (gbin i t) t) (gbase (gbin i t)) ns ->
  guillotine_plan i t o ns (gbase (gbin i t)).
Proof.
  intros i o t ns Hct HI. pose proof (iv_base _ _ _ _ _ _ HI) as Hb.
  constructor.
  - exact Hb.
  - pose proof (iv_at _ _ _ _ _ _ HI) as H. rewrite init_base in H. unfold geo in H.
    destruct (usable_same (gbin i t)) as (<- & <- & <- & <-). inversion H. auto 10.
  - assert (H : geo (gnode ns 0) = geo (gnode (ginit_nodes (gbin i t) t) 0)).
    { destruct (Nat.eq_dec 0 (gbase (gbin i t))) as [E|E].
      - rewrite E. apply (iv_at _ _ _ _ _ _ HI).
      - rewrite (iv_before _ _ _ _ _ _ HI 0) by lia. reflexivity. }
    rewrite init_root in H. unfold geo in H. inversion H. auto 10.
  - intros Hne. pose proof (iv_at _ _ _ _ _ _ HI) as H. rewrite init_base in H. unfold geo in H.
    assert (E : ghas_trims (gbin i t) = true).
    { unfold gbase in Hne. destruct (ghas_trims (gbin i t)); [reflexivity|contradiction]. }
    rewrite E in H. congruence.
  - intros id Hid. rewrite (iv_before _ _ _ _ _ _ HI id) by lia.
    destruct (init_before (gbin i t) t id Hid) as (H1 & H2 & _ & H3). auto.
  - intros id Hid. destruct (iv_father _ _ _ _ _ _ HI id Hid) as (p & H1 & H2 & _ & H3). exists p. auto.
  - intros j k Hj Hk Hne Hf. eapply inv_brothers; eauto using init_d.
  - intros id x Hid [Hf Hx].
    assert (Hbi : (gbase (gbin i t) <= id)%nat).
    { destruct (le_lt_dec (gbase (gbin i t)) id) as [H|H]; [exact H|exfalso].
      rewrite (iv_before _ _ _ _ _ _ HI id H) in *. destruct id as [|id].
      - apply Hf. reflexivity.
      - destruct (init_before (gbin i t) t (S id) ltac:(lia)) as (_ & _ & _ & H3). rewrite H3 in Hx. lia. }
    destruct (iv_items _ _ _ _ _ _ HI id ltac:(lia)) as (H1 & H2 & H3); [lia|exact Hf|].
    rewrite Hx, Nat2Z.id in *. split; [exact H2|]. split; [exact Hbi|]. split; [|exact H3].
    intros k Hk Hfk. destruct (le_lt_dec k (gbase (gbin i t))) as [Hkb|Hkb].
    + assert (E : gn_f (gnode (ginit_nodes (gbin i t) t) k) = Some id).
      { destruct (Nat.eq_dec k (gbase (gbin i t))) as [->|Hne].
        - destruct (geo_eq _ _ (iv_at _ _ _ _ _ _ HI)) as [<- _]. exact Hfk.
        - rewrite <- (iv_before _ _ _ _ _ _ HI k) by lia. exact Hfk. }
      apply init_f in E; [|exact Hkb]. lia.
    + destruct (iv_father _ _ _ _ _ _ HI k ltac:(lia)) as (p & F1 & F2 & F3 & _).
      rewrite Hfk in F1. inversion F1. subst p. rewrite H1 in F3. destruct F3.
Qed.

(** ** Edge-to-edge cuts *)

Section Cut.

Variable i : GInstance.
Variable o : GOrient.
Variable ct : Z.
Hypothesis Hct : 0 <= ct.
Variable init : list GNode.
Variable base : nat.
Hypothesis Hinit_f : forall id p, (id <= base)%nat -> gn_f (gnode init id) = Some p -> (p < id)%nat.
Variable ns : list GNode.
Hypothesis HI : Inv i o ct init base ns.

(** The region of [p] from [s] on. *)
Definition from (p : GNode) (s : Z) : GRect :=
  if vertical_at o (gn_d p + 1) then mkGR s (gn_r p) (gn_b p) (gn_t p) else mkGR (gn_l p) (gn_r p) s (gn_t p).

Lemma from_whole : forall p, from p (father_start o p) = grect p.
Proof. intros p. unfold from, father_start, grect. destruct (vertical_at o (gn_d p + 1)); reflexivity. Qed.

Definition below (id : nat) (D : list nat) : Prop :=
  NoDup D /\ (forall k, In k D <-> (base <= k < length ns)%nat /\ gis_item (gnode ns k) = true /\ anc ns id k)
  /\ cuttable ct (grect (gnode ns id)) (map (fun k => grect (gnode ns k)) D).

Lemma anc_linear : forall a b k, anc ns a k -> anc ns b k -> anc ns a b \/ anc ns b a.
Proof.
  intros a b k Ha. induction Ha as [|p k Hf Ha IH]; intros Hb; [right; exact Hb|].
  inversion Hb as [E|q k' Hf' Hb']; subst.
  - left. eapply anc_step; eassumption.
  - rewrite Hf in Hf'. inversion Hf'. subst q. apply IH. exact Hb'.
Qed.

Lemma brothers_below : forall p c c' k, (base <= p)%nat -> (k < length ns)%nat ->
  gn_f (gnode ns c) = Some p -> gn_f (gnode ns c') = Some p ->
  anc ns c k -> anc ns c' k -> c = c'.
Proof.
  assert (G : forall p c c', (c' < length ns)%nat -> gn_f (gnode ns c) = Some p -> gn_f (gnode ns c') = Some p ->
    (c < length ns)%nat -> anc ns c c' -> c = c').
  { intros p c c' Hc' Hf Hf' Hc A. inversion A as [E|q b F A']; [congruence|subst].
    rewrite Hf' in F. inversion F. subst q.
    assert (c <= p)%nat by (eapply anc_le; eauto; pose proof (inv_desc _ _ _ _ _ Hinit_f _ HI c' p Hc' Hf'); lia).
    pose proof (inv_desc _ _ _ _ _ Hinit_f _ HI c p Hc Hf). lia. }
  intros p c c' k Hp Hk H1 H2 A1 A2.
  assert (c <= k)%nat by (eapply anc_le; eauto). assert (c' <= k)%nat by (eapply anc_le; eauto).
  destruct (anc_linear _ _ _ A1 A2) as [A|A].
  - eapply G; eauto; lia.
  - symmetry. eapply G; eauto; lia.
Qed.

Lemma chain_cut : forall p cs s, (base <= p < length ns)%nat ->
  (forall c, In c cs -> In c (gn_children (gnode ns p))) ->
  chain o ct ns s cs ->
  (forall c, In c cs -> exists D, below c D) -> NoDup cs ->
  exists D, NoDup D
    /\ (forall k, In k D <-> (base <= k < length ns)%nat /\ gis_item (gnode ns k) = true /\ exists c, In c cs /\ anc ns c k)
    /\ cuttable ct (from (gnode ns p) s) (map (fun k => grect (gnode ns k)) D).
Proof.
  intros p cs. induction cs as [|c cs IH]; intros s Hp Hin Hch HD Hnd.
  - exists []. split; [constructor|]. split; [|apply cut_waste].
    intros k. split; [intros []|]. intros (_ & _ & c & [] & _).
  - simpl in Hch. destruct Hch as [Hs Hch]. inversion Hnd as [|x l Hx Hnd']; subst x l.
    destruct (IH (ends o (gnode ns c) + ct) Hp (fun x Hx => Hin x (or_intror Hx)) Hch
      (fun x Hx => HD x (or_intror Hx)) Hnd') as (D2 & N2 & M2 & C2).
    destruct (HD c (or_introl eq_refl)) as (D1 & N1 & M1 & C1).
    assert (Hcc := Hin c (or_introl eq_refl)).
    destruct (iv_children _ _ _ _ _ _ HI p c Hp Hcc) as [Hc Hf].
    destruct (iv_father _ _ _ _ _ _ HI c Hc) as (q & Hf' & _ & _ & Hcut).
    rewrite Hf in Hf'. inversion Hf'. subst q. clear Hf'.
    exists (D1 ++ D2). split; [|split].
    + apply nodup_app_intro; [exact N1|exact N2|].
      intros k K1 K2. apply M1 in K1. apply M2 in K2. destruct K1 as (Kr & _ & A1).
      destruct K2 as (_ & _ & c' & K3 & A2). apply Hx.
      rewrite (brothers_below p c c' k); try assumption; [lia|lia|].
      apply (iv_children _ _ _ _ _ _ HI p c' Hp). apply Hin. right. exact K3.
    + intros k. rewrite in_app_iff, M1, M2. split.
      * intros [(K1 & K2 & K3)|(K1 & K2 & c' & K3 & K4)]; (split; [exact K1|split; [exact K2|]]).
        -- exists c. split; [left; reflexivity|exact K3].
        -- exists c'. split; [right; exact K3|exact K4].
      * intros (K1 & K2 & c' & [<-|K3] & K4); [left; auto|right]. split; [exact K1|]. split; [exact K2|].
        exists c'. auto.
    + rewrite map_app. unfold from in *. unfold grect in C1. unfold cut_from in Hcut. destruct Hcut as [Hd Hcut].
      unfold starts in Hs. unfold ends in C2. rewrite Hd in *.
      destruct (vertical_at o (gn_d (gnode ns p) + 1)).
      * destruct Hcut as (G1 & G2 & G3 & G4 & G5). rewrite G4, G5, Hs in C1.
        apply cut_vertical with (x := gn_r (gnode ns c)); [lia|lia|exact C1|exact C2].
      * destruct Hcut as (G1 & G2 & G3 & G4 & G5). rewrite G4, G5, Hs in C1.
        apply cut_horizontal with (y := gn_t (gnode ns c)); [lia|lia|exact C1|exact C2].
Qed.

Lemma children_nodup : forall p, (base <= p < length ns)%nat -> NoDup (gn_children (gnode ns p)).
Proof.
  intros p Hp.
  assert (G : forall cs s, (forall c, In c cs -> starts o (gnode ns c) < ends o (gnode ns c)) -> chain o ct ns s cs -> NoDup cs).
  { induction cs as [|c cs IH]; intros s Hw Hc; [constructor|]. simpl in Hc. destruct Hc as [H1 H2]. constructor.
    - intros Hin. destruct (chain_pairs o ct Hct ns cs _ (fun x Hx => Hw x (or_intror Hx)) H2) as [_ H3].
      specialize (H3 c Hin). specialize (Hw c (or_introl eq_refl)). lia.
    - eapply IH; [|exact H2]. intros x Hx. apply Hw. right. exact Hx. }
  eapply G; [|apply (iv_chain _ _ _ _ _ _ HI p Hp)].
  intros c Hc. destruct (iv_children _ _ _ _ _ _ HI p c Hp Hc) as [C1 C2].
  destruct (iv_father _ _ _ _ _ _ HI c C1) as (q & C3 & _ & _ & C4). apply cut_from_axis in C4. lia.
Qed.

Lemma below_exists : forall n id, (base <= id < length ns)%nat -> (length ns - id <= n)%nat -> exists D, below id D.
Proof.
  induction n as [|n IH]; intros id Hid Hn; [lia|].
  destruct (gis_item (gnode ns id)) eqn:Eit.
  - exists [id]. assert (Hch : gn_children (gnode ns id) = []).
    { unfold gis_item in Eit. destruct (gn_f (gnode ns id)) eqn:F; [|discriminate].
      apply (iv_items _ _ _ _ _ _ HI id Hid); [apply Z.leb_le in Eit; exact Eit|rewrite F; discriminate]. }
    split; [constructor; [intros []|constructor]|]. split; [|apply cut_keep].
    intros k. split.
    + intros [<-|[]]. split; [exact Hid|]. split; [exact Eit|apply anc_refl].
    + intros (K1 & K2 & K3). left. destruct (anc_child _ _ _ K3) as [E|(c & C1 & C2)]; [exact E|exfalso].
      pose proof (anc_le _ _ _ _ _ Hinit_f _ HI c k C2 ltac:(lia)) as Hck.
      pose proof (inv_desc _ _ _ _ _ Hinit_f _ HI c id ltac:(lia) C1) as Hic.
      destruct (iv_father _ _ _ _ _ _ HI c ltac:(lia)) as (q & Q1 & _ & Q2 & _). rewrite C1 in Q1. inversion Q1. subst q.
      rewrite Hch in Q2. destruct Q2.
  - destruct (chain_cut id (gn_children (gnode ns id)) (father_start o (gnode ns id)) Hid) as (D & N & M & C).
    + auto.
    + apply (iv_chain _ _ _ _ _ _ HI id Hid).
    + intros c Hc. destruct (iv_children _ _ _ _ _ _ HI id c Hid Hc) as [C1 C2].
      apply IH; [lia|]. pose proof (inv_desc _ _ _ _ _ Hinit_f _ HI c id ltac:(lia) C2). lia.
    + apply children_nodup. exact Hid.
    + exists D. split; [exact N|]. rewrite from_whole in C. split; [|exact C].
      intros k. rewrite M. split.
      * intros (K1 & K2 & c & K3 & K4). split; [exact K1|]. split; [exact K2|].
        destruct (iv_children _ _ _ _ _ _ HI id c Hid K3) as [C1 C2].
        eapply anc_trans; [|exact K4]. eapply anc_step; [exact C2|apply anc_refl].
      * intros (K1 & K2 & K3). split; [exact K1|]. split; [exact K2|].
        destruct (anc_child _ _ _ K3) as [E|(c & C1 & C2)]; [subst k; congruence|].
        exists c. split; [|exact C2].
        pose proof (anc_le _ _ _ _ _ Hinit_f _ HI c k C2 ltac:(lia)) as Hck.
        pose proof (inv_desc _ _ _ _ _ Hinit_f _ HI c id ltac:(lia) C1) as Hic.
        destruct (iv_father _ _ _ _ _ _ HI c ltac:(lia)) as (q & Q1 & _ & Q2 & _). rewrite C1 in Q1. inversion Q1. subst q. exact Q2.
Qed.

Lemma filter_seq_map : forall l (P : GNode -> bool),
  filter P l = map (fun k => nth k l gdummy_node) (filter (fun k => P (nth k l gdummy_node)) (seq 0 (length l))).
Proof.
  intros l P. assert (E : l = map (fun k => nth k l gdummy_node) (seq 0 (length l))).
  { clear. induction l as [|a l IH]; [reflexivity|]. simpl. f_equal. rewrite <- seq_shift, map_map. exact IH. }
  rewrite E at 1. generalize (seq 0 (length l)). intros s. clear E. induction s as [|x s IH]; [reflexivity|].
  simpl. destruct (P (nth x l gdummy_node)); simpl; rewrite IH; reflexivity.
Qed.

Hypothesis Hinit_items : forall id, (id < base)%nat -> gis_item (gnode init id) = false.

Lemma items_cuttable : exists L, Permutation L (map grect (item_nodes ns)) /\ cuttable ct (grect (gnode ns base)) L.
Proof.
  pose proof (iv_base _ _ _ _ _ _ HI) as Hb.
  destruct (below_exists (length ns - base) base ltac:(lia) ltac:(lia)) as (D & N & M & C).
  exists (map (fun k => grect (gnode ns k)) D). split; [|exact C].
  unfold item_nodes. rewrite filter_seq_map, map_map. apply Permutation_map.
  apply NoDup_Permutation; [exact N|apply NoDup_filter, seq_NoDup|].
  intros k. rewrite filter_In, in_seq. split.
  - intros Hk. apply M in Hk. destruct Hk as (K1 & K2 & _). split; [lia|exact K2].
  - intros [K1 K2]. assert (Hk : (base <= k)%nat).
    { destruct (le_lt_dec base k) as [H|H]; [exact H|exfalso].
      change (gis_item (gnode ns k) = true) in K2. rewrite (iv_before _ _ _ _ _ _ HI k H), Hinit_items in K2 by exact H.
      discriminate. }
    apply M. split; [lia|]. split; [exact K2|]. eapply anc_base; eauto. lia.
Qed.

End Cut.

Lemma init_items : forall bt t id, (id < gbase bt)%nat -> gis_item (gnode (ginit_nodes bt t) id) = false.
Proof.
  intros bt t id Hid. destruct id as [|id]; [reflexivity|].
  destruct (init_before bt t (S id) ltac:(lia)) as (H1 & _ & _ & H2). unfold gis_item. rewrite H1, H2. reflexivity.
Qed.

(** ** What an accepted call adds *)

Definition kept (ns ns' : list GNode) : Prop :=
  (length ns <= length ns')%nat
  /\ forall id, (id < length ns)%nat -> geo (gnode ns' id) = geo (gnode ns id) /\ gn_item (gnode ns' id) = gn_item (gnode ns id).

Lemma kept_refl : forall ns, kept ns ns.
Proof. intros ns. split; [lia|]. auto. Qed.

Lemma kept_trans : forall a b c, kept a b -> kept b c -> kept a c.
Proof.
  intros a b c [L1 H1] [L2 H2]. split; [lia|]. intros id Hid.
  destruct (H1 id Hid) as [A B]. destruct (H2 id ltac:(lia)) as [C D]. split; congruence.
Qed.

Lemma kept_push : forall ns p c, kept ns (gpush_child ns p c).
Proof.
  intros ns p c. split; [rewrite gpush_length; lia|]. intros id Hid.
  destruct (le_lt_dec (length ns) p) as [H|H].
  - unfold gnode, gpush_child. rewrite upd_oob by exact H. rewrite app_nth1 by exact Hid. auto.
  - rewrite gpush_old by assumption. destruct (Nat.eqb p id); auto.
Qed.

Lemma kept_finish : forall ct ns p, kept ns (gfinish ct ns p).
Proof.
  intros ct ns p. unfold gfinish. destruct (rev (gn_children (gnode ns p))); [apply kept_refl|].
  destruct (_ <? _); [apply kept_push|]. destruct (_ <? _); [apply kept_push|apply kept_refl].
Qed.

Lemma kept_climb : forall fuel ct ns p depth ns' p', gclimb fuel ct ns p depth = Some (ns', p') ->
  kept ns ns' /\ gn_d (gnode ns' p') = depth - 1.
Proof.
  induction fuel as [|fuel IH]; intros ct ns p depth ns' p' H; simpl in H.
  - destruct (Z.eqb_spec (gn_d (gnode ns p)) (depth - 1)) as [E|E]; [|discriminate]. inversion H. subst.
    split; [apply kept_refl|exact E].
  - destruct (Z.eqb_spec (gn_d (gnode ns p)) (depth - 1)) as [E|E].
    + inversion H. subst. split; [apply kept_refl|exact E].
    + destruct (gn_f (gnode (gfinish ct ns p) p)) as [q|]; [|discriminate].
      apply IH in H. destruct H as [H1 H2]. split; [|exact H2]. eapply kept_trans; [apply kept_finish|exact H1].
Qed.

Lemma add_node_added : forall ct o ns depth cut ns', gadd_node_in ct o ns depth cut = Some (ns', true) ->
  (length ns < length ns')%nat
  /\ (forall id, (id < length ns)%nat -> geo (gnode ns' id) = geo (gnode ns id)
        /\ (gn_item (gnode ns' id) = gn_item (gnode ns id)
            \/ (gn_item (gnode ns' id) = -2 /\ gn_item (gnode ns id) < 0)))
  /\ gn_d (gnode ns' (length ns' - 1)) = depth
  /\ ends o (gnode ns' (length ns' - 1)) = cut
  /\ gn_item (gnode ns' (length ns' - 1)) = -1.
Proof.
  intros ct o ns depth cut ns' H. unfold gadd_node_in in H.
  destruct (_ <? depth); [discriminate|].
  destruct (gclimb (length ns) ct ns (length ns - 1) depth) as [[ns1 p]|] eqn:E; [|discriminate].
  apply kept_climb in E. destruct E as [[K1 K2] Hd].
  set (is_root := match gn_f (gnode ns1 p) with None => true | Some _ => false end) in *.
  destruct (negb is_root && (0 <=? gn_item (gnode ns1 p))) eqn:Eitem; [discriminate|].
  set (ns2 := if is_root then ns1 else upd p (fun n => gn_with_item n (-2)) ns1) in *.
  assert (HL : length ns2 = length ns1) by (unfold ns2; destruct is_root; [reflexivity|apply upd_length]).
  assert (HK : forall id, (id < length ns)%nat -> geo (gnode ns2 id) = geo (gnode ns id)
    /\ (gn_item (gnode ns2 id) = gn_item (gnode ns id)
        \/ (gn_item (gnode ns2 id) = -2 /\ gn_item (gnode ns id) < 0))).
  { intros id Hid. destruct (K2 id Hid) as [A B]. unfold ns2. destruct is_root eqn:R; [auto|].
    destruct (le_lt_dec (length ns1) p) as [Hp|Hp]; [rewrite upd_oob by exact Hp; auto|].
    rewrite gnode_upd by exact Hp. destruct (Nat.eqb_spec p id) as [->|]; [|auto].
    split; [exact A|]. right. simpl in *. split; [reflexivity|]. apply Z.leb_gt in Eitem. lia. }
  assert (HP : forall c, gn_d c = depth -> ends o c = cut -> gn_item c = -1 -> ns' = gpush_child ns2 p c ->
    (length ns < length ns')%nat
    /\ (forall id, (id < length ns)%nat -> geo (gnode ns' id) = geo (gnode ns id)
        /\ (gn_item (gnode ns' id) = gn_item (gnode ns id)
            \/ (gn_item (gnode ns' id) = -2 /\ gn_item (gnode ns id) < 0)))
    /\ gn_d (gnode ns' (length ns' - 1)) = depth
    /\ ends o (gnode ns' (length ns' - 1)) = cut
    /\ gn_item (gnode ns' (length ns' - 1)) = -1).
  { intros c C1 C2 C3 ->. rewrite gpush_length. split; [lia|]. split.
    - intros id Hid. destruct (kept_push ns2 p c) as [_ KP]. destruct (KP id ltac:(lia)) as [A B].
      rewrite A, B. apply HK. exact Hid.
    - simpl. rewrite Nat.sub_0_r, gpush_new. auto. }
  cbv zeta in H. rewrite vertical_same in H.
  assert (Hd' : gn_d (gnode ns1 p) + 1 = depth) by lia.
  destruct (vertical_at o depth) eqn:V.
  - destruct (cut <=? _); [discriminate|]. destruct (_ <? cut); [discriminate|].
    injection H as H1. refine (HP _ _ _ _ (eq_sym H1)); [exact Hd'| |reflexivity].
    unfold ends. cbn [gn_d gn_r gn_t]. rewrite Hd', V. reflexivity.
  - destruct (cut <=? _); [discriminate|]. destruct (_ <? cut); [discriminate|].
    injection H as H1. refine (HP _ _ _ _ (eq_sym H1)); [exact Hd'| |reflexivity].
    unfold ends. cbn [gn_d gn_r gn_t]. rewrite Hd', V. reflexivity.
Qed.
