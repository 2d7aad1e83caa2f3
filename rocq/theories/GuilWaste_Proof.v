(** * The items and the residual of a plan fit in the plate *)

From Coq Require Import List ZArith QArith Bool Lia Arith.
From Verif Require Import Util Common_Model OneDim_Model Dff_Axis Geom Guil_Model Guil_Spec Guil_Proof GuilPlan_Proof.
From Verif Require Import GuilSol_Model GuilSol_Spec GuilSol_Proof GuilSolCore_Proof.
Import ListNotations.
Open Scope Z_scope.

(** ** Areas *)

Lemma rects_area : forall R L, gn_l R <= gn_r R -> gn_b R <= gn_t R ->
  (forall n, In n L -> gn_l R <= gn_l n /\ gn_l n <= gn_r n /\ gn_r n <= gn_r R
     /\ gn_b R <= gn_b n /\ gn_b n <= gn_t n /\ gn_t n <= gn_t R) ->
  ForallOrdPairs (Guil_Spec.apart 0) L ->
  zsum garea_of L <= garea_of R.
Proof.
  intros R L Hw Hh Hin Hd.
  set (ax := mkAxis GNode (fun n => gn_l n - gn_l R) gwidth_of (gwidth_of R)).
  set (ay := mkAxis GNode (fun n => gn_b n - gn_b R) gheight_of (gheight_of R)).
  pose proof (volume_bound GNode [ax; ay] L) as HV.
  assert (E : zsum garea_of L = zsum (fun a => prod (map (fun x => ax_len GNode x a) [ax; ay])) L).
  { apply zsum_ext. intros n _. cbn [map ax_len prod fold_right ax ay]. unfold garea_of. lia. }
  rewrite E. unfold garea_of. cbn [map ax_cap prod fold_right ax ay] in HV. rewrite Z.mul_1_r in HV. apply HV.
  - intros a n [<-|[<-|[]]] Hn; specialize (Hin n Hn); unfold inside, ax, ay, gwidth_of, gheight_of;
      cbn [ax_pos ax_len ax_cap]; lia.
  - unfold gwidth_of, gheight_of. intros a [<-|[<-|[]]]; cbn [ax_cap ax ay]; unfold gwidth_of, gheight_of; lia.
  - clear - Hd. induction Hd as [|n L Hn Hd IH]; constructor; [|exact IH].
    apply Forall_forall. intros m Hm. rewrite Forall_forall in Hn. specialize (Hn m Hm).
    unfold Guil_Spec.apart in Hn. unfold separated, Geom.apart.
    destruct Hn as [H|[H|[H|H]]].
    + exists ax. split; [left; reflexivity|]. unfold ax, gwidth_of; cbn [ax_pos ax_len]. lia.
    + exists ax. split; [left; reflexivity|]. unfold ax, gwidth_of; cbn [ax_pos ax_len]. lia.
    + exists ay. split; [right; left; reflexivity|]. unfold ay, gheight_of; cbn [ax_pos ax_len]. lia.
    + exists ay. split; [right; left; reflexivity|]. unfold ay, gheight_of; cbn [ax_pos ax_len]. lia.
Qed.

Lemma ord_pairs_map : forall (A : Type) (R : A -> A -> Prop) (f : nat -> A) l, NoDup l ->
  (forall a c, In a l -> In c l -> a <> c -> R (f a) (f c)) -> ForallOrdPairs R (map f l).
Proof.
  intros A R f l H. induction H as [|a l Ha H IH]; intros HR; cbn [map]; constructor.
  - apply Forall_forall. intros y Hy. apply in_map_iff in Hy. destruct Hy as (c & <- & Hc).
    apply HR; [left; reflexivity|right; exact Hc|]. intros ->. contradiction.
  - apply IH. intros x y Hx Hy. apply HR; right; assumption.
Qed.

(** Nodes that are not cut. *)
Section Leaves.

Variable i : GInstance.
Variable o : GOrient.
Variable ct : Z.
Hypothesis Hct : 0 <= ct.
Variable init : list GNode.
Variable base : nat.
Hypothesis Hinit_f : forall id p, (id <= base)%nat -> gn_f (gnode init id) = Some p -> (p < id)%nat.
Variable ns : list GNode.
Hypothesis HI : Inv i o ct init base ns.

Definition leaf (id : nat) : Prop := (base <= id < length ns)%nat /\ forall q, (q < length ns)%nat -> gn_f (gnode ns q) <> Some id.

Lemma leaves_apart : forall a c, leaf a -> leaf c -> a <> c -> Guil_Spec.apart ct (gnode ns a) (gnode ns c).
Proof.
  assert (G : forall a c, leaf a -> (a < c < length ns)%nat -> Guil_Spec.apart ct (gnode ns a) (gnode ns c)).
  { intros a c [Ha Hl] Hac.
    destruct (anc_or_apart _ _ _ Hct _ _ Hinit_f _ HI c a ltac:(lia) ltac:(lia) ltac:(lia)) as [A|A]; [exfalso|exact A].
    destruct (anc_child _ _ _ A) as [->|(q & Q1 & Q2)]; [lia|].
    pose proof (anc_le _ _ _ _ _ Hinit_f _ HI q c Q2 ltac:(lia)) as Hq. apply (Hl q); [lia|exact Q1]. }
  intros a c Ha Hc Hne. destruct (Nat.lt_trichotomy a c) as [H|[H|H]]; [apply G; [exact Ha|destruct Hc; lia]|contradiction|].
  assert (A : Guil_Spec.apart ct (gnode ns c) (gnode ns a)) by (apply G; [exact Hc|destruct Ha; lia]).
  unfold Guil_Spec.apart in *. tauto.
Qed.

(** Extents are not negative below a usable part of non-negative extents. *)
Hypothesis Hbw : gn_l (gnode ns base) <= gn_r (gnode ns base).
Hypothesis Hbh : gn_b (gnode ns base) <= gn_t (gnode ns base).

Lemma extents : forall id, (base <= id < length ns)%nat ->
  gn_l (gnode ns id) <= gn_r (gnode ns id) /\ gn_b (gnode ns id) <= gn_t (gnode ns id).
Proof.
  induction id as [id IH] using lt_wf_ind. intros Hid.
  destruct (Nat.eq_dec id base) as [->|Hne]; [auto|].
  destruct (iv_father _ _ _ _ _ _ HI id ltac:(lia)) as (p & _ & H2 & _ & H4).
  specialize (IH p ltac:(lia) ltac:(lia)). destruct H4 as [_ H4]. destruct (vertical_at _ _); lia.
Qed.

Lemma leaves_area : forall ids, NoDup ids -> (forall id, In id ids -> leaf id) ->
  zsum (fun id => garea_of (gnode ns id)) ids <= garea_of (gnode ns base).
Proof.
  intros ids Hn Hl.
  replace (zsum (fun id => garea_of (gnode ns id)) ids) with (zsum garea_of (map (gnode ns) ids))
    by apply zsum_map.
  apply rects_area; [exact Hbw|exact Hbh| |].
  - intros n H. apply in_map_iff in H. destruct H as (id & <- & Hid). destruct (Hl id Hid) as [L _].
    pose proof (anc_inside _ _ _ _ _ Hinit_f _ HI base id (anc_base _ _ _ _ _ _ HI id L) (le_n _) ltac:(lia)).
    pose proof (extents id L). lia.
  - apply ord_pairs_map; [exact Hn|]. intros a c Ha Hc Hne.
    pose proof (leaves_apart a c (Hl a Ha) (Hl c Hc) Hne) as A. unfold Guil_Spec.apart in *. lia.
Qed.

End Leaves.

(** ** Where the residual is *)

Definition nores (ns : list GNode) : Prop := Forall (fun n => gn_item n <> -3) ns.

Lemma nores_upd : forall ns p f, nores ns -> (forall n, gn_item n <> -3 -> gn_item (f n) <> -3) -> nores (upd p f ns).
Proof.
  intros ns p f H Hf. apply Forall_forall. intros n Hn. unfold nores in H. rewrite Forall_forall in H.
  destruct (In_nth _ _ gdummy_node Hn) as (k & K1 & <-). rewrite upd_length in K1.
  destruct (Nat.eq_dec k p) as [->|Hne].
  - rewrite nth_upd_same by exact K1. apply Hf. apply H. apply nth_In. exact K1.
  - rewrite nth_upd_other by auto. apply H. apply nth_In. exact K1.
Qed.

Lemma nores_push : forall ns p c, nores ns -> gn_item c <> -3 -> nores (gpush_child ns p c).
Proof.
  intros ns p c H Hc. unfold gpush_child. apply Forall_app. split; [|constructor; [exact Hc|constructor]].
  apply nores_upd; [exact H|]. intros n Hn. exact Hn.
Qed.

Lemma nores_finish : forall ct ns p, nores ns -> nores (gfinish ct ns p).
Proof.
  intros ct ns p H. unfold gfinish. cbv zeta. destruct (rev _); [exact H|].
  destruct (_ <? _); [apply nores_push; [exact H|discriminate]|].
  destruct (_ <? _); [apply nores_push; [exact H|discriminate]|exact H].
Qed.

Lemma nores_climb : forall fuel ct ns p depth ns' p', nores ns -> gclimb fuel ct ns p depth = Some (ns', p') -> nores ns'.
Proof.
  induction fuel as [|fuel IH]; intros ct ns p depth ns' p' H E; simpl in E; destruct (_ =? _); try (injection E as <- <-; exact H); [discriminate|].
  destruct (gn_f _) as [q|]; [|discriminate]. apply (IH _ _ _ _ _ _ (nores_finish _ _ _ H) E).
Qed.

Lemma nores_close : forall fuel ct ns p ns', nores ns -> gclose fuel ct ns p = Some ns' -> nores ns'.
Proof.
  induction fuel as [|fuel IH]; intros ct ns p ns' H E; simpl in E; [discriminate|].
  destruct (gn_f _) as [q|]; [|injection E as <-; apply nores_finish; exact H].
  apply (IH _ _ _ _ (nores_finish _ _ _ H) E).
Qed.

Lemma nores_add : forall ct o ns depth cut ns' ok, nores ns -> gadd_node_in ct o ns depth cut = Some (ns', ok) -> nores ns'.
Proof.
  intros ct o ns depth cut ns' ok H E. unfold gadd_node_in in E. cbv zeta in E.
  destruct (_ <? depth); [injection E as <- _; exact H|].
  destruct (gclimb _ _ _ _ _) as [[m p]|] eqn:Ec; [|discriminate]. pose proof (nores_climb _ _ _ _ _ _ _ H Ec) as Hm.
  destruct (_ && _); [injection E as <- _; exact Hm|].
  match type of E with context [gvertical o depth] =>
    match type of E with context [gpush_child ?x p _] => set (m' := x) in E end end.
  assert (Hm' : nores m').
  { unfold m'. destruct (match gn_f (gnode m p) with None => true | Some _ => false end); [exact Hm|].
    apply nores_upd; [exact Hm|]. intros n _. simpl. discriminate. }
  clearbody m'.
  destruct (gvertical o depth); (destruct (cut <=? _); [injection E as <- _; exact Hm'|]);
    (destruct (_ <? cut); [injection E as <- _; exact Hm'|]);
    injection E as <- _; (apply nores_push; [exact Hm'|discriminate]).
Qed.

Lemma nores_init : forall bt t, nores (ginit_nodes bt t).
Proof.
  intros bt t. unfold ginit_nodes. constructor; [simpl; lia|]. destruct (ghas_trims bt); [|constructor].
  apply Forall_app. split; [|constructor; [discriminate|constructor]].
  apply Forall_forall. intros n Hn. unfold gtrims in Hn. cbv zeta in Hn. rewrite !in_app_iff in Hn.
  assert (G : forall (c : bool) m, In n (if c then [m] else []) -> n = m).
  { intros [|] m H; [destruct H as [<-|[]]; reflexivity|destruct H]. }
  repeat (destruct Hn as [Hn|Hn]; [apply G in Hn; subst n; discriminate|]). apply G in Hn. subst n. discriminate.
Qed.

Lemma nores_call : forall i bins c, Forall (fun b => nores (gs_nodes b)) bins ->
  match gcall i bins c with GOk bins' | GThrow bins' => Forall (fun b => nores (gs_nodes b)) bins' | GUndef => True end.
Proof.
  intros i bins c H.
  assert (W : forall front b ns, bins = front ++ [b] -> (nores (gs_nodes b) -> nores ns) ->
     Forall (fun b => nores (gs_nodes b)) (front ++ [gwith_nodes b ns])).
  { intros front b ns E Hn. rewrite E in H. apply Forall_app in H. destruct H as [H1 H2]. inversion H2. subst.
    apply Forall_app. split; [exact H1|]. constructor; [|constructor]. apply Hn. assumption. }
  destruct c as [t copies o|depth cut|x]; simpl.
  - unfold gadd_bin. destruct (Nat.ltb _ _); [|exact H]. apply Forall_app. split; [exact H|]. constructor; [|constructor].
    apply nores_init.
  - unfold gadd_node. destruct (gback bins) as [[front b]|] eqn:Eb; [|exact H]. apply gback_some in Eb.
    destruct (depth <? 1); [exact H|]. destruct (gadd_node_in _ _ _ _ _) as [[ns [|]]|] eqn:E; [| |exact I];
      (apply W; [exact Eb|]; intros Hn; eapply nores_add; eassumption).
  - unfold gset_item. destruct (gback bins) as [[front b]|] eqn:Eb; [|exact H]. apply gback_some in Eb. cbv zeta.
    destruct (Nat.ltb _ _); [|exact H]. destruct (_ || _); [|exact H]. apply W; [exact Eb|]. intros Hn.
    apply nores_upd; [exact Hn|]. intros n _. simpl. lia.
Qed.

Lemma nores_run : forall i calls bins bins', Forall (fun b => nores (gs_nodes b)) bins -> grun i bins calls = Some bins' ->
  Forall (fun b => nores (gs_nodes b)) bins'.
Proof.
  intros i calls. induction calls as [|c calls IH]; intros bins bins' H E; cbn [grun] in E; [injection E as <-; exact H|].
  pose proof (nores_call i bins c H) as F. destruct (gcall i bins c); [eapply IH; eassumption|eapply IH; eassumption|discriminate].
Qed.

(** The residual of a built bin is its last node, of depth 1. *)
Definition reslast (ns : list GNode) : Prop :=
  forall id, (id < length ns)%nat -> gn_item (gnode ns id) = -3 -> id = (length ns - 1)%nat /\ gn_d (gnode ns id) = 1.

Lemma nores_last : forall ns, nores ns -> reslast ns.
Proof.
  intros ns H id Hid E. exfalso. unfold nores in H. rewrite Forall_forall in H. apply (H (gnode ns id)); [apply nth_In; exact Hid|exact E].
Qed.

Lemma finish_residual : forall i bins bins', Forall (fun b => nores (gs_nodes b)) bins -> gfinish_bins i bins = Some bins' ->
  exists front, (forall b, In b front -> nores (gs_nodes b)) /\
    (bins' = front \/ exists b, bins' = front ++ [b] /\ reslast (gs_nodes b)).
Proof.
  intros i bins bins' H E. unfold gfinish_bins in E.
  destruct (gmapo (gclose_bin (gp_ct (gin_params i))) bins) as [bs|] eqn:Em; [|discriminate]. injection E as <-.
  assert (G : Forall (fun b => nores (gs_nodes b)) bs).
  { clear - H Em. revert bs Em. induction H as [|b bins Hb H IH]; intros bs Em; cbn [gmapo] in Em; [injection Em as <-; constructor|].
    destruct (gclose_bin _ b) as [b'|] eqn:Eb; [|discriminate]. destruct (gmapo _ bins) as [r|]; [|discriminate]. injection Em as <-.
    constructor; [|apply IH; reflexivity]. unfold gclose_bin in Eb. destruct (gclose _ _ _ _) as [ns|] eqn:Ec; [|discriminate].
    injection Eb as <-. eapply nores_close; eassumption. }
  unfold gresidual. destruct (gback bs) as [[front b]|] eqn:Eb.
  - apply gback_some in Eb. subst bs. apply Forall_app in G. destruct G as [G1 G2]. inversion G2. subst.
    exists front. split; [apply Forall_forall; exact G1|]. right. eexists. split; [reflexivity|].
    unfold gresidual_bin. cbv zeta. destruct (_ && _) eqn:Ea; [|apply nores_last; assumption].
    apply andb_true_iff in Ea. destruct Ea as [_ Ed]. apply Z.eqb_eq in Ed.
    intros id Hid Eid. cbn [gs_nodes gwith_nodes] in *. rewrite upd_length in *.
    destruct (Nat.eq_dec id (length (gs_nodes b) - 1)) as [->|Hne].
    + split; [reflexivity|]. unfold gnode in *. rewrite nth_upd_same by exact Hid. exact Ed.
    + exfalso. unfold gnode in Eid. rewrite nth_upd_other in Eid by auto.
      pose proof (nores_last _ H2 id Hid Eid). lia.
  - exists bs. split; [apply Forall_forall; exact G|]. left. reflexivity.
Qed.

(** ** The waste of a bin *)

(** Plates without soft trims, whose hard trims leave something. *)
Definition gplain (bt : GBinType) : Prop :=
  (forall t, In t [gb_left bt; gb_right bt; gb_bottom bt; gb_top bt] -> 0 <= gt_length t /\ (gt_hard t = true \/ gt_length t = 0))
  /\ usable_l bt <= usable_r bt /\ usable_b bt <= usable_t bt.

Lemma plain_area : forall bt, gplain bt -> gb_area bt = (usable_r bt - usable_l bt) * (usable_t bt - usable_b bt).
Proof.
  intros bt [H _]. unfold gb_area, usable_l, usable_r, usable_b, usable_t.
  assert (G : forall t, In t [gb_left bt; gb_right bt; gb_bottom bt; gb_top bt] -> hard t = gt_length t).
  { intros t Ht. destruct (H t Ht) as [H1 [H2|H2]]; unfold hard; [rewrite H2|destruct (gt_hard t)]; lia. }
  rewrite !G by (simpl; tauto). ring.
Qed.

Lemma zsum_filter_split : forall (A : Type) (f : A -> Z) (P Q : A -> bool) l, (forall x, In x l -> P x = true -> Q x = false) ->
  zsum f (filter P l) + zsum f (filter Q l) = zsum f (filter (fun x => P x || Q x) l).
Proof.
  intros A f P Q l. induction l as [|x l IH]; intros H; [reflexivity|]. cbn [filter].
  specialize (IH (fun y Hy => H y (or_intror Hy))). specialize (H x (or_introl eq_refl)).
  destruct (P x) eqn:EP; cbn [orb]; [rewrite (H eq_refl), !zsum_cons; lia|].
  destruct (Q x); rewrite ?zsum_cons; lia.
Qed.

Lemma bin_area : forall i b, 0 <= gp_ct (gin_params i) -> bin_done i b -> reslast (gs_nodes b) -> gplain (gbin i (gs_type b)) ->
  zsum (fun x => gi_w (gitem i x) * gi_h (gitem i x)) (gv_items (gview_bin b)) + gresidual_area (gs_nodes b)
  <= gb_area (gbin i (gs_type b)).
Proof.
  intros i b Hct (Ht & HI & Hd) HR HP. pose proof (inv_plan i _ _ _ Hct HI) as HG.
  set (ns := gs_nodes b) in *. set (base := gbase (gbin i (gs_type b))) in *.
  pose proof (gp_usable _ _ _ _ _ HG) as (U0 & U1 & U2 & U3 & U4).
  assert (E : zsum (fun x => gi_w (gitem i x) * gi_h (gitem i x)) (gv_items (gview_bin b)) = zsum garea_of (item_nodes ns)).
  { unfold gv_items, gitems_of. cbn [gv_nodes gview_bin]. fold ns. rewrite zsum_map. apply zsum_ext. intros n Hn.
    unfold item_nodes in Hn. apply filter_In in Hn. destruct Hn as [Hn Hh].
    destruct (In_nth _ _ gdummy_node Hn) as (id & H1 & H2). unfold gis_item in Hh.
    destruct (gn_f n) eqn:Ef; [|discriminate]. apply Z.leb_le in Hh.
    destruct (gp_items _ _ _ _ _ HG id (Z.to_nat (gn_item n)) H1) as (_ & _ & _ & HD).
    { split; [change (gnode ns id = n) in H2; rewrite H2, Ef; discriminate|change (gnode ns id = n) in H2; rewrite H2; lia]. }
    change (gnode ns id = n) in H2. rewrite H2 in HD. unfold has_dimensions, garea_of, gwidth_of, gheight_of in *.
    destruct HD as [[-> ->]|[-> ->]]; ring. }
  rewrite E. unfold gresidual_area, item_nodes. rewrite zsum_filter_split.
  2:{ intros n _ Hn. unfold gis_item in Hn. destruct (gn_f n); [|discriminate]. apply Z.leb_le in Hn. apply Z.eqb_neq. lia. }
  rewrite filter_seq_map, zsum_map.
  rewrite (plain_area _ HP). rewrite <- U1, <- U2, <- U3, <- U4.
  change ((gn_r (gnode ns base) - gn_l (gnode ns base)) * (gn_t (gnode ns base) - gn_b (gnode ns base))) with (garea_of (gnode ns base)).
  apply (leaves_area _ _ _ Hct _ _ (init_f _ _) _ HI).
  - fold base. rewrite U1, U2. apply HP.
  - fold base. rewrite U3, U4. apply HP.
  - apply NoDup_filter, seq_NoDup.
  - intros id Hid. apply filter_In in Hid. destruct Hid as [H1 H2]. apply in_seq in H1.
    change (nth id ns gdummy_node) with (gnode ns id) in H2. apply orb_true_iff in H2. destruct H2 as [H2|H2].
    + unfold gis_item in H2. destruct (gn_f (gnode ns id)) eqn:Ef; [|discriminate]. apply Z.leb_le in H2.
      destruct (gp_items _ _ _ _ _ HG id (Z.to_nat (gn_item (gnode ns id))) ltac:(lia)) as (_ & G1 & G2 & _).
      { split; [rewrite Ef; discriminate|lia]. }
      split; [fold base in G1; lia|exact G2].
    + apply Z.eqb_eq in H2. destruct (HR id ltac:(lia) H2) as [-> D1].
      assert (Hb : (base < length ns - 1)%nat) by (eapply plan_deep; [exact HG|lia|lia]).
      split; [lia|]. intros q Hq Hf.
      destruct (le_lt_dec base q) as [Hbq|Hbq].
      * pose proof (inv_desc _ _ _ _ _ (init_f _ _) _ HI q _ Hq Hf). lia.
      * pose proof (inv_desc _ _ _ _ _ (init_f _ _) _ HI q _ Hq Hf). lia.
Qed.
