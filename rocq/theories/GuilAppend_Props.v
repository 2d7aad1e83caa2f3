(** * Appending bins to a guillotine solution: property C53 *)

From Coq Require Import List ZArith QArith Bool Lia Arith.
From Verif Require Import Util Common_Model Common_Spec Common_Proof OneDim_Model OneDim_Order Guil_Model Guil_Spec Guil_Proof GuilPlan_Proof Guil_Props.
From Verif Require Import GuilSol_Model GuilSol_Spec GuilSol_Proof GuilSolCore_Proof GuilWaste_Proof GuilSol_Props.
From Verif Require Import GuilAppend_Spec GuilAppend_Proof.
Import ListNotations.
Open Scope Z_scope.

(** The solutions a user can obtain: the empty solution, a built one, and what
    appending a bin of another solution gives. *)
Inductive greach : GInstance -> GCallback -> GSolution -> Prop :=
| gr_new : forall i cb, greach i cb (gsol_new i)
| gr_built : forall i cb calls bins s, gready i calls -> grun i [] calls = Some bins -> gbuild i cb bins = GDone s ->
    greach i cb s
| gr_append : forall i cb s j cbj source pos copies bts its v s',
    greach i cb s -> greach j cbj source -> gready i [] -> 0 <= copies ->
    nth_error (gview (gs_core source)) pos = Some v -> gfits j i bts its v ->
    gappend_bin i cb s source pos copies bts its = GDone s' -> greach i cb s'.

Lemma reach_state : forall i cb s, greach i cb s -> exists hs, GApp i cb hs s.
Proof.
  intros i cb s H. induction H as [i cb|i cb calls bins s HR E EB|i cb s j cbj source pos copies bts its v s' H1 [hs IH1] H2 [hs0 IH2] HR Hc Hp HF E].
  - exists []. pose proof (gstate_new i cb []) as S. change (mkGS (gwith_bins (gs_core (gsol_new i)) []) (gs_callback_ok (gsol_new i)) (gs_feasible (gsol_new i)))
      with (gsol_new i) in S. destruct S as [S1 S2 S3 S4 S5 S6]. constructor; try assumption.
    + intros X. contradiction X. reflexivity.
    + rewrite S6. split; intros [X Y]; (split; [exact X|]); auto.
    + reflexivity.
    + intros v [].
  - destruct (build_state i cb calls bins HR E) as (bins' & EF & HS). rewrite EB in HS. destruct HS as (HS & V & _).
    exists (map gview_bin bins'). destruct HR as [Hct Hwf Hends Hcosts HK].
    pose proof (built_ok i calls bins bins' Hct HK E EF) as HB.
    destruct (run_good i Hct calls [] (Forall_nil _)) as (bins0 & E0 & HG). rewrite E in E0. injection E0 as <-.
    destruct (finish_done i Hct bins HG) as (bins1 & E1 & HD & _). rewrite EF in E1. injection E1 as <-.
    rewrite Forall_forall in HD.
    destruct (finish_residual i bins bins' (nores_run i calls [] bins (Forall_nil _) E) EF) as (front & F1 & F2).
    assert (HRes : forall b, In b bins' -> reslast (gs_nodes b)).
    { intros b Hb. destruct F2 as [->|(b0 & -> & F2)]; [apply nores_last, F1; exact Hb|].
      apply in_app_or in Hb. destruct Hb as [Hb|[<-|[]]]; [apply nores_last, F1; exact Hb|exact F2]. }
    assert (HSet : forall l, (forall b, In b l -> In b front) -> map gsettle_view (map gview_bin l) = map gview_bin l).
    { intros l Hl. rewrite map_map. apply map_ext_in. intros b Hb. unfold gsettle_view, gview_bin. cbn [gv_type gv_copies gv_orient gv_nodes].
      f_equal. apply settle_nores. apply F1, Hl, Hb. }
    constructor.
    + apply HS.
    + apply HS.
    + apply (gst_waste _ _ _ _ HS).
    + intros Hne. rewrite (gst_cb _ _ _ _ HS). destruct (map gview_bin bins'); [contradiction Hne; reflexivity|reflexivity].
    + rewrite (gst_feasible _ _ _ _ HS). split; intros [X Y]; (split; [exact X|]); [right; exact Y|].
      destruct Y as [Y|Y]; [|exact Y]. rewrite (gst_cb _ _ _ _ HS), Y. reflexivity.
    + rewrite V. destruct F2 as [E2|(b0 & E2 & _)].
      * destruct (exists_last_or_nil _ bins') as [->|(l & b & E3)]; [reflexivity|]. rewrite E3, map_app. cbn [map]. rewrite shown_snoc.
        rewrite HSet; [reflexivity|]. intros b' Hb'. rewrite <- E2, E3. apply in_or_app. left. exact Hb'.
      * rewrite E2, map_app. cbn [map]. rewrite shown_snoc, HSet; [reflexivity|auto].
    + intros v Hv. apply in_map_iff in Hv. destruct Hv as (b & <- & Hb). split; [apply HB; exact Hb|]. split; [apply HRes; exact Hb|].
      destruct (HD b Hb) as [_ [HI _]]. eapply inv_kids. exact HI.
  - destruct HR as [_ Hwf Hends Hcosts _].
    destruct (append_state j i cb cbj Hwf Hends Hcosts hs s hs0 source pos copies bts its v IH1 IH2 Hc Hp HF) as (v' & _ & HA).
    rewrite E in HA. eexists. exact HA.
Qed.

(** ** C53: appending *)

(** [append_bin] shows the bins it had, the last one without residual any more,
    then the copy of the bin; it is always defined, and ends the process only on
    a too small waste of the copied bin. *)
Theorem C53_append_bin : forall i cb s j cbj source pos copies bts its v,
  greach i cb s -> greach j cbj source -> gready i [] -> 0 <= copies ->
  nth_error (gview (gs_core source)) pos = Some v -> gfits j i bts its v ->
  exists v', gview_copy bts its copies v v' /\
  match gappend_bin i cb s source pos copies bts its with
  | GDone s' => gview (gs_core s') = map gsettle_view (gview (gs_core s)) ++ [v']
  | GExit => ~ gwastes_large i v'
  | GBad => False
  end.
Proof.
  intros i cb s j cbj source pos copies bts its v H1 H2 [_ Hwf Hends Hcosts _] Hc Hp HF.
  destruct (reach_state _ _ _ H1) as [hs A1]. destruct (reach_state _ _ _ H2) as [hs0 A2].
  destruct (append_state j i cb cbj Hwf Hends Hcosts hs s hs0 source pos copies bts its v A1 A2 Hc Hp HF) as (v' & C & HA).
  exists v'. split; [exact C|]. destruct (gappend_bin _ _ _ _ _ _ _ _) as [s'| |]; [|exact HA|exact HA].
  rewrite (ap_view _ _ _ _ HA), (ap_view _ _ _ _ A1), shown_snoc, settle_shown. reflexivity.
Qed.
Print Assumptions C53_append_bin.

(** The totals are those of the bins shown. *)
Theorem C53_indicators : forall i cb s, greach i cb s -> GIndicators i (gview (gs_core s)) (gs_core s).
Proof.
  intros i cb s H. destruct (reach_state _ _ _ H) as [hs A]. rewrite (ap_view _ _ _ _ A). apply shown_indicators.
  apply ginv_indicators; [apply (ap_inv _ _ _ _ A)|apply (ap_last _ _ _ _ A)].
Qed.
Print Assumptions C53_indicators.

(** The flags say whether the constraints hold in the bins shown. *)
Theorem C53_flags : forall i cb s, greach i cb s -> 1 <= gp_stages (gin_params i) -> GFlags i (gview (gs_core s)) (gs_core s).
Proof.
  intros i cb s H HS. destruct (reach_state _ _ _ H) as [hs A]. rewrite (ap_view _ _ _ _ A). apply shown_flags; [exact HS| |].
  - intros v Hv. apply (ap_bins _ _ _ _ A v Hv).
  - apply ginv_flags. apply (ap_inv _ _ _ _ A).
Qed.
Print Assumptions C53_flags.

(** So does [feasible()]. *)
Theorem C53_feasible : forall i cb s, greach i cb s -> 1 <= gp_stages (gin_params i) ->
  (gs_feasible s = true <-> GPackingOK i (gview (gs_core s)) /\ (gview (gs_core s) = [] \/ cb (gs_core s) = true)).
Proof.
  intros i cb s H HS. destruct (reach_state _ _ _ H) as [hs A]. rewrite (ap_view _ _ _ _ A).
  rewrite shown_packing; [|exact HS|intros v Hv; apply (ap_bins _ _ _ _ A v Hv)].
  rewrite (ap_feasible _ _ _ _ A). destruct (shown_cases hs) as [->|(f & v & E & Es)].
  - split; intros [X _]; (split; [exact X|left; reflexivity]).
  - assert (Hne : hs <> []) by (rewrite E; destruct f; discriminate).
    assert (Hns : shown hs <> []) by (rewrite Es; destruct f; discriminate).
    rewrite (ap_cb _ _ _ _ A Hne). tauto.
Qed.
Print Assumptions C53_feasible.

(** [append_bins], when every bin of the source is there once, appends the
    copies of its bins in order. *)
Theorem C53_append_bins : forall i cb s j cbj source bts its,
  greach i cb s -> greach j cbj source -> gready i [] ->
  (forall v, In v (gview (gs_core source)) -> gv_copies v = 1 /\ gfits j i bts its v) ->
  match gappend_bins i cb s source bts its with
  | GDone s' => greach i cb s' /\ exists ws, Forall2 (gview_copy bts its 1) (gview (gs_core source)) ws
      /\ gview (gs_core s') = shown (gview (gs_core s) ++ ws)
  | GExit => True
  | GBad => False
  end.
Proof.
  intros i cb s j cbj source bts its H1 H2 HR HB. unfold gappend_bins.
  rewrite (gi_ind_bins _ _ _ (C53_indicators _ _ _ H2)).
  assert (EN : zsum gv_copies (gview (gs_core source)) = Z.of_nat (length (gview (gs_core source)))).
  { assert (G : forall l, (forall v, In v l -> gv_copies v = 1) -> zsum gv_copies l = Z.of_nat (length l)).
    { induction l as [|v l IH]; intros Hl; [reflexivity|]. rewrite zsum_cons, (Hl v (or_introl eq_refl)).
      rewrite IH by (intros w Hw; apply Hl; right; exact Hw). cbn [length]. lia. }
    apply G. intros v Hv. apply HB. exact Hv. }
  rewrite EN, Nat2Z.id. set (src := gview (gs_core source)) in *.
  assert (G : forall rest done s0 ws0, done ++ rest = src -> greach i cb s0 ->
    Forall2 (gview_copy bts its 1) done ws0 -> gview (gs_core s0) = shown (gview (gs_core s) ++ ws0) ->
    match gappend_from i cb s0 source bts its (seq (length done) (length rest)) with
    | GDone s' => greach i cb s' /\ exists ws, Forall2 (gview_copy bts its 1) src ws /\ gview (gs_core s') = shown (gview (gs_core s) ++ ws)
    | GExit => True
    | GBad => False
    end).
  { induction rest as [|v rest IH]; intros done s0 ws0 Ed Hr H3 V0; cbn [length seq gappend_from].
    - rewrite app_nil_r in Ed. subst done. split; [exact Hr|]. exists ws0. split; assumption.
    - assert (Hp : nth_error src (length done) = Some v) by (rewrite <- Ed, nth_error_app2 by lia; rewrite Nat.sub_diag; reflexivity).
      destruct (HB v (nth_error_In _ _ Hp)) as [_ HF].
      destruct (C53_append_bin i cb s0 j cbj source (length done) 1 bts its v Hr H2 HR ltac:(lia) Hp HF) as (v' & C & HA).
      destruct (gappend_bin i cb s0 source (length done) 1 bts its) as [s1| |] eqn:E1; [|exact I|exact HA].
      assert (Hr1 : greach i cb s1) by (eapply gr_append; [exact Hr|exact H2|exact HR| |exact Hp|exact HF|exact E1]; lia).
      specialize (IH (done ++ [v]) s1 (ws0 ++ [v'])). rewrite app_length in IH. cbn [length] in IH. rewrite Nat.add_comm in IH. cbn [Nat.add] in IH.
      apply IH; [rewrite <- app_assoc; exact Ed|exact Hr1|apply Forall2_app; [exact H3|constructor; [exact C|constructor]]|].
      rewrite HA, V0, settle_shown, app_assoc, shown_snoc. reflexivity. }
  apply (G src [] s [] eq_refl H1 (Forall2_nil _)). rewrite app_nil_r.
  destruct (reach_state _ _ _ H1) as [hs A]. rewrite (ap_view _ _ _ _ A).
  destruct (shown_cases hs) as [->|(f & v & _ & ->)]; [reflexivity|]. rewrite shown_snoc. f_equal. rewrite map_map. apply map_ext.
  intros x. symmetry. apply settle_view_idem.
Qed.
Print Assumptions C53_append_bins.

(** [append_empty_bin] with one copy appends a bin without item. *)
Lemma empty_ready : forall i, gready i [] -> forall t o, gready i [GAddBin t 1 o].
Proof.
  intros i [H1 H2 H3 H4 _] t o. constructor; try assumption. intros t' k o' [H|[]]. injection H as _ <- _. lia.
Qed.

Theorem C53_append_empty : forall i cb s t, greach i cb s -> gready i [] -> (t < length (gin_bins i))%nat ->
  0 <= gb_h (gbin i t) -> usable_b (gbin i t) <= usable_t (gbin i t) ->
  match gappend_empty i cb s t 1 with
  | GDone s' => greach i cb s' /\ exists v, gview (gs_core s') = map gsettle_view (gview (gs_core s)) ++ [v]
      /\ gv_type v = t /\ gv_copies v = 1 /\ gv_items v = []
  | GExit => True
  | GBad => False
  end.
Proof.
  intros i cb s t H1 HR Ht Hh Hu. unfold gappend_empty. set (o := match gp_first (gin_params i) with GAny => GVertical | o => o end).
  set (b0 := mkGB t 1 o (ginit_nodes (gbin i t) t) 0 0 false false []).
  assert (EA : gadd_bin i [] t 1 o = GOk [b0]) by (unfold gadd_bin; rewrite (proj2 (Nat.ltb_lt _ _) Ht); reflexivity).
  cbv zeta. fold o. rewrite EA.
  assert (ER : grun i [] [GAddBin t 1 o] = Some [b0]) by (cbn [grun gcall]; rewrite EA; reflexivity).
  destruct (C52_indicators i cb _ _ (empty_ready i HR t o) ER) as (bins' & EF & HB).
  destruct (gbuild i cb [b0]) as [src| |] eqn:EB; [|exact I|exact HB]. destruct HB as [V _].
  pose proof (gr_built i cb _ _ _ (empty_ready i HR t o) ER EB) as H2.
  (* The finished bin. *)
  assert (EF' : exists b1, bins' = [b1] /\ gs_type b1 = t /\ gs_copies b1 = 1 /\ gv_items (gview_bin b1) = []).
  { unfold gfinish_bins in EF. cbn [gmapo] in EF. unfold gclose_bin in EF. cbn [gs_nodes b0] in EF.
    assert (EC : forall fuel ns p ns', (forall n, In n ns -> gn_children n = []) -> gclose fuel (gp_ct (gin_params i)) ns p = Some ns' -> ns' = ns).
    { induction fuel as [|fuel IH]; intros ns p ns' Hn E; simpl in E; [discriminate|].
      assert (EF0 : gfinish (gp_ct (gin_params i)) ns p = ns).
      { unfold gfinish. cbv zeta. assert (Ep : gn_children (gnode ns p) = []).
        { unfold gnode. destruct (le_lt_dec (length ns) p) as [Hl|Hl]; [rewrite nth_overflow by exact Hl; reflexivity|apply Hn, nth_In; exact Hl]. }
        rewrite Ep. reflexivity. }
      rewrite EF0 in E. destruct (gn_f _) as [q|]; [exact (IH ns q ns' Hn E)|injection E as <-; reflexivity]. }
    destruct (gclose _ _ _ _) as [ns|] eqn:Ec; [|discriminate]. apply EC in Ec.
    2:{ intros n Hn. destruct (In_nth _ _ gdummy_node Hn) as (id & Hid & <-). rewrite init_length in Hid.
        destruct (Nat.eq_dec id (gbase (gbin i t))) as [->|Hne].
        - destruct (ghas_trims (gbin i t)) eqn:Eh; unfold ginit_nodes, gbase; rewrite Eh; [|reflexivity]. cbn [length].
          change (nth (S (length (gtrims (gbin i t)))) ?l ?d) with (nth (length (gtrims (gbin i t))) (tl l) d). cbn [tl].
          rewrite app_nth2 by lia. rewrite Nat.sub_diag. reflexivity.
        - apply (init_nochild (gbin i t) t id). lia. }
    subst ns. cbn [option_map] in EF. injection EF as <-.
    unfold gresidual. cbn [gback rev app]. eexists. split; [reflexivity|].
    assert (EI : gv_items (gview_bin (gwith_nodes b0 (ginit_nodes (gbin i t) t))) = []).
    { unfold gv_items, gitems_of, item_nodes. cbn [gview_bin gv_nodes gwith_nodes gs_nodes]. 
      assert (G : forall n, In n (ginit_nodes (gbin i t) t) -> gis_item n = false).
      { intros n Hn. unfold ginit_nodes in Hn. destruct Hn as [<-|Hn]; [reflexivity|]. destruct (ghas_trims (gbin i t)); [|destruct Hn].
        apply in_app_or in Hn. destruct Hn as [Hn|[<-|[]]]; [|reflexivity]. apply gtrims_in in Hn. destruct Hn as (_ & _ & _ & Hn).
        unfold gis_item. rewrite Hn. destruct (gn_f n); reflexivity. }
      rewrite (filter_ext_in gis_item (fun _ => false)) by exact G.
      assert (FN : forall l : list GNode, filter (fun _ => false) l = []) by (induction l; [reflexivity|assumption]).
      rewrite FN. reflexivity. }
    unfold gresidual_bin. cbv zeta.
    assert (Hd : (gn_d (gnode (gs_nodes (gwith_nodes b0 (ginit_nodes (gbin i t) t)))
      (length (gs_nodes (gwith_nodes b0 (ginit_nodes (gbin i t) t))) - 1)) =? 1) = false).
    { cbn [gs_nodes gwith_nodes]. rewrite init_length. replace (S (gbase (gbin i t)) - 1)%nat with (gbase (gbin i t)) by lia.
      rewrite init_d. reflexivity. }
    rewrite Hd, andb_false_r. split; [reflexivity|]. split; [reflexivity|]. exact EI. }
  destruct EF' as (b1 & -> & B1 & B2 & B3). cbn [map] in V.
  assert (HFit : gfits i i [] [] (gview_bin b1)).
  { constructor.
    - reflexivity.
    - exists t. cbn [gview_bin gv_type]. rewrite B1. split; [left; auto|]. split; [exact Ht|]. auto 10.
    - intros x Hx. rewrite B3 in Hx. destruct Hx.
    - cbn [gview_bin gv_type]. rewrite B1. split; assumption. }
  pose proof (C53_append_bins i cb s i cb src [] [] H1 H2 HR) as HA. rewrite V in HA.
  specialize (HA ltac:(intros v [<-|[]]; split; [exact B2|exact HFit])).
  destruct (gappend_bins i cb s src [] []) as [s'| |]; [|exact I|exact HA]. destruct HA as (Hr & ws & HW & Vs). split; [exact Hr|].
  inversion HW as [|x y l r Hc HN]. subst. inversion HN. subst. rewrite shown_snoc in Vs. exists y. split; [exact Vs|].
  destruct Hc as (C1 & C2 & C3 & C4). split.
  { destruct C1 as [[_ C1]|[C1 _]]; [|contradiction C1; reflexivity]. rewrite C1. cbn [gview_bin gv_type]. reflexivity. }
  split; [exact C2|].
  assert (GI : forall l r, Forall2 (gnode_copy [] (gv_type y)) l r -> gitems_of l = [] -> gitems_of r = []).
  { intros l r H. induction H as [|n n' l r Hn H IH]; intros E; [reflexivity|]. unfold gitems_of, item_nodes in *. cbn [filter] in *.
    destruct (gis_item n) eqn:E1; [discriminate|]. replace (gis_item n') with false; [apply IH; exact E|].
    destruct Hn as (N1 & _ & _ & _ & N5). unfold gis_item in *. rewrite N1. destruct (gn_f n); [|reflexivity].
    destruct N5 as [[N5 N6]|[N5 _]]; [symmetry; apply Z.leb_gt; lia|apply Z.leb_gt in E1; lia]. }
  unfold gv_items. eapply GI; [exact C4|exact B3].
Qed.
Print Assumptions C53_append_empty.

(** ** A case meeting the hypotheses *)

Lemma ex2_fits : forall v, In v (gview (gs_core ex2_sol)) -> gv_copies v = 1 /\ gfits ex2_inst ex2_inst [] [] v.
Proof.
  intros v Hv. assert (Ht : gv_type v = 0%nat /\ gv_copies v = 1 /\ forall x, In x (gv_items v) -> (x < 2)%nat).
  { assert (E : forallb (fun v => (gv_type v =? 0)%nat && (gv_copies v =? 1) && forallb (fun x => x <? 2)%nat (gv_items v)) (gview (gs_core ex2_sol)) = true)
      by (vm_compute; reflexivity).
    rewrite forallb_forall in E. specialize (E v Hv). apply andb_true_iff in E. destruct E as [E E3]. apply andb_true_iff in E. destruct E as [E1 E2].
    split; [apply Nat.eqb_eq, E1|]. split; [apply Z.eqb_eq, E2|]. intros x Hx. rewrite forallb_forall in E3. apply Nat.ltb_lt, E3, Hx. }
  destruct Ht as (Ht & Hc & Hx). clear Hv. split; [exact Hc|]. constructor.
  - reflexivity.
  - exists 0%nat. rewrite Ht. split; [left; split; reflexivity|]. split; [vm_compute; lia|]. repeat split.
  - intros x H. exists x. split; [left; auto|]. split; [apply Hx in H; exact H|auto].
  - rewrite Ht. vm_compute. split; discriminate.
Qed.

Definition ex3_sol : GSolution :=
  match gappend_bins ex2_inst (fun _ => true) ex2_sol ex2_sol [] [] with GDone s => s | _ => gsol_new ex2_inst end.

(** The residual of the first bin is lost. *)
Example C53_example : greach ex2_inst (fun _ => true) ex2_sol /\ gready ex2_inst []
  /\ (forall v, In v (gview (gs_core ex2_sol)) -> gv_copies v = 1 /\ gfits ex2_inst ex2_inst [] [] v)
  /\ gappend_bins ex2_inst (fun _ => true) ex2_sol ex2_sol [] [] = GDone ex3_sol
  /\ greach ex2_inst (fun _ => true) ex3_sol
  /\ (gc_number_of_items (gs_core ex3_sol), gc_number_of_bins (gs_core ex3_sol), gc_item_area (gs_core ex3_sol), gc_area (gs_core ex3_sol),
      gc_full_area (gs_core ex3_sol)) = (6, 2, 150, 231 + 121, 462)
  /\ gs_feasible ex3_sol = false.
Proof.
  assert (H1 : greach ex2_inst (fun _ => true) ex2_sol) by (eapply gr_built; [exact ex2_ready|vm_compute; reflexivity|vm_compute; reflexivity]).
  assert (H2 : gready ex2_inst []) by (destruct ex2_ready; constructor; try assumption; intros t k o []).
  assert (H3 : gappend_bins ex2_inst (fun _ => true) ex2_sol ex2_sol [] [] = GDone ex3_sol) by (vm_compute; reflexivity).
  split; [exact H1|]. split; [exact H2|]. split; [exact ex2_fits|]. split; [exact H3|]. split.
  - pose proof (C53_append_bins ex2_inst (fun _ => true) ex2_sol ex2_inst (fun _ => true) ex2_sol [] [] H1 H1 H2 ex2_fits) as H.
    rewrite H3 in H. apply H.
  - split; vm_compute; reflexivity.
Qed.

(** ** What appending does not keep *)

(** A source with a bin used twice: the loop over the number of bins indexes the
    vector of distinct bins. *)
Theorem C53_append_copies_refuted : exists i cb s source, greach i cb s /\ greach i cb source /\ gready i []
  /\ (exists v, gview (gs_core source) = [v] /\ gv_copies v = 2) /\ gappend_bins i cb s source [] [] = GBad.
Proof.
  assert (HR : gready ex2_inst [GAddBin 0 2 GVertical]).
  { destruct ex2_ready; constructor; try assumption. intros t k o [H|[]]. injection H as _ <- _. lia. }
  assert (HR0 : gready ex2_inst []) by (destruct ex2_ready; constructor; try assumption; intros t k o []).
  eexists ex2_inst, (fun _ => true), (gsol_new ex2_inst), _. split; [apply gr_new|].
  split; [eapply gr_built; [exact HR|vm_compute; reflexivity|vm_compute; reflexivity]|]. split; [exact HR0|].
  split; [eexists; split; vm_compute; reflexivity|]. vm_compute. reflexivity.
Qed.
Print Assumptions C53_append_copies_refuted.

(** Two empty bins cannot be appended, and appending none is silently accepted. *)
Theorem C53_append_empty_copies_refuted : exists i cb s t, greach i cb s /\ gready i []
  /\ gappend_empty i cb s t 2 = GBad /\ gappend_empty i cb s t 0 = GDone s.
Proof.
  exists ex2_inst, (fun _ => true), (gsol_new ex2_inst), 0%nat. split; [apply gr_new|].
  split; [destruct ex2_ready; constructor; try assumption; intros t k o []|]. split; vm_compute; reflexivity.
Qed.
Print Assumptions C53_append_empty_copies_refuted.

(** The cutting cost of a solution with an appended bin is not that of the same
    bins built directly: the area of the lost residual is charged twice. *)
Theorem C53_cutting_cost_refuted : exists i cb s s', gin_objective i = OBinPackingCuttingCost
  /\ greach i cb s /\ greach i cb s' /\ gview (gs_core s) = gview (gs_core s')
  /\ gc_cutting_cost (gs_core s) = gc_cutting_cost (gs_core s') + 2 * 110.
Proof.
  assert (HR : gready ex2_inst (ex_calls ++ ex_calls)).
  { destruct ex2_ready as [R1 R2 R3 R4 R5]; constructor; try assumption. intros t k o H. apply in_app_or in H. destruct H as [H|H]; exact (R5 t k o H). }
  destruct C53_example as (_ & _ & _ & _ & H & _).
  eexists ex2_inst, (fun _ => true), ex3_sol, _. split; [reflexivity|]. split; [exact H|].
  split; [eapply gr_built; [exact HR|vm_compute; reflexivity|vm_compute; reflexivity]|].
  split; vm_compute; reflexivity.
Qed.
Print Assumptions C53_cutting_cost_refuted.

(** ** C11, guillotine solutions *)

Definition glt (i : GInstance) (a b : GSolution) : bool := match gless i a b with Some x => x | None => false end.

Theorem C11_guillotine_feasible_first : forall i a b,
  (gless i a b = Some true -> gs_feasible b = true) /\
  (gs_feasible a = false -> gs_feasible b = true -> gless i a b = Some true).
Proof.
  intros i a b. unfold gless. split.
  - destruct (gs_feasible b); [reflexivity|discriminate].
  - intros -> ->. reflexivity.
Qed.
Print Assumptions C11_guillotine_feasible_first.

(** The objectives on integers give a strict weak order. *)
Theorem C11_guillotine_strict_weak_order : forall i,
  gin_objective i = OBinPacking \/ gin_objective i = OBinPackingWithLeftovers \/ gin_objective i = OOpenDimensionX
  \/ gin_objective i = OOpenDimensionY \/ gin_objective i = OBinPackingCuttingCost ->
  StrictWeakOrder GSolution (glt i).
Proof.
  intros i Ho. unfold glt, gless. constructor.
  - intro a. destruct (gs_feasible a); cbn [negb]; [|reflexivity].
    destruct Ho as [-> |[-> |[-> |[-> | ->]]]]; rewrite ?Z.eqb_refl, ?Z.ltb_irrefl; reflexivity.
  - intros a b c. destruct (gs_feasible a), (gs_feasible b), (gs_feasible c); cbn [negb]; try congruence;
    destruct Ho as [-> |[-> |[-> |[-> | ->]]]]; rewrite ?Z.ltb_lt; try lia; try reflexivity;
    repeat match goal with |- context [?x =? ?y] => destruct (Z.eqb_spec x y) end; cbn [negb]; rewrite ?Z.ltb_lt; lia.
  - intros a b c. destruct (gs_feasible a), (gs_feasible b), (gs_feasible c); cbn [negb]; try congruence;
    destruct Ho as [-> |[-> |[-> |[-> | ->]]]]; rewrite ?Z.ltb_ge; try lia; try congruence;
    repeat match goal with |- context [?x =? ?y] => destruct (Z.eqb_spec x y) end; cbn [negb]; rewrite ?Z.ltb_ge; lia.
Qed.
Print Assumptions C11_guillotine_strict_weak_order.

(** Better means better for the user, in terms of the bins shown. *)
Theorem C11_guillotine_improvement : forall i cb a b, greach i cb a -> greach i cb b -> gs_feasible a = true -> gless i a b = Some true ->
  (0 <= gc_profit (gs_core a))%Q -> (0 <= gc_profit (gs_core b))%Q ->
  gs_feasible b = true /\
  match gin_objective i with
  | OKnapsack | OFeasibility => (gc_profit (gs_core a) < gc_profit (gs_core b))%Q
  | OBinPacking => zsum gv_copies (gview (gs_core b)) < zsum gv_copies (gview (gs_core a))
  | OBinPackingWithLeftovers => gc_waste (gs_core b) < gc_waste (gs_core a)
      \/ gc_waste (gs_core b) = gc_waste (gs_core a) /\ gc_second (gs_core a) < gc_second (gs_core b)
  | OOpenDimensionX => gc_width (gs_core b) < gc_width (gs_core a)
  | OOpenDimensionY => gc_height (gs_core b) < gc_height (gs_core a)
  | _ => True
  end.
Proof.
  intros i cb a b Ra Rb H1 H P1 P2. pose proof (proj1 (C11_guillotine_feasible_first i a b) H) as H2. split; [exact H2|].
  unfold gless in H. rewrite H1, H2 in H. cbn [negb] in H.
  destruct (gin_objective i); try exact I; try discriminate.
  - injection H as H. apply Z.ltb_lt in H. rewrite (gi_ind_bins _ _ _ (C53_indicators _ _ _ Ra)), (gi_ind_bins _ _ _ (C53_indicators _ _ _ Rb)) in H. exact H.
  - destruct (Z.eqb_spec (gc_waste (gs_core b)) (gc_waste (gs_core a))) as [E|E];
      cbn [negb] in H; injection H as H; apply Z.ltb_lt in H; auto.
  - injection H as H. apply Z.ltb_lt. exact H.
  - injection H as H. apply Z.ltb_lt. exact H.
  - injection H as H. apply Common_Proof.sgp_sound; assumption.
  - injection H as H. apply Common_Proof.sgp_sound; assumption.
Qed.
Print Assumptions C11_guillotine_improvement.

Example C11_guillotine_example :
  gless small_inst (gsol_new small_inst) (gsol_new small_inst) = Some false
  /\ gless ex2_inst ex3_sol ex2_sol = Some true /\ gless ex2_inst ex2_sol ex3_sol = Some false.
Proof. vm_compute. auto. Qed.
