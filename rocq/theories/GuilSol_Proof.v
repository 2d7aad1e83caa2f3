(** * Proofs about the indicators of a guillotine solution: one bin *)

From Coq Require Import List ZArith QArith Bool Lia Arith Lqa.
From Verif Require Import Util Common_Model Common_Spec OneDim_Model OneDim_Spec OneDim_Proof.
From Verif Require Import Guil_Model Guil_Spec GuilSol_Model GuilSol_Spec.
Import ListNotations.
Open Scope Z_scope.

(** ** Folds *)

Lemma fold_proj : forall (A B C : Type) (pi : A -> B) (f : A -> C -> A) (g : B -> C -> B) l a,
  (forall a x, pi (f a x) = g (pi a) x) -> pi (fold_left f l a) = fold_left g l (pi a).
Proof. intros A B C pi f g l. induction l as [|x l IH]; intros a H; [reflexivity|]. cbn [fold_left]. rewrite IH, H by exact H. reflexivity. Qed.

Lemma fold_all : forall (A : Type) (bad : A -> bool) l ok,
  fold_left (fun ok n => if bad n then false else ok) l ok = true <-> ok = true /\ forall n, In n l -> bad n = false.
Proof.
  intros A bad l. induction l as [|x l IH]; intros ok; cbn [fold_left].
  - split; [intros H; split; [exact H|intros n []]|tauto].
  - rewrite IH. destruct (bad x) eqn:E.
    + split; [intros [H _]; discriminate|]. intros [_ H]. specialize (H x (or_introl eq_refl)). congruence.
    + split; intros [H1 H2]; split; try assumption.
      * intros n [<-|Hn]; [exact E|apply H2; exact Hn].
      * intros n Hn. apply H2. right. exact Hn.
Qed.

Section Loop.

Variable i : GInstance.
Variable c : GCore.
Variable b : GBin.
Let p := gin_params i.
Let bt := gbin i (gs_type b).
Let o := gs_orient b.

Lemma loop_items : gl_items (gloop i c b) = fold_left (gitems_step i (gs_type b) (gs_copies b)) (gs_nodes b) (gl_items (gloop0 i c b)).
Proof. unfold gloop. apply fold_proj. reflexivity. Qed.
Lemma loop_area : gl_area (gloop i c b) = fold_left gresidual_step (gs_nodes b) (gc_full_area c + gs_copies b * gb_area bt).
Proof. unfold gloop. rewrite (fold_proj _ _ _ gl_area _ gresidual_step); reflexivity. Qed.
Lemma loop_width : gl_width (gloop i c b) = fold_left gwidth_step (gs_nodes b) 0.
Proof. unfold gloop. rewrite (fold_proj _ _ _ gl_width _ gwidth_step); reflexivity. Qed.
Lemma loop_height : gl_height (gloop i c b) = fold_left gheight_step (gs_nodes b) 0.
Proof. unfold gloop. rewrite (fold_proj _ _ _ gl_height _ gheight_step); reflexivity. Qed.
Lemma loop_second : gl_second (gloop i c b) = fold_left gsecond_step (gs_nodes b) 0.
Proof. unfold gloop. rewrite (fold_proj _ _ _ gl_second _ gsecond_step); reflexivity. Qed.
Lemma loop_waste : gl_waste_ok (gloop i c b) = fold_left (gwaste_step p) (gs_nodes b) (gc_waste_ok c).
Proof. unfold gloop. rewrite (fold_proj _ _ _ gl_waste_ok _ (gwaste_step p)); reflexivity. Qed.
Lemma loop_min1 : gl_min1_ok (gloop i c b) = fold_left (gmin1_step p o) (gs_nodes b) (gc_min1_ok c).
Proof. unfold gloop. rewrite (fold_proj _ _ _ gl_min1_ok _ (gmin1_step p o)); reflexivity. Qed.
Lemma loop_max1 : gl_max1_ok (gloop i c b) = fold_left (gmax1_step p o) (gs_nodes b) (gc_max1_ok c).
Proof. unfold gloop. rewrite (fold_proj _ _ _ gl_max1_ok _ (gmax1_step p o)); reflexivity. Qed.
Lemma loop_min2 : gl_min2_ok (gloop i c b) = fold_left (gmin2_step p o) (gs_nodes b) (gc_min2_ok c).
Proof. unfold gloop. rewrite (fold_proj _ _ _ gl_min2_ok _ (gmin2_step p o)); reflexivity. Qed.
Lemma loop_max2 : gl_max2_ok (gloop i c b) = fold_left (gmax2_step p o) (gs_nodes b) (gc_max2_ok c).
Proof. unfold gloop. rewrite (fold_proj _ _ _ gl_max2_ok _ (gmax2_step p o)); reflexivity. Qed.
Lemma loop_number1 : gl_number1 (gloop i c b) = fold_left (gnumber1_step p o (gbin_end bt o)) (gs_nodes b) (0, gc_number1_ok c).
Proof. unfold gloop. rewrite (fold_proj _ _ _ gl_number1 _ (gnumber1_step p o (gbin_end bt o))); reflexivity. Qed.
Lemma loop_number2 : gl_number2 (gloop i c b) = fold_left (gnumber2_step p o) (gs_nodes b) (-1, 0, gc_number2_ok c).
Proof. unfold gloop. rewrite (fold_proj _ _ _ gl_number2 _ (gnumber2_step p o)); reflexivity. Qed.
Lemma loop_cutting : gl_cutting (gloop i c b)
  = fold_left (gcutting_step (gin_objective i) p o (gs_copies b) (gs_nodes b)) (gs_nodes b) (gl_cutting (gloop0 i c b)).
Proof. unfold gloop. apply fold_proj. reflexivity. Qed.
Lemma loop_defects : gl_defects_ok (gloop i c b) = fold_left (gdefects_step bt) (gs_nodes b) (gc_defects_ok c).
Proof. unfold gloop. rewrite (fold_proj _ _ _ gl_defects_ok _ (gdefects_step bt)); reflexivity. Qed.
Lemma loop_through : gl_through_ok (gloop i c b) = fold_left (gthrough_step p bt) (gs_nodes b) (gc_through_ok c).
Proof. unfold gloop. rewrite (fold_proj _ _ _ gl_through_ok _ (gthrough_step p bt)); reflexivity. Qed.

End Loop.

(** ** Sizes *)

Lemma residual_fold : forall ns a, fold_left gresidual_step ns a = a - gresidual_area ns.
Proof.
  unfold gresidual_area. induction ns as [|n ns IH]; intros a; cbn [fold_left filter].
  - rewrite zsum_nil. lia.
  - rewrite IH. unfold gresidual_step. destruct (gn_item n =? -3); [|reflexivity].
    rewrite zsum_cons. unfold garea_of, gwidth_of, gheight_of, gn_area. lia.
Qed.

Lemma max_fold : forall (f : GNode -> Z) (step : Z -> GNode -> Z) (cond : GNode -> bool) ns a, 0 <= a ->
  (forall a n, step a n = if cond n then (if a <? f n then f n else a) else a) ->
  fold_left step ns a = Z.max a (fold_right Z.max 0 (map f (filter cond ns))).
Proof.
  intros f step cond ns. induction ns as [|n ns IH]; intros a Ha H; cbn [fold_left filter map fold_right]; [lia|].
  rewrite H. destruct (cond n); cbn [map fold_right].
  - destruct (Z.ltb_spec a (f n)); rewrite IH by (try assumption; lia); lia.
  - apply IH; assumption.
Qed.

Lemma width_fold : forall ns, fold_left gwidth_step ns 0 = fold_right Z.max 0 (map gn_r (gcut_parts ns)).
Proof.
  intros ns. rewrite (max_fold gn_r gwidth_step (fun n => (0 <? gn_d n) && negb (gn_item n =? -3))); [|lia|reflexivity].
  unfold gcut_parts. assert (0 <= fold_right Z.max 0 (map gn_r (filter (fun n => (0 <? gn_d n) && negb (gn_item n =? -3)) ns))).
  { induction (filter _ ns) as [|x l IH]; cbn [map fold_right]; lia. } lia.
Qed.
Lemma height_fold : forall ns, fold_left gheight_step ns 0 = fold_right Z.max 0 (map gn_t (gcut_parts ns)).
Proof.
  intros ns. rewrite (max_fold gn_t gheight_step (fun n => (0 <? gn_d n) && negb (gn_item n =? -3))); [|lia|reflexivity].
  unfold gcut_parts. assert (0 <= fold_right Z.max 0 (map gn_t (filter (fun n => (0 <? gn_d n) && negb (gn_item n =? -3)) ns))).
  { induction (filter _ ns) as [|x l IH]; cbn [map fold_right]; lia. } lia.
Qed.

Lemma second_fold : forall ns, fold_left gsecond_step ns 0 = gsecond_of ns.
Proof.
  induction ns as [|n ns IH] using rev_ind; [reflexivity|].
  rewrite fold_left_app. cbn [fold_left]. rewrite IH. unfold gsecond_of at 2. rewrite rev_unit. cbn [filter].
  unfold gsecond_step. cbv zeta. unfold garea_of, gwidth_of, gheight_of.
  destruct (Z.eqb (gn_d n) 2) eqn:E2; destruct (Z.eqb (gn_d n) 1) eqn:E1;
    destruct (Z.eqb (gn_item n) (-1)) eqn:E3; destruct (Z.eqb (gn_item n) (-3)) eqn:E4;
    cbn [andb orb negb]; rewrite ?E2, ?E3; cbn [andb orb negb]; try reflexivity; exfalso;
    rewrite ?Z.eqb_eq, ?Z.eqb_neq in *; lia.
Qed.

(** ** Flags that look at one node at a time *)

Lemma waste_fold : forall i v ok,
  fold_left (gwaste_step (gin_params i)) (gv_nodes v) ok = true <-> ok = true /\ gwastes_large i v.
Proof.
  intros i v ok. unfold gwaste_step. rewrite fold_all. unfold gwastes_large, gwidth_of, gheight_of.
  split; intros [H1 H2]; (split; [exact H1|]).
  - intros n Hn Hd Hx. specialize (H2 n Hn).
    destruct (Z.leb_spec 1 (gn_d n)); [|lia]. destruct (Z.ltb_spec (gn_item n) 0); [|lia]. cbn [andb] in H2.
    apply orb_false_iff in H2. destruct H2 as [H2 H3]. apply Z.ltb_ge in H2. apply Z.ltb_ge in H3. lia.
  - intros n Hn. specialize (H2 n Hn). destruct (Z.leb_spec 1 (gn_d n)); [|reflexivity].
    destruct (Z.ltb_spec (gn_item n) 0); [|reflexivity]. cbn [andb].
    destruct (H2 ltac:(assumption) ltac:(assumption)). apply orb_false_iff. split; apply Z.ltb_ge; lia.
Qed.

Lemma gsize1 : forall o n, o <> GAny -> gn_d n = 1 -> gextent1 o n = Some (gsize o n).
Proof. intros o n H E. unfold gsize. rewrite E. destruct o; [reflexivity|reflexivity|contradiction]. Qed.
Lemma gsize2 : forall o n, o <> GAny -> gn_d n = 2 -> gextent2 o n = Some (gsize o n).
Proof. intros o n H E. unfold gsize. rewrite E. destruct o; [reflexivity|reflexivity|contradiction]. Qed.

Lemma min_fold : forall d m v (ext : GOrient -> GNode -> option Z) ok,
  (forall n, ext GAny n = None) -> (forall o n, o <> GAny -> gn_d n = d -> ext o n = Some (gsize o n)) ->
  fold_left (fun ok n => if (gn_d n =? d) && (gn_item n =? -2) && gtest (ext (gv_orient v) n) (fun e => e <? m) then false else ok)
    (gv_nodes v) ok = true <-> ok = true /\ gmin_distance d m v.
Proof.
  intros d m v ext ok HA HE. rewrite fold_all. unfold gmin_distance, gcut_again.
  split; intros [H1 H2]; (split; [exact H1|]).
  - intros Ho n Hn [Hd Hx]. specialize (H2 n Hn). rewrite Hd, Hx, !Z.eqb_refl in H2. cbn [andb] in H2.
    rewrite (HE _ n Ho Hd) in H2. cbn [gtest] in H2. apply Z.ltb_ge in H2. exact H2.
  - intros n Hn. destruct (Z.eqb_spec (gn_d n) d) as [Hd|]; [|reflexivity].
    destruct (Z.eqb_spec (gn_item n) (-2)) as [Hx|]; [|reflexivity]. cbn [andb].
    assert (D : gv_orient v = GAny \/ gv_orient v <> GAny) by (destruct (gv_orient v); [right|right|left]; congruence).
    destruct D as [E|Ho]; [rewrite E, HA; reflexivity|]. rewrite (HE _ n Ho Hd). cbn [gtest]. apply Z.ltb_ge.
    apply (H2 Ho n Hn). auto.
Qed.

Lemma maxd_fold : forall d m v (ext : GOrient -> GNode -> option Z) ok,
  (forall n, ext GAny n = None) -> (forall o n, o <> GAny -> gn_d n = d -> ext o n = Some (gsize o n)) ->
  fold_left (fun ok n => if (0 <=? m) && (gn_d n =? d) && (gn_item n =? -2) && gtest (ext (gv_orient v) n) (fun e => m <? e) then false else ok)
    (gv_nodes v) ok = true <-> ok = true /\ gmax_distance d m v.
Proof.
  intros d m v ext ok HA HE. rewrite fold_all. unfold gmax_distance, gcut_again.
  split; intros [H1 H2]; (split; [exact H1|]).
  - intros Hm Ho n Hn [Hd Hx]. specialize (H2 n Hn). apply Z.leb_le in Hm. rewrite Hm, Hd, Hx, !Z.eqb_refl in H2. cbn [andb] in H2.
    rewrite (HE _ n Ho Hd) in H2. cbn [gtest] in H2. apply Z.ltb_ge in H2. exact H2.
  - intros n Hn. destruct (Z.leb_spec 0 m) as [Hm|]; [|reflexivity]. destruct (Z.eqb_spec (gn_d n) d) as [Hd|]; [|reflexivity].
    destruct (Z.eqb_spec (gn_item n) (-2)) as [Hx|]; [|reflexivity]. cbn [andb].
    assert (D : gv_orient v = GAny \/ gv_orient v <> GAny) by (destruct (gv_orient v); [right|right|left]; congruence).
    destruct D as [E|Ho]; [rewrite E, HA; reflexivity|]. rewrite (HE _ n Ho Hd). cbn [gtest]. apply Z.ltb_ge.
    apply (H2 Hm Ho n Hn). auto.
Qed.

Lemma min1_fold : forall i v ok, fold_left (gmin1_step (gin_params i) (gv_orient v)) (gv_nodes v) ok = true
  <-> ok = true /\ gmin_distance 1 (gp_min1 (gin_params i)) v.
Proof. intros i v ok. apply (min_fold 1 _ v gextent1); [reflexivity|exact gsize1]. Qed.
Lemma min2_fold : forall i v ok, fold_left (gmin2_step (gin_params i) (gv_orient v)) (gv_nodes v) ok = true
  <-> ok = true /\ gmin_distance 2 (gp_min2 (gin_params i)) v.
Proof. intros i v ok. apply (min_fold 2 _ v gextent2); [reflexivity|exact gsize2]. Qed.
Lemma max1_fold : forall i v ok, fold_left (gmax1_step (gin_params i) (gv_orient v)) (gv_nodes v) ok = true
  <-> ok = true /\ gmax_distance 1 (gp_max1 (gin_params i)) v.
Proof. intros i v ok. apply (maxd_fold 1 _ v gextent1); [reflexivity|exact gsize1]. Qed.
Lemma max2_fold : forall i v ok, fold_left (gmax2_step (gin_params i) (gv_orient v)) (gv_nodes v) ok = true
  <-> ok = true /\ gmax_distance 2 (gp_max2 (gin_params i)) v.
Proof. intros i v ok. apply (maxd_fold 2 _ v gextent2); [reflexivity|exact gsize2]. Qed.

(** ** The plan of a bin *)

Definition plan_ok (i : GInstance) (v : GView) : Prop :=
  exists base, guillotine_plan i (gv_type v) (gv_orient v) (gv_nodes v) base /\ depth_first (gv_nodes v) base.

Section Plan.

Variable i : GInstance.
Variable t : nat.
Variable o : GOrient.
Variable ns : list GNode.
Variable base : nat.
Hypothesis HP : guillotine_plan i t o ns base.

Lemma plan_in : forall n, In n ns <-> exists id, (id < length ns)%nat /\ n = gnode ns id.
Proof.
  intros n. split.
  - intros H. destruct (In_nth _ _ gdummy_node H) as (id & H1 & H2). exists id. split; [exact H1|symmetry; exact H2].
  - intros (id & H & ->). apply nth_In. exact H.
Qed.

Lemma plan_depth : forall id, (base < id < length ns)%nat -> 1 <= gn_d (gnode ns id).
Proof.
  induction id as [id IH] using lt_wf_ind. intros Hid.
  destruct (gp_father _ _ _ _ _ HP id Hid) as (p & H1 & H2 & H3 & _).
  destruct (Nat.eq_dec p base) as [->|Hne].
  - destruct (gp_usable _ _ _ _ _ HP) as [E _]. lia.
  - specialize (IH p ltac:(lia) ltac:(lia)). lia.
Qed.

Lemma plan_deep : forall id, (id < length ns)%nat -> 1 <= gn_d (gnode ns id) -> (base < id)%nat.
Proof.
  intros id Hid Hd. destruct (le_lt_dec id base) as [H|H]; [exfalso|exact H].
  destruct (Nat.eq_dec id base) as [->|Hne].
  - destruct (gp_usable _ _ _ _ _ HP) as [E _]. lia.
  - destruct (Nat.eq_dec id 0) as [->|H0].
    + destruct (gp_plate _ _ _ _ _ HP) as (_ & E & _). lia.
    + destruct (gp_trims _ _ _ _ _ HP id ltac:(lia)) as (_ & E & _). lia.
Qed.

Lemma plan_father : forall id, (id < length ns)%nat -> 1 <= gn_d (gnode ns id) ->
  exists p, gn_f (gnode ns id) = Some p /\ (base <= p < id)%nat /\ cut_from o (gnode ns p) (gnode ns id).
Proof. intros id Hid Hd. apply (gp_father _ _ _ _ _ HP). pose proof (plan_deep id Hid Hd). lia. Qed.

(** A father of a node of positive depth is a node of the tree. *)
Lemma plan_child : forall id p, (id < length ns)%nat -> gn_f (gnode ns id) = Some p -> 1 <= gn_d (gnode ns id) ->
  (base <= p < id)%nat /\ gn_d (gnode ns id) = gn_d (gnode ns p) + 1 /\ cut_from o (gnode ns p) (gnode ns id).
Proof.
  intros id p Hid Hf Hd. destruct (plan_father id Hid Hd) as (q & H1 & H2 & H3). rewrite Hf in H1. inversion H1. subst q.
  split; [exact H2|]. split; [exact (proj1 H3)|exact H3].
Qed.

Lemma plan_holds : forall n, In n ns -> 1 <= gn_d n -> gholds n = (0 <=? gn_item n).
Proof.
  intros n Hn Hd. apply plan_in in Hn. destruct Hn as (id & Hid & ->).
  destruct (plan_father id Hid Hd) as (p & H1 & _). unfold gholds. rewrite H1. reflexivity.
Qed.

Lemma plan_items : forall x, In x (gitems_of ns) -> (x < length (gin_items i))%nat.
Proof.
  intros x Hx. unfold gitems_of in Hx. apply in_map_iff in Hx. destruct Hx as (n & <- & Hn).
  unfold item_nodes in Hn. apply filter_In in Hn. destruct Hn as [Hn Hh]. apply plan_in in Hn. destruct Hn as (id & Hid & ->).
  unfold gis_item in Hh. destruct (gn_f (gnode ns id)) as [f|] eqn:E; [|discriminate]. apply Z.leb_le in Hh.
  apply (gp_items _ _ _ _ _ HP id _ Hid). split; [rewrite E; discriminate|rewrite Z2Nat.id by exact Hh; reflexivity].
Qed.

End Plan.

(** ** Defects *)

Lemma defects_fold : forall i v ok, plan_ok i v ->
  fold_left (gdefects_step (gbin i (gv_type v))) (gv_nodes v) ok = true <-> ok = true /\ gdefects_avoided i v.
Proof.
  intros i v ok (base & HP & _). unfold gdefects_step. rewrite fold_all. unfold gdefects_avoided, goverlaps.
  split; intros [H1 H2]; (split; [exact H1|]).
  - intros n d Hn Hd Hdef Hov. unfold item_nodes in Hn. apply filter_In in Hn. destruct Hn as [Hn Hh].
    specialize (H2 n Hn). unfold gis_item in Hh. destruct (gn_f n); [|discriminate]. apply Z.leb_le in Hd.
    rewrite Hh, Hd in H2. cbn [andb] in H2. unfold grect_defect in H2.
    assert (E : existsb (gdefect_hit (gn_l n) (gn_r n) (gn_b n) (gn_t n)) (gb_defects (gbin i (gv_type v))) = true).
    { apply existsb_exists. exists d. split; [exact Hdef|]. unfold gdefect_hit, gd_left, gd_right, gd_bottom, gd_top.
      repeat (apply andb_true_iff; split); apply negb_true_iff, Z.leb_gt; lia. }
    congruence.
  - intros n Hn. destruct (Z.leb_spec 1 (gn_d n)) as [Hd|]; [|reflexivity].
    destruct (Z.leb_spec 0 (gn_item n)) as [Hx|]; [|reflexivity]. cbn [andb].
    unfold grect_defect. destruct (existsb _ _) eqn:E; [exfalso|reflexivity].
    apply existsb_exists in E. destruct E as (d & Hdef & E). apply (H2 n d).
    + unfold item_nodes. apply filter_In. split; [exact Hn|]. change (gis_item n) with (gholds n).
      rewrite (plan_holds _ _ _ _ _ HP n Hn Hd). apply Z.leb_le. exact Hx.
    + exact Hd.
    + exact Hdef.
    + unfold gdefect_hit, gd_left, gd_right, gd_bottom, gd_top in E. apply andb_true_iff in E. destruct E as [E E4].
      apply andb_true_iff in E. destruct E as [E E3]. apply andb_true_iff in E. destruct E as [E1 E2].
      apply negb_true_iff, Z.leb_gt in E1. apply negb_true_iff, Z.leb_gt in E2.
      apply negb_true_iff, Z.leb_gt in E3. apply negb_true_iff, Z.leb_gt in E4. lia.
Qed.

Lemma gx_false : forall x b t bt, gx_defect x b t bt = false <-> forall d, In d (gb_defects bt) -> ~ gv_crosses x b t d.
Proof.
  intros x b t bt. unfold gx_defect, gv_crosses. rewrite <- not_true_iff_false, existsb_exists. split.
  - intros H d Hd Hc. apply H. exists d. split; [exact Hd|]. unfold gd_left, gd_right, gd_bottom, gd_top.
    apply andb_true_iff. split; apply negb_true_iff, orb_false_iff; split; apply Z.leb_gt; lia.
  - intros H (d & Hd & E). apply (H d Hd). unfold gd_left, gd_right, gd_bottom, gd_top in E.
    apply andb_true_iff in E. destruct E as [E1 E2]. apply negb_true_iff, orb_false_iff in E1. apply negb_true_iff, orb_false_iff in E2.
    destruct E1 as [E1 E3]. destruct E2 as [E2 E4]. apply Z.leb_gt in E1, E2, E3, E4. lia.
Qed.
Lemma gy_false : forall l r y bt, gy_defect l r y bt = false <-> forall d, In d (gb_defects bt) -> ~ gh_crosses l r y d.
Proof.
  intros l r y bt. unfold gy_defect, gh_crosses. rewrite <- not_true_iff_false, existsb_exists. split.
  - intros H d Hd Hc. apply H. exists d. split; [exact Hd|]. unfold gd_left, gd_right, gd_bottom, gd_top.
    apply andb_true_iff. split; apply negb_true_iff, orb_false_iff; split; apply Z.leb_gt; lia.
  - intros H (d & Hd & E). apply (H d Hd). unfold gd_left, gd_right, gd_bottom, gd_top in E.
    apply andb_true_iff in E. destruct E as [E1 E2]. apply negb_true_iff, orb_false_iff in E1. apply negb_true_iff, orb_false_iff in E2.
    destruct E1 as [E1 E3]. destruct E2 as [E2 E4]. apply Z.leb_gt in E1, E2, E3, E4. lia.
Qed.

Lemma through_fold : forall i v ok,
  fold_left (gthrough_step (gin_params i) (gbin i (gv_type v))) (gv_nodes v) ok = true
  <-> ok = true /\ gcuts_avoid_defects i v.
Proof.
  intros i v ok. unfold gthrough_step. rewrite fold_all. unfold gcuts_avoid_defects.
  destruct (gp_through_defects (gin_params i)); cbn [negb andb].
  { split; [intros [H _]; split; [exact H|left; reflexivity]|intros [H _]; split; [exact H|reflexivity]]. }
  split; intros [H1 H2]; (split; [exact H1|]).
  - right. intros n d Hn Hd Hdef. specialize (H2 n Hn). apply Z.leb_le in Hd. rewrite Hd in H2. cbn [andb] in H2.
    apply orb_false_iff in H2. destruct H2 as [H2 H6]. apply orb_false_iff in H2. destruct H2 as [H2 H5].
    apply orb_false_iff in H2. destruct H2 as [H3 H4].
    rewrite gx_false in H3, H4. rewrite gy_false in H5, H6. auto.
  - intros n Hn. destruct (Z.leb_spec 1 (gn_d n)) as [Hd|]; [|reflexivity]. cbn [andb].
    destruct H2 as [H2|H2]; [discriminate|].
    repeat (apply orb_false_iff; split); (apply gx_false || apply gy_false); intros d Hdef; apply (H2 n d Hn Hd Hdef).
Qed.

(** ** Numbers of cuts *)

Lemma odd_mod : forall d, (d mod 2 =? 1) = Z.odd d.
Proof. intros d. rewrite Zmod_odd. destruct (Z.odd d); reflexivity. Qed.

Lemma vertical1 : forall o d, d = 1 -> vertical_at o d = match o with GVertical => true | _ => false end.
Proof. intros o d ->. destruct o; reflexivity. Qed.
Lemma vertical2 : forall o d, d = 2 -> vertical_at o d = match o with GHorizontal => true | _ => false end.
Proof. intros o d ->. destruct o; reflexivity. Qed.

Definition gcond (o : GOrient) (ns : list GNode) (p : nat) (n : GNode) : bool :=
  match gn_f n with Some q => Nat.eqb q p && (1 <=? gn_d n) && negb (greaches o (gnode ns p) n) | None => false end.
Definition gcnt (o : GOrient) (ns l : list GNode) (p : nat) : Z := Z.of_nat (length (filter (gcond o ns p) l)).

Lemma gcnt_snoc : forall o ns l n p, gcnt o ns (l ++ [n]) p = gcnt o ns l p + (if gcond o ns p n then 1 else 0).
Proof.
  intros o ns l n p. unfold gcnt. rewrite filter_app, app_length. cbn [filter]. destruct (gcond o ns p n); cbn [length]; lia.
Qed.

Definition gsane_end (bt : GBinType) : Prop := 0 <= gt_length (gb_right bt) /\ 0 <= gt_length (gb_top bt).

Section Cuts.

Variable i : GInstance.
Variable v : GView.
Variable base : nat.
Let ns := gv_nodes v.
Let o := gv_orient v.
Hypothesis HP : guillotine_plan i (gv_type v) o ns base.
Hypothesis HT : gsane_end (gbin i (gv_type v)).
Hypothesis HO : o <> GAny.

Lemma base_end : father_end o (gnode ns base) = gbin_end (gbin i (gv_type v)) o.
Proof.
  destruct (gp_usable _ _ _ _ _ HP) as (E0 & _ & E1 & _ & E2). unfold father_end. rewrite (vertical1 o) by lia.
  destruct HT as [T1 T2]. unfold gbin_end, usable_r, usable_t, hard in *.
  destruct o; [rewrite E2|rewrite E1|contradiction HO; reflexivity].
  - destruct (gt_hard (gb_top _)); lia.
  - destruct (gt_hard (gb_right _)); lia.
Qed.

Lemma first_cond : forall n, In n ns ->
  (gn_d n =? 1) && gtest (gend1 o n) (fun e => negb (e =? gbin_end (gbin i (gv_type v)) o)) = gcond o ns base n.
Proof.
  intros n Hn. apply plan_in in Hn. destruct Hn as (id & Hid & ->). unfold gcond.
  destruct (Z.eqb_spec (gn_d (gnode ns id)) 1) as [E|E]; cbn [andb].
  - destruct (plan_father _ _ _ _ _ HP id Hid ltac:(lia)) as (p & F1 & F2 & F3). rewrite F1.
    assert (Ep : p = base).
    { destruct (Nat.eq_dec p base) as [H|H]; [exact H|exfalso].
      pose proof (plan_depth _ _ _ _ _ HP p ltac:(lia)). destruct F3 as [F3 _]. lia. }
    subst p. rewrite Nat.eqb_refl. destruct (Z.leb_spec 1 (gn_d (gnode ns id))); [|lia]. cbn [andb].
    unfold greaches. rewrite base_end. unfold ends. rewrite (vertical1 o) by exact E.
    destruct o; [reflexivity|reflexivity|contradiction HO; reflexivity].
  - destruct (gn_f (gnode ns id)) as [q|] eqn:Ef; [|reflexivity].
    destruct (Nat.eqb_spec q base) as [->|]; [|reflexivity]. cbn [andb].
    destruct (Z.leb_spec 1 (gn_d (gnode ns id))) as [Hd|]; [exfalso|reflexivity].
    destruct (plan_child _ _ _ _ _ HP id base Hid Ef Hd) as (_ & H & _).
    destruct (gp_usable _ _ _ _ _ HP) as [E0 _]. lia.
Qed.

Lemma cnt_other : forall p, p <> base -> gn_d (gnode ns p) = 0 -> gcuts_in o ns p = 0.
Proof.
  intros p Hp Hd. unfold gcuts_in. destruct (filter _ ns) as [|n l] eqn:E; [reflexivity|exfalso].
  assert (Hn : In n (n :: l)) by (left; reflexivity). rewrite <- E in Hn. apply filter_In in Hn. destruct Hn as [Hn Hc].
  apply plan_in in Hn. destruct Hn as (id & Hid & ->).
  destruct (gn_f (gnode ns id)) as [q|] eqn:Ef; [|discriminate].
  apply andb_true_iff in Hc. destruct Hc as [Hc _]. apply andb_true_iff in Hc. destruct Hc as [Hc Hd1].
  apply Nat.eqb_eq in Hc. subst q. apply Z.leb_le in Hd1.
  destruct (plan_child _ _ _ _ _ HP id p Hid Ef Hd1) as (H & _).
  pose proof (plan_depth _ _ _ _ _ HP p ltac:(lia)). lia.
Qed.

Lemma number1_run : forall l count ok, 0 <= gp_number1 (gin_params i) -> (forall n, In n l -> In n ns) ->
  fold_left (gnumber1_step (gin_params i) o (gbin_end (gbin i (gv_type v)) o)) l (count, ok)
  = (count + gcnt o ns l base,
     if gcnt o ns l base =? 0 then ok else if gp_number1 (gin_params i) <? count + gcnt o ns l base then false else ok).
Proof.
  intros l count ok HN. induction l as [|n l IH] using rev_ind; intros Hin.
  - cbn [fold_left]. unfold gcnt. cbn [filter length Z.of_nat Z.eqb]. rewrite Z.add_0_r. reflexivity.
  - rewrite fold_left_app, IH by (intros m Hm; apply Hin, in_or_app; left; exact Hm). cbn [fold_left].
    rewrite gcnt_snoc. unfold gnumber1_step. apply Z.leb_le in HN. rewrite HN. cbn [andb].
    rewrite (first_cond n) by (apply Hin, in_or_app; right; left; reflexivity).
    assert (P : 0 <= gcnt o ns l base) by (unfold gcnt; lia).
    destruct (gcond o ns base n).
    + rewrite Z.add_assoc. f_equal. destruct (Z.eqb_spec (gcnt o ns l base + 1) 0); [lia|].
      destruct (Z.eqb_spec (gcnt o ns l base) 0); [reflexivity|].
      destruct (Z.ltb_spec (gp_number1 (gin_params i)) (count + gcnt o ns l base + 1)); [reflexivity|].
      destruct (Z.ltb_spec (gp_number1 (gin_params i)) (count + gcnt o ns l base)); [lia|reflexivity].
    + rewrite Z.add_0_r. reflexivity.
Qed.

End Cuts.

Lemma number1_fold : forall i v ok, plan_ok i v -> gsane_end (gbin i (gv_type v)) ->
  snd (fold_left (gnumber1_step (gin_params i) (gv_orient v) (gbin_end (gbin i (gv_type v)) (gv_orient v))) (gv_nodes v) (0, ok)) = true
  <-> ok = true /\ gfirst_cuts_ok i v.
Proof.
  intros i v ok (base & HP & _) HT. unfold gfirst_cuts_ok.
  assert (S : forall l, (gv_orient v = GAny \/ gp_number1 (gin_params i) < 0) -> forall count,
    fold_left (gnumber1_step (gin_params i) (gv_orient v) (gbin_end (gbin i (gv_type v)) (gv_orient v))) l (count, ok) = (count, ok)).
  { intros l H count. induction l as [|n l IH]; [reflexivity|]. cbn [fold_left].
    assert (E : gnumber1_step (gin_params i) (gv_orient v) (gbin_end (gbin i (gv_type v)) (gv_orient v)) (count, ok) n = (count, ok)).
    { unfold gnumber1_step. destruct H as [->|H].
      - cbn [gend1 gtest]. rewrite andb_false_r. reflexivity.
      - destruct (Z.leb_spec 0 (gp_number1 (gin_params i))); [lia|reflexivity]. }
    rewrite E. exact IH. }
  destruct (Z_lt_ge_dec (gp_number1 (gin_params i)) 0) as [HN|HN].
  { rewrite S by (right; exact HN). cbn [snd]. split; [intros H; split; [exact H|intros; lia]|intros [H _]; exact H]. }
  assert (D : gv_orient v = GAny \/ gv_orient v <> GAny) by (destruct (gv_orient v); [right|right|left]; congruence).
  destruct D as [D|D].
  { rewrite S by (left; exact D). cbn [snd]. split; [intros H; split; [exact H|intros; contradiction]|intros [H _]; exact H]. }
  rewrite (number1_run i v base HP HT D) by (try lia; auto). cbn [snd]. rewrite Z.add_0_l.
  change (gcnt (gv_orient v) (gv_nodes v) (gv_nodes v) base) with (gcuts_in (gv_orient v) (gv_nodes v) base).
  assert (A : (if gcuts_in (gv_orient v) (gv_nodes v) base =? 0 then ok
     else if gp_number1 (gin_params i) <? gcuts_in (gv_orient v) (gv_nodes v) base then false else ok) = true
     <-> ok = true /\ gcuts_in (gv_orient v) (gv_nodes v) base <= gp_number1 (gin_params i)).
  { destruct (Z.eqb_spec (gcuts_in (gv_orient v) (gv_nodes v) base) 0); [split; [intros H; split; [exact H|lia]|tauto]|].
    destruct (Z.ltb_spec (gp_number1 (gin_params i)) (gcuts_in (gv_orient v) (gv_nodes v) base));
      [split; [discriminate|intros [_ H']; lia]|split; [intros H'; split; assumption|tauto]]. }
  rewrite A. split; intros [H1 H2]; (split; [exact H1|]).
  - intros _ _ p Hp Hd. destruct (Nat.eq_dec p base) as [->|Hne]; [exact H2|].
    rewrite (cnt_other i v base HP p Hne Hd). lia.
  - apply (H2 ltac:(lia) D base (gp_base _ _ _ _ _ HP)). apply (gp_usable _ _ _ _ _ HP).
Qed.

(** The last part of depth 1 in a prefix. *)
Definition last1 (ns : list GNode) (k q : nat) : Prop :=
  (q < k)%nat /\ gn_d (gnode ns q) = 1 /\ forall j, (q < j < k)%nat -> gn_d (gnode ns j) <> 1.

Section Second.

Variable i : GInstance.
Variable v : GView.
Variable base : nat.
Let ns := gv_nodes v.
Let o := gv_orient v.
Let N := gp_number2 (gin_params i).
Hypothesis HP : guillotine_plan i (gv_type v) o ns base.
Hypothesis HD : depth_first ns base.
Hypothesis HO : o <> GAny.
Hypothesis HN : 0 <= N.
Variable ok0 : bool.

Definition run2 (k : nat) : Z * Z * bool := fold_left (gnumber2_step (gin_params i) o) (firstn k ns) (-1, 0, ok0).

Lemma firstn_next : forall k, (k < length ns)%nat -> firstn (S k) ns = firstn k ns ++ [gnode ns k].
Proof.
  intros k. unfold gnode. generalize ns. clear. induction k as [|k IH]; intros [|n l] H; cbn [length] in H; try lia; [reflexivity|].
  cbn [firstn nth app]. f_equal. apply (IH l). lia.
Qed.

Lemma cond_depth : forall id p, (id < length ns)%nat -> gn_d (gnode ns p) = 1 -> gcond o ns p (gnode ns id) = true ->
  gn_d (gnode ns id) = 2 /\ gn_f (gnode ns id) = Some p /\ (p < id)%nat.
Proof.
  intros id p Hid Hp Hc. unfold gcond in Hc. destruct (gn_f (gnode ns id)) as [q|] eqn:Ef; [|discriminate].
  apply andb_true_iff in Hc. destruct Hc as [Hc _]. apply andb_true_iff in Hc. destruct Hc as [Hc Hd].
  apply Nat.eqb_eq in Hc. subst q. apply Z.leb_le in Hd.
  destruct (plan_child _ _ _ _ _ HP id p Hid Ef Hd) as (H1 & H2 & _). split; [lia|]. split; [reflexivity|lia].
Qed.

Lemma cnt_future : forall k p, (k <= length ns)%nat -> (k <= p)%nat -> gn_d (gnode ns p) = 1 -> gcnt o ns (firstn k ns) p = 0.
Proof.
  intros k p Hk Hp Hd. induction k as [|k IH]; [reflexivity|]. rewrite firstn_next by lia. rewrite gcnt_snoc.
  rewrite IH by lia. destruct (gcond o ns p (gnode ns k)) eqn:E; [exfalso|reflexivity].
  destruct (cond_depth k p ltac:(lia) Hd E) as (_ & _ & H). lia.
Qed.

Lemma run2_inv : forall k, (k <= length ns)%nat ->
  let '(pe, count, ok) := run2 k in
  (forall q, last1 ns k q -> pe = father_end o (gnode ns q) /\ count = gcnt o ns (firstn k ns) q)
  /\ (ok = true <-> ok0 = true /\ forall p, (p < k)%nat -> gn_d (gnode ns p) = 1 -> gcnt o ns (firstn k ns) p <= N).
Proof.
  induction k as [|k IH]; intros Hk.
  - unfold run2. cbn [firstn fold_left]. split; [intros q (H & _); lia|]. split; [intros H; split; [exact H|lia]|tauto].
  - specialize (IH ltac:(lia)). unfold run2 in *. rewrite firstn_next by lia. rewrite fold_left_app. cbn [fold_left].
    destruct (fold_left _ (firstn k ns) _) as [[pe count] ok]. destruct IH as [I1 I2].
    unfold gnumber2_step. fold N. apply Z.leb_le in HN. rewrite HN. apply Z.leb_le in HN.
    set (n := gnode ns k).
    destruct (Z.eqb_spec (gn_d n) 1) as [E1|E1].
    { (* a part of depth 1 *)
      destruct (Z.eqb_spec (gn_d n) 2) as [E2|E2]; [lia|]. cbn [andb].
      assert (C : forall p, gn_d (gnode ns p) = 1 -> gcond o ns p n = false).
      { intros p Hp. destruct (gcond o ns p n) eqn:E; [|reflexivity].
        destruct (cond_depth k p ltac:(lia) Hp E) as (H & _). fold n in H. lia. }
      split.
      - intros q (Q1 & Q2 & Q3). assert (q = k).
        { destruct (Nat.eq_dec q k) as [H|H]; [exact H|exfalso]. apply (Q3 k ltac:(lia)). exact E1. }
        subst q. fold n. split.
        + unfold father_end. rewrite (vertical2 o) by lia. destruct o; [reflexivity|reflexivity|contradiction HO; reflexivity].
        + rewrite gcnt_snoc, (C k E1), (cnt_future k k) by (try exact E1; lia). reflexivity.
      - rewrite I2. split; intros [H1 H2]; (split; [exact H1|]); intros p Hp Hd.
        + rewrite gcnt_snoc, (C p Hd), Z.add_0_r. destruct (Nat.eq_dec p k) as [->|Hne].
          * rewrite (cnt_future k k) by (try exact Hd; lia). exact HN.
          * apply H2; [lia|exact Hd].
        + specialize (H2 p ltac:(lia) Hd). rewrite gcnt_snoc, (C p Hd), Z.add_0_r in H2. exact H2. }
    assert (L : forall q, last1 ns (S k) q -> last1 ns k q).
    { intros q (Q1 & Q2 & Q3). assert (q <> k) by (intros ->; fold n in Q2; lia).
      split; [lia|]. split; [exact Q2|]. intros j Hj. apply Q3. lia. }
    assert (K : forall p, (p < S k)%nat -> gn_d (gnode ns p) = 1 -> (p < k)%nat).
    { intros p Hp Hd. assert (p <> k) by (intros ->; fold n in Hd; lia). lia. }
    destruct (Z.eqb_spec (gn_d n) 2) as [E2|E2]; cbn [andb].
    + (* a part of depth 2 *)
      destruct (plan_father _ _ _ _ _ HP k ltac:(lia) ltac:(fold n; lia)) as (p0 & F1 & F2 & F3).
      assert (Hp0 : gn_d (gnode ns p0) = 1) by (destruct F3 as [F3 _]; fold n in F3; lia).
      assert (L0 : last1 ns k p0).
      { split; [lia|]. split; [exact Hp0|]. intros j Hj Hdj.
        assert (Hb : (base < k)%nat) by lia.
        pose proof (HD k p0 j ltac:(lia) F1 Hj) as H. fold n in H. lia. }
      destruct (I1 p0 L0) as [P1 P2].
      assert (C : forall p, gn_d (gnode ns p) = 1 ->
        gcond o ns p n = Nat.eqb p p0 && gtest (gend2 o n) (fun e => negb (e =? pe))).
      { intros p Hp. unfold gcond. fold n in F1. rewrite F1. destruct (Nat.eqb_spec p0 p) as [->|Hne].
        - rewrite Nat.eqb_refl. destruct (Z.leb_spec 1 (gn_d n)); [|lia]. cbn [andb]. unfold greaches. rewrite <- P1.
          unfold ends. rewrite (vertical2 o) by exact E2. destruct o; [reflexivity|reflexivity|contradiction HO; reflexivity].
        - assert (En : Nat.eqb p p0 = false) by (apply Nat.eqb_neq; congruence). rewrite En. reflexivity. }
      assert (U : forall q, last1 ns k q -> q = p0).
      { intros q (Q1 & Q2 & Q3). destruct L0 as (R1 & R2 & R3).
        destruct (lt_eq_lt_dec q p0) as [[H|H]|H]; [exfalso; apply (Q3 p0 ltac:(lia)); exact R2|exact H|exfalso; apply (R3 q ltac:(lia)); exact Q2]. }
      destruct (gtest (gend2 o n) (fun e => negb (e =? pe))) eqn:T.
      * split.
        -- intros q Hq. pose proof (U q (L q Hq)) as ->. split; [exact P1|].
           rewrite gcnt_snoc, (C p0 Hp0), Nat.eqb_refl. cbn [andb]. lia.
        -- assert (A : (if N <? count + 1 then false else ok) = true <-> ok = true /\ gcnt o ns (firstn k ns) p0 + 1 <= N).
           { destruct (Z.ltb_spec N (count + 1)); [split; [discriminate|intros [_ H']; lia]|split; [intros H'; split; [exact H'|lia]|tauto]]. }
           rewrite A, I2. split.
           ++ intros [[H1 H2] H3]. split; [exact H1|]. intros p Hp Hd. rewrite gcnt_snoc, (C p Hd).
              destruct (Nat.eqb_spec p p0) as [->|Hne]; cbn [andb]; [exact H3|]. specialize (H2 p (K p Hp Hd) Hd). lia.
           ++ intros [H1 H2]. split; [split; [exact H1|]|].
              ** intros p Hp Hd. specialize (H2 p ltac:(lia) Hd). rewrite gcnt_snoc in H2. destruct (gcond o ns p n); lia.
              ** specialize (H2 p0 ltac:(lia) Hp0). rewrite gcnt_snoc, (C p0 Hp0), Nat.eqb_refl in H2. exact H2.
      * split.
        -- intros q Hq. pose proof (U q (L q Hq)) as ->. split; [exact P1|].
           rewrite gcnt_snoc, (C p0 Hp0), andb_false_r, Z.add_0_r. exact P2.
        -- rewrite I2. split; intros [H1 H2]; (split; [exact H1|]); intros p Hp Hd.
           ++ rewrite gcnt_snoc, (C p Hd), andb_false_r, Z.add_0_r. apply H2; [apply K; assumption|exact Hd].
           ++ specialize (H2 p ltac:(lia) Hd). rewrite gcnt_snoc, (C p Hd), andb_false_r, Z.add_0_r in H2. exact H2.
    + assert (C : forall p, gn_d (gnode ns p) = 1 -> gcond o ns p n = false).
      { intros p Hp. destruct (gcond o ns p n) eqn:E; [|reflexivity].
        destruct (cond_depth k p ltac:(lia) Hp E) as (H & _). fold n in H. lia. }
      split.
      * intros q Hq. destruct (I1 q (L q Hq)) as [P1 P2]. split; [exact P1|].
        rewrite gcnt_snoc, (C q) by (destruct Hq as (_ & H & _); exact H). rewrite Z.add_0_r. exact P2.
      * rewrite I2. split; intros [H1 H2]; (split; [exact H1|]); intros p Hp Hd.
        -- rewrite gcnt_snoc, (C p Hd), Z.add_0_r. apply H2; [apply K; assumption|exact Hd].
        -- specialize (H2 p ltac:(lia) Hd). rewrite gcnt_snoc, (C p Hd), Z.add_0_r in H2. exact H2.
Qed.

End Second.

Lemma number2_fold : forall i v ok, plan_ok i v ->
  snd (fold_left (gnumber2_step (gin_params i) (gv_orient v)) (gv_nodes v) (-1, 0, ok)) = true
  <-> ok = true /\ gsecond_cuts_ok i v.
Proof.
  intros i v ok (base & HP & HD). unfold gsecond_cuts_ok.
  assert (S : forall l, (gv_orient v = GAny \/ gp_number2 (gin_params i) < 0) -> forall st,
    snd (fold_left (gnumber2_step (gin_params i) (gv_orient v)) l st) = snd st).
  { intros l H. induction l as [|n l IH]; intros st; [reflexivity|]. cbn [fold_left]. rewrite IH.
    unfold gnumber2_step. destruct st as [[pe count] ok']. destruct H as [->|H].
    - cbn [gend2 gtest]. destruct (0 <=? _); [|reflexivity]. destruct (gn_d n =? 1); rewrite andb_false_r; reflexivity.
    - destruct (Z.leb_spec 0 (gp_number2 (gin_params i))); [lia|reflexivity]. }
  destruct (Z_lt_ge_dec (gp_number2 (gin_params i)) 0) as [HN|HN].
  { rewrite S by (right; exact HN). cbn [snd]. split; [intros H; split; [exact H|intros; lia]|intros [H _]; exact H]. }
  assert (D : gv_orient v = GAny \/ gv_orient v <> GAny) by (destruct (gv_orient v); [right|right|left]; congruence).
  destruct D as [D|D].
  { rewrite S by (left; exact D). cbn [snd]. split; [intros H; split; [exact H|intros; contradiction]|intros [H _]; exact H]. }
  pose proof (run2_inv i v base HP HD D ltac:(lia) ok (length (gv_nodes v)) (le_n _)) as R. unfold run2 in R.
  rewrite firstn_all in R. destruct (fold_left _ (gv_nodes v) _) as [[pe count] ok']. destruct R as [_ R]. cbn [snd]. rewrite R.
  split; intros [H1 H2]; (split; [exact H1|]).
  - intros _ _ p Hp Hd. exact (H2 p Hp Hd).
  - intros p Hp Hd. exact (H2 ltac:(lia) D p Hp Hd).
Qed.

(** ** Cutting cost *)

Lemma cutting_fold : forall i v copies start, plan_ok i v -> gv_orient v <> GAny -> gin_objective i = OBinPackingCuttingCost ->
  fold_left (gcutting_step (gin_objective i) (gin_params i) (gv_orient v) copies (gv_nodes v)) (gv_nodes v) start
  = start + copies * zsum (gcut_cost i (gv_orient v) (gv_nodes v)) (gv_nodes v).
Proof.
  intros i v copies start (base & HP & _) HO Hobj. rewrite Hobj.
  assert (G : forall l start, (forall n, In n l -> In n (gv_nodes v)) ->
    fold_left (gcutting_step OBinPackingCuttingCost (gin_params i) (gv_orient v) copies (gv_nodes v)) l start
    = start + copies * zsum (gcut_cost i (gv_orient v) (gv_nodes v)) l).
  { induction l as [|n l IH]; intros s Hin; cbn [fold_left]; [rewrite zsum_nil; lia|].
    rewrite IH by (intros m Hm; apply Hin; right; exact Hm). rewrite zsum_cons.
    assert (E : gcutting_step OBinPackingCuttingCost (gin_params i) (gv_orient v) copies (gv_nodes v) s n
      = s + copies * gcut_cost i (gv_orient v) (gv_nodes v) n); [|rewrite E; lia].
    specialize (Hin n (or_introl eq_refl)). apply plan_in in Hin. destruct Hin as (id & Hid & ->).
    unfold gcutting_step, gcut_cost. cbv zeta. destruct (Z.leb_spec 1 (gn_d (gnode (gv_nodes v) id))) as [Hd|Hd]; cbn [andb].
    2: { destruct (gn_f _); lia. }
    destruct (plan_father _ _ _ _ _ HP id Hid Hd) as (p & F1 & F2 & F3). rewrite F1.
    destruct (Z.leb_spec (gn_d (gnode (gv_nodes v) id)) 4) as [Hd4|Hd4]; cbn [andb]; [|lia].
    destruct F3 as [F3 _]. rewrite odd_mod. unfold greaches, gcut_length, ends, father_end, gheight_of, gwidth_of. rewrite <- F3.
    unfold vertical_at. destruct (gv_orient v); [| |contradiction HO; reflexivity].
    - rewrite Z.negb_odd. destruct (Z.even _).
      + destruct (_ =? _); cbn [negb]; lia.
      + destruct (_ =? _); cbn [negb]; lia.
    - destruct (Z.odd _).
      + destruct (_ =? _); cbn [negb]; lia.
      + destruct (_ =? _); cbn [negb]; lia. }
  apply G. auto.
Qed.

Lemma cutting_other : forall obj p o copies ns l start, obj <> OBinPackingCuttingCost ->
  fold_left (gcutting_step obj p o copies ns) l start = start.
Proof.
  intros obj p o copies ns l start H. induction l as [|n l IH]; [reflexivity|]. cbn [fold_left].
  replace (gcutting_step obj p o copies ns start n) with start; [exact IH|]. unfold gcutting_step. destruct obj; try reflexivity. congruence.
Qed.

(** ** Stages *)

Lemma same_rect : forall n m, gsame_rect n m = true <-> grect n = grect m.
Proof.
  intros n m. unfold gsame_rect, grect. rewrite !andb_true_iff, !Z.eqb_eq. split.
  - intros (((-> & ->) & ->) & ->). reflexivity.
  - intros H. inversion H. auto.
Qed.

Lemma stages_real : forall ns, gstages_are ns (gstages_real ns 0).
Proof.
  intros ns. unfold gstages_are, gstages_real. set (A := gactual ns). 
  assert (G : forall l, 
    let s := fold_left (fun s n => match gn_f n with
      | Some f => if gsame_rect n (gnode ns f) then s else Z.max s (gn_d n) | None => Z.max s (gn_d n) end) l 0 in
    0 <= s /\ (forall n, In n l -> A n -> gn_d n <= s) /\ (s = 0 \/ exists n, In n l /\ A n /\ gn_d n = s)).
  { induction l as [|n l IH] using rev_ind.
    - cbn [fold_left]. split; [lia|]. split; [intros n []|left; reflexivity].
    - cbv zeta in *. rewrite fold_left_app. cbn [fold_left]. set (s := fold_left _ l 0) in *. destruct IH as (I1 & I2 & I3).
      assert (D : A n \/ ~ A n).
      { unfold A, gactual. destruct (gn_f n) as [f|]; [|left; exact I].
        destruct (gsame_rect n (gnode ns f)) eqn:E; [right|left]; rewrite <- same_rect, E; [tauto|discriminate]. }
      assert (E : (match gn_f n with Some f => if gsame_rect n (gnode ns f) then s else Z.max s (gn_d n) | None => Z.max s (gn_d n) end)
        = if gn_f n then (if match gn_f n with Some f => gsame_rect n (gnode ns f) | None => false end then s else Z.max s (gn_d n)) else Z.max s (gn_d n))
        by (destruct (gn_f n); reflexivity).
      assert (E' : A n -> (match gn_f n with Some f => if gsame_rect n (gnode ns f) then s else Z.max s (gn_d n) | None => Z.max s (gn_d n) end) = Z.max s (gn_d n)).
      { unfold A, gactual. destruct (gn_f n) as [f|]; [|reflexivity]. intros H. destruct (gsame_rect n (gnode ns f)) eqn:E2; [|reflexivity].
        apply same_rect in E2. contradiction. }
      assert (E'' : ~ A n -> (match gn_f n with Some f => if gsame_rect n (gnode ns f) then s else Z.max s (gn_d n) | None => Z.max s (gn_d n) end) = s).
      { unfold A, gactual. destruct (gn_f n) as [f|]; [|intros H; contradiction H; exact I]. intros H. destruct (gsame_rect n (gnode ns f)) eqn:E2; [reflexivity|].
        exfalso. apply H. intros E3. apply same_rect in E3. congruence. }
      destruct D as [D|D]; [rewrite (E' D)|rewrite (E'' D)].
      + split; [lia|]. split.
        * intros m Hm HA. apply in_app_or in Hm. destruct Hm as [Hm|[<-|[]]]; [specialize (I2 m Hm HA); lia|lia].
        * destruct (Z_le_gt_dec (gn_d n) s) as [Hle|Hgt].
          -- rewrite Z.max_l by lia. destruct I3 as [I3|(m & M1 & M2 & M3)]; [left; exact I3|right].
             exists m. split; [apply in_or_app; left; exact M1|auto].
          -- right. exists n. split; [apply in_or_app; right; left; reflexivity|]. split; [exact D|lia].
      + split; [exact I1|]. split.
        * intros m Hm HA. apply in_app_or in Hm. destruct Hm as [Hm|[<-|[]]]; [exact (I2 m Hm HA)|contradiction].
        * destruct I3 as [I3|(m & M1 & M2 & M3)]; [left; exact I3|right]. exists m. split; [apply in_or_app; left; exact M1|auto]. }
  exact (G ns).
Qed.

Lemma stages_unique : forall ns s s', gstages_are ns s -> gstages_are ns s' -> s = s'.
Proof.
  assert (L : forall ns s s', gstages_are ns s -> gstages_are ns s' -> s <= s').
  { intros ns s s' (_ & _ & [->|(n & H1 & H2 & <-)]) (H3 & H4 & _); [exact H3|exact (H4 n H1 H2)]. }
  intros ns s s' H H'. pose proof (L _ _ _ H H'). pose proof (L _ _ _ H' H). lia.
Qed.

(** The classification of the nodes cut at the last stage. *)
Definition glast_b (s : Z) (n : GNode) : bool := (gn_item n =? -2) && (gn_d n =? s - 1).
Definition gtrim_b (ns : list GNode) (n : GNode) : bool :=
  Nat.eqb (length (gitem_parts ns n)) 1 && Nat.leb (length (gparts ns n)) 2.
Definition gsplit_b (ns : list GNode) (n : GNode) : bool :=
  Nat.leb 2 (length (gitem_parts ns n)) && Nat.leb (length (gparts ns n)) 3.

Lemma filter_map' : forall (A B : Type) (f : A -> B) (P : B -> bool) l, filter P (map f l) = map f (filter (fun x => P (f x)) l).
Proof. intros A B f P l. induction l as [|x l IH]; [reflexivity|]. cbn [map filter]. rewrite IH. destruct (P (f x)); reflexivity. Qed.

Lemma last_spec : forall s n, glast_b s n = true <-> glast_cut s n.
Proof. intros s n. unfold glast_b, glast_cut. rewrite andb_true_iff, !Z.eqb_eq. tauto. Qed.
Lemma trim_spec : forall ns n, gtrim_b ns n = true <-> gtrimming ns n.
Proof. intros ns n. unfold gtrim_b, gtrimming. rewrite andb_true_iff, Nat.eqb_eq, Nat.leb_le. tauto. Qed.
Lemma split_spec : forall ns n, gsplit_b ns n = true <-> gsplitting ns n.
Proof. intros ns n. unfold gsplit_b, gsplitting. rewrite andb_true_iff, !Nat.leb_le. tauto. Qed.

Lemma classify_spec : forall ns s,
  gclassify ns s =
  (forallb (fun n => negb (glast_b s n) || gtrim_b ns n) ns,
   forallb (fun n => negb (glast_b s n) || gtrim_b ns n || gsplit_b ns n) ns,
   existsb (fun n => glast_b s n && negb (gtrim_b ns n) && gsplit_b ns n) ns,
   existsb (glast_b s) ns).
Proof.
  intros ns s. unfold gclassify.
  match goal with |- fold_left ?f ns _ = _ => set (step := f) end.
  assert (G : forall l a b c d, fold_left step l (a, b, c, d) =
    (a && forallb (fun n => negb (glast_b s n) || gtrim_b ns n) l,
     b && forallb (fun n => negb (glast_b s n) || gtrim_b ns n || gsplit_b ns n) l,
     c || existsb (fun n => glast_b s n && negb (gtrim_b ns n) && gsplit_b ns n) l,
     d || existsb (glast_b s) l)).
  { induction l as [|n l IH]; intros a b c d; cbn [fold_left forallb existsb].
    { rewrite !andb_true_r, !orb_false_r. reflexivity. }
    assert (E : step (a, b, c, d) n = if glast_b s n then
        (a && gtrim_b ns n, b && (gtrim_b ns n || gsplit_b ns n), c || (negb (gtrim_b ns n) && gsplit_b ns n), true) else (a, b, c, d)).
    { unfold step, glast_b, gtrim_b, gsplit_b, gitem_parts, gparts. rewrite !filter_map', !map_length.
      destruct (gn_item n =? -2); destruct (gn_d n =? s - 1); cbn [negb orb andb]; try reflexivity.
      destruct (Nat.eqb _ 1 && Nat.leb _ 2); cbn [negb orb andb].
      - rewrite !andb_true_r, orb_false_r. reflexivity.
      - destruct (Nat.leb 2 _ && Nat.leb _ 3); rewrite ?andb_true_r, ?andb_false_r, ?orb_true_r, ?orb_false_r; reflexivity. }
    rewrite E. destruct (glast_b s n); rewrite IH; cbn [negb orb andb]; rewrite <- ?andb_assoc, <- ?orb_assoc; try reflexivity.
    rewrite orb_true_r. reflexivity. }
  rewrite G. reflexivity.
Qed.

Lemma forallb_false : forall (A : Type) (P : A -> bool) l, forallb P l = false -> exists x, In x l /\ P x = false.
Proof.
  intros A P l. induction l as [|x l IH]; cbn [forallb]; intros H; [discriminate|]. apply andb_false_iff in H.
  destruct H as [H|H]; [exists x; split; [left; reflexivity|exact H]|].
  destruct (IH H) as (y & H1 & H2). exists y. split; [right; exact H1|exact H2].
Qed.

(** The number of stages that count, for a bin. *)
Definition geff (i : GInstance) (v : GView) : Z :=
  gs_stages (gstage_bin i (mkGB (gv_type v) (gv_copies v) (gv_orient v) (gv_nodes v) 0 0 false false []) []).

Lemma free_extra : forall i ns s, 0 < s ->
  (let '(non_exact, roadef) :=
    let '(a, b, c, d) := gclassify ns s in if d then (a, b && c) else (false, false) in
   match gp_cut_type (gin_params i) with GNonExact => non_exact | GRoadef2018 => non_exact || roadef | _ => false end) = true
  <-> gfree_stage (gp_cut_type (gin_params i)) ns s.
Proof.
  intros i ns s Hs. rewrite classify_spec. unfold gfree_stage.
  assert (F : existsb (glast_b s) ns = true <-> exists n, In n ns /\ glast_cut s n).
  { rewrite existsb_exists. split; intros (n & H1 & H2); exists n; (split; [exact H1|]); apply last_spec; exact H2. }
  assert (T : forallb (fun n => negb (glast_b s n) || gtrim_b ns n) ns = true <-> forall n, In n ns -> glast_cut s n -> gtrimming ns n).
  { rewrite forallb_forall. split; intros H n Hn.
    - intros HL. specialize (H n Hn). apply last_spec in HL. rewrite HL in H. cbn [negb orb] in H. apply trim_spec. exact H.
    - destruct (glast_b s n) eqn:E; [|reflexivity]. cbn [negb orb]. apply trim_spec, H; [exact Hn|]. apply last_spec. exact E. }
  assert (S : forallb (fun n => negb (glast_b s n) || gtrim_b ns n || gsplit_b ns n) ns = true
    <-> forall n, In n ns -> glast_cut s n -> gtrimming ns n \/ gsplitting ns n).
  { rewrite forallb_forall. split; intros H n Hn.
    - intros HL. specialize (H n Hn). apply last_spec in HL. rewrite HL in H. cbn [negb orb] in H. apply orb_true_iff in H.
      destruct H as [H|H]; [left; apply trim_spec; exact H|right; apply split_spec; exact H].
    - destruct (glast_b s n) eqn:E; [|reflexivity]. cbn [negb orb]. apply last_spec in E. apply orb_true_iff.
      destruct (H n Hn E) as [H'|H']; [left; apply trim_spec; exact H'|right; apply split_spec; exact H']. }
  destruct (existsb (glast_b s) ns) eqn:EF.
  2: { split.
    - destruct (gp_cut_type (gin_params i)); discriminate.
    - intros (_ & H & _). apply F in H. discriminate. }
  assert (HF : exists n, In n ns /\ glast_cut s n) by (apply F; reflexivity).
  destruct (gp_cut_type (gin_params i)).
  - rewrite orb_true_iff, andb_true_iff, T, S. split.
    + intros [H|[H _]]; (split; [exact Hs|split; [exact HF|]]); [intros n Hn HL; left; exact (H n Hn HL)|exact H].
    + intros (_ & _ & H).
      destruct (forallb (fun n => negb (glast_b s n) || gtrim_b ns n) ns) eqn:ET; [left; apply T; reflexivity|].
      right. split; [exact H|]. apply existsb_exists.
      assert (ND : exists n, In n ns /\ (negb (glast_b s n) || gtrim_b ns n) = false).
      { apply forallb_false. exact ET. }
      destruct ND as (n & N1 & N2). apply orb_false_iff in N2. destruct N2 as [N2 N3]. apply negb_false_iff in N2.
      exists n. split; [exact N1|]. rewrite N2, N3. cbn [negb andb]. apply split_spec.
      destruct (H n N1 ltac:(apply last_spec; exact N2)) as [H'|H']; [apply trim_spec in H'; congruence|exact H'].
  - rewrite T. split; [intros H; split; [exact Hs|split; [exact HF|exact H]]|intros (_ & _ & H); exact H].
  - split; [discriminate|intros (_ & _ & [])].
  - split; [discriminate|intros (_ & _ & [])].
Qed.

Lemma eff_spec : forall i v, 0 <= geff i v /\ (geff i v <= gp_stages (gin_params i) <-> gstages_ok i v).
Proof.
  intros i v. unfold geff, gstage_bin. cbn [gs_nodes gs_stages_real gs_non_exact gs_roadef].
  pose proof (stages_real (gv_nodes v)) as HS. set (s := gstages_real (gv_nodes v) 0) in *.
  assert (Hs : 0 <= s) by (destruct HS; assumption).
  assert (OK : gstages_ok i v <-> (s <= gp_stages (gin_params i)
     \/ (s - 1 <= gp_stages (gin_params i) /\ gfree_stage (gp_cut_type (gin_params i)) (gv_nodes v) s))).
  { unfold gstages_ok. split; [intros (s' & H1 & H2); rewrite (stages_unique _ _ _ HS H1); exact H2|intros H; exists s; auto]. }
  rewrite OK. destruct (Z.ltb_spec 0 s) as [Hpos|Hz].
  - pose proof (free_extra i (gv_nodes v) s Hpos) as FE.
    destruct (let '(a, b, c, d) := gclassify (gv_nodes v) s in if d then (a, b && c) else (false, false)) as [ne rd].
    cbn [gs_stages]. destruct (match gp_cut_type (gin_params i) with GRoadef2018 => ne || rd | GNonExact => ne | _ => false end).
    + split; [lia|]. split; [intros H; right; split; [exact H|apply FE; reflexivity]|]. intros [H|[H _]]; lia.
    + split; [lia|]. split; [intros H; left; exact H|]. intros [H|[_ H]]; [exact H|]. apply FE in H. discriminate.
  - cbn [gs_stages]. assert (E : (match gp_cut_type (gin_params i) with GRoadef2018 => false || false | GNonExact => false | _ => false end) = false)
      by (destruct (gp_cut_type (gin_params i)); reflexivity).
    rewrite E. split; [exact Hs|]. split; [intros H; left; exact H|]. intros [H|[_ (H & _)]]; lia.
Qed.
