(** * Appending bins to a guillotine solution: proofs *)

From Coq Require Import List ZArith QArith Bool Lia Arith.
From Verif Require Import Util Common_Model Common_Spec OneDim_Model Guil_Model Guil_Spec Guil_Proof GuilPlan_Proof.
From Verif Require Import GuilSol_Model GuilSol_Spec GuilSol_Proof GuilSolCore_Proof GuilWaste_Proof GuilAppend_Spec.
Import ListNotations.
Open Scope Z_scope.

(** ** Settling *)

Lemma settle_geo : forall n, gn_f (gsettle_node n) = gn_f n /\ gn_d (gsettle_node n) = gn_d n
  /\ gn_l (gsettle_node n) = gn_l n /\ gn_r (gsettle_node n) = gn_r n /\ gn_b (gsettle_node n) = gn_b n
  /\ gn_t (gsettle_node n) = gn_t n /\ gn_children (gsettle_node n) = gn_children n.
Proof. intros n. unfold gsettle_node. destruct (_ =? _); simpl; auto 10. Qed.

Lemma settle_item : forall n, (gn_item n = -3 /\ gn_item (gsettle_node n) = -1) \/ (gn_item n <> -3 /\ gsettle_node n = n).
Proof. intros n. unfold gsettle_node. destruct (Z.eqb_spec (gn_item n) (-3)); simpl; auto. Qed.

Lemma settle_idem : forall n, gsettle_node (gsettle_node n) = gsettle_node n.
Proof.
  intros n. destruct (settle_item n) as [[H1 H2]|[H1 H2]]; [|rewrite !H2; reflexivity].
  unfold gsettle_node at 1. rewrite H2. reflexivity.
Qed.

Lemma settle_gnode : forall ns id, gnode (map gsettle_node ns) id = gsettle_node (gnode ns id).
Proof. intros ns id. unfold gnode. change gdummy_node with (gsettle_node gdummy_node) at 1. apply map_nth. Qed.

Lemma settle_view_idem : forall v, gsettle_view (gsettle_view v) = gsettle_view v.
Proof.
  intros [t k o ns]. unfold gsettle_view. cbn [gv_type gv_copies gv_orient gv_nodes]. f_equal. rewrite map_map.
  apply map_ext. apply settle_idem.
Qed.

Lemma settle_nores : forall ns, nores ns -> map gsettle_node ns = ns.
Proof.
  intros ns H. induction H as [|n ns Hn H IH]; [reflexivity|]. cbn [map]. rewrite IH. f_equal.
  unfold gsettle_node. destruct (Z.eqb_spec (gn_item n) (-3)); [contradiction|reflexivity].
Qed.

Lemma settled_nores : forall ns, nores (map gsettle_node ns).
Proof.
  intros ns. apply Forall_forall. intros n Hn. apply in_map_iff in Hn. destruct Hn as (m & <- & _).
  destruct (settle_item m) as [[_ ->]|[H ->]]; [discriminate|exact H].
Qed.

Lemma settle_is_item : forall n, gis_item (gsettle_node n) = gis_item n.
Proof.
  intros n. destruct (settle_item n) as [[H1 H2]|[_ ->]]; [|reflexivity].
  unfold gis_item. destruct (settle_geo n) as (-> & _). rewrite H1, H2. reflexivity.
Qed.

Lemma settle_item_nodes : forall ns, item_nodes (map gsettle_node ns) = item_nodes ns.
Proof.
  intros ns. unfold item_nodes. induction ns as [|n ns IH]; [reflexivity|]. cbn [map filter]. rewrite settle_is_item, IH.
  destruct (gis_item n) eqn:E; [|reflexivity]. f_equal.
  destruct (settle_item n) as [[H1 _]|[_ H]]; [|exact H].
  unfold gis_item in E. destruct (gn_f n); [|discriminate]. rewrite H1 in E. discriminate.
Qed.

Lemma settle_items : forall v, gv_items (gsettle_view v) = gv_items v.
Proof. intros v. unfold gv_items, gitems_of. cbn [gsettle_view gv_nodes]. rewrite settle_item_nodes. reflexivity. Qed.

Lemma settle_cut : forall o p c, cut_from o (gsettle_node p) (gsettle_node c) <-> cut_from o p c.
Proof.
  intros o p c. unfold cut_from. destruct (settle_geo p) as (_ & -> & -> & -> & -> & -> & _).
  destruct (settle_geo c) as (_ & -> & -> & -> & -> & -> & _). reflexivity.
Qed.

Lemma settle_plan : forall i t o ns base, guillotine_plan i t o ns base -> guillotine_plan i t o (map gsettle_node ns) base.
Proof.
  intros i t o ns base [H1 H2 H3 H4 H5 H6 H7 H8].
  assert (G : forall id, gnode (map gsettle_node ns) id = gsettle_node (gnode ns id)) by apply settle_gnode.
  constructor; rewrite ?map_length.
  - exact H1.
  - rewrite G. destruct (settle_geo (gnode ns base)) as (_ & -> & -> & -> & -> & -> & _). exact H2.
  - rewrite G. destruct (settle_geo (gnode ns 0)) as (-> & -> & -> & -> & -> & -> & _). exact H3.
  - rewrite G. destruct (settle_geo (gnode ns base)) as (-> & _). exact H4.
  - intros id Hid. rewrite G. destruct (H5 id Hid) as (A1 & A2 & A3). destruct (settle_geo (gnode ns id)) as (-> & -> & _).
    split; [exact A1|]. split; [exact A2|]. destruct (settle_item (gnode ns id)) as [[E _]|[_ ->]]; [lia|exact A3].
  - intros id Hid. destruct (H6 id Hid) as (p & A1 & A2 & A3). exists p. rewrite !G.
    destruct (settle_geo (gnode ns id)) as (-> & _). split; [exact A1|]. split; [exact A2|]. apply settle_cut. exact A3.
  - intros j k Hj Hk Hne. rewrite !G. destruct (settle_geo (gnode ns j)) as (Fj & Dj & Lj & Rj & Bj & Tj & _).
    destruct (settle_geo (gnode ns k)) as (Fk & Dk & Lk & Rk & Bk & Tk & _). rewrite Fj, Fk. intros Hf.
    unfold after. rewrite Dj, Lj, Rj, Bj, Tj, Dk, Lk, Rk, Bk, Tk. exact (H7 j k Hj Hk Hne Hf).
  - intros id x Hid Hc. rewrite G in *.
    assert (E : gsettle_node (gnode ns id) = gnode ns id).
    { destruct (settle_item (gnode ns id)) as [[_ E]|[_ E]]; [|exact E]. destruct Hc as [_ Hc]. lia. }
    rewrite E in *. destruct (H8 id x Hid Hc) as (A1 & A2 & A3 & A4). split; [exact A1|]. split; [exact A2|]. split; [|exact A4].
    intros k Hk. rewrite G. destruct (settle_geo (gnode ns k)) as (-> & _). apply A3. exact Hk.
Qed.

Lemma settle_depth_first : forall ns base, depth_first ns base -> depth_first (map gsettle_node ns) base.
Proof.
  intros ns base H id p k. rewrite map_length, !settle_gnode.
  destruct (settle_geo (gnode ns id)) as (-> & -> & _). destruct (settle_geo (gnode ns k)) as (_ & -> & _). apply H.
Qed.

Lemma settle_view_ok : forall i v, gview_ok i v -> gview_ok i (gsettle_view v).
Proof.
  intros i v (H1 & H2 & base & H3 & H4). split; [exact H1|]. split; [exact H2|]. exists base.
  split; [apply settle_plan; exact H3|apply settle_depth_first; exact H4].
Qed.

(** Children are one level deeper. *)
Definition kids (ns : list GNode) : Prop :=
  forall p c, (p < length ns)%nat -> In c (gn_children (gnode ns p)) -> gn_d (gnode ns c) = gn_d (gnode ns p) + 1.

Lemma settle_kids : forall ns, kids ns -> kids (map gsettle_node ns).
Proof.
  intros ns H p c. rewrite map_length, !settle_gnode. destruct (settle_geo (gnode ns p)) as (_ & -> & _ & _ & _ & _ & ->).
  destruct (settle_geo (gnode ns c)) as (_ & -> & _). apply H.
Qed.

Lemma inv_kids : forall i o ct bt t ns, Inv i o ct (ginit_nodes bt t) (gbase bt) ns -> kids ns.
Proof.
  intros i o ct bt t ns HI p c Hp Hc. destruct (le_lt_dec (gbase bt) p) as [H|H].
  - destruct (iv_children _ _ _ _ _ _ HI p c ltac:(lia) Hc) as [C1 C2].
    destruct (iv_father _ _ _ _ _ _ HI c C1) as (q & Q1 & _ & _ & Q2). rewrite C2 in Q1. injection Q1 as <-. apply Q2.
  - rewrite (iv_before _ _ _ _ _ _ HI p H), init_nochild in Hc by exact H. destruct Hc.
Qed.

(** *** The constraints of a bin *)

Definition bin_sound (v : GView) : Prop := reslast (gv_nodes v) /\ kids (gv_nodes v).

Lemma settle_sound : forall v, bin_sound v -> bin_sound (gsettle_view v).
Proof. intros v [_ H]. split; [apply nores_last, settled_nores|apply settle_kids; exact H]. Qed.

Lemma in_settle : forall ns n, In n (map gsettle_node ns) <-> exists m, In m ns /\ n = gsettle_node m.
Proof. intros ns n. rewrite in_map_iff. split; intros (m & H1 & H2); exists m; split; auto. Qed.

Lemma settle_stages_are : forall ns s, gstages_are (map gsettle_node ns) s <-> gstages_are ns s.
Proof.
  intros ns s. unfold gstages_are.
  assert (A : forall n, gactual (map gsettle_node ns) (gsettle_node n) <-> gactual ns n).
  { intros n. unfold gactual. destruct (settle_geo n) as (-> & _ & L1 & L2 & L3 & L4 & _). destruct (gn_f n) as [f|]; [|reflexivity].
    rewrite settle_gnode. unfold grect. rewrite L1, L2, L3, L4. destruct (settle_geo (gnode ns f)) as (_ & _ & -> & -> & -> & -> & _). reflexivity. }
  assert (D : forall n, gn_d (gsettle_node n) = gn_d n) by (intros n; apply settle_geo).
  split; intros (H1 & H2 & H3); (split; [exact H1|split]).
  - intros n Hn Ha. rewrite <- D. apply H2; [apply in_map; exact Hn|apply A; exact Ha].
  - destruct H3 as [H3|(n & Hn & Ha & Hd)]; [left; exact H3|right]. apply in_settle in Hn. destruct Hn as (m & Hm & ->).
    exists m. split; [exact Hm|]. split; [apply A; exact Ha|rewrite <- D; exact Hd].
  - intros n Hn Ha. apply in_settle in Hn. destruct Hn as (m & Hm & ->). rewrite D. apply H2; [exact Hm|apply A; exact Ha].
  - destruct H3 as [H3|(n & Hn & Ha & Hd)]; [left; exact H3|right]. exists (gsettle_node n). split; [apply in_map; exact Hn|].
    split; [apply A; exact Ha|rewrite D; exact Hd].
Qed.

Lemma settle_parts : forall ns n, reslast ns -> kids ns -> In n ns -> gn_d n <> 0 ->
  gparts (map gsettle_node ns) n = gparts ns n.
Proof.
  intros ns n HR HK Hn Hd. unfold gparts. destruct (In_nth _ _ gdummy_node Hn) as (p & Hp & Ep). change (gnode ns p = n) in Ep.
  assert (G : map (gnode (map gsettle_node ns)) (gn_children n) = map (gnode ns) (gn_children n)).
  { apply map_ext_in. intros c Hc. rewrite settle_gnode. destruct (settle_item (gnode ns c)) as [[E _]|[_ E]]; [exfalso|exact E].
    rewrite <- Ep in Hc. pose proof (HK p c Hp Hc) as D. rewrite Ep in D.
    destruct (le_lt_dec (length ns) c) as [Hl|Hl].
    - unfold gnode in E. rewrite nth_overflow in E by exact Hl. discriminate.
    - destruct (HR c Hl E). lia. }
  rewrite G. reflexivity.
Qed.

Lemma settle_free : forall ct ns s, reslast ns -> kids ns -> 2 <= s ->
  (gfree_stage ct (map gsettle_node ns) s <-> gfree_stage ct ns s).
Proof.
  intros ct ns s HR HK Hs.
  assert (L : forall n, glast_cut s (gsettle_node n) <-> glast_cut s n).
  { intros n. unfold glast_cut. destruct (settle_item n) as [[H1 H2]|[_ ->]]; [|reflexivity]. rewrite H1, H2. split; intros [H _]; discriminate. }
  assert (LE : forall n, glast_cut s n -> gsettle_node n = n).
  { intros n [H _]. destruct (settle_item n) as [[H1 _]|[_ ->]]; [congruence|reflexivity]. }
  assert (P : forall n, In n ns -> glast_cut s n -> gparts (map gsettle_node ns) n = gparts ns n).
  { intros n Hn [_ Hd]. apply settle_parts; try assumption. lia. }
  assert (I : forall (Q : list GNode -> GNode -> Prop), (forall n, In n ns -> glast_cut s n -> (Q (map gsettle_node ns) n <-> Q ns n)) ->
    ((forall n, In n (map gsettle_node ns) -> glast_cut s n -> Q (map gsettle_node ns) n) <-> (forall n, In n ns -> glast_cut s n -> Q ns n))).
  { intros Q HQ. split.
    - intros H n Hn Hl. apply HQ; [exact Hn|exact Hl|]. apply H; [|exact Hl]. rewrite <- (LE n Hl). apply in_map. exact Hn.
    - intros H n Hn Hl. apply in_settle in Hn. destruct Hn as (m & Hm & ->). apply (proj1 (L m)) in Hl. rewrite (LE m Hl) in *.
      apply HQ; [exact Hm|exact Hl|]. apply H; assumption. }
  assert (X : (exists n, In n (map gsettle_node ns) /\ glast_cut s n) <-> exists n, In n ns /\ glast_cut s n).
  { split; intros (n & Hn & Hl).
    - apply in_settle in Hn. destruct Hn as (m & Hm & ->). exists m. split; [exact Hm|apply L; exact Hl].
    - exists n. split; [rewrite <- (LE n Hl); apply in_map; exact Hn|exact Hl]. }
  assert (T : forall n, In n ns -> glast_cut s n -> (gtrimming (map gsettle_node ns) n <-> gtrimming ns n)).
  { intros n Hn Hl. unfold gtrimming, gitem_parts. rewrite (P n Hn Hl). reflexivity. }
  assert (S2 : forall n, In n ns -> glast_cut s n -> (gsplitting (map gsettle_node ns) n <-> gsplitting ns n)).
  { intros n Hn Hl. unfold gsplitting, gitem_parts. rewrite (P n Hn Hl). reflexivity. }
  unfold gfree_stage. rewrite X.
  destruct ct; [|rewrite (I gtrimming T); reflexivity|reflexivity|reflexivity].
  rewrite (I (fun l n => gtrimming l n \/ gsplitting l n)); [reflexivity|].
  intros n Hn Hl. rewrite (T n Hn Hl), (S2 n Hn Hl). reflexivity.
Qed.

Lemma settle_stages : forall i v, 1 <= gp_stages (gin_params i) -> bin_sound v ->
  (gstages_ok i (gsettle_view v) <-> gstages_ok i v).
Proof.
  intros i v H1 [HR HK]. unfold gstages_ok. cbn [gsettle_view gv_nodes].
  split; intros (s & Hs & H); exists s.
  - apply (proj1 (settle_stages_are _ _)) in Hs. split; [exact Hs|]. destruct H as [H|[H2 H3]]; [left; exact H|].
    destruct (Z_le_gt_dec s 1) as [Hle|Hgt]; [left; lia|]. right. split; [exact H2|]. apply (proj1 (settle_free _ _ s HR HK ltac:(lia))) in H3. exact H3.
  - split; [apply settle_stages_are; exact Hs|]. destruct H as [H|[H2 H3]]; [left; exact H|].
    destruct (Z_le_gt_dec s 1) as [Hle|Hgt]; [left; lia|]. right. split; [exact H2|]. apply (proj2 (settle_free _ _ s HR HK ltac:(lia))). exact H3.
Qed.

Lemma settle_forall : forall ns (P : GNode -> Prop), (forall n, In n ns -> (P (gsettle_node n) <-> P n)) ->
  ((forall n, In n (map gsettle_node ns) -> P n) <-> forall n, In n ns -> P n).
Proof.
  intros ns P H. split.
  - intros G n Hn. apply H; [exact Hn|]. apply G, in_map, Hn.
  - intros G n Hn. apply in_settle in Hn. destruct Hn as (m & Hm & ->). apply H; auto.
Qed.

Lemma settle_wastes : forall i v, gwastes_large i (gsettle_view v) <-> gwastes_large i v.
Proof.
  intros i v. unfold gwastes_large. cbn [gsettle_view gv_nodes].
  apply (settle_forall (gv_nodes v) (fun n => 1 <= gn_d n -> gn_item n < 0 ->
    gp_min_waste (gin_params i) <= gwidth_of n /\ gp_min_waste (gin_params i) <= gheight_of n)).
  intros n _. unfold gwidth_of, gheight_of. destruct (settle_item n) as [[H1 H2]|[_ ->]]; [|reflexivity].
  destruct (settle_geo n) as (_ & -> & -> & -> & -> & -> & _). rewrite H1, H2. split; intros H A B; apply H; lia.
Qed.

Lemma settle_again : forall d n, gcut_again d (gsettle_node n) <-> gcut_again d n.
Proof.
  intros d n. unfold gcut_again. destruct (settle_item n) as [[H1 H2]|[_ ->]]; [|reflexivity]. rewrite H1, H2.
  split; intros [_ H]; discriminate.
Qed.

Lemma settle_size : forall o n, gsize o (gsettle_node n) = gsize o n.
Proof. intros o n. unfold gsize, gwidth_of, gheight_of. destruct (settle_geo n) as (_ & -> & -> & -> & -> & -> & _). reflexivity. Qed.

Lemma settle_min : forall d m v, gmin_distance d m (gsettle_view v) <-> gmin_distance d m v.
Proof.
  intros d m v. unfold gmin_distance. cbn [gsettle_view gv_nodes gv_orient].
  pose proof (settle_forall (gv_nodes v) (fun n => gcut_again d n -> m <= gsize (gv_orient v) n)) as S.
  rewrite S; [reflexivity|]. intros n _. rewrite settle_again, settle_size. reflexivity.
Qed.

Lemma settle_max : forall d m v, gmax_distance d m (gsettle_view v) <-> gmax_distance d m v.
Proof.
  intros d m v. unfold gmax_distance. cbn [gsettle_view gv_nodes gv_orient].
  pose proof (settle_forall (gv_nodes v) (fun n => gcut_again d n -> gsize (gv_orient v) n <= m)) as S.
  rewrite S; [reflexivity|]. intros n _. rewrite settle_again, settle_size. reflexivity.
Qed.

Lemma settle_cuts_in : forall o ns p, gcuts_in o (map gsettle_node ns) p = gcuts_in o ns p.
Proof.
  intros o ns p. unfold gcuts_in. f_equal. rewrite settle_gnode.
  assert (G : forall l, length (filter (fun n => match gn_f n with
      | Some q => Nat.eqb q p && (1 <=? gn_d n) && negb (greaches o (gsettle_node (gnode ns p)) n) | None => false end) (map gsettle_node l))
    = length (filter (fun n => match gn_f n with
      | Some q => Nat.eqb q p && (1 <=? gn_d n) && negb (greaches o (gnode ns p) n) | None => false end) l)).
  { induction l as [|n l IH]; [reflexivity|]. cbn [map filter].
    assert (E : greaches o (gsettle_node (gnode ns p)) (gsettle_node n) = greaches o (gnode ns p) n).
    { unfold greaches, ends, father_end. destruct (settle_geo n) as (_ & -> & _ & -> & _ & -> & _).
      destruct (settle_geo (gnode ns p)) as (_ & -> & _ & -> & _ & -> & _). reflexivity. }
    rewrite E. destruct (settle_geo n) as (-> & -> & _).
    destruct (gn_f n) as [q|]; [|exact IH]. destruct (_ && _); cbn [length]; rewrite IH; reflexivity. }
  apply G.
Qed.

Lemma settle_first : forall i v, gfirst_cuts_ok i (gsettle_view v) <-> gfirst_cuts_ok i v.
Proof.
  intros i v. unfold gfirst_cuts_ok. cbn [gsettle_view gv_nodes gv_orient]. rewrite map_length.
  split; intros H A B p Hp Hd; specialize (H A B p Hp); rewrite settle_gnode, settle_cuts_in in *;
    destruct (settle_geo (gnode (gv_nodes v) p)) as (_ & E & _); apply H; congruence.
Qed.
Lemma settle_second : forall i v, gsecond_cuts_ok i (gsettle_view v) <-> gsecond_cuts_ok i v.
Proof.
  intros i v. unfold gsecond_cuts_ok. cbn [gsettle_view gv_nodes gv_orient]. rewrite map_length.
  split; intros H A B p Hp Hd; specialize (H A B p Hp); rewrite settle_gnode, settle_cuts_in in *;
    destruct (settle_geo (gnode (gv_nodes v) p)) as (_ & E & _); apply H; congruence.
Qed.

Lemma settle_defects : forall i v, gdefects_avoided i (gsettle_view v) <-> gdefects_avoided i v.
Proof. intros i v. unfold gdefects_avoided. cbn [gsettle_view gv_nodes gv_type]. rewrite settle_item_nodes. reflexivity. Qed.

Lemma settle_through : forall i v, gcuts_avoid_defects i (gsettle_view v) <-> gcuts_avoid_defects i v.
Proof.
  intros i v. unfold gcuts_avoid_defects. cbn [gsettle_view gv_nodes gv_type].
  assert (G : forall P : GNode -> GDefect -> Prop, (forall n d, P (gsettle_node n) d <-> P n d) ->
    ((forall n d, In n (map gsettle_node (gv_nodes v)) -> P n d) <-> (forall n d, In n (gv_nodes v) -> P n d))).
  { intros P HP. split; intros H n d Hn.
    - apply HP. apply H, in_map, Hn.
    - apply in_settle in Hn. destruct Hn as (m & Hm & ->). apply HP. apply H. exact Hm. }
  rewrite (G (fun n d => 1 <= gn_d n -> In d (gb_defects (gbin i (gv_type v))) ->
    ~ gv_crosses (gn_l n) (gn_b n) (gn_t n) d /\ ~ gv_crosses (gn_r n) (gn_b n) (gn_t n) d
    /\ ~ gh_crosses (gn_l n) (gn_r n) (gn_b n) d /\ ~ gh_crosses (gn_l n) (gn_r n) (gn_t n) d)); [reflexivity|].
  intros n d. destruct (settle_geo n) as (_ & -> & -> & -> & -> & -> & _). reflexivity.
Qed.

Lemma settle_resources : forall i v, gresources_ok i (gsettle_view v) <-> gresources_ok i v.
Proof. intros i v. unfold gresources_ok. rewrite settle_items. reflexivity. Qed.

(** *** The bins of a solution *)

Lemma shown_snoc : forall hs v, shown (hs ++ [v]) = map gsettle_view hs ++ [v].
Proof. intros hs v. unfold shown. rewrite rev_unit, rev_involutive. reflexivity. Qed.

Lemma shown_cases : forall hs, hs = [] \/ exists f v, hs = f ++ [v] /\ shown hs = map gsettle_view f ++ [v].
Proof.
  intros hs. destruct (exists_last_or_nil _ hs) as [->|(f & v & ->)]; [left; reflexivity|right].
  exists f, v. split; [reflexivity|apply shown_snoc].
Qed.

Lemma settle_shown : forall hs, map gsettle_view (shown hs) = map gsettle_view hs.
Proof.
  intros hs. destruct (shown_cases hs) as [->|(f & v & -> & ->)]; [reflexivity|].
  rewrite !map_app, map_map. f_equal. apply map_ext. apply settle_view_idem.
Qed.

(** A sum, a property of every bin. *)
Lemma shown_zsum : forall (f : GView -> Z) hs, (forall v, f (gsettle_view v) = f v) -> zsum f (shown hs) = zsum f hs.
Proof.
  intros f hs H. destruct (shown_cases hs) as [->|(l & v & -> & ->)]; [reflexivity|].
  rewrite !zsum_snoc, zsum_map. f_equal. apply zsum_ext. intros x _. apply H.
Qed.
Lemma shown_qsum : forall (f : GView -> Q) hs, (forall v, f (gsettle_view v) = f v) -> qsum f (shown hs) = qsum f hs.
Proof.
  intros f hs H. destruct (shown_cases hs) as [->|(l & v & -> & ->)]; [reflexivity|].
  assert (G : forall l, qsum f (map gsettle_view l ++ [v]) = qsum f (l ++ [v])).
  { clear l. induction l as [|x l IH]; [reflexivity|]. cbn [map app]. cbn [qsum fold_right] in *. unfold qsum in *. cbn [fold_right]. rewrite IH, H. reflexivity. }
  apply G.
Qed.
Lemma shown_rev : forall (A : Type) hs (a : A) (f : GView -> A),
  match rev (shown hs) with [] => a | v :: _ => f v end = match rev hs with [] => a | v :: _ => f v end.
Proof.
  intros A hs a f. destruct (shown_cases hs) as [->|(l & v & -> & ->)]; [reflexivity|]. rewrite !rev_unit. reflexivity.
Qed.
Lemma shown_forall : forall hs (P : GView -> Prop), (forall v, In v hs -> (P (gsettle_view v) <-> P v)) ->
  ((forall v, In v (shown hs) -> P v) <-> forall v, In v hs -> P v).
Proof.
  intros hs P H. destruct (shown_cases hs) as [->|(l & w & -> & ->)]; [reflexivity|].
  split; intros G v Hv; apply in_app_or in Hv; destruct Hv as [Hv|[<-|[]]].
  - apply H; [apply in_or_app; left; exact Hv|]. apply G, in_or_app. left. apply in_map. exact Hv.
  - apply G, in_or_app. right. left. reflexivity.
  - apply in_map_iff in Hv. destruct Hv as (u & <- & Hu). apply H; [apply in_or_app; left; exact Hu|].
    apply G, in_or_app. left. exact Hu.
  - apply G, in_or_app. right. left. reflexivity.
Qed.

Lemma shown_sequence : forall hs, gsequence (shown hs) = gsequence hs.
Proof.
  intros hs. destruct (shown_cases hs) as [->|(l & w & -> & ->)]; [reflexivity|].
  rewrite !gsequence_snoc. f_equal. unfold gsequence. induction l as [|v l IH]; [reflexivity|]. cbn [map flat_map].
  rewrite IH. f_equal. cbn [gsettle_view gv_nodes gv_copies]. rewrite settle_item_nodes. reflexivity.
Qed.

Lemma shown_packed : forall x hs, gpacked x (shown hs) = gpacked x hs.
Proof. intros x hs. unfold gpacked. apply shown_zsum. intros v. rewrite settle_items. reflexivity. Qed.

Lemma shown_indicators : forall i hs c, GIndicators i hs c -> GIndicators i (shown hs) c.
Proof.
  intros i hs c [H1 H2 H3 H4 H5 H6 H7 H8 H9 H10 H11 H12]. constructor.
  - rewrite shown_zsum; [exact H1|reflexivity].
  - rewrite shown_zsum; [exact H2|]. intros v. rewrite settle_items. reflexivity.
  - rewrite shown_zsum; [exact H3|reflexivity].
  - rewrite shown_zsum; [exact H4|]. intros v. rewrite settle_items. reflexivity.
  - rewrite (shown_rev Z hs 0 (fun v => gresidual_area (gv_nodes v))). exact H5.
  - rewrite shown_qsum; [exact H6|reflexivity].
  - intros S. rewrite shown_qsum; [exact (H7 S)|]. intros v. unfold gpenalties. rewrite settle_items. reflexivity.
  - intros t Ht. unfold gused. rewrite shown_zsum; [exact (H8 t Ht)|reflexivity].
  - intros x Hx. rewrite shown_packed. exact (H9 x Hx).
  - rewrite (shown_rev Z hs 0 (fun v => fold_right Z.max 0 (map gn_r (gcut_parts (gv_nodes v))))). exact H10.
  - rewrite (shown_rev Z hs 0 (fun v => gsecond_of (gv_nodes v))). exact H11.
  - rewrite (shown_rev Z hs 0 (fun v => fold_right Z.max 0 (map gn_t (gcut_parts (gv_nodes v))))). exact H12.
Qed.

Lemma shown_copies : forall i hs,
  (forall v x, In v (shown hs) -> In x (gv_items v) -> gpacked x (shown hs) <= gi_copies (gitem i x))
  <-> (forall v x, In v hs -> In x (gv_items v) -> gpacked x hs <= gi_copies (gitem i x)).
Proof.
  intros i hs.
  pose proof (shown_forall hs (fun v => forall x, In x (gv_items v) -> gpacked x hs <= gi_copies (gitem i x))) as S.
  assert (S' : (forall v, In v (shown hs) -> forall x, In x (gv_items v) -> gpacked x hs <= gi_copies (gitem i x))
    <-> (forall v, In v hs -> forall x, In x (gv_items v) -> gpacked x hs <= gi_copies (gitem i x))).
  { apply S. intros v _. rewrite settle_items. reflexivity. }
  split; intros H v x Hv Hx.
  - apply (proj1 S') with v; [|exact Hv|exact Hx]. intros w Hw y Hy. rewrite <- shown_packed. apply (H w y Hw Hy).
  - rewrite shown_packed. apply (proj2 S') with v; [|exact Hv|exact Hx]. intros w Hw y Hy. apply (H w y Hw Hy).
Qed.

Lemma shown_flags : forall i hs c, 1 <= gp_stages (gin_params i) -> (forall v, In v hs -> bin_sound v) ->
  GFlags i hs c -> GFlags i (shown hs) c.
Proof.
  intros i hs c HS HB [H1 H2 H3 H4 H5 H6 H7 H8 H9 H10 H11 H12]. constructor.
  - rewrite H1. symmetry. apply shown_forall. intros v Hv. apply settle_stages; [exact HS|apply HB; exact Hv].
  - rewrite H2. symmetry. apply shown_forall. intros v _. apply settle_min.
  - rewrite H3. symmetry. apply shown_forall. intros v _. apply settle_max.
  - rewrite H4. symmetry. apply shown_forall. intros v _. apply settle_min.
  - rewrite H5. symmetry. apply shown_forall. intros v _. apply settle_max.
  - rewrite H6. symmetry. apply shown_forall. intros v _. apply settle_first.
  - rewrite H7. symmetry. apply shown_forall. intros v _. apply settle_second.
  - rewrite H8. unfold gstacks_respected. rewrite shown_sequence. reflexivity.
  - rewrite H9. symmetry. apply shown_forall. intros v _. apply settle_defects.
  - rewrite H10. symmetry. apply shown_forall. intros v _. apply settle_through.
  - rewrite H11. symmetry. apply shown_copies.
  - rewrite H12. symmetry. apply shown_forall. intros v _. apply settle_resources.
Qed.

Lemma shown_packing : forall i hs, 1 <= gp_stages (gin_params i) -> (forall v, In v hs -> bin_sound v) ->
  (GPackingOK i (shown hs) <-> GPackingOK i hs).
Proof.
  intros i hs HS HB.
  assert (B : (forall v, In v (shown hs) ->
      gstages_ok i v /\ gwastes_large i v
      /\ gmin_distance 1 (gp_min1 (gin_params i)) v /\ gmax_distance 1 (gp_max1 (gin_params i)) v
      /\ gmin_distance 2 (gp_min2 (gin_params i)) v /\ gmax_distance 2 (gp_max2 (gin_params i)) v
      /\ gfirst_cuts_ok i v /\ gsecond_cuts_ok i v
      /\ gdefects_avoided i v /\ gcuts_avoid_defects i v /\ gresources_ok i v)
    <-> (forall v, In v hs ->
      gstages_ok i v /\ gwastes_large i v
      /\ gmin_distance 1 (gp_min1 (gin_params i)) v /\ gmax_distance 1 (gp_max1 (gin_params i)) v
      /\ gmin_distance 2 (gp_min2 (gin_params i)) v /\ gmax_distance 2 (gp_max2 (gin_params i)) v
      /\ gfirst_cuts_ok i v /\ gsecond_cuts_ok i v
      /\ gdefects_avoided i v /\ gcuts_avoid_defects i v /\ gresources_ok i v)).
  { apply shown_forall. intros v Hv.
    rewrite settle_stages by (try exact HS; apply HB; exact Hv).
    rewrite settle_wastes, !settle_min, !settle_max, settle_first, settle_second, settle_defects, settle_through, settle_resources. reflexivity. }
  split; intros [H1 H2 H3 H4]; constructor.
  - apply B. exact H1.
  - unfold gstacks_respected in *. rewrite <- shown_sequence. exact H2.
  - apply shown_copies. exact H3.
  - intros x Hx. rewrite <- shown_packed. apply H4. exact Hx.
  - apply B. exact H1.
  - unfold gstacks_respected in *. rewrite shown_sequence. exact H2.
  - apply shown_copies. exact H3.
  - intros x Hx. rewrite shown_packed. apply H4. exact Hx.
Qed.

(** ** Copying a plan *)

Lemma maps_id : forall ids x y, map_id ids x = Some y <-> gmaps ids x y.
Proof.
  intros ids x y. unfold map_id, gmaps. destruct ids as [|a ids].
  - split; [intros E; injection E as <-; left; auto|intros [[_ ->]|[H _]]; [reflexivity|contradiction H; reflexivity]].
  - split; [intros E; right; split; [discriminate|exact E]|intros [[H _]|[_ H]]; [discriminate|exact H]].
Qed.

Lemma gmapo_forall2 : forall (A B : Type) (f : A -> option B) l r, gmapo f l = Some r -> Forall2 (fun x y => f x = Some y) l r.
Proof.
  intros A B f l. induction l as [|x l IH]; intros r E; cbn [gmapo] in E; [injection E as <-; constructor|].
  destruct (f x) as [y|] eqn:Ex; [|discriminate]. destruct (gmapo f l) as [r'|]; [|discriminate]. injection E as <-.
  constructor; [exact Ex|apply IH; reflexivity].
Qed.
Lemma gmapo_some : forall (A B : Type) (f : A -> option B) l, (forall x, In x l -> exists y, f x = Some y) -> exists r, gmapo f l = Some r.
Proof.
  intros A B f l. induction l as [|x l IH]; intros H; [exists []; reflexivity|]. cbn [gmapo].
  destruct (H x (or_introl eq_refl)) as (y & ->). destruct (IH (fun z Hz => H z (or_intror Hz))) as (r & ->). eexists. reflexivity.
Qed.

Lemma forall2_nth : forall (A B : Type) (R : A -> B -> Prop) l r a b, Forall2 R l r ->
  length l = length r /\ forall k, (k < length l)%nat -> R (nth k l a) (nth k r b).
Proof.
  intros A B R l r a b H. induction H as [|x y l r Hxy H [IH1 IH2]]; [split; [reflexivity|simpl; lia]|].
  split; [simpl; lia|]. intros [|k] Hk; simpl in *; [exact Hxy|apply IH2; lia].
Qed.

Section Copy.

Variables j i : GInstance.
Variables bin_type_ids item_type_ids : list nat.
Variable v : GView.
Hypothesis HF : gfits j i bin_type_ids item_type_ids v.
Hypothesis HV : gview_ok j v.
Let ns := gv_nodes v.

Lemma copy_tall : forall n, In n ns -> gn_f n = None \/ 0 <= gn_item n -> gn_t n <> -4.
Proof.
  intros n Hn Hc. destruct HV as (_ & _ & base & HP & _). destruct (ft_positive _ _ _ _ _ HF) as [P1 P2].
  destruct (In_nth _ _ gdummy_node Hn) as (id & Hid & E). change (gnode ns id = n) in E. fold ns in HP.
  pose proof (gp_usable _ _ _ _ _ HP) as (_ & _ & _ & U3 & U4).
  assert (Hub : 0 <= usable_b (gbin j (gv_type v))) by (unfold usable_b, hard; destruct (gt_hard _); lia).
  assert (G : forall k, (base <= k < length ns)%nat -> 0 <= gn_b (gnode ns k) /\ gn_b (gnode ns k) <= gn_t (gnode ns k)).
  { induction k as [k IH] using lt_wf_ind. intros Hk. destruct (Nat.eq_dec k base) as [->|Hne]; [lia|].
    destruct (gp_father _ _ _ _ _ HP k ltac:(lia)) as (p & _ & F2 & _ & F3). specialize (IH p ltac:(lia) ltac:(lia)).
    destruct (vertical_at _ _); lia. }
  destruct (le_lt_dec base id) as [Hb|Hb]; [specialize (G id ltac:(lia)); rewrite E in G; lia|].
  destruct id as [|id].
  - pose proof (gp_plate _ _ _ _ _ HP) as (_ & _ & _ & _ & _ & G6). rewrite E in G6. lia.
  - destruct (gp_trims _ _ _ _ _ HP (S id) ltac:(lia)) as (T1 & _ & T3). rewrite E in T1, T3. destruct Hc as [Hc|Hc]; [congruence|lia].
Qed.

Lemma copy_some : forall t, (t < length (gin_bins i))%nat -> exists ns', gmapo (gcopy_node i t item_type_ids) ns = Some ns'.
Proof.
  intros t Ht. apply gmapo_some. intros n Hn. unfold gcopy_node. destruct (_ =? -4); [eauto|].
  destruct (gn_f n) as [f|] eqn:Ef; [|eauto]. destruct (Z.leb_spec 0 (gn_item n)) as [Hi|Hi]; [|eauto].
  destruct (ft_items _ _ _ _ _ HF (Z.to_nat (gn_item n))) as (y & Y1 & Y2 & _).
  { unfold gv_items, gitems_of. apply in_map_iff. exists n. split; [reflexivity|]. apply filter_In. split; [exact Hn|].
    unfold gis_item. rewrite Ef. apply Z.leb_le. exact Hi. }
  apply maps_id in Y1. rewrite Y1. apply Nat.ltb_lt in Y2. rewrite Y2. eauto.
Qed.

Variable t : nat.
Hypothesis Ht : gmaps bin_type_ids (gv_type v) t.
Variable ns' : list GNode.
Hypothesis Hns' : gmapo (gcopy_node i t item_type_ids) ns = Some ns'.

Lemma plate_same : (t < length (gin_bins i))%nat /\ gb_w (gbin i t) = gb_w (gbin j (gv_type v)) /\ gb_h (gbin i t) = gb_h (gbin j (gv_type v))
    /\ usable_l (gbin i t) = usable_l (gbin j (gv_type v)) /\ usable_r (gbin i t) = usable_r (gbin j (gv_type v))
    /\ usable_b (gbin i t) = usable_b (gbin j (gv_type v)) /\ usable_t (gbin i t) = usable_t (gbin j (gv_type v)).
Proof.
  destruct (ft_plate _ _ _ _ _ HF) as (t0 & T0 & T1 & T2 & T3 & T4 & T5 & T6 & T7).
  assert (t0 = t) by (apply maps_id in T0; apply maps_id in Ht; congruence). subst t0.
  unfold usable_l, usable_r, usable_b, usable_t. rewrite T2, T3, T4, T5, T6, T7. auto 10.
Qed.

Lemma copy_nodes : Forall2 (gnode_copy item_type_ids t) ns ns'.
Proof.
  pose proof (gmapo_forall2 _ _ _ _ _ Hns') as H2. destruct plate_same as (_ & W & H & _).
  assert (G : forall l r, Forall2 (fun x y => gcopy_node i t item_type_ids x = Some y) l r -> (forall n, In n l -> In n ns) ->
    Forall2 (gnode_copy item_type_ids t) l r).
  { intros l r HH. induction HH as [|n n' l r E HH IH]; intros Hl; constructor.
    - specialize (Hl n (or_introl eq_refl)). pose proof (copy_tall n Hl) as T. unfold gcopy_node in E.
      destruct (Z.eqb_spec (gn_t n) (-4)) as [E4|_].
      + injection E as <-. unfold gnode_copy. do 4 (split; [reflexivity|]). destruct (gn_f n) eqn:Ef; [|contradiction T; auto].
        destruct (Z_lt_le_dec (gn_item n) 0) as [Hi|Hi]; [left; auto|contradiction T; auto].
      + destruct (gn_f n) as [f|] eqn:Ef.
        * destruct (Z.leb_spec 0 (gn_item n)) as [Hi|Hi].
          -- destruct (map_id item_type_ids (Z.to_nat (gn_item n))) as [y|] eqn:Ey; [|discriminate].
             destruct (Nat.ltb y (length (gin_items i))); [|discriminate]. injection E as <-. unfold gnode_copy. simpl. rewrite Ef.
             do 4 (split; [reflexivity|]). right. split; [exact Hi|]. exists y. split; [apply maps_id; exact Ey|reflexivity].
          -- injection E as <-. unfold gnode_copy. rewrite Ef. do 4 (split; [reflexivity|]). left. auto.
        * injection E as <-. unfold gnode_copy. simpl. rewrite Ef.
          destruct HV as (_ & _ & base & HP & _). fold ns in HP.
          assert (En : grect n = grect (gnode ns 0)).
          { destruct (In_nth _ _ gdummy_node Hl) as (id & Hid & Eid). change (gnode ns id = n) in Eid. rewrite <- Eid.
            destruct id as [|id]; [reflexivity|exfalso].
            destruct (lt_eq_lt_dec (S id) base) as [[Hb|Hb]|Hb].
            - destruct (gp_trims _ _ _ _ _ HP (S id) ltac:(lia)) as (T1 & _). congruence.
            - pose proof (gp_trimmed _ _ _ _ _ HP ltac:(lia)) as T1. rewrite Hb in Eid. congruence.
            - destruct (gp_father _ _ _ _ _ HP (S id) ltac:(lia)) as (p & T1 & _). congruence. }
          pose proof (gp_plate _ _ _ _ _ HP) as (_ & _ & P1 & P2 & P3 & P4).
          unfold grect in En. injection En as E1 E2 E3 E5. unfold grect. simpl.
          split; [reflexivity|]. split; [reflexivity|]. split; [congruence|]. split; reflexivity.
    - apply IH. intros m Hm. apply Hl. right. exact Hm. }
  apply G; [exact H2|auto].
Qed.

Lemma copy_at : length ns' = length ns /\ forall k, (k < length ns)%nat -> gnode_copy item_type_ids t (gnode ns k) (gnode ns' k).
Proof.
  destruct (forall2_nth _ _ _ _ _ gdummy_node gdummy_node copy_nodes) as [H1 H2]. split; [symmetry; exact H1|exact H2].
Qed.

Lemma copy_geo : forall k, (k < length ns)%nat -> gn_f (gnode ns' k) = gn_f (gnode ns k) /\ gn_d (gnode ns' k) = gn_d (gnode ns k)
  /\ gn_l (gnode ns' k) = gn_l (gnode ns k) /\ gn_r (gnode ns' k) = gn_r (gnode ns k)
  /\ gn_b (gnode ns' k) = gn_b (gnode ns k) /\ gn_t (gnode ns' k) = gn_t (gnode ns k)
  /\ gn_children (gnode ns' k) = gn_children (gnode ns k).
Proof.
  intros k Hk. destruct copy_at as [_ H]. destruct (H k Hk) as (H1 & H2 & H3 & H4 & _). unfold grect in H3. injection H3 as R1 R2 R3 R4.
  auto 10.
Qed.

Definition copy_view (copies : Z) : GView := mkGV t copies (gv_orient v) ns'.

Lemma copy_plan : forall base, guillotine_plan j (gv_type v) (gv_orient v) ns base -> guillotine_plan i t (gv_orient v) ns' base.
Proof.
  intros base [H1 H2 H3 H4 H5 H6 H7 H8]. destruct copy_at as [HL HC]. destruct plate_same as (_ & S1 & S2 & S3 & S4 & S5 & S6).
  assert (Hz : (0 < length ns)%nat) by lia.
  constructor; rewrite ?HL.
  - exact H1.
  - destruct (copy_geo base H1) as (_ & -> & -> & -> & -> & -> & _). rewrite S3, S4, S5, S6. exact H2.
  - destruct (copy_geo 0%nat Hz) as (-> & -> & -> & -> & -> & -> & _). rewrite S1, S2. exact H3.
  - destruct (copy_geo base H1) as (-> & _). exact H4.
  - intros id Hid. destruct (H5 id Hid) as (A1 & A2 & A3). assert (Hl : (id < length ns)%nat) by lia.
    destruct (HC id Hl) as (B1 & B2 & _ & _ & B5). rewrite A1 in B5. rewrite B1, B2. split; [exact A1|]. split; [exact A2|].
    destruct B5 as [[_ B5]|[B5 _]]; lia.
  - intros id Hid. destruct (H6 id Hid) as (p & A1 & A2 & A3). exists p. destruct (copy_geo id ltac:(lia)) as (B1 & B2 & B3 & B4 & B5 & B6 & _).
    destruct (copy_geo p ltac:(lia)) as (C1 & C2 & C3 & C4 & C5 & C6 & _). split; [congruence|]. split; [exact A2|].
    unfold cut_from in *. rewrite B2, B3, B4, B5, B6, C2, C3, C4, C5, C6. exact A3.
  - intros a c Ha Hc Hne. destruct (copy_geo a ltac:(lia)) as (B1 & B2 & B3 & B4 & B5 & B6 & _).
    destruct (copy_geo c ltac:(lia)) as (C1 & C2 & C3 & C4 & C5 & C6 & _). rewrite B1, C1. intros Hf.
    unfold after. rewrite B2, B3, B4, B5, B6, C2, C3, C4, C5, C6, (ft_ct _ _ _ _ _ HF). exact (H7 a c Ha Hc Hne Hf).
  - intros id y Hid [F1 F2]. destruct (HC id Hid) as (B1 & B2 & B3 & B4 & B5). rewrite B1 in F1.
    destruct (gn_f (gnode ns id)) as [f|] eqn:Ef; [|contradiction F1; reflexivity].
    destruct B5 as [[B5 B6]|(B5 & y' & B6 & B7)]; [lia|].
    assert (y' = y) by lia. subst y'.
    destruct (H8 id (Z.to_nat (gn_item (gnode ns id))) Hid) as (A1 & A2 & A3 & A4); [split; [congruence|lia]|].
    destruct (ft_items _ _ _ _ _ HF (Z.to_nat (gn_item (gnode ns id)))) as (y' & Y1 & Y2 & Y3 & Y4).
    { unfold gv_items, gitems_of. apply in_map_iff. exists (gnode ns id). split; [reflexivity|]. apply filter_In. split; [apply nth_In; exact Hid|].
      unfold gis_item. rewrite Ef. apply Z.leb_le. exact B5. }
    assert (y' = y) by (apply maps_id in Y1; apply maps_id in B6; congruence). subst y'.
    split; [exact Y2|]. split; [exact A2|]. split.
    + intros k Hk. destruct (copy_geo k Hk) as (-> & _). apply A3. exact Hk.
    + destruct (copy_geo id Hid) as (_ & _ & G3 & G4 & G5 & G6 & _). unfold has_dimensions in *. rewrite G3, G4, G5, G6, Y3, Y4. exact A4.
Qed.

Lemma copy_ok : forall copies, 0 <= copies -> gview_ok i (copy_view copies).
Proof.
  intros copies Hc. destruct plate_same as (Hl & _). destruct HV as (_ & _ & base & HP & HD).
  split; [exact Hl|]. split; [exact Hc|]. exists base. split; [apply copy_plan; exact HP|].
  cbn [copy_view gv_nodes]. intros id p k. destruct copy_at as [-> _]. intros Hid Hf Hk.
  destruct (copy_geo id ltac:(lia)) as (F1 & -> & _). destruct (copy_geo k ltac:(lia)) as (_ & -> & _).
  rewrite F1 in Hf. exact (HD id p k Hid Hf Hk).
Qed.

Lemma copy_sound : forall copies, bin_sound v -> bin_sound (copy_view copies).
Proof.
  intros copies [HR HK]. destruct copy_at as [HL HC]. split; cbn [copy_view gv_nodes].
  - intros id. rewrite HL. intros Hid E. destruct (HC id Hid) as (_ & B2 & _ & _ & B5). rewrite B2. apply (HR id Hid).
    fold ns. destruct (gn_f (gnode ns id)); [|lia]. destruct B5 as [[_ B5]|(_ & y & _ & B5)]; lia.
  - intros p c. rewrite HL. intros Hp. destruct (copy_geo p Hp) as (_ & Dp & _ & _ & _ & _ & ->). intros Hc.
    pose proof (HK p c Hp Hc) as D. fold ns in D. rewrite Dp.
    destruct (le_lt_dec (length ns) c) as [Hl|Hl].
    + unfold gnode in *. rewrite nth_overflow by lia. rewrite (nth_overflow ns) in D by lia. exact D.
    + destruct (copy_geo c Hl) as (_ & -> & _). exact D.
Qed.

Lemma copy_is : forall copies, gview_copy bin_type_ids item_type_ids copies v (copy_view copies).
Proof. intros copies. split; [exact Ht|]. split; [reflexivity|]. split; [reflexivity|]. exact copy_nodes. Qed.

End Copy.

(** ** States *)

(** [hs]: the bins as they were when the indicators were updated. *)
Record GApp (i : GInstance) (cb : GCallback) (hs : list GView) (s : GSolution) : Prop := {
  ap_inv : GInv i hs (gs_core s);
  ap_last : glast_ok hs (gs_core s);
  ap_waste : gc_waste_ok (gs_core s) = true;
  ap_cb : hs <> [] -> gs_callback_ok s = cb (gs_core s);
  ap_feasible : gs_feasible s = true <-> GPackingOK i hs /\ (hs = [] \/ gs_callback_ok s = true);
  ap_view : gview (gs_core s) = shown hs;
  ap_bins : forall v, In v hs -> gview_ok i v /\ bin_sound v
}.

Lemma inv_rebins : forall i hs c bins area, GInv i hs c -> GInv i hs (gwith_area (gwith_bins c bins) area).
Proof.
  intros i hs c bins area [(k & HC & HM) H2 H3 H4 H5 H6 H7 H8 H9 H10 H11 H12 H13 H14 H15].
  constructor; try assumption. exists k. split; [exact HC|]. destruct HM. constructor; assumption.
Qed.

Lemma settle_last : forall ns, reslast ns -> (0 < length ns)%nat ->
  map gsettle_node ns
  = if gn_item (gnode ns (length ns - 1)) =? -3 then upd (length ns - 1) (fun n => gn_with_item n (-1)) ns else ns.
Proof.
  intros ns HR Hl. apply nth_ext with gdummy_node gdummy_node.
  - rewrite map_length. destruct (_ =? _); rewrite ?upd_length; reflexivity.
  - intros k Hk. rewrite map_length in Hk. change (nth k (map gsettle_node ns) gdummy_node) with (gnode (map gsettle_node ns) k).
    rewrite settle_gnode. destruct (Nat.eq_dec k (length ns - 1)) as [->|Hne].
    + unfold gsettle_node. destruct (_ =? -3); [rewrite nth_upd_same by lia|]; reflexivity.
    + assert (E : gsettle_node (gnode ns k) = gnode ns k).
      { destruct (settle_item (gnode ns k)) as [[E _]|[_ E]]; [|exact E]. destruct (HR k Hk E). contradiction. }
      rewrite E. destruct (_ =? -3); [rewrite nth_upd_other by auto|]; reflexivity.
Qed.

Lemma gsettle_view_bins : forall hs bins area, map gview_bin bins = shown hs ->
  (forall v, In v hs -> bin_sound v /\ (0 < length (gv_nodes v))%nat) ->
  map gview_bin (fst (gsettle bins area)) = map gsettle_view hs.
Proof.
  intros hs bins area E HB. unfold gsettle. destruct (shown_cases hs) as [->|(f & v & -> & Es)].
  - destruct bins; [reflexivity|discriminate].
  - rewrite Es in E. destruct (exists_last_or_nil _ bins) as [->|(front & b & ->)]; [destruct f; discriminate|].
    unfold gback. rewrite rev_unit, rev_involutive. rewrite map_app in E. cbn [map] in E. apply app_inj_tail in E. destruct E as [E1 E2].
    destruct (HB v ltac:(apply in_or_app; right; left; reflexivity)) as [[HR _] Hl]. subst v. cbn [gview_bin gv_nodes] in HR, Hl.
    assert (EL : gsettle_view (gview_bin b) = gview_bin (if gn_item (gnode (gs_nodes b) (length (gs_nodes b) - 1)) =? -3
      then gwith_nodes b (upd (length (gs_nodes b) - 1) (fun n => gn_with_item n (-1)) (gs_nodes b)) else b)).
    { unfold gsettle_view, gview_bin. cbn [gv_type gv_copies gv_orient gv_nodes]. rewrite (settle_last _ HR Hl).
      destruct (_ =? -3); reflexivity. }
    rewrite map_app. cbn [map]. rewrite EL, <- E1. cbv zeta. destruct (_ =? -3); cbn [fst]; rewrite map_app; reflexivity.
Qed.

(** ** append_bin *)

Section Append.

Variables (j i : GInstance) (cb cbj : GCallback).
Hypothesis Hwf : gwf_resources i.
Hypothesis Hends : gsane_ends i.
Hypothesis Hcosts : gcosts_given i.

Lemma append_state : forall hs s hs0 source pos copies bts its v,
  GApp i cb hs s -> GApp j cbj hs0 source -> 0 <= copies ->
  nth_error (gview (gs_core source)) pos = Some v -> gfits j i bts its v ->
  exists v', gview_copy bts its copies v v' /\
  match gappend_bin i cb s source pos copies bts its with
  | GDone s' => GApp i cb (hs ++ [v']) s'
  | GExit => ~ gwastes_large i v'
  | GBad => False
  end.
Proof.
  intros hs s hs0 source pos copies bts its v HA HA0 Hc Hpos HF.
  assert (HV : gview_ok j v /\ bin_sound v).
  { apply nth_error_In in Hpos. rewrite (ap_view _ _ _ _ HA0) in Hpos.
    destruct (shown_cases hs0) as [->|(f & w & -> & Es)]; [destruct Hpos|]. rewrite Es in Hpos.
    apply in_app_or in Hpos. destruct Hpos as [Hp|[<-|[]]].
    - apply in_map_iff in Hp. destruct Hp as (u & <- & Hu).
      destruct (ap_bins _ _ _ _ HA0 u ltac:(apply in_or_app; left; exact Hu)) as [U1 U2].
      split; [apply settle_view_ok; exact U1|apply settle_sound; exact U2].
    - apply (ap_bins _ _ _ _ HA0). apply in_or_app. right. left. reflexivity. }
  destruct HV as [HV HSo].
  unfold gview in Hpos. rewrite nth_error_map in Hpos. destruct (nth_error (gc_bins (gs_core source)) pos) as [b|] eqn:Eb; [|discriminate].
  cbn [option_map] in Hpos. injection Hpos as <-.
  destruct (ft_plate _ _ _ _ _ HF) as (t & T0 & T1 & _). cbn [gview_bin gv_type] in T0.
  destruct (copy_some j i bts its (gview_bin b) HF t T1) as (ns' & Ens). cbn [gview_bin gv_nodes] in Ens.
  unfold gappend_bin. rewrite Eb. rewrite (proj2 (maps_id bts (gs_type b) t) T0). rewrite (proj2 (Nat.ltb_lt _ _) T1), Ens.
  set (v' := copy_view (gview_bin b) t ns' copies).
  assert (HV' : gview_ok i v') by (apply (copy_ok j i bts its (gview_bin b) HF HV t T0 ns' Ens copies Hc)).
  assert (HSo' : bin_sound v') by (apply (copy_sound j i bts its (gview_bin b) HF HV t T0 ns' Ens copies HSo)).
  exists v'. split; [apply (copy_is j i bts its (gview_bin b) HF HV t T0 ns' Ens copies)|].
  pose proof (gsettle_view_bins hs (gc_bins (gs_core s)) (gc_area (gs_core s)) (ap_view _ _ _ _ HA)
    ltac:(intros u Hu; destruct (ap_bins _ _ _ _ HA u Hu) as [(_ & _ & base & HP & _) U2]; split; [exact U2|pose proof (gp_base _ _ _ _ _ HP); lia])) as GS.
  destruct (gsettle (gc_bins (gs_core s)) (gc_area (gs_core s))) as [bins area]. cbn [fst] in GS.
  set (nb := mkGB t copies (gs_orient b) ns' 0 0 false false []).
  set (c := gwith_area (gwith_bins (gs_core s) (bins ++ [nb])) area).
  assert (HI : GInv i hs c) by (apply inv_rebins; apply (ap_inv _ _ _ _ HA)).
  assert (Hnb : gview_bin nb = v') by reflexivity.
  destruct (gupdate_inv i hs c (length bins) nb Hwf Hends HI (fun u Hu => proj1 (ap_bins _ _ _ _ HA u Hu)) HV' (conj eq_refl (conj eq_refl eq_refl)))
    as [HI' HL'].
  rewrite (gupdate_out i cb c (length bins) nb Hcosts) by (unfold c; cbn [gwith_area gwith_bins gc_bins]; rewrite nth_error_app2 by lia; rewrite Nat.sub_diag; reflexivity).
  cbv zeta. destruct (after_bins i c (length bins) nb) as (b' & B1 & B2).
  set (c' := gcore_after i c (length bins) nb) in *. rewrite Hnb in *.
  destruct (gc_waste_ok c') eqn:EW.
  - constructor; cbn [gs_core gs_callback_ok gs_feasible].
    + exact HI'.
    + apply glast_snoc. exact HL'.
    + exact EW.
    + reflexivity.
    + rewrite (ginv_feasible _ _ _ (cb c') HI' EW). split; intros [X Y]; (split; [exact X|]); [right; exact Y|].
      destruct Y as [Y|Y]; [destruct hs; discriminate|exact Y].
    + rewrite shown_snoc. unfold gview. rewrite B1. unfold c. cbn [gwith_area gwith_bins gc_bins].
      rewrite upd_middle, map_app, GS. cbn [map]. rewrite B2. reflexivity.
    + intros u Hu. apply in_app_or in Hu. destruct Hu as [Hu|[<-|[]]]; [apply (ap_bins _ _ _ _ HA); exact Hu|split; [exact HV'|exact HSo']].
  - intros H. pose proof (proj1 (gv_waste _ _ _ (ap_inv _ _ _ _ HA)) (ap_waste _ _ _ _ HA)) as HW.
    assert (X : gc_waste_ok c' = true).
    { apply (gv_waste _ _ _ HI'). intros u Hu. apply in_app_or in Hu. destruct Hu as [Hu|[<-|[]]]; [apply HW; exact Hu|exact H]. }
    congruence.
Qed.

End Append.
