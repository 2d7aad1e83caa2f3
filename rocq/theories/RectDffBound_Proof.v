(** * The rectangle dual feasible functions: bin bound, knapsack bound, cut *)

From Coq Require Import List ZArith QArith Qminmax Bool Lia Lqa Arith Permutation Sorted Psatz.
From Verif Require Import Util Common_Model OneDim_Model Dff_Model Dff_Spec Dff_Proof Dff_Axis OneDimDff_Model OneDimDff_Proof.
From Verif Require Import Geom Dff_Pack Rect_Model Rect_Spec RectDff_Model RectDff_Proof RectClautiaux_Proof.
Import ListNotations.
Open Scope Z_scope.

Lemma fold_zmax_le : forall l b m, b <= m -> (forall x, In x l -> x <= m) -> fold_left Z.max l b <= m.
Proof.
  induction l as [|x l IH]; intros b m Hb H; simpl; [assumption|]. apply IH; [|intros; apply H; right; assumption].
  apply Z.max_lub; [assumption|apply H; left; reflexivity].
Qed.

Lemma quot2_nonpos : forall a, a <= 0 -> Z.quot (a - 1) 2 <= 0.
Proof. intros a H. rewrite <- (Z.quot_0_l 2) by lia. apply Z.quot_le_mono; lia. Qed.

(** ** The sweep *)

Section Sweep.

Variable nan : Z.
Hypothesis Hnan : nan <= 0.
Variable i : RInstance.
Hypothesis Hits : positive_items i.
Hypothesis Hone : length (rin_bins i) = 1%nat.
Hypothesis Hbins : positive_bins i.

Let n := length (rin_items i).
Let bt := rbin i 0.

Lemma combine_sum : forall (cs : list Z), length cs = n ->
  zsum (fun p => ri_copies (fst p) * snd p) (combine (rin_items i) cs)
  = zsum (fun j => ri_copies (ritem i j) * nth j cs 0) (seq 0 n).
Proof.
  intros cs Hl. unfold ritem, n in *. revert cs Hl. generalize (rin_items i) as l.
  induction l as [|a l IH]; intros [|c cs] Hl; try discriminate; [reflexivity|].
  cbn [combine length seq]. rewrite !zsum_cons. cbn [fst snd nth]. f_equal.
  rewrite <- seq_shift, zsum_map. cbn [nth]. apply IH. simpl in Hl. lia.
Qed.

Lemma combo_fst_nonneg : forall fc, any_rcombo (rin_items i) bt fc -> 0 <= fst fc.
Proof.
  intros fc (k & l & fw & fh & [K L EB EL EC ER ES EZ]). rewrite EB. pose proof (one_bt i Hone Hbins) as HB. fold bt in HB.
  pose proof (rcop_nonneg (rin_items i) Hits) as HR.
  apply Z.mul_nonneg_nonneg.
  - apply (FF_bin_nonneg (rb_x bt) (length (rin_items i)) (rcand (rin_items i) true) (fun j => ri_copies (nth j (rin_items i) dummy_ritem)) k (rplen (rin_items i) bt true k));
      try apply K; try apply HR; try apply rp_eq; try lia; try (apply (rplen_spec (rin_items i) bt true k); apply K); exact HB.
  - apply (FF_bin_nonneg (rb_y bt) (length (rin_items i)) (rcand (rin_items i) false) (fun j => ri_copies (nth j (rin_items i) dummy_ritem)) l (rplen (rin_items i) bt false l));
      try apply L; try apply HR; try apply rp_eq; try lia; try (apply (rplen_spec (rin_items i) bt false l); apply L); exact HB.
Qed.

(** Weight of an item type in the bound. *)
Definition weight (b : RBin) (it : RItem) : Z :=
  if (ri_x it <=? rb_x b) && (ri_y it <=? rb_y b) then 1
  else 4 * (rb_x b + ri_x it) * (rb_y b + ri_y it).
Definition total_weight (b : RBin) (its : list RItem) : Z := zsum (fun it => ri_copies it * weight b it) its.

Lemma rbound_combo_some : forall fc, any_rcombo (rin_items i) bt fc ->
  exists b, rbound_combo nan (rin_items i) fc = Some b
    /\ b <= Z.max 0 (total_weight bt (rin_items i))
    /\ forall N, 0 <= N -> zsum (fun j => ri_copies (ritem i j) * nth j (snd fc) 0) (seq 0 n) <= N * fst fc -> b <= N.
Proof.
  intros fc Hfc. pose proof (combo_fst_nonneg fc Hfc) as HN.
  destruct Hfc as (k & l & fw & fh & [K L EB EL EC ER ES EZ]).
  unfold rbound_combo. rewrite combine_sum by exact EL. destruct (Z.eqb_spec (fst fc) 0) as [E0|N0].
  - rewrite (zsum_zero _ _ (seq 0 n)).
    + exists nan. split; [reflexivity|]. split; [lia|]. intros. lia.
    + intros j Hj. apply in_seq in Hj. rewrite EZ by (assumption || (unfold n in Hj; lia)). lia.
  - eexists. split; [reflexivity|]. split.
    + apply ceil_div_le; [lia|]. etransitivity; [|apply Z.mul_le_mono_nonneg_r; [lia|apply Z.le_max_r]].
      unfold total_weight. rewrite (zsum_seq_nth _ _ dummy_ritem), (Z.mul_comm _ (fst fc)), <- zsum_mult. apply zsum_le. intros j Hj.
      apply in_seq in Hj. fold (ritem i j). destruct (Hits (ritem i j)) as (H1 & H2 & H3); [apply nth_In; unfold n in Hj; lia|].
      unfold weight. specialize (ER j ltac:(unfold n in Hj; lia)). specialize (ES j ltac:(unfold n in Hj; lia)).
      fold (ritem i j) in ER, ES.
      assert (Hw : nth j (snd fc) 0 <= fst fc * (if (ri_x (ritem i j) <=? rb_x bt) && (ri_y (ritem i j) <=? rb_y bt) then 1
          else 4 * (rb_x bt + ri_x (ritem i j)) * (rb_y bt + ri_y (ritem i j)))).
      { destruct (Z.leb_spec (ri_x (ritem i j)) (rb_x bt)), (Z.leb_spec (ri_y (ritem i j)) (rb_y bt)); cbn [andb]; try (specialize (ES ltac:(assumption) ltac:(assumption)); lia);
          (transitivity (4 * (rb_x bt + ri_x (ritem i j)) * (rb_y bt + ri_y (ritem i j))); [apply ER|]); nia. }
      nia.
    + intros N _ HS. apply ceil_div_le; [lia|]. exact HS.
Qed.

Lemma rsweep_some : exists b, rsweep_bound nan i = Some b /\ 0 <= b
  /\ b <= Z.max 0 (total_weight bt (rin_items i))
  /\ forall ds, packing_ok i ds -> rall_packed i ds -> b <= rbins_used ds.
Proof.
  unfold rsweep_bound. fold bt.
  destruct (rcombos_some (rin_items i) bt Hits (one_bt i Hone Hbins)) as (combos & E & HF). rewrite E. cbn [bind].
  set (P := fun (fc : Z * list Z) (b : Z) => b <= Z.max 0 (total_weight bt (rin_items i))
    /\ forall N, 0 <= N -> zsum (fun j => ri_copies (ritem i j) * nth j (snd fc) 0) (seq 0 n) <= N * fst fc -> b <= N).
  destruct (mapo_some _ _ (rbound_combo nan (rin_items i)) P combos) as (bounds & Eb & HP).
  { intros fc Hfc. rewrite Forall_forall in HF. apply rbound_combo_some. apply HF. assumption. }
  rewrite Eb. cbn [bind]. eexists. split; [reflexivity|].
  split; [|split].
  - assert (G : forall l b, 0 <= b -> 0 <= fold_left Z.max l b) by (induction l; intros; simpl; [assumption|apply IHl; lia]).
    apply G. lia.
  - apply fold_zmax_le; [lia|]. intros b Hb. clear E Eb HF. induction HP as [|fc c l1 l2 [H1 _] HP IH]; [destruct Hb|].
    destruct Hb as [<-|Hb]; [assumption|apply IH; assumption].
  - intros ds Hds Hall.
    assert (HN : 0 <= rbins_used ds).
    { apply zsum_nonneg. intros d Hd. destruct (pa_bins i ds Hds d Hd) as (_ & ? & _). lia. }
    apply fold_zmax_le; [assumption|]. intros b Hb. clear E Eb. induction HP as [|fc c l1 l2 [_ H1] HP IH]; [destruct Hb|].
    inversion HF as [|? ? F1 F2]; subst. destruct Hb as [<-|Hb]; [|apply IH; assumption].
    apply H1; [assumption|].
    rewrite (zsum_ext _ _ (fun j => rpacked j ds * nth j (snd fc) 0)).
    + apply (rcombo_packed i Hits Hone Hbins ds Hds fc F1).
    + intros j Hj. apply in_seq in Hj. rewrite Hall by (unfold n in Hj; lia). reflexivity.
Qed.

End Sweep.

(** ** The bound is valid *)

Section Valid.

Variable nan : Z.
Hypothesis Hnan : nan <= 0.

(** One list of items per bin. *)
Definition bins_of (ds : list RDesc) : list (list Place) :=
  flat_map (fun d => repeat (rd_items d) (Z.to_nat (rd_copies d))) ds.

Lemma bins_of_count : forall ds x, (forall d, In d ds -> 0 <= rd_copies d) -> zsum (rcount x) (bins_of ds) = rpacked x ds.
Proof.
  intros ds x H. unfold bins_of, rpacked. rewrite zsum_flat_map. apply zsum_ext. intros d Hd.
  rewrite zsum_repeat, Z2Nat.id by (apply H; assumption). reflexivity.
Qed.

Lemma bins_of_length : forall ds, (forall d, In d ds -> 0 <= rd_copies d) -> Z.of_nat (length (bins_of ds)) = rbins_used ds.
Proof.
  intros ds H. rewrite <- zsum_one. unfold bins_of, rbins_used. rewrite zsum_flat_map. apply zsum_ext. intros d Hd.
  rewrite zsum_repeat, Z2Nat.id by (apply H; assumption). lia.
Qed.

Lemma clautiaux_valid : forall rec i, positive_items i -> length (rin_bins i) = 1%nat -> positive_bins i ->
  all_oriented i = false ->
  (forall cb b ds, 0 <= cb -> rec (modified_instance i cb) = Some b -> packing_ok (modified_instance i cb) ds ->
     rall_packed (modified_instance i cb) ds -> b <= rbins_used ds) ->
  forall ds, packing_ok i ds -> rall_packed i ds ->
  forall iterations bound b, 0 <= bound <= rbins_used ds -> clautiaux_loop rec i iterations bound = Some b -> b <= rbins_used ds.
Proof.
  intros rec i Hits Hone Hbins Hor Hrec ds Hds Hall iterations.
  assert (Hpos : forall d, In d ds -> 1 <= rd_copies d /\ geometry_ok i (rbin i 0) (rd_items d)).
  { intros d Hd. destruct (ds_bin i Hone ds Hds d Hd) as (_ & ? & ?). auto. }
  assert (Hnn : forall d, In d ds -> 0 <= rd_copies d) by (intros d Hd; destruct (Hpos d Hd); lia).
  assert (HN : 1 <= rbins_used ds).
  { destruct ds as [|d ds']; [|unfold rbins_used; rewrite zsum_cons].
    - exfalso. destruct (rin_items i) as [|it l] eqn:E; [unfold all_oriented in Hor; rewrite E in Hor; discriminate|].
      specialize (Hall 0%nat). rewrite E in Hall. specialize (Hall ltac:(simpl; lia)). unfold rpacked, ritem in Hall. rewrite E in Hall. simpl in Hall.
      destruct (Hits it) as (_ & _ & ?); [rewrite E; left; reflexivity|]. lia.
    - destruct (Hpos d (or_introl eq_refl)).
      assert (0 <= zsum rd_copies ds') by (apply zsum_nonneg; intros e He; apply Hnn; right; assumption). lia. }
  assert (Hrange : forall d, In d ds -> True) by auto. clear Hrange.
  induction iterations as [|it IH]; intros bound b Hb E; [discriminate|]. simpl in E.
  destruct (rec (modified_instance i bound)) as [b'|] eqn:Er; [|discriminate]. cbn [bind] in E.
  destruct (modified_packing_ok i Hone Hbins bound ltac:(lia) (bins_of ds)) as (M1 & M2 & M3).
  { intros ps Hps. unfold bins_of in Hps. apply in_flat_map in Hps. destruct Hps as (d & Hd & Hps).
    apply repeat_spec in Hps. subst ps. apply (Hpos d Hd). }
  { intros x Hx. rewrite bins_of_count by assumption. apply Hall. assumption. }
  { rewrite bins_of_length by assumption. lia. }
  pose proof (Hrec bound b' _ ltac:(lia) Er M1 M2) as HB. rewrite M3, bins_of_length in HB by assumption.
  assert (HC : Z.quot (b' - 1) 2 + 1 <= rbins_used ds).
  { destruct (Z.le_gt_cases b' 0).
    - pose proof (quot2_nonpos (b') ltac:(assumption)). lia.
    - rewrite Z.quot_div_nonneg by lia. pose proof (div2_spec (b' - 1)). lia. }
  destruct (Z.leb_spec (Z.quot (b' - 1) 2 + 1) bound); [injection E as <-; lia|].
  destruct (rb_x (rbin i 0) =? rb_y (rbin i 0)); [injection E as <-; assumption|].
  apply (IH (Z.quot (b' - 1) 2 + 1)); [lia|assumption].
Qed.

Theorem rbin_bound_valid : forall iterations depth i b ds,
  positive_items i -> length (rin_bins i) = 1%nat -> positive_bins i ->
  rbin_bound nan iterations depth i = Some b -> packing_ok i ds -> rall_packed i ds -> b <= rbins_used ds.
Proof.
  intros iterations depth. induction depth as [|depth IH]; intros i b ds Hits Hone Hbins E Hds Hall; [discriminate|].
  simpl in E. destruct (rsweep_some nan Hnan i Hits Hone Hbins) as (s & Es & _ & _ & Hs).
  assert (HN : 0 <= rbins_used ds).
  { apply zsum_nonneg. intros d Hd. destruct (pa_bins i ds Hds d Hd) as (_ & ? & _). lia. }
  specialize (Hs ds Hds Hall). rewrite Es in E. destruct (all_oriented i) eqn:Eo; cbn [bind] in E.
  - injection E as <-. lia.
  - destruct (clautiaux_loop (rbin_bound nan iterations depth) i iterations 0) as [c|] eqn:Ec; [|discriminate]. cbn [bind] in E.
    injection E as <-. apply Z.max_lub; [assumption|].
    apply (clautiaux_valid (rbin_bound nan iterations depth) i Hits Hone Hbins Eo) with (ds := ds) (iterations := iterations) (bound := 0); try assumption; [|lia].
    intros cb b' ds' Hcb Er H1 H2. apply (IH (modified_instance i cb)); try assumption.
    + apply modified_positive; assumption.
    + apply (modified_bins i Hone Hbins cb).
    + apply (modified_bins i Hone Hbins cb).
Qed.

(** ** The computation terminates *)

Lemma modified_all_oriented : forall i cb, rb_x (rbin i 0) = rb_y (rbin i 0) -> all_oriented (modified_instance i cb) = true.
Proof.
  intros i cb Hsq. unfold all_oriented, modified_instance. cbn [rin_items]. unfold clautiaux_dummy. rewrite Hsq, Z.ltb_irrefl. cbn [app].
  apply forallb_forall. intros it Hit. apply in_flat_map in Hit. destruct Hit as (x & _ & Hit).
  unfold clautiaux_items in Hit. destruct (ri_x x =? ri_y x); simpl in Hit; intuition (subst; reflexivity).
Qed.

Definition pair_weight (b : RBin) (its : list RItem) : Z := total_weight b (flat_map clautiaux_items its).

Lemma total_weight_app : forall b l1 l2, total_weight b (l1 ++ l2) = total_weight b l1 + total_weight b l2.
Proof. intros. unfold total_weight. apply zsum_app. Qed.

(** The bin of the modified instance does not depend on the bound, up to its
    number of copies. *)
Lemma weight_bin : forall b1 b2 it, rb_x b1 = rb_x b2 -> rb_y b1 = rb_y b2 -> weight b1 it = weight b2 it.
Proof. intros b1 b2 it H1 H2. unfold weight. rewrite H1, H2. reflexivity. Qed.
Lemma total_weight_bin : forall b1 b2 l, rb_x b1 = rb_x b2 -> rb_y b1 = rb_y b2 -> total_weight b1 l = total_weight b2 l.
Proof. intros b1 b2 l H1 H2. unfold total_weight. apply zsum_ext. intros it _. rewrite (weight_bin b1 b2) by assumption. reflexivity. Qed.

Lemma dummy_weight : forall i cb b, 0 <= cb -> 1 <= rb_x (rbin i 0) -> 1 <= rb_y (rbin i 0) ->
  rb_x b = Z.max (rb_x (rbin i 0)) (rb_y (rbin i 0)) -> rb_y b = Z.max (rb_x (rbin i 0)) (rb_y (rbin i 0)) ->
  total_weight b (clautiaux_dummy (rbin i 0) cb) <= cb
  /\ total_weight b (flat_map clautiaux_items (clautiaux_dummy (rbin i 0) cb)) <= 2 * cb.
Proof.
  intros i cb b Hcb HX HY E1 E2. set (X := rb_x (rbin i 0)) in *. set (Y := rb_y (rbin i 0)) in *.
  assert (W1 : forall x y o p c, x <= Z.max X Y -> y <= Z.max X Y -> weight b (clautiaux_item x y o p c) = 1).
  { intros x y o p c H1 H2. unfold weight. cbn [clautiaux_item ri_x ri_y]. rewrite E1, E2.
    destruct (Z.leb_spec x (Z.max X Y)); [|lia]. destruct (Z.leb_spec y (Z.max X Y)); [|lia]. reflexivity. }
  unfold clautiaux_dummy. fold X Y.
  assert (G : forall x y p, x <= Z.max X Y -> y <= Z.max X Y ->
     total_weight b [clautiaux_item x y false cb p] <= cb
     /\ total_weight b (flat_map clautiaux_items [clautiaux_item x y false cb p]) <= 2 * cb).
  { intros x y p H1 H2. unfold total_weight. cbn [flat_map app]. rewrite zsum_cons, zsum_nil, W1 by assumption. cbn [clautiaux_item ri_copies].
    split; [lia|]. unfold clautiaux_items. cbn [clautiaux_item ri_x ri_y ri_copies]. rewrite app_nil_r.
    destruct (x =? y); rewrite ?zsum_cons, zsum_nil, ?W1 by assumption; cbn [clautiaux_item ri_copies]; lia. }
  destruct (Z.ltb_spec Y X); [|destruct (Z.ltb_spec X Y)];
    try (destruct (Z.ltb_spec 0 cb); [apply G; lia|]); cbn [flat_map]; unfold total_weight; rewrite zsum_nil; lia.
Qed.

Lemma total_weight_nonneg : forall b its, (forall it, In it its -> 0 <= ri_copies it /\ 0 <= ri_x it /\ 0 <= ri_y it) ->
  0 <= rb_x b -> 0 <= rb_y b -> 0 <= total_weight b its.
Proof.
  intros b its H HX HY. apply zsum_nonneg. intros it Hit. destruct (H it Hit) as (H1 & H2 & H3).
  apply Z.mul_nonneg_nonneg; [assumption|]. unfold weight. destruct (_ && _); nia.
Qed.

(** Bound returned for the modified instance. *)
Lemma modified_result : forall i iterations, positive_items i -> length (rin_bins i) = 1%nat -> positive_bins i ->
  exists K, 0 <= K /\ forall cb, 0 <= cb ->
    exists b, rbin_bound nan (S iterations) 2 (modified_instance i cb) = Some b /\ b <= cb + K.
Proof.
  intros i iterations Hits Hone Hbins. pose proof (one_bt i Hone Hbins) as HB.
  set (b0 := clautiaux_bin (rbin i 0) 0).
  set (V2 := total_weight b0 (flat_map clautiaux_items (rin_items i))).
  set (V3 := total_weight b0 (flat_map clautiaux_items (flat_map clautiaux_items (rin_items i)))).
  exists (Z.max 0 V2 + Z.max 0 V3 + 1). split; [lia|]. intros cb Hcb.
  set (m := modified_instance i cb).
  assert (Pm : positive_items m) by (apply modified_positive; assumption).
  destruct (modified_bins i Hone Hbins cb) as [Om Bm]. fold m in Om, Bm.
  assert (Hsq : rb_x (rbin m 0) = rb_y (rbin m 0)) by reflexivity.
  set (mm := modified_instance m 0).
  assert (Pmm : positive_items mm) by (apply modified_positive; try assumption; lia).
  destruct (modified_bins m Om Bm 0) as [Omm Bmm]. fold mm in Omm, Bmm.
  destruct (rsweep_some nan Hnan m Pm Om Bm) as (s & Es & Hs0 & Hs & _).
  destruct (rsweep_some nan Hnan mm Pmm Omm Bmm) as (s2 & Es2 & Hs20 & Hs2 & _).
  destruct (dummy_weight i cb b0 Hcb (proj1 HB) (proj2 HB) eq_refl eq_refl) as [D1 D2].
  assert (Em : total_weight (rbin m 0) (rin_items m) <= cb + V2).
  { rewrite (total_weight_bin (rbin m 0) b0) by reflexivity. unfold m, modified_instance. cbn [rin_items].
    rewrite total_weight_app. fold V2. lia. }
  assert (Emm : total_weight (rbin mm 0) (rin_items mm) <= 2 * cb + V3).
  { rewrite (total_weight_bin (rbin mm 0) b0).
    2:{ unfold mm, m, b0, modified_instance. cbn [rbin rin_bins nth clautiaux_bin rb_x]. unfold rbin. cbn [rin_bins nth clautiaux_bin rb_x rb_y]. lia. }
    2:{ unfold mm, m, b0, modified_instance. cbn [rbin rin_bins nth clautiaux_bin rb_y]. unfold rbin. cbn [rin_bins nth clautiaux_bin rb_x rb_y]. lia. }
    unfold mm, modified_instance. cbn [rin_items]. unfold clautiaux_dummy at 1. rewrite Hsq, Z.ltb_irrefl. cbn [app].
    unfold m, modified_instance. cbn [rin_items]. rewrite flat_map_app, total_weight_app. fold V3. lia. }
  cbn [rbin_bound]. fold m. rewrite Es.
  destruct (all_oriented m) eqn:Eo; cbn [bind].
  - eexists. split; [reflexivity|]. lia.
  - cbn [clautiaux_loop]. fold mm. assert (Eom : all_oriented mm = true) by (apply modified_all_oriented; exact Hsq). rewrite Eom, Es2. cbn [bind].
    rewrite Hsq, Z.eqb_refl.
    assert (HQ : Z.quot (Z.max s2 0 - 1) 2 + 1 <= cb + Z.max 0 V3 + 1).
    { destruct (Z.le_gt_cases (Z.max s2 0) 0) as [H|H].
      - pose proof (quot2_nonpos (Z.max s2 0) ltac:(assumption)). lia.
      - rewrite Z.quot_div_nonneg by lia. pose proof (div2_spec (Z.max s2 0 - 1)). lia. }
    destruct (Z.quot (Z.max s2 0 - 1) 2 + 1 <=? 0); cbn [bind]; eexists; (split; [reflexivity|]); lia.
Qed.

Theorem rbin_bound_terminates : forall i, positive_items i -> length (rin_bins i) = 1%nat -> positive_bins i ->
  exists fuel, forall iterations, (fuel <= iterations)%nat -> exists b, rbin_bound nan iterations 3 i = Some b.
Proof.
  intros i Hits Hone Hbins.
  destruct (rsweep_some nan Hnan i Hits Hone Hbins) as (s & Es & _).
  destruct (all_oriented i) eqn:Eo.
  { exists 0%nat. intros it _. cbn [rbin_bound]. rewrite Eo, Es. cbn [bind]. eauto. }
  (* the constant does not depend on the number of iterations *)
  assert (HK : exists K, 0 <= K /\ forall iterations cb, 0 <= cb ->
     exists b, rbin_bound nan (S iterations) 2 (modified_instance i cb) = Some b /\ b <= cb + K).
  { destruct (modified_result i 0 Hits Hone Hbins) as (K & HK0 & HK). exists K. split; [assumption|].
    intros it cb Hcb. destruct (HK cb Hcb) as (b & Eb & Hb). exists b. split; [|assumption]. rewrite <- Eb.
    cbn [rbin_bound]. destruct (all_oriented (modified_instance i cb)); [reflexivity|].
    cbn [clautiaux_loop]. rewrite (modified_all_oriented (modified_instance i cb) 0) by reflexivity.
    change (rb_x (rbin (modified_instance i cb) 0)) with (rb_y (rbin (modified_instance i cb) 0)). rewrite Z.eqb_refl. reflexivity. }
  destruct HK as (K & HK0 & HK).
  assert (HL : forall steps iterations bound, 0 <= bound -> K + 1 - bound <= Z.of_nat steps ->
    (steps < iterations)%nat -> exists c, clautiaux_loop (rbin_bound nan (S (pred iterations)) 2) i iterations bound = Some c).
  { intros steps iterations bound. set (rec := rbin_bound nan (S (pred iterations)) 2).
    assert (Hrec : forall cb, 0 <= cb -> exists b, rec (modified_instance i cb) = Some b /\ b <= cb + K)
      by (intros cb Hcb; apply HK; assumption).
    clearbody rec. revert iterations bound. induction steps as [|steps IH]; intros iterations bound Hb0 Hb Hlt;
      (destruct iterations as [|iterations]; [lia|]); simpl;
      destruct (Hrec bound Hb0) as (b & Eb & Hbb); rewrite Eb; cbn [bind].
    - assert (HC : Z.quot (b - 1) 2 + 1 <= bound).
      { destruct (Z.le_gt_cases b 0).
        - pose proof (quot2_nonpos (b) ltac:(assumption)). lia.
        - rewrite Z.quot_div_nonneg by lia. pose proof (div2_spec (b - 1)). lia. }
      destruct (Z.leb_spec (Z.quot (b - 1) 2 + 1) bound); [eauto|lia].
    - destruct (Z.leb_spec (Z.quot (b - 1) 2 + 1) bound); [eauto|].
      destruct (rb_x (rbin i 0) =? rb_y (rbin i 0)); [eauto|]. apply IH; lia. }
  exists (S (Z.to_nat (K + 1))). intros iterations Hi. cbn [rbin_bound]. rewrite Eo, Es.
  destruct (HL (Z.to_nat (K + 1)) iterations 0) as (c & Ec); [lia|lia|lia|].
  destruct iterations as [|iterations]; [lia|]. cbn [pred] in Ec. cbn [rbin_bound] in Ec. rewrite Ec. cbn [bind]. eauto.
Qed.

End Valid.

(** ** Knapsack *)

Section Knapsack.

Variable i : RInstance.
Hypothesis Hits : positive_items i.
Hypothesis Hone : length (rin_bins i) = 1%nat.
Hypothesis Hbins : positive_bins i.
Hypothesis Hprofit : forall it, In it (rin_items i) -> (0 <= ri_profit it)%Q.
Variable ds : list RDesc.
Hypothesis Hds : packing_ok i ds.
Hypothesis Helig : relig_ok i ds.
Hypothesis Hused : rbins_used ds <= rb_copies (rbin i 0).

Let n := length (rin_items i).
Let bt := rbin i 0.

Lemma kn_nonneg : forall d, In d ds -> 0 <= rd_copies d.
Proof. intros d Hd. destruct (pa_bins i ds Hds d Hd) as (_ & ? & _). lia. Qed.

Lemma packed_fits : forall d p, In d ds -> In p (rd_items d) -> rfits_some_bin i (pl_type p) = true.
Proof.
  intros d p Hd Hp. destruct (ds_bin i Hone ds Hds d Hd) as (Et & _ & G).
  destruct (disjoint_geometry i bt Hits _ G p Hp) as (W & H & _ & _).
  unfold rfits_some_bin. apply existsb_exists. exists bt. split; [apply nth_In; lia|].
  unfold ritem_fits. apply andb_true_iff. split.
  - apply orb_true_iff. pose proof (pk_rot _ _ _ (ge_places _ _ _ G p Hp)) as R. unfold pl_w, pl_h in W, H. destruct (pl_rot p).
    + right. rewrite (R eq_refl). cbn [negb andb]. apply andb_true_iff. split; apply Z.leb_le; assumption.
    + left. apply andb_true_iff. split; apply Z.leb_le; assumption.
  - unfold religible. apply orb_true_iff. destruct (Helig d p Hd Hp) as [E|E]; [left; apply Z.eqb_eq; assumption|right].
    apply existsb_exists. eexists. split; [rewrite Et in E; exact E|apply Z.eqb_refl].
Qed.

Lemma rpacked_pos : forall j, rpacked j ds <> 0 -> exists d p, In d ds /\ In p (rd_items d) /\ pl_type p = j.
Proof.
  intro j. unfold rpacked. clear. induction ds as [|d l IH]; intro H; [exfalso; apply H; reflexivity|].
  rewrite zsum_cons in H. destruct (filter (fun p => Nat.eqb (pl_type p) j) (rd_items d)) as [|p ps] eqn:E.
  - unfold rcount at 1 in H. rewrite E in H. destruct IH as (e & p & He & Hp & Ep); [simpl in H; lia|].
    exists e, p. split; [right; assumption|]. auto.
  - assert (Hin : In p (filter (fun p => Nat.eqb (pl_type p) j) (rd_items d))) by (rewrite E; left; reflexivity).
    apply filter_In in Hin. destruct Hin as [Hin Ej]. apply Nat.eqb_eq in Ej. exists d, p. split; [left; reflexivity|]. auto.
Qed.

Lemma rnot_fits : forall j, rfits_some_bin i j = false -> rpacked j ds = 0.
Proof.
  intros j H. destruct (Z.eq_dec (rpacked j ds) 0) as [E|N]; [assumption|].
  destruct (rpacked_pos j N) as (d & p & Hd & Hp & Ej). rewrite <- Ej, (packed_fits d p Hd Hp) in H. discriminate.
Qed.

Lemma rknapsack_combo_bound : forall fc q, any_rcombo (rin_items i) bt fc -> In q (rknapsack_combo i fc) -> (rprofit i ds <= q)%Q.
Proof.
  intros fc q Hfc Hq. unfold rknapsack_combo in Hq. destruct (Z.leb_spec (fst fc) 0) as [|Hf]; [destruct Hq|].
  destruct Hq as [<-|[]]. unfold rprofit.
  rewrite <- (rqpacked_sum n ds (fun j => ri_profit (ritem i j)) (ds_type i Hone ds Hds)).
  set (cs := snd fc) in *.
  set (its := fun j => if rfits_some_bin i j
      then [mkDI (ri_profit (ritem i j)) (nth j cs 0) (ri_copies (ritem i j))] else []).
  set (cnt := fun j => if rfits_some_bin i j then [rpacked j ds] else []).
  assert (Hrange : forall s, (forall j, In j s -> (j < n)%nat) ->
    choice (flat_map its s) (flat_map cnt s)
    /\ (choice_profit (flat_map its s) (flat_map cnt s) == qsum (fun j => inject_Z (rpacked j ds) * ri_profit (ritem i j)) s)%Q
    /\ choice_volume (flat_map its s) (flat_map cnt s) = zsum (fun j => rpacked j ds * nth j cs 0) s).
  { unfold choice. induction s as [|j s IH]; intro Hs.
    - split; [constructor|]. split; reflexivity.
    - destruct IH as (I1 & I2 & I3); [intros x Hx; apply Hs; right; assumption|].
      simpl flat_map. rewrite qsum_cons, zsum_cons. unfold its at 1 3 5, cnt at 1 3 5.
      destruct (rfits_some_bin i j) eqn:Ef.
      + simpl app. rewrite choice_profit_cons, choice_volume_cons, I2, I3. cbn [di_profit di_volume di_copies].
        split; [constructor; [|exact I1]|split; [ring|lia]].
        cbn [di_copies]. pose proof (rpacked_nonneg j ds kn_nonneg). pose proof (pa_copies i ds Hds j (Hs j (or_introl eq_refl))). lia.
      + simpl app. rewrite (rnot_fits j Ef). split; [exact I1|]. split; [rewrite I2; simpl; ring|lia]. }
  destruct (Hrange (seq 0 n)) as (H1 & H2 & H3); [intros j Hj; apply in_seq in Hj; lia|].
  rewrite <- H2. change (rdantzig_items i cs) with (flat_map its (seq 0 n)).
  assert (HU : 0 <= rbins_used ds) by (apply zsum_nonneg; exact kn_nonneg).
  apply dantzig_upper; [|exact H1| |].
  - apply Forall_forall. intros it Hit. apply in_flat_map in Hit. destruct Hit as (j & Hj & Hit).
    apply in_seq in Hj. unfold its in Hit. destruct (rfits_some_bin i j) eqn:Ef; [|destruct Hit].
    destruct Hit as [<-|[]]. cbn [di_profit di_volume di_copies].
    assert (Hin : In (ritem i j) (rin_items i)) by (apply nth_In; unfold n in Hj; lia).
    destruct (Hits _ Hin) as (_ & _ & Hc). split; [apply Hprofit; assumption|].
    split; [|lia]. destruct Hfc as (k & l & fw & fh & HR). apply (rc_range _ _ _ _ _ _ _ HR). unfold n in Hj. lia.
  - rewrite <- inject_Z_mult. apply inj_nonneg. nia.
  - rewrite <- inject_Z_mult, <- Zle_Qle, H3. pose proof (rcombo_packed i Hits Hone Hbins ds Hds fc Hfc) as HP.
    fold n in HP. fold cs in HP. nia.
Qed.

Lemma rpenalties_bound : (- qsum (rpenalties i) ds <= rnegative_penalty_sum i)%Q.
Proof.
  unfold rnegative_penalty_sum.
  destruct (rin_bins i) as [|bt0 [|bt' l]] eqn:E; simpl in Hone; try discriminate. cbn [fold_left].
  assert (Ebt : rbin i 0 = bt0) by (unfold rbin; rewrite E; reflexivity).
  destruct (negative_sum_le (rb_resources bt0) (fun _ => true)) as [_ N0].
  assert (HS : (- qsum (rpenalties i) ds <= inject_Z (rbins_used ds) * negative_penalty_sum (rb_resources bt0))%Q).
  { assert (HT : forall d, In d ds -> rd_type d = 0%nat /\ 1 <= rd_copies d).
    { intros d Hd. destruct (pa_bins i ds Hds d Hd) as (A & B & _). rewrite E in A. simpl in A. split; [lia|assumption]. }
    unfold rbins_used. revert HT. clear -N0 Ebt. induction ds as [|d l IH]; intro HT.
    - simpl. change (inject_Z 0) with 0%Q. lra.
    - rewrite qsum_cons, zsum_cons, inject_Z_plus.
      specialize (IH (fun e He => HT e (or_intror He))).
      destruct (HT d (or_introl eq_refl)) as [Et Hpos].
      assert (HP : (- rpenalties i d <= negative_penalty_sum (rb_resources bt0))%Q).
      { unfold rpenalties. rewrite Et, Ebt.
        apply (negative_sum_le (rb_resources bt0) (fun r => Qltb (res_capacity r) (rconsumption i r (rd_items d)))). }
      assert (1 <= inject_Z (rd_copies d))%Q by (change 1%Q with (inject_Z 1); rewrite <- Zle_Qle; assumption).
      nra. }
  rewrite Ebt in Hused.
  assert (inject_Z (rbins_used ds) <= inject_Z (rb_copies bt0))%Q by (rewrite <- Zle_Qle; assumption).
  nra.
Qed.

Lemma rknapsack_valid : forall combos q, Forall (any_rcombo (rin_items i) bt) combos ->
  fold_left min_bound (flat_map (rknapsack_combo i) combos) None = Some q ->
  (rnet_profit i ds <= q + rnegative_penalty_sum i)%Q.
Proof.
  intros combos q H E.
  assert (HQ : (rprofit i ds <= q)%Q).
  { assert (G : forall l (b : option Q) m, (match b with Some q => (m <= q)%Q | None => True end) ->
      (forall x, In x l -> (m <= x)%Q) ->
      match fold_left min_bound l b with Some q => (m <= q)%Q | None => True end).
    { induction l as [|x l IH]; intros b m Hb Hl; simpl; [assumption|]. apply IH.
      - unfold min_bound. specialize (Hl x (or_introl eq_refl)). destruct b; [apply Q.min_glb; assumption|assumption].
      - intros y Hy. apply Hl. right. assumption. }
    specialize (G (flat_map (rknapsack_combo i) combos) None (rprofit i ds) I). rewrite E in G. apply G.
    intros x Hx. apply in_flat_map in Hx. destruct Hx as (fc & Hfc & Hx). rewrite Forall_forall in H.
    apply (rknapsack_combo_bound fc); auto. }
  unfold rnet_profit. pose proof rpenalties_bound as HP. lra.
Qed.

End Knapsack.

(** ** Cut *)

Lemma cut_fold : forall selected (P : Z * list Z -> Prop) combos best,
  Forall P combos ->
  (cut_found best = true -> P (cut_bound best, cut_coefficients best) /\ 0 < cut_bound best
     /\ cut_violation best = zsum (fun p => snd p * nth (fst p) (cut_coefficients best) 0) selected - cut_bound best
     /\ 0 < cut_violation best) ->
  0 <= cut_violation best ->
  let c := fold_left (cut_step selected) combos best in
  (cut_found c = true -> P (cut_bound c, cut_coefficients c) /\ 0 < cut_bound c
     /\ cut_violation c = zsum (fun p => snd p * nth (fst p) (cut_coefficients c) 0) selected - cut_bound c
     /\ 0 < cut_violation c)
  /\ cut_violation best <= cut_violation c
  /\ (forall fc, In fc combos -> 0 < fst fc ->
        zsum (fun p => snd p * nth (fst p) (snd fc) 0) selected - fst fc <= cut_violation c)
  /\ (cut_found c = false -> cut_violation c = cut_violation best).
Proof.
  intros selected P combos. induction combos as [|fc combos IH]; intros best HF Hb Hv; cbn [fold_left].
  - split; [assumption|]. split; [lia|]. split; [intros fc []|reflexivity].
  - inversion HF as [|? ? F1 F2]; subst.
    set (b1 := cut_step selected best fc).
    assert (HB1 : (cut_found b1 = true -> P (cut_bound b1, cut_coefficients b1) /\ 0 < cut_bound b1
       /\ cut_violation b1 = zsum (fun p => snd p * nth (fst p) (cut_coefficients b1) 0) selected - cut_bound b1
       /\ 0 < cut_violation b1)
       /\ cut_violation best <= cut_violation b1
       /\ (0 < fst fc -> zsum (fun p => snd p * nth (fst p) (snd fc) 0) selected - fst fc <= cut_violation b1)
       /\ (cut_found b1 = false -> cut_violation b1 = cut_violation best)).
    { unfold b1, cut_step. destruct (Z.leb_spec (fst fc) 0).
      - split; [assumption|]. split; [lia|]. split; [lia|reflexivity].
      - destruct (Z.ltb_spec (cut_violation best) (zsum (fun p => snd p * nth (fst p) (snd fc) 0) selected - fst fc));
          cbn [cut_found cut_bound cut_coefficients cut_violation].
        + split; [|split; [lia|split; [lia|discriminate]]]. intros _. rewrite <- surjective_pairing.
          split; [assumption|]. split; [assumption|]. split; [reflexivity|lia].
        + split; [assumption|]. split; [lia|]. split; [lia|reflexivity]. }
    destruct HB1 as (B1 & B2 & B3 & B4).
    destruct (IH b1 F2 B1 ltac:(lia)) as (I1 & I2 & I3 & I4). split; [exact I1|]. split; [lia|]. split.
    + intros fc' [<-|Hin] Hp; [specialize (B3 Hp); lia|apply I3; assumption].
    + intro Hf. rewrite (I4 Hf). apply B4. destruct (cut_found b1) eqn:E; [|reflexivity].
      (* a found cut stays found *)
      exfalso. clearbody b1. clear -E Hf. revert b1 E Hf. induction combos as [|fc2 combos IH]; intros b1 E Hf; simpl in Hf; [congruence|].
      apply (IH (cut_step selected b1 fc2)); [|assumption]. unfold cut_step.
      destruct (fst fc2 <=? 0); [assumption|]. destruct (_ <? _); [reflexivity|assumption].
Qed.
