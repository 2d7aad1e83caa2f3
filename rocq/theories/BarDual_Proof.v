(** * The bound of the bar relaxation for given duals *)

From Coq Require Import List ZArith QArith Qabs Bool Lia Lqa.
From Verif Require Import Util Common_Model Common_Spec Common_Proof Rect_Model Rect_Spec Geom Scale_Model Scale_Spec Bar_Model Bar_Spec Bar_Proof.
Import ListNotations.
Open Scope Z_scope.

Section Dual.
Variable i : RInstance.
Variable solver : bool -> nat -> Z -> list KItem -> nat -> Z.
Variable duals : BRow -> Q.
Hypothesis Hitems : positive_items i.
Hypothesis Hbins : positive_bins i.

Lemma bin_positive : forall t, (t < length (rin_bins i))%nat -> 0 < rb_x (rbin i t) /\ 0 < rb_y (rbin i t).
Proof. intros t Ht. pose proof (Hbins (rbin i t) (nth_In _ _ Ht)). lia. Qed.
Lemma variant_positive : forall t v, In v (eligible_variants i t) -> 0 < va_w (variant i v) /\ 0 < va_h (variant i v).
Proof.
  intros t v Hv. destruct (eligible_in i t v Hv) as (Hl & _). destruct (variant_in i v Hl) as (x & Hx & _ & H).
  pose proof (Hitems (ritem i x) (nth_In _ _ Hx)). lia.
Qed.
Lemma length_positive : forall rows t v, In v (eligible_variants i t) -> 0 < bar_length i rows v.
Proof. intros rows t v Hv. pose proof (variant_positive t v Hv). unfold bar_length. destruct rows; tauto. Qed.

(** ** Priced columns *)

Lemma bar_items_in : forall rows t k, In k (bar_items i duals rows t) <-> exists v, In v (eligible_variants i t) /\ (0 < bar_profit i duals rows t v)%Q
  /\ k = mkKI v (bar_length i rows v) (bar_profit i duals rows t v) (ri_copies (ritem i (va_type (variant i v)))).
Proof.
  intros rows t k. unfold bar_items. rewrite in_map_iff. split.
  - intros (v & <- & Hv). apply filter_In in Hv. destruct Hv as [Hv Hp]. exists v. split; [exact Hv|]. split; [|reflexivity].
    apply negb_true_iff in Hp. apply Qnot_le_lt. intro H. apply Qle_bool_iff in H. congruence.
  - intros (v & Hv & Hp & ->). exists v. split; [reflexivity|]. apply filter_In. split; [exact Hv|]. apply negb_true_iff. apply not_true_is_false. intro H. apply Qle_bool_iff in H. apply (Qlt_not_le _ _ Hp H).
Qed.
Lemma bar_items_nodup : forall rows t, NoDup (map ki_id (bar_items i duals rows t)).
Proof.
  intros rows t. unfold bar_items. rewrite map_map. cbn [ki_id]. rewrite List.map_id. apply NoDup_filter, eligible_nodup.
Qed.
Lemma bar_items_sum : forall rows t (f : KItem -> Q), (qsum f (bar_items i duals rows t)
  == qsum (fun v => if Qle_bool (bar_profit i duals rows t v) 0 then 0 else f (mkKI v (bar_length i rows v) (bar_profit i duals rows t v) (ri_copies (ritem i (va_type (variant i v)))))) (eligible_variants i t))%Q.
Proof.
  intros rows t f. unfold bar_items. rewrite qsum_map, qsum_sift. apply qsum_ext. intros v _. destruct (Qle_bool (bar_profit i duals rows t v) 0); reflexivity.
Qed.
Lemma bar_items_zsum : forall rows t (f : KItem -> Z), zsum f (bar_items i duals rows t)
  = zsum (fun v => if Qle_bool (bar_profit i duals rows t v) 0 then 0 else f (mkKI v (bar_length i rows v) (bar_profit i duals rows t v) (ri_copies (ritem i (va_type (variant i v)))))) (eligible_variants i t).
Proof.
  intros rows t f. unfold bar_items. rewrite zsum_map. induction (eligible_variants i t) as [|v l IH]; [reflexivity|].
  cbn [filter]. rewrite zsum_cons. destruct (Qle_bool (bar_profit i duals rows t v) 0); cbn [negb]; [rewrite IH; lia|rewrite zsum_cons, IH; reflexivity].
Qed.

Lemma selected_feasible : forall rows t, bar_solver_sound solver -> (t < length (rin_bins i))%nat ->
  (forall v, In v (eligible_variants i t) -> 0 <= ri_copies (ritem i (va_type (variant i v)))) ->
  kp_feasible (bar_capacity i rows t) (bar_items i duals rows t) (bar_selected i solver duals rows t).
Proof.
  intros rows t Hs Ht Hc. pose proof (bin_positive t Ht) as Hb.
  assert (Hcap : 0 <= bar_capacity i rows t) by (unfold bar_capacity; destruct rows; lia).
  assert (Hk : forall k, In k (bar_items i duals rows t) -> 0 < ki_len k /\ 0 <= ki_copies k).
  { intros k Hk. apply bar_items_in in Hk. destruct Hk as (v & Hv & _ & ->). cbn. split; [apply (length_positive rows t v Hv)|apply Hc; exact Hv]. }
  destruct (Hs rows t (bar_capacity i rows t) (bar_items i duals rows t) Hcap (bar_items_nodup rows t) Hk) as [F1 F2].
  unfold bar_selected. destruct (bar_items i duals rows t) as [|k0 ks] eqn:E; [split; [intros k []|rewrite zsum_nil; exact Hcap]|].
  rewrite <- E in *. split.
  - intros k Hin. specialize (F1 k Hin). lia.
  - erewrite zsum_ext; [exact F2|]. intros k Hin. cbn beta. specialize (F1 k Hin). rewrite Z.max_r by lia. reflexivity.
Qed.

Lemma priced_pattern : forall rows t, bar_solver_sound solver -> (t < length (rin_bins i))%nat ->
  (forall v, In v (eligible_variants i t) -> 0 <= ri_copies (ritem i (va_type (variant i v)))) ->
  bar_pattern i (snd (price_bars i solver duals rows t)).
Proof.
  intros rows t Hs Ht Hc. destruct (selected_feasible rows t Hs Ht Hc) as [F1 F2].
  set (a := fun v => if Qle_bool (bar_profit i duals rows t v) 0 then 0 else bar_selected i solver duals rows t v).
  exists rows, t, a. split; [exact Ht|]. split.
  - split.
    + intros v Hv. unfold a. destruct (Qle_bool (bar_profit i duals rows t v) 0) eqn:E; [specialize (Hc v Hv); lia|].
      assert (Hp : (0 < bar_profit i duals rows t v)%Q) by (apply Qnot_le_lt; intro H; apply Qle_bool_iff in H; congruence).
      apply (F1 (mkKI v (bar_length i rows v) (bar_profit i duals rows t v) (ri_copies (ritem i (va_type (variant i v)))))). apply bar_items_in. exists v. auto.
    + fold (bar_capacity i rows t). etransitivity; [|exact F2]. rewrite bar_items_zsum. apply zsum_le. intros v _. unfold a. fold (bar_length i rows v). cbn [ki_len ki_id].
      destruct (Qle_bool (bar_profit i duals rows t v) 0); lia.
  - unfold price_bars, bar_column. cbn [snd]. fold (bar_cap rows t). f_equal. f_equal. unfold bar_items. clear.
    induction (eligible_variants i t) as [|v l IH]; [reflexivity|]. cbn [filter].
    destruct (Qle_bool (bar_profit i duals rows t v) 0) eqn:E; cbn [negb].
    + assert (a v = 0) as Ea by (unfold a; rewrite E; reflexivity). rewrite Ea. cbn. exact IH.
    + assert (a v = bar_selected i solver duals rows t v) as Ea by (unfold a; rewrite E; reflexivity). cbn [map filter ki_id].
      rewrite Ea. destruct (Z.leb_spec (bar_selected i solver duals rows t v) 0), (Z.ltb_spec 0 (bar_selected i solver duals rows t v)); try lia; cbn [negb map]; rewrite IH; [reflexivity|].
      cbn [ki_id]. rewrite Ea. reflexivity.
Qed.

(** ** Value of the bars *)

Definition sg : Q := if knapsack i then 1%Q else (-1)%Q.
Lemma sg_iff : forall a b, (if knapsack i then (a <= b)%Q else (b <= a)%Q) <-> (sg * a <= sg * b)%Q.
Proof. intros a b. unfold sg. destruct (knapsack i); split; intro H; lra. Qed.
Lemma profit_sg : forall rows t v, (bar_profit i duals rows t v == - sg * duals (bar_link rows t v))%Q.
Proof. intros rows t v. unfold bar_profit, sg. destruct (knapsack i); ring. Qed.

Lemma bar_best : forall rows t a, bar_solver_exact solver -> (t < length (rin_bins i))%nat -> bar_fits i rows t a ->
  (qsum (fun v => inject_Z (a v) * bar_profit i duals rows t v) (eligible_variants i t) <= bar_achieved i solver duals rows t)%Q.
Proof.
  intros rows t a Hs Ht [A1 A2]. fold (bar_capacity i rows t) in A2.
  assert (Hc : forall v, In v (eligible_variants i t) -> 0 <= ri_copies (ritem i (va_type (variant i v)))) by (intros v Hv; specialize (A1 v Hv); lia).
  pose proof (bin_positive t Ht) as Hb. assert (Hcap : 0 <= bar_capacity i rows t) by (unfold bar_capacity; destruct rows; lia).
  set (ks := bar_items i duals rows t) in *.
  assert (Hk : forall k, In k ks -> 0 < ki_len k /\ 0 <= ki_copies k).
  { intros k Hk. apply bar_items_in in Hk. destruct Hk as (v & Hv & _ & ->). cbn. split; [apply (length_positive rows t v Hv)|apply Hc; exact Hv]. }
  destruct (Hs rows t (bar_capacity i rows t) ks Hcap (bar_items_nodup rows t) Hk) as [[F1 F2] F3].
  assert (Fa : kp_feasible (bar_capacity i rows t) ks a).
  { split.
    - intros k Hin. apply bar_items_in in Hin. destruct Hin as (v & Hv & _ & ->). cbn. apply A1. exact Hv.
    - etransitivity; [|exact A2]. unfold ks. rewrite bar_items_zsum. apply zsum_le. intros v Hv. cbn [ki_len ki_id]. fold (bar_length i rows v).
      specialize (A1 v Hv). pose proof (length_positive rows t v Hv). destruct (Qle_bool (bar_profit i duals rows t v) 0); nia. }
  specialize (F3 a Fa).
  assert (E1 : (qsum (fun v => inject_Z (a v) * bar_profit i duals rows t v) (eligible_variants i t) <= kp_value ks a)%Q).
  { unfold kp_value, ks. rewrite bar_items_sum. apply qsum_le. intros v Hv. cbn [ki_value ki_id]. specialize (A1 v Hv).
    assert (0 <= inject_Z (a v))%Q by (change 0%Q with (inject_Z 0); rewrite <- Zle_Qle; lia).
    destruct (Qle_bool (bar_profit i duals rows t v) 0) eqn:E; [apply Qle_bool_iff in E; nra|lra]. }
  assert (E2 : (bar_achieved i solver duals rows t == kp_value ks (solver rows t (bar_capacity i rows t) ks))%Q).
  { unfold bar_achieved, kp_value. fold ks. apply qsum_ext. intros k Hin. unfold bar_selected. fold ks. destruct ks as [|k0 ks0] eqn:E; [destruct Hin|]. rewrite <- E in *.
    rewrite (Z.max_r 0) by (apply F1; exact Hin). apply bar_items_in in Hin. destruct Hin as (v & _ & _ & ->). cbn [ki_id ki_value]. ring. }
  rewrite E2. lra.
Qed.

(** The gain of a bar, in the direction of the optimisation. *)
Definition gain (rows : bool) (t : nat) : Q :=
  let r := (sg * fst (price_bars i solver duals rows t))%Q in if Qltb 0 r then r else 0%Q.
Lemma gain_nonneg : forall rows t, (0 <= gain rows t)%Q.
Proof. intros rows t. unfold gain. destruct (Qltb 0 _) eqn:E; [apply Qltb_lt in E; lra|lra]. Qed.
Lemma gain_ge : forall rows t, (sg * fst (price_bars i solver duals rows t) <= gain rows t)%Q.
Proof. intros rows t. unfold gain. destruct (Qltb 0 _) eqn:E; [lra|apply Qltb_ge in E; exact E]. Qed.
Lemma price_sg : forall rows t, (sg * fst (price_bars i solver duals rows t) == bar_achieved i solver duals rows t - sg * duals (bar_cap rows t))%Q.
Proof. intros rows t. unfold price_bars, sg. cbn [fst]. destruct (knapsack i); ring. Qed.
Lemma overcost_gain : forall rows t, (sg * bar_overcost i solver duals rows t == gain rows t * inject_Z (bar_number i rows t) * inject_Z (rb_copies (rbin i t)))%Q.
Proof.
  intros rows t. unfold bar_overcost, gain, sg. cbv zeta. set (r := fst (price_bars i solver duals rows t)). destruct (knapsack i).
  - destruct (Qltb 0 r) eqn:E1, (Qltb 0 (1 * r)) eqn:E2; try ring.
    + apply Qltb_lt in E1. apply Qltb_ge in E2. lra.
    + apply Qltb_ge in E1. apply Qltb_lt in E2. lra.
  - destruct (Qltb r 0) eqn:E1, (Qltb 0 (-1 * r)) eqn:E2; try ring.
    + apply Qltb_lt in E1. apply Qltb_ge in E2. lra.
    + apply Qltb_ge in E1. apply Qltb_lt in E2. lra.
Qed.

Lemma bar_reduced : forall rows t a, bar_solver_exact solver -> (t < length (rin_bins i))%nat -> bar_fits i rows t a ->
  (sg * reduced_cost duals (bar_column i rows t a) <= gain rows t)%Q.
Proof.
  intros rows t a Hs Ht Hf. eapply Qle_trans; [|apply gain_ge]. rewrite price_sg. pose proof (bar_best rows t a Hs Ht Hf) as HB.
  unfold reduced_cost, bar_column. cbn [bc_obj bc_terms]. rewrite qsum_cons, qsum_map, qsum_sift. cbn [fst snd]. fold (bar_cap rows t).
  assert (E : (sg * qsum (fun v => if 0 <? a v then inject_Z (a v) * duals (if rows then Link1 t v else Link2 t v) else 0) (eligible_variants i t)
    == - qsum (fun v => inject_Z (a v) * bar_profit i duals rows t v) (eligible_variants i t))%Q).
  { rewrite <- qsum_scale. setoid_replace (- qsum (fun v => inject_Z (a v) * bar_profit i duals rows t v) (eligible_variants i t))%Q with (-1 * qsum (fun v => inject_Z (a v) * bar_profit i duals rows t v) (eligible_variants i t))%Q by ring.
    rewrite <- qsum_scale. apply qsum_ext. intros v Hv. rewrite profit_sg. fold (bar_link rows t v). destruct Hf as [A1 _]. specialize (A1 v Hv).
    destruct (Z.ltb_spec 0 (a v)); [ring|]. assert (a v = 0) as -> by lia. change (inject_Z 0) with 0%Q. ring. }
  lra.
Qed.

(** ** The bound *)

Lemma split_fst : forall (cs : list (BCol * Q)) l1 l2, map fst cs = l1 ++ l2 -> exists c1 c2, cs = c1 ++ c2 /\ map fst c1 = l1 /\ map fst c2 = l2.
Proof. intros cs l1 l2 H. apply map_eq_app in H. exact H. Qed.

Lemma static_activity_cap : forall c1 rows t, (t < length (rin_bins i))%nat -> map fst c1 = static_columns i ->
  (forall c, In c c1 -> (bc_lower (fst c) <= snd c)%Q /\ below (bc_upper (fst c)) (snd c)) ->
  (- (inject_Z (bar_number i rows t) * inject_Z (rb_copies (rbin i t))) <= activity c1 (bar_cap rows t))%Q.
Proof.
  intros c1 rows t Ht E HB. pose proof (bin_positive t Ht) as Hb.
  assert (Hn : (0 <= inject_Z (bar_number i rows t))%Q) by (change 0%Q with (inject_Z 0); rewrite <- Zle_Qle; unfold bar_number; destruct rows; lia).
  unfold static_columns in E.
  assert (G : forall ts c1, NoDup ts -> map fst c1 = flat_map (fun u => k_column i u :: map (n_column i u) (eligible_variants i u)) ts ->
    (forall c, In c c1 -> (bc_lower (fst c) <= snd c)%Q /\ below (bc_upper (fst c)) (snd c)) ->
    (~ In t ts -> activity c1 (bar_cap rows t) == 0)%Q /\ (In t ts -> - (inject_Z (bar_number i rows t) * inject_Z (rb_copies (rbin i t))) <= activity c1 (bar_cap rows t))%Q).
  { clear c1 E HB. intros ts. induction ts as [|u ts IH]; intros c1 Hn1 E HB.
    - destruct c1; [|discriminate]. split; [reflexivity|intros []].
    - cbn [flat_map] in E. apply split_fst in E. destruct E as (ca & cb & -> & Ea & Eb). destruct ca as [|[k x] ca]; [discriminate|]. cbn [map fst] in Ea. inversion Ea as [[Ek Ec]]. subst k.
      inversion Hn1 as [|? ? Hu Hts]. subst. destruct (IH cb Hts Eb (fun c Hc => HB c (in_or_app _ _ _ (or_intror Hc)))) as [I1 I2].
      assert (Ez : (activity ca (bar_cap rows t) == 0)%Q).
      { unfold activity. apply qsum_zero. intros c Hc. apply (in_map fst) in Hc. rewrite Ec in Hc. apply in_map_iff in Hc. destruct Hc as (v & <- & _). rewrite n_cap. ring. }
      assert (Es : (activity (((k_column i u, x) :: ca) ++ cb) (bar_cap rows t) == coefficient (k_column i u) (bar_cap rows t) * x + activity cb (bar_cap rows t))%Q).
      { unfold activity in *. cbn [app]. rewrite qsum_cons, qsum_app, Ez. cbn [fst snd]. ring. }
      rewrite Es, k_cap. destruct (HB (k_column i u, x) (or_introl eq_refl)) as [_ Hx]. cbn [fst snd k_column bc_upper below] in Hx.
      destruct (Nat.eqb_spec u t) as [->|N]; split; intro H.
      + exfalso. apply H. left. reflexivity.
      + rewrite (I1 Hu). assert (inject_Z (bar_number i rows t) * x <= inject_Z (bar_number i rows t) * inject_Z (rb_copies (rbin i t)))%Q by (rewrite !(Qmult_comm (inject_Z (bar_number i rows t))); apply Qmult_le_compat_r; assumption). lra.
      + rewrite I1; [ring|]. intro H'. apply H. right. exact H'.
      + destruct H as [->|H]; [congruence|]. specialize (I2 H). lra. }
  apply (G (seq 0 (nbins i)) c1 (seq_NoDup _ _) E HB). apply in_seq. unfold nbins. lia.
Qed.

Lemma bars_value : forall c2 bars, bar_solver_exact solver -> map fst c2 = bars -> (forall c, In c bars -> bar_pattern i c) -> (forall c, In c c2 -> (0 <= snd c)%Q) ->
  (sg * qsum (fun c => reduced_cost duals (fst c) * snd c) c2
   <= qsum (fun t => gain true t * activity c2 (RowCap t) + gain false t * activity c2 (ColCap t)) (seq 0 (nbins i)))%Q.
Proof.
  intros c2 bars Hs <- Hp Hx. unfold activity.
  rewrite (qsum_ext _ (fun t => gain true t * qsum (fun c => coefficient (fst c) (RowCap t) * snd c) c2 + gain false t * qsum (fun c => coefficient (fst c) (ColCap t) * snd c) c2)%Q
    (fun t => qsum (fun c => (gain true t * coefficient (fst c) (RowCap t) + gain false t * coefficient (fst c) (ColCap t)) * snd c) c2)%Q).
  2:{ intros t _. rewrite <- !qsum_scale, <- qsum_plus. apply qsum_ext. intros c _. ring. }
  rewrite qsum_exchange, <- qsum_scale. apply qsum_le. intros c Hc. pose proof (Hx c Hc) as H0. destruct (Hp (fst c) (in_map fst _ _ Hc)) as (rows & t & a & Ht & Hf & E).
  pose proof (bar_reduced rows t a Hs Ht Hf) as HR. rewrite <- E in HR.
  rewrite (qsum_one _ _ (seq 0 (nbins i)) t (seq_NoDup _ _)).
  - change (RowCap t) with (bar_cap true t). change (ColCap t) with (bar_cap false t). rewrite E, !bar_coef_cap, Nat.eqb_refl. rewrite <- E. destruct rows; cbn [Bool.eqb andb]; nra.
  - apply in_seq. unfold nbins. lia.
  - intros u _ N. change (RowCap u) with (bar_cap true u). change (ColCap u) with (bar_cap false u). rewrite E, !bar_coef_cap. destruct (Nat.eqb_spec t u); [congruence|]. rewrite !andb_false_r. ring.
Qed.

Lemma cap_row_in : forall rows t, (t < length (rin_bins i))%nat -> In (bar_cap rows t, None, Some 0%Q) (bar_rows i).
Proof.
  intros rows t Ht. apply in_or_app. left. apply in_flat_map. exists t. split; [apply in_seq; unfold nbins; lia|]. destruct rows; [left|right; left]; reflexivity.
Qed.

Theorem dual_bound : forall d cs, bar_solver_exact solver -> dual_value i duals d -> bar_point i cs ->
  (sg * lp_value cs <= sg * (d + snd (bar_pricing i solver duals)))%Q.
Proof.
  intros d cs Hs (re & ce & Hre & Hce & Ed) (bars & E & Hp & [HB HR]).
  destruct (split_fst cs (static_columns i) bars E) as (c1 & c2 & -> & E1 & E2).
  assert (Terms : forall c p, In c (c1 ++ c2) -> In p (bc_terms (fst c)) -> In (fst p) (map rkey (bar_rows i))).
  { intros c p Hc Hpp. apply (in_map fst) in Hc. rewrite E in Hc. apply in_app_or in Hc. destruct Hc as [Hc|Hc]; [apply (static_terms i (fst c) p Hc Hpp)|apply (bar_terms i (fst c) p (Hp _ Hc) Hpp)]. }
  pose proof (activity_dual duals (c1 ++ c2) _ (keys_nodup i) Terms) as AD.
  (* the value *)
  assert (V : (lp_value (c1 ++ c2) == qsum (fun r => duals r * activity (c1 ++ c2) r) (map rkey (bar_rows i))
    + (qsum (fun c => reduced_cost duals (fst c) * snd c) c1 + qsum (fun c => reduced_cost duals (fst c) * snd c) c2))%Q).
  { rewrite AD, <- qsum_app, <- qsum_plus. unfold lp_value. apply qsum_ext. intros c _. unfold reduced_cost. ring. }
  (* rows *)
  assert (R1 : (sg * qsum (fun r => duals r * activity (c1 ++ c2) r) (map rkey (bar_rows i)) <= sg * qsum (fun r => re (fst (fst r))) (bar_rows i))%Q).
  { rewrite qsum_map, <- !qsum_scale. apply qsum_le. intros [[r lo] up] Hr. unfold rkey. cbn [fst]. apply sg_iff. destruct (HR r lo up Hr) as [H1 H2]. exact (Hre r lo up Hr _ H1 H2). }
  (* static columns *)
  assert (R2 : (sg * qsum (fun c => reduced_cost duals (fst c) * snd c) c1 <= sg * qsum ce (static_columns i))%Q).
  { rewrite <- E1, qsum_map, <- !qsum_scale. apply qsum_le. intros c Hc. apply sg_iff. destruct (HB c (in_or_app _ _ _ (or_introl Hc))) as [H1 H2].
    apply (Hce (fst c)); [rewrite <- E1; apply in_map; exact Hc|exact H1|exact H2]. }
  (* bars *)
  assert (Hx : forall c, In c c2 -> (0 <= snd c)%Q).
  { intros c Hc. destruct (HB c (in_or_app _ _ _ (or_intror Hc))) as [H1 _]. assert (Hc' : In (fst c) bars) by (rewrite <- E2; apply in_map; exact Hc). destruct (Hp _ Hc') as (rows & t & a & _ & _ & Ec). rewrite Ec in H1. exact H1. }
  pose proof (bars_value c2 bars Hs E2 Hp Hx) as R3.
  assert (Cap : forall rows t, (t < length (rin_bins i))%nat -> (activity c2 (bar_cap rows t) <= inject_Z (bar_number i rows t) * inject_Z (rb_copies (rbin i t)))%Q).
  { intros rows t Ht. destruct (HR _ _ _ (cap_row_in rows t Ht)) as [_ H]. cbn [below] in H.
    pose proof (static_activity_cap c1 rows t Ht E1 (fun c Hc => HB c (in_or_app _ _ _ (or_introl Hc)))) as H1.
    unfold activity in *. rewrite qsum_app in H. lra. }
  assert (R4 : (qsum (fun t => gain true t * activity c2 (RowCap t) + gain false t * activity c2 (ColCap t)) (seq 0 (nbins i))
    <= sg * snd (bar_pricing i solver duals))%Q).
  { cbn [bar_pricing snd]. rewrite <- qsum_scale. unfold priced_bins. rewrite qsum_sift. apply qsum_le. intros t Ht. apply in_seq in Ht. assert (Ht' : (t < length (rin_bins i))%nat) by (unfold nbins in Ht; lia).
    assert (G : forall rows, (gain rows t * activity c2 (bar_cap rows t) <= sg * bar_overcost i solver duals rows t)%Q).
    { intro rows. rewrite overcost_gain. pose proof (gain_nonneg rows t) as G0. specialize (Cap rows t Ht'). rewrite <- Qmult_assoc. rewrite !(Qmult_comm (gain rows t)). apply Qmult_le_compat_r; assumption. }
    pose proof (G true) as Gt. pose proof (G false) as Gf. cbn [bar_cap] in Gt, Gf.
    match goal with |- context [if ?b then _ else _] => destruct b eqn:Eb end.
    - lra.
    - assert (Hz : rb_copies (rbin i t) <= 0 \/ eligible_variants i t = []).
      { apply negb_false_iff in Eb. apply orb_prop in Eb. destruct Eb as [Eb|Eb]; [left; apply Z.leb_le; exact Eb|right; destruct (eligible_variants i t); [reflexivity|discriminate]]. }
      assert (Z0 : forall rows, (sg * bar_overcost i solver duals rows t <= 0)%Q).
      { intro rows. rewrite overcost_gain. pose proof (gain_nonneg rows t) as G0. pose proof (bin_positive t Ht') as Hb.
        destruct Hz as [Hz|Hz].
        - assert (0 <= inject_Z (bar_number i rows t))%Q by (change 0%Q with (inject_Z 0); rewrite <- Zle_Qle; unfold bar_number; destruct rows; lia).
          assert (inject_Z (rb_copies (rbin i t)) <= 0)%Q by (change 0%Q with (inject_Z 0); rewrite <- Zle_Qle; lia).
          assert (0 <= gain rows t * inject_Z (bar_number i rows t))%Q by (apply Qmult_le_0_compat; assumption). nra.
        - assert (E0 : (gain rows t == 0)%Q); [|rewrite E0; ring_simplify; lra].
          pose proof (price_sg rows t) as HP. assert (HA : (bar_achieved i solver duals rows t == 0)%Q) by (unfold bar_achieved, bar_items; rewrite Hz; reflexivity).
          assert (HD : (0 <= sg * duals (bar_cap rows t))%Q).
          { pose proof (Hre _ _ _ (cap_row_in rows t Ht')) as HE. unfold extreme_ok in HE. cbn [above below] in HE.
            destruct (Qlt_le_dec (sg * duals (bar_cap rows t)) 0) as [L|L]; [exfalso|exact L].
            set (e := re (bar_cap rows t)) in *. set (q := duals (bar_cap rows t)) in *.
            (* a very negative activity *)
            set (x := (- (Qabs (sg * e) + 1) / - (sg * q))%Q).
            assert (Hq : (0 < - (sg * q))%Q) by lra.
            assert (Hxx : (- (sg * q) * x == - (Qabs (sg * e) + 1))%Q) by (unfold x; apply Qmult_div_r; lra).
            assert (Hx0 : (x <= 0)%Q). { destruct (Qlt_le_dec 0 x) as [P|P]; [|exact P]. exfalso. pose proof (Qabs_nonneg (sg * e)). assert (0 < - (sg * q) * x)%Q by (apply Qmult_lt_0_compat; assumption). lra. }
            specialize (HE x I Hx0). apply sg_iff in HE. pose proof (Qle_Qabs (sg * e)). assert (sg * (q * x) == Qabs (sg * e) + 1)%Q by (setoid_replace (sg * (q * x))%Q with (- (- (sg * q) * x))%Q by ring; rewrite Hxx; ring). lra. }
          pose proof (gain_nonneg rows t) as G1. unfold gain in *. cbv zeta in *. destruct (Qltb 0 (sg * fst (price_bars i solver duals rows t))) eqn:El; [|reflexivity]. apply Qltb_lt in El. lra. }
      pose proof (Z0 true). pose proof (Z0 false). lra. }
  rewrite V, Ed. lra.
Qed.
End Dual.
