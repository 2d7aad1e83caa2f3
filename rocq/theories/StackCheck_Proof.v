(** * Proofs about boxstacks solutions: undefined builds, waste, violations, stacks *)

From Coq Require Import List ZArith QArith Qminmax Bool Lia Arith Lqa.
From Verif Require Import Util Common_Model Common_Proof OneDim_Model OneDim_Proof Geom Rect_Model RectSol_Spec RectSol_Proof RectAxle_Proof.
From Verif Require Import Box_Model Stack_Model Stack_Spec Stack_Proof.
Import ListNotations.
Open Scope Z_scope.

(** ** [build] reads the weights of bins that are not computed yet *)

Definition kfresh (b : KSBin) : Prop := kn_weight b = [] /\ kn_moment b = [].

Lemma kb_run_fresh : forall i calls bins bins', kb_run i bins calls = Some bins' -> (forall b, In b bins -> kfresh b) ->
  forall b, In b bins' -> kfresh b.
Proof.
  intros i. induction calls as [|c calls IH]; intros bins bins' H F; cbn [kb_run] in H.
  - injection H as <-. exact F.
  - destruct (kb_call i bins c) as [bins1|] eqn:E; [|discriminate]. apply (IH bins1 bins' H). clear H IH.
    destruct c as [t copies|pos x xe y ye|pos stack p]; cbn [kb_call] in E.
    + unfold kb_add_bin in E. destruct (kin_range i t []); [|discriminate]. injection E as <-. intros b Hb. apply in_snoc in Hb.
      destruct Hb as [Hb| ->]; [apply F, Hb|split; reflexivity].
    + unfold kb_add_stack in E. destruct (Nat.ltb pos (length bins)); [|discriminate]. injection E as <-. intros b Hb. apply in_upd in Hb.
      destruct Hb as [Hb|(b0 & Hb & ->)]; [apply F, Hb|split; reflexivity].
    + unfold kb_add_item in E. destruct (nth_error bins pos) as [b|]; [|discriminate]. destruct (nth_error (kn_stacks b) stack) as [s|]; [|discriminate].
      destruct (Nat.ltb _ _ && _ && _ && _); [|discriminate]. injection E as <-. intros a Ha. apply in_upd in Ha.
      destruct Ha as [Ha|(b0 & Ha & ->)]; [apply F, Ha|split; reflexivity].
Qed.

Lemma kaxle_groups_empty : forall i truck gs g, In g gs -> kcheck_weight i g = true -> kaxle_groups i truck [] [] gs = None.
Proof.
  intros i truck gs g. induction gs as [|h gs IH]; intros Hg Hc; [destruct Hg|]. cbn [kaxle_groups].
  destruct (kcheck_weight i h) eqn:E; cbn [negb].
  - destruct h; reflexivity.
  - destruct Hg as [<-|Hg]; [congruence|apply IH; assumption].
Qed.

Lemma kbuild_undefined : forall i cb b1 b2 bins g, trucks_ok i -> maxima_ok i ->
  (forall bt m, In bt (kx_bins i) -> kb_max_weight bt = Some m -> (0 <= m)%Q) ->
  (forall b, In b (b1 :: b2 :: bins) -> kdesc_ok i (kview_bin b)) -> (forall b, In b (b1 :: b2 :: bins) -> kfresh b) ->
  total_ok i (kview_bin b1) -> axles_ok i (kview_bin b1) ->
  (g < kgroups i)%nat -> kcheck_weight i g = true ->
  kb_build i cb (b1 :: b2 :: bins) = None.
Proof.
  intros i cb b1 b2 bins g Ht Hm Hw Hd Hf Htot Hax Hg Hc. unfold kb_build. cbv zeta.
  change (seq 0 (length (b1 :: b2 :: bins))) with (0%nat :: seq 1 (length (b2 :: bins))). cbn [kbuild_from].
  set (s0 := mkKSol _ _ _).
  destruct (kupdate_core i cb [] s0 0 b1) as (c' & U & _ & _ & (b' & Eb & Ok & V) & _).
  - apply kinv_rebins. apply kinv_new.
  - reflexivity.
  - apply Hd. left. reflexivity.
  - rewrite U. cbn [ksol_core s0 kwith_bins kc_bins upd] in Eb.
    assert (G : kgood i b') by (split; [exact Ok|rewrite V; apply Hd; left; reflexivity]).
    assert (N : kfeasible i c' (cb c') = None); [|rewrite N; reflexivity].
    unfold kfeasible. rewrite Eb.
    assert (W : kfeasible_weight i (b' :: b2 :: bins) = true).
    { apply forallb_forall. intros b [<-|Hb]; apply negb_true_iff.
      - apply (ktotal_bin i b' G). rewrite V. exact Htot.
      - destruct (Hf b (or_intror Hb)) as [F1 _]. rewrite F1. apply kexceeds_false.
        destruct (kb_max_weight (kbin i (kn_type b))) as [m|] eqn:Em; [|exact Logic.I]. cbn [most].
        apply Qmult_le_0_compat; [|unfold PSTOL; vm_compute; discriminate]. apply (Hw (kbin i (kn_type b)) m); [|exact Em].
        apply nth_In. apply (Hd b (or_intror Hb)). }
    rewrite W. cbn [negb kfeasible_axles]. destruct (kaxle_bin_groups i b' Ok) as (a & Ea & A). rewrite Ea.
    assert (a = true) by (apply A; apply (kaxles_bin i b' G Ht Hm); rewrite V; exact Hax). subst a.
    destruct (Hf b2 (or_intror (or_introl eq_refl))) as [F1 F2]. rewrite F1, F2.
    rewrite (kaxle_groups_empty i _ _ g); [reflexivity|apply in_seq; lia|exact Hc].
Qed.

(** ** Waste *)

Lemma base_bound : forall ss X Y, 0 <= X -> 0 <= Y ->
  (forall s, In s ss -> 0 <= sd_x s < sd_xe s /\ sd_xe s <= X /\ 0 <= sd_y s < sd_ye s /\ sd_ye s <= Y) ->
  ForallOrdPairs sapart ss -> zsum base ss <= X * Y.
Proof.
  intros ss X Y HX HY Hin Hd.
  set (ax := mkAxis KSDesc sd_x (fun s => sd_xe s - sd_x s) X). set (ay := mkAxis KSDesc sd_y (fun s => sd_ye s - sd_y s) Y).
  pose proof (volume_bound KSDesc [ax; ay] ss) as HV.
  cbn [map prod fold_right ax ay ax_len ax_cap] in HV.
  rewrite (zsum_ext _ base (fun s => (sd_xe s - sd_x s) * ((sd_ye s - sd_y s) * 1))) by (intros s _; unfold base; lia).
  replace (X * Y) with (X * (Y * 1)) by lia. apply HV.
  - intros a s Ha Hs. destruct (Hin s Hs) as (A1 & A2 & A3 & A4). unfold inside. destruct Ha as [<-|[<-|[]]]; cbn; lia.
  - intros a Ha. destruct Ha as [<-|[<-|[]]]; cbn; lia.
  - apply (ord_pairs_impl _ sapart); [|exact Hd]. intros s1 s2 H. unfold separated, apart.
    destruct H as [H|[H|[H|H]]]; [exists ax|exists ax|exists ay|exists ay]; (split; [cbn; tauto|]); cbn; lia.
Qed.

Lemma far_nonneg : forall f d, 0 <= far f d.
Proof. intros f d. unfold far. induction (map f (kd_stacks d)); cbn [fold_right]; lia. Qed.
Lemma far_ge : forall f d s, In s (kd_stacks d) -> f s <= far f d.
Proof.
  intros f d s H. unfold far. induction (kd_stacks d) as [|a l IH]; [destruct H|]. cbn [map fold_right].
  destruct H as [<-|H]; [lia|]. specialize (IH H). lia.
Qed.
Lemma far_le : forall f d m, 0 <= m -> (forall s, In s (kd_stacks d) -> f s <= m) -> far f d <= m.
Proof.
  intros f d m Hm H. unfold far. induction (kd_stacks d) as [|a l IH]; cbn [map fold_right]; [exact Hm|].
  pose proof (H a (or_introl eq_refl)). specialize (IH (fun s Hs => H s (or_intror Hs))). lia.
Qed.

Lemma flat_height : forall i ps, flat_items i -> (forall p, In p ps -> (fst p < length (kx_items i))%nat) ->
  stack_height i ps = zsum (kheight i) ps.
Proof.
  intros i ps Hf Hp. unfold stack_height.
  rewrite (zsum_ext _ (fun p => ki_nesting (kitem i (fst p))) (fun _ => 0)).
  - rewrite zsum_const. lia.
  - intros p H. apply Hf, nth_In, Hp. destruct ps; [destruct H|right; exact H].
Qed.

Lemma bin_volume_bound : forall i d A, flat_items i -> kdesc_ok i d -> kgeom i d -> 0 <= v_z (kb_box (kbin i (kd_type d))) ->
  zsum base (kd_stacks d) <= A ->
  zsum (fun s => base s * zsum (kheight i) (sd_items s)) (kd_stacks d) <= A * v_z (kb_box (kbin i (kd_type d))).
Proof.
  intros i d A Hf Hd [G1 G2 _] Hz HA. apply (Z.le_trans _ (zsum (fun s => v_z (kb_box (kbin i (kd_type d))) * base s) (kd_stacks d))).
  - apply zsum_le. intros s Hs. destruct (G1 s Hs) as (B1 & B2 & B3 & B4). specialize (G2 s Hs).
    rewrite (flat_height i (sd_items s) Hf) in G2; [|intros p Hp; apply Hd; apply in_flat_map; exists s; split; assumption].
    assert (0 <= base s) by (unfold base; apply Z.mul_nonneg_nonneg; lia). rewrite (Z.mul_comm (base s)). apply Z.mul_le_mono_nonneg_r; assumption.
  - rewrite zsum_mult. rewrite (Z.mul_comm A). apply Z.mul_le_mono_nonneg_l; assumption.
Qed.

(** ** Violations *)

Lemma kviolation_spec : forall i axle maximum b, (forall m, maximum (kb_truck (kbin i (kn_type b))) = Some m -> (0 <= m)%Q) ->
  (0 <= kviolation i axle maximum b)%Q /\
  ((kviolation i axle maximum b == 0)%Q <-> forall g, In g (seq 0 (kgroups i)) -> kcheck_weight i g = true ->
     kexceeds (option_map axle (compute_axle_weights (kb_truck (kbin i (kn_type b))) (nth g (kn_moment b) 0%Q) (nth g (kn_weight b) 0%Q)))
       (maximum (kb_truck (kbin i (kn_type b)))) = false).
Proof.
  intros i axle maximum b Hm. unfold kviolation. cbv zeta. set (truck := kb_truck (kbin i (kn_type b))) in *.
  set (step := fun v g => _). 
  assert (G : forall gs v, (0 <= v)%Q -> (v <= fold_left step gs v)%Q /\
    ((fold_left step gs v == 0)%Q <-> (v == 0)%Q /\ forall g, In g gs -> kcheck_weight i g = true ->
     kexceeds (option_map axle (compute_axle_weights truck (nth g (kn_moment b) 0%Q) (nth g (kn_weight b) 0%Q))) (maximum truck) = false)).
  { induction gs as [|g gs IH]; intros v Hv; cbn [fold_left].
    - split; [apply Qle_refl|]. split; [intro E; split; [exact E|intros g []]|intros [E _]; exact E].
    - assert (S : (step v g == v)%Q /\ (kcheck_weight i g = true ->
          kexceeds (option_map axle (compute_axle_weights truck (nth g (kn_moment b) 0%Q) (nth g (kn_weight b) 0%Q))) (maximum truck) = false)
        \/ (v < step v g)%Q /\ kcheck_weight i g = true /\
          kexceeds (option_map axle (compute_axle_weights truck (nth g (kn_moment b) 0%Q) (nth g (kn_weight b) 0%Q))) (maximum truck) = true).
      { unfold step. destruct (kcheck_weight i g) eqn:Eg; cbn [negb]; [|left; split; [reflexivity|discriminate]].
        destruct (option_map axle _) as [a|] eqn:Ea; [|left; split; [reflexivity|reflexivity]].
        destruct (maximum truck) as [m|] eqn:Em; [|left; split; [reflexivity|reflexivity]]. cbn [kexceeds].
        destruct (Qltb (m * PSTOL) a) eqn:El; [|left; split; [reflexivity|reflexivity]]. right. split; [|split; reflexivity].
        apply Qltb_lt in El. specialize (Hm m eq_refl).
        assert (Hpos : (0 < inject_Z (Z.of_nat g + 1))%Q) by (unfold Qlt; cbn; lia).
        assert (Hd : (0 < a - m)%Q) by (unfold PSTOL in El; lra).
        pose proof (Qmult_lt_0_compat _ _ Hpos Hd). lra. }
      destruct S as [[S1 S2]|(S1 & S2 & S3)].
      + destruct (IH (step v g)) as [I1 I2]; [rewrite S1; exact Hv|]. split; [rewrite <- S1 at 1; exact I1|]. rewrite I2, S1. split.
        * intros [E K]. split; [exact E|]. intros h [<-|Hh]; [exact S2|apply K, Hh].
        * intros [E K]. split; [exact E|]. intros h Hh. apply K. right. exact Hh.
      + destruct (IH (step v g)) as [I1 I2]; [lra|]. split; [lra|]. split.
        * intro E. exfalso. lra.
        * intros [_ K]. rewrite (K g (or_introl eq_refl) S2) in S3. discriminate. }
  destruct (G (seq 0 (kgroups i)) 0%Q (Qle_refl 0)) as [G1 G2]. split; [exact G1|]. rewrite G2. split; [intros [_ K]; exact K|intro K; split; [reflexivity|exact K]].
Qed.

Lemma violation_sum : forall i bins v, (0 <= v)%Q ->
  (forall b, In b bins -> (0 <= kviolation i fst tr_middle_maximum b)%Q /\ (0 <= kviolation i snd tr_rear_maximum b)%Q) ->
  (0 <= fold_left (fun v b => v + kviolation i fst tr_middle_maximum b + kviolation i snd tr_rear_maximum b)%Q bins v)%Q /\
  ((fold_left (fun v b => v + kviolation i fst tr_middle_maximum b + kviolation i snd tr_rear_maximum b)%Q bins v == 0)%Q <->
   (v == 0)%Q /\ forall b, In b bins -> (kviolation i fst tr_middle_maximum b == 0)%Q /\ (kviolation i snd tr_rear_maximum b == 0)%Q).
Proof.
  intros i bins. induction bins as [|b bins IH]; intros v Hv H; cbn [fold_left].
  - split; [exact Hv|]. split; [intro E; split; [exact E|intros b []]|intros [E _]; exact E].
  - destruct (H b (or_introl eq_refl)) as [H1 H2]. destruct (IH (v + kviolation i fst tr_middle_maximum b + kviolation i snd tr_rear_maximum b)%Q) as [I1 I2].
    + lra.
    + intros c Hc. apply H. right. exact Hc.
    + split; [exact I1|]. rewrite I2. split.
      * intros [E K]. split; [lra|]. intros c [<-|Hc]; [split; lra|apply K, Hc].
      * intros [E K]. destruct (K b (or_introl eq_refl)) as [K1 K2]. split; [lra|]. intros c Hc. apply K. right. exact Hc.
Qed.

(** ** check_stack *)

Lemma sg_false : forall a b, strictly_greater a b = false <-> (a <= b + tol)%Q.
Proof.
  intros a b. unfold strictly_greater. split; intro H.
  - apply Qltb_ge in H. lra.
  - destruct (Qltb tol (a - b)) eqn:E; [|reflexivity]. apply Qltb_lt in E. lra.
Qed.

(** What the loop has checked; [z0], [w0]: height and weight below. *)
Lemma kcheck_loop_sound : forall i bt count items first z0 w0 r, kcheck_loop i bt count first z0 w0 r items = true ->
  (forall k, (0 < k <= length items)%nat -> z0 + zsum (kheight i) (firstn k items)
     + zsum (fun p => ki_nesting (kitem i (fst p))) (if first then tl (firstn k items) else firstn k items) <= v_z (kb_box bt)) /\
  (forall below p above d, items = below ++ p :: above -> kb_max_density bt = Some d ->
     ((w0 + qsum (kweight i) (below ++ [p])) / inject_Z (v_x (ksize i p)) / inject_Z (v_y (ksize i p)) <= d + tol)%Q) /\
  (forall p, In p items -> count <= ki_max_stackability (kitem i (fst p))) /\
  (forall below p above q, r = Some q -> items = below ++ p :: above -> (qsum (kweight i) (below ++ [p]) <= q + tol)%Q) /\
  (forall below p m a above w, items = below ++ p :: (m ++ a :: above) -> ki_max_above (kitem i (fst p)) = Some w ->
     (qsum (kweight i) (m ++ [a]) <= w + tol)%Q).
Proof.
  intros i bt count items. induction items as [|p items IH]; intros first z0 w0 r H; cbn [kcheck_loop] in H.
  - split; [intros k Hk; cbn in Hk; lia|]. split; [intros [|] ? ? ? E; discriminate|]. split; [intros p []|].
    split; [intros [|] ? ? ? ? E; discriminate|intros [|] ? ? ? ? ? E; discriminate].
  - destruct (Z.ltb_spec (v_z (kb_box bt)) (z0 + (v_z (ksize i p) + (if first then 0 else ki_nesting (kitem i (fst p)))))) as [L|L]; [discriminate|].
    destruct (match kb_max_density bt with Some d => _ | None => false end) eqn:Ed; [discriminate|].
    destruct (Z.ltb_spec (ki_max_stackability (kitem i (fst p))) count) as [M|M]; [discriminate|].
    destruct (match r with Some r => _ | None => false end) eqn:Er; [discriminate|].
    apply IH in H. destruct H as (H1 & H2 & H3 & H4 & H5). split; [|split; [|split; [|split]]].
    + intros k Hk. destruct k as [|k]; [lia|]. cbn [firstn]. rewrite zsum_cons. change (v_z (ksize i p)) with (kheight i p) in *.
      destruct k as [|k].
      * cbn [firstn]. rewrite zsum_nil. destruct first; cbn [tl]; rewrite ?zsum_cons, ?zsum_nil; lia.
      * assert (Hk' : (0 < S k <= length items)%nat) by (cbn [length] in Hk; lia). specialize (H1 (S k) Hk'). cbv iota in H1.
        destruct first; cbn [tl]; rewrite ?zsum_cons; lia.
    + intros below q above d E Hd. destruct below as [|b below]; cbn [app] in E.
      * injection E as <- <-. rewrite Hd in Ed. apply sg_false in Ed. cbn [app]. rewrite qsum_cons. change (qsum (kweight i) []) with 0%Q.
        unfold kweight at 1. setoid_replace (ki_weight (kitem i (fst p)) + 0)%Q with (ki_weight (kitem i (fst p))) by ring. exact Ed.
      * injection E as <- E. specialize (H2 below q above d E Hd). cbn [app]. rewrite qsum_cons. unfold kweight at 1.
        setoid_replace (w0 + (ki_weight (kitem i (fst p)) + qsum (kweight i) (below ++ [q])))%Q
          with (w0 + ki_weight (kitem i (fst p)) + qsum (kweight i) (below ++ [q]))%Q by ring. exact H2.
    + intros q [<-|Hq]; [exact M|apply H3, Hq].
    + intros below q above qr -> E. apply sg_false in Er. destruct below as [|b below]; cbn [app] in E.
      * injection E as <- <-. cbn [app]. rewrite qsum_cons. change (qsum (kweight i) []) with 0%Q. unfold kweight. lra.
      * injection E as <- E. cbn [app]. rewrite qsum_cons. unfold kweight at 1. cbn [option_map qmin_opt] in H4.
        destruct (ki_max_above (kitem i (fst p))) as [w|].
        -- specialize (H4 below q above _ eq_refl E). pose proof (Q.le_min_l (qr - ki_weight (kitem i (fst p))) w). lra.
        -- specialize (H4 below q above _ eq_refl E). lra.
    + intros below q m a above w E Ew. destruct below as [|b below]; cbn [app] in E.
      * injection E as -> ->. rewrite Ew in H4. destruct r as [qr|]; cbn [option_map qmin_opt] in H4.
        -- specialize (H4 m a above _ eq_refl eq_refl). pose proof (Q.le_min_r (qr - ki_weight (kitem i (fst q))) w). lra.
        -- specialize (H4 m a above _ eq_refl eq_refl). exact H4.
      * injection E as <- E. apply (H5 below q m a above w E Ew).
Qed.

(** Stacks without nesting that satisfy the parameters are accepted. *)
Lemma kcheck_loop_complete : forall i bt count items first z0 w0 r,
  (forall p, In p items -> ki_nesting (kitem i (fst p)) = 0 /\ (0 <= kweight i p)%Q) ->
  (forall k, (0 < k <= length items)%nat -> z0 + zsum (kheight i) (firstn k items) <= v_z (kb_box bt)) ->
  (forall below p above d, items = below ++ p :: above -> kb_max_density bt = Some d ->
     ((w0 + qsum (kweight i) (below ++ [p])) / inject_Z (v_x (ksize i p)) / inject_Z (v_y (ksize i p)) <= d + tol)%Q) ->
  (forall p, In p items -> count <= ki_max_stackability (kitem i (fst p))) ->
  (forall q, r = Some q -> (qsum (kweight i) items <= q)%Q) ->
  (forall below p above w, items = below ++ p :: above -> ki_max_above (kitem i (fst p)) = Some w -> (qsum (kweight i) above <= w)%Q) ->
  kcheck_loop i bt count first z0 w0 r items = true.
Proof.
  intros i bt count items. induction items as [|p items IH]; intros first z0 w0 r Hn H1 H2 H3 H4 H5; cbn [kcheck_loop]; [reflexivity|].
  destruct (Hn p (or_introl eq_refl)) as [N Hw0]. rewrite N.
  replace (if first then 0 else 0) with 0 by (destruct first; reflexivity). rewrite Z.add_0_r.
  change (v_z (ksize i p)) with (kheight i p).
  assert (Hrest : (0 <= qsum (kweight i) items)%Q) by (apply qsum_nonneg; intros q Hq; apply (Hn q (or_intror Hq))).
  assert (L : z0 + kheight i p <= v_z (kb_box bt)).
  { specialize (H1 1%nat ltac:(cbn [length]; lia)). cbn [firstn] in H1. rewrite zsum_cons, zsum_nil in H1. lia. }
  destruct (Z.ltb_spec (v_z (kb_box bt)) (z0 + kheight i p)); [lia|].
  assert (D : match kb_max_density bt with
              | Some d => strictly_greater ((w0 + ki_weight (kitem i (fst p))) / inject_Z (v_x (ksize i p)) / inject_Z (v_y (ksize i p))) d
              | None => false end = false).
  { destruct (kb_max_density bt) as [d|]; [|reflexivity]. apply sg_false. specialize (H2 [] p items d eq_refl eq_refl). cbn [app] in H2.
    rewrite qsum_cons in H2. change (qsum (kweight i) []) with 0%Q in H2. unfold kweight in H2.
    setoid_replace (ki_weight (kitem i (fst p)) + 0)%Q with (ki_weight (kitem i (fst p))) in H2 by ring. exact H2. }
  rewrite D. destruct (Z.ltb_spec (ki_max_stackability (kitem i (fst p))) count) as [M|M]; [specialize (H3 p (or_introl eq_refl)); lia|].
  assert (R : match r with Some q => strictly_greater (ki_weight (kitem i (fst p))) q | None => false end = false).
  { destruct r as [q|]; [|reflexivity]. apply sg_false. specialize (H4 q eq_refl). rewrite qsum_cons in H4. unfold kweight at 1 in H4. unfold tol. lra. }
  rewrite R. apply IH.
  - intros q Hq. apply Hn. right. exact Hq.
  - intros k Hk. specialize (H1 (S k) ltac:(cbn [length]; lia)). cbn [firstn] in H1. rewrite zsum_cons in H1. lia.
  - intros below q above d E Hd. specialize (H2 (p :: below) q above d ltac:(rewrite E; reflexivity) Hd). cbn [app] in H2. rewrite qsum_cons in H2.
    unfold kweight at 1 in H2.
    setoid_replace (w0 + (ki_weight (kitem i (fst p)) + qsum (kweight i) (below ++ [q])))%Q
      with (w0 + ki_weight (kitem i (fst p)) + qsum (kweight i) (below ++ [q]))%Q in H2 by ring. exact H2.
  - intros q Hq. apply H3. right. exact Hq.
  - specialize (H5 [] p items). intros q Hq. destruct r as [qr|]; cbn [option_map qmin_opt] in Hq.
    + specialize (H4 qr eq_refl). rewrite qsum_cons in H4. unfold kweight at 1 in H4.
      destruct (ki_max_above (kitem i (fst p))) as [w|]; injection Hq as <-.
      * apply Q.min_glb; [lra|apply H5; reflexivity].
      * lra.
    + apply H5; [reflexivity|exact Hq].
  - intros below q above w E. apply (H5 (p :: below) q above w). rewrite E. reflexivity.
Qed.
