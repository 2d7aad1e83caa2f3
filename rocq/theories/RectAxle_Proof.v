(** * Axle weights and overweights; resources of whole bins *)

From Coq Require Import List ZArith QArith Bool Lia Arith Lqa.
From Verif Require Import Util Common_Model Common_Spec Common_Proof OneDim_Model OneDim_Spec OneDim_Proof OneDim_Order.
From Verif Require Import Rect_Model Rect_Spec RectSol_Model RectSol_Spec RectSol_Proof.
Import ListNotations.
Open Scope Z_scope.

(** ** Equilibrium *)

Lemma qdiv_some : forall a b q, qdiv_opt a b = Some q -> ~ (b == 0)%Q /\ (q * b == a)%Q.
Proof.
  intros a b q H. unfold qdiv_opt in H. destruct (Qeq_bool b 0) eqn:E; [discriminate|].
  apply Qeq_bool_neq in E. injection H as <-. split; [assumption|]. field. assumption.
Qed.

Lemma axle_balanced : forall t m w a b, tr_is t = true -> compute_axle_weights t m w = Some (a, b) -> balanced t m w a b.
Proof.
  intros t m w a b Ht H. unfold compute_axle_weights in H. rewrite Ht in H. cbn [negb] in H.
  destruct (qdiv_opt m w) as [eje|] eqn:E1; [|discriminate]. apply qdiv_some in E1. destruct E1 as [N1 E1].
  destruct (qdiv_opt _ (inject_Z (tr_harness_rear t))) as [emh|] eqn:E2; [|discriminate]. apply qdiv_some in E2. destruct E2 as [N2 E2].
  destruct (qdiv_opt _ (inject_Z (tr_front_middle t))) as [emm|] eqn:E3; [|discriminate]. apply qdiv_some in E3. destruct E3 as [N3 E3].
  injection H as <- <-. unfold balanced. exists emh. split; [ring|]. split; [|exact E3].
  rewrite <- E1.
  setoid_replace (emh * inject_Z (tr_trailer_start_harness t)
    + (w + tr_empty_trailer_weight t - emh) * (inject_Z (tr_trailer_start_harness t) + inject_Z (tr_harness_rear t)))%Q
    with ((w + tr_empty_trailer_weight t) * (inject_Z (tr_trailer_start_harness t) + inject_Z (tr_harness_rear t))
      - emh * inject_Z (tr_harness_rear t))%Q by ring.
  rewrite E2. ring.
Qed.

Lemma axle_defined : forall t m w, tr_is t = true -> ~ (w == 0)%Q -> tr_harness_rear t <> 0 -> tr_front_middle t <> 0 ->
  exists a b, compute_axle_weights t m w = Some (a, b).
Proof.
  intros t m w Ht Hw Hr Hm. unfold compute_axle_weights, qdiv_opt. rewrite Ht. cbn [negb].
  destruct (Qeq_bool w 0) eqn:E; [apply Qeq_bool_eq in E; contradiction|].
  assert (N : forall z, z <> 0 -> Qeq_bool (inject_Z z) 0 = false).
  { intros z Hz. destruct (Qeq_bool (inject_Z z) 0) eqn:E'; [|reflexivity]. apply Qeq_bool_eq in E'. unfold Qeq in E'. simpl in E'. lia. }
  rewrite !N by assumption. eauto.
Qed.

Lemma balanced_unique : forall t m w a b a' b', tr_harness_rear t <> 0 -> tr_front_middle t <> 0 ->
  balanced t m w a b -> balanced t m w a' b' -> (a == a' /\ b == b')%Q.
Proof.
  intros t m w a b a' b' Hr Hm (h & A1 & A2 & A3) (h' & B1 & B2 & B3).
  assert (N : forall z, z <> 0 -> ~ (inject_Z z == 0)%Q) by (intros z Hz E; unfold Qeq in E; simpl in E; lia).
  pose proof (N _ Hr) as Nr. pose proof (N _ Hm) as Nm.
  set (X := inject_Z (tr_trailer_start_harness t)) in *. set (R := inject_Z (tr_harness_rear t)) in *.
  set (M := inject_Z (tr_front_middle t)) in *.
  assert (Eb : (b == b')%Q).
  { assert (E : (b * R == b' * R)%Q).
    { setoid_replace (b * R)%Q with (h * X + b * (X + R) - (h + b) * X)%Q by ring.
      setoid_replace (b' * R)%Q with (h' * X + b' * (X + R) - (h' + b') * X)%Q by ring.
      rewrite A1, A2, B1, B2. reflexivity. }
    apply (Qmult_inj_r b b' R Nr). exact E. }
  assert (Eh : (h == h')%Q).
  { setoid_replace h with ((h + b) - b)%Q by ring. rewrite A1, Eb. setoid_replace h' with ((h' + b') - b')%Q by ring. rewrite B1. reflexivity. }
  split; [|exact Eb]. apply (Qmult_inj_r a a' M Nm). rewrite A3, B3, Eh. reflexivity.
Qed.

Lemma balanced_compat : forall t m w a b m' w', (m == m')%Q -> (w == w')%Q -> balanced t m w a b -> balanced t m' w' a b.
Proof.
  intros t m w a b m' w' Em Ew (h & A1 & A2 & A3). exists h. rewrite <- Em, <- Ew. auto.
Qed.

(** ** The loop on the groups *)

Lemma add_overweight_some : forall a mx o r, add_overweight (Some a) mx (Some o) = Some r -> (r == o + excess a mx)%Q.
Proof.
  intros a mx o r H. unfold add_overweight in H. unfold excess. destruct mx as [m|]; [|injection H as <-; ring].
  unfold pstol in H. destruct (Qltb _ _); injection H as <-; ring.
Qed.

Lemma group_fold : forall truck weight mid n ws ms middle rear ws' ms' middle' rear',
  fold_left (group_step truck weight mid) (seq 0 n) (ws, ms, middle, rear) = (ws', ms', middle', rear') ->
  (n <= length ws)%nat -> length ms = length ws ->
  length ws' = length ws /\ length ms' = length ms /\
  (forall g, nth g ws' 0%Q = if (g <? n)%nat then (nth g ws 0 + weight)%Q else nth g ws 0%Q) /\
  (forall g, nth g ms' 0%Q = if (g <? n)%nat then (nth g ms 0 + mid * weight)%Q else nth g ms 0%Q) /\
  (forall o1 o2 M R, middle = Some o1 -> rear = Some o2 -> middle' = Some M -> rear' = Some R ->
     exists f : nat -> Q * Q,
       (forall g, (g < n)%nat -> compute_axle_weights truck (nth g ms' 0%Q) (nth g ws' 0%Q) = Some (f g)) /\
       (M == o1 + qsum (fun g => excess (fst (f g)) (tr_middle_maximum truck)) (seq 0 n))%Q /\
       (R == o2 + qsum (fun g => excess (snd (f g)) (tr_rear_maximum truck)) (seq 0 n))%Q) /\
  (middle <> None -> rear <> None ->
   (forall g, (g < n)%nat -> compute_axle_weights truck (nth g ms' 0%Q) (nth g ws' 0%Q) <> None) ->
   middle' <> None /\ rear' <> None).
Proof.
  intros truck weight mid n. induction n as [|n IH]; intros ws ms middle rear ws' ms' middle' rear' H Hn Hl.
  - cbn [seq fold_left] in H. injection H as <- <- <- <-. repeat (split; [reflexivity|]). split; [|auto].
    intros o1 o2 M R -> -> E1 E2. injection E1 as <-. injection E2 as <-. exists (fun _ => (0%Q, 0%Q)).
    split; [intros g Hg; lia|]. split; unfold qsum; simpl; ring.
  - rewrite seq_S, fold_left_app in H. cbn [fold_left Nat.add] in H.
    destruct (fold_left (group_step truck weight mid) (seq 0 n) (ws, ms, middle, rear)) as [[[ws1 ms1] mi1] re1] eqn:E.
    destruct (IH _ _ _ _ _ _ _ _ E ltac:(lia) Hl) as (L1 & L2 & W & M & F & D). clear IH E.
    unfold group_step in H. injection H as E1 E2 E3 E4.
    assert (Lw : (n < length ws1)%nat) by lia. assert (Lm : (n < length ms1)%nat) by lia.
    assert (NW : forall g, nth g ws' 0%Q = if (g <? S n)%nat then (nth g ws 0 + weight)%Q else nth g ws 0%Q).
    { intro g. rewrite <- E1, nth_upd by assumption. rewrite W. destruct (Nat.eqb_spec n g) as [<-|Hne].
      - rewrite Nat.ltb_irrefl. destruct (Nat.ltb_spec n (S n)); [reflexivity|lia].
      - destruct (Nat.ltb_spec g n), (Nat.ltb_spec g (S n)); try reflexivity; lia. }
    assert (NM : forall g, nth g ms' 0%Q = if (g <? S n)%nat then (nth g ms 0 + mid * weight)%Q else nth g ms 0%Q).
    { intro g. rewrite <- E2, nth_upd by assumption. rewrite M. destruct (Nat.eqb_spec n g) as [<-|Hne].
      - rewrite Nat.ltb_irrefl. destruct (Nat.ltb_spec n (S n)); [reflexivity|lia].
      - destruct (Nat.ltb_spec g n), (Nat.ltb_spec g (S n)); try reflexivity; lia. }
    assert (Same : forall g, (g < n)%nat -> nth g ws' 0%Q = nth g ws1 0%Q /\ nth g ms' 0%Q = nth g ms1 0%Q).
    { intros g Hg. rewrite <- E1, <- E2, !nth_upd_other by lia. auto. }
    split; [rewrite <- E1, upd_length; exact L1|]. split; [rewrite <- E2, upd_length; exact L2|].
    split; [exact NW|]. split; [exact NM|].
    rewrite E1, E2 in E3, E4. split.
    + intros o1 o2 Mi Re H1 H2 H3 H4. rewrite H3 in E3. rewrite H4 in E4.
      destruct (compute_axle_weights truck (nth n ms' 0%Q) (nth n ws' 0%Q)) as [[a b]|] eqn:EA; cbn [option_map fst snd] in E3, E4; [|discriminate].
      destruct mi1 as [m1|]; [|discriminate]. destruct re1 as [r1|]; [|discriminate].
      destruct (F o1 o2 m1 r1 H1 H2 eq_refl eq_refl) as (f & F1 & F2 & F3).
      exists (fun g => if (g =? n)%nat then (a, b) else f g). split; [|split].
      * intros g Hg. destruct (Nat.eqb_spec g n) as [->|Hne]; [exact EA|]. destruct (Same g ltac:(lia)) as [S1 S2]. rewrite S1, S2. apply F1. lia.
      * apply add_overweight_some in E3. rewrite E3, F2, seq_S, qsum_snoc. cbn [Nat.add]. rewrite Nat.eqb_refl. cbn [fst].
        rewrite (qsum_ext _ (fun g => excess (fst (if (g =? n)%nat then (a, b) else f g)) _) (fun g => excess (fst (f g)) (tr_middle_maximum truck))).
        -- ring.
        -- intros g Hg. apply in_seq in Hg. destruct (Nat.eqb_spec g n); [lia|reflexivity].
      * apply add_overweight_some in E4. rewrite E4, F3, seq_S, qsum_snoc. cbn [Nat.add]. rewrite Nat.eqb_refl. cbn [snd].
        rewrite (qsum_ext _ (fun g => excess (snd (if (g =? n)%nat then (a, b) else f g)) _) (fun g => excess (snd (f g)) (tr_rear_maximum truck))).
        -- ring.
        -- intros g Hg. apply in_seq in Hg. destruct (Nat.eqb_spec g n); [lia|reflexivity].
    + intros H1 H2 H3. destruct (D H1 H2) as [D1 D2].
      { intros g Hg. destruct (Same g Hg) as [S1 S2]. rewrite <- S1, <- S2. apply H3. lia. }
      destruct (compute_axle_weights truck (nth n ms' 0%Q) (nth n ws' 0%Q)) as [[a b]|] eqn:EA; [|exfalso; apply (H3 n); [lia|exact EA]].
      rewrite <- E3, <- E4. cbn [option_map fst snd]. destruct mi1 as [m1|]; [|congruence]. destruct re1 as [r1|]; [|congruence].
      unfold add_overweight. destruct (tr_middle_maximum truck), (tr_rear_maximum truck);
        repeat match goal with |- context [if ?c then _ else _] => destruct c end; split; discriminate.
Qed.

(** ** The loop on the items *)

Definition center (i : RInstance) (p : Place) : Q := (inject_Z (pl_x p) + inject_Z (pl_w i p) / 2)%Q.

Record GroupInv (i : RInstance) (t : nat) (ps : list Place) (lo : RLoop) : Prop := {
  gi_lw : length (rl_weight lo) = rnumber_of_groups i;
  gi_lm : length (rl_moment lo) = rnumber_of_groups i;
  gi_w : forall g, (g < rnumber_of_groups i)%nat -> (nth g (rl_weight lo) 0%Q == group_weight i g ps)%Q;
  gi_m : forall g, (g < rnumber_of_groups i)%nat -> (nth g (rl_moment lo) 0%Q == group_moment i g ps)%Q
}.

(** Overweights written by the last item [p]. *)
Definition over_ok (i : RInstance) (t : nat) (ps : list Place) (g : nat) (M R : option Q) : Prop :=
  let truck := rb_truck (rbin i t) in
  (forall m r, M = Some m -> R = Some r -> exists f : nat -> Q * Q,
     (forall k, (k < S g)%nat ->
        if tr_is truck then balanced truck (group_moment i k ps) (group_weight i k ps) (fst (f k)) (snd (f k))
        else (f k = (0%Q, 0%Q))) /\
     (m == qsum (fun k => excess (fst (f k)) (tr_middle_maximum truck)) (seq 0 (S g)))%Q /\
     (r == qsum (fun k => excess (snd (f k)) (tr_rear_maximum truck)) (seq 0 (S g)))%Q) /\
  ((tr_is truck = true -> tr_harness_rear truck <> 0 /\ tr_front_middle truck <> 0 /\
      forall k, (k < S g)%nat -> ~ (group_weight i k ps == 0)%Q) -> M <> None /\ R <> None).

Lemma groups_bound : forall i x, (x < length (rin_items i))%nat -> (ri_group (ritem i x) < rnumber_of_groups i)%nat.
Proof.
  intros i x Hx. unfold rnumber_of_groups, ritem.
  assert (G : forall l n, (n <= fold_left (fun n it => Nat.max n (S (ri_group it))) l n)%nat /\
    forall it, In it l -> (ri_group it < fold_left (fun n it => Nat.max n (S (ri_group it))) l n)%nat).
  { induction l as [|a l IH]; intro n; cbn [fold_left]; [split; [lia|intros it []]|].
    destruct (IH (Nat.max n (S (ri_group a)))) as [I1 I2]. split; [lia|]. intros it [<-|Hin]; [lia|apply I2; exact Hin]. }
  apply (G (rin_items i) 0%nat). apply nth_In. exact Hx.
Qed.

Lemma group_snoc : forall i g ps p,
  (group_weight i g (ps ++ [p]) == group_weight i g ps + (if (g <=? ri_group (ritem i (pl_type p)))%nat then ri_weight (ritem i (pl_type p)) else 0))%Q /\
  (group_moment i g (ps ++ [p]) == group_moment i g ps + (if (g <=? ri_group (ritem i (pl_type p)))%nat then center i p * ri_weight (ritem i (pl_type p)) else 0))%Q.
Proof.
  intros i g ps p. unfold group_weight, group_moment. rewrite !filter_app. cbn [filter].
  destruct (g <=? ri_group (ritem i (pl_type p)))%nat; rewrite ?app_nil_r, ?qsum_snoc; unfold center; split; ring.
Qed.

Lemma group_loop : forall i t n last area ps lo0,
  length (rl_weight lo0) = rnumber_of_groups i -> length (rl_moment lo0) = rnumber_of_groups i ->
  (forall g, nth g (rl_weight lo0) 0%Q == 0)%Q -> (forall g, nth g (rl_moment lo0) 0%Q == 0)%Q ->
  (forall p, In p ps -> (pl_type p < length (rin_items i))%nat) ->
  let lo := fold_left (ritem_step i t n last area) ps lo0 in
  GroupInv i t ps lo /\
  match rev ps with
  | [] => rl_middle lo = rl_middle lo0 /\ rl_rear lo = rl_rear lo0
  | p :: _ => over_ok i t ps (ri_group (ritem i (pl_type p))) (rl_middle lo) (rl_rear lo)
  end.
Proof.
  intros i t n last area ps lo0 H1 H2 H3 H4 Hps. cbv zeta.
  induction ps as [|p ps IH] using rev_ind.
  - cbn [fold_left rev]. split; [|auto]. constructor; try assumption; intros g _.
    + rewrite H3. unfold group_weight, qsum; simpl. reflexivity.
    + rewrite H4. unfold group_moment, qsum; simpl. reflexivity.
  - rewrite fold_left_app. cbn [fold_left]. rewrite rev_app_distr. cbn [rev app].
    destruct IH as [[G1 G2 G3 G4] _]; [intros q Hq; apply Hps, in_or_app; left; exact Hq|].
    set (lo := fold_left _ ps lo0) in *.
    assert (Hp : (pl_type p < length (rin_items i))%nat) by (apply Hps, in_or_app; right; left; reflexivity).
    pose proof (groups_bound i _ Hp) as Hg.
    unfold ritem_step.
    destruct (fold_left (rresource_step _ _ _) _ _) as [[u' p'] ok'].
    set (mid := (inject_Z (pl_x p) + inject_Z (pl_x p + ri_width (ritem i (pl_type p)) (pl_rot p) - pl_x p) / 2)%Q).
    assert (Emid : (mid == center i p)%Q).
    { unfold mid, center, pl_w, ri_width. replace (pl_x p + _ - pl_x p) with (if pl_rot p then ri_y (ritem i (pl_type p)) else ri_x (ritem i (pl_type p))) by lia. reflexivity. }
    destruct (fold_left (group_step _ _ mid) _ _) as [[[ws ms] middle] rear] eqn:E.
    destruct (group_fold _ _ _ _ _ _ _ _ _ _ _ _ E ltac:(lia) ltac:(lia)) as (L1 & L2 & W & M & F & D).
    cbn [rl_weight rl_moment rl_middle rl_rear].
    assert (NW : forall g, (g < rnumber_of_groups i)%nat -> (nth g ws 0%Q == group_weight i g (ps ++ [p]))%Q).
    { intros g Hgl. destruct (group_snoc i g ps p) as [Es _]. rewrite Es, W, <- (G3 g Hgl).
      destruct (Nat.ltb_spec g (S (ri_group (ritem i (pl_type p))))), (Nat.leb_spec g (ri_group (ritem i (pl_type p)))); try lia; try reflexivity; ring. }
    assert (NM : forall g, (g < rnumber_of_groups i)%nat -> (nth g ms 0%Q == group_moment i g (ps ++ [p]))%Q).
    { intros g Hgl. destruct (group_snoc i g ps p) as [_ Es]. rewrite Es, M, <- (G4 g Hgl).
      destruct (Nat.ltb_spec g (S (ri_group (ritem i (pl_type p))))), (Nat.leb_spec g (ri_group (ritem i (pl_type p)))); try lia; [rewrite Emid; reflexivity|ring]. }
    split; [constructor; cbn [rl_weight rl_moment]; [lia|lia|exact NW|exact NM]|].
    unfold over_ok. split.
    + intros m r -> ->. destruct (F 0%Q 0%Q m r eq_refl eq_refl eq_refl eq_refl) as (f & F1 & F2 & F3). exists f. split; [|split].
      * intros k Hk. specialize (F1 k Hk). destruct (tr_is (rb_truck (rbin i t))) eqn:Et.
        -- destruct (f k) as [a b]. apply (axle_balanced _ _ _ _ _ Et) in F1.
           apply (balanced_compat _ _ _ _ _ _ _ (NM k ltac:(lia)) (NW k ltac:(lia)) F1).
        -- unfold compute_axle_weights in F1. rewrite Et in F1. cbn [negb] in F1. injection F1. auto.
      * rewrite F2. ring.
      * rewrite F3. ring.
    + intro HT. apply D; try discriminate. intros k Hk. destruct (tr_is (rb_truck (rbin i t))) eqn:Et.
      * destruct (HT eq_refl) as (T1 & T2 & T3). destruct (axle_defined _ (nth k ms 0%Q) (nth k ws 0%Q) Et) as (a & b & Ea); try assumption.
        -- rewrite (NW k ltac:(lia)). apply T3. exact Hk.
        -- rewrite Ea. discriminate.
      * unfold compute_axle_weights. rewrite Et. discriminate.
Qed.

Definition OverInv (i : RInstance) (s : RSolution) (ds : list RDesc) : Prop :=
  exists ds1 ds2, ds = ds1 ++ ds2 /\ (forall d, In d ds2 -> rd_items d = []) /\
    match rev ds1 with
    | [] => rc_middle (rs_core s) = Some 0%Q /\ rc_rear (rs_core s) = Some 0%Q
    | d :: _ => exists l p, rd_items d = l ++ [p] /\
        over_ok i (rd_type d) (rd_items d) (ri_group (ritem i (pl_type p))) (rc_middle (rs_core s)) (rc_rear (rs_core s))
    end.

Lemma nth_repeat0 : forall n g, (nth g (repeat 0%Q n) 0%Q == 0)%Q.
Proof. intros n g. destruct (nth_in_or_default g (repeat 0%Q n) 0%Q) as [H|H]; [apply repeat_spec in H; rewrite H; reflexivity|rewrite H; reflexivity]. Qed.

Lemma rupdate_over : forall i cb ds s pos b, OverInv i s ds -> nth_error (rc_bins (rs_core s)) pos = Some b ->
  rdesc_ok i (rview_bin b) -> OverInv i (rupdate i cb pos s) (ds ++ [rview_bin b]).
Proof.
  intros i cb ds s pos b (ds1 & ds2 & E & Hds2 & H) Hb (Hd1 & Hd2 & Hd3). unfold rupdate. rewrite Hb.
  match goal with |- context [fold_left (ritem_step i (rs_type b) (rs_copies b) ?l ?a) (rs_items b) ?x] =>
    set (lb := l); set (ar := a); set (lo0 := x) end.
  destruct (group_loop i (rs_type b) (rs_copies b) lb ar (rs_items b) lo0) as [_ G];
    try (unfold lo0; cbn [rl_weight rl_moment]; try rewrite repeat_length; try reflexivity; intro g; apply nth_repeat0).
  { intros p Hp. apply Hd2. exact Hp. }
  destruct (exists_last_or_nil _ (rs_items b)) as [Ei|(l & p & Ei)].
  - exists ds1, (ds2 ++ [rview_bin b]). split; [rewrite E, app_assoc; reflexivity|]. split.
    + intros d Hd. apply in_snoc in Hd. destruct Hd as [Hd| ->]; [apply Hds2; exact Hd|exact Ei].
    + rewrite Ei in *. cbn [rev] in G. cbn [fold_left] in G |- *. cbn [rs_core rc_middle rc_rear]. unfold lo0. cbn [rl_middle rl_rear]. exact H.
  - exists (ds ++ [rview_bin b]), []. split; [rewrite app_nil_r; reflexivity|]. split; [intros d []|].
    rewrite rev_app_distr. cbn [rev app]. exists l, p. split; [exact Ei|]. cbn [rs_core rc_middle rc_rear rview_bin rd_type rd_items].
    assert (Er : rev (rs_items b) = p :: rev l) by (rewrite Ei, rev_app_distr; reflexivity). rewrite Er in G. exact G.
Qed.

Lemma rupdate_stored : forall i cb s pos b, nth_error (rc_bins (rs_core s)) pos = Some b ->
  rdesc_ok i (rview_bin b) ->
  exists b', rc_bins (rs_core (rupdate i cb pos s)) = upd pos (fun _ => b') (rc_bins (rs_core s))
    /\ rview_bin b' = rview_bin b /\ stored_groups i b'.
Proof.
  intros i cb s pos b Hb (Hd1 & Hd2 & Hd3). unfold rupdate. rewrite Hb.
  match goal with |- context [fold_left (ritem_step i (rs_type b) (rs_copies b) ?l ?a) (rs_items b) ?x] =>
    set (lb := l); set (ar := a); set (lo0 := x) end.
  destruct (group_loop i (rs_type b) (rs_copies b) lb ar (rs_items b) lo0) as [[G1 G2 G3 G4] _];
    try (unfold lo0; cbn [rl_weight rl_moment]; try rewrite repeat_length; try reflexivity; intro g; apply nth_repeat0).
  { intros p Hp. apply Hd2. exact Hp. }
  cbn [rs_core rc_bins]. eexists. split; [reflexivity|]. split; [reflexivity|].
  split; [exact G1|]. split; [exact G2|]. intros g Hg. cbn [rs_weight rs_moment rs_items].
  split; [apply G3|apply G4]; exact Hg.
Qed.

(** ** Histories *)

Section Hist.

Variable i : RInstance.
Variable cb : RCallback.

Definition OverGood (s : RSolution) : Prop := OverInv i s (rview s) /\ (forall d, In d (rview s) -> rdesc_ok i d) /\
  forall b, In b (rc_bins (rs_core s)) -> stored_groups i b.

Lemma over_push : forall s b, OverGood s -> rdesc_ok i (rview_bin b) -> OverGood (rpush_bin i cb s b)
  /\ rview (rpush_bin i cb s b) = rview s ++ [rview_bin b].
Proof.
  intros s b (H & D & T) Hd. unfold rpush_bin.
  set (s1 := mkRS (rwith_bins (rs_core s) (rc_bins (rs_core s) ++ [b])) (rs_callback_ok s) (rs_feasible s)).
  assert (Hb : nth_error (rc_bins (rs_core s1)) (length (rc_bins (rs_core s))) = Some b) by apply nth_error_snoc.
  assert (H1 : OverInv i s1 (rview s)) by exact H.
  pose proof (rupdate_over i cb (rview s) s1 _ b H1 Hb Hd) as U.
  destruct (rupdate_stored i cb s1 _ b Hb Hd) as (b' & G3 & G4 & G5).
  assert (Hv : rview (rupdate i cb (length (rc_bins (rs_core s))) s1) = rview s ++ [rview_bin b]).
  { unfold rview. rewrite G3. cbn [s1 rs_core rwith_bins rc_bins]. rewrite upd_snoc, map_app. cbn [map]. rewrite G4. reflexivity. }
  split; [split; [rewrite Hv; exact U|split]|exact Hv].
  - rewrite Hv. intros d Hin. apply in_snoc in Hin. destruct Hin as [Hin| ->]; auto.
  - rewrite G3. cbn [s1 rs_core rwith_bins rc_bins]. rewrite upd_snoc. intros b0 Hin. apply in_snoc in Hin.
    destruct Hin as [Hin| ->]; auto.
Qed.

Lemma over_build : forall bins, (forall b, In b bins -> rdesc_ok i (rview_bin b)) -> OverGood (rb_build i cb bins).
Proof.
  intros bins Hbins. unfold rb_build.
  set (s0 := mkRS (rwith_bins (rs_core (rsol_new i)) bins) (rs_callback_ok (rsol_new i)) (rs_feasible (rsol_new i))).
  assert (G : forall k, (k <= length bins)%nat ->
    let s := fold_left (fun s pos => rupdate i cb pos s) (seq 0 k) s0 in
    rview s = map rview_bin bins /\ OverInv i s (firstn k (map rview_bin bins)) /\
    forall j b, (j < k)%nat -> nth_error (rc_bins (rs_core s)) j = Some b -> stored_groups i b).
  { induction k as [|k IH]; intro Hk; cbv zeta.
    - split; [reflexivity|]. split; [|intros; lia].
      exists [], []. split; [reflexivity|]. split; [intros d []|]. split; reflexivity.
    - rewrite seq_S, fold_left_app. cbn [fold_left Nat.add]. destruct (IH ltac:(lia)) as (B2 & B3 & B4).
      set (s := fold_left _ (seq 0 k) s0) in *.
      assert (B1 : length (rc_bins (rs_core s)) = length bins).
      { rewrite <- (map_length rview_bin (rc_bins (rs_core s))). change (map rview_bin (rc_bins (rs_core s))) with (rview s). rewrite B2, map_length. reflexivity. }
      destruct (nth_error (rc_bins (rs_core s)) k) as [b|] eqn:Eb; [|apply nth_error_None in Eb; lia].
      assert (Hvb : nth_error (map rview_bin bins) k = Some (rview_bin b)).
      { rewrite <- B2. unfold rview. rewrite nth_error_map, Eb. reflexivity. }
      assert (Hd : rdesc_ok i (rview_bin b)).
      { apply nth_error_In in Hvb. apply in_map_iff in Hvb. destruct Hvb as (b0 & <- & Hb0). apply Hbins. assumption. }
      destruct (rupdate_stored i cb s k b Eb Hd) as (b' & G3 & G4 & G5). split; [|split].
      + unfold rview in *. rewrite G3, (map_rview_upd _ k b b' Eb G4). exact B2.
      + rewrite (firstn_succ_snoc _ _ k _ Hvb). apply rupdate_over; assumption.
      + intros j bj Hj Ej. rewrite G3 in Ej. destruct (Nat.eq_dec j k) as [->|Hjk].
        * rewrite (nth_error_nth' _ b') in Ej by (rewrite upd_length; lia). injection Ej as <-.
          rewrite nth_upd_same by lia. exact G5.
        * assert (Hjl : (j < length (rc_bins (rs_core s)))%nat) by lia.
          apply (B4 j); [lia|]. rewrite (nth_error_nth' _ b') in Ej by (rewrite upd_length; lia).
          rewrite nth_upd_other in Ej by lia. rewrite (nth_error_nth' _ b' Hjl). exact Ej. }
  destruct (G (length bins) (le_n _)) as (V & O & T). split; [|split].
  - rewrite V. rewrite firstn_all2 in O by (rewrite map_length; lia). exact O.
  - rewrite V. intros d Hd. apply in_map_iff in Hd. destruct Hd as (b & <- & Hin). apply Hbins, Hin.
  - intros b Hb. apply In_nth_error in Hb. destruct Hb as (j & Hj). apply (T j); [|exact Hj].
    assert (HL : length (rc_bins (rs_core (fold_left (fun s pos => rupdate i cb pos s) (seq 0 (length bins)) s0))) = length bins).
    { rewrite <- (map_length rview_bin). unfold rview in V. rewrite V. apply map_length. }
    rewrite <- HL. apply nth_error_Some. congruence.
Qed.

Lemma over_append : forall s source pos copies bids iids s', OverGood s -> 0 <= copies ->
  rappend_bin i cb s source pos copies bids iids = Some s' -> OverGood s'.
Proof.
  intros s source pos copies bids iids s' G Hc H. unfold rappend_bin in H.
  destruct (nth_error (rc_bins (rs_core source)) pos) as [b|]; [|discriminate].
  destruct (map_id bids (rs_type b)) as [t|]; [|discriminate].
  destruct (rmap_ids iids (rs_items b)) as [items|]; [|discriminate].
  destruct (rin_range i t items) eqn:Er; [|discriminate]. injection H as <-.
  destruct (rin_range_ok _ _ _ Er) as [R1 R2]. apply over_push; [exact G|]. split; [exact R1|split; [exact R2|exact Hc]].
Qed.

Lemma over_history : forall calls1 calls2 s, rhistory i cb calls1 calls2 = Some s -> rcopies_nonneg calls1 calls2 ->
  OverGood s.
Proof.
  intros calls1 calls2 s H Hc. unfold rhistory in H. destruct (rb_run i [] calls1) as [bins|] eqn:E; [|discriminate].
  destruct (rb_run_spec i calls1 [] bins E) as [V1 V2]; [intros b []|]. cbn [map] in V1.
  assert (Hb : forall b, In b bins -> rdesc_ok i (rview_bin b)).
  { intros b Hb. destruct (V2 b Hb) as (R1 & R2). split; [exact R1|]. split; [exact R2|]. apply Hc, in_or_app. left.
    rewrite <- V1. apply in_map. assumption. }
  assert (Hc2 : forall d, In d (flat_map rcall_bins calls2) -> 0 <= rd_copies d) by (intros d Hd; apply Hc, in_or_app; right; exact Hd).
  pose proof (over_build bins Hb) as G. clear Hc Hb V1 V2 E. revert G Hc2 H. generalize (rb_build i cb bins).
  induction calls2 as [|c calls IH]; intros s0 G Hc H; cbn [rsol_run] in H.
  - injection H as <-. exact G.
  - destruct (rsol_call i cb s0 c) as [s1|] eqn:E; [|discriminate]. cbn [flat_map] in Hc.
    apply (IH s1); [|intros d Hd; apply Hc, in_or_app; right; exact Hd|exact H].
    assert (Hc1 : forall d, In d (rcall_bins c) -> 0 <= rd_copies d) by (intros d Hd; apply Hc, in_or_app; left; exact Hd).
    destruct c as [source pos copies bids iids|source bids iids|t copies]; cbn [rsol_call rcall_bins] in *.
    + assert (E0 : exists d, nth_error (rview source) pos = Some d).
      { unfold rappend_bin in E. destruct (nth_error (rc_bins (rs_core source)) pos) as [b|] eqn:Eb; [|discriminate].
        exists (rview_bin b). unfold rview. rewrite nth_error_map, Eb. reflexivity. }
      destruct E0 as (d0 & E0). rewrite E0 in Hc1. specialize (Hc1 _ (or_introl eq_refl)). cbn [rd_copies rmapped_desc] in Hc1.
      eapply over_append; eassumption.
    + assert (Hs : forall d, In d (rview source) -> 0 <= rd_copies d).
      { intros d Hd. apply (Hc1 (rmapped_desc bids iids (rd_copies d) d)).
        apply (in_map (fun d => rmapped_desc bids iids (rd_copies d) d)). exact Hd. }
      unfold rappend_bins in E. clear - G E Hs. revert s0 G E. generalize (seq 0 (length (rc_bins (rs_core source)))).
      intro l. induction l as [|pos l IH]; intros s0 G E; cbn [rappend_from] in E; [injection E as <-; exact G|].
      destruct (nth_error (rc_bins (rs_core source)) pos) as [b|] eqn:Eb; [|discriminate].
      destruct (rappend_bin i cb s0 source pos (rs_copies b) bids iids) as [s2|] eqn:E2; [|discriminate].
      apply (IH s2); [|exact E]. apply (over_append _ _ _ _ _ _ _ G) in E2; [exact E2|].
      apply (Hs (rview_bin b)). apply in_map. eapply nth_error_In; eassumption.
    + unfold rappend_empty in E. destruct (rin_range i t []) eqn:Er; [|discriminate]. injection E as <-.
      destruct (rin_range_ok _ _ _ Er) as [R1 _]. apply over_push; [exact G|].
      split; [exact R1|]. split; [intros p []|]. apply (Hc1 (mkRD t copies [])). left. reflexivity.
Qed.

End Hist.

(** ** Resources of whole bins *)

Lemma resources_whole : forall i d, rsane_resources i -> rdesc_ok i d -> (resources_ok i d <-> resources_ok_end i d).
Proof.
  intros i d Hs (Hd & _). unfold resources_ok, resources_ok_end. split.
  - intros H r Hr Hp. specialize (H r Hr Hp). destruct (Hs (rbin i (rd_type d)) r (nth_In _ _ Hd) Hr) as [Hcap Hq].
    induction (rd_items d) as [|p l IH] using rev_ind.
    + rewrite <- proj_consumption. cbn [map]. rewrite consumption_nil. exact Hcap.
    + apply prefall_snoc in H. destruct H as [H1 H2].
      destruct (nth (pl_type p) (res_item_consumptions r) []) as [|q0 s0] eqn:Es; [|apply H2; congruence].
      assert (Heq : (rconsumption i r (l ++ [p]) == rconsumption i r l)%Q).
      { unfold rconsumption. apply qsum_ext. intros y _. unfold rcount. rewrite filter_app, app_length. cbn [filter].
        destruct (Nat.eqb_spec (pl_type p) y) as [<-|Hn].
        - rewrite Es. assert (Hz : forall n, (schedule_total [] n == 0)%Q).
          { induction n as [|n IHn]; simpl; [reflexivity|]. rewrite IHn. destruct n; reflexivity. }
          rewrite !Hz. reflexivity.
        - cbn [length]. rewrite Nat.add_0_r. reflexivity. }
      rewrite Heq. apply IH. exact H1.
  - intros H r Hr Hp before p after E _. eapply Qle_trans; [|apply (H r Hr Hp)]. rewrite E.
    destruct (Hs (rbin i (rd_type d)) r (nth_In _ _ Hd) Hr) as [_ Hq].
    unfold rconsumption. apply qsum_le. intros x _. apply schedule_total_mono.
    + intros q Hin. destruct (nth_in_or_default x (res_item_consumptions r) []) as [Hi|Hi]; [apply (Hq _ q Hi Hin)|].
      rewrite Hi in Hin. destruct Hin.
    + unfold rcount. rewrite !filter_app, !app_length. cbn [filter]. destruct (Nat.eqb (pl_type p) x); cbn [length]; lia.
Qed.
