(** * The search of the guillotine knapsack algorithm finds an optimal solution
    when cuts have no thickness *)

From Coq Require Import List ZArith QArith Bool Lia Lqa Qpower.
From Verif Require Import Util Common_Model Common_Proof Guil_Model Guil_Spec Guil_Proof GuilPlan_Proof Hyper_Model Hyper_Spec
  HyperDp_Proof HyperPat_Proof HyperBuild_Proof HyperRec_Proof HyperSearch_Proof.
Import ListNotations.
Open Scope Z_scope.

(** ** Keys *)
Lemma hlist_eqb_eq : forall a b, hlist_eqb a b = true <-> a = b.
Proof.
  induction a as [|[x n] a IH]; intros [|[y m] b]; cbn [hlist_eqb]; split; intros E; try discriminate; try reflexivity.
  - apply andb_true_iff in E. destruct E as [E1 E2]. unfold hpair_eqb in E1. cbn [fst snd] in E1.
    apply andb_true_iff in E1. destruct E1 as [E1 E3]. apply Nat.eqb_eq in E1. apply Z.eqb_eq in E3.
    apply (proj1 (IH b)) in E2. congruence.
  - injection E as -> -> ->. unfold hpair_eqb. cbn [fst snd]. rewrite Nat.eqb_refl, Z.eqb_refl. cbn [andb]. apply IH. reflexivity.
Qed.
Lemma hkey_eqb_eq : forall a b, hkey_eqb a b = true <-> a = b.
Proof.
  intros [[[w1 h1] c1] v1] [[[w2 h2] c2] v2]. cbn [hkey_eqb]. split; intros E.
  - apply andb_true_iff in E. destruct E as [E E4]. apply andb_true_iff in E. destruct E as [E E3].
    apply andb_true_iff in E. destruct E as [E1 E2]. apply Z.eqb_eq in E1, E2. apply Bool.eqb_prop in E3.
    apply (proj1 (hlist_eqb_eq _ _)) in E4. congruence.
  - injection E as -> -> -> ->. rewrite !Z.eqb_refl, Bool.eqb_reflx. cbn [andb]. apply hlist_eqb_eq. reflexivity.
Qed.
Lemma seen_in : forall k l, existsb (hkey_eqb k) l = true <-> In k l.
Proof.
  intros k l. rewrite existsb_exists. split.
  - intros (x & A & B). apply (proj1 (hkey_eqb_eq _ _)) in B. subst x. exact A.
  - intros A. exists k. split; [exact A|]. apply hkey_eqb_eq. reflexivity.
Qed.

(** ** Buckets *)
Lemma threshold_0 : forall init, (hthreshold init 0 == init)%Q.
Proof. intros init. unfold hthreshold. cbn. ring. Qed.
Lemma threshold_S : forall init k, (hthreshold init (S k) == hthreshold init k * (99 # 100))%Q.
Proof.
  intros init k. unfold hthreshold. rewrite Nat2Z.inj_succ, <- Z.add_1_r. rewrite Qpower_plus by discriminate.
  change ((99 # 100) ^ 1)%Q with (99 # 100)%Q. ring.
Qed.
Lemma threshold_pos : forall init k, (0 <= init)%Q -> (0 <= hthreshold init k)%Q.
Proof. intros init k Hi. induction k as [|k IH]; [rewrite threshold_0; exact Hi|]. rewrite threshold_S. lra. Qed.
Lemma threshold_anti : forall init k m, (0 <= init)%Q -> (k <= m)%nat -> (hthreshold init m <= hthreshold init k)%Q.
Proof.
  intros init k m Hi Hm. induction Hm as [|m Hm IH]; [apply Qle_refl|]. rewrite threshold_S.
  pose proof (threshold_pos init m Hi). lra.
Qed.

Lemma bucket_from_range : forall m k bound p, (k <= hbucket_from m k bound p <= k + m)%nat.
Proof.
  induction m as [|m IH]; intros k bound p; cbn [hbucket_from]; [lia|]. destruct (Qltb _ _); [lia|].
  specialize (IH (S k) (bound * (99 # 100))%Q p). lia.
Qed.
Lemma bucket_from_le : forall init m k bound p, (bound == hthreshold init k)%Q -> (p <= bound)%Q ->
  (p <= hthreshold init (hbucket_from m k bound p))%Q.
Proof.
  intros init. induction m as [|m IH]; intros k bound p E Hp; cbn [hbucket_from]; [lra|].
  destruct (Qltb (bound * (99 # 100)) p) eqn:L; [lra|]. apply Qltb_ge in L. apply IH; [|exact L].
  rewrite threshold_S, E. reflexivity.
Qed.
Lemma bucket_from_anti : forall m k bound p q, (q <= p)%Q -> (hbucket_from m k bound p <= hbucket_from m k bound q)%nat.
Proof.
  induction m as [|m IH]; intros k bound p q Hq; cbn [hbucket_from]; [lia|].
  destruct (Qltb (bound * (99 # 100)) p) eqn:L1.
  - destruct (Qltb (bound * (99 # 100)) q) eqn:L2; [lia|].
    pose proof (bucket_from_range m (S k) (bound * (99 # 100))%Q q). lia.
  - apply Qltb_ge in L1. assert (L2 : Qltb (bound * (99 # 100)) q = false) by (apply Qltb_ge; lra). rewrite L2. apply IH. exact Hq.
Qed.

Lemma bucket_lt : forall n init p, (0 < n)%nat -> (hbucket n init p < n)%nat.
Proof.
  intros n init p Hn. unfold hbucket. destruct (_ || _); [lia|]. destruct (Qle_bool p 0); [lia|].
  pose proof (bucket_from_range (n - 1) 0 init p). lia.
Qed.
Lemma bucket_le : forall n init p, (p <= init)%Q -> (p <= hthreshold init (hbucket n init p))%Q.
Proof.
  intros n init p Hp. unfold hbucket. destruct (Qle_bool init 0 || Qle_bool init p) eqn:E; [rewrite threshold_0; exact Hp|].
  apply orb_false_iff in E. destruct E as [E1 E2]. destruct (Qle_bool p 0) eqn:E3.
  - apply Qle_bool_iff in E3. eapply Qle_trans; [exact E3|]. apply threshold_pos.
    destruct (Qlt_le_dec init 0) as [L|L]; [|exact L]. assert (Qle_bool init 0 = true) by (apply Qle_bool_iff; lra). congruence.
  - apply bucket_from_le; [rewrite threshold_0; reflexivity|exact Hp].
Qed.
Lemma bucket_anti : forall n init p q, (q <= p)%Q -> (hbucket n init p <= hbucket n init q)%nat.
Proof.
  intros n init p q Hq. unfold hbucket. destruct (Qle_bool init 0); [cbn [orb]; lia|]. cbn [orb].
  destruct (Qle_bool init p) eqn:E1; [lia|].
  destruct (Qle_bool init q) eqn:E2; [apply Qle_bool_iff in E2; assert (Qle_bool init p = true) by (apply Qle_bool_iff; lra); congruence|].
  destruct (Qle_bool p 0) eqn:E3.
  - apply Qle_bool_iff in E3. assert (E4 : Qle_bool q 0 = true) by (apply Qle_bool_iff; lra). rewrite E4. lia.
  - destruct (Qle_bool q 0); [pose proof (bucket_from_range (n - 1) 0 init p); lia|]. apply bucket_from_anti. exact Hq.
Qed.

Lemma hle_mono : forall p a b, hle_ext p a = true -> (a <= b)%Q -> hle_ext p b = true.
Proof.
  intros [p|] a b E Hab; cbn [hle_ext] in *; [|reflexivity]. apply Qle_bool_iff in E. apply Qle_bool_iff. lra.
Qed.

(** ** The copies determine the profit *)
Lemma canon_copies : forall n s xs ys, canon s n xs = canon s n ys -> forall j, (s <= j < s + n)%nat -> copies_of j xs = copies_of j ys.
Proof.
  induction n as [|n IH]; intros s xs ys E j Hj; [lia|]. cbn [canon] in E.
  pose proof (copies_nonneg s xs) as N1. pose proof (copies_nonneg s ys) as N2.
  assert (G : forall zs p, In p (canon (S s) n zs) -> (s < fst p)%nat).
  { intros zs p Hp. destruct (canon_keys _ _ _ _ Hp) as [A _]. lia. }
  assert (K : copies_of s xs = copies_of s ys /\ canon (S s) n xs = canon (S s) n ys).
  { destruct (Z.ltb_spec 0 (copies_of s xs)) as [H1|H1]; destruct (Z.ltb_spec 0 (copies_of s ys)) as [H2|H2]; cbn [app] in E.
    - injection E as A B. auto.
    - exfalso. assert (I : In (s, copies_of s xs) (canon (S s) n ys)) by (rewrite <- E; left; reflexivity).
      apply G in I. cbn [fst] in I. lia.
    - exfalso. assert (I : In (s, copies_of s ys) (canon (S s) n xs)) by (rewrite E; left; reflexivity).
      apply G in I. cbn [fst] in I. lia.
    - split; [lia|exact E]. }
  destruct K as [K1 K2]. destruct (Nat.eq_dec j s) as [->|]; [exact K1|]. apply (IH (S s)); [exact K2|lia].
Qed.

Lemma canon_ext : forall n s xs ys, (forall j, copies_of j xs = copies_of j ys) -> canon s n xs = canon s n ys.
Proof. induction n as [|n IH]; intros s xs ys E; [reflexivity|]. cbn [canon]. rewrite E, (IH (S s) xs ys E). reflexivity. Qed.

Lemma profit_copies : forall i n xs, (forall x, In x xs -> (x < n)%nat) ->
  (items_profit i xs == qsum (fun j => inject_Z (copies_of j xs) * gi_profit (gitem i j)) (seq 0 n))%Q.
Proof.
  intros i n. induction xs as [|x xs IH]; intros Hx.
  - unfold items_profit. change (qsum (fun x => gi_profit (gitem i x)) []) with 0%Q.
    assert (G : forall l, (qsum (fun j => inject_Z (copies_of j []) * gi_profit (gitem i j)) l == 0)%Q).
    { induction l as [|j l IH]; [reflexivity|]. rewrite qsum_cons, IH. change (copies_of j []) with 0. ring. }
    rewrite G. reflexivity.
  - unfold items_profit in *. rewrite qsum_cons, IH by (intros; apply Hx; right; assumption).
    assert (G : forall l, NoDup l -> (qsum (fun j => inject_Z (copies_of j (x :: xs)) * gi_profit (gitem i j)) l
      == qsum (fun j => inject_Z (copies_of j xs) * gi_profit (gitem i j)) l + (if in_dec Nat.eq_dec x l then gi_profit (gitem i x) else 0))%Q).
    { clear IH Hx. induction l as [|j l IH]; intros ND; [cbn; ring|]. inversion ND as [|? ? N1 N2]. subst.
      rewrite !qsum_cons, (IH N2). unfold copies_of. cbn [count_occ].
      destruct (Nat.eq_dec x j) as [->|Hne].
      - destruct (in_dec Nat.eq_dec j l) as [I|_]; [contradiction|].
        destruct (in_dec Nat.eq_dec j (j :: l)) as [_|N]; [|exfalso; apply N; left; reflexivity].
        rewrite Nat2Z.inj_succ, <- Z.add_1_r, inject_Z_plus. change (inject_Z 1) with 1%Q. ring.
      - destruct (in_dec Nat.eq_dec x l) as [I|N].
        + destruct (in_dec Nat.eq_dec x (j :: l)) as [_|N3]; [ring|exfalso; apply N3; right; exact I].
        + destruct (in_dec Nat.eq_dec x (j :: l)) as [[E|I]|_]; [congruence|contradiction|ring]. }
    rewrite (G (seq 0 n) (seq_NoDup n 0)). destruct (in_dec Nat.eq_dec x (seq 0 n)) as [_|N]; [ring|].
    exfalso. apply N. apply in_seq. specialize (Hx x (or_introl eq_refl)). lia.
Qed.

Lemma same_profit : forall i P R, pok i P -> pok i R -> pcopies i P = pcopies i R -> (pprofit i P == pprofit i R)%Q.
Proof.
  intros i P R HP HR E. unfold pprofit. rewrite (profit_copies i (nitems i) (pitems P)) by (intros x Hx; exact (pitems_lt i P HP x Hx)).
  rewrite (profit_copies i (nitems i) (pitems R)) by (intros x Hx; exact (pitems_lt i R HR x Hx)).
  apply qsum_ext. intros j Hj. apply in_seq in Hj. unfold pcopies in E. rewrite (canon_copies _ _ _ _ E j ltac:(lia)). reflexivity.
Qed.

Section Opt.
Variable i : GInstance.
Hypothesis HI : hyper_instance i.
Hypothesis HU : hyper_supported i.
Hypothesis Hct0 : gp_ct (gin_params i) = 0.
Variable nb : nat.
Hypothesis Hnb : (0 < nb)%nat.
Local Notation W := (heff_w i).
Local Notation HT := (heff_h i).
Local Notation dp := (hdp (gin_items i) (heff_w i) (heff_h i) 0).
Local Notation rdp := (hrdp dp (heff_w i) (heff_h i) 0).
Local Notation init := (hget (heff_w i) dp (heff_w i) (heff_h i)).
Local Notation blk := (blk i rdp).
Local Notation SInv := (SInv i rdp).

Lemma HW : 1 <= W. Proof. exact (hi_w _ HI). Qed.
Lemma HH : 1 <= HT. Proof. exact (hi_h _ HI). Qed.

Lemma init_nonneg : (0 <= init)%Q.
Proof. pose proof HW. pose proof HH. apply dp_nonneg; lia. Qed.

Lemma blk_prio : forall ret n b, blk ret n b -> exists p, hb_priority b = Some p /\ (p <= init)%Q /\ (hb_profit b <= p)%Q.
Proof.
  intros ret n b (P & P1 & P2 & P3 & P4 & P5 & P6 & P7 & P8 & P9 & P10).
  destruct (rep_dims i _ _ _ P2) as [Ew Eh]. rewrite Hct0 in *.
  pose proof (ppos i 0 ltac:(lia) (hi_items _ HI) P P1) as [Pw Ph].
  destruct (rdp_val i W HT HW HH (pw i 0 P) (ph i 0 P) ltac:(lia) ltac:(lia)) as [E N].
  rewrite Ew, Eh, E in P10. cbn [hadd_ext option_map] in P10. eexists. split; [exact P10|].
  pose proof (pprio_top i W HT HW HH (hi_items _ HI) P P1 P8 P9) as T. unfold pprio in T. split; lra.
Qed.

Lemma comb_prio : forall vert ret n m cur idx b e, blk ret n b -> blk ret m e ->
  hb_w (comb i rdp vert cur idx b e) <= W -> hb_h (comb i rdp vert cur idx b e) <= HT ->
  exists pb pc, hb_priority b = Some pb /\ hb_priority (comb i rdp vert cur idx b e) = Some pc /\ (pc <= pb)%Q /\ (pc <= init)%Q
    /\ pc = (Rv i W HT (hb_w (comb i rdp vert cur idx b e)) (hb_h (comb i rdp vert cur idx b e)) + (hb_profit b + hb_profit e))%Q.
Proof.
  intros vert ret n m cur idx b e (P & P1 & P2 & P3 & P4 & P5 & P6 & P7 & P8 & P9 & P10)
    (R & R1 & R2 & R3 & R4 & R5 & R6 & R7 & R8 & R9 & R10) Hw Hh.
  destruct (rep_dims i _ _ _ P2) as [Pw Ph]. destruct (rep_dims i _ _ _ R2) as [Rw Rh].
  cbn [comb hb_w hb_h hb_priority] in *. rewrite Hct0 in *.
  pose proof (ppos i 0 ltac:(lia) (hi_items _ HI) P P1) as [PPw PPh]. pose proof (ppos i 0 ltac:(lia) (hi_items _ HI) R R1) as [RRw RRh].
  destruct (rdp_val i W HT HW HH (pw i 0 P) (ph i 0 P) ltac:(lia) ltac:(lia)) as [E N].
  rewrite Pw, Ph, E in P10. cbn [hadd_ext option_map] in P10. rewrite Pw, Ph, Rw, Rh in *.
  set (w := if vert then pw i 0 P + pw i 0 R + 0 else Z.max (pw i 0 P) (pw i 0 R)) in *.
  set (h := if vert then Z.max (ph i 0 P) (ph i 0 R) else ph i 0 P + ph i 0 R + 0) in *.
  assert (W1 : 1 <= w) by (unfold w; destruct vert; lia). assert (H1 : 1 <= h) by (unfold h; destruct vert; lia).
  destruct (rdp_val i W HT HW HH w h ltac:(lia) ltac:(lia)) as [E2 N2].
  unfold hcombined. apply Z.leb_le in Hw, Hh. rewrite Hw, Hh. cbn [andb]. apply Z.leb_le in Hw, Hh.
  rewrite E2. cbn [hadd_ext option_map]. eexists. eexists. split; [exact P10|]. split; [reflexivity|].
  assert (K : (Rv i W HT w h + (pprofit i P + pprofit i R) <= pprio i W HT P)%Q
    /\ (Rv i W HT w h + (pprofit i P + pprofit i R) <= init)%Q).
  { unfold w, h in *. destruct vert.
    - destruct (pprio_v i W HT HW HH (hi_items _ HI) P R P1 R1) as [K1 _]; [cbn [pw]; lia|cbn [ph]; lia|].
      pose proof (pprio_top i W HT HW HH (hi_items _ HI) (PV P R) (conj P1 R1) ltac:(cbn [pw]; lia) ltac:(cbn [ph]; lia)) as K2.
      unfold pprio at 1 in K1. unfold pprio in K2. rewrite pprofit_app in K1, K2. cbn [pw ph] in K1, K2. split; lra.
    - destruct (pprio_h i W HT HW HH (hi_items _ HI) P R P1 R1) as [K1 _]; [cbn [pw]; lia|cbn [ph]; lia|].
      pose proof (pprio_top i W HT HW HH (hi_items _ HI) (PH P R) (conj P1 R1) ltac:(cbn [pw]; lia) ltac:(cbn [ph]; lia)) as K2.
      unfold pprio at 1 in K1. unfold pprio in K2. rewrite pprofit_app_h in K1, K2. cbn [pw ph] in K1, K2. split; lra. }
  unfold pprio in K. destruct K as [K1 K2]. split; [lra|]. split; [lra|reflexivity].
Qed.

(** What is known of a block that was generated: it cannot improve, or its key
    was seen, or it waits in a bucket. *)
Definition Covered (st : HState) (c : HBlock) : Prop :=
  hle_ext (hb_priority c) (hs_best st) = true \/ In (hkey c) (hs_seen st) \/ exists k, In c (nth k (hs_buckets st) []).

Record TInv (st : HState) : Prop := {
  ti_len : length (hs_buckets st) = nb;
  ti_idx : forall k b, In b (nth k (hs_buckets st) []) -> exists p, hb_priority b = Some p /\ hbucket nb init p = k;
  ti_seen : forall key, In key (hs_seen st) -> exists a, (a < length (hs_returned st))%nat /\ hkey (nth a (hs_returned st) hdummy) = key
}.

Lemma covered_record : forall b st c, SInv st -> blk (hs_returned st) (length (hs_returned st)) b ->
  Covered st c -> Covered (hrecord i b st) c.
Proof.
  intros b st c HS HB HC. destruct (record_inv i HI HU rdp b st HS HB) as (_ & _ & L & _ & B & K).
  unfold Covered in *. rewrite B, K. destruct HC as [HC|HC]; [left; eapply hle_mono; eassumption|right; exact HC].
Qed.
Lemma covered_push : forall b st c, Covered st c -> Covered (hpush nb init b st) c.
Proof.
  intros b st c [HC|[HC|(k & HC)]]; [left; exact HC|right; left; exact HC|].
  right. right. exists k. apply upd_cons_keep. exact HC.
Qed.
Lemma covered_new : forall b st p, length (hs_buckets st) = nb -> hb_priority b = Some p -> Covered (hpush nb init b st) b.
Proof.
  intros b st p HL E. right. right. exists (hbucket nb init p). unfold hpush. cbn [hs_buckets]. rewrite E.
  apply upd_cons_new. rewrite HL. apply bucket_lt. exact Hnb.
Qed.

Lemma tinv_record : forall b st, SInv st -> blk (hs_returned st) (length (hs_returned st)) b -> TInv st -> TInv (hrecord i b st).
Proof.
  intros b st HS HB [T1 T2 T3]. destruct (record_inv i HI HU rdp b st HS HB) as (_ & _ & _ & R & B & K).
  constructor; rewrite ?R, ?B, ?K; assumption.
Qed.
Lemma tinv_push : forall b st p, hb_priority b = Some p -> TInv st -> TInv (hpush nb init b st).
Proof.
  intros b st p E [T1 T2 T3]. unfold hpush. constructor; cbn [hs_buckets hs_seen hs_returned].
  - rewrite upd_length. exact T1.
  - intros k c Hc. apply in_upd_cons in Hc. destruct Hc as [[-> ->]|Hc]; [|apply T2; exact Hc].
    exists p. rewrite E. auto.
  - exact T3.
Qed.

(** One step of the search: more is covered, the first buckets do not change. *)
Definition Step (k : nat) (st st' : HState) : Prop :=
  SInv st' /\ TInv st' /\ hs_returned st' = hs_returned st /\ hs_seen st' = hs_seen st
  /\ (hs_best st <= hs_best st')%Q /\ (forall c, Covered st c -> Covered st' c)
  /\ (forall j, (j < k)%nat -> nth j (hs_buckets st') [] = nth j (hs_buckets st) []).

Lemma step_refl : forall k st, SInv st -> TInv st -> Step k st st.
Proof. intros k st HS HT. split; [exact HS|]. split; [exact HT|]. split; [reflexivity|]. split; [reflexivity|]. split; [apply Qle_refl|]. auto. Qed.
Lemma step_trans : forall k a b c, Step k a b -> Step k b c -> Step k a c.
Proof.
  intros k a b c (A1 & A2 & A3 & A4 & A5 & A6 & A7) (B1 & B2 & B3 & B4 & B5 & B6 & B7).
  split; [exact B1|]. split; [exact B2|]. split; [congruence|]. split; [congruence|]. split; [eapply Qle_trans; eassumption|].
  split; [auto|]. intros j Hj. rewrite B7, A7 by exact Hj. reflexivity.
Qed.

Lemma step_insert : forall k b st p, SInv st -> TInv st -> blk (hs_returned st) (length (hs_returned st)) b ->
  hb_priority b = Some p -> (k <= hbucket nb init p)%nat ->
  Step k st (hpush nb init b (hrecord i b st)) /\ Covered (hpush nb init b (hrecord i b st)) b.
Proof.
  intros k b st p HS HTI HB E Hk. destruct (record_inv i HI HU rdp b st HS HB) as (A & B & C & D & F & G).
  pose proof (tinv_record b st HS HB HTI) as T2.
  split; [|apply covered_new with (p := p); [apply (ti_len _ T2)|exact E]].
  split; [apply push_inv; [exact A|rewrite D; exact HB|exact B]|]. split; [eapply tinv_push; eassumption|].
  split; [exact D|]. split; [exact G|]. split; [exact C|].
  split; [intros c HC; apply covered_push; apply covered_record; assumption|].
  intros j Hj. unfold hpush. cbn [hs_buckets]. rewrite E, F.
  clear - Hj Hk. revert j Hj Hk. generalize (hbucket nb init p). generalize (hs_buckets st). clear.
  induction l as [|a l IH]; intros [|m] [|j] Hj Hm; cbn [upd nth]; try reflexivity; try lia.
  destruct k as [|k]; [lia|]. clear IH. revert m j k Hj Hm. induction l as [|a2 l IH]; intros [|m] [|j] k Hj Hm; cbn [upd nth]; try reflexivity; try lia.
  destruct k as [|k]; [lia|]. apply (IH m j k); lia.
Qed.

Lemma step_try : forall k vert cur idx b e st pb, SInv st -> TInv st ->
  nth cur (hs_returned st) hdummy = b -> nth idx (hs_returned st) hdummy = e ->
  (cur < length (hs_returned st))%nat -> (idx < length (hs_returned st))%nat ->
  hvalid (gin_items i) (hb_copies b) (hb_copies e) = true -> hb_priority b = Some pb -> (k <= hbucket nb init pb)%nat ->
  Step k st (try_insert i nb init (comb i rdp vert cur idx b e) st)
  /\ Covered (try_insert i nb init (comb i rdp vert cur idx b e) st) (comb i rdp vert cur idx b e).
Proof.
  intros k vert cur idx b e st pb HS HTI Eb Ee Lb Le HV EP Hk. unfold try_insert.
  destruct (hle_ext (hb_priority (comb i rdp vert cur idx b e)) (hs_best st)) eqn:E; [split; [apply step_refl; assumption|left; exact E]|].
  destruct (comb_fits i rdp _ _ _ _ _ _ (si_best _ _ _ HS) E) as (F1 & F2 & F3).
  assert (Ib : In b (hs_returned st)) by (rewrite <- Eb; apply nth_In; exact Lb).
  assert (Ie : In e (hs_returned st)) by (rewrite <- Ee; apply nth_In; exact Le).
  pose proof (proj1 (si_ret _ _ _ HS b Ib)) as Bb. pose proof (proj1 (si_ret _ _ _ HS e Ie)) as Be.
  pose proof (comb_blk i rdp vert _ _ _ _ _ Eb Ee Lb Le Bb Be HV F1 F2 F3) as BK.
  destruct (comb_prio vert _ _ _ cur idx b e Bb Be F1 F2) as (pb' & pc & E1 & E2 & L1 & _).
  assert (pb' = pb) by congruence. subst pb'.
  apply step_insert with (p := pc); try assumption. pose proof (bucket_anti nb init pb pc L1). lia.
Qed.

Lemma step_combine : forall k cur idx b st pb, SInv st -> TInv st -> nth cur (hs_returned st) hdummy = b ->
  (cur < length (hs_returned st))%nat -> (idx < length (hs_returned st))%nat -> hb_priority b = Some pb -> (k <= hbucket nb init pb)%nat ->
  Step k st (hcombine i nb rdp init cur idx b st)
  /\ forall vert, hvalid (gin_items i) (hb_copies b) (hb_copies (nth idx (hs_returned st) hdummy)) = true ->
       Covered (hcombine i nb rdp init cur idx b st) (comb i rdp vert cur idx b (nth idx (hs_returned st) hdummy)).
Proof.
  intros k cur idx b st pb HS HTI Eb Lb Le EP Hk. rewrite hcombine_eq. cbv zeta. set (e := nth idx (hs_returned st) hdummy).
  destruct (hle_ext (hb_priority (comb i rdp true cur idx b e)) (hs_best st) && hle_ext (hb_priority (comb i rdp false cur idx b e)) (hs_best st)) eqn:E.
  { apply andb_true_iff in E. destruct E as [E1 E2]. split; [apply step_refl; assumption|]. intros [|] _; left; assumption. }
  destruct (hvalid (gin_items i) (hb_copies b) (hb_copies e)) eqn:HV; cbn [negb];
    [|split; [apply step_refl; assumption|discriminate]].
  fold (try_insert i nb init (comb i rdp true cur idx b e) st).
  destruct (step_try k true cur idx b e st pb HS HTI Eb eq_refl Lb Le HV EP Hk) as (S1 & C1).
  set (st1 := try_insert i nb init (comb i rdp true cur idx b e) st) in *. fold (try_insert i nb init (comb i rdp false cur idx b e) st1).
  pose proof S1 as (A & T1 & R & _).
  destruct (step_try k false cur idx b e st1 pb A T1) as (S2 & C2);
    [rewrite R; exact Eb|rewrite R; reflexivity|rewrite R; exact Lb|rewrite R; exact Le|exact HV|exact EP|exact Hk|].
  split; [eapply step_trans; eassumption|]. intros [|] _; [|exact C2]. destruct S2 as (_ & _ & _ & _ & _ & M & _). apply M. exact C1.
Qed.

Lemma step_fold : forall k cur b l st pb, SInv st -> TInv st -> nth cur (hs_returned st) hdummy = b ->
  (cur < length (hs_returned st))%nat -> (forall x, In x l -> (x < length (hs_returned st))%nat) ->
  hb_priority b = Some pb -> (k <= hbucket nb init pb)%nat ->
  Step k st (fold_left (fun st idx => hcombine i nb rdp init cur idx b st) l st)
  /\ forall vert x, In x l -> hvalid (gin_items i) (hb_copies b) (hb_copies (nth x (hs_returned st) hdummy)) = true ->
       Covered (fold_left (fun st idx => hcombine i nb rdp init cur idx b st) l st) (comb i rdp vert cur x b (nth x (hs_returned st) hdummy)).
Proof.
  intros k cur b. induction l as [|x l IH]; intros st pb HS HTI Eb Lb Hl EP Hk; cbn [fold_left].
  { split; [apply step_refl; assumption|]. intros vert x []. }
  destruct (step_combine k cur x b st pb HS HTI Eb Lb (Hl x (or_introl eq_refl)) EP Hk) as (S1 & C1).
  pose proof S1 as (A & T1 & R & _).
  destruct (IH (hcombine i nb rdp init cur x b st) pb A T1) as (S2 & C2);
    [rewrite R; exact Eb|rewrite R; exact Lb|rewrite R; intros y Hy; apply Hl; right; exact Hy|exact EP|exact Hk|].
  split; [eapply step_trans; eassumption|]. intros vert y [<-|Hy] HV.
  - destruct S2 as (_ & _ & _ & _ & _ & M & _). apply M. apply C1. exact HV.
  - rewrite R in C2. apply C2; assumption.
Qed.

(** Everything generated from the blocks returned so far is covered. *)
Definition Pairs (st : HState) : Prop :=
  forall vert a x, (x <= a)%nat -> (a < length (hs_returned st))%nat ->
    hvalid (gin_items i) (hb_copies (nth a (hs_returned st) hdummy)) (hb_copies (nth x (hs_returned st) hdummy)) = true ->
    Covered st (comb i rdp vert a x (nth a (hs_returned st) hdummy) (nth x (hs_returned st) hdummy)).
Definition Seeds (st : HState) : Prop :=
  forall j r, seed_ok i rdp j r -> ~ (r = true /\ gi_w (gitem i j) = gi_h (gitem i j)) -> Covered st (seed_block i rdp j r).
Definition Low (k : nat) (st : HState) : Prop :=
  forall j, (j < k)%nat -> nth j (hs_buckets st) [] = [] \/ (hthreshold init j <= hs_best st)%Q.

Record OInv (k : nat) (st : HState) : Prop := {
  oi_s : SInv st;
  oi_t : TInv st;
  oi_pairs : Pairs st;
  oi_seeds : Seeds st;
  oi_low : Low k st
}.

Lemma covered_pop : forall st k b rest n c, nth k (hs_buckets st) [] = b :: rest ->
  Covered st c -> c = b \/ Covered (mkHS (upd k (fun _ => rest) (hs_buckets st)) (hs_seen st) (hs_returned st) (hs_best st) (hs_out st) n) c.
Proof.
  intros st k b rest n c E [HC|[HC|(m & HC)]]; [right; left; exact HC|right; right; left; exact HC|].
  destruct (Nat.eq_dec m k) as [->|Hne].
  - rewrite E in HC. destruct HC as [->|HC]; [left; reflexivity|]. right. right. right. exists k. cbn [hs_buckets].
    rewrite nth_upd_const, Nat.eqb_refl. destruct (Nat.ltb_spec k (length (hs_buckets st))) as [L|L]; cbn [andb]; [exact HC|].
    rewrite nth_overflow in E by exact L. discriminate.
  - right. right. right. exists m. cbn [hs_buckets]. rewrite nth_upd_const. destruct (Nat.eqb_spec m k); [contradiction|]. exact HC.
Qed.

Lemma tinv_pop : forall st k b rest n, nth k (hs_buckets st) [] = b :: rest -> TInv st ->
  TInv (mkHS (upd k (fun _ => rest) (hs_buckets st)) (hs_seen st) (hs_returned st) (hs_best st) (hs_out st) n).
Proof.
  intros st k b rest n E [T1 T2 T3]. constructor; cbn [hs_buckets hs_seen hs_returned].
  - rewrite upd_length. exact T1.
  - intros m c Hc. rewrite nth_upd_const in Hc. destruct (Nat.eqb_spec m k) as [->|Hne]; cbn [andb] in Hc.
    + destruct (Nat.ltb k (length (hs_buckets st))); [|apply T2; exact Hc]. apply T2. rewrite E. right. exact Hc.
    + apply T2. exact Hc.
  - exact T3.
Qed.

Lemma low_pop : forall st k b rest n, Low k st -> nth k (hs_buckets st) [] = b :: rest ->
  Low k (mkHS (upd k (fun _ => rest) (hs_buckets st)) (hs_seen st) (hs_returned st) (hs_best st) (hs_out st) n).
Proof.
  intros st k b rest n HL _ j Hj. cbn [hs_buckets hs_best]. rewrite nth_upd_const.
  destruct (Nat.eqb_spec j k) as [->|Hne]; [lia|]. apply HL. exact Hj.
Qed.

Lemma low_step : forall k st st', Low k st -> Step k st st' -> Low k st'.
Proof.
  intros k st st' HL (_ & _ & _ & _ & B & _ & N) j Hj. destruct (HL j Hj) as [E|E]; [left; rewrite N by exact Hj; exact E|right; lra].
Qed.

(** The loop on a bucket: at its end the bucket is empty or useless. *)
Lemma bucket_loop_opt : forall fuel k st st', hbucket_loop i nb rdp init (fun _ => false) fuel k st = Some st' ->
  OInv k st -> OInv (S k) st'.
Proof.
  assert (FIN : forall k st n, OInv k st -> nth k (hs_buckets st) [] = [] \/ (hthreshold init k <= hs_best st)%Q ->
    OInv (S k) (mkHS (hs_buckets st) (hs_seen st) (hs_returned st) (hs_best st) (hs_out st) n)).
  { intros k st n [O1 O2 O3 O4 O5] HK. constructor.
    - apply inv_asked. exact O1.
    - destruct O2 as [T1 T2 T3]. constructor; assumption.
    - exact O3.
    - exact O4.
    - intros j Hj. cbn [hs_buckets hs_best]. destruct (Nat.eq_dec j k) as [->|]; [exact HK|apply O5; lia]. }
  induction fuel as [|fuel IH]; intros k st st' E HO; cbn [hbucket_loop] in E.
  - destruct (nth k (hs_buckets st) []) as [|b rest] eqn:EB; [injection E as <-|discriminate].
    pose proof (FIN k st (hs_asked st) HO (or_introl EB)) as G. destruct st. exact G.
  - destruct (nth k (hs_buckets st) []) as [|b rest] eqn:EB.
    { injection E as <-. pose proof (FIN k st (hs_asked st) HO (or_introl EB)) as G. destruct st. exact G. }
    cbn [hs_asked hs_buckets hs_seen hs_returned hs_best hs_out] in E.
    destruct (Qle_bool (hthreshold init k) (hs_best st)) eqn:TH.
    { injection E as <-. apply FIN; [exact HO|]. right. apply Qle_bool_iff. exact TH. }
    destruct HO as [O1 O2 O3 O4 O5].
    pose proof (inv_pop i rdp st k b rest (S (hs_asked st)) O1 EB) as HP.
    pose proof (tinv_pop st k b rest (S (hs_asked st)) EB O2) as TP.
    pose proof (low_pop st k b rest (S (hs_asked st)) O5 EB) as LP.
    set (st1 := mkHS (upd k (fun _ => rest) (hs_buckets st)) (hs_seen st) (hs_returned st) (hs_best st) (hs_out st) (S (hs_asked st))) in *.
    assert (SKIP : Covered st1 b -> OInv k st1).
    { intros HC. constructor; [exact HP|exact TP| | |exact LP].
      - intros vert a x Hx Ha HV. destruct (covered_pop st k b rest (S (hs_asked st)) _ EB (O3 vert a x Hx Ha HV)) as [EQ|G]; [rewrite <- EQ in HC; exact HC|exact G].
      - intros j r Hj Hr. destruct (covered_pop st k b rest (S (hs_asked st)) _ EB (O4 j r Hj Hr)) as [EQ|G]; [rewrite <- EQ in HC; exact HC|exact G]. }
    destruct (hle_ext (hb_priority b) (hs_best st)) eqn:LE; [apply (IH _ _ _ E); apply SKIP; left; exact LE|].
    destruct (existsb (hkey_eqb (hkey b)) (hs_seen st)) eqn:SE;
      [apply (IH _ _ _ E); apply SKIP; right; left; apply seen_in; exact SE|].
    destruct (si_buckets _ _ _ O1 k b) as [BK BL]; [rewrite EB; left; reflexivity|].
    destruct (ti_idx _ O2 k b) as (pb & EP & EK); [rewrite EB; left; reflexivity|].
    pose proof (inv_return i rdp st1 b (hkey b) HP BK BL) as HR. cbn [st1 hs_asked hs_buckets hs_seen hs_returned hs_best hs_out] in HR.
    set (st2 := mkHS (upd k (fun _ => rest) (hs_buckets st)) (hkey b :: hs_seen st) (hs_returned st ++ [b]) (hs_best st) (hs_out st)
      (S (hs_asked st))) in *.
    assert (TR : TInv st2).
    { destruct TP as [T1 T2 T3]. constructor; cbn [st1 st2 hs_buckets hs_seen hs_returned] in *; [exact T1|exact T2|].
      rewrite app_length. cbn [length]. intros key [<-|Hk].
      - exists (length (hs_returned st)). rewrite app_nth2, Nat.sub_diag by lia. split; [lia|reflexivity].
      - destruct (T3 key Hk) as (a & A1 & A2). exists a. rewrite app_nth1 by exact A1. split; [lia|exact A2]. }
    assert (M : forall c, Covered st c -> Covered st2 c).
    { intros c HC. destruct (covered_pop st k b rest (S (hs_asked st)) _ EB HC) as [->|[G|[G|G]]].
      - right. left. left. reflexivity.
      - left. exact G.
      - right. left. right. exact G.
      - right. right. exact G. }
    assert (LR : length (hs_returned st2) = S (length (hs_returned st))) by (cbn [st2 hs_returned]; rewrite app_length; cbn [length]; lia).
    assert (NB : nth (length (hs_returned st)) (hs_returned st2) hdummy = b)
      by (cbn [st2 hs_returned]; rewrite app_nth2, Nat.sub_diag by lia; reflexivity).
    destruct (step_fold k (length (hs_returned st)) b (seq 0 (S (length (hs_returned st)))) st2 pb HR TR NB) as (ST & CV);
      [lia|intros x Hx; apply in_seq in Hx; lia|exact EP|lia|].
    apply (IH _ _ _ E).
    match type of ST with Step _ _ ?s => set (st3 := s) in * end.
    change (hbucket_loop i nb rdp init (fun _ => false) fuel k st3 = Some st') in E.
    pose proof ST as (S1 & S2 & S3 & S4 & S5 & S6 & S7). constructor; [exact S1|exact S2| | |].
    + unfold Pairs. rewrite S3. intros vert a x Hx Ha HV. rewrite LR in Ha.
      destruct (Nat.eq_dec a (length (hs_returned st))) as [->|Hne].
      * rewrite NB in HV |- *. apply CV; [apply in_seq; lia|exact HV].
      * apply S6. apply M. cbn [st2 hs_returned] in *. rewrite !app_nth1 in * by lia. apply O3; [exact Hx|lia|exact HV].
    + intros j r Hj Hr. apply S6. apply M. apply O4; assumption.
    + eapply low_step; [|exact ST]. exact LP.
Qed.

Lemma buckets_loop_opt : forall fuel n k st st', hbuckets_loop i nb rdp init (fun _ => false) fuel (seq k n) st = Some st' ->
  (k + n = nb)%nat -> OInv k st -> OInv nb st'.
Proof.
  intros fuel. induction n as [|n IH]; intros k st st' E Hk HO; cbn [seq hbuckets_loop] in E.
  { injection E as <-. replace nb with k by lia. exact HO. }
  cbn [hs_asked hs_buckets hs_seen hs_returned hs_best hs_out] in E.
  assert (HO2 : OInv k (mkHS (hs_buckets st) (hs_seen st) (hs_returned st) (hs_best st) (hs_out st) (S (hs_asked st)))).
  { destruct HO as [O1 O2 O3 O4 O5]. constructor; [apply inv_asked; exact O1| |exact O3|exact O4|exact O5].
    destruct O2 as [T1 T2 T3]. constructor; assumption. }
  destruct (Qle_bool (hthreshold init k) (hs_best st)) eqn:TH.
  - injection E as <-. destruct HO2 as [O1 O2 O3 O4 O5]. constructor; try assumption.
    intros j Hj. cbn [hs_buckets hs_best] in *. destruct (le_lt_dec k j) as [L|L]; [|apply O5; exact L]. right.
    apply Qle_bool_iff in TH. eapply Qle_trans; [|exact TH]. apply threshold_anti; [exact init_nonneg|exact L].
  - match type of E with match ?c with _ => _ end = _ => destruct c as [st2|] eqn:E2; [|discriminate] end.
    apply (IH _ _ _ E); [lia|]. eapply bucket_loop_opt; eassumption.
Qed.

(** The seeds. *)
Lemma seeds_opt : OInv 0 (hseeds i nb rdp init (hstart nb)).
Proof.
  assert (T0 : TInv (hstart nb)).
  { constructor; cbn [hstart hs_buckets hs_seen hs_returned].
    - apply repeat_length.
    - intros k b Hb. exfalso. clear - Hb. revert k Hb. induction nb as [|n IH]; intros [|k] Hb; cbn [repeat nth] in Hb; try contradiction. exact (IH k Hb).
    - intros key []. }
  assert (G1 : forall j r st, (j < length (gin_items i))%nat -> SInv st -> TInv st ->
    Step 0 st (hseed i nb rdp init j r st)
    /\ (seed_ok i rdp j r -> ~ (r = true /\ gi_w (gitem i j) = gi_h (gitem i j)) -> Covered (hseed i nb rdp init j r st) (seed_block i rdp j r))).
  { intros j r st Hj HS HTI. destruct (hseed_cases i nb rdp init j r st Hj) as [[-> HC]|(OK & [[-> HC]| ->])].
    - split; [apply step_refl; assumption|]. intros OK NS. destruct (HC OK) as [N|L]; [contradiction|left; exact L].
    - pose proof (seed_blk i rdp (hs_returned st) (length (hs_returned st)) j r OK) as BK.
      destruct (record_inv i HI HU rdp _ st HS BK) as (A & B & C & D & F & G).
      split; [|intros _ _; left; exact HC]. split; [exact A|]. split; [apply tinv_record; assumption|]. split; [exact D|].
      split; [exact G|]. split; [exact C|]. split; [intros c Hc; apply covered_record; assumption|]. intros k Hk. lia.
    - pose proof (seed_blk i rdp (hs_returned st) (length (hs_returned st)) j r OK) as BK.
      destruct (blk_prio _ _ _ BK) as (p & EP & _).
      destruct (step_insert 0 _ st p HS HTI BK EP ltac:(lia)) as (A & B). split; [exact A|]. intros _ _. exact B. }
  assert (G2 : forall l st, (forall j, In j l -> (j < length (gin_items i))%nat) -> SInv st -> TInv st ->
    Step 0 st (fold_left (fun st j => hseed i nb rdp init j true (hseed i nb rdp init j false st)) l st)
    /\ forall j r, In j l -> seed_ok i rdp j r -> ~ (r = true /\ gi_w (gitem i j) = gi_h (gitem i j)) ->
         Covered (fold_left (fun st j => hseed i nb rdp init j true (hseed i nb rdp init j false st)) l st) (seed_block i rdp j r)).
  { induction l as [|j l IH]; intros st Hl HS HTI; cbn [fold_left]; [split; [apply step_refl; assumption|intros j r []]|].
    destruct (G1 j false st (Hl j (or_introl eq_refl)) HS HTI) as (A1 & C1). pose proof A1 as (S1 & T1 & _).
    destruct (G1 j true (hseed i nb rdp init j false st) (Hl j (or_introl eq_refl)) S1 T1) as (A2 & C2). pose proof A2 as (S2 & T2 & _ & _ & _ & M2 & _).
    destruct (IH (hseed i nb rdp init j true (hseed i nb rdp init j false st))) as (A3 & C3);
      [intros k Hk; apply Hl; right; exact Hk|exact S2|exact T2|]. pose proof A3 as (_ & _ & _ & _ & _ & M3 & _).
    split; [eapply step_trans; [exact A1|eapply step_trans; [exact A2|exact A3]]|].
    intros k r [<-|Hk] OK NS; [|apply C3; assumption]. apply M3. destruct r; [apply C2; assumption|apply M2; apply C1; assumption]. }
  unfold hseeds. destruct (G2 (seq 0 (length (gin_items i))) (hstart nb)) as (A & B);
    [intros j Hj; apply in_seq in Hj; lia|apply start_inv|exact T0|]. pose proof A as (S1 & T1 & R1 & _).
  constructor; [exact S1|exact T1| | |intros j Hj; lia].
  - intros vert a x Hx Ha. rewrite R1 in Ha. cbn [hstart hs_returned length] in Ha. lia.
  - intros j r OK NS. apply B; [|exact OK|exact NS]. destruct OK as (Hj & _). apply in_seq. lia.
Qed.

(** At the end every pattern better than the best one was returned. *)
Lemma end_covered : forall st c p, OInv nb st -> Covered st c -> hb_priority c = Some p -> (hs_best st < p)%Q ->
  exists a, (a < length (hs_returned st))%nat /\ hkey (nth a (hs_returned st) hdummy) = hkey c.
Proof.
  intros st c p HO [HC|[HC|(k & HC)]] EP L.
  - rewrite EP in HC. cbn [hle_ext] in HC. apply Qle_bool_iff in HC. lra.
  - apply (ti_seen _ (oi_t _ _ HO)). exact HC.
  - exfalso. assert (Hk : (k < nb)%nat).
    { rewrite <- (ti_len _ (oi_t _ _ HO)). destruct (le_lt_dec (length (hs_buckets st)) k) as [G|G]; [|exact G].
      rewrite nth_overflow in HC by exact G. destruct HC. }
    destruct (oi_low _ _ HO k Hk) as [E|E]; [rewrite E in HC; destruct HC|].
    destruct (ti_idx _ (oi_t _ _ HO) k c HC) as (q & E1 & E2). assert (q = p) by congruence. subst q.
    destruct (si_buckets _ _ _ (oi_s _ _ HO) k c HC) as [BK _]. destruct (blk_prio _ _ _ BK) as (q & E3 & E4 & _).
    assert (q = p) by congruence. subst q. pose proof (bucket_le nb init p E4) as B. rewrite E2 in B. lra.
Qed.

Definition pkey (P : Pat) : HKey := (pw i 0 P, ph i 0 P, pcopies i P, pvert P).

Lemma key_block : forall st P a, OInv nb st -> pok i P -> (a < length (hs_returned st))%nat ->
  hkey (nth a (hs_returned st) hdummy) = pkey P ->
  blk (hs_returned st) (length (hs_returned st) - 1) (nth a (hs_returned st) hdummy)
  /\ (hb_profit (nth a (hs_returned st) hdummy) == pprofit i P)%Q
  /\ (hb_profit (nth a (hs_returned st) hdummy) <= hs_best st)%Q.
Proof.
  intros st P a HO HP Ha EK. destruct (si_ret _ _ _ (oi_s _ _ HO) _ (nth_In _ hdummy Ha)) as [BK BL].
  split; [exact BK|]. split; [|exact BL]. destruct BK as (R & R1 & R2 & R3 & R4 & R5 & R6 & R7 & _).
  rewrite R7. apply same_profit; [exact R1|exact HP|]. rewrite <- R5. unfold hkey, pkey in EK. congruence.
Qed.

Lemma pairs_sym : forall st P1 P2 (mk : Pat -> Pat -> Pat) vert,
  (mk = PV /\ vert = true) \/ (mk = PH /\ vert = false) ->
  OInv nb st -> pok i P1 -> pok i P2 -> within_copies i (pitems P1 ++ pitems P2) ->
  pw i 0 (mk P1 P2) <= W -> ph i 0 (mk P1 P2) <= HT -> (hs_best st < pprio i W HT (mk P1 P2))%Q ->
  (exists a, (a < length (hs_returned st))%nat /\ hkey (nth a (hs_returned st) hdummy) = pkey P1) ->
  (exists a, (a < length (hs_returned st))%nat /\ hkey (nth a (hs_returned st) hdummy) = pkey P2) ->
  exists a, (a < length (hs_returned st))%nat /\ hkey (nth a (hs_returned st) hdummy) = pkey (mk P1 P2).
Proof.
  intros st P1 P2 mk vert HM HO K1 K2 HWI Hw Hh HL (a1 & A1 & E1) (a2 & A2 & E2).
  set (ret := hs_returned st) in *.
  destruct (key_block st P1 a1 HO K1 A1 E1) as (B1 & Q1 & _). destruct (key_block st P2 a2 HO K2 A2 E2) as (B2 & Q2 & _). fold ret in B1, B2, Q1, Q2.
  set (b1 := nth a1 ret hdummy) in *. set (b2 := nth a2 ret hdummy) in *.
  unfold hkey, pkey in E1, E2. injection E1 as W1 H1 C1 V1. injection E2 as W2 H2 C2 V2.
  assert (HX : forall x, In x (pitems P1 ++ pitems P2) -> (x < nitems i)%nat).
  { intros x Hx. apply in_app_or in Hx. destruct Hx as [Hx|Hx]; [exact (pitems_lt i P1 K1 x Hx)|exact (pitems_lt i P2 K2 x Hx)]. }
  assert (HX2 : forall x, In x (pitems P2 ++ pitems P1) -> (x < nitems i)%nat).
  { intros x Hx. apply HX. apply in_app_or in Hx. apply in_or_app. tauto. }
  assert (HWI2 : within_copies i (pitems P2 ++ pitems P1)).
  { intros x Hx. rewrite copies_app, Z.add_comm, <- copies_app. apply HWI. apply in_app_or in Hx. apply in_or_app. tauto. }
  assert (SYM : canon 0 (nitems i) (pitems P2 ++ pitems P1) = canon 0 (nitems i) (pitems P1 ++ pitems P2)).
  { apply canon_ext. intros j. rewrite !copies_app. lia. }
  assert (EPR : (pprofit i (mk P1 P2) == pprofit i P1 + pprofit i P2)%Q).
  { destruct HM as [[-> _]|[-> _]]; [apply pprofit_app|apply pprofit_app_h]. }
  assert (GEN : exists c, Covered st c /\ hkey c = pkey (mk P1 P2) /\ exists p, hb_priority c = Some p /\ (hs_best st < p)%Q).
  { destruct (le_lt_dec a2 a1) as [L|L].
    - exists (comb i rdp vert a1 a2 b1 b2).
      assert (HK : hkey (comb i rdp vert a1 a2 b1 b2) = pkey (mk P1 P2)).
      { unfold hkey, pkey. cbn [comb hb_w hb_h hb_copies hb_vertical]. rewrite W1, W2, H1, H2, C1, C2, Hct0.
        unfold pcopies. rewrite hmerge_canon. destruct HM as [[-> ->]|[-> ->]]; reflexivity. }
      split.
      + apply (oi_pairs _ _ HO vert a1 a2); [exact L|exact A1|]. fold ret b1 b2. rewrite C1, C2. unfold pcopies.
        apply hvalid_canon. apply (proj1 (within_ok i _ HX)). exact HWI.
      + split; [exact HK|].
        assert (KW : hb_w (comb i rdp vert a1 a2 b1 b2) = pw i 0 (mk P1 P2)) by exact (f_equal (fun k : HKey => fst (fst (fst k))) HK).
        assert (KH : hb_h (comb i rdp vert a1 a2 b1 b2) = ph i 0 (mk P1 P2)) by exact (f_equal (fun k : HKey => snd (fst (fst k))) HK).
        destruct (comb_prio vert ret _ _ a1 a2 b1 b2 B1 B2) as (pb & pc & _ & F & _ & _ & EPC); [rewrite KW; exact Hw|rewrite KH; exact Hh|].
        exists pc. split; [exact F|]. rewrite EPC, KW, KH. unfold pprio in HL. rewrite EPR in HL. lra.
    - exists (comb i rdp vert a2 a1 b2 b1).
      assert (HK : hkey (comb i rdp vert a2 a1 b2 b1) = pkey (mk P1 P2)).
      { unfold hkey, pkey. cbn [comb hb_w hb_h hb_copies hb_vertical]. rewrite W1, W2, H1, H2, C1, C2, Hct0.
        unfold pcopies. rewrite hmerge_canon, SYM.
        destruct HM as [[-> ->]|[-> ->]]; cbn [pw ph pitems pvert]; f_equal; f_equal; f_equal; lia. }
      split.
      + apply (oi_pairs _ _ HO vert a2 a1); [lia|exact A2|]. fold ret b1 b2. rewrite C1, C2. unfold pcopies.
        apply hvalid_canon. apply (proj1 (within_ok i _ HX2)). exact HWI2.
      + split; [exact HK|].
        assert (KW : hb_w (comb i rdp vert a2 a1 b2 b1) = pw i 0 (mk P1 P2)) by exact (f_equal (fun k : HKey => fst (fst (fst k))) HK).
        assert (KH : hb_h (comb i rdp vert a2 a1 b2 b1) = ph i 0 (mk P1 P2)) by exact (f_equal (fun k : HKey => snd (fst (fst k))) HK).
        destruct (comb_prio vert ret _ _ a2 a1 b2 b1 B2 B1) as (pb & pc & _ & F & _ & _ & EPC); [rewrite KW; exact Hw|rewrite KH; exact Hh|].
        exists pc. split; [exact F|]. rewrite EPC, KW, KH. unfold pprio in HL. rewrite EPR in HL. lra. }
  destruct GEN as (c & G1 & G2 & p & G3 & G4). rewrite <- G2. apply (end_covered st c p HO G1 G3 G4).
Qed.

Lemma all_returned : forall st, OInv nb st -> forall P, pok i P -> pw i 0 P <= W -> ph i 0 P <= HT -> within_copies i (pitems P) ->
  (hs_best st < pprio i W HT P)%Q ->
  exists a, (a < length (hs_returned st))%nat /\ hkey (nth a (hs_returned st) hdummy) = pkey P.
Proof.
  intros st HO. induction P as [j r|P1 IH1 P2 IH2|P1 IH1 P2 IH2]; intros HP Hw Hh HWI HL.
  - assert (Hc : 1 <= gi_copies (gitem i j)).
    { specialize (HWI j (or_introl eq_refl)). unfold copies_of in HWI. cbn [pitems count_occ] in HWI.
      destruct (Nat.eq_dec j j) as [_|N]; [|contradiction]. lia. }
    assert (G : forall r, pok i (PItem j r) -> pw i 0 (PItem j r) <= W -> ph i 0 (PItem j r) <= HT ->
      (hs_best st < pprio i W HT (PItem j r))%Q -> ~ (r = true /\ gi_w (gitem i j) = gi_h (gitem i j)) ->
      exists a, (a < length (hs_returned st))%nat /\ hkey (nth a (hs_returned st) hdummy) = pkey (PItem j r)).
    { clear r HP Hw Hh HWI HL. intros r HP Hw Hh HL NS.
      assert (OK : seed_ok i rdp j r).
      { destruct HP as [Hj Hr]. split; [exact Hj|]. split; [exact Hc|]. split; [exact Hr|]. split; [exact Hw|exact Hh]. }
      assert (HK : hkey (seed_block i rdp j r) = pkey (PItem j r)).
      { unfold hkey, pkey. cbn [seed_block hb_w hb_h hb_copies hb_vertical]. rewrite pcopies_item by (destruct HP; assumption). reflexivity. }
      pose proof (ppos i 0 ltac:(lia) (hi_items _ HI) _ HP) as [PPw PPh].
      destruct (rdp_val i W HT HW HH _ _ (conj PPw Hw) (conj PPh Hh)) as [E N].
      rewrite <- HK. eapply end_covered; [exact HO|apply (oi_seeds _ _ HO); [exact OK|exact NS]| |].
      - cbn [seed_block hb_priority]. cbn [pw ph] in E. rewrite E. reflexivity.
      - unfold pprio in HL. rewrite pprofit_item in HL. cbn [pw ph] in HL. lra. }
    destruct r; [|apply G; try assumption; intros [N _]; discriminate].
    destruct (Z.eq_dec (gi_w (gitem i j)) (gi_h (gitem i j))) as [E|N]; [|apply G; try assumption; intros [_ N2]; contradiction].
    assert (EK : pkey (PItem j true) = pkey (PItem j false)) by (unfold pkey; cbn [pw ph pvert]; rewrite E; reflexivity).
    rewrite EK. apply G.
    + destruct HP as [Hj _]. split; [exact Hj|discriminate].
    + cbn [pw] in *. lia.
    + cbn [ph] in *. lia.
    + unfold pprio in *. cbn [pw ph] in *. rewrite pprofit_item in *. rewrite E in *. exact HL.
    + intros [N2 _]. discriminate.
  - destruct HP as [K1 K2]. cbn [pitems] in HWI. destruct (within_app i _ _ HWI) as [WI1 WI2].
    pose proof (ppos i 0 ltac:(lia) (hi_items _ HI) _ K1) as [Q1 Q2]. pose proof (ppos i 0 ltac:(lia) (hi_items _ HI) _ K2) as [Q3 Q4].
    destruct (pprio_v i W HT HW HH (hi_items _ HI) P1 P2 K1 K2 Hw Hh) as [L1 L2]. pose proof Hw as Hw2. pose proof Hh as Hh2. cbn [pw ph] in Hw2, Hh2.
    apply (pairs_sym st P1 P2 PV true); try assumption; [left; auto|apply IH1|apply IH2]; try assumption; try lia; lra.
  - destruct HP as [K1 K2]. cbn [pitems] in HWI. destruct (within_app i _ _ HWI) as [WI1 WI2].
    pose proof (ppos i 0 ltac:(lia) (hi_items _ HI) _ K1) as [Q1 Q2]. pose proof (ppos i 0 ltac:(lia) (hi_items _ HI) _ K2) as [Q3 Q4].
    destruct (pprio_h i W HT HW HH (hi_items _ HI) P1 P2 K1 K2 Hw Hh) as [L1 L2]. pose proof Hw as Hw2. pose proof Hh as Hh2. cbn [pw ph] in Hw2, Hh2.
    apply (pairs_sym st P1 P2 PH false); try assumption; [right; auto|apply IH1|apply IH2]; try assumption; try lia; lra.
Qed.

Lemma run_optimal : forall fuel st, hrun i nb rdp init (fun _ => false) fuel = Some st ->
  forall xs, cut_from_plate i 0 (plate_w i) (plate_h i) xs -> within_copies i xs -> (items_profit i xs <= hs_best st)%Q.
Proof.
  intros fuel st E xs HX HWI. unfold hrun in E. pose proof (buckets_loop_opt fuel nb 0 _ _ E ltac:(lia) seeds_opt) as HO.
  destruct (plate_pat i 0 ltac:(lia) (plate_w i) (plate_h i) xs HX) as [->|(P & P1 & <- & P3 & P4)].
  - change (items_profit i []) with 0%Q. exact (si_best _ _ _ (oi_s _ _ HO)).
  - change (plate_w i) with W in P3. change (plate_h i) with HT in P4. fold (pprofit i P).
    destruct (Qlt_le_dec (hs_best st) (pprofit i P)) as [L|L]; [exfalso|exact L].
    pose proof (pprio_profit i W HT HW HH (hi_items _ HI) P P1 P3 P4) as PP.
    destruct (all_returned st HO P P1 P3 P4 HWI ltac:(lra)) as (a & A & EK).
    destruct (key_block st P a HO P1 A EK) as (_ & Q1 & Q2). rewrite Q1 in Q2. lra.
Qed.
End Opt.
