(** * Proofs about the common module. *)

From Coq Require Import Ascii String List ZArith QArith Qminmax Qabs Qpower Bool Lia Lqa Sorted Permutation Arith.
From Verif Require Import Common_Model Common_Spec.
Import ListNotations.
Open Scope Q_scope.

(** ** Boolean comparisons on Q *)

Lemma Qltb_lt : forall x y, Qltb x y = true <-> x < y.
Proof.
  intros x y. unfold Qltb. rewrite negb_true_iff.
  split; intro H.
  - apply Qnot_le_lt. intro H1. apply Qle_bool_iff in H1. congruence.
  - apply not_true_is_false. intro H1. apply Qle_bool_iff in H1.
    apply (Qlt_not_le _ _ H H1).
Qed.

Lemma Qltb_ge : forall x y, Qltb x y = false <-> y <= x.
Proof.
  intros x y. unfold Qltb. rewrite negb_false_iff. apply Qle_bool_iff.
Qed.

Lemma Qeq_bool_false : forall x y, Qeq_bool x y = false <-> ~ x == y.
Proof.
  intros x y. split; intro H.
  - apply Qeq_bool_neq. exact H.
  - apply not_true_is_false. intro H1. apply Qeq_bool_iff in H1. contradiction.
Qed.

Lemma tol_pos : 0 < tol.
Proof. reflexivity. Qed.

Lemma tol_lt1 : tol < 1.
Proof. reflexivity. Qed.

(** Characterisation of the profit comparator on non-negative values. *)
Lemma sgp_iff : forall v1 v2, 0 <= v1 -> 0 <= v2 ->
  (strictly_greater_profit v1 v2 = true <-> v2 < (1 - tol) * v1).
Proof.
  intros v1 v2 H1 H2. unfold strictly_greater_profit.
  pose proof tol_pos as Ht. pose proof tol_lt1 as Ht1.
  destruct (Qeq_bool v1 v2) eqn:E.
  - apply Qeq_bool_iff in E. split; [discriminate|]. intro H. exfalso. nra.
  - apply Qeq_bool_false in E.
    destruct (Q.max_spec v1 v2) as [[Hlt Hm]|[Hle Hm]].
    + assert (Hd : Qeq_bool (Qmax v1 v2) 0 = false)
        by (apply Qeq_bool_false; intro H0; rewrite Hm in H0; lra).
      rewrite Hd. simpl. rewrite Qltb_lt.
      split; intro H; exfalso.
      * rewrite Hm in H.
        assert (H0 : (v1 - v2) / v2 <= 0).
        { apply Qle_shift_div_r; lra. }
        lra.
      * nra.
    + assert (Hpos : 0 < v1) by (destruct (Qlt_le_dec 0 v1); [assumption|exfalso; apply E; lra]).
      assert (Hd : Qeq_bool (Qmax v1 v2) 0 = false)
        by (apply Qeq_bool_false; intro H0; rewrite Hm in H0; lra).
      rewrite Hd. simpl. rewrite Qltb_lt, Hm.
      split; intro H.
      * assert (H0 : tol * v1 < v1 - v2).
        { setoid_replace (v1 - v2) with ((v1 - v2) / v1 * v1) by (field; lra).
          apply Qmult_lt_compat_r; assumption. }
        lra.
      * apply Qlt_shift_div_l; lra.
Qed.

(** Characterisation of the cost comparator on non-negative values. *)
Lemma sgc_iff : forall v1 v2, 0 <= v1 -> 0 <= v2 ->
  (strictly_greater_cost v1 v2 = true
   <-> (v2 == 0 /\ tol < v1) \/ (0 < v2 /\ (1 + tol) * v2 < v1)).
Proof.
  intros v1 v2 H1 H2. unfold strictly_greater_cost.
  pose proof tol_pos as Ht. pose proof tol_lt1 as Ht1.
  destruct (Qeq_bool v1 v2) eqn:E.
  - apply Qeq_bool_iff in E. split; [discriminate|]. intros [[H H0]|[H H0]]; exfalso; nra.
  - apply Qeq_bool_false in E.
    destruct (Q.min_spec v1 v2) as [[Hlt Hm]|[Hle Hm]].
    + (* v1 < v2 *)
      split; [|intros [[H H0]|[H H0]]; exfalso; nra].
      destruct (negb (Qeq_bool (Qmin v1 v2) 0)) eqn:Hd; rewrite Qltb_lt; intro H; exfalso.
      * rewrite negb_true_iff in Hd. apply Qeq_bool_false in Hd.
        assert (0 < v1) by (destruct (Qlt_le_dec 0 v1); [assumption|exfalso; apply Hd; rewrite Hm; lra]).
        rewrite Hm in H.
        assert (H3 : (v1 - v2) / v1 <= 0) by (apply Qle_shift_div_r; lra). lra.
      * lra.
    + destruct (negb (Qeq_bool (Qmin v1 v2) 0)) eqn:Hd; rewrite Qltb_lt.
      * rewrite negb_true_iff in Hd. apply Qeq_bool_false in Hd.
        assert (Hp : 0 < v2) by (destruct (Qlt_le_dec 0 v2); [assumption|exfalso; apply Hd; rewrite Hm; lra]).
        rewrite Hm. split; intro H.
        -- right. split; [assumption|].
           assert (H0 : tol * v2 < v1 - v2).
           { setoid_replace (v1 - v2) with ((v1 - v2) / v2 * v2) by (field; lra).
             apply Qmult_lt_compat_r; assumption. }
           lra.
        -- destruct H as [[H H0]|[H H0]]; [lra|]. apply Qlt_shift_div_l; lra.
      * rewrite negb_false_iff in Hd. apply Qeq_bool_iff in Hd. rewrite Hm in Hd.
        split; intro H.
        -- left. split; lra.
        -- destruct H as [[H H0]|[H H0]]; lra.
Qed.

Lemma sgp_irrefl : forall v, strictly_greater_profit v v = false.
Proof.
  intro v. unfold strictly_greater_profit.
  rewrite (proj2 (Qeq_bool_iff v v) (Qeq_refl v)). reflexivity.
Qed.

Lemma sgc_irrefl : forall v, strictly_greater_cost v v = false.
Proof.
  intro v. unfold strictly_greater_cost.
  rewrite (proj2 (Qeq_bool_iff v v) (Qeq_refl v)). reflexivity.
Qed.

Lemma sgp_sound : forall v1 v2, 0 <= v1 -> 0 <= v2 ->
  strictly_greater_profit v1 v2 = true -> v2 < v1.
Proof.
  intros v1 v2 H1 H2 H. apply sgp_iff in H; [|assumption..].
  pose proof tol_pos. nra.
Qed.

Lemma sgc_sound : forall v1 v2, 0 <= v1 -> 0 <= v2 ->
  strictly_greater_cost v1 v2 = true -> v2 < v1.
Proof.
  intros v1 v2 H1 H2 H. apply sgc_iff in H; [|assumption..].
  pose proof tol_pos as Htp. destruct H as [[? ?]|[? ?]]; nra.
Qed.

Lemma sgp_trans : forall a b c, 0 <= a -> 0 <= b -> 0 <= c ->
  strictly_greater_profit a b = true -> strictly_greater_profit b c = true ->
  strictly_greater_profit a c = true.
Proof.
  intros a b c Ha Hb Hc H1 H2.
  apply sgp_iff in H1; [|assumption..]. apply sgp_iff in H2; [|assumption..].
  apply sgp_iff; [assumption..|]. pose proof tol_pos. nra.
Qed.

Lemma sgc_trans : forall a b c, 0 <= a -> 0 <= b -> 0 <= c ->
  strictly_greater_cost a b = true -> strictly_greater_cost b c = true ->
  strictly_greater_cost a c = true.
Proof.
  intros a b c Ha Hb Hc H1 H2.
  apply sgc_iff in H1; [|assumption..]. apply sgc_iff in H2; [|assumption..].
  apply sgc_iff; [assumption..|]. pose proof tol_pos.
  destruct H1 as [[? ?]|[? ?]]; destruct H2 as [[? ?]|[? ?]].
  - lra.
  - lra.
  - left. split; nra.
  - right. split; nra.
Qed.

(** ** Powers of two *)

(** [2^k] for an integer exponent. *)
Lemma pow2_one : is_power_of_two 1.
Proof. exists 0%Z. reflexivity. Qed.

Lemma pow2_double : forall q, is_power_of_two q -> is_power_of_two (q * 2).
Proof.
  intros q [k Hk]. exists (k + 1)%Z. rewrite Qpower_plus by discriminate. rewrite Hk. reflexivity.
Qed.

Lemma pow2_half : forall q, is_power_of_two q -> is_power_of_two (q / 2).
Proof.
  intros q [k Hk]. exists (k + -1)%Z. rewrite Qpower_plus by discriminate. rewrite Hk. reflexivity.
Qed.

Lemma double_while_lesser_spec : forall n res v r,
  double_while_lesser n res v = Some r ->
  is_power_of_two res -> 0 < res -> res <= v ->
  is_power_of_two r /\ r <= v /\ v <= r * 2.
Proof.
  induction n as [|n IH]; intros res v r H Hp Hpos Hle; simpl in H.
  - destruct (Qltb (res * 2) v) eqn:E; [discriminate|].
    injection H as <-. apply Qltb_ge in E. auto.
  - destruct (Qltb (res * 2) v) eqn:E.
    + apply Qltb_lt in E. apply (IH _ _ _ H); [apply pow2_double; assumption|lra|lra].
    + injection H as <-. apply Qltb_ge in E. auto.
Qed.

Lemma halve_while_greater_spec : forall n res v r,
  halve_while_greater n res v = Some r ->
  is_power_of_two res -> 0 < v -> v < res ->
  is_power_of_two r /\ r <= v /\ v < r * 2.
Proof.
  induction n as [|n IH]; intros res v r H Hp Hpos Hlt; simpl in H.
  - rewrite (proj2 (Qltb_lt _ _) Hlt) in H. discriminate.
  - rewrite (proj2 (Qltb_lt _ _) Hlt) in H.
    destruct (Qlt_le_dec v (res / 2)) as [Hc|Hc].
    + apply (IH _ _ _ H); [apply pow2_half; assumption|assumption|assumption].
    + assert (Hd : res / 2 * 2 == res) by field.
      destruct n as [|n].
      * simpl in H. rewrite (proj2 (Qltb_ge _ _) Hc) in H. injection H as <-.
        split; [apply pow2_half; assumption|]. split; lra.
      * simpl in H. rewrite (proj2 (Qltb_ge _ _) Hc) in H. injection H as <-.
        split; [apply pow2_half; assumption|]. split; lra.
Qed.

Lemma double_until_greater_spec : forall n res v r,
  double_until_greater n res v = Some r ->
  is_power_of_two res -> 0 < res -> res < v ->
  is_power_of_two r /\ v <= r /\ r < v * 2.
Proof.
  induction n as [|n IH]; intros res v r H Hp Hpos Hlt; simpl in H.
  - rewrite (proj2 (Qltb_lt _ _) Hlt) in H. discriminate.
  - rewrite (proj2 (Qltb_lt _ _) Hlt) in H.
    destruct (Qlt_le_dec (res * 2) v) as [Hc|Hc].
    + apply (IH _ _ _ H); [apply pow2_double; assumption|lra|assumption].
    + assert (Hr : r = res * 2)
        by (destruct n as [|n]; simpl in H; rewrite (proj2 (Qltb_ge _ _) Hc) in H; injection H; auto).
      subst r. split; [apply pow2_double; assumption|]. split; lra.
Qed.

Lemma halve_until_lesser_spec : forall n res v r,
  halve_until_lesser n res v = Some r ->
  is_power_of_two res -> 0 < v -> v <= res ->
  is_power_of_two r /\ v <= r /\ r <= v * 2.
Proof.
  induction n as [|n IH]; intros res v r H Hp Hpos Hle; simpl in H.
  - destruct (Qltb v (res / 2)) eqn:E; [discriminate|].
    injection H as <-. apply Qltb_ge in E.
    assert (Hd : res / 2 * 2 == res) by field. split; [assumption|]. split; lra.
  - destruct (Qltb v (res / 2)) eqn:E.
    + apply Qltb_lt in E. apply (IH _ _ _ H); [apply pow2_half; assumption|assumption|lra].
    + injection H as <-. apply Qltb_ge in E.
      assert (Hd : res / 2 * 2 == res) by field. split; [assumption|]. split; lra.
Qed.

(** Termination: some number of steps is enough. *)

Lemma pow2_unbounded : forall v : Q, exists n : nat, v < inject_Z (2 ^ Z.of_nat n).
Proof.
  intros v. exists (Z.to_nat (Z.abs (Qnum v) + 1)).
  rewrite Z2Nat.id by lia.
  assert (H : (Z.abs (Qnum v) + 1 < 2 ^ (Z.abs (Qnum v) + 1))%Z).
  { apply Z.pow_gt_lin_r; lia. }
  unfold Qlt, inject_Z. simpl.
  destruct v as [n d]. simpl in *. nia.
Qed.

Lemma double_while_lesser_total : forall n res v, 0 < res ->
  v <= res * inject_Z (2 ^ Z.of_nat (S n)) ->
  exists r, double_while_lesser n res v = Some r.
Proof.
  induction n as [|n IH]; intros res v Hpos Hv.
  - simpl. assert (E : Qltb (res * 2) v = false).
    { apply Qltb_ge. exact Hv. }
    rewrite E. eauto.
  - simpl. destruct (Qltb (res * 2) v) eqn:E; [|eauto].
    apply IH; [lra|].
    rewrite Nat2Z.inj_succ, Z.pow_succ_r, inject_Z_mult in Hv by lia.
    rewrite <- Qmult_assoc. exact Hv.
Qed.

Lemma double_until_greater_total : forall n res v, 0 < res ->
  v <= res * inject_Z (2 ^ Z.of_nat n) ->
  exists r, double_until_greater n res v = Some r.
Proof.
  induction n as [|n IH]; intros res v Hpos Hv.
  - simpl in *. assert (E : Qltb res v = false).
    { apply Qltb_ge. setoid_replace res with (res * inject_Z 1) by (unfold inject_Z; ring). exact Hv. }
    rewrite E. eauto.
  - simpl. destruct (Qltb res v) eqn:E; [|eauto].
    apply IH; [lra|].
    rewrite Nat2Z.inj_succ, Z.pow_succ_r, inject_Z_mult in Hv by lia.
    rewrite <- Qmult_assoc. exact Hv.
Qed.

Lemma halve_while_greater_total : forall n res v,
  res <= v * inject_Z (2 ^ Z.of_nat n) ->
  exists r, halve_while_greater n res v = Some r.
Proof.
  induction n as [|n IH]; intros res v Hv.
  - simpl in *. assert (E : Qltb v res = false).
    { apply Qltb_ge. setoid_replace v with (v * inject_Z 1) by (unfold inject_Z; ring). exact Hv. }
    rewrite E. eauto.
  - simpl. destruct (Qltb v res) eqn:E; [|eauto].
    apply IH.
    rewrite Nat2Z.inj_succ, Z.pow_succ_r, inject_Z_mult in Hv by lia.
    assert (Hd : res / 2 * 2 == res) by field.
    set (p := inject_Z (2 ^ Z.of_nat n)) in *.
    change (inject_Z 2) with 2 in Hv.
    nra.
Qed.

Lemma halve_until_lesser_total : forall n res v,
  res <= v * inject_Z (2 ^ Z.of_nat (S n)) ->
  exists r, halve_until_lesser n res v = Some r.
Proof.
  induction n as [|n IH]; intros res v Hv.
  - simpl in *. assert (Hd : res / 2 * 2 == res) by field.
    assert (E : Qltb v (res / 2) = false).
    { apply Qltb_ge. change (inject_Z 2) with 2 in Hv. change (inject_Z (Z.pow_pos 2 1)) with 2 in Hv. lra. }
    rewrite E. eauto.
  - simpl. destruct (Qltb v (res / 2)) eqn:E; [|eauto].
    apply IH.
    rewrite Nat2Z.inj_succ, Z.pow_succ_r, inject_Z_mult in Hv by lia.
    assert (Hd : res / 2 * 2 == res) by field.
    set (p := inject_Z (2 ^ Z.of_nat (S n))) in *.
    change (inject_Z 2) with 2 in Hv.
    nra.
Qed.

Lemma pos_scaled_unbounded : forall a v : Q, 0 < v ->
  exists n : nat, a <= v * inject_Z (2 ^ Z.of_nat n).
Proof.
  intros a v Hv. destruct (pow2_unbounded (a / v)) as [n Hn]. exists n.
  apply Qlt_le_weak in Hn.
  setoid_replace a with (v * (a / v)) by (field; lra).
  apply Qmult_le_l; assumption.
Qed.

Lemma le_pow_succ : forall a v n, 0 <= v ->
  a <= v * inject_Z (2 ^ Z.of_nat n) -> a <= v * inject_Z (2 ^ Z.of_nat (S n)).
Proof.
  intros a v n Hv H. rewrite Nat2Z.inj_succ, Z.pow_succ_r, inject_Z_mult by lia.
  assert (0 < inject_Z (2 ^ Z.of_nat n)).
  { unfold Qlt. simpl. assert (0 < 2 ^ Z.of_nat n)%Z by (apply Z.pow_pos_nonneg; lia). lia. }
  change (inject_Z 2) with 2. nra.
Qed.

Lemma largest_pow2_spec : forall v, 0 < v ->
  exists n r, largest_power_of_two_lesser_or_equal n v = Some r.
Proof.
  intros v Hv. unfold largest_power_of_two_lesser_or_equal.
  destruct (Qltb v 1) eqn:E.
  - destruct (pos_scaled_unbounded 1 v Hv) as [n Hn]. exists n.
    apply halve_while_greater_total. exact Hn.
  - destruct (pos_scaled_unbounded v 1 eq_refl) as [n Hn]. exists n.
    apply double_while_lesser_total; [reflexivity|]. apply le_pow_succ; [discriminate|exact Hn].
Qed.

Lemma smallest_pow2_spec : forall v, 0 < v ->
  exists n r, smallest_power_of_two_greater_or_equal n v = Some r.
Proof.
  intros v Hv. unfold smallest_power_of_two_greater_or_equal.
  destruct (Qltb 1 v) eqn:E.
  - destruct (pos_scaled_unbounded v 1 eq_refl) as [n Hn]. exists n.
    apply double_until_greater_total; [reflexivity|exact Hn].
  - destruct (pos_scaled_unbounded 1 v Hv) as [n Hn]. exists n.
    apply halve_until_lesser_total. apply le_pow_succ; [lra|exact Hn].
Qed.

Lemma largest_pow2_value : forall n v r, 0 < v ->
  largest_power_of_two_lesser_or_equal n v = Some r ->
  is_power_of_two r /\ r <= v /\ v <= r * 2.
Proof.
  intros n v r Hv. unfold largest_power_of_two_lesser_or_equal.
  destruct (Qltb v 1) eqn:E; intro H.
  - apply Qltb_lt in E.
    destruct (halve_while_greater_spec _ _ _ _ H pow2_one Hv E) as (? & ? & ?).
    repeat split; try assumption. lra.
  - apply Qltb_ge in E.
    exact (double_while_lesser_spec _ _ _ _ H pow2_one eq_refl E).
Qed.

Lemma smallest_pow2_value : forall n v r, 0 < v ->
  smallest_power_of_two_greater_or_equal n v = Some r ->
  is_power_of_two r /\ v <= r /\ r <= v * 2.
Proof.
  intros n v r Hv. unfold smallest_power_of_two_greater_or_equal.
  destruct (Qltb 1 v) eqn:E; intro H.
  - apply Qltb_lt in E.
    destruct (double_until_greater_spec _ _ _ _ H pow2_one eq_refl E) as (? & ? & ?).
    repeat split; try assumption. lra.
  - apply Qltb_ge in E.
    exact (halve_until_lesser_spec _ _ _ _ H pow2_one Hv E).
Qed.

(** ** Pool *)

Section PoolProof.

Variable Sol : Type.
Variable lt : Sol -> Sol -> bool.
Variable copies : Sol -> list Z.

Hypothesis Hswo : StrictWeakOrder Sol lt.

Local Notation swo_irrefl := (swo_irrefl Sol lt).
Local Notation swo_trans := (swo_trans Sol lt).
Local Notation swo_neg := (swo_neg Sol lt).
Hypothesis Hlen : forall a b, length (copies a) = length (copies b).

Notation cmp := (entry_cmp Sol lt copies).

Lemma lt_asym : forall a b, lt a b = true -> lt b a = false.
Proof.
  intros a b H. destruct (lt b a) eqn:E; [|reflexivity].
  pose proof (swo_trans Hswo _ _ _ H E) as H1. rewrite (swo_irrefl Hswo) in H1. discriminate.
Qed.

Lemma lex_irrefl : forall l, lex_lt l l = false.
Proof.
  induction l as [|x l IH]; unfold lex_lt; [reflexivity|]. fold lex_lt.
  rewrite Z.eqb_refl. exact IH.
Qed.

Lemma lex_cons : forall x a y b,
  lex_lt (x :: a) (y :: b) = if Z.eqb x y then lex_lt a b else Z.ltb x y.
Proof. reflexivity. Qed.

Lemma lex_trans : forall a b c, lex_lt a b = true -> lex_lt b c = true -> lex_lt a c = true.
Proof.
  induction a as [|x a IH]; intros [|y b] [|z c] H1 H2; try discriminate.
  rewrite lex_cons in *.
  destruct (Z.eqb_spec x y), (Z.eqb_spec y z), (Z.eqb_spec x z); try lia; eauto;
    try (apply Z.ltb_lt in H1); try (apply Z.ltb_lt in H2); try apply Z.ltb_lt; lia.
Qed.

Lemma lex_total : forall a b, length a = length b ->
  lex_lt a b = false -> lex_lt b a = false -> a = b.
Proof.
  induction a as [|x a IH]; intros [|y b] Hl H1 H2; try discriminate; [reflexivity|].
  rewrite lex_cons in *. rewrite Z.eqb_sym in H2.
  destruct (Z.eqb_spec x y).
  - subst. f_equal. apply IH; auto.
  - apply Z.ltb_ge in H1. apply Z.ltb_ge in H2. lia.
Qed.

Lemma cmp_irrefl : forall a, cmp a a = false.
Proof.
  intro a. unfold entry_cmp. rewrite (swo_irrefl Hswo). apply lex_irrefl.
Qed.

Lemma cmp_not_worse : forall a b, cmp a b = true -> lt a b = false.
Proof. intros a b. unfold entry_cmp. destruct (lt a b); [discriminate|reflexivity]. Qed.

Lemma cmp_trans : forall a b c, cmp a b = true -> cmp b c = true -> cmp a c = true.
Proof.
  intros a b c. unfold entry_cmp. intros H1 H2.
  destruct (lt a b) eqn:Eab; [discriminate|].
  destruct (lt b c) eqn:Ebc; [discriminate|].
  rewrite (swo_neg Hswo _ _ _ Eab Ebc).
  destruct (lt c a) eqn:Eca; [reflexivity|].
  assert (Eba : lt b a = false).
  { apply (swo_neg Hswo _ c); [|exact Eca]. exact Ebc. }
  assert (Ecb : lt c b = false) by (apply (swo_neg Hswo _ a); assumption).
  rewrite Eba in H1. rewrite Ecb in H2. eapply lex_trans; eassumption.
Qed.

(** Two entries neither of which is before the other tie in quality. *)
Lemma cmp_equiv : forall a b, cmp a b = false -> cmp b a = false ->
  lt a b = false /\ lt b a = false /\
  (length (copies a) = length (copies b) -> copies a = copies b).
Proof.
  intros a b. unfold entry_cmp. intros H1 H2.
  destruct (lt a b) eqn:Eab, (lt b a) eqn:Eba; try discriminate.
  - pose proof (lt_asym _ _ Eab). congruence.
  - repeat split; try reflexivity. intro Hl. apply lex_total; assumption.
Qed.

Lemma cmp_equiv_trans : forall a b c, cmp a b = false -> cmp b a = false ->
  cmp b c = false -> cmp c b = false -> cmp a c = false.
Proof.
  intros a b c H1 H2 H3 H4.
  destruct (cmp_equiv _ _ H1 H2) as (A1 & A2 & A3).
  destruct (cmp_equiv _ _ H3 H4) as (B1 & B2 & B3).
  unfold entry_cmp.
  rewrite (swo_neg Hswo _ _ _ A1 B1), (swo_neg Hswo _ _ _ B2 A2).
  rewrite (A3 (Hlen _ _)), (B3 (Hlen _ _)). apply lex_irrefl.
Qed.

Notation sorted := (StronglySorted (fun a b => cmp a b = true)).

Lemma set_insert_in : forall s l l', set_insert Sol lt copies s l = Some l' ->
  forall x, In x l' <-> x = s \/ In x l.
Proof.
  induction l as [|y l IH]; simpl; intros l' H x.
  - injection H as <-. simpl. intuition.
  - destruct (cmp s y) eqn:E1.
    + injection H as <-. simpl. intuition.
    + destruct (cmp y s) eqn:E2; [|discriminate].
      destruct (set_insert Sol lt copies s l) as [l''|]; [|discriminate].
      injection H as <-. simpl. rewrite (IH _ eq_refl). intuition.
Qed.

Lemma set_insert_length : forall s l l', set_insert Sol lt copies s l = Some l' ->
  length l' = S (length l).
Proof.
  induction l as [|y l IH]; simpl; intros l' H.
  - injection H as <-. reflexivity.
  - destruct (cmp s y); [injection H as <-; reflexivity|].
    destruct (cmp y s); [|discriminate].
    destruct (set_insert Sol lt copies s l) as [l''|]; [|discriminate].
    injection H as <-. simpl. f_equal. auto.
Qed.

Lemma set_insert_sorted : forall s l l', set_insert Sol lt copies s l = Some l' ->
  sorted l -> sorted l'.
Proof.
  induction l as [|y l IH]; simpl; intros l' H Hs.
  - injection H as <-. repeat constructor.
  - destruct (cmp s y) eqn:E1.
    + injection H as <-. constructor; [assumption|].
      constructor; [assumption|].
      apply StronglySorted_inv in Hs. destruct Hs as [_ Hf].
      eapply Forall_impl; [|exact Hf]. intros a Ha. eapply cmp_trans; eassumption.
    + destruct (cmp y s) eqn:E2; [|discriminate].
      destruct (set_insert Sol lt copies s l) as [l''|] eqn:Ei; [|discriminate].
      injection H as <-. apply StronglySorted_inv in Hs. destruct Hs as [Hs Hf].
      constructor; [auto|].
      apply Forall_forall. intros a Ha. apply (set_insert_in _ _ _ Ei) in Ha.
      destruct Ha as [->|Ha]; [assumption|].
      rewrite Forall_forall in Hf. auto.
Qed.

Lemma set_insert_none : forall s l, set_insert Sol lt copies s l = None ->
  exists e, In e l /\ cmp s e = false /\ cmp e s = false.
Proof.
  induction l as [|y l IH]; simpl; intro H; [discriminate|].
  destruct (cmp s y) eqn:E1; [discriminate|].
  destruct (cmp y s) eqn:E2.
  - destruct (set_insert Sol lt copies s l); [discriminate|].
    destruct IH as (e & ? & ? & ?); [reflexivity|]. exists e. auto.
  - exists y. auto.
Qed.

Lemma removelast_app_last : forall (l : list Sol) d, l <> [] -> removelast l ++ [last l d] = l.
Proof. intros l d H. symmetry. apply app_removelast_last. exact H. Qed.

Lemma sorted_app : forall (l1 l2 : list Sol), sorted (l1 ++ l2) ->
  sorted l1 /\ sorted l2 /\ (forall a b, In a l1 -> In b l2 -> cmp a b = true).
Proof.
  induction l1 as [|x l1 IH]; simpl; intros l2 H.
  - split; [constructor|]. split; [assumption|]. intros a b [].
  - apply StronglySorted_inv in H. destruct H as [Hs Hf].
    destruct (IH _ Hs) as (H1 & H2 & H3).
    rewrite Forall_forall in Hf.
    split; [|split]; [constructor; [assumption|]|assumption|].
    + apply Forall_forall. intros a Ha. apply Hf. apply in_or_app. auto.
    + intros a b [->|Ha] Hb; [apply Hf; apply in_or_app; auto|auto].
Qed.

Lemma sorted_removelast : forall l, sorted l -> l <> [] -> forall d,
  sorted (removelast l) /\ forall a, In a (removelast l) -> cmp a (last l d) = true.
Proof.
  intros l Hs Hn d. rewrite <- (removelast_app_last l d Hn) in Hs.
  apply sorted_app in Hs. destruct Hs as (H1 & _ & H3). split; [assumption|].
  intros a Ha. apply H3; [assumption|left; reflexivity].
Qed.

Lemma sorted_head : forall l s e, sorted l -> In e l -> lt (hd s l) e = false.
Proof.
  intros [|x l] s e Hs He; [destruct He|]. simpl.
  destruct He as [->|He]; [apply (swo_irrefl Hswo)|].
  apply StronglySorted_inv in Hs. destruct Hs as [_ Hf]. rewrite Forall_forall in Hf.
  apply cmp_not_worse. auto.
Qed.

Lemma in_last : forall (l : list Sol) d, l <> [] -> In (last l d) l.
Proof.
  intros l d H. rewrite <- (removelast_app_last l d H) at 2. apply in_or_app. right. left. reflexivity.
Qed.

Lemma sorted_last : forall l d e, sorted l -> In e l -> lt e (last l d) = false.
Proof.
  intros l d e Hs He.
  assert (Hn : l <> []) by (intro; subst; destruct He).
  destruct (sorted_removelast l Hs Hn d) as [_ H].
  rewrite <- (removelast_app_last l d Hn) in He. apply in_app_or in He.
  destruct He as [He|[He|[]]].
  - apply cmp_not_worse. auto.
  - rewrite He. apply (swo_irrefl Hswo).
Qed.

(** The invariant of a pool that was offered the solutions [seen]. *)
Record pool_inv (seen : list Sol) (p : Pool Sol) : Prop := {
  pi_size : (1 <= length (pool_solutions Sol p) <= pool_size_max Sol p)%nat;
  pi_sorted : sorted (pool_solutions Sol p);
  pi_best : pool_best Sol p = hd (pool_best Sol p) (pool_solutions Sol p);
  pi_worst : pool_worst Sol p = last (pool_solutions Sol p) (pool_worst Sol p);
  pi_from : forall e, In e (pool_solutions Sol p) -> In e seen;
  pi_keep : forall s, In s seen ->
    (exists e, In e (pool_solutions Sol p) /\ cmp s e = false /\ cmp e s = false)
    \/ (length (pool_solutions Sol p) = pool_size_max Sol p /\
        forall e, In e (pool_solutions Sol p) -> lt e s = false)
}.

Lemma pool_new_inv : forall n empty, (1 <= n)%nat ->
  pool_inv [empty] (pool_new Sol n empty).
Proof.
  intros n empty Hn. constructor; simpl.
  - lia.
  - repeat constructor.
  - reflexivity.
  - reflexivity.
  - auto.
  - intros s [->|[]]. left. exists s. rewrite cmp_irrefl. auto.
Qed.

Lemma hd_indep : forall (l : list Sol) d d', l <> [] -> hd d l = hd d' l.
Proof. intros [|x l] d d' H; [congruence|reflexivity]. Qed.

Lemma last_indep : forall (l : list Sol) d d', l <> [] -> last l d = last l d'.
Proof.
  intros l d d' H. destruct l as [|x l]; [congruence|].
  revert x H. induction l as [|y l IH]; intros x H; [reflexivity|].
  change (last (y :: l) d = last (y :: l) d'). apply IH. discriminate.
Qed.

Lemma pool_add_inv : forall seen p s, pool_inv seen p ->
  pool_inv (s :: seen) (snd (pool_add Sol lt copies p s)).
Proof.
  intros seen p s [Hsz Hso Hb Hw Hfr Hk].
  unfold pool_add.
  destruct (Nat.leb (pool_size_max Sol p) (length (pool_solutions Sol p))
            && negb (lt (pool_worst Sol p) s)) eqn:Egate; simpl.
  - apply andb_true_iff in Egate. destruct Egate as [E1 E2].
    apply Nat.leb_le in E1. apply negb_true_iff in E2.
    constructor; auto.
    + intros e He. right. auto.
    + intros s' [<-|Hs'].
      * right. split; [lia|]. intros e He.
        apply (swo_neg Hswo _ (pool_worst Sol p)); [|assumption].
        rewrite Hw. apply sorted_last; assumption.
      * auto.
  - destruct (set_insert Sol lt copies s (pool_solutions Sol p)) as [l|] eqn:Ei; simpl.
    + pose proof (set_insert_in _ _ _ Ei) as Hin.
      pose proof (set_insert_length _ _ _ Ei) as Hlenl.
      pose proof (set_insert_sorted _ _ _ Ei Hso) as Hsl.
      assert (Hln : l <> []) by (intro; subst; discriminate).
      destruct (Nat.ltb (pool_size_max Sol p) (length l)) eqn:El.
      * (* the last entry is erased *)
        apply Nat.ltb_lt in El.
        assert (Hfull : length (pool_solutions Sol p) = pool_size_max Sol p) by lia.
        pose proof (removelast_app_last l s Hln) as Hrl.
        assert (Hlen' : length (removelast l) = pool_size_max Sol p).
        { assert (H := f_equal (@length Sol) Hrl). rewrite app_length in H. simpl in H. lia. }
        assert (Hrn : removelast l <> []) by (intro H; rewrite H in Hlen'; simpl in Hlen'; lia).
        destruct (sorted_removelast l Hsl Hln s) as [Hsr Hlast].
        constructor; simpl.
        -- lia.
        -- assumption.
        -- apply hd_indep; assumption.
        -- apply last_indep; assumption.
        -- intros e He. assert (In e l) by (rewrite <- Hrl; apply in_or_app; auto).
           apply Hin in H. destruct H as [->|H]; [left; reflexivity|right; auto].
        -- assert (Hev : forall e, In e l ->
              (exists e', In e' (removelast l) /\ cmp e e' = false /\ cmp e' e = false)
              \/ (forall e', In e' (removelast l) -> lt e' e = false)).
           { intros e He. rewrite <- Hrl in He. apply in_app_or in He.
             destruct He as [He|[He|[]]].
             - left. exists e. rewrite cmp_irrefl. auto.
             - right. subst e. intros e' He'. apply cmp_not_worse. auto. }
           intros s' Hs'.
           assert (Hc : (exists e, In e l /\ cmp s' e = false /\ cmp e s' = false)
              \/ (forall e, In e (pool_solutions Sol p) -> lt e s' = false)).
           { destruct Hs' as [<-|Hs'].
             - left. exists s. rewrite cmp_irrefl. split; [apply Hin; auto|auto].
             - destruct (Hk _ Hs') as [(e & He & Hc1 & Hc2)|[_ Hall]].
               + left. exists e. split; [apply Hin; auto|auto].
               + right. exact Hall. }
           destruct Hc as [(e & He & Hc1 & Hc2)|Hall].
           ++ destruct (cmp_equiv _ _ Hc1 Hc2) as (Hl1 & Hl2 & _).
              destruct (Hev e He) as [(e' & He' & Hd1 & Hd2)|Hall].
              ** left. exists e'. split; [assumption|].
                 split; eapply cmp_equiv_trans; eassumption.
              ** right. split; [assumption|]. intros e' He'.
                 apply (swo_neg Hswo _ e); [auto|assumption].
           ++ destruct (Nat.eq_dec 0 1) as [?|_]; [discriminate|].
              right. split; [assumption|]. intros e' He'.
              assert (H : In e' l) by (rewrite <- Hrl; apply in_or_app; auto).
              apply Hin in H. destruct H as [->|H]; [|auto].
              (* e' = s: s is strictly better than the old worst *)
              apply andb_false_iff in Egate. destruct Egate as [E|E].
              { apply Nat.leb_gt in E. lia. }
              apply negb_false_iff in E.
              destruct (lt s s') eqn:Es; [|reflexivity].
              pose proof (swo_trans Hswo _ _ _ E Es) as Hx.
              rewrite Hall in Hx; [discriminate|].
              rewrite Hw. apply in_last. intro H0. rewrite H0 in Hsz. simpl in Hsz. lia.
      * apply Nat.ltb_ge in El.
        constructor; simpl.
        -- lia.
        -- assumption.
        -- apply hd_indep; assumption.
        -- apply last_indep; assumption.
        -- intros e He. apply Hin in He. destruct He as [->|He]; [left; reflexivity|right; auto].
        -- intros s' [<-|Hs'].
           ++ left. exists s. rewrite cmp_irrefl. split; [apply Hin; auto|auto].
           ++ destruct (Hk _ Hs') as [(e & He & Hc1 & Hc2)|[Hfull _]].
              ** left. exists e. split; [apply Hin; auto|auto].
              ** lia.
    + constructor; auto.
      * intros e He. right. auto.
      * intros s' [<-|Hs']; [|auto]. left.
        destruct (set_insert_none _ _ Ei) as (e & He & H1 & H2). exists e. auto.
Qed.

Lemma pool_run_inv : forall h seen p, pool_inv seen p ->
  pool_inv (rev h ++ seen) (pool_run Sol lt copies p h).
Proof.
  induction h as [|s h IH]; simpl; intros seen p H; [assumption|].
  rewrite <- app_assoc. simpl. apply IH. apply pool_add_inv. assumption.
Qed.

Lemma pool_add_size_max : forall p s,
  pool_size_max Sol (snd (pool_add Sol lt copies p s)) = pool_size_max Sol p.
Proof.
  intros p s. unfold pool_add. destruct (_ && _); [reflexivity|].
  destruct (set_insert Sol lt copies s (pool_solutions Sol p)); reflexivity.
Qed.

Lemma pool_run_size_max : forall h p,
  pool_size_max Sol (pool_run Sol lt copies p h) = pool_size_max Sol p.
Proof.
  induction h as [|s h IH]; simpl; intro p; [reflexivity|].
  rewrite IH. apply pool_add_size_max.
Qed.

Lemma pool_inv_best : forall seen p s, pool_inv seen p -> In s seen ->
  lt (pool_best Sol p) s = false.
Proof.
  intros seen p s [Hsz Hso Hb Hw Hfr Hk] Hs.
  assert (Hn : pool_solutions Sol p <> []) by (intro H; rewrite H in Hsz; simpl in Hsz; lia).
  assert (Hin : In (pool_best Sol p) (pool_solutions Sol p)).
  { rewrite Hb. destruct (pool_solutions Sol p); [congruence|left; reflexivity]. }
  destruct (Hk _ Hs) as [(e & He & H1 & H2)|[_ H]]; [|auto].
  apply (swo_neg Hswo _ e).
  - rewrite Hb. apply sorted_head; assumption.
  - destruct (cmp_equiv _ _ H1 H2) as (_ & H3 & _). exact H3.
Qed.

Lemma set_insert_first : forall s l l', set_insert Sol lt copies s l = Some l' ->
  hd s l' = if goes_first Sol lt copies s l then s else hd s l.
Proof.
  intros s [|x l] l' H; simpl in *.
  - injection H as <-. reflexivity.
  - destruct (cmp s x); [injection H as <-; reflexivity|].
    destruct (cmp x s); [|discriminate].
    destruct (set_insert Sol lt copies s l); [|discriminate].
    injection H as <-. reflexivity.
Qed.

Lemma hd_removelast : forall (l : list Sol) d, (2 <= length l)%nat -> hd d (removelast l) = hd d l.
Proof.
  intros [|x [|y l]] d H; simpl in *; try lia. reflexivity.
Qed.

Lemma cmp_iff_better_or_tie : forall a b, cmp a b = true <->
  lt b a = true \/ (lt a b = false /\ lt b a = false /\ lex_lt (copies a) (copies b) = true).
Proof.
  intros a b. unfold entry_cmp. destruct (lt a b) eqn:E1.
  - rewrite (lt_asym _ _ E1). split; [discriminate|]. intros [H|[H _]]; discriminate.
  - destruct (lt b a); split; auto.
    intros [H|(_ & _ & H)]; [discriminate|assumption].
Qed.

(** What the return code of [add] means. *)
Lemma pool_add_code : forall seen p s c p', pool_inv seen p ->
  pool_add Sol lt copies p s = (c, p') ->
  (c = -1 \/ c = 0 \/ c = 1)%Z /\
  (c = (-1)%Z <-> pool_solutions Sol p' = pool_solutions Sol p) /\
  (c = (-1)%Z -> p' = p) /\
  (c <> (-1)%Z -> In s (pool_solutions Sol p')) /\
  (c = 1%Z -> pool_best Sol p' = s /\ cmp s (pool_best Sol p) = true) /\
  (c <> 1%Z -> pool_best Sol p' = pool_best Sol p) /\
  (lt (pool_best Sol p) s = true -> c = 1%Z).
Proof.
  intros seen p s c p' Hinv Hadd.
  pose proof Hinv as [Hsz Hso Hb Hw Hfr Hk].
  assert (Hn : pool_solutions Sol p <> []) by (intro H; rewrite H in Hsz; simpl in Hsz; lia).
  assert (Hbin : In (pool_best Sol p) (pool_solutions Sol p)).
  { rewrite Hb. destruct (pool_solutions Sol p); [congruence|left; reflexivity]. }
  unfold pool_add in Hadd.
  destruct (Nat.leb (pool_size_max Sol p) (length (pool_solutions Sol p))
            && negb (lt (pool_worst Sol p) s)) eqn:Egate.
  - injection Hadd as <- <-.
    split; [auto|]. split; [split; auto|]. split; [auto|].
    split; [congruence|]. split; [discriminate|]. split; [auto|].
    intro H. apply andb_true_iff in Egate. destruct Egate as [_ E].
    apply negb_true_iff in E. exfalso.
    assert (Hwb : lt (pool_best Sol p) (pool_worst Sol p) = false).
    { rewrite Hw. apply sorted_last; assumption. }
    pose proof (swo_neg Hswo _ _ _ Hwb E). congruence.
  - destruct (set_insert Sol lt copies s (pool_solutions Sol p)) as [l|] eqn:Ei.
    + set (l' := if Nat.ltb (pool_size_max Sol p) (length l) then removelast l else l) in *.
      pose proof (set_insert_in _ _ _ Ei) as Hin.
      pose proof (set_insert_length _ _ _ Ei) as Hlenl.
      pose proof (set_insert_sorted _ _ _ Ei Hso) as Hsl.
      assert (Hln : l <> []) by (intro; subst; discriminate).
      assert (Hslen : (2 <= length l)%nat) by (destruct (pool_solutions Sol p); [congruence|simpl in *; lia]).
      assert (Hhd : hd s l' = hd s l).
      { unfold l'. destruct (Nat.ltb _ _); [apply hd_removelast; assumption|reflexivity]. }
      assert (Hsin : In s l').
      { unfold l'. destruct (Nat.ltb (pool_size_max Sol p) (length l)) eqn:El.
        - apply Nat.ltb_lt in El.
          apply andb_false_iff in Egate. destruct Egate as [E|E]; [apply Nat.leb_gt in E; lia|].
          apply negb_false_iff in E.
          assert (Hs : In s l) by (apply Hin; auto).
          rewrite <- (removelast_app_last l s Hln) in Hs. apply in_app_or in Hs.
          destruct Hs as [Hs|[Hs|[]]]; [assumption|]. exfalso.
          assert (H : lt (pool_worst Sol p) (last l s) = false).
          { apply sorted_last; [assumption|]. apply Hin. right. rewrite Hw. apply in_last. assumption. }
          congruence.
        - apply Hin. auto. }
      assert (Hnin : ~ In s (pool_solutions Sol p)).
      { clear - Ei Hswo Hso. revert l Ei. induction (pool_solutions Sol p) as [|x l0 IH]; simpl; intros l Ei; [auto|].
        intros [->|H].
        - rewrite cmp_irrefl in Ei. discriminate.
        - apply StronglySorted_inv in Hso. destruct Hso as [Hso Hf].
          rewrite Forall_forall in Hf. pose proof (Hf _ H) as Hxs.
          destruct (cmp s x) eqn:E.
          + pose proof (cmp_trans _ _ _ E Hxs) as H1. rewrite cmp_irrefl in H1. discriminate.
          + rewrite Hxs in Ei. destruct (set_insert Sol lt copies s l0) as [l1|] eqn:E1; [|discriminate].
            exact (IH Hso _ eq_refl H). }
      assert (Hcmpb : goes_first Sol lt copies s (pool_solutions Sol p) = cmp s (pool_best Sol p)).
      { rewrite Hb. destruct (pool_solutions Sol p); [congruence|reflexivity]. }
      pose proof (set_insert_first _ _ _ Ei) as Hfirst.
      rewrite Hcmpb in Hfirst.
      injection Hadd as <- <-. rewrite Hcmpb. simpl.
      split; [destruct (cmp s (pool_best Sol p)); auto|].
      split; [split; [destruct (cmp s (pool_best Sol p)); discriminate|intro H; rewrite H in Hsin; contradiction]|].
      split; [destruct (cmp s (pool_best Sol p)); discriminate|].
      split; [auto|].
      rewrite Hhd, Hfirst.
      split; [destruct (cmp s (pool_best Sol p)); [auto|discriminate]|].
      split.
      * destruct (cmp s (pool_best Sol p)); [congruence|]. intros _. rewrite Hb. apply hd_indep. assumption.
      * intro H. assert (E : cmp s (pool_best Sol p) = true) by (apply cmp_iff_better_or_tie; auto).
        rewrite E. reflexivity.
    + injection Hadd as <- <-.
      split; [auto|]. split; [split; auto|]. split; [auto|].
      split; [congruence|]. split; [discriminate|]. split; [auto|].
      intro H. exfalso.
      destruct (set_insert_none _ _ Ei) as (e & He & H1 & H2).
      destruct (cmp_equiv _ _ H1 H2) as (H3 & H4 & _).
      assert (H5 : lt (pool_best Sol p) e = false) by (rewrite Hb; apply sorted_head; assumption).
      pose proof (swo_neg Hswo _ _ _ H5 H4). congruence.
Qed.

End PoolProof.

(** ** group_identical_bins *)

Section GroupProof.

Variable B : Type.
Variable beq : B -> B -> bool.
Hypothesis beq_eq : forall a b, beq a b = true <-> a = b.

Local Notation copies_of := (copies_of B beq).
Local Notation weighted_sum := (weighted_sum B).
Local Notation first_occurrences := (first_occurrences B beq).

Lemma beq_refl : forall a, beq a a = true.
Proof. intro a. apply beq_eq. reflexivity. Qed.

Lemma group_add_copies : forall groups b c x,
  copies_of x (group_add B beq groups b c) = ((if beq b x then c else 0) + copies_of x groups)%Z.
Proof.
  induction groups as [|[g n] groups IH]; intros b c x; simpl; [reflexivity|].
  destruct (beq g b) eqn:E; simpl.
  - apply beq_eq in E. subst g. destruct (beq b x); lia.
  - rewrite IH. destruct (beq g x), (beq b x); lia.
Qed.

Lemma group_fold_copies : forall bins groups x,
  copies_of x (fold_left (fun g bc => group_add B beq g (fst bc) (snd bc)) bins groups)
  = (copies_of x groups + copies_of x bins)%Z.
Proof.
  induction bins as [|[b c] bins IH]; intros groups x; simpl; [lia|].
  rewrite IH, group_add_copies. lia.
Qed.

Lemma group_copies : forall bins x,
  copies_of x (group_identical_bins B beq bins) = copies_of x bins.
Proof. intros. unfold group_identical_bins. rewrite group_fold_copies. reflexivity. Qed.

Lemma group_add_weighted : forall f groups b c,
  weighted_sum f (group_add B beq groups b c) == inject_Z c * f b + weighted_sum f groups.
Proof.
  intro f. induction groups as [|[g n] groups IH]; intros b c; simpl; [reflexivity|].
  destruct (beq g b) eqn:E; simpl.
  - apply beq_eq in E. subst g. rewrite inject_Z_plus. ring.
  - rewrite IH. ring.
Qed.

Lemma group_weighted : forall f bins,
  weighted_sum f (group_identical_bins B beq bins) == weighted_sum f bins.
Proof.
  intros f bins. unfold group_identical_bins.
  assert (H : forall groups,
    weighted_sum f (fold_left (fun g bc => group_add B beq g (fst bc) (snd bc)) bins groups)
    == weighted_sum f groups + weighted_sum f bins).
  { induction bins as [|[b c] bins IH]; intro groups; simpl; [ring|].
    rewrite IH, group_add_weighted. ring. }
  rewrite H. simpl. ring.
Qed.

Lemma group_add_fst : forall groups b c,
  map fst (group_add B beq groups b c) =
  if existsb (beq b) (map fst groups) then map fst groups else map fst groups ++ [b].
Proof.
  induction groups as [|[g n] groups IH]; intros b c; simpl; [reflexivity|].
  destruct (beq g b) eqn:E; simpl.
  - apply beq_eq in E. subst g. rewrite beq_refl. reflexivity.
  - assert (E' : beq b g = false).
    { destruct (beq b g) eqn:E'; [|reflexivity]. apply beq_eq in E'. subst. rewrite beq_refl in E. discriminate. }
    rewrite E', IH. simpl. destruct (existsb (beq b) (map fst groups)); reflexivity.
Qed.

Lemma existsb_ext_in : forall (b : B) l l', (forall x, In x l <-> In x l') ->
  existsb (beq b) l = existsb (beq b) l'.
Proof.
  intros b l l' H. apply eq_true_iff_eq. rewrite !existsb_exists.
  split; intros (x & Hx & Hb); exists x; split; try assumption; apply H; assumption.
Qed.

Lemma first_occurrences_ext : forall l seen seen', (forall x, In x seen <-> In x seen') ->
  first_occurrences seen l = first_occurrences seen' l.
Proof.
  induction l as [|b l IH]; intros seen seen' H; simpl; [reflexivity|].
  rewrite (existsb_ext_in b _ _ H). destruct (existsb (beq b) seen'); [auto|].
  f_equal. apply IH. intro x. simpl. rewrite H. reflexivity.
Qed.

Lemma group_fold_fst : forall bins groups,
  map fst (fold_left (fun g bc => group_add B beq g (fst bc) (snd bc)) bins groups)
  = map fst groups ++ first_occurrences (map fst groups) (map fst bins).
Proof.
  induction bins as [|[b c] bins IH]; intros groups; simpl; [rewrite app_nil_r; reflexivity|].
  rewrite IH, group_add_fst.
  destruct (existsb (beq b) (map fst groups)) eqn:E; [reflexivity|].
  rewrite <- app_assoc. simpl. do 2 f_equal.
  apply first_occurrences_ext. intro x. rewrite in_app_iff. simpl. tauto.
Qed.

Lemma group_fst : forall bins,
  map fst (group_identical_bins B beq bins) = first_occurrences [] (map fst bins).
Proof. intro bins. unfold group_identical_bins. rewrite group_fold_fst. reflexivity. Qed.

Lemma first_occurrences_nodup : forall l seen,
  NoDup (first_occurrences seen l) /\ (forall x, In x (first_occurrences seen l) -> ~ In x seen).
Proof.
  induction l as [|b l IH]; intro seen; simpl.
  - split; [constructor|auto].
  - destruct (existsb (beq b) seen) eqn:E; [apply IH|].
    destruct (IH (b :: seen)) as [H1 H2]. split.
    + constructor; [|assumption]. intro H. apply (H2 _ H). left. reflexivity.
    + intros x [->|H].
      * intro Hx. assert (Ht : existsb (beq x) seen = true) by (apply existsb_exists; exists x; split; [assumption|apply beq_refl]).
        congruence.
      * intro Hx. apply (H2 _ H). right. assumption.
Qed.

Lemma group_nodup_id : forall bins, NoDup (map fst bins) ->
  group_identical_bins B beq bins = bins.
Proof.
  assert (H : forall bins groups, NoDup (map fst groups ++ map fst bins) ->
    fold_left (fun g bc => group_add B beq g (fst bc) (snd bc)) bins groups = groups ++ bins).
  { induction bins as [|[b c] bins IH]; intros groups H; simpl; [rewrite app_nil_r; reflexivity|].
    assert (Hadd : group_add B beq groups b c = groups ++ [(b, c)]).
    { simpl in H. apply NoDup_remove_2 in H.
      assert (Hb : ~ In b (map fst groups)) by (intro; apply H; apply in_or_app; auto).
      clear - Hb beq_eq. induction groups as [|[g n] groups IH]; simpl in *; [reflexivity|].
      destruct (beq g b) eqn:E; [exfalso; apply Hb; left; apply beq_eq; assumption|].
      f_equal. apply IH. tauto. }
    rewrite Hadd, IH.
    - rewrite <- app_assoc. reflexivity.
    - rewrite map_app, <- app_assoc. exact H. }
  intros bins Hn. unfold group_identical_bins. rewrite H; [reflexivity|exact Hn].
Qed.

End GroupProof.

(** ** enforce_bin_type_order *)

Section EnforceProof.

Variable C : Type.
Variable empty : C.

Local Notation physical := (physical C).
Local Notation of_type := (of_type C).

Lemma of_type_app : forall t l1 l2, of_type t (l1 ++ l2) = of_type t l1 ++ of_type t l2.
Proof. intros. unfold of_type. rewrite filter_app, map_app. reflexivity. Qed.

Lemma of_type_repeat : forall t t' c n,
  of_type t (repeat (t', c) n) = if Nat.eqb t' t then repeat c n else [].
Proof.
  intros t t' c n. induction n as [|n IH]; simpl.
  - destruct (Nat.eqb t' t); reflexivity.
  - unfold of_type in *. simpl. destruct (Nat.eqb t' t); simpl; rewrite IH; reflexivity.
Qed.

Lemma positions_of_type : forall bins t, positions C bins t = of_type t (physical bins).
Proof.
  intros bins t. induction bins as [|b bins IH]; simpl; [reflexivity|].
  rewrite of_type_app, of_type_repeat, IH. destruct (Nat.eqb (eb_type C b) t); reflexivity.
Qed.

Lemma map_repeat_eq : forall (X Y : Type) (f : X -> Y) x n, map f (repeat x n) = repeat (f x) n.
Proof. intros X Y f x n. induction n as [|n IH]; simpl; [reflexivity|rewrite IH; reflexivity]. Qed.

Lemma physical_app : forall a b, physical (a ++ b) = physical a ++ physical b.
Proof. intros. unfold physical. apply flat_map_app. Qed.

Lemma physical_map1 : forall t (l : list C),
  physical (map (fun c => mkEbin C t c 1) l) = map (fun c => (t, c)) l.
Proof. intros t l. induction l as [|c l IH]; simpl; [reflexivity|]. rewrite IH. reflexivity. Qed.

Definition enforce_physical (copies : nat -> nat) (bins : list (ebin C)) (last t : nat) : list C :=
  let pos := of_type t (physical bins) in
  let target := if Nat.ltb t last then copies t else length pos in
  firstn target pos ++ repeat empty (target - length pos).

Lemma physical_enforce_type : forall copies bins last t,
  physical (enforce_type C empty copies bins last t)
  = map (fun c => (t, c)) (enforce_physical copies bins last t).
Proof.
  intros copies bins last t. unfold enforce_type, enforce_physical.
  rewrite positions_of_type.
  set (pos := of_type t (physical bins)).
  set (target := if Nat.ltb t last then copies t else length pos).
  rewrite physical_app, physical_map1, map_app. f_equal.
  destruct (Nat.ltb (length pos) target) eqn:E.
  - simpl. rewrite app_nil_r. rewrite map_repeat_eq. reflexivity.
  - apply Nat.ltb_ge in E. replace (target - length pos)%nat with 0%nat by lia. reflexivity.
Qed.

Lemma physical_enforce : forall copies bins last,
  last_used_bin_type C bins = Some last ->
  physical (enforce_bin_type_order C empty copies bins)
  = flat_map (fun t => map (fun c => (t, c)) (enforce_physical copies bins last t)) (seq 0 (last + 1)).
Proof.
  intros copies bins last H. unfold enforce_bin_type_order. rewrite H.
  generalize (seq 0 (last + 1)). induction l as [|t l IH]; [reflexivity|].
  change (flat_map (enforce_type C empty copies bins last) (t :: l))
    with (enforce_type C empty copies bins last t ++ flat_map (enforce_type C empty copies bins last) l).
  rewrite physical_app, physical_enforce_type, IH. reflexivity.
Qed.

Lemma of_type_map : forall t t' (l : list C),
  of_type t (map (fun c => (t', c)) l) = if Nat.eqb t' t then l else [].
Proof.
  intros t t' l. induction l as [|c l IH]; simpl.
  - destruct (Nat.eqb t' t); reflexivity.
  - unfold of_type in *. simpl. destruct (Nat.eqb t' t); simpl; rewrite IH; reflexivity.
Qed.

Lemma of_type_flat_seq : forall (f : nat -> list C) n a t,
  of_type t (flat_map (fun t => map (fun c => (t, c)) (f t)) (seq a n))
  = if (Nat.leb a t && Nat.ltb t (a + n))%bool then f t else [].
Proof.
  intros f n. induction n as [|n IH]; intros a t; simpl.
  - destruct (Nat.leb_spec a t), (Nat.ltb_spec t (a + 0)); simpl; try reflexivity; lia.
  - rewrite of_type_app, of_type_map, IH.
    destruct (Nat.eqb_spec a t).
    + subst. replace (Nat.leb (S t) t) with false by (symmetry; apply Nat.leb_gt; lia).
      replace (Nat.leb t t) with true by (symmetry; apply Nat.leb_le; lia).
      replace (Nat.ltb t (t + S n)) with true by (symmetry; apply Nat.ltb_lt; lia).
      simpl. apply app_nil_r.
    + rewrite app_nil_l. replace (a + S n)%nat with (S a + n)%nat by lia.
      replace (Nat.leb (S a) t) with (Nat.leb a t); [reflexivity|].
      destruct (Nat.leb_spec (S a) t), (Nat.leb_spec a t); try lia; reflexivity.
Qed.

Lemma enforce_of_type : forall copies bins last t,
  last_used_bin_type C bins = Some last ->
  of_type t (physical (enforce_bin_type_order C empty copies bins))
  = if Nat.leb t last then enforce_physical copies bins last t else [].
Proof.
  intros copies bins last t H. rewrite (physical_enforce _ _ _ H), of_type_flat_seq.
  destruct (Nat.leb_spec t last), (Nat.ltb_spec t (0 + (last + 1))); simpl; try reflexivity; lia.
Qed.

Lemma physical_types_sorted_gen : forall (f : nat -> list C) n a,
  StronglySorted le (map fst (flat_map (fun t => map (fun c => (t, c)) (f t)) (seq a n)))
  /\ (forall x, In x (map fst (flat_map (fun t => map (fun c => (t, c)) (f t)) (seq a n))) -> (a <= x)%nat).
Proof.
  intros f n. induction n as [|n IH]; intro a; simpl.
  - split; [constructor|intros x []].
  - destruct (IH (S a)) as [H1 H2]. rewrite map_app.
    assert (Hx : forall x, In x (map fst (map (fun c => (a, c)) (f a))) -> x = a).
    { intros x H. rewrite map_map in H. apply in_map_iff in H. destruct H as (c & H & _). simpl in H. auto. }
    split.
    + induction (f a) as [|c l IHl]; simpl; [assumption|].
      constructor; [apply IHl; intros; apply Hx; right; assumption|].
      apply Forall_forall. intros x H. apply in_app_or in H. destruct H as [H|H].
      * assert (x = a) by (apply Hx; right; assumption). lia.
      * apply H2 in H. lia.
    + intros x H. apply in_app_or in H. destruct H as [H|H]; [apply Hx in H; lia|apply H2 in H; lia].
Qed.

Lemma fold_last_some : forall (bins : list (ebin C)) t, exists m,
  fold_left (fun m b => match m with None => Some (eb_type C b) | Some t => Some (Nat.max t (eb_type C b)) end)
    bins (Some t) = Some m /\ (t <= m)%nat /\ (forall b, In b bins -> (eb_type C b <= m)%nat)
    /\ (m = t \/ exists b, In b bins /\ eb_type C b = m).
Proof.
  induction bins as [|b bins IH]; intro t; simpl.
  - exists t. repeat split; auto. intros ? [].
  - destruct (IH (Nat.max t (eb_type C b))) as (m & Hm & H1 & H2 & H3).
    exists m. split; [assumption|]. split; [lia|]. split.
    + intros b' [<-|H]; [lia|auto].
    + destruct H3 as [H3|(b' & Hb' & H3)]; [|right; exists b'; auto].
      destruct (Nat.max_spec t (eb_type C b)) as [[? ?]|[? ?]].
      * right. exists b. split; [auto|lia].
      * left. lia.
Qed.

Lemma last_used_none : forall bins, last_used_bin_type C bins = None <-> bins = [].
Proof.
  intros [|b bins]; simpl; [tauto|]. unfold last_used_bin_type. simpl.
  destruct (fold_last_some bins (eb_type C b)) as (m & Hm & _). rewrite Hm. split; discriminate.
Qed.

Lemma last_used_some : forall bins last, last_used_bin_type C bins = Some last ->
  (forall b, In b bins -> (eb_type C b <= last)%nat) /\ (exists b, In b bins /\ eb_type C b = last).
Proof.
  intros [|b bins] last; [discriminate|]. unfold last_used_bin_type. simpl.
  destruct (fold_last_some bins (eb_type C b)) as (m & Hm & H1 & H2 & H3).
  rewrite Hm. intro H. injection H as <-. split.
  - intros b' [<-|H]; auto.
  - destruct H3 as [H3|(b' & Hb' & H3)]; [exists b|exists b']; auto.
Qed.

End EnforceProof.


(** ** Packaged statements *)

Lemma strictly_lesser_iff : forall a b, strictly_lesser a b = true <-> a + tol < b.
Proof. intros a b. unfold strictly_lesser. rewrite Qltb_lt. split; intro H; lra. Qed.

Lemma strictly_greater_iff : forall a b, strictly_greater a b = true <-> b + tol < a.
Proof. intros a b. unfold strictly_greater. rewrite Qltb_lt. split; intro H; lra. Qed.

Lemma equal_abs_iff : forall a b, equal_abs a b = true <-> a - b <= tol /\ b - a <= tol.
Proof.
  intros a b. unfold equal_abs. rewrite Qle_bool_iff, Qabs_Qle_condition.
  split; intros [H1 H2]; split; lra.
Qed.

Lemma abs_trichotomy : forall a b,
  strictly_lesser a b = true /\ strictly_greater a b = false /\ equal_abs a b = false
  \/ strictly_lesser a b = false /\ strictly_greater a b = true /\ equal_abs a b = false
  \/ strictly_lesser a b = false /\ strictly_greater a b = false /\ equal_abs a b = true.
Proof.
  intros a b. pose proof tol_pos as Ht.
  destruct (strictly_lesser a b) eqn:E1, (strictly_greater a b) eqn:E2, (equal_abs a b) eqn:E3; auto;
    exfalso;
    repeat match goal with
    | H : strictly_lesser _ _ = true |- _ => apply strictly_lesser_iff in H
    | H : strictly_greater _ _ = true |- _ => apply strictly_greater_iff in H
    | H : equal_abs _ _ = true |- _ => apply equal_abs_iff in H; destruct H
    end; try lra.
  assert (H1 : ~ a + tol < b) by (intro H; apply strictly_lesser_iff in H; congruence).
  assert (H2 : ~ b + tol < a) by (intro H; apply strictly_greater_iff in H; congruence).
  apply Qnot_lt_le in H1. apply Qnot_lt_le in H2.
  assert (equal_abs a b = true) by (apply equal_abs_iff; split; lra). congruence.
Qed.

(** A comparator is a strict order on non-negative values compatible with [<]. *)
Lemma sgp_asym : forall a b, 0 <= a -> 0 <= b ->
  strictly_greater_profit a b = true -> strictly_greater_profit b a = false.
Proof.
  intros a b Ha Hb H. destruct (strictly_greater_profit b a) eqn:E; [|reflexivity].
  apply sgp_sound in H; [|assumption..]. apply sgp_sound in E; [|assumption..]. lra.
Qed.

Lemma sgc_asym : forall a b, 0 <= a -> 0 <= b ->
  strictly_greater_cost a b = true -> strictly_greater_cost b a = false.
Proof.
  intros a b Ha Hb H. destruct (strictly_greater_cost b a) eqn:E; [|reflexivity].
  apply sgc_sound in H; [|assumption..]. apply sgc_sound in E; [|assumption..]. lra.
Qed.

Lemma sorted_best_first : forall Sol lt copies (Hswo : StrictWeakOrder Sol lt) l,
  StronglySorted (fun a b => entry_cmp Sol lt copies a b = true) l ->
  best_first_distinct Sol lt copies l.
Proof.
  intros Sol lt copies Hswo l H. unfold best_first_distinct.
  induction H as [|a l Hs IH Hf]; constructor; [assumption|].
  rewrite Forall_forall in *. intros b Hb. pose proof (Hf b Hb) as Hc. split.
  - eapply cmp_not_worse; eassumption.
  - intros (H1 & H2 & H3). unfold entry_cmp in Hc. rewrite H1, H2, H3 in Hc.
    rewrite lex_irrefl in Hc. discriminate.
Qed.

Lemma pool_history : forall Sol (lt : Sol -> Sol -> bool) copies,
  StrictWeakOrder Sol lt -> (forall a b, length (copies a) = length (copies b)) ->
  forall n empty h, (1 <= n)%nat ->
  let p := pool_run Sol lt copies (pool_new Sol n empty) h in
  let kept := pool_solutions Sol p in
  (1 <= length kept <= n)%nat /\
  best_first_distinct Sol lt copies kept /\
  hd_error kept = Some (pool_best Sol p) /\
  last kept empty = pool_worst Sol p /\
  (forall e, In e kept -> e = empty \/ In e h) /\
  (forall s, s = empty \/ In s h -> lt (pool_best Sol p) s = false) /\
  (forall s, s = empty \/ In s h ->
     (exists e, In e kept /\ ties Sol lt copies s e)
     \/ (length kept = n /\ forall e, In e kept -> lt e s = false)).
Proof.
  intros Sol lt copies Hswo Hlen n empty h Hn p kept.
  assert (Hinv : pool_inv Sol lt copies (rev h ++ [empty]) p).
  { apply pool_run_inv; [assumption|assumption|].
    apply pool_new_inv; assumption. }
  assert (Hin : forall s, s = empty \/ In s h <-> In s (rev h ++ [empty])).
  { intro s. rewrite in_app_iff, <- in_rev. simpl. intuition. }
  assert (Hsm : pool_size_max Sol p = n).
  { unfold p. rewrite pool_run_size_max. reflexivity. }
  pose proof Hinv as [Hsz Hso Hb Hw Hfr Hk]. fold kept in Hsz, Hso, Hb, Hw, Hfr, Hk.
  assert (Hne : kept <> []) by (intro E; rewrite E in Hsz; simpl in Hsz; lia).
  split; [lia|]. split; [apply sorted_best_first; assumption|].
  split; [destruct kept; [congruence|simpl in *; rewrite Hb; reflexivity]|].
  split; [rewrite Hw; apply last_indep; assumption|].
  split; [intros e He; apply Hin; apply Hfr; assumption|].
  split; [intros s Hs; apply Hin in Hs; eapply pool_inv_best; eassumption|].
  intros s Hs. apply Hin in Hs. destruct (Hk s Hs) as [(e & He & H1 & H2)|[H1 H2]].
  - left. exists e. split; [assumption|].
    destruct (cmp_equiv Sol lt copies Hswo _ _ H1 H2) as (A & B & D). split; [assumption|]. split; [assumption|].
    apply D. apply Hlen.
  - right. split; [congruence|assumption].
Qed.

Lemma pool_code : forall Sol (lt : Sol -> Sol -> bool) copies,
  StrictWeakOrder Sol lt -> (forall a b, length (copies a) = length (copies b)) ->
  forall n empty h s c p', (1 <= n)%nat ->
  let p := pool_run Sol lt copies (pool_new Sol n empty) h in
  pool_add Sol lt copies p s = (c, p') ->
  (c = -1 \/ c = 0 \/ c = 1)%Z /\
  (c = (-1)%Z <-> pool_solutions Sol p' = pool_solutions Sol p) /\
  (c = (-1)%Z -> p' = p) /\
  (c <> (-1)%Z -> In s (pool_solutions Sol p')) /\
  (c = 1%Z -> pool_best Sol p' = s /\ ~ ties Sol lt copies s (pool_best Sol p) /\ lt s (pool_best Sol p) = false) /\
  (c <> 1%Z -> pool_best Sol p' = pool_best Sol p) /\
  (lt (pool_best Sol p) s = true -> c = 1%Z).
Proof.
  intros Sol lt copies Hswo Hlen n empty h s c p' Hn p Hadd.
  assert (Hinv : pool_inv Sol lt copies (rev h ++ [empty]) p).
  { apply pool_run_inv; [assumption|assumption|].
    apply pool_new_inv; assumption. }
  destruct (pool_add_code Sol lt copies Hswo _ _ _ _ _ Hinv Hadd)
    as (H1 & H2 & H3 & H4 & H5 & H6 & H7).
  repeat (split; [assumption|]).
  split; [|split; assumption].
  intro Hc. destruct (H5 Hc) as [A B]. split; [assumption|].
  split; [|eapply cmp_not_worse; eassumption].
  intros (T1 & T2 & T3). unfold entry_cmp in B. rewrite T1, T2, T3, lex_irrefl in B. discriminate.
Qed.

Lemma enforce_spec : forall C (empty : C) copies bins,
  (forall t, length (of_type C t (physical C bins)) <= copies t)%nat ->
  let res := physical C (enforce_bin_type_order C empty copies bins) in
  (bins <> [] -> StronglySorted le (map fst res)) /\
  forall last, last_used_bin_type C bins = Some last ->
  forall t,
    (t < last -> of_type C t res = of_type C t (physical C bins)
        ++ repeat empty (copies t - length (of_type C t (physical C bins))) /\
      length (of_type C t res) = copies t)%nat /\
    (t = last -> of_type C t res = of_type C t (physical C bins)) /\
    ((last < t)%nat -> of_type C t res = [] /\ of_type C t (physical C bins) = []).
Proof.
  intros C empty copies bins Hle res. split.
  - intro Hn. unfold res. destruct (last_used_bin_type C bins) as [last|] eqn:E.
    + rewrite (physical_enforce C empty copies bins last E). apply physical_types_sorted_gen.
    + apply last_used_none in E. contradiction.
  - intros last El t. unfold res. rewrite (enforce_of_type C empty copies bins last t El).
    unfold enforce_physical. specialize (Hle t). split; [|split].
    + intro Ht. rewrite (proj2 (Nat.leb_le t last)) by lia. rewrite (proj2 (Nat.ltb_lt t last)) by lia.
      rewrite firstn_all2 by assumption. split; [reflexivity|].
      rewrite app_length, repeat_length. lia.
    + intros ->. rewrite Nat.leb_refl, Nat.ltb_irrefl, firstn_all, Nat.sub_diag. simpl. apply app_nil_r.
    + intro Ht. rewrite (proj2 (Nat.leb_gt t last)) by lia. split; [reflexivity|].
      apply last_used_some in El. destruct El as [El _].
      assert (Hno : forall p, In p (physical C bins) -> Nat.eqb (fst p) t = false).
      { intros p Hp. unfold physical in Hp. apply in_flat_map in Hp. destruct Hp as (b & Hb & Hp).
        apply repeat_spec in Hp. subst p. simpl. apply Nat.eqb_neq. specialize (El b Hb). lia. }
      unfold of_type. induction (physical C bins) as [|p l IH]; [reflexivity|].
      simpl. rewrite Hno by (left; reflexivity). apply IH.
      { clear - Hle Hno. unfold of_type in *. simpl in Hle. rewrite Hno in Hle by (left; reflexivity). exact Hle. }
      intros q Hq. apply Hno. right. assumption.
Qed.

Lemma item_consumption_spec : forall r i copy,
  item_consumption r i copy =
  match nth_error (res_item_consumptions r) i with
  | None => 0
  | Some schedule => nth copy schedule (last schedule 0)
  end.
Proof.
  intros r i copy. unfold item_consumption. destruct (nth_error _ i) as [schedule|]; [|reflexivity].
  destruct (nth_error schedule copy) eqn:E.
  - symmetry. apply nth_error_nth. assumption.
  - apply nth_error_None in E. symmetry. apply nth_overflow. assumption.
Qed.
