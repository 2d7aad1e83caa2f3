(** * Proofs about the onedimensional solution class *)

From Coq Require Import List ZArith QArith Qminmax Bool Lia Lqa Arith.
From Verif Require Import Util Common_Model Common_Spec Common_Proof OneDim_Model OneDim_Spec.
Import ListNotations.
Open Scope Z_scope.

Section Resources.

Variable i : Instance.

Notation ni := (length (in_item_types i)).

Lemma item_consumption_nth : forall r x copy,
  item_consumption r x copy = nth copy (schedule r x) (last (schedule r x) 0%Q).
Proof.
  intros r x copy. rewrite item_consumption_spec. unfold schedule.
  destruct (nth_error (res_item_consumptions r) x) eqn:E.
  - rewrite (nth_error_nth _ _ [] E). reflexivity.
  - apply nth_error_None in E. rewrite (nth_overflow _ [] E). destruct copy; reflexivity.
Qed.

Lemma count_snoc : forall (l : list nat) x y,
  count_occ Nat.eq_dec (l ++ [x]) y
  = (count_occ Nat.eq_dec l y + if Nat.eqb x y then 1 else 0)%nat.
Proof.
  intros l x y. rewrite count_occ_app. simpl.
  destruct (Nat.eq_dec x y), (Nat.eqb_spec x y); try contradiction; reflexivity.
Qed.

Lemma qsum_bump : forall (f g : nat -> Q) x n a d, (a <= x < a + n)%nat ->
  (forall y, y <> x -> g y == f y)%Q -> (g x == f x + d)%Q ->
  (qsum g (seq a n) == qsum f (seq a n) + d)%Q.
Proof.
  intros f g x n. induction n as [|n IH]; intros a d Hx Hy Hd; [lia|].
  cbn [seq]. rewrite !qsum_cons.
  destruct (Nat.eq_dec a x).
  - subst a. rewrite Hd. rewrite (qsum_ext _ g f (seq (S x) n)); [ring|].
    intros y Hin. apply in_seq in Hin. apply Hy. lia.
  - rewrite (Hy a) by assumption. rewrite (IH (S a) d); [ring|lia|assumption|assumption].
Qed.

(** Adding one item adds the next entry of its schedule. *)
Lemma consumption_snoc : forall r l x, (x < ni)%nat ->
  (consumption i r (l ++ [x])
   == consumption i r l + item_consumption r x (count_occ Nat.eq_dec l x))%Q.
Proof.
  intros r l x Hx. unfold consumption. apply qsum_bump with (x := x); [lia| |].
  - intros y Hy. rewrite count_snoc.
    destruct (Nat.eqb_spec x y); [congruence|]. rewrite Nat.add_0_r. reflexivity.
  - rewrite count_snoc, Nat.eqb_refl, Nat.add_1_r, item_consumption_nth. reflexivity.
Qed.

Lemma consumption_nil : forall r, (consumption i r [] == 0)%Q.
Proof. intro r. unfold consumption. apply qsum_zero. intros x _. reflexivity. Qed.

Lemma item_consumption_none : forall r x copy, schedule r x = [] -> item_consumption r x copy = 0%Q.
Proof. intros r x copy H. rewrite item_consumption_nth, H. destruct copy; reflexivity. Qed.

(** Effect of the loop on the resources. *)
Lemma resource_fold : forall bt x copy ids used profit ok,
  NoDup ids -> (forall r, In r ids -> (r < length used)%nat) ->
  forall used' profit' ok',
  fold_left (resource_step bt x copy) ids (used, profit, ok) = (used', profit', ok') ->
  let res r := nth r (bt_resources bt) dummy_resource in
  let new r := (nth r used 0 + item_consumption (res r) x copy)%Q in
  length used' = length used /\
  (forall r, nth r used' 0%Q = if in_dec Nat.eq_dec r ids then new r else nth r used 0%Q) /\
  (ok' = true <-> ok = true /\
     forall r, In r ids -> res_penalize (res r) = false -> (new r <= res_capacity (res r))%Q) /\
  (profit' == profit - qsum (fun r =>
      if res_penalize (res r) && Qle_bool (nth r used 0%Q) (res_capacity (res r))
         && Qltb (res_capacity (res r)) (new r) then res_penalty (res r) else 0%Q) ids)%Q.
Proof.
  intros bt x copy ids. induction ids as [|r0 ids IH]; intros used profit ok Hnd Hlt used' profit' ok' Hf res new.
  - simpl in Hf. injection Hf as <- <- <-. split; [reflexivity|].
    split; [intro r; simpl; reflexivity|]. split; [|simpl; ring].
    split; [intro H; split; [assumption|intros r []]|tauto].
  - apply NoDup_cons_iff in Hnd. destruct Hnd as [Hn0 Hnd].
    assert (Hr0 : (r0 < length used)%nat) by (apply Hlt; left; reflexivity).
    cbn [fold_left] in Hf.
    set (used1 := upd r0 (fun _ => (nth r0 used 0 + item_consumption (res r0) x copy)%Q) used) in *.
    set (profit1 := if res_penalize (res r0) && Qle_bool (nth r0 used 0%Q) (res_capacity (res r0))
         && Qltb (res_capacity (res r0)) (new r0) then (profit - res_penalty (res r0))%Q else profit).
    set (ok1 := if Qltb (res_capacity (res r0)) (new r0) && negb (res_penalize (res r0)) then false else ok).
    assert (Hstep : resource_step bt x copy (used, profit, ok) r0 = (used1, profit1, ok1)).
    { unfold resource_step, profit1, ok1. fold (res r0). fold (new r0).
      change (upd r0 (fun _ => new r0) used) with used1.
      destruct (Qltb (res_capacity (res r0)) (new r0)); simpl.
      - destruct (res_penalize (res r0)); simpl; [|reflexivity].
        destruct (Qle_bool (nth r0 used 0%Q) (res_capacity (res r0))); reflexivity.
      - rewrite andb_false_r. reflexivity. }
    rewrite Hstep in Hf.
    assert (Hlen1 : length used1 = length used) by apply upd_length.
    destruct (IH used1 profit1 ok1 Hnd) with (used' := used') (profit' := profit') (ok' := ok')
      as (H1 & H2 & H3 & H4); [intros r Hr; rewrite Hlen1; apply Hlt; right; assumption|assumption|].
    fold res in H2, H3, H4.
    assert (Hsame : forall r, In r ids -> nth r used1 0%Q = nth r used 0%Q).
    { intros r Hr. unfold used1. apply nth_upd_other. intro; subst; contradiction. }
    assert (Hnew0 : nth r0 used1 0%Q = new r0) by (unfold used1; apply nth_upd_same; assumption).
    split; [congruence|]. split; [|split].
    + intro r. rewrite H2. destruct (in_dec Nat.eq_dec r ids) as [Hi|Hi].
      * destruct (in_dec Nat.eq_dec r (r0 :: ids)) as [_|Hn]; [|exfalso; apply Hn; right; assumption].
        rewrite Hsame by assumption. reflexivity.
      * destruct (in_dec Nat.eq_dec r (r0 :: ids)) as [[He|Hi']|Hn].
        -- subst r. apply Hnew0.
        -- contradiction.
        -- unfold used1. apply nth_upd_other. intro He. apply Hn. left. assumption.
    + rewrite H3. unfold ok1. split.
      * intros [Ha Hb]. split.
        -- destruct (Qltb (res_capacity (res r0)) (new r0) && negb (res_penalize (res r0))); [discriminate|assumption].
        -- intros r [<-|Hr] Hp.
           ++ rewrite Hp in Ha. rewrite andb_true_r in Ha.
              destruct (Qltb (res_capacity (res r0)) (new r0)) eqn:E; [discriminate|].
              apply Qltb_ge. assumption.
           ++ specialize (Hb r Hr Hp). rewrite Hsame in Hb by assumption. exact Hb.
      * intros [Ha Hb]. split.
        -- destruct (res_penalize (res r0)) eqn:Ep; [rewrite andb_false_r; assumption|].
           specialize (Hb r0 (or_introl eq_refl) Ep). apply Qltb_ge in Hb. rewrite Hb. assumption.
        -- intros r Hr Hp. rewrite Hsame by assumption. apply Hb; [right; assumption|assumption].
    + rewrite H4, qsum_cons.
      rewrite (qsum_ext _ _ (fun r =>
        if res_penalize (res r) && Qle_bool (nth r used 0%Q) (res_capacity (res r))
         && Qltb (res_capacity (res r)) (new r) then res_penalty (res r) else 0%Q) ids).
      * unfold profit1. destruct (_ && _ && _); ring.
      * intros r Hr. unfold new. rewrite (Hsame r Hr). reflexivity.
Qed.

End Resources.

(** ** The loop on the items of one bin *)

Section LoopProof.

Variable i : Instance.
Variable t : nat.
Variable copies : Z.
Variable lo0 : Loop.

Notation ni := (length (in_item_types i)).
Notation bt := (bin_type i t).
Notation nr := (length (bt_resources bt)).
Notation res r := (nth r (bt_resources bt) dummy_resource).

Hypothesis Ht : (t < length (in_bin_types i))%nat.
Hypothesis Hwf : wf_resource_ids i.
Hypothesis Hcopies : 0 <= copies.
Hypothesis H0_end : lo_end lo0 = 0.
Hypothesis H0_weight : (lo_weight lo0 == 0)%Q.
Hypothesis H0_items : lo_items lo0 = [].
Hypothesis H0_n : lo_n lo0 = 0.
Hypothesis H0_resources : lo_resources lo0 = repeat 0%Q nr.
Hypothesis H0_cib : lo_copies_in_bin lo0 = repeat 0%nat ni.
Hypothesis H0_ic : length (lo_item_copies lo0) = ni.

Definition pen (l : list nat) : Q :=
  qsum (fun r => if res_penalize (res r) && Qltb (res_capacity (res r)) (consumption i (res r) l)
                 then res_penalty (res r) else 0%Q) (seq 0 nr).

Record LoopInv (l : list nat) (lo : Loop) : Prop := {
  li_end : lo_end lo = bin_end i l;
  li_weight : (lo_weight lo == total_weight i l)%Q;
  li_items : map si_type (lo_items lo) = l;
  li_starts : PrefAll (fun p y => si_start y = start_of i (map si_type p) (si_type y)) (lo_items lo);
  li_n : lo_n lo = Z.of_nat (length l);
  li_max : l <> [] -> forall c, c <= lo_max_items lo <->
    forall x, In x l -> c <= it_stackability (item_type i x);
  li_rem : l <> [] -> forall c, within c (lo_remaining lo) <->
    forall a x m, l = a ++ x :: m -> within (c + total_weight i m)%Q (it_max_weight_after (item_type i x));
  li_res_len : length (lo_resources lo) = nr;
  li_res : forall r, (r < nr)%nat -> (nth r (lo_resources lo) 0 == consumption i (res r) l)%Q;
  li_cib_len : length (lo_copies_in_bin lo) = ni;
  li_cib : forall x, (x < ni)%nat -> nth x (lo_copies_in_bin lo) 0%nat = count_occ Nat.eq_dec l x;
  li_noi : lo_number_of_items lo = lo_number_of_items lo0 + copies * Z.of_nat (length l);
  li_ic_len : length (lo_item_copies lo) = ni;
  li_ic : forall x, (x < ni)%nat -> nth x (lo_item_copies lo) 0
     = nth x (lo_item_copies lo0) 0 + copies * Z.of_nat (count_occ Nat.eq_dec l x);
  li_il : lo_item_length lo = lo_item_length lo0 + copies * zsum (fun x => it_length (item_type i x)) l;
  li_profit : sane_resources i -> (lo_item_profit lo == lo_item_profit lo0
      + inject_Z copies * qsum (fun x => it_profit (item_type i x)) l - pen l)%Q;
  li_cap : lo_capacity_ok lo = true <-> lo_capacity_ok lo0 = true /\
     PrefAll (fun p x => start_of i p x + it_length (item_type i x) <= bt_length bt) l;
  li_wok : lo_weight_ok lo = true <-> lo_weight_ok lo0 = true /\
     PrefAll (fun p x => within (total_weight i (p ++ [x])) (bt_max_weight bt)) l;
  li_stack : lo_stackability_ok lo = true <-> lo_stackability_ok lo0 = true /\
     forall x, In x l -> Z.of_nat (length l) <= it_stackability (item_type i x);
  li_mwa : lo_max_weight_after_ok lo = true <-> lo_max_weight_after_ok lo0 = true /\
     forall a x m b, l = a ++ x :: m ++ b ->
       within (total_weight i m) (it_max_weight_after (item_type i x));
  li_ico : lo_item_copies_ok lo = true <-> lo_item_copies_ok lo0 = true /\
     forall x, In x l -> nth x (lo_item_copies lo0) 0 + copies * Z.of_nat (count_occ Nat.eq_dec l x)
       <= it_copies (item_type i x);
  li_resok : lo_resource_ok lo = true <-> lo_resource_ok lo0 = true /\
     forall r, (r < nr)%nat -> res_penalize (res r) = false ->
       PrefAll (fun p x => schedule (res r) x <> [] ->
         (consumption i (res r) (p ++ [x]) <= res_capacity (res r))%Q) l;
  li_elig : lo_eligibility_ok lo = true <-> lo_eligibility_ok lo0 = true /\
     forall x, In x l -> is_eligible i x t
}.

Lemma bin_end_snoc : forall l x, bin_end i (l ++ [x]) = start_of i l x + it_length (item_type i x).
Proof.
  intros [|y l] x; unfold bin_end, start_of, bin_end; simpl tl; simpl app.
  - simpl. lia.
  - rewrite !zsum_cons, !zsum_snoc. simpl tl. lia.
Qed.

Lemma within_compat : forall a b m, (a == b)%Q -> within a m -> within b m.
Proof. intros a b [m|] H; simpl; [intro; lra|auto]. Qed.

Lemma within_omin : forall c a b, within c (omin a b) <-> within c a /\ within c b.
Proof.
  intros c [a|] [b|]; simpl; try tauto.
  destruct (Q.min_spec a b) as [[H1 H2]|[H1 H2]]; rewrite H2; split; intros; try lra; split; lra.
Qed.

Lemma exceeds_false : forall w m, exceeds w m = false <-> within w m.
Proof. intros w [m|]; simpl; [apply Qltb_ge|tauto]. Qed.

Lemma eligible_iff : forall x, eligible (item_type i x) bt = true <-> is_eligible i x t.
Proof.
  intro x. unfold eligible, is_eligible. rewrite orb_true_iff, Z.eqb_eq, existsb_exists.
  split; (intros [H|H]; [left; assumption|right]).
  - destruct H as (e & He & Heq). apply Z.eqb_eq in Heq. subst e. assumption.
  - exists (it_eligibility (item_type i x)). split; [assumption|apply Z.eqb_refl].
Qed.

Lemma pen_nil : sane_resources i -> (pen [] == 0)%Q.
Proof.
  intro Hs. unfold pen. apply qsum_zero. intros r Hr. apply in_seq in Hr.
  assert (Hin : In (res r) (bt_resources bt)) by (apply nth_In; lia).
  destruct (Hs bt (res r)) as [Hc _]; [apply nth_In; assumption|assumption|].
  assert (E : Qltb (res_capacity (res r)) (consumption i (res r) []) = false).
  { apply Qltb_ge. rewrite consumption_nil. assumption. }
  rewrite E, andb_false_r. reflexivity.
Qed.

Lemma loop_inv_init : LoopInv [] lo0.
Proof.
  constructor; try (rewrite ?H0_end, ?H0_items, ?H0_n; reflexivity);
    try (intro H; congruence).
  - rewrite H0_weight. reflexivity.
  - rewrite H0_items. apply prefall_nil.
  - rewrite H0_resources. apply repeat_length.
  - intros r Hr. rewrite H0_resources, nth_repeat. rewrite consumption_nil. reflexivity.
  - rewrite H0_cib. apply repeat_length.
  - intros x Hx. rewrite H0_cib, nth_repeat. reflexivity.
  - simpl. lia.
  - assumption.
  - intros x Hx. simpl. lia.
  - simpl. lia.
  - intro Hs. rewrite (pen_nil Hs). simpl. ring.
  - split; [intro H; split; [assumption|apply prefall_nil]|tauto].
  - split; [intro H; split; [assumption|apply prefall_nil]|tauto].
  - split; [intro H; split; [assumption|intros x []]|tauto].
  - split; [intro H; split; [assumption|intros a x m b E; destruct a; discriminate]|tauto].
  - split; [intro H; split; [assumption|intros x []]|tauto].
  - split; [intro H; split; [assumption|intros r _ _; apply prefall_nil]|tauto].
  - split; [intro H; split; [assumption|intros x []]|tauto].
Qed.

Lemma bool_if_false : forall (b c : bool), (if b then false else c) = true <-> c = true /\ b = false.
Proof. intros [] []; simpl; intuition discriminate. Qed.

Lemma seq_split_sum : forall (f : nat -> Q) ids n, NoDup ids -> (forall r, In r ids -> (r < n)%nat) ->
  (forall r, (r < n)%nat -> ~ In r ids -> f r == 0)%Q -> (qsum f ids == qsum f (seq 0 n))%Q.
Proof.
  intros f ids n Hnd Hlt Hz.
  assert (Hp : Permutation.Permutation (seq 0 n)
     (ids ++ filter (fun r => negb (if in_dec Nat.eq_dec r ids then true else false)) (seq 0 n))).
  { apply Permutation.NoDup_Permutation.
    - apply seq_NoDup.
    - apply nodup_app_intro; [assumption|apply NoDup_filter; apply seq_NoDup|].
      intros r Hr Hf. apply filter_In in Hf. destruct Hf as [_ Hf].
      destruct (in_dec Nat.eq_dec r ids); [discriminate|contradiction].
    - intro r. rewrite in_app_iff, filter_In, in_seq. split.
      + intro H. destruct (in_dec Nat.eq_dec r ids); [left; assumption|right; split; [lia|reflexivity]].
      + intros [H|[H _]]; [apply Hlt in H; lia|lia]. }
  rewrite (qsum_perm _ f _ _ Hp), qsum_app.
  rewrite (qsum_zero _ f (filter _ _)); [ring|].
  intros r Hr. apply filter_In in Hr. destruct Hr as [H1 H2]. apply in_seq in H1.
  apply Hz; [lia|]. destruct (in_dec Nat.eq_dec r ids); [discriminate|assumption].
Qed.

Lemma loop_inv_step : forall l lo y, (si_type y < ni)%nat -> LoopInv l lo ->
  LoopInv (l ++ [si_type y]) (item_step i t copies lo y).
Proof.
  intros l lo y Hx HI.
  set (x := si_type y) in *. set (it := item_type i x).
  destruct HI as [Iend Iw Iit Ist In_ Imax Irem Irl Ires Icl Icib Inoi Iicl Iic Iil Ipr Icap Iwok Istk Imwa Iico Irok Iel].
  unfold item_step. fold x. fold it.
  destruct (fold_left (resource_step bt x (nth x (lo_copies_in_bin lo) 0%nat))
      (nth t (it_resource_ids it) []) (lo_resources lo, lo_item_profit lo, lo_resource_ok lo))
    as [[used' profit'] ok'] eqn:Ef.
  destruct (Hwf x t Hx Ht) as [Hnd Hids]. fold it in Hnd, Hids.
  pose proof (resource_fold bt x (nth x (lo_copies_in_bin lo) 0%nat)
     (nth t (it_resource_ids it) []) (lo_resources lo) (lo_item_profit lo) (lo_resource_ok lo) Hnd)
    as HF.
  specialize (HF (fun r Hr => eq_ind_r (fun n => (r < n)%nat) (proj1 (proj1 (Hids r) Hr)) Irl) _ _ _ Ef).
  cbv zeta in HF. destruct HF as (F1 & F2 & F3 & F4).
  rewrite (Icib x Hx) in F2, F3, F4.
  assert (Hnew : forall r, (r < nr)%nat -> (nth r used' 0 == consumption i (res r) (l ++ [x]))%Q).
  { intros r Hr. rewrite F2. rewrite (consumption_snoc i (res r) l x Hx).
    destruct (in_dec Nat.eq_dec r _) as [Hi|Hi].
    - rewrite (Ires r Hr). reflexivity.
    - rewrite (Ires r Hr). rewrite (item_consumption_none (res r) x); [ring|].
      destruct (schedule (res r) x) eqn:Es; [reflexivity|].
      exfalso. apply Hi. apply Hids. split; [assumption|]. rewrite Es. discriminate. }
  assert (Hstart : (if 0 <? lo_n lo then lo_end lo - it_nesting it else lo_end lo) = start_of i l x).
  { rewrite In_, Iend. unfold start_of. destruct l as [|z l]; [reflexivity|]. simpl length.
    replace (0 <? Z.of_nat (S (length l))) with true by (symmetry; apply Z.ltb_lt; lia). reflexivity. }
  rewrite Hstart.
  assert (Hmax : forall c, c <= (if lo_n lo + 1 =? 1 then it_stackability it
       else Z.min (lo_max_items lo) (it_stackability it))
     <-> forall z, In z (l ++ [x]) -> c <= it_stackability (item_type i z)).
  { intro c. rewrite In_. destruct l as [|z0 l].
    - simpl. split; [intros H z [<-|[]]; exact H|intro H; apply H; auto].
    - replace (Z.of_nat (length (z0 :: l)) + 1 =? 1) with false by (symmetry; apply Z.eqb_neq; simpl length; lia).
      pose proof (Imax ltac:(discriminate) c) as Hm. split.
      + intros H z Hz. apply in_app_or in Hz. destruct Hz as [Hz|[<-|[]]]; [apply Hm; [lia|assumption]|unfold it in H; lia].
      + intro H. apply Z.min_glb; [apply Hm; intros; apply H; apply in_or_app; auto|].
        apply H. apply in_or_app. right. left. reflexivity. }
  assert (Hrem : forall c, within c (if lo_n lo + 1 =? 1 then it_max_weight_after it
       else omin (match lo_remaining lo with None => None | Some w => Some (w - it_weight it)%Q end)
              (it_max_weight_after it))
     <-> forall a z m, l ++ [x] = a ++ z :: m ->
           within (c + total_weight i m)%Q (it_max_weight_after (item_type i z))).
  { intro c. rewrite In_. destruct l as [|z0 l].
    - simpl. split.
      + intros H a z m E. destruct a as [|a0 a]; [|destruct a; discriminate].
        injection E as <- <-. apply within_compat with (a := c); [unfold total_weight; simpl; ring|exact H].
      + intro H. specialize (H [] x [] eq_refl). eapply within_compat; [|exact H].
        unfold total_weight; simpl; ring.
    - replace (Z.of_nat (length (z0 :: l)) + 1 =? 1) with false by (symmetry; apply Z.eqb_neq; simpl length; lia).
      rewrite within_omin.
      assert (Hsub : within c match lo_remaining lo with None => None | Some w => Some (w - it_weight it)%Q end
                <-> within (c + it_weight it)%Q (lo_remaining lo)).
      { destruct (lo_remaining lo); simpl; [split; intro; lra|tauto]. }
      rewrite Hsub, (Irem ltac:(discriminate) (c + it_weight it)%Q). split.
      + intros [Ha Hb] a z m E.
        destruct m as [|m0 m] using rev_ind.
        * apply app_inj_tail in E. destruct E as [_ <-].
          eapply within_compat; [|exact Hb]. unfold total_weight; simpl; ring.
        * clear IHm. change (a ++ z :: m ++ [m0]) with (a ++ (z :: m) ++ [m0]) in E.
          rewrite app_assoc in E. apply app_inj_tail in E. destruct E as [E <-].
          eapply within_compat; [|apply (Ha a z m E)].
          unfold total_weight. rewrite qsum_snoc. fold it. ring.
      + intro H. split.
        * intros a z m E. specialize (H a z (m ++ [x])).
          eapply within_compat; [|apply H; rewrite E, <- app_assoc; reflexivity].
          unfold total_weight. rewrite qsum_snoc. fold it. ring.
        * specialize (H (z0 :: l) x [] eq_refl). eapply within_compat; [|exact H].
          unfold total_weight; simpl; ring. }
  constructor; cbn [lo_end lo_weight lo_items lo_n lo_max_items lo_remaining lo_resources
    lo_copies_in_bin lo_number_of_items lo_item_copies lo_item_length lo_item_profit
    lo_capacity_ok lo_weight_ok lo_stackability_ok lo_max_weight_after_ok lo_item_copies_ok
    lo_resource_ok lo_eligibility_ok].
  - rewrite bin_end_snoc. reflexivity.
  - rewrite Iw. unfold total_weight. rewrite qsum_snoc. reflexivity.
  - rewrite map_app, Iit. reflexivity.
  - apply prefall_snoc. split; [assumption|]. simpl. rewrite Iit. reflexivity.
  - rewrite In_, app_length. simpl. lia.
  - intros _. exact Hmax.
  - intros _. exact Hrem.
  - congruence.
  - exact Hnew.
  - rewrite upd_length. assumption.
  - intros z Hz. rewrite nth_upd by congruence. rewrite count_snoc, (Icib z Hz).
    destruct (Nat.eqb x z); lia.
  - rewrite Inoi, app_length. simpl length. lia.
  - rewrite upd_length. assumption.
  - intros z Hz. rewrite nth_upd by congruence. rewrite count_snoc, (Iic z Hz).
    destruct (Nat.eqb x z); lia.
  - rewrite Iil, zsum_snoc. fold it. lia.
  - intro Hs. rewrite F4, (Ipr Hs), qsum_snoc. fold it.
    assert (Hpen : (pen (l ++ [x]) == pen l + qsum (fun r =>
      if res_penalize (res r) && Qle_bool (nth r (lo_resources lo) 0%Q) (res_capacity (res r)) &&
         Qltb (res_capacity (res r)) (nth r (lo_resources lo) 0 +
            item_consumption (res r) x (count_occ Nat.eq_dec l x))%Q
      then res_penalty (res r) else 0%Q) (nth t (it_resource_ids it) []))%Q).
    { rewrite (seq_split_sum _ (nth t (it_resource_ids it) []) nr Hnd); [|intros r Hr; apply Hids in Hr; tauto|].
      - unfold pen. rewrite <- qsum_plus. apply qsum_ext. intros r Hr. apply in_seq in Hr.
        assert (Hr' : (r < nr)%nat) by lia.
        destruct (res_penalize (res r)); simpl; [|ring].
        pose proof (consumption_snoc i (res r) l x Hx) as Hc.
        assert (Hnn : (0 <= item_consumption (res r) x (count_occ Nat.eq_dec l x))%Q).
        { destruct (Hs bt (res r)) as [_ Hq]; [apply nth_In; assumption|apply nth_In; assumption|].
          rewrite item_consumption_nth.
          assert (Hall : forall q, In q (schedule (res r) x) -> (0 <= q)%Q).
          { unfold schedule. destruct (nth_in_or_default x (res_item_consumptions (res r)) []) as [Hi|Hi].
            - intros q Hq'. exact (Hq _ _ Hi Hq').
            - rewrite Hi. intros q []. }
          destruct (nth_in_or_default (count_occ Nat.eq_dec l x) (schedule (res r) x) (last (schedule (res r) x) 0%Q)) as [Hi|Hi].
          - apply Hall. assumption.
          - rewrite Hi. destruct (schedule (res r) x) as [|q0 s] eqn:Es; [simpl; lra|].
            apply Hall. rewrite <- Es.
            assert (Hne : schedule (res r) x <> []) by (rewrite Es; discriminate).
            rewrite (app_removelast_last 0%Q Hne) at 2. apply in_or_app. right. left. rewrite Es. reflexivity. }
        pose proof (Ires r Hr') as Hcur.
        destruct (Qltb (res_capacity (res r)) (consumption i (res r) (l ++ [x]))) eqn:E1;
          destruct (Qltb (res_capacity (res r)) (consumption i (res r) l)) eqn:E2;
          destruct (Qle_bool (nth r (lo_resources lo) 0%Q) (res_capacity (res r))) eqn:E3;
          destruct (Qltb (res_capacity (res r)) (nth r (lo_resources lo) 0 +
            item_consumption (res r) x (count_occ Nat.eq_dec l x))%Q) eqn:E4; simpl; try ring;
          exfalso;
          repeat match goal with
          | H : Qltb _ _ = true |- _ => apply Qltb_lt in H
          | H : Qltb _ _ = false |- _ => apply Qltb_ge in H
          | H : Qle_bool _ _ = true |- _ => apply Qle_bool_iff in H
          | H : Qle_bool ?a ?b = false |- _ =>
              assert (b < a)%Q by (apply Qnot_le_lt; intro HH; apply Qle_bool_iff in HH; congruence); clear H
          end; lra.
      - intros r Hr Hni.
        assert (Es : schedule (res r) x = []).
        { destruct (schedule (res r) x) eqn:Es; [reflexivity|].
          exfalso. apply Hni. apply Hids. split; [assumption|]. rewrite Es. discriminate. }
        rewrite (item_consumption_none (res r) x _ Es).
        destruct (res_penalize (res r)); simpl; [|reflexivity].
        destruct (Qle_bool _ _) eqn:E3; simpl; [|reflexivity].
        apply Qle_bool_iff in E3.
        assert (E4 : Qltb (res_capacity (res r)) (nth r (lo_resources lo) 0 + 0)%Q = false) by (apply Qltb_ge; lra).
        rewrite E4. reflexivity. }
    rewrite Hpen. ring.
  - rewrite bool_if_false, Icap, prefall_snoc, Z.ltb_ge. fold it. tauto.
  - rewrite bool_if_false, Iwok, prefall_snoc, exceeds_false.
    assert (Hq : within (lo_weight lo + it_weight it)%Q (bt_max_weight bt)
       <-> within (total_weight i (l ++ [x])) (bt_max_weight bt)).
    { split; apply within_compat; unfold total_weight; rewrite qsum_snoc; rewrite Iw; reflexivity. }
    tauto.
  - rewrite bool_if_false, Istk, Z.ltb_ge, Hmax, In_, app_length. simpl length.
    split.
    + intros [[Ha Hb] Hc]. split; [assumption|]. intros z Hz. specialize (Hc z Hz). lia.
    + intros [Ha Hb]. split; [split; [assumption|]|].
      * intros z Hz. specialize (Hb z (in_or_app l [x] z (or_introl Hz))). lia.
      * intros z Hz. specialize (Hb z Hz). lia.
  - assert (Hm : match (if lo_n lo + 1 =? 1 then it_max_weight_after it
         else omin (match lo_remaining lo with None => None | Some w => Some (w - it_weight it)%Q end)
              (it_max_weight_after it)) with
       | Some w => if Qltb w 0 then false else lo_max_weight_after_ok lo
       | None => lo_max_weight_after_ok lo end = true <->
       lo_max_weight_after_ok lo = true /\
       forall a z m, l ++ [x] = a ++ z :: m ->
           within (0 + total_weight i m)%Q (it_max_weight_after (item_type i z))).
    { rewrite <- (Hrem 0%Q). match goal with |- _ <-> _ /\ within _ ?r => destruct r as [w|] end; simpl.
      - rewrite bool_if_false, Qltb_ge. tauto.
      - tauto. }
    rewrite Hm, Imwa. clear Hm. split.
    + intros [[Ha Hb] Hc]. split; [assumption|]. intros a z m b E.
      destruct b as [|b0 b] using rev_ind.
      * rewrite app_nil_r in E. eapply within_compat; [|apply (Hc a z m E)]. ring.
      * clear IHb. apply (Hb a z m b).
        replace (a ++ z :: m ++ b ++ [b0]) with ((a ++ z :: m ++ b) ++ [b0]) in E
          by (rewrite <- app_assoc; simpl; rewrite <- app_assoc; reflexivity).
        apply app_inj_tail in E. tauto.
    + intros [Ha Hb]. split; [split; [assumption|]|].
      * intros a z m b E. apply (Hb a z m (b ++ [x])). rewrite E, <- app_assoc. simpl.
        rewrite <- app_assoc. reflexivity.
      * intros a z m E. eapply within_compat; [|apply (Hb a z m [])]; [ring|]. rewrite app_nil_r. assumption.
  - rewrite bool_if_false, Iico, Z.ltb_ge, nth_upd_same, (Iic x Hx) by congruence. fold it. split.
    + intros [[Ha Hb] Hc]. split; [assumption|]. intros z Hz. rewrite count_snoc.
      destruct (Nat.eqb_spec x z).
      * subst z. fold it. lia.
      * apply in_app_or in Hz. destruct Hz as [Hz|[Hz|[]]]; [|congruence].
        specialize (Hb z Hz). lia.
    + intros [Ha Hb]. split; [split; [assumption|]|].
      * intros z Hz. specialize (Hb z (in_or_app l [x] z (or_introl Hz))). rewrite count_snoc in Hb.
        destruct (Nat.eqb x z); nia.
      * specialize (Hb x (in_or_app l [x] x (or_intror (or_introl eq_refl)))).
        rewrite count_snoc, Nat.eqb_refl in Hb. fold it in Hb. lia.
  - rewrite F3, Irok. split.
    + intros [[Ha Hb] Hc]. split; [assumption|]. intros r Hr Hp. apply prefall_snoc. split; [auto|].
      intro Hs. assert (Hi : In r (nth t (it_resource_ids it) [])) by (apply Hids; auto).
      specialize (Hc r Hi Hp). rewrite (consumption_snoc i (res r) l x Hx), <- (Ires r Hr). assumption.
    + intros [Ha Hb]. split; [split; [assumption|]|].
      * intros r Hr Hp. specialize (Hb r Hr Hp). apply prefall_snoc in Hb. tauto.
      * intros r Hi Hp. apply Hids in Hi. destruct Hi as [Hr Hs].
        specialize (Hb r Hr Hp). apply prefall_snoc in Hb. destruct Hb as [_ Hb].
        specialize (Hb Hs). rewrite (consumption_snoc i (res r) l x Hx), <- (Ires r Hr) in Hb. assumption.
  - assert (He : (if eligible it bt then lo_eligibility_ok lo else false) = true
       <-> lo_eligibility_ok lo = true /\ is_eligible i x t).
    { pose proof (eligible_iff x) as H. fold it in H. destruct (eligible it bt).
      - split; [intro; split; [assumption|apply H; reflexivity]|tauto].
      - split; [discriminate|]. intros [_ H1]. apply H in H1. discriminate. }
    rewrite He, Iel. split.
    + intros [[Ha Hb] Hc]. split; [assumption|]. intros z Hz. apply in_app_or in Hz.
      destruct Hz as [Hz|[<-|[]]]; auto.
    + intros [Ha Hb]. split; [split; [assumption|]|].
      * intros z Hz. apply Hb. apply in_or_app. auto.
      * apply Hb. apply in_or_app. right. left. reflexivity.
Qed.

Lemma loop_inv : forall ys, (forall y, In y ys -> (si_type y < ni)%nat) ->
  LoopInv (map si_type ys) (fold_left (item_step i t copies) ys lo0).
Proof.
  induction ys as [|y ys IH] using rev_ind; intro H.
  - apply loop_inv_init.
  - rewrite fold_left_app, map_app. simpl. apply loop_inv_step.
    + apply H. apply in_or_app. right. left. reflexivity.
    + apply IH. intros z Hz. apply H. apply in_or_app. auto.
Qed.

End LoopProof.

(** ** The whole solution *)

Section SolutionProof.

Variable i : Instance.
Variable cb : Callback.
Hypothesis Hwf : wf_resource_ids i.

Notation ni := (length (in_item_types i)).
Notation nb := (length (in_bin_types i)).

Record CoreInv (ds : list BinDesc) (c : Core) : Prop := {
  ci_ind : Indicators i ds c;
  ci_bcl : length (c_bin_copies c) = nb;
  ci_icl : length (c_item_copies c) = ni;
  ci_cap : c_capacity_ok c = true <-> forall d, In d ds ->
    PrefAll (fun p x => start_of i p x + it_length (item_type i x) <= bt_length (bin_type i (bd_type d))) (bd_items d);
  ci_weight : c_weight_ok c = true <-> forall d, In d ds ->
    PrefAll (fun p x => within (total_weight i (p ++ [x])) (bt_max_weight (bin_type i (bd_type d)))) (bd_items d);
  ci_stack : c_stackability_ok c = true <-> forall d, In d ds -> forall x, In x (bd_items d) ->
    Z.of_nat (length (bd_items d)) <= it_stackability (item_type i x);
  ci_mwa : c_max_weight_after_ok c = true <-> forall d, In d ds -> forall a x m b,
    bd_items d = a ++ x :: m ++ b -> within (total_weight i m) (it_max_weight_after (item_type i x));
  ci_copies : c_item_copies_ok c = true <-> forall d, In d ds -> forall x, In x (bd_items d) ->
    packed x ds <= it_copies (item_type i x);
  ci_res : c_resource_ok c = true <-> forall d, In d ds -> forall r,
    In r (bt_resources (bin_type i (bd_type d))) -> res_penalize r = false ->
    PrefAll (fun p x => schedule r x <> [] -> (consumption i r (p ++ [x]) <= res_capacity r)%Q) (bd_items d);
  ci_elig : c_eligibility_ok c = true <-> forall d, In d ds -> forall x, In x (bd_items d) ->
    is_eligible i x (bd_type d)
}.

Lemma count_fold : forall (A : Type) (p : A -> bool) l n,
  fold_left (fun n x => if p x then n + 1 else n) l n = n + Z.of_nat (length (filter p l)).
Proof.
  intros A p l. induction l as [|x l IH]; intro n; simpl; [lia|].
  rewrite IH. destruct (p x); simpl length; lia.
Qed.

Lemma missing_zero : forall copies,
  (count_copies_min_missing i copies =? 0) = true <->
  forall x, (x < ni)%nat -> it_copies_min (item_type i x) <= nth x copies 0.
Proof.
  intro copies. unfold count_copies_min_missing. rewrite Z.eqb_eq.
  rewrite (count_fold _ (fun id => nth id copies 0 <? it_copies_min (item_type i id))).
  split.
  - intros H x Hx.
    destruct (nth x copies 0 <? it_copies_min (item_type i x)) eqn:E; [|apply Z.ltb_ge; assumption].
    assert (Hin : In x (filter (fun id => nth id copies 0 <? it_copies_min (item_type i id)) (seq 0 ni))).
    { apply filter_In. split; [apply in_seq; lia|assumption]. }
    destruct (filter _ _); [destruct Hin|simpl length in H; lia].
  - intro H. destruct (filter _ (seq 0 ni)) as [|x l] eqn:E; [reflexivity|].
    assert (Hin : In x (x :: l)) by (left; reflexivity). rewrite <- E in Hin.
    apply filter_In in Hin. destruct Hin as [H1 H2]. apply in_seq in H1. apply Z.ltb_lt in H2.
    specialize (H x ltac:(lia)). lia.
Qed.

Lemma packed_snoc : forall x ds d,
  packed x (ds ++ [d]) = packed x ds + bd_copies d * Z.of_nat (count_occ Nat.eq_dec (bd_items d) x).
Proof. intros. unfold packed. rewrite zsum_snoc. reflexivity. Qed.

Lemma packed_nonneg : forall x ds, (forall d, In d ds -> 0 <= bd_copies d) -> 0 <= packed x ds.
Proof. intros x ds H. apply zsum_nonneg. intros d Hd. specialize (H d Hd). nia. Qed.

Lemma nth_seq_res : forall A (f : Resource -> A) (g : A -> Q) l,
  qsum (fun r => g (f (nth r l dummy_resource))) (seq 0 (length l)) = qsum (fun r => g (f r)) l.
Proof.
  intros A f g l. rewrite <- (map_length f l) at 1. rewrite map_length.
  induction l as [|r l IH]; [reflexivity|].
  cbn [length seq]. rewrite !qsum_cons. cbn [nth]. f_equal.
  rewrite <- seq_shift, qsum_map. exact IH.
Qed.

Lemma in_snoc : forall A (x : A) l y, In x (l ++ [y]) <-> In x l \/ x = y.
Proof. intros. rewrite in_app_iff. simpl. intuition. Qed.

Lemma forall_snoc : forall A (P : A -> Prop) l y,
  (forall x, In x (l ++ [y]) -> P x) <-> (forall x, In x l -> P x) /\ P y.
Proof.
  intros A P l y. split.
  - intro H. split; [intros x Hx|]; apply H; apply in_snoc; auto.
  - intros [H1 H2] x Hx. apply in_snoc in Hx. destruct Hx as [Hx| ->]; auto.
Qed.

Definition desc_ok (d : BinDesc) : Prop :=
  (bd_type d < nb)%nat /\ (forall x, In x (bd_items d) -> (x < ni)%nat) /\ 0 <= bd_copies d.

(** One call of [update_indicators]. *)
Lemma update_core : forall ds s pos b,
  CoreInv ds (s_core s) -> (forall d, In d ds -> desc_ok d) ->
  nth_error (c_bins (s_core s)) pos = Some b -> desc_ok (view_bin b) -> (sb_weight b == 0)%Q ->
  let s' := update_indicators i cb pos s in
  CoreInv (ds ++ [view_bin b]) (s_core s') /\
  s_callback_ok s' = cb (s_core s') /\
  (s_feasible s' = true <-> PackingOK i (ds ++ [view_bin b]) /\ s_callback_ok s' = true) /\
  exists b', c_bins (s_core s') = upd pos (fun _ => b') (c_bins (s_core s)) /\
    view_bin b' = view_bin b /\ positions_ok i b'.
Proof.
  intros ds s pos b HC Hds Hb (Ht & Hitems & Hcop) Hw s'.
  unfold s', update_indicators. rewrite Hb.
  simpl in Ht, Hitems, Hcop.
  set (t := sb_type b) in *. set (k := sb_copies b) in *.
  destruct HC as [HI Hbcl Hicl Hcap Hwei Hstk Hmwa Hcps Hres Hel].
  destruct HI as [Inb Init Ibl Iil Ico Ipr Ibc Iic Ilen].
  match goal with |- context [fold_left (item_step i t k) (sb_items b) ?l] => set (lo0 := l) end.
  pose proof (loop_inv i t k lo0 Ht Hwf Hcop eq_refl Hw eq_refl eq_refl eq_refl eq_refl Hicl (sb_items b)
    ltac:(intros y Hy; apply Hitems; apply in_map; assumption)) as L.
  set (lo := fold_left (item_step i t k) (sb_items b) lo0) in *.
  set (l := map si_type (sb_items b)) in *.
  destruct L as [L1 L2 L3 L4 L5 L6 L7 L8 L9 L10 L11 L12 L13 L14 L15 L16 L17 L18 L19 L20 L21 L22 L23].
  cbn [lo0 lo_number_of_items lo_item_copies lo_item_length lo_item_profit lo_capacity_ok lo_weight_ok
    lo_stackability_ok lo_max_weight_after_ok lo_item_copies_ok lo_resource_ok lo_eligibility_ok] in *.
  assert (Hd : view_bin b = mkBD t k l) by reflexivity.
  match goal with |- CoreInv _ (s_core (mkSol ?c _ _)) /\ _ => set (c' := c) end.
  assert (Hnew : CoreInv (ds ++ [view_bin b]) c').
  { rewrite Hd. constructor.
    - constructor; unfold c'; cbn [c_number_of_bins c_number_of_items c_bin_length c_item_length c_bin_cost
        c_item_profit c_bin_copies c_item_copies c_length].
      + rewrite zsum_snoc, Inb. reflexivity.
      + rewrite zsum_snoc, L12, Init. simpl. reflexivity.
      + rewrite zsum_snoc, Ibl. reflexivity.
      + rewrite zsum_snoc, L15, Iil. reflexivity.
      + rewrite qsum_snoc, Ico. reflexivity.
      + intro Hs. rewrite qsum_snoc, (L16 Hs), (Ipr Hs). simpl bd_copies. simpl bd_items.
        assert (Hp : (pen i t l == penalties i (mkBD t k l))%Q).
        { unfold pen, penalties. simpl bd_items. simpl bd_type.
          rewrite (nth_seq_res _ (fun r => r) (fun r =>
            if res_penalize r && Qltb (res_capacity r) (consumption i r l) then res_penalty r else 0%Q)).
          reflexivity. }
        rewrite Hp. ring.
      + intros u Hu. unfold used_bins. rewrite zsum_snoc. simpl bd_type. simpl bd_copies.
        rewrite nth_upd by congruence. fold (used_bins u ds). rewrite <- (Ibc u Hu).
        destruct (Nat.eqb t u); lia.
      + intros x Hx. rewrite packed_snoc, (L14 x Hx), (Iic x Hx). reflexivity.
      + destruct (sb_items b) as [|y0 ys] eqn:Ei.
        * subst l. simpl map in *. destruct Ilen as [[Ha Hb0]|(pre & d & post & E & Hne & Hpost & Hv)].
          -- left. split; [assumption|]. intros d Hin. apply in_snoc in Hin. destruct Hin as [Hin| ->]; auto.
          -- right. exists pre, d, (post ++ [mkBD t k []]). split; [rewrite E, <- app_assoc; reflexivity|].
             split; [assumption|]. split; [|assumption].
             intros d' Hin. apply in_snoc in Hin. destruct Hin as [Hin| ->]; auto.
        * right. exists ds, (mkBD t k l), []. split; [reflexivity|].
          split; [unfold l; simpl; discriminate|]. split; [intros d' []|].
          rewrite zsum_snoc, L1, Ibl. reflexivity.
    - unfold c'. cbn [c_bin_copies]. rewrite upd_length. assumption.
    - exact L13.
    - unfold c'. cbn [c_capacity_ok]. rewrite L17, Hcap, forall_snoc. reflexivity.
    - unfold c'. cbn [c_weight_ok]. rewrite L18, Hwei, forall_snoc. reflexivity.
    - unfold c'. cbn [c_stackability_ok]. rewrite L19, Hstk, forall_snoc. reflexivity.
    - unfold c'. cbn [c_max_weight_after_ok]. rewrite L20, Hmwa, forall_snoc. reflexivity.
    - unfold c'. cbn [c_item_copies_ok]. rewrite L21, Hcps. split.
      + intros [Ha Hb0] d Hin x Hx. apply in_snoc in Hin. rewrite packed_snoc. simpl bd_copies. simpl bd_items.
        destruct (in_dec Nat.eq_dec x l) as [Hxl|Hxl].
        * rewrite <- (Iic x (Hitems x Hxl)). apply Hb0. assumption.
        * destruct Hin as [Hin| ->]; [|contradiction].
          rewrite (proj1 (count_occ_not_In Nat.eq_dec l x) Hxl). specialize (Ha d Hin x Hx). lia.
      + intro H. split.
        * intros d Hin x Hx. specialize (H d (proj2 (in_snoc _ _ _ _) (or_introl Hin)) x Hx).
          rewrite packed_snoc in H. simpl bd_copies in H. simpl bd_items in H. nia.
        * intros x Hx. specialize (H (mkBD t k l) (proj2 (in_snoc _ _ _ _) (or_intror eq_refl)) x Hx).
          rewrite packed_snoc in H. simpl bd_copies in H. simpl bd_items in H.
          rewrite (Iic x (Hitems x Hx)). assumption.
    - unfold c'. cbn [c_resource_ok]. rewrite L22, Hres, forall_snoc. simpl bd_type. simpl bd_items.
      assert (Hr : (forall r, (r < length (bt_resources (bin_type i t)))%nat ->
           res_penalize (nth r (bt_resources (bin_type i t)) dummy_resource) = false ->
           PrefAll (fun p x => schedule (nth r (bt_resources (bin_type i t)) dummy_resource) x <> [] ->
             (consumption i (nth r (bt_resources (bin_type i t)) dummy_resource) (p ++ [x])
              <= res_capacity (nth r (bt_resources (bin_type i t)) dummy_resource))%Q) l)
        <-> (forall r, In r (bt_resources (bin_type i t)) -> res_penalize r = false ->
           PrefAll (fun p x => schedule r x <> [] -> (consumption i r (p ++ [x]) <= res_capacity r)%Q) l)).
      { split.
        - intros H r Hr. destruct (In_nth _ _ dummy_resource Hr) as (n & Hn & <-). apply H. assumption.
        - intros H r Hr. apply H. apply nth_In. assumption. }
      rewrite Hr. reflexivity.
    - unfold c'. cbn [c_eligibility_ok]. rewrite L23, Hel, forall_snoc. reflexivity. }
  split; [exact Hnew|]. split; [reflexivity|]. split.
  - cbn [s_feasible s_callback_ok]. rewrite !andb_true_iff.
    change (c_copies_min_missing c') with (count_copies_min_missing i (lo_item_copies lo)).
    rewrite missing_zero.
    destruct Hnew as [NI _ _ N1 N2 N3 N4 N5 N6 N7].
    pose proof (ind_item_copies _ _ _ NI) as NIC.
    change (c_item_copies c') with (lo_item_copies lo) in NIC.
    split.
    + intros ((((((((A1 & A2) & A3) & A4) & A5) & A6) & A7) & A8) & A9). split; [|assumption].
      constructor.
      * intros d Hin. constructor.
        -- apply N1; assumption.
        -- apply N2; assumption.
        -- apply (proj1 N3 A3); assumption.
        -- apply (proj1 N4 A4); assumption.
        -- apply (proj1 N7 A7); assumption.
        -- apply (proj1 N6 A6); assumption.
      * intros d x Hin Hx. apply (proj1 N5 A5 d); assumption.
      * intros x Hx. rewrite <- (NIC x Hx). apply A9. assumption.
    + intros [[P1 P2 P3] A8].
      split; [|intros x Hx; rewrite (NIC x Hx); apply P3; assumption].
      split; [|assumption].
      split; [|apply N7; intros d Hin; apply (ok_eligibility _ _ (P1 d Hin))].
      split; [|apply N6; intros d Hin; apply (ok_resources _ _ (P1 d Hin))].
      split; [|apply N5; intros d Hin x Hx; apply (P2 d x); assumption].
      split; [|apply N4; intros d Hin; apply (ok_weight_after _ _ (P1 d Hin))].
      split; [|apply N3; intros d Hin; apply (ok_stackability _ _ (P1 d Hin))].
      split; [apply N1; intros d Hin; apply (ok_length _ _ (P1 d Hin))|].
      apply N2; intros d Hin; apply (ok_weight _ _ (P1 d Hin)).
  - exists (finish_bin b lo). split; [reflexivity|]. split.
    + unfold view_bin, finish_bin. simpl. rewrite L3. reflexivity.
    + unfold positions_ok. simpl. rewrite L3. auto.
Qed.

(** All bins processed. *)
Record FullInv (s : Solution) : Prop := {
  fi_core : CoreInv (view s) (s_core s);
  fi_pos : forall b, In b (c_bins (s_core s)) -> positions_ok i b;
  fi_cb : s_callback_ok s = match c_bins (s_core s) with [] => true | _ => cb (s_core s) end;
  fi_feasible : s_feasible s = true <-> PackingOK i (view s) /\ s_callback_ok s = true
}.

Lemma core_inv_new : CoreInv [] (s_core (sol_new i)).
Proof.
  constructor; simpl; try (split; [intros _ d []|reflexivity]).
  - constructor; simpl; try reflexivity.
    + intros t Ht. apply nth_repeat.
    + intros x Hx. apply nth_repeat.
    + left. split; [reflexivity|intros d []].
  - apply repeat_length.
  - apply repeat_length.
Qed.

Lemma full_inv_new : FullInv (sol_new i).
Proof.
  constructor.
  - exact core_inv_new.
  - intros b [].
  - reflexivity.
  - unfold sol_new, view; simpl.
    rewrite (count_fold _ (fun it => 0 <? it_copies_min it)), Z.add_0_l.
    assert (Hz : (Z.of_nat (length (filter (fun it => 0 <? it_copies_min it) (in_item_types i))) =? 0) = true
      <-> forall it, In it (in_item_types i) -> it_copies_min it <= 0).
    { rewrite Z.eqb_eq. split.
      - intros H it Hin. destruct (0 <? it_copies_min it) eqn:E; [|apply Z.ltb_ge; assumption].
        assert (Hf : In it (filter (fun it => 0 <? it_copies_min it) (in_item_types i))) by (apply filter_In; auto).
        destruct (filter _ _); [destruct Hf|simpl length in H; lia].
      - intro H. destruct (filter _ _) as [|x l] eqn:E; [reflexivity|].
        assert (Hin : In x (x :: l)) by (left; reflexivity). rewrite <- E in Hin.
        apply filter_In in Hin. destruct Hin as [H1 H2]. apply Z.ltb_lt in H2. specialize (H x H1). lia. }
    rewrite Hz. split.
    + intro H. split; [|reflexivity]. constructor; [intros d []|intros d x []|].
      intros x Hx. unfold packed. simpl. apply H. apply nth_In. assumption.
    + intros [[_ _ H] _] it Hin. destruct (In_nth _ _ dummy_item Hin) as (x & Hx & <-).
      exact (H x Hx).
Qed.

Lemma nth_error_snoc : forall A (l : list A) x, nth_error (l ++ [x]) (length l) = Some x.
Proof.
  intros A l x. rewrite nth_error_app2 by lia. rewrite Nat.sub_diag. reflexivity.
Qed.

Lemma upd_snoc : forall A (l : list A) f x, upd (length l) f (l ++ [x]) = l ++ [f x].
Proof. intros A l f x. induction l as [|y l IH]; simpl; [reflexivity|]. rewrite IH. reflexivity. Qed.

Lemma push_full : forall s b, FullInv s -> (forall d, In d (view s) -> desc_ok d) ->
  desc_ok (view_bin b) -> (sb_weight b == 0)%Q ->
  FullInv (push_bin i cb s b) /\ view (push_bin i cb s b) = view s ++ [view_bin b].
Proof.
  intros s b [HC HP Hcb Hf] Hds Hd Hw.
  unfold push_bin.
  match goal with |- FullInv (update_indicators _ _ _ ?x) /\ _ => set (s1 := x) end.
  assert (HC1 : CoreInv (view s) (s_core s1)).
  { destruct HC as [[A1 A2 A3 A4 A5 A6 A7 A8 A9] B1 B2 B3 B4 B5 B6 B7 B8 B9].
    constructor; try assumption. constructor; assumption. }
  assert (Hb1 : nth_error (c_bins (s_core s1)) (length (c_bins (s_core s))) = Some b).
  { simpl. apply nth_error_snoc. }
  destruct (update_core (view s) s1 (length (c_bins (s_core s))) b HC1 Hds Hb1 Hd Hw)
    as (U1 & U2 & U3 & b' & U4 & U5 & U6).
  set (s' := update_indicators i cb (length (c_bins (s_core s))) s1) in *.
  assert (Hbins : c_bins (s_core s') = c_bins (s_core s) ++ [b']).
  { rewrite U4. simpl. rewrite upd_snoc. reflexivity. }
  assert (Hview : view s' = view s ++ [view_bin b]).
  { unfold view. rewrite Hbins, map_app. simpl. rewrite U5. reflexivity. }
  split; [|assumption]. constructor.
  - rewrite Hview. assumption.
  - intros c Hc. rewrite Hbins in Hc. apply in_snoc in Hc. destruct Hc as [Hc| ->]; auto.
  - rewrite U2, Hbins. destruct (c_bins (s_core s)); reflexivity.
  - rewrite Hview. assumption.
Qed.

(** Partial state of [build]: the first [k] bins are processed. *)
Record BuildInv (bins : list SBin) (k : nat) (s : Solution) : Prop := {
  bi_len : length (c_bins (s_core s)) = length bins;
  bi_view : view s = map view_bin bins;
  bi_core : CoreInv (firstn k (map view_bin bins)) (s_core s);
  bi_done : forall j b, (j < k)%nat -> nth_error (c_bins (s_core s)) j = Some b -> positions_ok i b;
  bi_todo : forall j, (k <= j)%nat -> nth_error (c_bins (s_core s)) j = nth_error bins j;
  bi_flags : k <> 0%nat -> s_callback_ok s = cb (s_core s) /\
     (s_feasible s = true <-> PackingOK i (firstn k (map view_bin bins)) /\ s_callback_ok s = true)
}.

Lemma map_view_upd : forall bins pos b b', nth_error bins pos = Some b -> view_bin b' = view_bin b ->
  map view_bin (upd pos (fun _ => b') bins) = map view_bin bins.
Proof.
  induction bins as [|x bins IH]; intros [|pos] b b' Hb Hv; simpl in *; try discriminate.
  - injection Hb as ->. rewrite Hv. reflexivity.
  - rewrite (IH pos b b'); auto.
Qed.

Lemma nth_error_upd : forall A (l : list A) pos x j, 
  nth_error (upd pos (fun _ => x) l) j =
  if Nat.eqb pos j then (if Nat.ltb j (length l) then Some x else None) else nth_error l j.
Proof.
  induction l as [|y l IH]; intros [|pos] x [|j]; simpl; try reflexivity.
  - destruct (Nat.eqb pos j); reflexivity.
  - rewrite IH. reflexivity.
Qed.

Lemma firstn_succ_snoc : forall A (l : list A) k x, nth_error l k = Some x ->
  firstn (S k) l = firstn k l ++ [x].
Proof.
  induction l as [|y l IH]; intros [|k] x H; simpl in *; try discriminate.
  - injection H as ->. reflexivity.
  - rewrite (IH k x H). reflexivity.
Qed.

Lemma in_firstn : forall A (l : list A) k x, In x (firstn k l) -> In x l.
Proof.
  intros A l k x H. rewrite <- (firstn_skipn k l). apply in_or_app. left. assumption.
Qed.

Lemma build_inv : forall bins,
  (forall b, In b bins -> desc_ok (view_bin b) /\ (sb_weight b == 0)%Q) ->
  forall k, (k <= length bins)%nat ->
  BuildInv bins k (fold_left (fun s pos => update_indicators i cb pos s) (seq 0 k)
                     (with_bins (sol_new i) bins)).
Proof.
  intros bins Hbins k. induction k as [|k IH]; intro Hk.
  - simpl. constructor.
    + reflexivity.
    + reflexivity.
    + simpl firstn. destruct core_inv_new as [[A1 A2 A3 A4 A5 A6 A7 A8 A9] B1 B2 B3 B4 B5 B6 B7 B8 B9].
      constructor; try assumption. constructor; assumption.
    + intros j b Hj. lia.
    + reflexivity.
    + congruence.
  - rewrite seq_S, fold_left_app. simpl.
    assert (Hkl : (k <= length bins)%nat) by lia. specialize (IH Hkl).
    set (s := fold_left (fun s pos => update_indicators i cb pos s) (seq 0 k) (with_bins (sol_new i) bins)) in *.
    destruct IH as [B1 B2 B3 B4 B5 B6].
    destruct (nth_error bins k) as [b|] eqn:Eb; [|apply nth_error_None in Eb; lia].
    assert (Hin : In b bins) by (eapply nth_error_In; eassumption).
    destruct (Hbins b Hin) as [Hd Hw].
    assert (Hsb : nth_error (c_bins (s_core s)) k = Some b) by (rewrite B5; auto).
    assert (Hds : forall d, In d (firstn k (map view_bin bins)) -> desc_ok d).
    { intros d Hd'. apply in_firstn in Hd'. apply in_map_iff in Hd'. destruct Hd' as (c & <- & Hc).
      apply Hbins. assumption. }
    destruct (update_core _ s k b B3 Hds Hsb Hd Hw) as (U1 & U2 & U3 & b' & U4 & U5 & U6).
    assert (Hfs : firstn (S k) (map view_bin bins) = firstn k (map view_bin bins) ++ [view_bin b]).
    { apply firstn_succ_snoc. rewrite nth_error_map, Eb. reflexivity. }
    constructor.
    + rewrite U4, upd_length. assumption.
    + unfold view. rewrite U4, (map_view_upd _ k b b' Hsb U5). exact B2.
    + rewrite Hfs. assumption.
    + intros j c Hj Hc. rewrite U4, nth_error_upd in Hc. destruct (Nat.eqb_spec k j).
      * subst j. destruct (Nat.ltb k _); [|discriminate]. injection Hc as <-. assumption.
      * apply (B4 j c); [lia|assumption].
    + intros j Hj. rewrite U4, nth_error_upd. destruct (Nat.eqb_spec k j); [lia|]. apply B5. lia.
    + intros _. rewrite Hfs. auto.
Qed.

Lemma build_full : forall bins,
  (forall b, In b bins -> desc_ok (view_bin b) /\ (sb_weight b == 0)%Q) ->
  FullInv (sb_build i cb bins) /\ view (sb_build i cb bins) = map view_bin bins.
Proof.
  intros bins Hbins. unfold sb_build.
  destruct bins as [|b0 bins'] eqn:E.
  - simpl. split; [|reflexivity]. exact full_inv_new.
  - rewrite <- E in *. pose proof (build_inv bins Hbins (length bins) (le_n _)) as [B1 B2 B3 B4 B5 B6].
    set (s := fold_left _ _ _) in *.
    split; [|assumption].
    assert (Hne : length bins <> 0%nat) by (rewrite E; discriminate).
    destruct (B6 Hne) as [B7 B8].
    rewrite firstn_all2 in B3, B8 by (rewrite map_length; lia).
    constructor.
    + rewrite B2. assumption.
    + intros b Hb. destruct (In_nth_error _ _ Hb) as (j & Hj).
      apply (B4 j b); [|assumption]. rewrite <- B1. apply nth_error_Some. congruence.
    + rewrite B7. destruct (c_bins (s_core s)); [simpl in B1; lia|reflexivity].
    + rewrite B2. assumption.
Qed.

Lemma map_upd : forall A B (g : A -> B) (f : A -> A) (f' : B -> B) l pos,
  (forall x, g (f x) = f' (g x)) -> map g (upd pos f l) = upd pos f' (map g l).
Proof.
  intros A B g f f' l. induction l as [|x l IH]; intros [|pos] H; simpl; try reflexivity.
  - rewrite H. reflexivity.
  - rewrite IH by assumption. reflexivity.
Qed.

Definition raw_ok (b : SBin) : Prop :=
  (sb_type b < nb)%nat /\ (forall x, In x (map si_type (sb_items b)) -> (x < ni)%nat) /\ (sb_weight b == 0)%Q.

Lemma in_upd : forall A (f : A -> A) l pos y, In y (upd pos f l) -> In y l \/ exists x, In x l /\ y = f x.
Proof.
  intros A f l. induction l as [|x l IH]; intros [|pos] y H; simpl in *; auto.
  - destruct H as [<-|H]; eauto.
  - destruct H as [<-|H]; [auto|]. destruct (IH pos y H) as [H1|(z & H1 & H2)]; eauto.
Qed.

Lemma sb_run_spec : forall calls bins bins', sb_run i bins calls = Some bins' ->
  (forall b, In b bins -> raw_ok b) ->
  map view_bin bins' = desc_run (map view_bin bins) calls /\ (forall b, In b bins' -> raw_ok b).
Proof.
  induction calls as [|call calls IH]; intros bins bins' H Hraw; simpl in H.
  - injection H as <-. auto.
  - destruct call as [t copies|pos id].
    + unfold sb_add_bin in H. destruct (in_range i t []) eqn:Er; [|discriminate].
      destruct (IH _ _ H) as [H1 H2].
      * intros b Hb. apply in_snoc in Hb. destruct Hb as [Hb| ->]; [auto|].
        unfold in_range in Er. rewrite andb_true_iff in Er. destruct Er as [Er _]. apply Nat.ltb_lt in Er.
        split; [exact Er|]. split; [intros x []|reflexivity].
      * rewrite map_app in H1. auto.
    + unfold sb_add_item in H. destruct (_ && _) eqn:Er; [|discriminate].
      apply andb_true_iff in Er. destruct Er as [Er1 Er2]. apply Nat.ltb_lt in Er2.
      destruct (IH _ _ H) as [H1 H2].
      * intros b Hb. apply in_upd in Hb. destruct Hb as [Hb|(c & Hc & ->)]; [auto|].
        destruct (Hraw c Hc) as (R1 & R2 & R3). split; [exact R1|]. split; [|exact R3].
        simpl. intros x Hx. rewrite map_app in Hx. apply in_snoc in Hx. destruct Hx as [Hx| ->]; auto.
      * split; [|assumption]. rewrite H1. simpl. f_equal. apply map_upd.
        intro b. unfold view_bin. simpl. rewrite map_app. reflexivity.
Qed.

Lemma map_id_mapped : forall ids id r, map_id ids id = Some r -> r = mapped ids id.
Proof.
  intros [|x ids] id r H; unfold map_id, mapped in *; [injection H as <-; reflexivity|].
  symmetry. apply nth_error_nth. assumption.
Qed.

Lemma map_ids_mapped : forall ids l r, map_ids ids l = Some r ->
  map si_type r = map (mapped ids) (map si_type l).
Proof.
  intros ids l. induction l as [|x l IH]; intros r H; simpl in H; [injection H as <-; reflexivity|].
  destruct (map_id ids (si_type x)) eqn:E1; [|discriminate].
  destruct (map_ids ids l) eqn:E2; [|discriminate]. injection H as <-. simpl.
  rewrite (map_id_mapped _ _ _ E1), (IH _ eq_refl). reflexivity.
Qed.

Lemma append_bin_spec : forall s source pos copies bids iids s',
  append_bin i cb s source pos copies bids iids = Some s' ->
  FullInv s -> (forall d, In d (view s) -> desc_ok d) -> 0 <= copies ->
  exists d, nth_error (view source) pos = Some d /\
    FullInv s' /\ view s' = view s ++ [mapped_desc bids iids copies d] /\
    desc_ok (mapped_desc bids iids copies d).
Proof.
  intros s source pos copies bids iids s' H Hinv Hds Hc. unfold append_bin in H.
  destruct (nth_error (c_bins (s_core source)) pos) as [b|] eqn:Eb; [|discriminate].
  destruct (map_id bids (sb_type b)) as [t|] eqn:Et; [|discriminate].
  destruct (map_ids iids (sb_items b)) as [items|] eqn:Ei; [|discriminate].
  destruct (in_range i t (map si_type items)) eqn:Er; [|discriminate].
  injection H as <-.
  unfold in_range in Er. apply andb_true_iff in Er. destruct Er as [Er1 Er2].
  apply Nat.ltb_lt in Er1. rewrite forallb_forall in Er2.
  assert (Hd : desc_ok (view_bin (raw_bin t copies items))).
  { split; [exact Er1|]. split; [|exact Hc]. simpl. intros x Hx. apply Nat.ltb_lt. apply Er2. assumption. }
  assert (Hm : view_bin (raw_bin t copies items) = mapped_desc bids iids copies (view_bin b)).
  { unfold view_bin, mapped_desc. simpl. rewrite (map_id_mapped _ _ _ Et), (map_ids_mapped _ _ _ Ei). reflexivity. }
  destruct (push_full s (raw_bin t copies items) Hinv Hds Hd ltac:(reflexivity)) as [P1 P2].
  exists (view_bin b). split; [unfold view; rewrite nth_error_map, Eb; reflexivity|].
  rewrite <- Hm. auto.
Qed.

Lemma append_empty_spec : forall s t copies s',
  append_empty_bin i cb s t copies = Some s' ->
  FullInv s -> (forall d, In d (view s) -> desc_ok d) -> 0 <= copies ->
  FullInv s' /\ view s' = view s ++ [mkBD t copies []] /\ desc_ok (mkBD t copies []).
Proof.
  intros s t copies s' H Hinv Hds Hc. unfold append_empty_bin in H.
  destruct (in_range i t []) eqn:Er; [|discriminate]. injection H as <-.
  unfold in_range in Er. apply andb_true_iff in Er. destruct Er as [Er1 _]. apply Nat.ltb_lt in Er1.
  assert (Hd : desc_ok (view_bin (raw_bin t copies []))).
  { split; [exact Er1|]. split; [intros x []|exact Hc]. }
  destruct (push_full s _ Hinv Hds Hd ltac:(reflexivity)) as [P1 P2]. auto.
Qed.

Lemma append_bins_from_spec : forall source bids iids,
  (forall d, In d (view source) -> 0 <= bd_copies d) ->
  forall positions s s',
  append_bins_from i cb s source bids iids positions = Some s' ->
  FullInv s -> (forall d, In d (view s) -> desc_ok d) ->
  exists ds, map (nth_error (view source)) positions = map Some ds /\
    FullInv s' /\ view s' = view s ++ map (fun d => mapped_desc bids iids (bd_copies d) d) ds /\
    (forall d, In d (view s') -> desc_ok d).
Proof.
  intros source bids iids Hsrc positions. induction positions as [|pos rest IH]; intros s s' H Hinv Hds; simpl in H.
  - injection H as <-. exists []. simpl. rewrite app_nil_r. auto.
  - destruct (nth_error (c_bins (s_core source)) pos) as [b|] eqn:Eb; [|discriminate].
    destruct (append_bin i cb s source pos (sb_copies b) bids iids) as [s1|] eqn:E1; [|discriminate].
    assert (Hvb : nth_error (view source) pos = Some (view_bin b)) by (unfold view; rewrite nth_error_map, Eb; reflexivity).
    assert (Hc : 0 <= sb_copies b).
    { apply (Hsrc (view_bin b)). eapply nth_error_In. eassumption. }
    destruct (append_bin_spec _ _ _ _ _ _ _ E1 Hinv Hds Hc) as (d & D1 & D2 & D3 & D4).
    rewrite Hvb in D1. injection D1 as <-.
    destruct (IH s1 s' H D2) as (ds & F1 & F2 & F3 & F4).
    { rewrite D3. intros d Hd. apply in_snoc in Hd. destruct Hd as [Hd| ->]; auto. }
    exists (view_bin b :: ds). simpl. rewrite Hvb, F1. split; [reflexivity|]. split; [assumption|].
    split; [|assumption]. rewrite F3, D3, <- app_assoc. reflexivity.
Qed.

Lemma map_nth_error_seq : forall A (l ds : list A), map (nth_error l) (seq 0 (length l)) = map Some ds -> ds = l.
Proof.
  intros A l ds H.
  assert (H1 : map (nth_error l) (seq 0 (length l)) = map Some l).
  { clear H ds. induction l as [|x l IH]; [reflexivity|].
    simpl. f_equal. rewrite <- seq_shift, map_map. exact IH. }
  rewrite H1 in H. clear H1. revert ds H. induction l as [|x l IH]; intros [|y ds] H; try discriminate; [reflexivity|].
  injection H as H1 H2. subst y. f_equal. apply IH. assumption.
Qed.

Lemma sol_run_spec : forall calls s s', sol_run i cb s calls = Some s' ->
  FullInv s -> (forall d, In d (view s) -> desc_ok d) -> (forall c, In c calls -> call_ok c) ->
  FullInv s' /\ view s' = view s ++ flat_map call_bins calls /\ (forall d, In d (view s') -> desc_ok d).
Proof.
  induction calls as [|call calls IH]; intros s s' H Hinv Hds Hok; simpl in H.
  - injection H as <-. simpl. rewrite app_nil_r. auto.
  - pose proof (Hok call (or_introl eq_refl)) as Hc.
    assert (Hok' : forall c, In c calls -> call_ok c) by (intros c Hin; apply Hok; right; assumption).
    match type of H with match ?x with _ => _ end = _ => destruct x as [s1|] eqn:E; [|discriminate] end.
    assert (Hs1 : FullInv s1 /\ view s1 = view s ++ call_bins call /\ (forall d, In d (view s1) -> desc_ok d)).
    { destruct call as [source pos copies bids iids|source bids iids|t copies]; simpl in Hc.
      - destruct (append_bin_spec _ _ _ _ _ _ _ E Hinv Hds Hc) as (d & D1 & D2 & D3 & D4).
        simpl call_bins. rewrite D1. split; [assumption|]. split; [assumption|].
        rewrite D3. intros e He. apply in_snoc in He. destruct He as [He| ->]; auto.
      - unfold append_bins in E.
        destruct (append_bins_from_spec source bids iids Hc _ _ _ E Hinv Hds) as (ds & F1 & F2 & F3 & F4).
        assert (ds = view source).
        { apply map_nth_error_seq. rewrite <- F1. unfold view. rewrite map_length. reflexivity. }
        subst ds. auto.
      - destruct (append_empty_spec _ _ _ _ E Hinv Hds Hc) as (F1 & F2 & F3). split; [assumption|].
        split; [assumption|]. rewrite F2. intros e He. apply in_snoc in He. destruct He as [He| ->]; auto. }
    destruct Hs1 as (A1 & A2 & A3).
    destruct (IH s1 s' H A1 A3 Hok') as (B1 & B2 & B3). split; [assumption|]. split; [|assumption].
    simpl flat_map. rewrite B2, A2, <- app_assoc. reflexivity.
Qed.

Lemma history_spec : forall calls1 calls2 s,
  history i cb calls1 calls2 = Some s ->
  (forall d, In d (desc_run [] calls1) -> 0 <= bd_copies d) ->
  (forall c, In c calls2 -> call_ok c) ->
  FullInv s /\ view s = desc_run [] calls1 ++ flat_map call_bins calls2 /\
  (forall d, In d (view s) -> desc_ok d).
Proof.
  intros calls1 calls2 s H Hc1 Hc2. unfold history in H.
  destruct (sb_run i [] calls1) as [bins|] eqn:E; [|discriminate].
  destruct (sb_run_spec calls1 [] bins E) as [V1 V2]; [intros b []|]. simpl in V1.
  assert (Hb : forall b, In b bins -> desc_ok (view_bin b) /\ (sb_weight b == 0)%Q).
  { intros b Hb. destruct (V2 b Hb) as (R1 & R2 & R3). split; [|assumption].
    split; [exact R1|]. split; [exact R2|]. apply Hc1. rewrite <- V1. apply in_map. assumption. }
  destruct (build_full bins Hb) as [F1 F2].
  destruct (sol_run_spec calls2 _ s H F1) as (G1 & G2 & G3).
  - rewrite F2. intros d Hd. apply in_map_iff in Hd. destruct Hd as (b & <- & Hin). apply Hb. assumption.
  - assumption.
  - split; [assumption|]. split; [|assumption]. rewrite G2, F2, V1. reflexivity.
Qed.

End SolutionProof.
