(** * Proofs about maximal empty spaces *)

From Coq Require Import List ZArith QArith Bool Lia Arith Permutation.
From Verif Require Import Util Block_Model Space_Model Space_Spec.
Import ListNotations.
Open Scope Z_scope.

(** ** Boxes *)

Lemma within_refl : forall r, within r r.
Proof. unfold within. induction r; constructor; [lia|assumption]. Qed.
Lemma within_trans : forall r s t, within r s -> within s t -> within r t.
Proof.
  unfold within. intros r s t H. revert t. induction H; intros t H1; inversion H1; subst; constructor; [lia|]. auto.
Qed.
Lemma within_length : forall r s, within r s -> length r = length s.
Proof. unfold within. intros r s H. induction H; simpl; congruence. Qed.
Lemma within_antisym : forall r s, within r s -> within s r -> r = s.
Proof.
  unfold within. intros r s H. induction H; intro H1; inversion H1; subst; [reflexivity|]. f_equal; [|auto].
  destruct x, y. simpl in *. f_equal; lia.
Qed.
Lemma apart_within : forall r s o, within r s -> apart s o -> apart r o.
Proof.
  unfold within. intros r s o H. revert o. induction H; intros o A; inversion A; subst; [apply ap_here; lia|apply ap_next; auto].
Qed.
Lemma apart_sym : forall r s, apart r s -> apart s r.
Proof. intros r s H. induction H; [apply ap_here; tauto|apply ap_next; assumption]. Qed.

Lemma contains_within : forall e n, length e = length n -> (sp_contains e n = true <-> within n e).
Proof.
  unfold within. induction e as [|a e IH]; intros [|b n] L; try discriminate; cbn [sp_contains].
  - split; [constructor|reflexivity].
  - rewrite !andb_true_iff, !Z.leb_le, IH by (simpl in L; lia). unfold a_start, a_end. split.
    + intros [[A B] C]. constructor; [lia|assumption].
    + intro H. inversion H; subst. repeat split; try lia. assumption.
Qed.

Lemma overlaps_apart : forall s b, length s = length b -> (sp_overlaps s b = false <-> apart s b).
Proof.
  induction s as [|x s IH]; intros [|y b] L; try discriminate; cbn [sp_overlaps].
  - split; [discriminate|intro H; inversion H].
  - rewrite andb_false_iff, andb_false_iff, !Z.ltb_ge, IH by (simpl in L; lia). unfold a_start, a_end. split.
    + intros [[A|A]|A]; [apply ap_here; lia|apply ap_here; lia|apply ap_next; assumption].
    + intro H. inversion H; subst; [|tauto]. left. tauto.
Qed.

Lemma positive_no_zero : forall n, positive n -> existsb (fun a => snd a =? 0) n = false.
Proof.
  intros n H. induction H; [reflexivity|]. cbn [existsb]. destruct (Z.eqb_spec (snd x) 0); [lia|assumption].
Qed.

(** ** Sub-spaces *)

Lemma subs_length : forall s b n, In n (subs s b) -> length n = length s.
Proof.
  induction s as [|x s IH]; intros [|y b] n H; try destruct H. cbn [subs] in H.
  apply in_app_or in H. destruct H as [H|H].
  - destruct (a_start x <? a_start y); [destruct H as [<-|[]]; reflexivity|destruct H].
  - apply in_app_or in H. destruct H as [H|H].
    + destruct (a_end y <? a_end x); [destruct H as [<-|[]]; reflexivity|destruct H].
    + apply in_map_iff in H. destruct H as (m & <- & Hm). cbn [length]. f_equal. apply (IH b m Hm).
Qed.
Lemma subs_count : forall s b, (length (subs s b) <= 2 * length b)%nat.
Proof.
  induction s as [|x s IH]; intros [|y b]; try (simpl; lia). cbn [subs]. rewrite !app_length, map_length. specialize (IH b).
  destruct (a_start x <? a_start y), (a_end y <? a_end x); cbn [length]; lia.
Qed.

Lemma subs_spec : forall s b n, length s = length b -> positive s -> sp_overlaps s b = true -> In n (subs s b) ->
  positive n /\ within n s /\ apart n b /\ ~ within s n.
Proof.
  induction s as [|x s IH]; intros [|y b] n L P O H; try destruct H; try discriminate. cbn [sp_overlaps] in O.
  apply andb_prop in O. destruct O as [O O3]. apply andb_prop in O. destruct O as [O1 O2]. apply Z.ltb_lt in O1, O2.
  unfold positive in P. inversion P as [|? ? P1 P2]; subst. unfold a_start, a_end in *.
  cbn [subs] in H. apply in_app_or in H. destruct H as [H|H].
  - unfold a_start, a_end in H. destruct (Z.ltb_spec (fst x) (fst y)); [|destruct H]. destruct H as [<-|[]].
    split; [constructor; [simpl; lia|assumption]|]. split; [constructor; [simpl; lia|apply within_refl]|].
    split; [apply ap_here; simpl; lia|]. intro W. inversion W; subst. simpl in *. lia.
  - apply in_app_or in H. destruct H as [H|H].
    + unfold a_start, a_end in H. destruct (Z.ltb_spec (fst y + snd y) (fst x + snd x)); [|destruct H]. destruct H as [<-|[]].
      split; [constructor; [simpl; lia|assumption]|]. split; [constructor; [simpl; lia|apply within_refl]|].
      split; [apply ap_here; simpl; lia|]. intro W. inversion W; subst. simpl in *. lia.
    + apply in_map_iff in H. destruct H as (m & <- & Hm). destruct (IH b m) as (A1 & A2 & A3 & A4); auto.
      split; [constructor; assumption|]. split; [constructor; [lia|assumption]|]. split; [apply ap_next; assumption|].
      intro W. inversion W; subst. contradiction.
Qed.

Definition incomparable (m n : Space) : Prop := ~ within m n /\ ~ within n m.

Lemma ord_pairs_map : forall A B (f : A -> B) R l, ForallOrdPairs (fun a b => R (f a) (f b)) l -> ForallOrdPairs R (map f l).
Proof.
  intros A B f R l H. induction H; [constructor|]. constructor; [|assumption]. apply Forall_forall. intros y Hy.
  apply in_map_iff in Hy. destruct Hy as (z & <- & Hz). rewrite Forall_forall in H. auto.
Qed.
Lemma ord_pairs_app : forall A (R : A -> A -> Prop) l1 l2, ForallOrdPairs R l1 -> ForallOrdPairs R l2 ->
  (forall a b, In a l1 -> In b l2 -> R a b) -> ForallOrdPairs R (l1 ++ l2).
Proof.
  intros A R l1 l2 H. induction H; intros H2 Hx; [assumption|]. cbn [app]. constructor.
  - apply Forall_app. split; [assumption|]. apply Forall_forall. intros b Hb. apply Hx; [left; reflexivity|assumption].
  - apply IHForallOrdPairs; [assumption|]. intros c b Hc Hb. apply Hx; [right; assumption|assumption].
Qed.
Lemma ord_pairs_weaken : forall A (R R' : A -> A -> Prop) l, (forall a b, R a b -> R' a b) -> ForallOrdPairs R l -> ForallOrdPairs R' l.
Proof. intros A R R' l H F. induction F; constructor; [|assumption]. eapply Forall_impl; [|eassumption]. auto. Qed.

Lemma subs_incomparable : forall s b, length s = length b -> positive s -> sp_overlaps s b = true ->
  ForallOrdPairs incomparable (subs s b).
Proof.
  induction s as [|x s IH]; intros [|y b] L P O; try (constructor; fail); try discriminate.
  assert (O' := O). cbn [sp_overlaps] in O. apply andb_prop in O. destruct O as [O O3]. apply andb_prop in O. destruct O as [O1 O2].
  apply Z.ltb_lt in O1, O2. unfold positive in P. inversion P as [|? ? P1 P2]; subst. simpl in L. injection L as L.
  assert (Hs : forall m, In m (subs s b) -> ~ within s m) by (intros m Hm; apply (subs_spec s b m); auto).
  cbn [subs]. unfold a_start, a_end in *.
  assert (E : forall m, In m (map (cons x) (subs s b)) -> exists m', m = x :: m' /\ In m' (subs s b)).
  { intros m Hm. apply in_map_iff in Hm. destruct Hm as (m' & <- & Hm'). eauto. }
  apply ord_pairs_app; [|apply ord_pairs_app|].
  - destruct (_ <? _); repeat constructor.
  - destruct (_ <? _); repeat constructor.
  - apply ord_pairs_map. apply (ord_pairs_weaken _ incomparable); [|apply IH; assumption].
    intros m n [A B]. split; intro W; inversion W; subst; contradiction.
  - intros m n Hm Hn. destruct (Z.ltb_spec (fst y + snd y) (fst x + snd x)); [|destruct Hm]. destruct Hm as [<-|[]].
    destruct (E n Hn) as (n' & -> & Hn'). split; intro W; inversion W; subst; simpl in *; [apply (Hs n' Hn'); assumption|lia].
  - intros m n Hm Hn. destruct (Z.ltb_spec (fst x) (fst y)); [|destruct Hm]. destruct Hm as [<-|[]].
    apply in_app_or in Hn. destruct Hn as [Hn|Hn].
    + destruct (Z.ltb_spec (fst y + snd y) (fst x + snd x)); [|destruct Hn]. destruct Hn as [<-|[]].
      split; intro W; inversion W; subst; simpl in *; lia.
    + destruct (E n Hn) as (n' & -> & Hn'). split; intro W; inversion W; subst; simpl in *; [apply (Hs n' Hn'); assumption|lia].
Qed.

(** A box of [s] that does not meet [b] is in one of the sub-spaces. *)
Lemma subs_cover : forall s b r, within r s -> positive r -> apart r b -> exists n, In n (subs s b) /\ within r n.
Proof.
  intros s b r W P A. revert s W P. induction A as [a y r b H|a y r b A IH]; intros s W P.
  - inversion W as [|? x ? s' E1 E2]; subst. inversion P as [|? ? P1 P2]; subst. cbn [subs]. unfold a_start, a_end. destruct H as [H|H].
    + exists ((fst x, fst y - fst x) :: s'). split.
      * apply in_or_app. left. destruct (Z.ltb_spec (fst x) (fst y)); [left; reflexivity|lia].
      * constructor; [simpl; lia|assumption].
    + exists ((fst y + snd y, fst x + snd x - (fst y + snd y)) :: s'). split.
      * apply in_or_app. right. apply in_or_app. left. destruct (Z.ltb_spec (fst y + snd y) (fst x + snd x)); [left; reflexivity|lia].
      * constructor; [simpl; lia|assumption].
  - inversion W as [|? x ? s' E1 E2]; subst. inversion P as [|? ? P1 P2]; subst. destruct (IH s' E2 P2) as (n & Hn & Wn).
    exists (x :: n). split; [|constructor; assumption]. cbn [subs]. apply in_or_app. right. apply in_or_app. right. apply in_map. assumption.
Qed.

(** ** Swap-removal *)

Lemma swap_remove_snoc : forall A i (l : list A) z,
  swap_remove i (l ++ [z]) = if Nat.eqb i (length l) then l else upd i (fun _ => z) l.
Proof. intros. unfold swap_remove. rewrite rev_app_distr. cbn [rev app]. rewrite rev_length, rev_involutive. reflexivity. Qed.

Lemma upd_perm : forall A i (l : list A) a z, nth_error l i = Some a -> Permutation (z :: l) (a :: upd i (fun _ => z) l).
Proof.
  induction i as [|i IH]; intros [|x l] a z H; try discriminate; cbn [nth_error] in H; cbn [upd].
  - injection H as ->. apply perm_swap.
  - specialize (IH l a z H). etransitivity; [apply perm_swap|]. etransitivity; [|apply perm_swap]. constructor. assumption.
Qed.

Lemma swap_remove_perm : forall A i (l : list A) a, nth_error l i = Some a -> Permutation l (a :: swap_remove i l).
Proof.
  intros A i l a H. destruct (exists_last_or_nil _ l) as [->|(l' & z & ->)]; [destruct i; discriminate|].
  rewrite swap_remove_snoc. destruct (Nat.eqb_spec i (length l')) as [->|N].
  - rewrite nth_error_app2, Nat.sub_diag in H by lia. injection H as ->. symmetry. apply Permutation_cons_append.
  - assert (Hi : (i < length l')%nat).
    { assert (i < length (l' ++ [z]))%nat by (apply nth_error_Some; rewrite H; discriminate). rewrite app_length in *. simpl in *. lia. }
    rewrite nth_error_app1 in H by assumption. etransitivity; [symmetry; apply Permutation_cons_append|]. apply upd_perm. assumption.
Qed.

Lemma swap_remove_before : forall A i (l : list A) a j, nth_error l i = Some a -> (j < i)%nat ->
  nth_error (swap_remove i l) j = nth_error l j.
Proof.
  intros A i l a j H Hj. destruct (exists_last_or_nil _ l) as [->|(l' & z & ->)]; [reflexivity|].
  rewrite swap_remove_snoc.
  assert (HL : (i < length (l' ++ [z]))%nat) by (apply nth_error_Some; rewrite H; discriminate). rewrite app_length in HL. cbn [length] in HL.
  destruct (Nat.eqb_spec i (length l')) as [->|N]; [rewrite nth_error_app1 by lia; reflexivity|].
  rewrite nth_error_app1 by lia. assert (Hi : (i < length l')%nat) by lia. clear H N HL. revert i j Hj Hi.
  induction l' as [|x l' IH]; intros i j Hj Hi; [simpl in Hi; lia|]. destruct i; [lia|]. destruct j; [reflexivity|]. cbn [upd nth_error].
  apply IH; simpl in Hi; lia.
Qed.

Lemma swap_filter_loop_spec : forall A (keep : A -> bool) fuel i l, (length l - i <= fuel)%nat ->
  (forall j a, (j < i)%nat -> nth_error l j = Some a -> keep a = true) ->
  Permutation (swap_filter_loop keep fuel i l) (filter keep l).
Proof.
  intros A keep. induction fuel as [|fuel IH]; intros i l Hf Hb; cbn [swap_filter_loop].
  - replace (filter keep l) with l; [reflexivity|]. symmetry.
    assert (G : forall a, In a l -> keep a = true).
    { intros a Ha. apply In_nth_error in Ha. destruct Ha as (j & Hj). apply (Hb j); [|assumption].
      assert (j < length l)%nat by (apply nth_error_Some; rewrite Hj; discriminate). lia. }
    clear Hb Hf. induction l as [|x l IHl]; [reflexivity|]. cbn [filter]. rewrite (G x) by (left; reflexivity). f_equal.
    apply IHl. intros a Ha. apply G. right. assumption.
  - destruct (nth_error l i) as [a|] eqn:E.
    + assert (i < length l)%nat by (apply nth_error_Some; rewrite E; discriminate). destruct (keep a) eqn:K.
      * apply IH; [lia|]. intros j b Hj Hn. destruct (Nat.eq_dec j i) as [->|]; [congruence|]. apply (Hb j); [lia|assumption].
      * pose proof (swap_remove_perm _ _ _ _ E) as P. etransitivity.
        -- apply IH.
           ++ apply Permutation_length in P. simpl in P. lia.
           ++ intros j b Hj Hn. rewrite (swap_remove_before _ _ _ _ _ E Hj) in Hn. apply (Hb j b Hj Hn).
        -- clear - P K. assert (G : forall l1 l2, Permutation l1 l2 -> Permutation (filter keep l1) (filter keep l2)).
           { intros l1 l2 Q. induction Q; cbn [filter]; [constructor|destruct (keep x); [constructor|]; assumption| |etransitivity; eassumption].
             destruct (keep x), (keep y); try reflexivity. apply perm_swap. }
           apply G in P. cbn [filter] in P. rewrite K in P. symmetry. assumption.
    + apply nth_error_None in E. clear IH Hf. replace (filter keep l) with l; [reflexivity|]. symmetry.
      assert (G : forall a, In a l -> keep a = true).
      { intros a Ha. apply In_nth_error in Ha. destruct Ha as (j & Hj). apply (Hb j); [|assumption].
        assert (j < length l)%nat by (apply nth_error_Some; rewrite Hj; discriminate). lia. }
      clear Hb E. induction l as [|x l IH]; [reflexivity|]. cbn [filter]. rewrite (G x) by (left; reflexivity). f_equal.
      apply IH. intros a Ha. apply G. right. assumption.
Qed.

Lemma swap_filter_perm : forall A (keep : A -> bool) l, Permutation (swap_filter keep l) (filter keep l).
Proof. intros. unfold swap_filter. apply swap_filter_loop_spec; [lia|]. intros j a Hj. lia. Qed.
Lemma swap_filter_in : forall A (keep : A -> bool) l a, In a (swap_filter keep l) <-> In a l /\ keep a = true.
Proof.
  intros. rewrite <- filter_In. pose proof (swap_filter_perm A keep l) as P. split; intro H;
    [eapply Permutation_in; [exact P|exact H]|eapply Permutation_in; [symmetry; exact P|exact H]].
Qed.
Lemma swap_filter_nodup : forall A (keep : A -> bool) l, NoDup l -> NoDup (swap_filter keep l).
Proof. intros. eapply Permutation_NoDup; [symmetry; apply swap_filter_perm|]. apply NoDup_filter. assumption. Qed.

(** ** The cut *)

Definition antichain (l : list Space) : Prop := NoDup l /\ forall s t, In s l -> In t l -> within s t -> s = t.

Section Cut.

Variable bin : Space.
Variable obs : list Space.
Variable U : Space -> Prop.

Record good (l : list Space) : Prop := {
  gd_free : forall s, In s l -> free bin obs s;
  gd_anti : antichain l
}.
Definition covers (o : list Space) (l : list Space) : Prop :=
  forall r, free bin o r -> U r -> exists s, In s l /\ within r s.

Lemma good_perm : forall l l', Permutation l l' -> good l -> good l'.
Proof.
  intros l l' P [F [N A]]. assert (I : forall s, In s l' -> In s l) by (intros s; apply Permutation_in; symmetry; assumption).
  split; [auto|]. split; [eapply Permutation_NoDup; eassumption|auto].
Qed.

Lemma add_space_spec : forall l n, positive n -> (forall e, In e l -> length e = length n) ->
  (add_space l n = l /\ exists e, In e l /\ within n e) \/ (add_space l n = l ++ [n] /\ forall e, In e l -> ~ within n e).
Proof.
  intros l n P L. unfold add_space. rewrite positive_no_zero by assumption. destruct (existsb (fun e => sp_contains e n) l) eqn:E.
  - left. split; [reflexivity|]. apply existsb_exists in E. destruct E as (e & He & Hc). exists e. split; [assumption|].
    apply contains_within; auto.
  - right. split; [reflexivity|]. intros e He W. assert (existsb (fun e => sp_contains e n) l = true); [|congruence].
    apply existsb_exists. exists e. split; [assumption|]. apply contains_within; auto.
Qed.

Lemma adds_spec : forall ns l, (forall n, In n ns -> positive n) -> (forall e n, In e l -> In n ns -> length e = length n) ->
  (forall m n, In m ns -> In n ns -> length m = length n) ->
  antichain l -> (forall e n, In e l -> In n ns -> ~ within e n) -> ForallOrdPairs incomparable ns ->
  exists extra, fold_left add_space ns l = l ++ extra /\ (forall n, In n extra -> In n ns) /\ (length extra <= length ns)%nat
    /\ antichain (l ++ extra) /\ forall n, In n ns -> exists e, In e (l ++ extra) /\ within n e.
Proof.
  induction ns as [|n ns IH]; intros l P L1 L2 A D I; cbn [fold_left].
  - exists []. rewrite app_nil_r. repeat split; try tauto; try (apply A); try (simpl; lia).
  - inversion I as [|? ? I1 I2]; subst. rewrite Forall_forall in I1.
    destruct (add_space_spec l n) as [[E (e & He & W)]|[E W]]; [apply P; left; reflexivity|intros e He; apply L1; [assumption|left; reflexivity]| |].
    + rewrite E. destruct (IH l) as (extra & E1 & E2 & E3 & E4 & E5); auto.
      { intros; apply P; right; assumption. } { intros; apply L1; [assumption|right; assumption]. }
      { intros; apply L2; right; assumption. } { intros e' n' He' Hn'. apply D; [assumption|right; assumption]. }
      exists extra. split; [assumption|]. split; [intros; right; auto|]. split; [simpl; lia|]. split; [assumption|].
      intros m [<-|Hm]; [|auto]. exists e. split; [apply in_or_app; left; assumption|assumption].
    + rewrite E. destruct (IH (l ++ [n])) as (extra & E1 & E2 & E3 & E4 & E5).
      { intros; apply P; right; assumption. }
      { intros e' m He' Hm. apply in_app_or in He'. destruct He' as [He'|[<-|[]]]; [apply L1; [assumption|right; assumption]|apply L2; [left; reflexivity|right; assumption]]. }
      { intros; apply L2; right; assumption. }
      { destruct A as [A1 A2]. split.
        - eapply Permutation_NoDup; [apply Permutation_cons_append|]. constructor; [|assumption]. intro Hn. apply (W n Hn). apply within_refl.
        - intros s t Hs Ht Hw. apply in_app_or in Hs. apply in_app_or in Ht.
          destruct Hs as [Hs|[<-|[]]], Ht as [Ht|[<-|[]]]; auto.
          + exfalso. apply (D s n Hs (or_introl eq_refl) Hw).
          + exfalso. apply (W t Ht Hw). }
      { intros e' m He' Hm. apply in_app_or in He'. destruct He' as [He'|[<-|[]]]; [apply D; [assumption|right; assumption]|apply (I1 m Hm)]. }
      { assumption. }
      rewrite <- app_assoc in E1, E4. cbn [app] in E1, E4. exists (n :: extra). split; [assumption|]. split.
      { intros m [<-|Hm]; [left; reflexivity|right; auto]. }
      split; [simpl; lia|]. split; [assumption|].
      intros m [<-|Hm].
      * exists n. split; [apply in_or_app; right; left; reflexivity|apply within_refl].
      * destruct (E5 m Hm) as (e & He & Hw). exists e. rewrite <- app_assoc in He. split; assumption.
Qed.

Definition meets (b : Space) (l : list Space) : nat := length (filter (fun s => sp_overlaps s b) l).

Lemma meets_perm : forall b l l', Permutation l l' -> meets b l = meets b l'.
Proof.
  intros b l l' P. unfold meets. induction P; cbn [filter]; try destruct (sp_overlaps x b); try destruct (sp_overlaps y b); cbn [length]; congruence.
Qed.

Variable b : Space.
Hypothesis Hb : length b = length bin.

Lemma good_length : forall l s, good l -> In s l -> length s = length b.
Proof. intros l s G Hs. destruct (gd_free l G s Hs) as (_ & W & _). rewrite (within_length _ _ W). congruence. Qed.

Lemma cut_loop_spec : forall fuel i l, good l -> covers (b :: obs) l ->
  (forall j s, (j < i)%nat -> nth_error l j = Some s -> sp_overlaps s b = false) ->
  (length l - i + 2 * length b * meets b l < fuel)%nat ->
  exists l', cut_loop fuel i l b = Some l' /\ good l' /\ covers (b :: obs) l' /\ forall s, In s l' -> apart s b.
Proof.
  induction fuel as [|fuel IH]; intros i l G C B F; [lia|]. cbn [cut_loop]. destruct (nth_error l i) as [s|] eqn:E.
  - assert (Hi : (i < length l)%nat) by (apply nth_error_Some; rewrite E; discriminate).
    assert (Hs : In s l) by (eapply nth_error_In; eassumption).
    destruct (sp_overlaps s b) eqn:O.
    + pose proof (swap_remove_perm _ _ _ _ E) as P. set (l0 := swap_remove i l) in *.
      pose proof (good_perm _ _ P G) as G0.
      assert (Hlen : length s = length b) by (apply (good_length l); assumption).
      destruct (gd_free _ G s Hs) as (Sp & Sw & So).
      assert (Sub : forall n, In n (subs s b) -> positive n /\ within n s /\ apart n b /\ ~ within s n)
        by (intros n Hn; apply subs_spec; assumption).
      assert (Hin0 : forall e, In e l0 -> In e l) by (intros e He; apply (Permutation_in e (Permutation_sym P)); right; assumption).
      destruct (gd_anti _ G0) as [N0 A0]. inversion N0 as [|? ? N1 N2]; subst.
      destruct (adds_spec (subs s b) l0) as (extra & E1 & E2 & E3 & E4 & E5).
      { intros n Hn. apply Sub. assumption. }
      { intros e n He Hn. rewrite (subs_length _ _ _ Hn). rewrite (good_length l e G (Hin0 e He)). congruence. }
      { intros m n Hm Hn. rewrite (subs_length _ _ _ Hm), (subs_length _ _ _ Hn). reflexivity. }
      { split; [assumption|]. intros; apply A0; try (right; assumption); assumption. }
      { intros e n He Hn W. assert (e = s); [|subst; contradiction]. apply A0; [right; assumption|left; reflexivity|].
        eapply within_trans; [exact W|]. apply Sub. assumption. }
      { apply subs_incomparable; assumption. }
      rewrite E1. apply IH.
      * split; [|assumption]. intros t Ht. apply in_app_or in Ht. destruct Ht as [Ht|Ht]; [apply (gd_free _ G); auto|].
        apply E2 in Ht. destruct (Sub t Ht) as (T1 & T2 & T3 & T4). split; [assumption|]. split; [eapply within_trans; eassumption|].
        intros o Ho. eapply apart_within; [eassumption|]. auto.
      * intros r Hr Ur. destruct (C r Hr Ur) as (t & Ht & Wt). apply (Permutation_in t P) in Ht. destruct Ht as [<-|Ht].
        -- destruct Hr as (Rp & _ & Ro). destruct (subs_cover s b r Wt Rp) as (n & Hn & Wn); [apply Ro; left; reflexivity|].
           destruct (E5 n Hn) as (e & He & We). exists e. split; [assumption|]. eapply within_trans; eassumption.
        -- exists t. split; [apply in_or_app; left; assumption|assumption].
      * intros j t Hj Ht. assert (Hj0 : (j < length l0)%nat).
        { apply Permutation_length in P. simpl in P. lia. }
        rewrite nth_error_app1 in Ht by assumption. 
        assert (Hs0 : nth_error l0 j = nth_error l j) by (apply (swap_remove_before _ _ _ s _ E Hj)).
        apply (B j t Hj). rewrite <- Hs0. exact Ht.
      * assert (M : (meets b l = S (meets b l0))%nat).
        { rewrite (meets_perm b _ _ P). unfold meets. cbn [filter]. rewrite O. reflexivity. }
        assert (M2 : meets b (l0 ++ extra) = meets b l0).
        { unfold meets. rewrite filter_app, app_length. replace (filter (fun s0 => sp_overlaps s0 b) extra) with (@nil Space); [simpl; lia|].
          symmetry. clear - E2 Sub Hlen. induction extra as [|n extra IHe]; [reflexivity|]. cbn [filter].
          assert (Hn : In n (subs s b)) by (apply E2; left; reflexivity).
          replace (sp_overlaps n b) with false.
          - apply IHe. intros m Hm. apply E2. right. assumption.
          - symmetry. apply overlaps_apart; [rewrite (subs_length _ _ _ Hn); assumption|]. apply Sub. assumption. }
        rewrite M2. apply Permutation_length in P. simpl in P. rewrite app_length. pose proof (subs_count s b). nia.
    + apply IH; [assumption|assumption| |lia]. intros j t Hj Ht. destruct (Nat.eq_dec j i) as [->|]; [congruence|]. apply (B j t); [lia|assumption].
  - apply nth_error_None in E. exists l. split; [reflexivity|]. split; [assumption|]. split; [assumption|].
    intros s Hs. apply overlaps_apart; [apply (good_length l); assumption|]. apply In_nth_error in Hs. destruct Hs as (j & Hj). apply (B j); [|assumption].
    assert (j < length l)%nat by (apply nth_error_Some; rewrite Hj; discriminate). lia.
Qed.

Lemma cut_spaces_spec : forall l, good l -> covers obs l ->
  exists l', cut_spaces l b = Some l' /\ good l' /\ covers (b :: obs) l' /\ forall s, In s l' -> apart s b.
Proof.
  intros l G C. unfold cut_spaces. apply cut_loop_spec; [assumption| | |].
  - intros r (R1 & R2 & R3) Ur. apply C; [|assumption]. split; [assumption|]. split; [assumption|]. intros o Ho. apply R3. right. assumption.
  - intros j s Hj. lia.
  - unfold cut_fuel. assert (meets b l <= length l)%nat.
    { unfold meets. clear. induction l as [|x l IH]; cbn [filter length]; [lia|]. destruct (sp_overlaps x b); cbn [length]; lia. }
    nia.
Qed.

End Cut.

(** More obstacles. *)
Lemma free_more : forall bin o obs r, free bin (o :: obs) r <-> apart r o /\ free bin obs r.
Proof.
  intros. unfold free. split.
  - intros (A & B & C). split; [apply C; left; reflexivity|]. repeat split; auto. intros p Hp. apply C. right. assumption.
  - intros (A & B & C & D). repeat split; auto. intros p [<-|Hp]; auto.
Qed.
Lemma free_ext : forall bin obs obs' r, (forall o, In o obs <-> In o obs') -> (free bin obs r <-> free bin obs' r).
Proof. intros bin obs obs' r H. unfold free. split; intros (A & B & C); repeat split; auto; intros o Ho; apply C, H, Ho. Qed.
Lemma maximal_ext : forall bin obs obs' r, (forall o, In o obs <-> In o obs') -> (maximal_free bin obs r <-> maximal_free bin obs' r).
Proof.
  intros bin obs obs' r H. unfold maximal_free. rewrite (free_ext bin obs obs' r H).
  split; intros [A B]; (split; [assumption|]); intros r' F; apply B; apply (free_ext bin obs obs' r' H); assumption.
Qed.

Lemma good_more : forall bin o obs l, good bin obs l -> (forall s, In s l -> apart s o) -> good bin (o :: obs) l.
Proof. intros bin o obs l [F A] H. split; [|assumption]. intros s Hs. apply free_more. split; auto. Qed.
Lemma good_ext : forall bin obs obs' l, (forall o, In o obs <-> In o obs') -> good bin obs l -> good bin obs' l.
Proof. intros bin obs obs' l H [F A]. split; [|assumption]. intros s Hs. apply (free_ext bin obs obs' s H). auto. Qed.
Lemma covers_ext : forall bin U obs obs' l, (forall o, In o obs <-> In o obs') -> covers bin U obs l -> covers bin U obs' l.
Proof. intros bin U obs obs' l H C r F. apply C. apply (free_ext bin obs obs' r H). assumption. Qed.

(** Good lists are lists of maximal boxes. *)
Lemma good_maximal : forall bin obs (U : Space -> Prop) l, (forall r r', within r r' -> U r -> U r') ->
  good bin obs l -> covers bin U obs l -> (forall s, In s l -> U s -> maximal_free bin obs s) /\
  (forall r, maximal_free bin obs r -> U r -> In r l).
Proof.
  intros bin obs U l Up [F [N A]] C. split.
  - intros s Hs Us. split; [auto|]. intros r' Fr W. destruct (C r' Fr (Up _ _ W Us)) as (t & Ht & Wt).
    assert (s = t) by (apply A; [assumption|assumption|eapply within_trans; eassumption]). subst t. apply within_antisym; assumption.
  - intros r [Fr M] Ur. destruct (C r Fr Ur) as (t & Ht & Wt). rewrite <- (M t (F t Ht) Wt). assumption.
Qed.

Lemma cut_all_spec : forall bin (U : Space -> Prop) obs done l, (forall o, In o obs -> length o = length bin) ->
  good bin done l -> covers bin U done l ->
  exists l', cut_all l obs = Some l' /\ good bin (done ++ obs) l' /\ covers bin U (done ++ obs) l'.
Proof.
  intros bin U. induction obs as [|o obs IH]; intros done l L G C; cbn [cut_all].
  - exists l. rewrite app_nil_r. auto.
  - destruct (cut_spaces_spec bin done U o (L o (or_introl eq_refl)) l G C) as (l1 & -> & G1 & C1 & A1).
    destruct (IH (done ++ [o]) l1) as (l2 & E & G2 & C2).
    + intros; apply L; right; assumption.
    + apply (good_ext bin (o :: done)); [intro x; rewrite in_app_iff; simpl; tauto|]. apply good_more; assumption.
    + apply (covers_ext bin U (o :: done)); [intro x; rewrite in_app_iff; simpl; tauto|]. assumption.
    + rewrite <- app_assoc in G2, C2. cbn [app] in G2, C2. eauto.
Qed.

Lemma start_good : forall bin U, positive bin -> good bin [] [bin] /\ covers bin U [] [bin].
Proof.
  intros bin U P. split.
  - split.
    + intros s [<-|[]]. split; [assumption|]. split; [apply within_refl|]. intros o [].
    + split; [repeat constructor; simpl; tauto|]. intros s t [<-|[]] [<-|[]]. reflexivity.
  - intros r (_ & W & _) _. exists bin. split; [left; reflexivity|assumption].
Qed.
