(** * Proofs about the stacks built by the rectangleguillotine instance builder *)

From Coq Require Import List ZArith Bool Lia Arith.
From Verif Require Import Util Common_Model OneDim_Model OneDim_Spec OneDimBuilder_Model OneDimBuilder_Spec OneDimBuilder_Proof
  Guil_Model GuilBuilder_Model.
Import ListNotations.
Open Scope Z_scope.

(** ** Prefix sums *)

Lemma hprefix_spec : forall l, length (hprefix l) = S (length l) /\
  (forall k, (k <= length l)%nat -> nth k (hprefix l) 0 = zsum (fun v => v) (firstn k l)) /\
  last (hprefix l) 0 = zsum (fun v => v) l.
Proof.
  intro l. unfold hprefix. induction l as [|v l IH] using rev_ind.
  - split; [reflexivity|]. split; [|reflexivity]. intros k Hk. cbn in Hk. replace k with 0%nat by lia. reflexivity.
  - rewrite fold_left_app. cbn [fold_left]. set (acc := fold_left _ l _) in *. destruct IH as (I1 & I2 & I3). clearbody acc.
    rewrite last_last, !app_length, I1. cbn [length]. split; [lia|]. split; [|rewrite zsum_snoc; lia].
    intros k Hk. destruct (Nat.eq_dec k (length l + 1)) as [->|].
    + rewrite app_nth2 by lia. replace (length l + 1 - length acc)%nat with 0%nat by lia. cbn [nth].
      rewrite firstn_all2 by (rewrite app_length; cbn; lia). rewrite zsum_snoc. lia.
    + rewrite app_nth1 by lia. rewrite I2 by lia. rewrite firstn_app. replace (k - length l)%nat with 0%nat by lia.
      cbn [firstn]. rewrite app_nil_r. reflexivity.
Qed.

(** ** Writes *)

Lemma hwrite_spec : forall x fl start c, 0 <= start -> start + c <= Z.of_nat (length fl) ->
  exists fl', hwrite fl start c x = Some fl' /\ length fl' = length fl /\
    forall p, nth p fl' 0%nat = if (start <=? Z.of_nat p) && (Z.of_nat p <? start + c) then x else nth p fl 0%nat.
Proof.
  intros x fl start c Hs He. unfold hwrite.
  assert (H : forall n, (n <= Z.to_nat c)%nat -> exists fl', fold_left (fun o c => match o with
    | None => None
    | Some fl => let p := start + Z.of_nat c in
        if (p <? 0) || (Z.of_nat (length fl) <=? p) then None else Some (upd (Z.to_nat p) (fun _ => x) fl)
    end) (seq 0 n) (Some fl) = Some fl' /\ length fl' = length fl /\
    forall p, nth p fl' 0%nat = if (start <=? Z.of_nat p) && (Z.of_nat p <? start + Z.of_nat n) then x else nth p fl 0%nat).
  { induction n as [|n IH]; intro Hn.
    - exists fl. split; [reflexivity|]. split; [reflexivity|]. intro p.
      replace ((start <=? Z.of_nat p) && (Z.of_nat p <? start + Z.of_nat 0)) with false; [reflexivity|].
      symmetry. apply andb_false_iff. rewrite Z.leb_gt, Z.ltb_ge. lia.
    - destruct (IH ltac:(lia)) as (fl1 & E1 & L1 & N1). rewrite seq_S, fold_left_app, E1. cbn [fold_left plus]. cbv zeta.
      replace ((start + Z.of_nat n <? 0) || (Z.of_nat (length fl1) <=? start + Z.of_nat n)) with false
        by (symmetry; apply orb_false_iff; rewrite Z.ltb_ge, Z.leb_gt; lia).
      eexists. split; [reflexivity|]. split; [rewrite upd_length; exact L1|]. intro p.
      rewrite nth_upd by lia. rewrite N1. destruct (Nat.eqb (Z.to_nat (start + Z.of_nat n)) p) eqn:E.
      + apply Nat.eqb_eq in E. replace ((start <=? Z.of_nat p) && (Z.of_nat p <? start + Z.of_nat (S n))) with true; [reflexivity|].
        symmetry. apply andb_true_iff. rewrite Z.leb_le, Z.ltb_lt. lia.
      + apply Nat.eqb_neq in E. replace (Z.of_nat p <? start + Z.of_nat (S n)) with ((Z.of_nat p <? start + Z.of_nat n) || (Z.of_nat p =? start + Z.of_nat n)).
        2:{ destruct (Z.ltb_spec (Z.of_nat p) (start + Z.of_nat n)), (Z.eqb_spec (Z.of_nat p) (start + Z.of_nat n)), (Z.ltb_spec (Z.of_nat p) (start + Z.of_nat (S n))); try reflexivity; lia. }
        replace (Z.of_nat p =? start + Z.of_nat n) with false by (symmetry; apply Z.eqb_neq; lia). rewrite orb_false_r. reflexivity. }
  destruct (H (Z.to_nat c) (Nat.le_refl _)) as (fl' & E & L & N). exists fl'. split; [exact E|]. split; [exact L|].
  intro p. rewrite N. destruct (Z.le_gt_cases 0 c) as [Hc|Hc]; [rewrite Z2Nat.id by assumption; reflexivity|].
  replace ((start <=? Z.of_nat p) && (Z.of_nat p <? start + c)) with false by (symmetry; apply andb_false_iff; rewrite Z.leb_gt, Z.ltb_ge; lia).
  replace ((start <=? Z.of_nat p) && (Z.of_nat p <? start + Z.of_nat (Z.to_nat c))) with false; [reflexivity|].
  symmetry; apply andb_false_iff; rewrite Z.leb_gt, Z.ltb_ge; lia.
Qed.

(** Disjoint intervals are all written. *)
Lemma hfill_spec : forall copies ids pos offsets total,
  let start x := nth (nth x ids 0%nat) offsets 0 + nth x pos 0 in
  0 <= total ->
  (forall x, (x < length copies)%nat -> 0 <= start x /\ 0 <= nth x copies 0 /\ start x + nth x copies 0 <= total) ->
  (forall x y, (x < y < length copies)%nat -> start x + nth x copies 0 <= start y \/ start y + nth y copies 0 <= start x) ->
  exists fl, hfill copies ids pos offsets total = HSOk ids pos offsets fl /\ Z.of_nat (length fl) = total /\
    forall x c, (x < length copies)%nat -> Z.of_nat c < nth x copies 0 -> nth (Z.to_nat (start x) + c) fl 0%nat = x.
Proof.
  intros copies ids pos offsets total start Ht Hb Hd. unfold hfill.
  replace (total <? 0) with false by (symmetry; apply Z.ltb_ge; assumption).
  assert (H : forall n, (n <= length copies)%nat -> exists fl, fold_left (fun o x => match o with
         | None => None
         | Some fl => hwrite fl (nth (nth x ids 0%nat) offsets 0 + nth x pos 0) (nth x copies 0) x
         end) (seq 0 n) (Some (repeat 0%nat (Z.to_nat total))) = Some fl /\ length fl = Z.to_nat total /\
    forall x c, (x < n)%nat -> Z.of_nat c < nth x copies 0 -> nth (Z.to_nat (start x) + c) fl 0%nat = x).
  { induction n as [|n IH]; intro Hn.
    - eexists. split; [reflexivity|]. split; [apply repeat_length|]. intros; lia.
    - destruct (IH ltac:(lia)) as (fl1 & E1 & L1 & N1). rewrite seq_S, fold_left_app, E1. cbn [fold_left plus].
      destruct (Hb n ltac:(lia)) as (B1 & B2 & B3).
      destruct (hwrite_spec n fl1 (start n) (nth n copies 0) B1 ltac:(lia)) as (fl2 & E2 & L2 & N2).
      exists fl2. split; [exact E2|]. split; [congruence|]. intros x c Hx Hc. rewrite N2.
      destruct (Nat.eq_dec x n) as [->|].
      + replace ((start n <=? Z.of_nat (Z.to_nat (start n) + c)) && (Z.of_nat (Z.to_nat (start n) + c) <? start n + nth n copies 0)) with true; [reflexivity|].
        symmetry. apply andb_true_iff. rewrite Z.leb_le, Z.ltb_lt. lia.
      + destruct (Hb x ltac:(lia)) as (C1 & C2 & C3). pose proof (Hd x n ltac:(lia)) as D.
        replace ((start n <=? Z.of_nat (Z.to_nat (start x) + c)) && (Z.of_nat (Z.to_nat (start x) + c) <? start n + nth n copies 0)) with false; [apply N1; lia|].
        symmetry. apply andb_false_iff. rewrite Z.leb_gt, Z.ltb_ge. lia. }
  destruct (H (length copies) (Nat.le_refl _)) as (fl & E & L & N). rewrite E. exists fl. split; [reflexivity|]. split; [lia|exact N].
Qed.

(** ** Sizes and positions *)

Section Named.
Variable copies : list Z.
Variable ids : list nat.
Variable n : nat.
Hypothesis Hpos : forall x, 0 <= nth x copies 0.
Hypothesis Hids : forall x, (x < length copies)%nat -> (nth x ids 0%nat < n)%nat.

(** Copies of the item types before [k] in stack [s]. *)
Definition before (k s : nat) : Z := zsum (fun x => if Nat.eqb (nth x ids 0%nat) s then nth x copies 0 else 0) (seq 0 k).

Lemma before_S : forall k s, before (S k) s = before k s + (if Nat.eqb (nth k ids 0%nat) s then nth k copies 0 else 0).
Proof. intros k s. unfold before. rewrite seq_S, zsum_snoc. reflexivity. Qed.
Lemma before_mono : forall k m s, (k <= m)%nat -> before k s <= before m s.
Proof.
  intros k m s H. induction H as [|m H IH]; [lia|]. rewrite before_S. specialize (Hpos m). destruct (Nat.eqb _ _); lia.
Qed.
Lemma before_nonneg : forall k s, 0 <= before k s.
Proof. intros k s. apply (before_mono 0 k s). lia. Qed.

Lemma repeat_zero : forall m s, nth s (repeat 0 m) 0 = 0.
Proof. induction m as [|m IH]; intros [|s]; cbn; auto. Qed.

Lemma sizes_fold : forall k, (k <= length copies)%nat ->
  let sz := fold_left (fun sz x => upd (nth x ids 0%nat) (fun v => v + nth x copies 0) sz) (seq 0 k) (repeat 0 n) in
  length sz = n /\ forall s, nth s sz 0 = before k s.
Proof.
  induction k as [|k IH]; intro Hk; cbv zeta.
  - split; [apply repeat_length|]. intro s. apply repeat_zero.
  - specialize (IH ltac:(lia)). cbv zeta in IH. rewrite seq_S, fold_left_app. cbn [fold_left plus].
    set (sz := fold_left _ (seq 0 k) _) in *. destruct IH as [I1 I2]. clearbody sz. split; [rewrite upd_length; exact I1|].
    intro s. pose proof (Hids k ltac:(lia)). rewrite nth_upd by lia. rewrite before_S, <- I2.
    destruct (Nat.eqb (nth k ids 0%nat) s) eqn:E; [reflexivity|lia].
Qed.

Lemma pos_fold : forall k, (k <= length copies)%nat ->
  let acc := fold_left (fun acc x =>
      (fst acc ++ [nth (nth x ids 0%nat) (snd acc) 0],
       upd (nth x ids 0%nat) (fun v => v + nth x copies 0) (snd acc)))
    (seq 0 k) ([], repeat 0 n) in
  snd acc = fold_left (fun sz x => upd (nth x ids 0%nat) (fun v => v + nth x copies 0) sz) (seq 0 k) (repeat 0 n) /\
  length (fst acc) = k /\ forall x, (x < k)%nat -> nth x (fst acc) 0 = before x (nth x ids 0%nat).
Proof.
  induction k as [|k IH]; intro Hk; cbv zeta.
  - split; [reflexivity|]. split; [reflexivity|]. intros; lia.
  - specialize (IH ltac:(lia)). cbv zeta in IH. rewrite !seq_S, !fold_left_app. cbn [fold_left plus].
    set (acc := fold_left _ (seq 0 k) ([], _)) in *. destruct IH as (I1 & I2 & I3). clearbody acc. cbn [fst snd].
    split; [rewrite I1; reflexivity|]. split; [rewrite app_length; cbn; lia|]. intros x Hx.
    destruct (Nat.eq_dec x k) as [->|].
    + rewrite app_nth2 by lia. rewrite I2, Nat.sub_diag. cbn [nth]. rewrite I1. apply (sizes_fold k). lia.
    + rewrite app_nth1 by lia. apply I3. lia.
Qed.

Notation N := (length copies).
Definition offset (s : nat) : Z := zsum (fun r => before N r) (seq 0 s).

Lemma offset_S : forall s, offset (S s) = offset s + before N s.
Proof. intro s. unfold offset. rewrite seq_S, zsum_snoc. reflexivity. Qed.
Lemma offset_mono : forall s r, (s <= r)%nat -> offset s <= offset r.
Proof. intros s r H. induction H as [|r H IH]; [lia|]. rewrite offset_S. pose proof (before_nonneg N r). lia. Qed.
Lemma offset_nonneg : forall s, 0 <= offset s.
Proof. intro s. apply (offset_mono 0 s). lia. Qed.

Lemma named_offsets : let o := hprefix (hstack_sizes copies ids n) in
  length o = S n /\ (forall s, (s <= n)%nat -> nth s o 0 = offset s) /\ last o 0 = offset n.
Proof.
  cbv zeta. destruct (hprefix_spec (hstack_sizes copies ids n)) as (H1 & H2 & H3).
  destruct (sizes_fold N (Nat.le_refl _)) as [L Sz]. fold (hstack_sizes copies ids n) in L, Sz. rewrite L in H1, H2.
  assert (F : forall s, (s <= n)%nat -> zsum (fun v => v) (firstn s (hstack_sizes copies ids n)) = offset s).
  { intros s Hs. induction s as [|s IH]; [reflexivity|]. rewrite offset_S, <- IH by lia. rewrite <- (Sz s).
    set (l := hstack_sizes copies ids n) in *. clearbody l. clear -L Hs. revert s n L Hs. induction l as [|v l IHl]; intros s n L Hs; [cbn in L; lia|].
    destruct s as [|s]; [cbn; lia|]. cbn [length] in L. change (firstn (S (S s)) (v :: l)) with (v :: firstn (S s) l). change (firstn (S s) (v :: l)) with (v :: firstn s l).
    rewrite !zsum_cons. cbn [nth]. rewrite (IHl s (pred n)) by lia. lia. }
  split; [exact H1|]. split; [intros s Hs; rewrite H2 by exact Hs; apply F, Hs|].
  rewrite H3. rewrite <- (F n (Nat.le_refl _)). rewrite firstn_all2 by lia. reflexivity.
Qed.

Lemma named_pos : forall x, (x < N)%nat -> nth x (hstack_pos copies ids n) 0 = before x (nth x ids 0%nat).
Proof. intros x Hx. unfold hstack_pos. apply (pos_fold N); [apply Nat.le_refl|exact Hx]. Qed.

(** Each item of each stack is found. *)
Lemma before_cover : forall k s q, 0 <= q < before k s ->
  exists x, (x < k)%nat /\ nth x ids 0%nat = s /\ before x s <= q < before x s + nth x copies 0.
Proof.
  induction k as [|k IH]; intros s q Hq; [unfold before in Hq; cbn in Hq; lia|].
  destruct (Z.lt_ge_cases q (before k s)) as [C|C].
  - destruct (IH s q ltac:(lia)) as (x & H1 & H2 & H3). exists x. split; [lia|]. auto.
  - rewrite before_S in Hq. destruct (Nat.eqb (nth k ids 0%nat) s) eqn:E; [|lia]. apply Nat.eqb_eq in E.
    exists k. split; [lia|]. split; [exact E|lia].
Qed.

Lemma offset_total : offset n = zsum (fun v => v) copies.
Proof.
  unfold offset.
  assert (H : forall k, (k <= N)%nat -> zsum (fun r => before k r) (seq 0 n) = zsum (fun v => v) (firstn k copies)).
  { induction k as [|k IH]; intro Hk.
    - cbn [firstn]. rewrite zsum_nil. clear. generalize (seq 0 n) as l. induction l as [|a l IH]; [reflexivity|]. rewrite zsum_cons, IH. reflexivity.
    - assert (F : firstn (S k) copies = firstn k copies ++ [nth k copies 0]).
      { clear -Hk. revert k Hk. induction copies as [|v l IHl]; intros k Hk; cbn [length] in Hk; [lia|]. destruct k as [|k]; [reflexivity|]. cbn. f_equal. apply IHl. lia. }
      rewrite F, zsum_snoc, <- IH by lia. pose proof (Hids k ltac:(lia)) as Hk'. clear -Hk'.
      assert (G : forall m, zsum (fun r => before (S k) r) (seq 0 m) = zsum (fun r => before k r) (seq 0 m) + (if (nth k ids 0%nat <? m)%nat then nth k copies 0 else 0)).
      { induction m as [|m IH]; [rewrite !zsum_nil; reflexivity|]. rewrite seq_S, !zsum_snoc, IH. cbn [plus]. rewrite before_S.
        destruct (Nat.ltb_spec (nth k ids 0%nat) m), (Nat.ltb_spec (nth k ids 0%nat) (S m)), (Nat.eqb_spec (nth k ids 0%nat) m); lia. }
      rewrite G. apply Nat.ltb_lt in Hk'. rewrite Hk'. reflexivity. }
  rewrite (H N (Nat.le_refl _)). rewrite firstn_all. reflexivity.
Qed.

Lemma named_fill : forall pos offsets, (forall x, (x < N)%nat -> nth x pos 0 = before x (nth x ids 0%nat)) ->
  (forall s, (s <= n)%nat -> nth s offsets 0 = offset s) -> last offsets 0 = offset n ->
  exists fl, hfill copies ids pos offsets (last offsets 0) = HSOk ids pos offsets fl /\
    Z.of_nat (length fl) = zsum (fun v => v) copies /\
    forall x c, (x < N)%nat -> Z.of_nat c < nth x copies 0 ->
      nth (Z.to_nat (offset (nth x ids 0%nat)) + (Z.to_nat (before x (nth x ids 0%nat)) + c)) fl 0%nat = x.
Proof.
  intros pos offsets Hp Ho Hl. rewrite Hl.
  assert (St : forall x, (x < N)%nat -> nth (nth x ids 0%nat) offsets 0 + nth x pos 0 = offset (nth x ids 0%nat) + before x (nth x ids 0%nat)).
  { intros x Hx. rewrite Hp by exact Hx. rewrite Ho; [reflexivity|]. pose proof (Hids x Hx). lia. }
  assert (En : forall x, (x < N)%nat -> before x (nth x ids 0%nat) + nth x copies 0 = before (S x) (nth x ids 0%nat)).
  { intros x Hx. rewrite before_S, Nat.eqb_refl. reflexivity. }
  destruct (hfill_spec copies ids pos offsets (offset n)) as (fl & E & L & F).
  - apply offset_nonneg.
  - intros x Hx. rewrite St by exact Hx. pose proof (offset_nonneg (nth x ids 0%nat)). pose proof (before_nonneg x (nth x ids 0%nat)).
    split; [lia|]. split; [apply Hpos|]. rewrite <- Z.add_assoc, En by exact Hx.
    pose proof (before_mono (S x) N (nth x ids 0%nat) ltac:(lia)). pose proof (offset_S (nth x ids 0%nat)).
    pose proof (Hids x Hx). pose proof (offset_mono (S (nth x ids 0%nat)) n ltac:(lia)). lia.
  - intros x y Hxy. rewrite !St by lia. rewrite <- !Z.add_assoc, !En by lia.
    destruct (lt_eq_lt_dec (nth x ids 0%nat) (nth y ids 0%nat)) as [[C|C]|C].
    + left. pose proof (before_mono (S x) N (nth x ids 0%nat) ltac:(lia)). pose proof (offset_S (nth x ids 0%nat)).
      pose proof (offset_mono (S (nth x ids 0%nat)) (nth y ids 0%nat) ltac:(lia)). pose proof (before_nonneg y (nth y ids 0%nat)). lia.
    + left. rewrite C. pose proof (before_mono (S x) y (nth y ids 0%nat) ltac:(lia)). lia.
    + right. pose proof (before_mono (S y) N (nth y ids 0%nat) ltac:(lia)). pose proof (offset_S (nth y ids 0%nat)).
      pose proof (offset_mono (S (nth y ids 0%nat)) (nth x ids 0%nat) ltac:(lia)). pose proof (before_nonneg x (nth x ids 0%nat)). lia.
  - exists fl. split; [exact E|]. split; [rewrite L; apply offset_total|]. intros x c Hx Hc. specialize (F x c Hx Hc). cbv zeta in F.
    rewrite St in F by exact Hx. pose proof (offset_nonneg (nth x ids 0%nat)). pose proof (before_nonneg x (nth x ids 0%nat)).
    rewrite Z2Nat.inj_add in F by assumption. rewrite Nat.add_assoc. exact F.
Qed.

End Named.

(** ** Both branches *)

Lemma max_stack : forall stacks m, let n := fold_left (fun n s => Z.max n (s + 1)) stacks m in
  m <= n /\ (forall s, In s stacks -> s < n) /\ (n = m \/ exists s, In s stacks /\ n = s + 1).
Proof.
  induction stacks as [|v l IH]; intro m; cbv zeta; cbn [fold_left]; [split; [lia|]; split; [intros s []|auto]|].
  destruct (IH (Z.max m (v + 1))) as (H1 & H2 & H3). split; [lia|]. split.
  - intros s [<-|Hs]; [lia|apply H2, Hs].
  - destruct H3 as [H3|(s & Hs & H3)]; [|right; exists s; split; [right; exact Hs|exact H3]].
    destruct (Z.max_spec m (v + 1)) as [[C E]|[C E]]; [right; exists v; split; [left; reflexivity|lia]|left; lia].
Qed.

(** Mixed stack ids throw; otherwise, without negative copies, the stacks are
    those of the entered ids or one for each item type. *)
Lemma build_stacks_spec : forall copies stacks, length stacks = length copies -> (forall x, 0 <= nth x copies 0) ->
  match h_build_stacks copies stacks with
  | HSThrow => (exists s, In s stacks /\ 0 <= s) /\ exists s, In s stacks /\ s < 0
  | HSUndef => False
  | HSOk ids pos offsets fl => exists n,
      ((forall s, In s stacks -> 0 <= s) /\ (forall x, (x < length copies)%nat -> Z.of_nat (nth x ids 0%nat) = nth x stacks (-1)) \/
       (forall s, In s stacks -> s < 0) /\ ids = seq 0 (length copies)) /\
      (forall x, (x < length copies)%nat -> (nth x ids 0%nat < n)%nat) /\
      (n = 0%nat \/ exists x, (x < length copies)%nat /\ n = S (nth x ids 0%nat)) /\
      length offsets = S n /\
      (forall s, (s <= n)%nat -> nth s offsets 0 = offset copies ids s) /\
      (forall x, (x < length copies)%nat -> nth x pos 0 = before copies ids x (nth x ids 0%nat)) /\
      Z.of_nat (length fl) = zsum (fun v => v) copies /\
      forall x c, (x < length copies)%nat -> Z.of_nat c < nth x copies 0 ->
        nth (Z.to_nat (offset copies ids (nth x ids 0%nat)) + (Z.to_nat (before copies ids x (nth x ids 0%nat)) + c)) fl 0%nat = x
  end.
Proof.
  intros copies stacks HL Hpos. unfold h_build_stacks. cbv zeta.
  destruct (existsb (fun s => 0 <=? s) stacks) eqn:E1; cbn [andb].
  - apply existsb_exists in E1. destruct E1 as (s0 & Hs0 & E1). apply Z.leb_le in E1.
    destruct (existsb (fun s => negb (0 <=? s)) stacks) eqn:E2.
    + apply existsb_exists in E2. destruct E2 as (s1 & Hs1 & E2). apply negb_true_iff, Z.leb_gt in E2. split; eauto.
    + assert (All : forall s, In s stacks -> 0 <= s).
      { intros s Hs. destruct (Z.le_gt_cases 0 s) as [C|C]; [exact C|]. exfalso.
        assert (existsb (fun s => negb (0 <=? s)) stacks = true); [|congruence]. apply existsb_exists. exists s. split; [exact Hs|]. apply negb_true_iff, Z.leb_gt. exact C. }
      destruct (max_stack stacks 0) as (M1 & M2 & M3). set (m := fold_left _ stacks 0) in *. clearbody m.
      set (ids := map Z.to_nat stacks).
      assert (Eid : forall x, (x < length copies)%nat -> Z.of_nat (nth x ids 0%nat) = nth x stacks (-1)).
      { intros x Hx. unfold ids. rewrite (nth_indep _ 0%nat (Z.to_nat (-1))) by (rewrite map_length; lia). rewrite map_nth.
        assert (In (nth x stacks (-1)) stacks) by (apply nth_In; lia). specialize (All _ H). lia. }
      assert (Hids : forall x, (x < length copies)%nat -> (nth x ids 0%nat < Z.to_nat m)%nat).
      { intros x Hx. assert (Hin : In (nth x stacks (-1)) stacks) by (apply nth_In; lia). specialize (M2 _ Hin). specialize (Eid x Hx). lia. }
      destruct (named_offsets copies ids (Z.to_nat m) Hids) as (O1 & O2 & O3).
      destruct (named_fill copies ids (Z.to_nat m) Hpos Hids (hstack_pos copies ids (Z.to_nat m)) (hprefix (hstack_sizes copies ids (Z.to_nat m)))
        (named_pos copies ids (Z.to_nat m) Hids) O2 O3) as (fl & F1 & F2 & F3).
      rewrite F1. exists (Z.to_nat m). split; [left; auto|]. split; [exact Hids|]. split.
      { right. destruct M3 as [M3|(s & Hs & M3)]; [specialize (M2 _ Hs0); lia|].
        apply In_nth with (d := -1) in Hs. destruct Hs as (x & Hx & Es). exists x. split; [lia|]. specialize (Eid x ltac:(lia)). lia. }
      split; [exact O1|]. split; [exact O2|]. split; [apply (named_pos copies ids (Z.to_nat m) Hids)|]. auto.
  - assert (Neg : forall s, In s stacks -> s < 0).
    { intros s Hs. destruct (Z.lt_ge_cases s 0) as [C|C]; [exact C|]. exfalso.
      assert (existsb (fun s => 0 <=? s) stacks = true); [|congruence]. apply existsb_exists. exists s. split; [exact Hs|]. apply Z.leb_le. exact C. }
    set (ids := seq 0 (length copies)).
    assert (Eid : forall x, (x < length copies)%nat -> nth x ids 0%nat = x) by (intros x Hx; apply seq_nth; exact Hx).
    assert (Hids : forall x, (x < length copies)%nat -> (nth x ids 0%nat < length copies)%nat) by (intros x Hx; rewrite Eid by exact Hx; exact Hx).
    assert (Bef : forall k s, (k <= length copies)%nat -> before copies ids k s = if (s <? k)%nat then nth s copies 0 else 0).
    { induction k as [|k IH]; intros s Hk; [reflexivity|]. rewrite before_S, IH by lia. rewrite Eid by lia.
      destruct (Nat.ltb_spec s k), (Nat.eqb_spec k s), (Nat.ltb_spec s (S k)); try lia. subst. lia. }
    destruct (hprefix_spec copies) as (P1 & P2 & P3).
    assert (Off : forall s, (s <= length copies)%nat -> nth s (hprefix copies) 0 = offset copies ids s).
    { intros s Hs. rewrite P2 by exact Hs. clear P1 P2 P3. induction s as [|s IH]; [reflexivity|]. rewrite offset_S, <- IH by lia. rewrite Bef by lia.
      assert (L : (s <? length copies)%nat = true) by (apply Nat.ltb_lt; lia). rewrite L.
      assert (F : firstn (S s) copies = firstn s copies ++ [nth s copies 0]).
      { clear -Hs. revert s Hs. induction copies as [|v l IHl]; intros s Hs; cbn [length] in Hs; [lia|]. destruct s as [|s]; [reflexivity|]. cbn. f_equal. apply IHl. lia. }
      rewrite F, zsum_snoc. reflexivity. }
    assert (Pos : forall x, (x < length copies)%nat -> nth x (map (fun _ : Z => 0) copies) 0 = before copies ids x (nth x ids 0%nat)).
    { intros x Hx. rewrite Bef, Eid by lia. rewrite Nat.ltb_irrefl. clear. revert x. induction copies as [|v l IHl]; intros [|x]; cbn; auto. }
    assert (Lst : last (hprefix copies) 0 = offset copies ids (length copies)).
    { rewrite <- Off by lia. rewrite P2, firstn_all by lia. exact P3. }
    destruct (named_fill copies ids (length copies) Hpos Hids (map (fun _ => 0) copies) (hprefix copies) Pos Off Lst) as (fl & F1 & F2 & F3).
    rewrite F1. exists (length copies). split; [right; auto|]. split; [exact Hids|]. split.
    { destruct (length copies) as [|k] eqn:El; [left; reflexivity|]. right. exists k. split; [lia|]. rewrite Eid by lia. reflexivity. }
    split; [exact P1|]. split; [exact Off|]. split; [exact Pos|]. auto.
Qed.
