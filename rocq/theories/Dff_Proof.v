(** * Proofs about the dual feasible functions *)

From Coq Require Import List ZArith QArith Qround Bool Lia Arith Permutation Lqa Psatz Sorted.
From Verif Require Import Util Dff_Model Dff_Spec.
Import ListNotations.
Open Scope Z_scope.

(** ** Functions of one length *)

Definition F2 (C k x : Z) : Z :=
  if C / 2 <? x then 2 * (C / k - (C - x) / k)
  else if 2 * x =? C then C / k
  else 2 * (x / k).

Lemma quot2 : forall c, 0 <= c -> Z.quot c 2 = c / 2.
Proof. intros. apply Z.quot_div_nonneg; lia. Qed.

Lemma div2_spec : forall c, 2 * (c / 2) <= c < 2 * (c / 2) + 2.
Proof. intro c. pose proof (Z.div_mod c 2 ltac:(lia)). pose proof (Z.mod_pos_bound c 2 ltac:(lia)). lia. Qed.

Lemma half_test : forall C x, 0 <= C -> (x =? Z.quot C 2) && (Z.rem C 2 =? 0) = (2 * x =? C).
Proof.
  intros C x HC. rewrite quot2 by lia. rewrite Z.rem_mod_nonneg by lia.
  pose proof (Z.div_mod C 2 ltac:(lia)). pose proof (Z.mod_pos_bound C 2 ltac:(lia)).
  destruct (Z.eqb_spec x (C / 2)), (Z.eqb_spec (C mod 2) 0), (Z.eqb_spec (2 * x) C); simpl; try reflexivity; lia.
Qed.

Lemma f_ccm_2_some : forall C k x, 0 <= C -> 0 < k -> 0 <= x <= C -> f_ccm_2 C k x = Some (F2 C k x).
Proof.
  intros C k x HC Hk Hx. unfold f_ccm_2, F2, cdiv. rewrite half_test, quot2 by lia.
  assert (E : (k =? 0) = false) by (apply Z.eqb_neq; lia). rewrite E. cbn [bind].
  rewrite !Z.quot_div_nonneg by lia.
  destruct (C / 2 <? x); [reflexivity|]. destruct (2 * x =? C); reflexivity.
Qed.

Lemma total_nil : total [] = 0.
Proof. reflexivity. Qed.
Lemma total_cons : forall x l, total (x :: l) = x + total l.
Proof. reflexivity. Qed.
Lemma total_app : forall a b, total (a ++ b) = total a + total b.
Proof. intros. apply zsum_app. Qed.
Lemma total_nonneg : forall l, Forall (fun x => 0 <= x) l -> 0 <= total l.
Proof. intros l H. apply zsum_nonneg. apply Forall_forall. assumption. Qed.

Lemma total_elem : forall l x, Forall (fun x => 0 <= x) l -> In x l -> x <= total l.
Proof.
  intros l x H Hin. induction l as [|y l IH]; [destruct Hin|].
  inversion H as [|? ? Hy Hl]; subst. rewrite total_cons. pose proof (total_nonneg l Hl).
  destruct Hin as [->|Hin]; [lia|]. specialize (IH Hl Hin). lia.
Qed.

Lemma sum_div_le : forall k l, 0 < k -> Forall (fun x => 0 <= x) l ->
  zsum (fun x => x / k) l <= total l / k.
Proof.
  intros k l Hk H. induction H as [|x l Hx Hl IH].
  - rewrite total_nil, Z.div_0_l by lia. reflexivity.
  - rewrite zsum_cons, total_cons.
    assert (x / k + total l / k <= (x + total l) / k).
    { apply Z.div_le_lower_bound; [lia|].
      pose proof (Z.mul_div_le x k Hk). pose proof (Z.mul_div_le (total l) k Hk). lia. }
    lia.
Qed.

Lemma zsum_F2_small : forall C k l, Forall (fun x => 2 * x < C) l ->
  zsum (F2 C k) l = 2 * zsum (fun x => x / k) l.
Proof.
  intros C k l H. induction H as [|x l Hx Hl IH]; [reflexivity|].
  rewrite !zsum_cons, IH. unfold F2 at 1.
  pose proof (div2_spec C).
  destruct (Z.ltb_spec (C / 2) x); [lia|]. destruct (Z.eqb_spec (2 * x) C); lia.
Qed.

Lemma exists_or_forall : forall (P : Z -> bool) l, (exists x, In x l /\ P x = true) \/ Forall (fun x => P x = false) l.
Proof.
  intros P l. induction l as [|x l IH]; [right; constructor|].
  destruct (P x) eqn:E; [left; exists x; split; [left; reflexivity|assumption]|].
  destruct IH as [(y & Hy & Hp)|IH]; [left; exists y; split; [right; assumption|assumption]|].
  right. constructor; assumption.
Qed.

(** Extract one element. *)
Lemma in_extract : forall (x : Z) l, In x l -> exists l',
  Permutation l (x :: l').
Proof.
  intros x l H. apply in_split in H. destruct H as (a & b & ->).
  exists (a ++ b). symmetry. apply Permutation_middle.
Qed.

Lemma perm_total : forall l1 l2, Permutation l1 l2 -> total l1 = total l2.
Proof. intros. apply zsum_perm. assumption. Qed.

Lemma perm_forall : forall (P : Z -> Prop) l1 l2, Permutation l1 l2 -> Forall P l1 -> Forall P l2.
Proof.
  intros P l1 l2 H HF. apply Forall_forall. intros x Hx. rewrite Forall_forall in HF. apply HF.
  apply (Permutation_in x (Permutation_sym H)). assumption.
Qed.

Lemma f0_dual_feasible : forall C k, 0 <= k -> 2 * k <= C -> dual_feasible C (f_ccm_0 C k C) (f_ccm_0 C k).
Proof.
  intros C k Hk HC l Hl Ht.
  assert (HF : f_ccm_0 C k C = C).
  { unfold f_ccm_0. destruct (C - k <? C); [reflexivity|]. destruct (Z.ltb_spec C k); lia. }
  rewrite HF.
  destruct (exists_or_forall (fun x => C - k <? x) l) as [(x & Hx & Hb)|Hs].
  - apply Z.ltb_lt in Hb. destruct (in_extract x l Hx) as (l' & HP).
    rewrite (zsum_perm _ _ _ _ HP). rewrite (perm_total _ _ HP) in Ht.
    apply (perm_forall _ _ _ HP) in Hl. inversion Hl as [|? ? Hx0 Hl']; subst.
    rewrite total_cons in Ht. rewrite zsum_cons.
    assert (E : zsum (f_ccm_0 C k) l' = 0).
    { rewrite (zsum_ext _ _ (fun _ => 0)); [clear; induction l' as [|y l' IH]; [reflexivity|rewrite zsum_cons, IH; reflexivity]|].
      intros y Hy. pose proof (total_elem l' y Hl' Hy). unfold f_ccm_0.
      destruct (Z.ltb_spec (C - k) y); [lia|]. destruct (Z.ltb_spec y k); lia. }
    rewrite E. unfold f_ccm_0. destruct (Z.ltb_spec (C - k) x); lia.
  - assert (zsum (f_ccm_0 C k) l <= total l); [|lia].
    apply zsum_le. intros x Hx. rewrite Forall_forall in Hs, Hl. specialize (Hs x Hx). specialize (Hl x Hx).
    simpl in Hl, Hs. unfold f_ccm_0. rewrite Hs. destruct (x <? k); lia.
Qed.

Lemma F2_bin : forall C k, 1 <= C -> 0 < k -> F2 C k C = 2 * (C / k).
Proof.
  intros C k HC Hk. unfold F2. pose proof (div2_spec C). destruct (Z.ltb_spec (C / 2) C); [|lia].
  rewrite Z.sub_diag, Z.div_0_l by lia. lia.
Qed.

Lemma f2_dual_feasible : forall C k, 1 <= C -> 0 < k -> dual_feasible C (F2 C k C) (F2 C k).
Proof.
  intros C k HC Hk l Hl Ht. rewrite F2_bin by assumption.
  pose proof (div2_spec C) as HD.
  destruct (exists_or_forall (fun x => C / 2 <? x) l) as [(x & Hx & Hb)|Hs].
  - apply Z.ltb_lt in Hb. destruct (in_extract x l Hx) as (l' & HP).
    rewrite (zsum_perm _ _ _ _ HP). rewrite (perm_total _ _ HP) in Ht.
    apply (perm_forall _ _ _ HP) in Hl. inversion Hl as [|? ? Hx0 Hl']; subst.
    rewrite total_cons in Ht. rewrite zsum_cons.
    rewrite zsum_F2_small.
    + pose proof (sum_div_le k l' Hk Hl').
      assert (total l' / k <= (C - x) / k) by (apply Z.div_le_mono; lia).
      unfold F2. destruct (Z.ltb_spec (C / 2) x); lia.
    + apply Forall_forall. intros y Hy. pose proof (total_elem l' y Hl' Hy). lia.
  - destruct (exists_or_forall (fun x => 2 * x =? C) l) as [(x & Hx & Hb)|Hs2].
    + apply Z.eqb_eq in Hb. destruct (in_extract x l Hx) as (l' & HP).
      rewrite (zsum_perm _ _ _ _ HP). rewrite (perm_total _ _ HP) in Ht.
      apply (perm_forall _ _ _ HP) in Hl. inversion Hl as [|? ? Hx0 Hl']; subst.
      rewrite total_cons in Ht. rewrite zsum_cons.
      assert (Fx : F2 (2 * x) k x = 2 * x / k).
      { unfold F2. destruct (Z.ltb_spec (2 * x / 2) x); [lia|]. rewrite Z.eqb_refl. reflexivity. }
      rewrite Fx.
      destruct (exists_or_forall (fun y => 2 * y =? 2 * x) l') as [(y & Hy & Hby)|Hs3].
      * apply Z.eqb_eq in Hby. assert (y = x) by lia. subst y.
        destruct (in_extract x l' Hy) as (l2 & HP2).
        rewrite (zsum_perm _ _ _ _ HP2). rewrite (perm_total _ _ HP2) in Ht.
        apply (perm_forall _ _ _ HP2) in Hl'. inversion Hl' as [|? ? Hx1 Hl2]; subst.
        rewrite total_cons in Ht. rewrite zsum_cons, Fx.
        rewrite zsum_F2_small.
        -- pose proof (sum_div_le k l2 Hk Hl2). pose proof (total_nonneg l2 Hl2).
           assert (total l2 = 0) by lia. rewrite H1, Z.div_0_l in H by lia. lia.
        -- apply Forall_forall. intros z Hz. pose proof (total_elem l2 z Hl2 Hz). lia.
      * rewrite zsum_F2_small.
        -- pose proof (sum_div_le k l' Hk Hl').
           assert (total l' / k <= x / k) by (apply Z.div_le_mono; lia).
           assert (2 * (x / k) <= 2 * x / k).
           { apply Z.div_le_lower_bound; [lia|]. pose proof (Z.mul_div_le x k Hk). lia. }
           lia.
        -- apply Forall_forall. intros y Hy. pose proof (total_elem l' y Hl' Hy).
           rewrite Forall_forall in Hs3. specialize (Hs3 y Hy). apply Z.eqb_neq in Hs3. lia.
    + rewrite zsum_F2_small.
      * pose proof (sum_div_le k l Hk Hl).
        assert (total l / k <= C / k) by (apply Z.div_le_mono; lia). lia.
      * apply Forall_forall. intros y Hy. rewrite Forall_forall in Hs, Hs2.
        specialize (Hs y Hy). specialize (Hs2 y Hy). apply Z.ltb_ge in Hs. apply Z.eqb_neq in Hs2. lia.
Qed.

(** ** Greedy maximum cardinality *)

Definition pos_pool (pool : list (Z * Z)) : Prop := Forall (fun p => 0 < fst p /\ 0 <= snd p) pool.
Definition fst_le (p q : Z * Z) : Prop := fst p <= fst q.

(** The greedy as a total function on pools with positive lengths. *)
Fixpoint gr (capacity : Z) (pool : list (Z * Z)) : Z :=
  match pool with
  | [] => 0
  | (l, c) :: pool' => if c * l <? capacity then c + gr (capacity - c * l) pool' else Z.quot capacity l
  end.

Lemma greedy_gr : forall pool capacity used count, pos_pool pool ->
  greedy_from capacity used count pool = Some (count + gr (capacity - used) pool).
Proof.
  induction pool as [|[l c] pool IH]; intros capacity used count H; simpl.
  - rewrite Z.add_0_r. reflexivity.
  - inversion H as [|? ? Hp Hpool]; subst. simpl in Hp.
    destruct (Z.ltb_spec (used + c * l) capacity), (Z.ltb_spec (c * l) (capacity - used)); try lia.
    + rewrite IH by assumption. f_equal.
      replace (capacity - (used + c * l)) with (capacity - used - c * l) by lia. lia.
    + unfold cdiv. destruct (Z.eqb_spec l 0); [lia|]. reflexivity.
Qed.

Lemma greedy_some : forall pool capacity, pos_pool pool ->
  greedy_maximum_cardinality capacity pool = Some (gr capacity pool).
Proof. intros. unfold greedy_maximum_cardinality. rewrite greedy_gr by assumption. rewrite Z.sub_0_r. reflexivity. Qed.

Lemma selection_size_cons : forall n ns, selection_size (n :: ns) = n + selection_size ns.
Proof. reflexivity. Qed.
Lemma selection_length_cons : forall p pool n ns,
  selection_length (p :: pool) (n :: ns) = fst p * n + selection_length pool ns.
Proof. reflexivity. Qed.

Lemma selection_length_ge : forall l pool counts, 0 <= l -> (forall p, In p pool -> l <= fst p) ->
  selection pool counts -> l * selection_size counts <= selection_length pool counts.
Proof.
  intros l pool counts Hl Hle H. induction H as [|p n pool counts Hp H IH].
  - unfold selection_size, selection_length, total. simpl. lia.
  - rewrite selection_size_cons, selection_length_cons.
    assert (l <= fst p) by (apply Hle; left; reflexivity).
    assert (l * selection_size counts <= selection_length pool counts)
      by (apply IH; intros q Hq; apply Hle; right; assumption). nia.
Qed.

Lemma gr_upper : forall pool counts, selection pool counts -> pos_pool pool -> StronglySorted fst_le pool ->
  forall capacity l m, 0 <= capacity -> 0 <= m -> 0 <= l -> (forall p, In p pool -> l <= fst p) ->
  selection_length pool counts <= capacity + m * l -> selection_size counts <= gr capacity pool + m.
Proof.
  intros pool counts H. induction H as [|[l1 c1] n pool counts Hp H IH]; intros Hpos Hsort capacity l m HC Hm Hl Hle Hlen.
  - unfold selection_size, total. simpl. lia.
  - inversion Hpos as [|? ? Hp1 Hpos']; subst. inversion Hsort as [|? ? Hsort' Hall]; subst.
    simpl in Hp, Hp1. rewrite selection_size_cons. rewrite selection_length_cons in Hlen. simpl fst in Hlen.
    assert (Hl1 : l <= l1) by (apply (Hle (l1, c1)); left; reflexivity).
    assert (Hrest : forall p, In p pool -> l1 <= fst p).
    { intros p Hin. rewrite Forall_forall in Hall. apply (Hall p Hin). }
    simpl gr. destruct (Z.ltb_spec (c1 * l1) capacity).
    + assert (selection_size counts <= gr (capacity - c1 * l1) pool + (m + c1 - n)).
      { apply (IH Hpos' Hsort' (capacity - c1 * l1) l1); try lia; try assumption.
        assert (m * l <= m * l1) by nia. nia. }
      lia.
    + pose proof (selection_length_ge l1 pool counts ltac:(lia) Hrest H) as Hge.
      rewrite Z.quot_div_nonneg by lia.
      assert (n + selection_size counts - m <= capacity / l1); [|lia].
      apply Z.div_le_lower_bound; [lia|]. nia.
Qed.

Lemma gr_achieved : forall pool, pos_pool pool -> forall capacity, 0 <= capacity ->
  exists counts, selection pool counts /\ selection_length pool counts <= capacity
    /\ selection_size counts = gr capacity pool.
Proof.
  intros pool H. induction H as [|[l c] pool Hp H IH]; intros capacity HC.
  - exists []. repeat split; try constructor. unfold selection_length. simpl. assumption.
  - simpl in Hp. simpl gr. destruct (Z.ltb_spec (c * l) capacity).
    + destruct (IH (capacity - c * l) ltac:(lia)) as (counts & H1 & H2 & H3).
      exists (c :: counts). split; [constructor; [simpl; lia|assumption]|].
      rewrite selection_length_cons, selection_size_cons. simpl. split; lia.
    + rewrite Z.quot_div_nonneg by lia.
      assert (Hq : 0 <= capacity / l) by (apply Z.div_pos; lia).
      assert (Hq2 : capacity / l <= c) by (apply Z.div_le_upper_bound; nia).
      exists (capacity / l :: map (fun _ => 0) pool). split.
      * constructor; [simpl; lia|]. clear -H. induction H as [|p pool Hp H IH]; constructor; simpl; [lia|assumption].
      * assert (HZ : selection_length pool (map (fun _ => 0) pool) = 0 /\ selection_size (map (fun _ : Z * Z => 0) pool) = 0).
        { clear. induction pool as [|p pool [I1 I2]]; [split; reflexivity|].
          simpl map. rewrite selection_length_cons, selection_size_cons, I1, I2. lia. }
        destruct HZ as [HZ1 HZ2].
        rewrite selection_length_cons, selection_size_cons, HZ1, HZ2. simpl fst.
        pose proof (Z.mul_div_le capacity l ltac:(lia)). split; lia.
Qed.

Lemma greedy_optimal : forall pool capacity m, pos_pool pool -> StronglySorted fst_le pool -> 0 <= capacity ->
  greedy_maximum_cardinality capacity pool = Some m -> max_cardinality capacity pool m.
Proof.
  intros pool capacity m Hp Hs HC H. rewrite greedy_some in H by assumption. injection H as <-.
  split.
  - apply gr_achieved; assumption.
  - intros counts Hsel Hlen.
    pose proof (gr_upper pool counts Hsel Hp Hs capacity 0 0 HC ltac:(lia) ltac:(lia)) as HU.
    assert (forall p, In p pool -> 0 <= fst p).
    { intros p Hin. unfold pos_pool in Hp. rewrite Forall_forall in Hp. specialize (Hp p Hin). lia. }
    specialize (HU H ltac:(lia)). lia.
Qed.

Lemma gr_nonneg : forall pool capacity, pos_pool pool -> 0 <= capacity -> 0 <= gr capacity pool.
Proof.
  intros pool capacity H HC. revert capacity HC. induction H as [|[l c] pool Hp H IH]; intros capacity HC; simpl; [lia|].
  simpl in Hp. destruct (Z.ltb_spec (c * l) capacity).
  - specialize (IH (capacity - c * l) ltac:(lia)). lia.
  - rewrite Z.quot_div_nonneg by lia. apply Z.div_pos; lia.
Qed.

Lemma gr_mono : forall pool c1 c2, pos_pool pool -> StronglySorted fst_le pool -> c1 <= c2 -> 0 <= c2 ->
  gr c1 pool <= gr c2 pool.
Proof.
  intros pool c1 c2 Hp Hs Hle Hc2. destruct (Z.le_gt_cases 0 c1) as [H1|H1].
  - destruct (gr_achieved pool Hp c1 H1) as (counts & S1 & S2 & S3). rewrite <- S3.
    pose proof (gr_upper pool counts S1 Hp Hs c2 0 0 ltac:(lia) ltac:(lia) ltac:(lia)) as HU.
    enough (selection_size counts <= gr c2 pool + 0) by lia. apply HU; [|lia].
    intros p Hin. unfold pos_pool in Hp. rewrite Forall_forall in Hp. specialize (Hp p Hin). lia.
  - transitivity 0; [|apply gr_nonneg; assumption].
    destruct pool as [|[l c] pool]; simpl; [lia|]. inversion Hp as [|? ? Hlc Hp']; subst. simpl in Hlc.
    destruct (Z.ltb_spec (c * l) c1); [nia|].
    assert (Z.quot c1 l <= 0); [|lia].
    rewrite <- (Z.opp_involutive c1), Z.quot_opp_l by lia.
    assert (0 <= Z.quot (- c1) l) by (apply Z.quot_pos; lia). lia.
Qed.

(** ** Sorting *)

Lemma insert_pair_perm : forall x l, Permutation (insert_pair x l) (x :: l).
Proof.
  intros x l. induction l as [|y l IH]; simpl; [reflexivity|].
  destruct (pair_le x y); [reflexivity|]. rewrite IH. apply perm_swap.
Qed.
Lemma sort_pairs_perm : forall l, Permutation (sort_pairs l) l.
Proof.
  induction l as [|x l IH]; simpl; [reflexivity|]. rewrite insert_pair_perm. constructor. assumption.
Qed.
Lemma pair_le_fst : forall p q, pair_le p q = true -> fst p <= fst q.
Proof.
  intros [a b] [c d]. unfold pair_le. simpl. intro H. apply orb_true_iff in H.
  destruct H as [H|H]; [apply Z.ltb_lt in H; lia|]. apply andb_true_iff in H. destruct H as [H _].
  apply Z.eqb_eq in H. lia.
Qed.
Lemma pair_le_total : forall p q, pair_le p q = false -> fst q <= fst p.
Proof.
  intros [a b] [c d]. unfold pair_le. simpl. intro H. apply orb_false_iff in H. destruct H as [H _].
  apply Z.ltb_ge in H. assumption.
Qed.
Lemma sort_pairs_sorted : forall l, StronglySorted fst_le (sort_pairs l).
Proof.
  induction l as [|x l IH]; simpl; [constructor|].
  induction IH as [|y l' Hl' IH' Hall]; simpl; [repeat constructor|].
  destruct (pair_le x y) eqn:E.
  - constructor; [constructor; assumption|]. apply pair_le_fst in E. constructor; [assumption|].
    apply Forall_forall. intros z Hz. rewrite Forall_forall in Hall. specialize (Hall z Hz). unfold fst_le in *. lia.
  - constructor; [assumption|]. apply pair_le_total in E.
    apply Forall_forall. intros z Hz.
    apply (Permutation_in z (insert_pair_perm x l')) in Hz. destruct Hz as [<-|Hz]; [assumption|].
    rewrite Forall_forall in Hall. apply Hall. assumption.
Qed.

Lemma insert_unique_in : forall x l z, In z (insert_unique x l) <-> z = x \/ In z l.
Proof.
  intros x l z. induction l as [|y l IH]; simpl; [intuition|].
  destruct (x <? y); [simpl; intuition|]. destruct (Z.eqb_spec x y); simpl; [subst; intuition|].
  rewrite IH. intuition.
Qed.
Lemma sort_unique_in : forall l z, In z (sort_unique l) <-> In z l.
Proof.
  induction l as [|x l IH]; intro z; simpl; [reflexivity|]. rewrite insert_unique_in, IH. intuition.
Qed.

(** A selection of a permuted pool. *)
Lemma selection_pairs : forall pool counts, selection pool counts ->
  map fst (combine pool counts) = pool /\ map snd (combine pool counts) = counts.
Proof.
  intros pool counts H. induction H as [|p n pool counts _ _ [I1 I2]]; [split; reflexivity|].
  simpl. rewrite I1, I2. split; reflexivity.
Qed.

Lemma selection_perm : forall pool pool' counts, Permutation pool pool' -> selection pool counts ->
  exists counts', selection pool' counts' /\ selection_size counts' = selection_size counts /\
    selection_length pool' counts' = selection_length pool counts.
Proof.
  intros pool pool' counts HP H.
  destruct (selection_pairs pool counts H) as [E1 E2].
  rewrite <- E1 in HP. apply Permutation_sym in HP.
  destruct (Permutation_map_inv fst (combine pool counts) HP) as (ps & Eps & HPs).
  exists (map snd ps). subst pool'.
  assert (HC : combine (map fst ps) (map snd ps) = ps).
  { clear. induction ps as [|[a b] ps IH]; simpl; [reflexivity|]. rewrite IH. reflexivity. }
  split; [|split].
  - assert (HA : forall q, In q (combine pool counts) -> 0 <= snd q <= snd (fst q)).
    { clear -H. induction H as [|p n pool counts Hp H IH]; intros q Hq; [destruct Hq|].
      simpl in Hq. destruct Hq as [<-|Hq]; [exact Hp|apply IH; assumption]. }
    assert (HB : forall q, In q ps -> 0 <= snd q <= snd (fst q)).
    { intros q Hq. apply HA. apply (Permutation_in q (Permutation_sym HPs)). assumption. }
    clear -HB. unfold selection. induction ps as [|q ps IH]; simpl; [constructor|].
    constructor; [apply HB; left; reflexivity|]. apply IH. intros r Hr. apply HB. right. assumption.
  - unfold selection_size, total. transitivity (zsum (fun x => x) (map snd (combine pool counts))); [|rewrite E2; reflexivity].
    rewrite !zsum_map. apply zsum_perm. symmetry. assumption.
  - unfold selection_length. rewrite HC. apply zsum_perm. symmetry. assumption.
Qed.

(** ** Ceilings *)

Lemma ceil_div_le : forall a b m, 0 < b -> a <= m * b -> ceil_div a b <= m.
Proof.
  intros a b m Hb H. unfold ceil_div.
  assert (HQ : (inject_Z a / inject_Z b <= inject_Z m)%Q).
  { apply Qle_shift_div_r.
    - change 0%Q with (inject_Z 0). rewrite <- Zlt_Qlt. assumption.
    - rewrite <- inject_Z_mult, <- Zle_Qle. assumption. }
  apply Qceiling_resp_le in HQ. rewrite Qceiling_Z in HQ. assumption.
Qed.

(** ** Dantzig bound *)

Open Scope Q_scope.

Definition ratio_sorted (l : list DItem) : Prop :=
  StronglySorted (fun a b => di_profit b * inject_Z (di_volume a) <= di_profit a * inject_Z (di_volume b)) l.
Definition good_items (l : list DItem) : Prop :=
  Forall (fun it => 0 <= di_profit it /\ (0 < di_volume it)%Z /\ (0 <= di_copies it)%Z) l.

Lemma inj_pos : forall z, (0 < z)%Z -> 0 < inject_Z z.
Proof. intros z H. change 0 with (inject_Z 0). rewrite <- Zlt_Qlt. assumption. Qed.
Lemma inj_nonneg : forall z, (0 <= z)%Z -> 0 <= inject_Z z.
Proof. intros z H. change 0 with (inject_Z 0). rewrite <- Zle_Qle. assumption. Qed.

Lemma dantzig_fill_bound : forall l remaining bound,
  dantzig_fill l remaining bound == bound + dantzig_fill l remaining 0.
Proof.
  induction l as [|it l IH]; intros remaining bound; simpl; [ring|].
  destruct (Qle_bool remaining 0); [ring|].
  destruct (Qle_bool (inject_Z (di_volume it * di_copies it)) remaining).
  - rewrite IH. symmetry. rewrite IH. ring.
  - rewrite IH. symmetry. rewrite IH. ring.
Qed.

Lemma dantzig_fill_zero : forall l, dantzig_fill l 0 0 == 0.
Proof. intros [|it l]; simpl; reflexivity. Qed.

Lemma choice_profit_cons : forall it l n ns,
  choice_profit (it :: l) (n :: ns) = di_profit it * inject_Z n + choice_profit l ns.
Proof. reflexivity. Qed.
Lemma choice_volume_cons : forall it l n ns,
  choice_volume (it :: l) (n :: ns) = (di_volume it * n + choice_volume l ns)%Z.
Proof. reflexivity. Qed.

(** Profit at ratio at most [rho]. *)
Lemma profit_ratio : forall l counts rho, choice l counts -> good_items l ->
  (forall it, In it l -> di_profit it <= rho * inject_Z (di_volume it)) ->
  choice_profit l counts <= rho * inject_Z (choice_volume l counts).
Proof.
  intros l counts rho H. induction H as [|it n l counts Hn H IH]; intros Hg Hr.
  - unfold choice_profit, choice_volume. simpl. setoid_replace (rho * inject_Z 0) with 0 by (change (inject_Z 0) with 0; ring). lra.
  - inversion Hg as [|? ? Hit Hg']; subst. rewrite choice_profit_cons, choice_volume_cons.
    rewrite inject_Z_plus, inject_Z_mult.
    assert (IH' : choice_profit l counts <= rho * inject_Z (choice_volume l counts)).
    { apply IH; [assumption|]. intros x Hx. apply Hr. right. assumption. }
    specialize (Hr it (or_introl eq_refl)).
    assert (Hn0 : 0 <= inject_Z n) by (apply inj_nonneg; lia).
    assert (di_profit it * inject_Z n <= rho * inject_Z (di_volume it) * inject_Z n).
    { apply Qmult_le_compat_r; assumption. }
    lra.
Qed.

Lemma choice_volume_nonneg : forall l counts, choice l counts -> good_items l ->
  0 <= inject_Z (choice_volume l counts).
Proof.
  intros l counts H Hg. apply inj_nonneg. induction H as [|it n l counts Hn H IH].
  - unfold choice_volume. simpl. lia.
  - inversion Hg as [|? ? Hit Hg']; subst. rewrite choice_volume_cons. specialize (IH Hg'). nia.
Qed.

Lemma dantzig_fill_upper : forall l counts, choice l counts -> good_items l -> ratio_sorted l ->
  forall remaining over rho, 0 <= remaining -> 0 <= over -> 0 <= rho ->
  (forall it, In it l -> di_profit it <= rho * inject_Z (di_volume it)) ->
  inject_Z (choice_volume l counts) <= remaining + over ->
  choice_profit l counts <= dantzig_fill l remaining 0 + rho * over.
Proof.
  intros l counts H. induction H as [|it n l counts Hn H IH]; intros Hg Hs remaining over rho Hrem Hov Hrho Hr Hvol.
  - unfold choice_profit. simpl. assert (0 <= rho * over) by (apply Qmult_le_0_compat; assumption). lra.
  - assert (Hg0 := Hg). assert (Hc0 : choice (it :: l) (n :: counts)) by (constructor; assumption).
    inversion Hg as [|? ? Hit Hg']; subst. destruct Hit as (Hp & Hv & Hc).
    inversion Hs as [|? ? Hs' Hall]; subst.
    pose proof (inj_pos _ Hv) as Hv'.
    set (r := di_profit it / inject_Z (di_volume it)).
    assert (Er : r * inject_Z (di_volume it) == di_profit it) by (unfold r; field; lra).
    assert (Hr0 : 0 <= r) by (unfold r; apply Qle_shift_div_l; lra).
    assert (Hrr : r <= rho).
    { unfold r. apply Qle_shift_div_r; [assumption|]. apply Hr. left. reflexivity. }
    assert (Hrest : forall x, In x l -> di_profit x <= r * inject_Z (di_volume x)).
    { intros x Hx. rewrite Forall_forall in Hall. specialize (Hall x Hx). simpl in Hall.
      assert (E : r * inject_Z (di_volume x) == di_profit it * inject_Z (di_volume x) / inject_Z (di_volume it)).
      { unfold r. field. lra. }
      rewrite E. apply Qle_shift_div_l; assumption. }
    simpl dantzig_fill.
    destruct (Qle_bool remaining 0) eqn:E0.
    + apply Qle_bool_iff in E0. assert (remaining == 0) by lra.
      pose proof (profit_ratio _ _ rho Hc0 Hg0 Hr) as HP.
      assert (rho * inject_Z (choice_volume (it :: l) (n :: counts)) <= rho * over).
      { rewrite !(Qmult_comm rho). apply Qmult_le_compat_r; lra. }
      lra.
    + assert (Hrem0 : 0 < remaining).
      { destruct (Qlt_le_dec 0 remaining) as [|Hle]; [assumption|]. apply Qle_bool_iff in Hle. congruence. }
      destruct (Qle_bool (inject_Z (di_volume it * di_copies it)) remaining) eqn:E1.
      * apply Qle_bool_iff in E1.
        rewrite dantzig_fill_bound, choice_profit_cons.
        set (V := inject_Z (di_volume it * di_copies it)) in *.
        rewrite choice_volume_cons, inject_Z_plus, inject_Z_mult in Hvol.
        assert (EV : V == inject_Z (di_volume it) * inject_Z (di_copies it)) by (unfold V; rewrite inject_Z_mult; reflexivity).
        set (gap := inject_Z (di_volume it) * (inject_Z (di_copies it) - inject_Z n)).
        assert (Hgap : 0 <= gap).
        { unfold gap. apply Qmult_le_0_compat; [lra|].
          assert (inject_Z n <= inject_Z (di_copies it)) by (rewrite <- Zle_Qle; lia). lra. }
        assert (HI : choice_profit l counts <= dantzig_fill l (remaining - V) 0 + r * (over + gap)).
        { apply (IH Hg' Hs'); try lra; [exact Hrest|].
          rewrite EV. unfold gap. lra. }
        assert (r * over <= rho * over) by (apply Qmult_le_compat_r; assumption).
        assert (Eg : r * gap == di_profit it * inject_Z (di_copies it) - di_profit it * inject_Z n).
        { unfold gap. rewrite <- Er. ring. }
        assert (Ed : r * (over + gap) == r * over + r * gap) by ring.
        lra.
      * rewrite dantzig_fill_bound, dantzig_fill_zero.
        assert (Hall' : forall x, In x (it :: l) -> di_profit x <= r * inject_Z (di_volume x)).
        { intros x [<-|Hx]; [lra|apply Hrest; assumption]. }
        pose proof (profit_ratio _ _ r Hc0 Hg0 Hall') as HP.
        assert (Ef : di_profit it * (remaining / inject_Z (di_volume it)) == r * remaining) by (unfold r; field; lra).
        rewrite Ef.
        assert (r * inject_Z (choice_volume (it :: l) (n :: counts)) <= r * (remaining + over)).
        { rewrite !(Qmult_comm r). apply Qmult_le_compat_r; assumption. }
        assert (r * over <= rho * over) by (apply Qmult_le_compat_r; assumption).
        assert (Ed : r * (remaining + over) == r * remaining + r * over) by ring.
        lra.
Qed.

Lemma dantzig_before_false : forall a b, dantzig_before a b = false <->
  di_profit a * inject_Z (di_volume b) <= di_profit b * inject_Z (di_volume a).
Proof. intros a b. unfold dantzig_before. rewrite negb_false_iff. apply Qle_bool_iff. Qed.

Lemma insert_ditem_perm : forall x l, Permutation (insert_ditem x l) (x :: l).
Proof.
  intros x l. induction l as [|y l IH]; simpl; [reflexivity|].
  destruct (dantzig_before y x); [|reflexivity]. rewrite IH. apply perm_swap.
Qed.
Lemma sort_ditems_perm : forall l, Permutation (sort_ditems l) l.
Proof.
  induction l as [|x l IH]; simpl; [reflexivity|]. rewrite insert_ditem_perm. constructor. assumption.
Qed.

Lemma ratio_trans : forall a b c, (0 < di_volume a)%Z -> (0 < di_volume b)%Z -> (0 < di_volume c)%Z ->
  di_profit b * inject_Z (di_volume a) <= di_profit a * inject_Z (di_volume b) ->
  di_profit c * inject_Z (di_volume b) <= di_profit b * inject_Z (di_volume c) ->
  di_profit c * inject_Z (di_volume a) <= di_profit a * inject_Z (di_volume c).
Proof.
  intros a b c Ha Hb Hc H1 H2. apply inj_pos in Ha, Hb, Hc.
  apply (Qmult_le_r _ _ (inject_Z (di_volume b))); [assumption|].
  assert (E1 : di_profit c * inject_Z (di_volume b) * inject_Z (di_volume a)
             <= di_profit b * inject_Z (di_volume c) * inject_Z (di_volume a)) by (apply Qmult_le_compat_r; lra).
  assert (E2 : di_profit b * inject_Z (di_volume a) * inject_Z (di_volume c)
             <= di_profit a * inject_Z (di_volume b) * inject_Z (di_volume c)) by (apply Qmult_le_compat_r; lra).
  lra.
Qed.

Lemma sort_ditems_sorted : forall l, Forall (fun it => (0 < di_volume it)%Z) l -> ratio_sorted (sort_ditems l).
Proof.
  intros l H. induction H as [|x l Hx H IH]; simpl; [constructor|].
  assert (Hpos : Forall (fun it => (0 < di_volume it)%Z) (sort_ditems l)).
  { apply Forall_forall. intros y Hy. rewrite Forall_forall in H. apply H.
    apply (Permutation_in y (sort_ditems_perm l)). assumption. }
  clear H. revert Hpos. induction IH as [|y l' Hl' IH' Hall]; intro Hpos; simpl; [repeat constructor|].
  inversion Hpos as [|? ? Hy Hpos']; subst.
  destruct (dantzig_before y x) eqn:E.
  - constructor; [apply IH'; assumption|].
    apply Forall_forall. intros z Hz. apply (Permutation_in z (insert_ditem_perm x l')) in Hz.
    destruct Hz as [<-|Hz].
    + unfold dantzig_before in E. apply negb_true_iff in E.
      destruct (Qlt_le_dec (di_profit x * inject_Z (di_volume y)) (di_profit y * inject_Z (di_volume x))) as [Hlt|Hle];
        [lra|]. apply Qle_bool_iff in Hle. congruence.
    + rewrite Forall_forall in Hall. apply Hall. assumption.
  - apply dantzig_before_false in E. constructor; [constructor; assumption|].
    constructor; [assumption|]. apply Forall_forall. intros z Hz.
    rewrite Forall_forall in Hall, Hpos'. apply (ratio_trans x y z); auto; apply Hall; assumption.
Qed.

(** Pairs (item, count) of a choice. *)
Lemma choice_pairs : forall l counts, choice l counts ->
  map fst (combine l counts) = l /\ forall q, In q (combine l counts) -> (0 <= snd q <= di_copies (fst q))%Z.
Proof.
  intros l counts H. induction H as [|p n l counts Hp _ [I1 I2]]; [split; [reflexivity|intros q []]|].
  simpl. rewrite I1. split; [reflexivity|]. intros q [<-|Hq]; [exact Hp|apply I2; assumption].
Qed.

Definition pairs_ok (ps : list (DItem * Z)) : Prop := forall q, In q ps -> (0 <= snd q <= di_copies (fst q))%Z.
Definition pairs_profit (ps : list (DItem * Z)) : Q := qsum (fun p => di_profit (fst p) * inject_Z (snd p)) ps.
Definition pairs_volume (ps : list (DItem * Z)) : Z := zsum (fun p => (di_volume (fst p) * snd p)%Z) ps.

Lemma combine_split : forall A B (ps : list (A * B)), combine (map fst ps) (map snd ps) = ps.
Proof. intros A B ps. induction ps as [|[a b] ps IH]; simpl; [reflexivity|]. rewrite IH. reflexivity. Qed.

Lemma pairs_choice : forall ps, pairs_ok ps -> choice (map fst ps) (map snd ps).
Proof.
  intros ps H. unfold choice. induction ps as [|q ps IH]; simpl; [constructor|].
  constructor; [apply H; left; reflexivity|]. apply IH. intros r Hr. apply H. right. assumption.
Qed.

Lemma dantzig_upper : forall items counts capacity,
  Forall (fun it => 0 <= di_profit it /\ (0 <= di_volume it)%Z /\ (0 <= di_copies it)%Z) items ->
  choice items counts -> 0 <= capacity -> inject_Z (choice_volume items counts) <= capacity ->
  choice_profit items counts <= dantzig_profit_bound items capacity.
Proof.
  intros items counts capacity Hg Hc Hcap Hvol.
  destruct (choice_pairs _ _ Hc) as [E1 Hok].
  set (ps := combine items counts) in *.
  assert (Hpr : choice_profit items counts = pairs_profit ps) by reflexivity.
  assert (Hvo : choice_volume items counts = pairs_volume ps) by reflexivity.
  rewrite Hpr. rewrite Hvo in Hvol. clearbody ps. clear Hc Hpr Hvo counts.
  unfold dantzig_profit_bound.
  set (isfree := fun it : DItem => (di_volume it <=? 0)%Z).
  (* split the pairs *)
  set (pf := filter (fun q => isfree (fst q)) ps). set (po := filter (fun q => negb (isfree (fst q))) ps).
  assert (Hsplit : pairs_profit ps == pairs_profit pf + pairs_profit po /\
                   (pairs_volume ps = pairs_volume pf + pairs_volume po)%Z).
  { unfold pf, po, pairs_profit, pairs_volume. clear. induction ps as [|q ps [I1 I2]]; [split; [simpl; ring|reflexivity]|].
    simpl. destruct (isfree (fst q)); simpl; rewrite ?qsum_cons, ?zsum_cons; split; try lra; lia. }
  destruct Hsplit as [Hsp Hsv].
  assert (Efree : filter isfree items = map fst pf).
  { rewrite <- E1. unfold pf. clear. induction ps as [|q ps IH]; simpl; [reflexivity|].
    destruct (isfree (fst q)); simpl; rewrite IH; reflexivity. }
  assert (Eoth : filter (fun it => negb (isfree it)) items = map fst po).
  { rewrite <- E1. unfold po. clear. induction ps as [|q ps IH]; simpl; [reflexivity|].
    destruct (isfree (fst q)); simpl; rewrite IH; reflexivity. }
  change (fun it : DItem => negb (di_volume it <=? 0)%Z) with (fun it => negb (isfree it)).
  fold isfree. rewrite Efree, Eoth.
  assert (Hgp : forall q, In q ps -> 0 <= di_profit (fst q) /\ (0 <= di_volume (fst q))%Z /\ (0 <= di_copies (fst q))%Z).
  { intros q Hq. rewrite Forall_forall in Hg. apply Hg. rewrite <- E1. apply in_map. assumption. }
  (* free part *)
  assert (Hfree : forall l b, (forall q, In q l -> In q ps) ->
    b + pairs_profit l <= fold_left (fun b it => b + di_profit it * inject_Z (di_copies it)) (map fst l) b).
  { induction l as [|q l IH]; intros b Hl.
    - unfold pairs_profit. simpl. lra.
    - cbn [map fold_left]. eapply Qle_trans; [|apply IH; intros r Hr; apply Hl; right; assumption].
      unfold pairs_profit. rewrite qsum_cons.
      destruct (Hgp q (Hl q (or_introl eq_refl))) as (G1 & _ & _).
      specialize (Hok q (Hl q (or_introl eq_refl))).
      assert (di_profit (fst q) * inject_Z (snd q) <= di_profit (fst q) * inject_Z (di_copies (fst q))).
      { rewrite !(Qmult_comm (di_profit (fst q))). apply Qmult_le_compat_r; [rewrite <- Zle_Qle; lia|assumption]. }
      lra. }
  assert (Hpf : pairs_profit pf <= fold_left (fun b it => b + di_profit it * inject_Z (di_copies it)) (map fst pf) 0).
  { pose proof (Hfree pf 0 ltac:(intros q Hq; apply filter_In in Hq; apply Hq)). lra. }
  (* the others, sorted *)
  destruct (Permutation_map_inv fst po (sort_ditems_perm (map fst po))) as (po' & Epo & HPpo).
  rewrite dantzig_fill_bound.
  assert (Hin' : forall q, In q po' -> In q ps /\ (0 < di_volume (fst q))%Z).
  { intros q Hq. apply (Permutation_in q (Permutation_sym HPpo)) in Hq. apply filter_In in Hq.
    destruct Hq as [Hq1 Hq2]. split; [assumption|]. unfold isfree in Hq2. apply negb_true_iff in Hq2.
    apply Z.leb_gt in Hq2. assumption. }
  assert (Hpo : pairs_profit po <= dantzig_fill (sort_ditems (map fst po)) capacity 0).
  { assert (Ep : pairs_profit po == choice_profit (map fst po') (map snd po')).
    { unfold choice_profit. rewrite combine_split. apply qsum_perm. assumption. }
    rewrite Ep, Epo.
    assert (HR : exists rho, 0 <= rho /\ forall it, In it (map fst po') -> di_profit it <= rho * inject_Z (di_volume it)).
    { clear -Hin' Hgp. induction po' as [|q po' IH].
      - exists 0. split; [lra|]. intros it [].
      - destruct IH as (rho & R1 & R2); [intros r Hr; apply Hin'; right; assumption|].
        destruct (Hin' q (or_introl eq_refl)) as [Hq Hv]. destruct (Hgp q Hq) as (G1 & _ & _).
        exists (rho + di_profit (fst q)). split; [lra|].
        assert (V1 : 1 <= inject_Z (di_volume (fst q))) by (change 1 with (inject_Z 1); rewrite <- Zle_Qle; lia).
        intros it [<-|Hit].
        + nra.
        + specialize (R2 it Hit). apply in_map_iff in Hit. destruct Hit as (q' & <- & Hq').
          destruct (Hin' q' (or_intror Hq')) as [_ Hv']. apply inj_pos in Hv'. nra. }
    destruct HR as (rho & R1 & R2).
    assert (HU : choice_profit (map fst po') (map snd po') <= dantzig_fill (map fst po') capacity 0 + rho * 0).
    { apply dantzig_fill_upper; try assumption; try lra.
      - apply pairs_choice. intros q Hq. apply Hok. apply Hin'. assumption.
      - apply Forall_forall. intros it Hit. apply in_map_iff in Hit. destruct Hit as (q & <- & Hq).
        destruct (Hin' q Hq) as [H1 H2]. destruct (Hgp q H1) as (G1 & G2 & G3). auto.
      - rewrite <- Epo. apply sort_ditems_sorted. apply Forall_forall. intros it Hit.
        apply (Permutation_in it (Permutation_refl _)) in Hit.
        apply in_map_iff in Hit. destruct Hit as (q & <- & Hq).
        apply (Hin' q). apply (Permutation_in q HPpo). assumption.
      - assert (Ev : choice_volume (map fst po') (map snd po') = pairs_volume po).
        { unfold choice_volume. rewrite combine_split. apply zsum_perm. symmetry. assumption. }
        rewrite Ev.
        assert (Hvf : (0 <= pairs_volume pf)%Z).
        { apply zsum_nonneg. intros q Hq. apply filter_In in Hq. destruct Hq as [Hq _].
          destruct (Hgp q Hq) as (_ & G2 & _). specialize (Hok q Hq). nia. }
        assert (inject_Z (pairs_volume po) <= inject_Z (pairs_volume ps)) by (rewrite <- Zle_Qle; lia).
        lra. }
    lra. }
  lra.
Qed.
