(** * The dynamic programming for one bin is exact *)

From Coq Require Import List ZArith QArith Bool Lia Lqa Arith Permutation Sorted Psatz.
From Verif Require Import Util Common_Model OneDim_Model OneDim_Spec OneDim_Order Dff_Axis
  OneDimDff_Model OneDimDff_Spec OneDimDff_Proof OneDimBuilder_Proof OneDimBounds_Model OneDimBounds_Spec OneDimBounds_Proof
  OneDim_Props Dff_Props.
Import ListNotations.
Open Scope Z_scope.

(** ** Splitting in powers of two *)

Definition sub_sum (sel : list bool) (l : list Z) : Z :=
  zsum (fun p => if fst p : bool then snd p else 0) (combine sel l).

Definition reached (l : list Z) (n : Z) : Prop := exists sel, length sel = length l /\ sub_sum sel l = n.

Lemma combine_app : forall A B (a1 a2 : list A) (b1 b2 : list B), length a1 = length b1 ->
  combine (a1 ++ a2) (b1 ++ b2) = combine a1 b1 ++ combine a2 b2.
Proof.
  intros A B a1. induction a1 as [|x a1 IH]; intros a2 [|y b1] b2 H; simpl in H; try discriminate; [reflexivity|].
  simpl. rewrite IH by congruence. reflexivity.
Qed.

Lemma sub_sum_app : forall s1 s2 l1 l2, length s1 = length l1 -> sub_sum (s1 ++ s2) (l1 ++ l2) = sub_sum s1 l1 + sub_sum s2 l2.
Proof. intros. unfold sub_sum. rewrite combine_app by assumption. apply zsum_app. Qed.

Lemma sub_sum_none : forall l, sub_sum (repeat false (length l)) l = 0.
Proof. induction l as [|x l IH]; [reflexivity|]. unfold sub_sum in *. simpl length. simpl repeat. simpl combine. rewrite zsum_cons, IH. reflexivity. Qed.

Lemma reached_app_l : forall l1 l2 n, reached l1 n -> reached (l1 ++ l2) n.
Proof.
  intros l1 l2 n (s & Hs & E). exists (s ++ repeat false (length l2)). split.
  - rewrite !app_length, repeat_length, Hs. reflexivity.
  - rewrite sub_sum_app, sub_sum_none by assumption. lia.
Qed.

Lemma reached_snoc : forall l c n, reached l n -> reached (l ++ [c]) (n + c).
Proof.
  intros l c n (s & Hs & E). exists (s ++ [true]). split.
  - rewrite !app_length, Hs. reflexivity.
  - rewrite sub_sum_app by assumption. unfold sub_sum at 2. simpl combine. rewrite zsum_cons. simpl. lia.
Qed.

Lemma split_reaches : forall fuel capacity w copies total c done,
  0 <= w -> 0 <= total -> 1 <= c <= total + 1 -> copies - total <= Z.of_nat fuel ->
  (forall n, 0 <= n <= total -> reached done n) ->
  forall n, 0 <= n <= copies -> n * w <= capacity ->
  reached (done ++ split_copies fuel capacity w copies total c) n.
Proof.
  induction fuel as [|fuel IH]; intros capacity w copies total c done Hw Ht Hc Hf Hd n Hn Hnw.
  - simpl. rewrite app_nil_r. apply Hd. lia.
  - cbn [split_copies]. destruct (Z.leb_spec copies total).
    + rewrite app_nil_r. apply Hd. lia.
    + cbv zeta. set (c' := if copies <? total + c then copies - total else c).
      assert (Hc' : 1 <= c' <= total + 1 /\ total + c' <= copies).
      { unfold c'. destruct (Z.ltb_spec copies (total + c)); lia. }
      destruct (Z.ltb_spec capacity (c' * w)).
      * rewrite app_nil_r. apply Hd. nia.
      * change (c' :: split_copies fuel capacity w copies (total + c') (c' * 2))
          with ([c'] ++ split_copies fuel capacity w copies (total + c') (c' * 2)).
        rewrite app_assoc. apply IH; try lia. intros k Hk.
        destruct (Z_le_gt_dec k total); [apply reached_app_l; apply Hd; lia|].
        replace k with ((k - c') + c') by lia. apply reached_snoc. apply Hd. lia.
Qed.

Lemma split_complete : forall capacity w copies n, 0 <= w -> 0 <= n <= copies -> n * w <= capacity ->
  reached (split_copies (Z.to_nat copies) capacity w copies 0 1) n.
Proof.
  intros capacity w copies n Hw Hn Hnw.
  apply (split_reaches (Z.to_nat copies) capacity w copies 0 1 []); try lia.
  intros k Hk. exists []. split; [reflexivity|]. unfold sub_sum. simpl. lia.
Qed.

Lemma split_sound : forall fuel capacity w copies total c, 0 <= total -> 1 <= c ->
  Forall (fun x => 1 <= x) (split_copies fuel capacity w copies total c) /\
  zsum (fun x => x) (split_copies fuel capacity w copies total c) <= Z.max 0 (copies - total).
Proof.
  induction fuel as [|fuel IH]; intros capacity w copies total c Ht Hc; [simpl; split; [constructor|lia]|].
  cbn [split_copies]. destruct (Z.leb_spec copies total); [split; [constructor|simpl; lia]|].
  cbv zeta. set (c' := if copies <? total + c then copies - total else c).
  assert (Hc' : 1 <= c' /\ total + c' <= copies).
  { unfold c'. destruct (Z.ltb_spec copies (total + c)); lia. }
  destruct (Z.ltb_spec capacity (c' * w)); [split; [constructor|simpl; lia]|].
  destruct (IH capacity w copies (total + c') (c' * 2)) as [I1 I2]; try lia.
  split; [constructor; [lia|assumption]|]. rewrite zsum_cons. lia.
Qed.

Section Dp.

Variable i : Instance.
Hypothesis Hdom : bound_domain i.
Hypothesis Hone : one_bin i.

Let n := length (in_item_types i).
Let ids := bt_item_type_ids (bin_type i 0).
Let L := bt_length (bin_type i 0).
Let red (j : nat) : Z := reduced_length (item_type i j).
Let profit (j : nat) : Q := it_profit (item_type i j).

Definition chunks (x : nat) : list Z :=
  split_copies (Z.to_nat (it_copies (item_type i x))) L (red x) (it_copies (item_type i x)) 0 1.
Definition items_of (l : list nat) : list (nat * Z) := flat_map (fun x => map (fun c => (x, c)) (chunks x)) l.
Definition knapsack_of (l : list (nat * Z)) : list (Q * Z) :=
  map (fun p => ((inject_Z (snd p) * it_profit (item_type i (fst p)))%Q, snd p * reduced_length (item_type i (fst p)))) l.
Definition chosen_from (sel : list bool) (l : list (nat * Z)) : list nat :=
  flat_map (fun sp => if fst sp : bool then repeat (fst (snd sp)) (Z.to_nat (snd (snd sp))) else []) (combine sel l).

Lemma ids_in : forall x, In x ids -> (x < n)%nat.
Proof. intros x Hx. apply (ob_ids _ Hone) in Hx. apply Hx. Qed.

Lemma one_type : forall x c sel, length sel = length (map (fun c => (x, c)) c) ->
  selected_weight (knapsack_of (map (fun c => (x, c)) c)) sel = sub_sum sel c * red x
  /\ (selected_profit (knapsack_of (map (fun c => (x, c)) c)) sel == inject_Z (sub_sum sel c) * profit x)%Q.
Proof.
  intros x c. induction c as [|v c IH]; intros [|b sel] H; simpl in H; try discriminate; [split; reflexivity|].
  destruct (IH sel) as [I1 I2]; [congruence|].
  unfold selected_weight, selected_profit, knapsack_of, sub_sum in *. cbn [map combine].
  rewrite !zsum_cons, qsum_cons, I1, I2, inject_Z_plus. cbn [fst snd]. unfold red, profit.
  destruct b; split; try lia; try ring.
Qed.

Lemma knapsack_app : forall a b, knapsack_of (a ++ b) = knapsack_of a ++ knapsack_of b.
Proof. intros. apply map_app. Qed.

Lemma selection_app : forall a b s1 s2, length s1 = length a ->
  selected_weight (knapsack_of (a ++ b)) (s1 ++ s2) = selected_weight (knapsack_of a) s1 + selected_weight (knapsack_of b) s2
  /\ (selected_profit (knapsack_of (a ++ b)) (s1 ++ s2) == selected_profit (knapsack_of a) s1 + selected_profit (knapsack_of b) s2)%Q.
Proof.
  intros a b s1 s2 H. unfold selected_weight, selected_profit. rewrite knapsack_app, combine_app.
  - split; [apply zsum_app|apply qsum_app].
  - unfold knapsack_of. rewrite map_length. assumption.
Qed.

(** A number of copies of each type can be selected. *)
Lemma selection_exists : forall (cnt : nat -> Z) l,
  (forall x, In x l -> (x < n)%nat /\ 0 <= cnt x <= it_copies (item_type i x) /\ cnt x * red x <= L) ->
  exists sel, length sel = length (items_of l) /\
    selected_weight (knapsack_of (items_of l)) sel = zsum (fun x => cnt x * red x) l /\
    (selected_profit (knapsack_of (items_of l)) sel == qsum (fun x => inject_Z (cnt x) * profit x) l)%Q.
Proof.
  intros cnt l. induction l as [|x l IH]; intro H.
  - exists []. split; [reflexivity|]. split; reflexivity.
  - destruct IH as (s2 & E1 & E2 & E3); [intros y Hy; apply H; right; assumption|].
    destruct (H x (or_introl eq_refl)) as (Hx & Hc & Hw).
    destruct (split_complete L (red x) (it_copies (item_type i x)) (cnt x)) as (s1 & F1 & F2); try lia.
    { pose proof (red_gt0 i Hdom x Hx). unfold red. lia. }
    exists (s1 ++ s2). cbn [items_of flat_map]. fold (items_of l).
    assert (F1' : length s1 = length (map (fun c => (x, c)) (chunks x))) by (rewrite map_length; exact F1).
    split; [rewrite !app_length, F1', E1; reflexivity|].
    destruct (selection_app (map (fun c => (x, c)) (chunks x)) (items_of l) s1 s2 F1') as [A1 A2].
    destruct (one_type x (chunks x) s1 F1') as [O1 O2].
    fold (chunks x) in F2. split.
    + change (selected_weight (knapsack_of (map (fun c => (x, c)) (chunks x) ++ items_of l)) (s1 ++ s2) = zsum (fun y => cnt y * red y) (x :: l)).
      rewrite A1, O1, F2, E2, zsum_cons. reflexivity.
    + change (selected_profit (knapsack_of (map (fun c => (x, c)) (chunks x) ++ items_of l)) (s1 ++ s2) == qsum (fun y => inject_Z (cnt y) * profit y) (x :: l))%Q.
      rewrite A2, O2, F2, E3, qsum_cons. reflexivity.
Qed.

Lemma knapsack_eq : dp_knapsack i = knapsack_of (items_of ids).
Proof. reflexivity. Qed.

(** ** What the built solution holds *)

Lemma items_pos : forall l p, In p (items_of l) -> In (fst p) l /\ 1 <= snd p.
Proof.
  intros l p H. apply in_flat_map in H. destruct H as (x & Hx & H). apply in_map_iff in H. destruct H as (c & <- & Hc).
  split; [assumption|]. simpl. unfold chunks in Hc.
  destruct (split_sound (Z.to_nat (it_copies (item_type i x))) L (red x) (it_copies (item_type i x)) 0 1) as [S1 _]; try lia.
  rewrite Forall_forall in S1. apply S1. assumption.
Qed.

Lemma chosen_sums : forall l sel, (forall p, In p l -> 0 <= snd p) ->
  zsum red (chosen_from sel l) = selected_weight (knapsack_of l) sel
  /\ (qsum profit (chosen_from sel l) == selected_profit (knapsack_of l) sel)%Q.
Proof.
  induction l as [|[x c] l IH]; intros sel H.
  - destruct sel; split; reflexivity.
  - destruct sel as [|b sel]; [split; reflexivity|].
    destruct (IH sel (fun p Hp => H p (or_intror Hp))) as [I1 I2]. specialize (H (x, c) (or_introl eq_refl)). simpl in H.
    unfold chosen_from, selected_weight, selected_profit, knapsack_of in *. cbn [map combine flat_map fst snd].
    rewrite zsum_app, qsum_app, I1, I2, zsum_cons, qsum_cons. cbn [fst snd].
    assert (HQ : forall k, (qsum profit (repeat x k) == inject_Z (Z.of_nat k) * profit x)%Q).
    { induction k as [|k IHk]; [simpl; ring|]. simpl repeat. rewrite qsum_cons, IHk, Nat2Z.inj_succ, <- Z.add_1_l, inject_Z_plus. ring. }
    destruct b; [|split; [reflexivity|unfold qsum at 1; simpl; ring]].
    rewrite zsum_repeat, HQ, Z2Nat.id by assumption. split; [reflexivity|]. unfold profit. reflexivity.
Qed.

Lemma chosen_in : forall l sel x, In x (chosen_from sel l) -> In x (map fst l).
Proof.
  intros l sel x H. apply in_flat_map in H. destruct H as ([b p] & Hp & H). simpl in H. destruct b; [|destruct H].
  apply repeat_spec in H. subst x. apply in_combine_r in Hp. apply in_map. assumption.
Qed.

Lemma chosen_count : forall l sel x, (forall p, In p l -> 0 <= snd p) ->
  Z.of_nat (count_occ Nat.eq_dec (chosen_from sel l) x) <= zsum (fun p => if Nat.eqb (fst p) x then snd p else 0) l
  /\ Z.of_nat (length (chosen_from sel l)) <= zsum snd l.
Proof.
  induction l as [|[y c] l IH]; intros sel x H.
  - destruct sel; simpl; lia.
  - specialize (IH) as IH'. assert (Hc := H (y, c) (or_introl eq_refl)). simpl in Hc.
    assert (N1 : 0 <= zsum (fun p : nat * Z => if Nat.eqb (fst p) x then snd p else 0) l).
    { apply zsum_nonneg. intros p Hp. specialize (H p (or_intror Hp)). destruct (Nat.eqb (fst p) x); lia. }
    assert (N2 : 0 <= zsum snd l).
    { apply zsum_nonneg. intros p Hp. apply H. right. assumption. }
    rewrite !zsum_cons. cbn [fst snd].
    destruct sel as [|b sel]; [simpl; destruct (Nat.eqb y x); lia|].
    destruct (IH sel x (fun p Hp => H p (or_intror Hp))) as [I1 I2].
    unfold chosen_from in *. cbn [combine flat_map fst snd]. rewrite count_occ_app, app_length.
    destruct b; [|simpl; destruct (Nat.eqb y x); lia].
    rewrite repeat_length.
    assert (EC : forall k, count_occ Nat.eq_dec (repeat y k) x = if Nat.eqb y x then k else 0%nat).
    { induction k as [|k IHk]; [destruct (Nat.eqb y x); reflexivity|]. simpl.
      destruct (Nat.eq_dec y x), (Nat.eqb_spec y x); try congruence. }
    rewrite EC. destruct (Nat.eqb y x); lia.
Qed.

Lemma items_count : forall l x, NoDup l -> (forall y, In y l -> 0 <= it_copies (item_type i y)) ->
  zsum (fun p => if Nat.eqb (fst p) x then snd p else 0) (items_of l)
    <= (if in_dec Nat.eq_dec x l then it_copies (item_type i x) else 0)
  /\ zsum snd (items_of l) <= zsum (fun y => it_copies (item_type i y)) l.
Proof.
  intros l x. induction l as [|y l IH]; intros Hnd Hc; [simpl; lia|].
  inversion Hnd as [|? ? Hy Hl]; subst. destruct (IH Hl (fun z Hz => Hc z (or_intror Hz))) as [I1 I2].
  cbn [items_of flat_map]. fold (items_of l). rewrite !zsum_app, !zsum_map, zsum_cons. cbn [fst snd].
  destruct (split_sound (Z.to_nat (it_copies (item_type i y))) L (red y) (it_copies (item_type i y)) 0 1) as [_ S2]; try lia.
  fold (chunks y) in S2. specialize (Hc y (or_introl eq_refl)). split; [|lia].
  destruct (Nat.eqb_spec y x) as [->|N].
  - destruct (in_dec Nat.eq_dec x l) as [|N]; [contradiction|].
    destruct (in_dec Nat.eq_dec x (x :: l)) as [|N']; [lia|exfalso; apply N'; left; reflexivity].
  - rewrite (zsum_zero _ (fun _ => 0)) by reflexivity.
    destruct (in_dec Nat.eq_dec x l) as [Hin|Hin], (in_dec Nat.eq_dec x (y :: l)) as [Hin'|Hin']; try lia.
    + exfalso. apply Hin'. right. assumption.
    + exfalso. destruct Hin' as [E|E]; [congruence|contradiction].
Qed.

Lemma ids_rest : exists rest, Permutation (seq 0 n) (ids ++ rest) /\ forall x, In x rest -> ~ In x ids /\ (x < n)%nat.
Proof.
  exists (filter (fun x => if in_dec Nat.eq_dec x ids then false else true) (seq 0 n)). split.
  - apply NoDup_Permutation; [apply seq_NoDup| |].
    + apply nodup_app_intro; [apply (ob_distinct _ Hone)|apply NoDup_filter; apply seq_NoDup|].
      intros x Hx Hx'. apply filter_In in Hx'. destruct Hx' as [_ H]. destruct (in_dec Nat.eq_dec x ids); [discriminate|contradiction].
    + intro x. rewrite in_app_iff, filter_In. split.
      * intro H. destruct (in_dec Nat.eq_dec x ids) as [Hin|Hin]; [left; assumption|right; split; [assumption|reflexivity]].
      * intros [H|[H _]]; [|assumption]. apply in_seq. pose proof (ids_in x H). lia.
  - intros x H. apply filter_In in H. destruct H as [H1 H2]. apply in_seq in H1.
    destruct (in_dec Nat.eq_dec x ids); [discriminate|]. split; [assumption|lia].
Qed.

Lemma knapsack_nonneg : forall it, In it (dp_knapsack i) -> 0 <= snd it.
Proof.
  intros it H. rewrite knapsack_eq in H. unfold knapsack_of in H. apply in_map_iff in H. destruct H as (p & <- & Hp).
  destruct (items_pos ids p Hp) as [H1 H2]. cbn [snd]. pose proof (red_gt0 i Hdom (fst p) (ids_in (fst p) H1)) as H3.
  cbv beta in H3. nia.
Qed.

Lemma capacity_nonneg : 0 <= L.
Proof.
  destruct (bd_bins_ok _ Hdom (bin_type i 0)) as [H _]; [apply nth_In; rewrite (ob_types _ Hone); lia|]. unfold L. lia.
Qed.

(** ** The built solution *)

Variable cb : Callback.
Variable sel : list bool.

Let chosen := chosen_from sel (dp_items i).

Lemma dp_items_nonneg : forall p, In p (dp_items i) -> 0 <= snd p.
Proof. intros p Hp. destruct (items_pos ids p Hp). lia. Qed.

Lemma chosen_range : forall x, In x chosen -> In x ids.
Proof.
  intros x H. apply chosen_in in H. apply in_map_iff in H. destruct H as (p & <- & Hp).
  apply (items_pos ids p Hp).
Qed.

Lemma calls_eq : dp_calls i sel = AddBin 0 1 :: map (AddItem 0) chosen.
Proof.
  unfold dp_calls. f_equal. unfold chosen, chosen_from. generalize (combine sel (dp_items i)). intro l.
  induction l as [|[b p] l IH]; [reflexivity|]. cbn [flat_map fst snd]. rewrite map_app, IH. f_equal.
  destruct b; [|reflexivity]. simpl. generalize (Z.to_nat (snd p)). intro k. induction k as [|k IHk]; [reflexivity|].
  simpl. rewrite IHk. reflexivity.
Qed.

Lemma desc_items : forall l d, desc_run [d] (map (AddItem 0) l) = [mkBD (bd_type d) (bd_copies d) (bd_items d ++ l)].
Proof.
  induction l as [|x l IH]; intro d; [destruct d; simpl; rewrite app_nil_r; reflexivity|].
  simpl. rewrite IH. simpl. rewrite <- app_assoc. reflexivity.
Qed.

Lemma calls_desc : desc_run [] (dp_calls i sel) = [mkBD 0 1 chosen].
Proof. rewrite calls_eq. simpl. rewrite desc_items. reflexivity. Qed.

Lemma run_items : forall l b, (forall x, In x l -> (x < n)%nat) -> exists b', sb_run i [b] (map (AddItem 0) l) = Some [b'].
Proof.
  induction l as [|x l IH]; intros b H; [exists b; reflexivity|].
  cbn [map sb_run]. unfold sb_add_item.
  destruct (Nat.ltb_spec 0 (length [b])); [|simpl in *; lia]. simpl andb.
  destruct (Nat.ltb_spec x (length (in_item_types i))) as [Hx|Hx].
  2:{ specialize (H x (or_introl eq_refl)). fold n in Hx. lia. }
  simpl andb. cbv iota. simpl upd. apply IH. intros y Hy. apply H. right. assumption.
Qed.

Lemma dp_builds : exists s, history i cb (dp_calls i sel) [] = Some s.
Proof.
  rewrite calls_eq. unfold history. cbn [sb_run]. unfold sb_add_bin, in_range.
  rewrite (ob_types _ Hone). simpl.
  destruct (run_items chosen (raw_bin 0 1 [])) as [b' E].
  - intros x Hx. apply ids_in. apply chosen_range. assumption.
  - rewrite E. eexists. reflexivity.
Qed.

Lemma dp_copies : copies_nonneg (dp_calls i sel) [].
Proof.
  split; [|intros c []]. rewrite calls_desc. intros d [<-|[]]. simpl. lia.
Qed.

Lemma chosen_length : zsum red chosen = selected_weight (dp_knapsack i) sel.
Proof. apply chosen_sums. apply dp_items_nonneg. Qed.
Lemma chosen_profit : (qsum profit chosen == selected_profit (dp_knapsack i) sel)%Q.
Proof. apply chosen_sums. apply dp_items_nonneg. Qed.

Lemma chosen_copies : forall x, Z.of_nat (count_occ Nat.eq_dec chosen x) <= it_copies (item_type i x).
Proof.
  intro x. destruct (chosen_count (dp_items i) sel x dp_items_nonneg) as [H1 _].
  assert (H2 : forall y, In y ids -> 0 <= it_copies (item_type i y)).
  { intros y Hy. apply (copies_ge0 i Hdom). }
  destruct (items_count ids x (ob_distinct _ Hone) H2) as [H3 _].
  change (items_of ids) with (dp_items i) in H3. pose proof (copies_ge0 i Hdom x).
  destruct (in_dec Nat.eq_dec x ids); unfold chosen; lia.
Qed.

Lemma chosen_size : Z.of_nat (length chosen) <= zsum it_copies (in_item_types i).
Proof.
  destruct (chosen_count (dp_items i) sel 0 dp_items_nonneg) as [_ H1].
  assert (H2 : forall y, In y ids -> 0 <= it_copies (item_type i y)).
  { intros y Hy. apply (copies_ge0 i Hdom). }
  destruct (items_count ids 0 (ob_distinct _ Hone) H2) as [_ H3].
  change (items_of ids) with (dp_items i) in H3.
  destruct ids_rest as (rest & HPm & Hrest).
  rewrite (zsum_seq_nth _ _ dummy_item). fold n.
  rewrite (zsum_perm _ _ _ _ HPm), zsum_app.
  assert (0 <= zsum (fun j => it_copies (nth j (in_item_types i) dummy_item)) rest).
  { apply zsum_nonneg. intros y _. apply (copies_ge0 i Hdom). }
  unfold item_type in H3. unfold chosen. lia.
Qed.

End Dp.

(** ** The reported bound *)

Lemma single_bins : forall i ds, one_bin i -> available_bins i ds ->
  ds = [] \/ exists l, ds = [mkBD 0 1 l].
Proof.
  intros i ds Hone [H1 H2]. rewrite (ob_types _ Hone) in H1, H2. specialize (H2 0%nat ltac:(lia)).
  rewrite (ob_copies _ Hone) in H2.
  destruct ds as [|d [|e ds]]; [left; reflexivity| |].
  - right. destruct (H1 d (or_introl eq_refl)) as [Ht Hc]. destruct d as [t c l]. cbn [bd_type bd_copies] in Ht, Hc.
    assert (t = 0)%nat by lia. subst t. unfold used_bins in H2. rewrite zsum_cons, zsum_nil in H2. cbn in H2.
    assert (c = 1) by lia. subst c. exists l. reflexivity.
  - exfalso. unfold used_bins in H2. rewrite !zsum_cons in H2.
    destruct (H1 d (or_introl eq_refl)) as [Ht Hc]. destruct (H1 e (or_intror (or_introl eq_refl))) as [Ht' Hc'].
    assert (0 <= zsum (fun d => if Nat.eqb (bd_type d) 0 then bd_copies d else 0) ds).
    { apply zsum_nonneg. intros f Hf. destruct (H1 f (or_intror (or_intror Hf))). destruct (Nat.eqb (bd_type f) 0); lia. }
    destruct (Nat.eqb_spec (bd_type d) 0), (Nat.eqb_spec (bd_type e) 0); lia.
Qed.

Lemma no_penalties : forall i d, no_penalty i -> bd_type d = 0%nat -> (penalties i d == 0)%Q.
Proof.
  intros i d H E. unfold penalties. rewrite E. apply qsum_zero. intros r Hr. rewrite (H r Hr). reflexivity.
Qed.

Lemma dp_upper : forall i ds solver, bound_domain i -> one_bin i -> no_penalty i -> exact_solver solver ->
  PackingOK i ds -> available_bins i ds ->
  (profit_of i ds <= selected_profit (dp_knapsack i) (solver (dp_knapsack i) (bt_length (bin_type i 0))))%Q.
Proof.
  intros i ds solver Hdom Hone Hnp Hex HP Hav.
  set (n := length (in_item_types i)). set (ids := bt_item_type_ids (bin_type i 0)). set (L := bt_length (bin_type i 0)).
  set (red := fun j => reduced_length (item_type i j)).
  assert (HL : zsum (fun j => packed j ds * red j) (seq 0 n) <= L).
  { pose proof (packed_length i ds Hdom HP Hav) as H1. pose proof (used_length_le i ds Hdom Hav) as H2.
    assert (E : total_capacity i = L).
    { rewrite capacity_sum, (ob_types _ Hone). simpl seq. rewrite zsum_cons, zsum_nil, (ob_copies _ Hone). unfold L. lia. }
    cbv beta in H1. unfold red. fold n in H1. lia. }
  assert (Hnn : forall j, In j (seq 0 n) -> 0 <= packed j ds * red j).
  { intros j Hj. apply in_seq in Hj. pose proof (packed_ge0 i ds Hav j). pose proof (red_gt0 i Hdom j).
    cbv beta in H0. unfold red. fold n in H0. specialize (H0 ltac:(lia)). nia. }
  destruct (ids_rest i Hone) as (rest & HPm & Hrest). fold n in HPm. fold ids in HPm, Hrest.
  assert (Hzero : forall x, In x rest -> packed x ds = 0).
  { intros x Hx. destruct (Hrest x Hx) as [Hx1 Hx2].
    destruct (Z.eq_dec (packed x ds) 0) as [|N]; [assumption|exfalso].
    destruct (packed_some i ds Hav x N) as (d & Hd & Hin). apply Hx1. apply (ob_ids _ Hone). split; [assumption|].
    pose proof (ok_eligibility _ _ (ok_bins _ _ HP d Hd) x Hin) as HE.
    destruct Hav as [Hav _]. destruct (Hav d Hd) as [Ht _]. rewrite (ob_types _ Hone) in Ht.
    assert (E0 : bd_type d = 0%nat) by lia. rewrite E0 in HE. assumption. }
  destruct (selection_exists i Hdom (fun x => packed x ds) ids) as (sel & S1 & S2 & S3).
  { intros x Hx. assert (Hxn : (x < n)%nat) by (apply (ids_in i Hone); assumption).
    split; [assumption|]. split.
    - split; [apply (packed_ge0 i ds Hav)|apply (packed_at_most i ds Hdom HP Hav)].
    - fold L. destruct (in_split_perm _ x (seq 0 n)) as (l' & HPx); [apply in_seq; lia|].
      rewrite (zsum_perm _ _ _ _ HPx), zsum_cons in HL.
      assert (0 <= zsum (fun j => packed j ds * red j) l'); [|unfold red in *; lia].
      apply zsum_nonneg. intros y Hy. apply Hnn. apply (Permutation_in y (Permutation_sym HPx)). right. assumption. }
  change (knapsack_of i (items_of i ids)) with (dp_knapsack i) in S2, S3.
  destruct (Hex (dp_knapsack i) L (capacity_nonneg i Hdom Hone) (knapsack_nonneg i Hdom Hone)) as (_ & _ & Hbest).
  assert (E : (profit_of i ds == selected_profit (dp_knapsack i) sel)%Q).
  { rewrite profit_split by assumption. rewrite S3.
    fold n. rewrite (qsum_perm _ (fun j => inject_Z (packed j ds) * it_profit (item_type i j))%Q _ _ HPm), qsum_app.
    rewrite (qsum_zero _ (fun j => inject_Z (packed j ds) * it_profit (item_type i j))%Q rest) by (intros x Hx; rewrite (Hzero x Hx); change (inject_Z 0) with 0%Q; ring).
    rewrite (qsum_zero _ (fun d => penalties i d) ds); [ring|]. intros d Hd. apply no_penalties; [assumption|].
    destruct Hav as [Hav _]. destruct (Hav d Hd) as [Ht _]. rewrite (ob_types _ Hone) in Ht. lia. }
  rewrite E. apply Hbest.
  - rewrite S1. unfold dp_knapsack. rewrite map_length. reflexivity.
  - rewrite S2. rewrite (zsum_perm _ _ _ _ HPm), zsum_app in HL.
    rewrite (zsum_zero _ _ rest) in HL by (intros x Hx; rewrite (Hzero x Hx); lia). unfold red in HL. lia.
Qed.

Lemma dp_value : forall i cb solver s, one_bin i -> no_penalty i -> wf_resource_ids i -> sane_resources i ->
  dp_solution i cb solver = Some s ->
  OneDim_Spec.view s = [mkBD 0 1 (chosen_from (solver (dp_knapsack i) (bt_length (bin_type i 0))) (dp_items i))] /\ (c_item_profit (s_core s) == selected_profit (dp_knapsack i) (solver (dp_knapsack i) (bt_length (bin_type i 0))))%Q.
Proof.
  intros i cb solver s Hone Hnp Hwf Hsane H. unfold dp_solution in H.
  set (sel := solver (dp_knapsack i) (bt_length (bin_type i 0))) in *.
  destruct (C09_indicators i cb _ _ s Hwf (dp_copies i sel) H) as (V & HI & _).
  rewrite calls_desc in V. rewrite app_nil_r in V. split; [assumption|].
  rewrite (ind_profit _ _ _ HI Hsane), V, qsum_cons. rewrite no_penalties by (assumption || reflexivity).
  cbn [bd_copies bd_items]. rewrite chosen_profit. change (inject_Z 1) with 1%Q. unfold qsum. simpl. ring.
Qed.

Lemma dp_feasible : forall i cb solver s, bound_domain i -> one_bin i -> wf_resource_ids i -> sane_instance i ->
  only_lengths i -> exact_solver solver -> (forall c, cb c = true) ->
  dp_solution i cb solver = Some s -> s_feasible s = true.
Proof.
  intros i cb solver s Hdom Hone Hwf Hsane Hol Hex Hcb H. unfold dp_solution in H.
  set (sel := solver (dp_knapsack i) (bt_length (bin_type i 0))) in *.
  destruct (C09_indicators i cb _ _ s Hwf (dp_copies i sel) H) as (V & _ & _).
  rewrite calls_desc, app_nil_r in V.
  apply (C10_feasible i cb _ _ s Hwf (dp_copies i sel) H). split; [|intros _; apply Hcb].
  rewrite V. set (chosen := chosen_from sel (dp_items i)).
  assert (Hrange : forall x, In x chosen -> (x < length (in_item_types i))%nat /\ is_eligible i x 0).
  { intros x Hx. apply (ob_ids _ Hone). apply (chosen_range i sel x Hx). }
  assert (Hitem : forall x, In x chosen -> In (item_type i x) (in_item_types i)).
  { intros x Hx. apply nth_In. apply Hrange. assumption. }
  assert (Epk : forall x, packed x [mkBD 0 1 chosen] = Z.of_nat (count_occ Nat.eq_dec chosen x)).
  { intro x. unfold packed. rewrite zsum_cons, zsum_nil. cbn [bd_copies bd_items]. lia. }
  apply packing_check; [assumption| | |].
  - intros d [<-|[]]. constructor; cbn [bd_type bd_items].
    + assert (EB : bin_end i chosen = zsum (fun x => reduced_length (item_type i x)) chosen).
      { assert (G : forall l, (forall x, In x l -> In x chosen) ->
          zsum (fun x => it_length (item_type i x)) l = zsum (fun x => reduced_length (item_type i x)) l
          /\ zsum (fun x => it_nesting (item_type i x)) l = 0).
        { induction l as [|x l IH]; intro Hl; [split; reflexivity|]. rewrite !zsum_cons.
          destruct (IH (fun y Hy => Hl y (or_intror Hy))) as [I1 I2]. rewrite I1, I2.
          destruct (ol_items _ Hol _ (Hitem x (Hl x (or_introl eq_refl)))) as (E & _). unfold reduced_length. rewrite E. split; lia. }
        unfold bin_end. destruct (G chosen (fun x Hx => Hx)) as [G1 _]. destruct (G (tl chosen)) as [_ G2].
        { intros x Hx. destruct chosen; [destruct Hx|right; assumption]. }
        lia. }
      rewrite EB. unfold chosen. rewrite (chosen_length i sel). apply Hex; [apply (capacity_nonneg i Hdom Hone)|apply (knapsack_nonneg i Hdom Hone)].
    + rewrite (ol_max_weight _ Hol). exact I.
    + intros x Hx. destruct (ol_items _ Hol _ (Hitem x Hx)) as (_ & _ & _ & Hs).
      pose proof (chosen_size i Hdom Hone sel). unfold chosen. lia.
    + intros a x after E. destruct (ol_items _ Hol (item_type i x)) as (_ & _ & E' & _).
      * apply Hitem. rewrite E. apply in_app_iff. right. left. reflexivity.
      * rewrite E'. exact I.
    + intros x Hx. apply Hrange. assumption.
    + rewrite (ol_resources _ Hol). intros r [].
  - intro x. rewrite Epk. apply (chosen_copies i Hdom Hone sel).
  - intros x Hx. rewrite Epk. destruct (ol_items _ Hol (item_type i x)) as (_ & Hm & _); [apply nth_In; assumption|]. lia.
Qed.
