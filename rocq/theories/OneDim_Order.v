(** * Consequences for sane instances; comparison of onedimensional solutions *)

From Coq Require Import List ZArith QArith Bool Lia Lqa Arith Permutation.
From Verif Require Import Util Common_Model Common_Spec Common_Proof OneDim_Model OneDim_Spec OneDim_Proof.
Import ListNotations.
Open Scope Z_scope.

Lemma consumption_perm : forall i r l1 l2, Permutation l1 l2 ->
  (consumption i r l1 == consumption i r l2)%Q.
Proof.
  intros i r l1 l2 H. unfold consumption. apply qsum_ext. intros x _.
  rewrite (proj1 (Permutation_count_occ Nat.eq_dec l1 l2) H x). reflexivity.
Qed.

Lemma bin_end_snoc' : forall i l x, bin_end i (l ++ [x]) = start_of i l x + it_length (item_type i x).
Proof.
  intros i [|y l] x; unfold bin_end, start_of, bin_end; simpl tl; simpl app.
  - simpl. lia.
  - rewrite !zsum_cons, !zsum_snoc. simpl tl. lia.
Qed.

Section Simple.

Variable i : Instance.
Hypothesis Hsane : sane_instance i.

Lemma schedule_total_mono : forall s n m, (forall q, In q s -> (0 <= q)%Q) -> (n <= m)%nat ->
  (schedule_total s n <= schedule_total s m)%Q.
Proof.
  intros s n m Hs Hle. induction Hle as [|m Hle IH]; [apply Qle_refl|]. simpl.
  assert (H : (0 <= nth m s (last s 0))%Q).
  { destruct (Nat.lt_ge_cases m (length s)) as [Hm|Hm].
    - apply Hs. apply nth_In. assumption.
    - rewrite nth_overflow by assumption. destruct s as [|a s]; [apply Qle_refl|].
      apply Hs. destruct (exists_last (l := a :: s)) as (s' & z & E); [discriminate|].
      rewrite E, last_last. apply in_or_app. right. left. reflexivity. }
  lra.
Qed.

Lemma bin_type_resource_in : forall t r, In r (bt_resources (bin_type i t)) ->
  (t < length (in_bin_types i))%nat.
Proof.
  intros t r H. destruct (Nat.lt_ge_cases t (length (in_bin_types i))) as [|Hge]; [assumption|].
  unfold bin_type in H. rewrite nth_overflow in H by assumption. destruct H.
Qed.

Lemma consumption_app_le : forall t r l1 l2, In r (bt_resources (bin_type i t)) ->
  (consumption i r l1 <= consumption i r (l1 ++ l2))%Q.
Proof.
  intros t r l1 l2 Hr.
  destruct (sane_res _ Hsane (bin_type i t) r) as [_ Hq];
    [apply nth_In; apply (bin_type_resource_in t r Hr)|assumption|].
  apply qsum_le. intros x Hx. apply schedule_total_mono.
  - intros q Hin. unfold schedule in Hin.
    destruct (nth_in_or_default x (res_item_consumptions r) []) as [Hi|Hi].
    + apply (Hq _ q Hi Hin).
    + rewrite Hi in Hin. destruct Hin.
  - rewrite count_occ_app. lia.
Qed.

Lemma total_weight_app : forall l1 l2, (total_weight i l1 <= total_weight i (l1 ++ l2))%Q.
Proof.
  intros l1 l2. unfold total_weight. rewrite qsum_app.
  assert (H : (0 <= qsum (fun x => it_weight (item_type i x)) l2)%Q).
  { apply qsum_nonneg. intros x _. apply (sane_items _ Hsane x). }
  lra.
Qed.

Lemma within_le : forall a b m, (a <= b)%Q -> within b m -> within a m.
Proof. intros a b [m|] H; simpl; [intro; lra|auto]. Qed.

Lemma bin_end_app_le : forall l1 l2, l1 <> [] -> bin_end i l1 <= bin_end i (l1 ++ l2).
Proof.
  intros l1 l2 H. destruct l1 as [|a l1]; [congruence|].
  unfold bin_end. simpl tl. simpl app. rewrite !zsum_cons, !zsum_app.
  assert (zsum (fun x => it_nesting (item_type i x)) l2 <= zsum (fun x => it_length (item_type i x)) l2).
  { apply zsum_le. intros x _. apply (sane_items _ Hsane x). }
  lia.
Qed.

Lemma bin_ok_simple : forall d, BinOK i d <-> SimpleBinOK i d.
Proof.
  intro d. split.
  - intros [H1 H2 H3 H4 H5 H6].
    constructor; try assumption.
    + destruct (exists_last_or_nil _ (bd_items d)) as [E|(l & x & E)].
      * rewrite E. unfold bin_end. simpl. apply (sane_bins _ Hsane (bd_type d)).
      * specialize (H1 l x [] E). rewrite E, bin_end_snoc'. assumption.
    + destruct (exists_last_or_nil _ (bd_items d)) as [E|(l & x & E)].
      * rewrite E. apply (sane_bins _ Hsane (bd_type d)).
      * specialize (H2 l x [] E). rewrite E. assumption.
    + intros a x after E. apply (H4 a x after []). rewrite app_nil_r. assumption.
    + intros r Hr Hp. specialize (H6 r Hr Hp).
      (* last item consuming the resource *)
      assert (Hgen : forall l, PrefAll (fun p x => schedule r x <> [] ->
           (consumption i r (p ++ [x]) <= res_capacity r)%Q) l ->
         (consumption i r l <= res_capacity r)%Q).
      { induction l as [|x l IH] using rev_ind; intro HP.
        - rewrite consumption_nil.
          apply (sane_res _ Hsane (bin_type i (bd_type d)) r); [|assumption].
          apply nth_In. apply (bin_type_resource_in _ r Hr).
        - apply prefall_snoc in HP. destruct HP as [HP1 HP2].
          destruct (schedule r x) as [|q s] eqn:Es.
          + assert (Heq : (consumption i r (l ++ [x]) == consumption i r l)%Q).
            { unfold consumption. apply qsum_ext. intros y Hy. destruct (Nat.eq_dec x y) as [<-|Hn].
              - rewrite Es.
                assert (Hz : forall n, (schedule_total [] n == 0)%Q).
                { induction n as [|n IHn]; simpl; [reflexivity|]. rewrite IHn. destruct n; reflexivity. }
                rewrite !Hz. reflexivity.
              - rewrite count_occ_app. simpl. destruct (Nat.eq_dec x y); [contradiction|].
                rewrite Nat.add_0_r. reflexivity. }
            rewrite Heq. apply IH. assumption.
          + apply HP2. congruence. }
      apply Hgen. assumption.
  - intros [H1 H2 H3 H4 H5 H6]. constructor; try assumption.
    + intros p x q E. rewrite <- bin_end_snoc'.
      etransitivity; [|exact H1]. rewrite E.
      replace (p ++ x :: q) with ((p ++ [x]) ++ q) by (rewrite <- app_assoc; reflexivity).
      apply bin_end_app_le. destruct p; discriminate.
    + intros p x q E. eapply within_le; [|exact H2]. rewrite E.
      replace (p ++ x :: q) with ((p ++ [x]) ++ q) by (rewrite <- app_assoc; reflexivity).
      apply total_weight_app.
    + intros a x m b E. eapply within_le; [|apply (H4 a x (m ++ b) E)]. apply total_weight_app.
    + intros r Hr Hp p x q E _. eapply Qle_trans; [|apply (H6 r Hr Hp)]. rewrite E.
      replace (p ++ x :: q) with ((p ++ [x]) ++ q) by (rewrite <- app_assoc; reflexivity).
      apply (consumption_app_le (bd_type d)). assumption.
Qed.

End Simple.

(** ** Comparison *)

(** [s1 < s2] as the code uses it (an exception is not [true]). *)
Definition better_by (i : Instance) (s1 s2 : Solution) : bool :=
  match sol_lt i s1 s2 with Some b => b | None => false end.

Lemma sol_lt_feasible_first : forall i s1 s2,
  (sol_lt i s1 s2 = Some true -> s_feasible s2 = true) /\
  (s_feasible s1 = false -> s_feasible s2 = true -> sol_lt i s1 s2 = Some true).
Proof.
  intros i s1 s2. unfold sol_lt. split.
  - destruct (s_feasible s2); [reflexivity|discriminate].
  - intros -> ->. reflexivity.
Qed.

Definition integer_objective (o : Objective) : bool :=
  match o with OBinPacking | OBinPackingWithLeftovers => true | _ => false end.

Lemma sol_lt_swo : forall i, integer_objective (in_objective i) = true ->
  StrictWeakOrder Solution (better_by i).
Proof.
  intros i Ho. unfold better_by, sol_lt.
  constructor.
  - intro a. destruct (s_feasible a); simpl; [|reflexivity].
    destruct (in_objective i); try discriminate; apply Z.ltb_irrefl.
  - intros a b c. destruct (s_feasible a), (s_feasible b), (s_feasible c); simpl; try congruence;
    destruct (in_objective i); try discriminate; rewrite ?Z.ltb_lt; intros; try lia; reflexivity.
  - intros a b c. destruct (s_feasible a), (s_feasible b), (s_feasible c); simpl; try congruence;
    destruct (in_objective i); try discriminate; rewrite ?Z.ltb_ge; intros; try lia; congruence.
Qed.

(** For the knapsack and cost objectives: strict partial order when the
    objective values are non-negative. *)

Lemma sol_lt_partial : forall i,
  in_objective i = OKnapsack \/ in_objective i = OVariableSizedBinPacking ->
  forall a b c, nonneg_values a -> nonneg_values b -> nonneg_values c ->
  better_by i a a = false /\
  (better_by i a b = true -> better_by i b a = false) /\
  (better_by i a b = true -> better_by i b c = true -> better_by i a c = true).
Proof.
  intros i Ho a b c [Ha1 Ha2] [Hb1 Hb2] [Hc1 Hc2]. unfold better_by, sol_lt.
  assert (HP : forall x, strictly_greater_profit x x = false) by (apply sgp_irrefl).
  destruct Ho as [Ho|Ho]; rewrite Ho;
  destruct (s_feasible a), (s_feasible b), (s_feasible c); simpl; unfold strictly_lesser_cost;
    rewrite ?sgp_irrefl, ?sgc_irrefl; repeat split; auto; try congruence;
    try (intro H; apply sgp_asym; assumption);
    try (intro H; apply sgc_asym; assumption);
    try (intros H1 H2; eapply sgp_trans; [| | |exact H2|exact H1]; assumption);
    try (intros H1 H2; eapply sgc_trans; [| | |exact H2|exact H1]; assumption).
  all: try (intros H1 H2; eapply sgc_trans; [| | |exact H1|exact H2]; assumption).
Qed.

(** ** Bin type order flag *)

Lemma last_used_snoc : forall l x,
  last_used (l ++ [x]) = if 0 <? x then Z.of_nat (length l) else last_used l.
Proof.
  intros l x. unfold last_used. rewrite app_length. simpl length.
  rewrite Nat.add_1_r, seq_S, fold_left_app. simpl.
  rewrite app_nth2 by lia. rewrite Nat.sub_diag. simpl.
  destruct (0 <? x); [reflexivity|].
  assert (H : forall ts a, (forall t, In t ts -> (t < length l)%nat) ->
    fold_left (fun last t => if 0 <? nth t (l ++ [x]) 0 then Z.of_nat t else last) ts a =
    fold_left (fun last t => if 0 <? nth t l 0 then Z.of_nat t else last) ts a).
  { induction ts as [|t ts IH]; intros a H; simpl; [reflexivity|].
    rewrite app_nth1 by (apply H; left; reflexivity). apply IH. intros u Hu. apply H. right. assumption. }
  apply H. intros t Ht. apply in_seq in Ht. lia.
Qed.

Lemma last_used_iff : forall l t, Z.of_nat t < last_used l <->
  exists u, (t < u < length l)%nat /\ 0 < nth u l 0.
Proof.
  induction l as [|x l IH] using rev_ind; intro t.
  - unfold last_used. simpl. split; [lia|]. intros (u & H & _). simpl in H. lia.
  - rewrite last_used_snoc, app_length. simpl length.
    destruct (0 <? x) eqn:E.
    + apply Z.ltb_lt in E. split.
      * intro H. exists (length l). split; [lia|]. rewrite app_nth2, Nat.sub_diag by lia. assumption.
      * intros (u & H & _). lia.
    + apply Z.ltb_ge in E. rewrite IH. split; intros (u & H & Hu); exists u.
      * split; [lia|]. rewrite app_nth1 by lia. assumption.
      * destruct (Nat.eq_dec u (length l)) as [->|Hn].
        -- rewrite app_nth2, Nat.sub_diag in Hu by lia. simpl in Hu. lia.
        -- split; [lia|]. rewrite app_nth1 in Hu by lia. assumption.
Qed.

Lemma order_ok_iff : forall i ds c, Indicators i ds c -> length (c_bin_copies c) = length (in_bin_types i) ->
  (order_ok i (c_bin_copies c) = true <-> OrderOK i ds).
Proof.
  intros i ds c HI Hl. unfold order_ok, OrderOK. rewrite forallb_forall. split.
  - intros H t u Htu Hu. rewrite <- (ind_bin_copies _ _ _ HI u) in Hu by lia.
    rewrite <- (ind_bin_copies _ _ _ HI t) by lia. apply Z.eqb_eq. apply H. apply in_seq.
    assert (Z.of_nat t < last_used (c_bin_copies c)) by (apply last_used_iff; exists u; split; [lia|assumption]).
    lia.
  - intros H t Ht. apply in_seq in Ht. apply Z.eqb_eq.
    assert (Hlt : Z.of_nat t < last_used (c_bin_copies c)) by lia.
    apply last_used_iff in Hlt. destruct Hlt as (u & Hu & Hp).
    rewrite (ind_bin_copies _ _ _ HI t) by lia. apply (H t u); [lia|].
    rewrite <- (ind_bin_copies _ _ _ HI u) by lia. assumption.
Qed.

Lemma is_bin_packing_iff : forall o, is_bin_packing o = true <-> o = OBinPacking.
Proof. intros []; simpl; split; congruence. Qed.

(** Flag after one update. *)
Lemma update_order : forall i cb pos s b, nth_error (c_bins (s_core s)) pos = Some b ->
  c_bin_type_order_ok (s_core (update_indicators i cb pos s)) =
  if is_bin_packing (in_objective i) && Nat.eqb (pos + 1) (length (c_bins (s_core s)))
     && negb (order_ok i (c_bin_copies (s_core (update_indicators i cb pos s))))
  then false else c_bin_type_order_ok (s_core s).
Proof. intros i cb pos s b H. unfold update_indicators. rewrite H. reflexivity. Qed.

Lemma push_order : forall i cb s b, wf_resource_ids i ->
  FullInv i cb s -> (forall d, In d (view s) -> desc_ok i d) -> desc_ok i (view_bin b) ->
  (sb_weight b == 0)%Q ->
  (c_bin_type_order_ok (s_core (push_bin i cb s b)) = true <->
   c_bin_type_order_ok (s_core s) = true /\
   (in_objective i = OBinPacking -> OrderOK i (view s ++ [view_bin b]))).
Proof.
  intros i cb s b Hwf HF Hds Hd Hw.
  destruct (push_full i cb Hwf s b HF Hds Hd Hw) as [HF' Hv].
  assert (HO := order_ok_iff i _ _ (ci_ind _ _ _ (fi_core _ _ _ HF')) (ci_bcl _ _ _ (fi_core _ _ _ HF'))).
  rewrite Hv in HO. rewrite <- HO. rewrite <- is_bin_packing_iff.
  unfold push_bin in *.
  match goal with |- context [update_indicators i cb ?n ?x] => set (s1 := x) in *; set (pos := n) in * end.
  rewrite (update_order i cb pos s1 b) by (apply nth_error_snoc).
  assert (E : Nat.eqb (pos + 1) (length (c_bins (s_core s1))) = true).
  { apply Nat.eqb_eq. unfold s1, pos. simpl. rewrite app_length. reflexivity. }
  rewrite E, andb_true_r. change (c_bin_type_order_ok (s_core s1)) with (c_bin_type_order_ok (s_core s)).
  destruct (is_bin_packing (in_objective i)); simpl; [|intuition].
  destruct (order_ok i _); simpl; intuition congruence.
Qed.

Lemma build_order : forall i cb bins, wf_resource_ids i -> bins <> [] ->
  (forall b, In b bins -> desc_ok i (view_bin b) /\ (sb_weight b == 0)%Q) ->
  (c_bin_type_order_ok (s_core (sb_build i cb bins)) = true <->
   (in_objective i = OBinPacking -> OrderOK i (map view_bin bins))).
Proof.
  intros i cb bins Hwf Hne Hb.
  destruct (build_full i cb Hwf bins Hb) as [HF Hv].
  assert (HO := order_ok_iff i _ _ (ci_ind _ _ _ (fi_core _ _ _ HF)) (ci_bcl _ _ _ (fi_core _ _ _ HF))).
  rewrite Hv in HO. rewrite <- HO. clear HO HF Hv. rewrite <- is_bin_packing_iff.
  unfold sb_build.
  assert (Hk : forall k, (k <= length bins)%nat -> (k < length bins)%nat ->
    c_bin_type_order_ok (s_core (fold_left (fun s pos => update_indicators i cb pos s) (seq 0 k)
                     (with_bins (sol_new i) bins))) = true).
  { induction k as [|k IH]; intros _ Hk; [reflexivity|].
    rewrite seq_S, fold_left_app. simpl.
    pose proof (build_inv i cb Hwf bins Hb k ltac:(lia)) as BI.
    specialize (IH ltac:(lia) ltac:(lia)).
    set (s := fold_left _ _ _) in *.
    destruct (nth_error (c_bins (s_core s)) k) as [b|] eqn:E;
      [|apply nth_error_None in E; rewrite (bi_len _ _ _ _ _ BI) in E; lia].
    rewrite (update_order i cb k s b E), (bi_len _ _ _ _ _ BI).
    assert (F : Nat.eqb (k + 1) (length bins) = false) by (apply Nat.eqb_neq; lia).
    rewrite F, andb_false_r. simpl. assumption. }
  destruct (length bins) as [|n] eqn:El; [destruct bins; simpl in El; congruence|].
  rewrite seq_S, fold_left_app. simpl.
  specialize (Hk n ltac:(lia) ltac:(lia)).
  pose proof (build_inv i cb Hwf bins Hb n ltac:(lia)) as BI.
  set (s := fold_left _ _ _) in *.
  destruct (nth_error (c_bins (s_core s)) n) as [b|] eqn:E;
      [|apply nth_error_None in E; rewrite (bi_len _ _ _ _ _ BI) in E; lia].
  rewrite (update_order i cb n s b E), (bi_len _ _ _ _ _ BI), El.
  assert (F : Nat.eqb (n + 1) (S n) = true) by (apply Nat.eqb_eq; lia).
  rewrite F, andb_true_r, Hk.
  destruct (is_bin_packing (in_objective i)); simpl; [|intuition].
  destruct (order_ok i _); simpl; intuition congruence.
Qed.


Lemma history_order_build : forall i cb calls1 s, wf_resource_ids i ->
  copies_nonneg calls1 [] -> history i cb calls1 [] = Some s -> view s <> [] ->
  (c_bin_type_order_ok (s_core s) = true <-> (in_objective i = OBinPacking -> OrderOK i (view s))).
Proof.
  intros i cb calls1 s Hwf [Hc _] H Hne. unfold history in H.
  destruct (sb_run i [] calls1) as [bins|] eqn:E; [|discriminate]. simpl in H. injection H as <-.
  destruct (sb_run_spec i calls1 [] bins E) as [V1 V2]; [intros b []|]. simpl in V1.
  assert (Hb : forall b, In b bins -> desc_ok i (view_bin b) /\ (sb_weight b == 0)%Q).
  { intros b Hb. destruct (V2 b Hb) as (R1 & R2 & R3). split; [|assumption].
    split; [exact R1|]. split; [exact R2|]. apply Hc. rewrite <- V1. apply in_map. assumption. }
  destruct (build_full i cb Hwf bins Hb) as [F1 F2]. rewrite F2 in *.
  apply build_order; try assumption. intros ->. apply Hne. reflexivity.
Qed.

Lemma sol_run_app : forall i cb calls1 calls2 s,
  sol_run i cb s (calls1 ++ calls2) =
  match sol_run i cb s calls1 with Some s' => sol_run i cb s' calls2 | None => None end.
Proof.
  intros i cb calls1. induction calls1 as [|c calls1 IH]; intros calls2 s; [reflexivity|]. simpl.
  destruct (match c with AppendBin _ _ _ _ _ => _ | _ => _ end); [apply IH|reflexivity].
Qed.

Lemma history_order_append : forall i cb calls1 calls2 call s s', wf_resource_ids i ->
  copies_nonneg calls1 (calls2 ++ [call]) ->
  (forall source bids iids, call <> AppendBins source bids iids) ->
  history i cb calls1 calls2 = Some s -> history i cb calls1 (calls2 ++ [call]) = Some s' ->
  (c_bin_type_order_ok (s_core s') = true <->
   c_bin_type_order_ok (s_core s) = true /\ (in_objective i = OBinPacking -> OrderOK i (view s'))).
Proof.
  intros i cb calls1 calls2 call s s' Hwf [Hc1 Hc2] Hcall H H'.
  assert (Hc2' : forall c, In c calls2 -> call_ok c) by (intros c Hin; apply Hc2; apply in_or_app; auto).
  assert (Hc : call_ok call) by (apply Hc2; apply in_or_app; right; left; reflexivity).
  destruct (history_spec i cb Hwf calls1 calls2 s H Hc1 Hc2') as (F1 & F2 & F3).
  unfold history in H, H'. destruct (sb_run i [] calls1) as [bins|] eqn:E; [|discriminate].
  rewrite sol_run_app, H in H'. simpl in H'.
  destruct call as [source pos copies bids iids|source bids iids|t copies]; simpl in H', Hc.
  - unfold append_bin in H'.
    destruct (nth_error (c_bins (s_core source)) pos) as [b|] eqn:Eb; [|discriminate].
    destruct (map_id bids (sb_type b)) as [t|] eqn:Et; [|discriminate].
    destruct (map_ids iids (sb_items b)) as [items|] eqn:Ei; [|discriminate].
    destruct (in_range i t (map si_type items)) eqn:Er; [|discriminate].
    injection H' as <-.
    assert (Hd : desc_ok i (view_bin (raw_bin t copies items))).
    { unfold in_range in Er. apply andb_true_iff in Er. destruct Er as [Er1 Er2].
      apply Nat.ltb_lt in Er1. rewrite forallb_forall in Er2.
      split; [exact Er1|]. split; [|exact Hc]. simpl. intros x Hx. apply Nat.ltb_lt. apply Er2. assumption. }
    destruct (push_full i cb Hwf s _ F1 F3 Hd ltac:(reflexivity)) as [_ Hv]. rewrite Hv.
    apply push_order; try assumption. reflexivity.
  - exfalso. apply (Hcall source bids iids). reflexivity.
  - unfold append_empty_bin in H'.
    destruct (in_range i t []) eqn:Er; [|discriminate].
    injection H' as <-.
    assert (Hd : desc_ok i (view_bin (raw_bin t copies []))).
    { unfold in_range in Er. apply andb_true_iff in Er. destruct Er as [Er1 Er2].
      apply Nat.ltb_lt in Er1. split; [exact Er1|]. split; [intros x []|exact Hc]. }
    destruct (push_full i cb Hwf s _ F1 F3 Hd ltac:(reflexivity)) as [_ Hv]. rewrite Hv.
    apply push_order; try assumption. reflexivity.
Qed.
