(** * Proofs about the assignment MILP: bins sorted by key give a point *)

From Coq Require Import List ZArith QArith Qround Bool Lia Lqa Permutation Sorted.
From Verif Require Import Util Common_Model Common_Spec Common_Proof OneDim_Model OneDim_Spec OneDim_Proof OneDim_Order
  OneDimDff_Proof OneDimBounds_Spec ReducInv_Proof Bar_Proof BarPack_Proof Milp_Model Milp_Spec Milp_Proof.
Import ListNotations.
Open Scope Z_scope.

Section Point.

Variable i : Instance.
Variable prec : list (nat * nat).
Variable ub : list nat.
Variables ml mp : Q.
Hypothesis Hdom : milp_domain i prec.
Hypothesis Hml : (0 < ml)%Q.
Hypothesis Hmp : (0 < mp)%Q.

Notation ni := (length (in_item_types i)).
Notation nb := (length (in_bin_types i)).
Notation it x := (item_type i x).
Notation bt t := (bin_type i t).
Notation count := (count_occ Nat.eq_dec).
Notation fits := (item_type_fits_bin_type i).

(** The items of the bins of each type. *)
Variable loads : nat -> list (list nat).

Definition tot (x : nat) : Z := zsum (fun t => zsum (fun l => Z.of_nat (count l x)) (loads t)) (seq 0 nb).

Record LoadsOK : Prop := {
  lo_len : forall t, (t < nb)%nat -> (length (loads t) <= ub_of ub t)%nat;
  lo_bin : forall t l, (t < nb)%nat -> In l (loads t) -> MilpBinOK i (mkBD t 1 l);
  lo_ids : forall t l x, (t < nb)%nat -> In l (loads t) -> In x l -> (x < ni)%nat;
  lo_copies : forall x, (x < ni)%nat -> it_copies_min (it x) <= tot x <= it_copies (it x);
  lo_mandatory : needs_y i = true -> forall t k, (t < nb)%nat -> (k < ub_of ub t)%nat -> Z.of_nat k < bt_copies_min (bt t) ->
    (k < length (loads t))%nat;
  lo_order : is_bin_packing i = true -> forall t u, (t < u < nb)%nat -> loads u <> [] -> length (loads t) = ub_of ub t;
  lo_prec : forall a b, In (a, b) prec -> 0 < tot a -> tot b = it_copies (it b);
  lo_ub : forall t, (t < nb)%nat -> Z.of_nat (ub_of ub t) <= bt_copies (bt t);
  lo_sorted : forall t k j x, (t < nb)%nat -> (k < j < length (loads t))%nat -> In x (nth j (loads t) []) ->
    exists y, In y (nth k (loads t) []) /\ order_less i x y = false
}.
Hypothesis Hl : LoadsOK.

Lemma load_in : forall t k, (k < length (loads t))%nat -> In (nth k (loads t) []) (loads t).
Proof. intros t k H. apply nth_In. exact H. Qed.
Lemma load_out : forall t k, (length (loads t) <= k)%nat -> nth k (loads t) [] = [].
Proof. intros t k H. apply nth_overflow. exact H. Qed.

Lemma load_cases : forall t k, (t < nb)%nat -> nth k (loads t) [] = [] \/ In (nth k (loads t) []) (loads t).
Proof. intros t k Ht. destruct (Nat.lt_ge_cases k (length (loads t))) as [H|H]; [right; apply load_in; exact H|left; apply load_out; exact H]. Qed.

Lemma load_ids : forall t k x, (t < nb)%nat -> In x (nth k (loads t) []) -> (x < ni)%nat.
Proof.
  intros t k x Ht Hx. destruct (load_cases t k Ht) as [E|E]; [rewrite E in Hx; destruct Hx|]. exact (lo_ids Hl t _ x Ht E Hx).
Qed.

Lemma load_bin : forall t k, (t < nb)%nat -> MilpBinOK i (mkBD t 1 (nth k (loads t) [])).
Proof.
  intros t k Ht. destruct (load_cases t k Ht) as [E|E]; [|apply (lo_bin Hl); assumption]. rewrite E.
  destruct (sane_bins _ (md_sane _ _ Hdom) t) as [H1 H2]. constructor; cbn [bd_items bd_type].
  - exact H1.
  - exact H2.
  - intros x [].
  - intros r Hr _. rewrite consumption_nil. apply (sane_res _ (md_sane _ _ Hdom) (bt t)); [apply nth_In; exact Ht|exact Hr].
Qed.

Lemma load_fits : forall t l x, (t < nb)%nat -> In l (loads t) -> In x l -> fits x t = true.
Proof.
  intros t l x Ht Hin Hx. pose proof (lo_bin Hl t l Ht Hin) as B. unfold item_type_fits_bin_type. apply andb_true_iff. split.
  - apply Z.leb_le. eapply Z.le_trans; [|exact (mb_length _ _ B)]. cbn [bd_items bd_type].
    apply (zmember _ (fun y => it_length (it y)) l x); [|exact Hx]. intros y _. apply (sane_items _ (md_sane _ _ Hdom) y).
  - unfold eligible. destruct (mb_eligible _ _ B x Hx) as [E|E]; [rewrite E; reflexivity|]. apply orb_true_iff. right. apply existsb_exists.
    eexists. split; [exact E|]. apply Z.eqb_refl.
Qed.

Lemma tot_ge : forall t k x, (t < nb)%nat -> Z.of_nat (count (nth k (loads t) []) x) <= zsum (fun l => Z.of_nat (count l x)) (loads t) <= tot x.
Proof.
  intros t k x Ht. split.
  - destruct (load_cases t k Ht) as [E|E].
    + rewrite E. cbn [count_occ]. apply zsum_nonneg. intros l _. lia.
    + apply (zmember _ (fun l => Z.of_nat (count l x))); [intros l _; lia|exact E].
  - unfold tot. apply (zmember _ (fun t => zsum (fun l => Z.of_nat (count l x)) (loads t))).
    + intros u _. apply zsum_nonneg. intros l _. lia.
    + apply in_seq. lia.
Qed.

(** Pigeonhole: the bins before this one hold at least one item up to [x]. *)
Lemma pigeonhole : forall t k x, (t < nb)%nat -> (k < length (loads t))%nat -> In x (nth k (loads t) []) ->
  Z.of_nat k + Z.of_nat (count (nth k (loads t) []) x) <= cumulative_supply i x t.
Proof.
  intros t k x Ht Hk Hx. pose proof (load_in t k Hk) as Hin. pose proof (load_ids t k x Ht Hx) as Hxn. pose proof (load_fits t _ x Ht Hin Hx) as Hf.
  assert (Hc : forall y, (y < ni)%nat -> 0 <= it_copies (it y)) by (intros y Hy; destruct (md_items _ _ Hdom y Hy) as (_ & ? & _); lia).
  eapply Z.le_trans; [|apply (cumulative_ge i t x Hc Hxn Hf)].
  set (F := filter _ _).
  assert (FI : forall y, In y F <-> (y < ni)%nat /\ fits y t = true /\ order_less i x y = false).
  { intro y. unfold F. rewrite filter_In, in_seq, andb_true_iff, negb_true_iff. intuition lia. }
  set (g := fun l => zsum (fun y => Z.of_nat (count l y)) F).
  assert (G1 : zsum g (loads t) <= zsum (fun y => it_copies (it y)) F).
  { unfold g. rewrite zsum_swap. apply zsum_le. intros y Hy. apply FI in Hy. destruct Hy as (Hy & _).
    destruct (tot_ge t 0 y Ht) as [_ T]. destruct (lo_copies Hl y Hy) as [_ C]. lia. }
  eapply Z.le_trans; [|exact G1].
  assert (Gn : forall l, 0 <= g l) by (intro l; apply zsum_nonneg; intros y _; lia).
  assert (Gy : forall l y, In y l -> In y F -> 1 <= g l).
  { intros l y Hy HF. unfold g. eapply Z.le_trans; [|apply (zmember _ (fun y => Z.of_nat (count l y)) F y); [intros; lia|exact HF]].
    apply (count_occ_In Nat.eq_dec) in Hy. lia. }
  assert (Gk : Z.of_nat (count (nth k (loads t) []) x) <= g (nth k (loads t) [])).
  { unfold g. apply (zmember _ (fun y => Z.of_nat (count (nth k (loads t) []) y)) F x); [intros; lia|]. apply FI. split; [exact Hxn|]. split; [exact Hf|].
    destruct (order_less i x x) eqn:E; [rewrite (order_asym i _ _ E) in E; discriminate|reflexivity]. }
  assert (Gj : forall j, (j < k)%nat -> 1 <= g (nth j (loads t) [])).
  { intros j Hj. destruct (lo_sorted Hl t j k x Ht) as (y & Hy & Ho); [lia|exact Hx|]. apply (Gy _ y Hy). apply FI.
    split; [apply (load_ids t j y Ht Hy)|]. split; [|exact Ho]. apply (load_fits t (nth j (loads t) [])); [exact Ht|apply load_in; lia|exact Hy]. }
  rewrite (zsum_seq_nth _ g [] (loads t)).
  replace (length (loads t)) with (k + S (length (loads t) - k - 1))%nat by lia. rewrite seq_app, zsum_app. cbn [seq]. rewrite zsum_cons.
  assert (A1 : Z.of_nat k <= zsum (fun j => g (nth j (loads t) [])) (seq 0 k)).
  { clear - Gj. induction k as [|k IH]; [cbn; lia|]. rewrite seq_S, zsum_snoc, Nat2Z.inj_succ. specialize (Gj k) as Gk.
    assert (Z.of_nat k <= zsum (fun j => g (nth j (loads t) [])) (seq 0 k)) by (apply IH; intros j Hj; apply Gj; lia). cbn [Nat.add]. specialize (Gk ltac:(lia)). lia. }
  assert (A2 : 0 <= zsum (fun j => g (nth j (loads t) [])) (seq (S (0 + k)) (length (loads t) - k - 1))) by (apply zsum_nonneg; intros; apply Gn).
  cbn [Nat.add] in A2 |- *. lia.
Qed.

Lemma count_slots : forall x t k, (t < nb)%nat -> (count (nth k (loads t) []) x <= slots i x t k)%nat.
Proof.
  intros x t k Ht. destruct (in_dec Nat.eq_dec x (nth k (loads t) [])) as [Hx|Hx].
  2:{ rewrite (count_occ_not_In Nat.eq_dec) in Hx. lia. }
  assert (Hk : (k < length (loads t))%nat) by (destruct (Nat.lt_ge_cases k (length (loads t))) as [H|H]; [exact H|]; rewrite load_out in Hx by exact H; destruct Hx).
  pose proof (load_in t k Hk) as Hin. pose proof (load_ids t k x Ht Hx) as Hxn. pose proof (load_fits t _ x Ht Hin Hx) as Hf.
  pose proof (pigeonhole t k x Ht Hk Hx) as P. unfold slots, copies_bound. rewrite Hf.
  destruct (md_items _ _ Hdom x Hxn) as (L & C & _). destruct (tot_ge t k x Ht) as [T1 T2]. destruct (lo_copies Hl x Hxn) as [_ T3].
  assert (Q : Z.of_nat (count (nth k (loads t) []) x) <= Z.quot (bt_length (bt t)) (it_length (it x))).
  { apply Z.quot_le_lower_bound; [lia|]. pose proof (mb_length _ _ (lo_bin Hl t _ Ht Hin)) as M. cbn [bd_items bd_type] in M.
    rewrite <- (zcount_weighted (fun y => it_length (it y)) _ ni) in M by (intros y Hy; apply (load_ids t k y Ht Hy)).
    eapply Z.le_trans; [|exact M]. rewrite Z.mul_comm.
    apply (zmember _ (fun y => Z.of_nat (count (nth k (loads t) []) y) * it_length (it y)) (seq 0 ni) x).
    - intros y Hy. apply in_seq in Hy. destruct (md_items _ _ Hdom y ltac:(lia)) as (Ly & _). nia.
    - apply in_seq. lia. }
  lia.
Qed.

(** ** The point *)

Definition full_point (v : MVar) : Q :=
  match v with
  | VPsi t r k =>
      let resource := nth r (bt_resources (bt t)) dummy_resource in
      if Qltb (res_capacity resource) (consumption i resource (nth k (loads t) [])) then 1%Q else 0%Q
  | VZ p => match nth_error prec p with Some (a, _) => if 0 <? tot a then 1%Q else 0%Q | None => 0%Q end
  | _ => loads_point loads v
  end.
Notation v := full_point.

Lemma point_binary : forall u, binary (v u).
Proof.
  intro u. unfold binary. destruct u as [t k|x t k c|t r k|p]; cbn [full_point loads_point].
  - destruct (_ <? _)%nat; auto with qarith.
  - destruct (_ <? _)%nat; auto with qarith.
  - cbv zeta. destruct (Qltb _ _); auto with qarith.
  - destruct (nth_error prec p) as [[a b]|]; [|auto with qarith]. destruct (_ <? _); auto with qarith.
Qed.

Lemma binary_bounds : forall q, binary q -> (0 <= q <= 1)%Q.
Proof. intros q [H|H]; rewrite H; split; discriminate. Qed.

(** Sums of the columns of an item type in a bin. *)
Lemma bin_slots_sum : forall (q : Q) x t k, (t < nb)%nat ->
  (qsum (fun p => snd p * v (fst p)) (map (fun u => (u, q)) (bin_slots i x t k)) == q * inject_Z (Z.of_nat (count (nth k (loads t) []) x)))%Q.
Proof.
  intros q x t k Ht. unfold bin_slots. rewrite map_map, qsum_map. cbn [fst snd full_point loads_point].
  apply (qsum_scaled_indicator q _ _ (count_slots x t k Ht)).
Qed.

Lemma all_slots_sum : forall x, (qsum (fun p => snd p * v (fst p)) (map (fun u => (u, 1)) (all_slots i ub x)) == inject_Z (tot x))%Q.
Proof.
  intro x. unfold all_slots, tot. rewrite <- qsum_inject. rewrite qsum_map. cbn [fst snd].
  rewrite qsum_flat_map. apply qsum_ext. intros t Ht. apply in_seq in Ht.
  rewrite qsum_flat_map. rewrite <- qsum_inject.
  rewrite <- (qsum_nth_over _ (fun l => inject_Z (Z.of_nat (count l x))) [] (loads t) (ub_of ub t)); [|apply (lo_len Hl); lia|reflexivity].
  apply qsum_ext. intros k _. pose proof (bin_slots_sum 1 x t k ltac:(lia)) as B. rewrite qsum_map in B. cbn [fst snd] in B. rewrite B. ring.
Qed.

(** Capacity rows. *)
Lemma capacity_row_holds : forall t k terms cap, (t < nb)%nat -> (0 <= cap)%Q ->
  (qsum (fun p => snd p * v (fst p)) terms <= cap)%Q -> ((length (loads t) <= k)%nat -> qsum (fun p => snd p * v (fst p)) terms == 0)%Q ->
  row_holds v (capacity_row i t k terms cap).
Proof.
  intros t k terms cap Ht H0 H1 H2. unfold capacity_row, row_holds, row_value. destruct (needs_y i); cbn [row_lower row_upper row_terms]; (split; [exact Logic.I|]); [|exact H1].
  rewrite qsum_snoc. cbn [fst snd full_point loads_point]. destruct (Nat.ltb_spec k (length (loads t))) as [Hk|Hk]; [lra|]. specialize (H2 Hk). lra.
Qed.

Lemma capacity_terms_sum : forall (f : nat -> Q) t k, (t < nb)%nat ->
  (qsum (fun p => snd p * v (fst p)) (flat_map (fun x => map (fun u => (u, f x)) (bin_slots i x t k)) (seq 0 ni)) == qsum f (nth k (loads t) []))%Q.
Proof.
  intros f t k Ht. rewrite qsum_flat_map. rewrite <- (count_weighted f (nth k (loads t) []) ni) by (intros x Hx; apply (load_ids t k x Ht Hx)).
  apply qsum_ext. intros x _. rewrite (bin_slots_sum (f x) x t k Ht). ring.
Qed.

Lemma length_row_ok : forall t k, (t < nb)%nat -> row_holds v (capacity_row i t k (length_terms i ml t k) (inject_Z (bt_length (bt t)) / ml)).
Proof.
  intros t k Ht. pose proof (capacity_terms_sum (fun x => inject_Z (it_length (it x)) / ml)%Q t k Ht) as S1. fold (length_terms i ml t k) in S1.
  assert (S2 : (qsum (fun x => inject_Z (it_length (it x)) / ml) (nth k (loads t) []) == inject_Z (zsum (fun x => it_length (it x)) (nth k (loads t) [])) / ml)%Q).
  { unfold Qdiv. rewrite <- qsum_inject. rewrite Qmult_comm, <- qsum_scale. apply qsum_ext. intros x _. ring. }
  destruct (sane_bins _ (md_sane _ _ Hdom) t) as [H1 _]. pose proof (mb_length _ _ (load_bin t k Ht)) as M. cbn [bd_items bd_type] in M.
  apply capacity_row_holds; [exact Ht| | |].
  - apply Qle_shift_div_l; [exact Hml|]. rewrite Qmult_0_l. change 0%Q with (inject_Z 0). rewrite <- Zle_Qle. exact H1.
  - rewrite S1, S2. unfold Qdiv. apply Qmult_le_compat_r; [|apply Qlt_le_weak, Qinv_lt_0_compat; exact Hml]. rewrite <- Zle_Qle. exact M.
  - intro Hk. rewrite S1, (load_out t k Hk). reflexivity.
Qed.

Lemma weight_row_ok : forall t k w, (t < nb)%nat -> bt_max_weight (bt t) = Some w -> row_holds v (capacity_row i t k (weight_terms i t k) w).
Proof.
  intros t k w Ht Hw.
  assert (S1 : (qsum (fun p => snd p * v (fst p)) (weight_terms i t k) == total_weight i (nth k (loads t) []))%Q).
  { unfold total_weight. rewrite <- (capacity_terms_sum (fun x => it_weight (it x)) t k Ht). unfold weight_terms. rewrite !qsum_flat_map. apply qsum_ext. intros x _.
    destruct (Qeq_bool (it_weight (it x)) 0) eqn:E; [|reflexivity]. apply Qeq_bool_iff in E. rewrite (bin_slots_sum _ x t k Ht), E, qsum_nil. ring. }
  destruct (sane_bins _ (md_sane _ _ Hdom) t) as [_ H1]. rewrite Hw in H1. pose proof (mb_weight _ _ (load_bin t k Ht)) as M. cbn [bd_items bd_type] in M. rewrite Hw in M.
  apply capacity_row_holds; [exact Ht|exact H1|rewrite S1; exact M|]. intro Hk. rewrite S1, (load_out t k Hk). reflexivity.
Qed.

Lemma resource_sum : forall r t k, (t < nb)%nat ->
  (qsum (fun p => snd p * v (fst p)) (resource_terms i r t k) == consumption i r (nth k (loads t) []))%Q.
Proof.
  intros r t k Ht. unfold resource_terms, consumption. rewrite qsum_flat_map. apply qsum_ext. intros x _. rewrite schedule_total_sum.
  rewrite <- (qsum_indicator (item_consumption r x) _ _ (count_slots x t k Ht)). rewrite qsum_flat_map. apply qsum_ext. intros c _.
  destruct (Qeq_bool (item_consumption r x c) 0) eqn:E.
  - apply Qeq_bool_iff in E. rewrite E, qsum_nil. ring.
  - rewrite qsum_cons, qsum_nil. cbn [fst snd full_point loads_point]. ring.
Qed.

Lemma resource_row_ok : forall t k r, (t < nb)%nat -> In r (bt_resources (bt t)) -> res_penalize r = false ->
  row_holds v (capacity_row i t k (resource_terms i r t k) (res_capacity r)).
Proof.
  intros t k r Ht Hr Hp. destruct (sane_res _ (md_sane _ _ Hdom) (bt t) r (nth_In _ _ Ht) Hr) as [H0 _].
  apply capacity_row_holds; [exact Ht|exact H0| |].
  - rewrite (resource_sum r t k Ht). exact (mb_resources _ _ (load_bin t k Ht) r Hr Hp).
  - intro Hk. rewrite (resource_sum r t k Ht), (load_out t k Hk). apply consumption_nil.
Qed.

(** ** Penalised resources *)

Lemma threshold_loop_spec : forall fuel r x n, (forall c, (c < n)%nat -> (item_consumption r x c == 1)%Q) ->
  forall c, (c < threshold_loop i fuel r x n)%nat -> (item_consumption r x c == 1)%Q.
Proof.
  induction fuel as [|fuel IH]; intros r x n H c Hc; cbn [threshold_loop] in Hc; [apply H; exact Hc|].
  destruct (_ && _) eqn:E; [|apply H; exact Hc]. apply andb_true_iff in E. destruct E as [_ E]. apply Qeq_bool_iff in E.
  apply (IH r x (S n)); [|exact Hc]. intros d Hd. destruct (Nat.eq_dec d n) as [->|Hn]; [exact E|]. apply H. lia.
Qed.
Lemma threshold_ones : forall r x c, (c < threshold i r x)%nat -> (item_consumption r x c == 1)%Q.
Proof. intros r x c. apply threshold_loop_spec. intros d Hd. lia. Qed.

Lemma units_in : forall r xs us, resource_units i r xs = Some us -> forall x c, In (x, c) us -> In x xs /\ (c < threshold i r x)%nat.
Proof.
  intros r xs. induction xs as [|y xs IH]; intros us H x c Hu; cbn [resource_units] in H; [injection H as <-; destruct Hu|].
  destruct (Qeq_bool _ _) in H; [destruct (IH us H x c Hu) as [G1 G2]; split; [right; exact G1|exact G2]|].
  destruct (negb _) in H; [discriminate|]. destruct (resource_units i r xs) as [us'|] eqn:E; [|discriminate]. injection H as <-.
  apply in_app_or in Hu. destruct Hu as [Hu|Hu].
  - apply in_map_iff in Hu. destruct Hu as (d & Ed & Hd). injection Ed as -> ->. apply in_seq in Hd. split; [left; reflexivity|lia].
  - destruct (IH us' eq_refl x c Hu) as [G1 G2]. split; [right; exact G1|exact G2].
Qed.

Lemma units_nodup : forall r xs us, NoDup xs -> resource_units i r xs = Some us -> NoDup us.
Proof.
  intros r xs. induction xs as [|y xs IH]; intros us Hn H; cbn [resource_units] in H; [injection H as <-; constructor|].
  inversion Hn as [|y' xs' Hy Hxs]; subst.
  destruct (Qeq_bool _ _) in H; [apply IH; assumption|].
  destruct (negb _) in H; [discriminate|]. destruct (resource_units i r xs) as [us'|] eqn:E; [|discriminate]. injection H as <-.
  apply nodup_app_intro.
  - apply FinFun.Injective_map_NoDup; [intros a b E'; injection E' as ->; reflexivity|apply seq_NoDup].
  - apply IH; auto.
  - intros [x c] H1 H2. apply in_map_iff in H1. destruct H1 as (d & Ed & _). injection Ed as <- <-. destruct (units_in r xs us' E _ _ H2) as [G _]. contradiction.
Qed.

Lemma pairs_in : forall A (l : list A) a b, In (a, b) (pairs l) -> exists l1 l2 l3, l = l1 ++ a :: l2 ++ b :: l3.
Proof.
  intros A l. induction l as [|c l IH]; intros a b H; cbn [pairs] in H; [destruct H|]. apply in_app_or in H. destruct H as [H|H].
  - apply in_map_iff in H. destruct H as (d & E & Hd). injection E as <- <-. apply in_split in Hd. destruct Hd as (l2 & l3 & ->). exists [], l2, l3. reflexivity.
  - destruct (IH a b H) as (l1 & l2 & l3 & ->). exists (c :: l1), l2, l3. reflexivity.
Qed.

Lemma pairs_distinct : forall A (l : list A) a b, NoDup l -> In (a, b) (pairs l) -> a <> b /\ In a l /\ In b l.
Proof.
  intros A l a b Hn H. apply pairs_in in H. destruct H as (l1 & l2 & l3 & ->). split.
  - intros ->. apply NoDup_remove_2 in Hn. apply Hn. apply in_or_app. right. apply in_or_app. right. left. reflexivity.
  - split; apply in_or_app; right; [left; reflexivity|right]. apply in_or_app. right. left. reflexivity.
Qed.

Lemma nil_or_not : forall A (l : list A), {l = []} + {l <> []}.
Proof. intros A l. destruct l; [left; reflexivity|right; discriminate]. Qed.

(** Two units in a bin exceed a capacity of 1. *)
Lemma two_units : forall r t k x c y d, (t < nb)%nat -> In r (bt_resources (bt t)) -> (x < ni)%nat -> (y < ni)%nat ->
  (c < threshold i r x)%nat -> (d < threshold i r y)%nat -> (x, c) <> (y, d) ->
  (c < count (nth k (loads t) []) x)%nat -> (d < count (nth k (loads t) []) y)%nat ->
  (2 <= consumption i r (nth k (loads t) []))%Q.
Proof.
  intros r t k x c y d Ht Hr Hx Hy Hcx Hdy Hne Hc Hd. unfold consumption. set (l := nth k (loads t) []) in *.
  assert (Hcn : forall z e, (0 <= item_consumption r z e)%Q).
  { intros z e. destruct (sane_res _ (md_sane _ _ Hdom) (bt t) r (nth_In _ _ Ht) Hr) as [_ H0]. rewrite item_consumption_nth. unfold schedule.
    destruct (Nat.lt_ge_cases z (length (res_item_consumptions r))) as [Hz|Hz].
    - pose proof (nth_In (res_item_consumptions r) [] Hz) as Hs. set (s := nth z (res_item_consumptions r) []) in *.
      destruct (Nat.lt_ge_cases e (length s)) as [He|He]; [apply (H0 s); [exact Hs|apply nth_In; exact He]|].
      rewrite nth_overflow by exact He. destruct (nil_or_not Q s) as [Es|Es]; [rewrite Es; apply Qle_refl|].
      destruct (exists_last Es) as (s' & w & E). apply (H0 s); [exact Hs|]. rewrite E, last_last. apply in_or_app. right. left. reflexivity.
    - rewrite (nth_overflow _ [] Hz). destruct e; apply Qle_refl. }
  set (g := fun z => qsum (item_consumption r z) (seq 0 (count l z))).
  assert (Eg : (qsum (fun z => schedule_total (schedule r z) (count l z)) (seq 0 ni) == qsum g (seq 0 ni))%Q).
  { apply qsum_ext. intros z _. apply schedule_total_sum. }
  rewrite Eg.
  assert (Hg0 : forall z, (0 <= g z)%Q) by (intro z; apply qsum_nonneg; intros e _; apply Hcn).
  assert (Hmem : forall z es, NoDup es -> (forall e, In e es -> (e < count l z)%nat /\ (item_consumption r z e == 1)%Q) ->
    (inject_Z (Z.of_nat (length es)) <= g z)%Q).
  { intros z es Hn He. unfold g.
    assert (G : (qsum (item_consumption r z) es <= qsum (item_consumption r z) (seq 0 (count l z)))%Q).
    { clear - Hn He Hcn. remember (seq 0 (count l z)) as L eqn:EL. assert (Hin : incl es L) by (intros e Hee; rewrite EL; apply in_seq; destruct (He e Hee); lia). clear EL He.
      revert L Hin. induction es as [|e es IH]; intros L Hin; [apply qsum_nonneg; intros; apply Hcn|].
      inversion Hn as [|e' es' He Hes]; subst. assert (HeL : In e L) by (apply Hin; left; reflexivity). apply in_split in HeL. destruct HeL as (L1 & L2 & ->).
      rewrite qsum_cons, (qsum_perm _ _ (L1 ++ e :: L2) (e :: L1 ++ L2)) by (apply Permutation_sym, Permutation_middle). rewrite qsum_cons.
      apply Qplus_le_compat; [apply Qle_refl|]. apply IH; [exact Hes|]. intros f Hf. assert (Hf' : In f (L1 ++ e :: L2)) by (apply Hin; right; exact Hf).
      apply in_app_or in Hf'. apply in_or_app. destruct Hf' as [Hf'|[Hf'|Hf']]; [left; exact Hf'|subst; contradiction|right; exact Hf']. }
    eapply Qle_trans; [|exact G]. clear G. rewrite (qsum_ext _ (item_consumption r z) (fun _ => 1%Q) es) by (intros e Hee; apply He; exact Hee).
    clear. induction es as [|e es IH]; [apply Qle_refl|]. rewrite qsum_cons. cbn [length]. rewrite Nat2Z.inj_succ. unfold Z.succ. rewrite inject_Z_plus. change (inject_Z 1) with 1%Q. lra. }
  assert (Hpick : forall z, (z < ni)%nat -> exists rest, (qsum g (seq 0 ni) == g z + qsum g rest)%Q /\ forall w, In w (seq 0 ni) -> w <> z -> In w rest).
  { intros z Hz. assert (Hin : In z (seq 0 ni)) by (apply in_seq; lia). apply in_split in Hin. destruct Hin as (L1 & L2 & EL). exists (L1 ++ L2). rewrite EL. split.
    - rewrite (qsum_perm _ _ (L1 ++ z :: L2) (z :: L1 ++ L2)) by (apply Permutation_sym, Permutation_middle). rewrite qsum_cons. reflexivity.
    - intros w Hw Hne'. apply in_app_or in Hw. apply in_or_app. destruct Hw as [Hw|[Hw|Hw]]; [left; exact Hw|congruence|right; exact Hw]. }
  destruct (Hpick x Hx) as (rest & E & Hrest). rewrite E.
  destruct (Nat.eq_dec x y) as [->|Hxy].
  - assert (Hcd : c <> d) by congruence. pose proof (Hmem y [c; d]) as M. cbn [length] in M. change (inject_Z (Z.of_nat 2)) with 2%Q in M.
    assert (Hm : (2 <= g y)%Q).
    { apply M; [constructor; [intros [E'|[]]; congruence|constructor; [intros []|constructor]]|]. intros e [<-|[<-|[]]]; split; auto; apply threshold_ones; assumption. }
    pose proof (qsum_nonneg _ g rest (fun w _ => Hg0 w)). lra.
  - assert (M1 : (1 <= g x)%Q). { apply (Hmem x [c]); [constructor; [intros []|constructor]|]. intros e [<-|[]]. split; [exact Hc|apply threshold_ones; exact Hcx]. }
    assert (M2 : (1 <= g y)%Q). { apply (Hmem y [d]); [constructor; [intros []|constructor]|]. intros e [<-|[]]. split; [exact Hd|apply threshold_ones; exact Hdy]. }
    assert (Hyr : In y rest) by (apply Hrest; [apply in_seq; lia|congruence]). apply in_split in Hyr. destruct Hyr as (R1 & R2 & ->).
    rewrite (qsum_perm _ _ (R1 ++ y :: R2) (y :: R1 ++ R2)) by (apply Permutation_sym, Permutation_middle). rewrite qsum_cons.
    pose proof (qsum_nonneg _ g (R1 ++ R2) (fun w _ => Hg0 w)). lra.
Qed.

Lemma presence_nodup : forall t k us, NoDup us -> NoDup (presence i t k us).
Proof.
  intros t k us H. unfold presence. apply flat_map_nodup; [exact H| |].
  - intros u _. destruct (_ <? _)%nat; [constructor; [intros []|constructor]|constructor].
  - intros [x c] [y d] b _ _ H1 H2. cbn [fst snd] in H1, H2. destruct (c <? slots i x t k)%nat in H1; [|destruct H1]. destruct (d <? slots i y t k)%nat in H2; [|destruct H2].
    destruct H1 as [<-|[]]. destruct H2 as [E|[]]. injection E as -> ->. reflexivity.
Qed.

Lemma penalize_bin_rows : forall t rs r cols rows, (t < nb)%nat -> (forall j, (j < length rs)%nat -> nth_error (bt_resources (bt t)) (r + j) = nth_error rs j) ->
  penalize_bin i ub mp t r rs = Some (cols, rows) -> forall row, In row rows -> row_holds v row.
Proof.
  intros t rs. induction rs as [|resource rs IH]; intros r cols rows Ht Hrs H row Hrow; cbn [penalize_bin] in H; [injection H as <- <-; destruct Hrow|].
  destruct (penalize_bin i ub mp t (S r) rs) as [[cols' rows']|] eqn:E; [|discriminate].
  assert (IHr : forall row, In row rows' -> row_holds v row).
  { apply (IH (S r) cols' rows' Ht); [|exact E]. intros j Hj. specialize (Hrs (S j)). cbn [length nth_error] in Hrs. rewrite <- Hrs by lia. f_equal. lia. }
  destruct (res_penalize resource) eqn:Ep; [|injection H as <- <-; apply IHr; exact Hrow].
  destruct (negb (Qeq_bool (res_capacity resource) 1)) eqn:Ec; [discriminate|]. apply negb_false_iff, Qeq_bool_iff in Ec.
  destruct (resource_units i resource (seq 0 ni)) as [us|] eqn:Eu; [|discriminate]. cbv zeta in H. injection H as <- <-.
  apply in_app_or in Hrow. destruct Hrow as [Hrow|Hrow]; [|apply IHr; exact Hrow].
  unfold penalize_part in Hrow. destruct (length us <? 2)%nat; [destruct Hrow|]. cbn [snd] in Hrow.
  apply in_flat_map in Hrow. destruct Hrow as (k & Hk & Hrow). apply in_map_iff in Hrow. destruct Hrow as ([a b] & <- & Hab).
  pose proof (units_nodup _ _ us (seq_NoDup ni 0) Eu) as Hus. destruct (pairs_distinct _ _ a b (presence_nodup t k us Hus) Hab) as (Hne & Ha & Hb).
  assert (Hp : forall u, In u (presence i t k us) -> exists x c, u = VX x t k c /\ In (x, c) us).
  { intros u Hu. unfold presence in Hu. apply in_flat_map in Hu. destruct Hu as ([x c] & Hxc & Hu). cbn [fst snd] in Hu. destruct (_ <? _)%nat; [|destruct Hu].
    destruct Hu as [<-|[]]. exists x, c. auto. }
  destruct (Hp a Ha) as (x & c & -> & Hxc). destruct (Hp b Hb) as (y & d & -> & Hyd).
  destruct (units_in _ _ us Eu x c Hxc) as [Hx Hcx]. destruct (units_in _ _ us Eu y d Hyd) as [Hy Hdy]. apply in_seq in Hx. apply in_seq in Hy.
  unfold row_holds, row_value. cbn [row_lower row_upper row_terms]. split; [exact Logic.I|]. rewrite !qsum_cons, qsum_nil. cbn [fst snd].
  pose proof (binary_bounds _ (point_binary (VX x t k c))) as B1. pose proof (binary_bounds _ (point_binary (VX y t k d))) as B2. pose proof (binary_bounds _ (point_binary (VPsi t r k))) as B3.
  cbn [full_point loads_point] in B1, B2, B3 |- *. cbv zeta in B3 |- *.
  destruct (Nat.ltb_spec c (count (nth k (loads t) []) x)) as [Hc|Hc]; [|lra]. destruct (Nat.ltb_spec d (count (nth k (loads t) []) y)) as [Hd|Hd]; [|lra].
  assert (Enth : nth_error (bt_resources (bt t)) r = Some resource) by (specialize (Hrs 0%nat); rewrite Nat.add_0_r in Hrs; rewrite Hrs; [reflexivity|simpl; lia]).
  rewrite (nth_error_nth _ _ dummy_resource Enth) in B3 |- *.
  assert (Hin : In resource (bt_resources (bt t))) by (apply (nth_error_In _ _ Enth)).
  pose proof (two_units resource t k x c y d Ht Hin ltac:(lia) ltac:(lia) Hcx Hdy ltac:(congruence) Hc Hd) as T.
  assert (Hlt : Qltb (res_capacity resource) (consumption i resource (nth k (loads t) [])) = true) by (apply Qltb_lt; rewrite Ec; lra).
  rewrite Hlt. lra.
Qed.

(** ** Precedences *)

Lemma precedence_rows : forall ps p cols rows, (forall j, (j < length ps)%nat -> nth_error prec (p + j) = nth_error ps j) ->
  precedence_model i ub p ps = Some (cols, rows) -> forall row, In row rows -> row_holds v row.
Proof.
  induction ps as [|[a b] ps IH]; intros p cols rows Hps H row Hrow; cbn [precedence_model] in H; [injection H as <- <-; destruct Hrow|].
  destruct (precedence_model i ub (S p) ps) as [[cols' rows']|] eqn:E; [|discriminate].
  assert (IHr : forall row, In row rows' -> row_holds v row).
  { apply (IH (S p) cols' rows'); [|exact E]. intros j Hj. specialize (Hps (S j)). cbn [length nth_error] in Hps. rewrite <- Hps by lia. f_equal. lia. }
  assert (Enth : nth_error prec p = Some (a, b)) by (specialize (Hps 0%nat); rewrite Nat.add_0_r in Hps; rewrite Hps; [reflexivity|simpl; lia]).
  pose proof (nth_error_In _ _ Enth) as Hin. destruct (md_prec _ _ Hdom a b Hin) as [Han Hbn].
  destruct (lo_copies Hl a Han) as [A1 A2]. destruct (lo_copies Hl b Hbn) as [B1 B2]. pose proof (lo_prec Hl a b Hin) as P.
  destruct (md_items _ _ Hdom a Han) as (_ & Ca & Ma). destruct (md_items _ _ Hdom b Hbn) as (_ & Cb & _).
  destruct (single_bin i) eqn:Es.
  - unfold single_precedence in H. destruct (single_bin_type i ub) as [t|] eqn:Et.
    2:{ cbn [app] in H. injection H as <- <-. apply IHr. exact Hrow. }
    destruct (negb (fits a t) || negb (fits b t)) eqn:Ef; [cbn [app] in H; injection H as <- <-; apply IHr; exact Hrow|].
    destruct (slots i b t 0) as [|c] eqn:Esl; [discriminate|]. injection H as <- <-. destruct Hrow as [<-|Hrow]; [|apply IHr; exact Hrow].
    unfold single_bin_type in Et. apply find_some in Et. destruct Et as [Ht Hut]. apply in_seq in Ht. apply Nat.ltb_lt in Hut.
    assert (Hone : forall u, (u < nb)%nat -> u <> t -> loads u = []).
    { intros u Hu Hne. unfold single_bin in Es. apply Nat.leb_le in Es. pose proof (md_bin_list _ _ Hdom) as N.
      assert (Hsum : bt_copies (bt u) + bt_copies (bt t) <= zsum bt_copies (in_bin_types i)).
      { rewrite (zsum_seq_nth _ bt_copies dummy_bin). change (fun j => bt_copies (nth j (in_bin_types i) dummy_bin)) with (fun j => bt_copies (bt j)).
        assert (Hiu : In u (seq 0 nb)) by (apply in_seq; lia). apply in_split in Hiu. destruct Hiu as (L1 & L2 & EL).
        assert (Hnn : forall w, In w (L1 ++ L2) -> 0 <= bt_copies (bt w)).
        { intros w Hw. apply (md_bins _ _ Hdom w). assert (Hw' : In w (seq 0 nb)) by (rewrite EL; apply in_app_or in Hw; apply in_or_app; destruct Hw; [left|right; right]; assumption).
          apply in_seq in Hw'. lia. }
        rewrite EL, (zsum_perm _ _ (L1 ++ u :: L2) (u :: L1 ++ L2)) by (apply Permutation_sym, Permutation_middle). rewrite zsum_cons.
        assert (Hit : In t (L1 ++ L2)).
        { assert (Hit : In t (seq 0 nb)) by (apply in_seq; lia). rewrite EL in Hit. apply in_app_or in Hit. apply in_or_app. destruct Hit as [Hit|[Hit|Hit]]; [left; exact Hit|congruence|right; exact Hit]. }
        pose proof (zmember _ (fun w => bt_copies (bt w)) (L1 ++ L2) t Hnn Hit) as Mt. cbv beta in Mt |- *. apply Z.add_le_mono_l. exact Mt. }
      pose proof (lo_ub Hl t ltac:(lia)). pose proof (lo_ub Hl u Hu). pose proof (lo_len Hl u Hu). destruct (loads u); [reflexivity|]. cbn [length] in *. lia. }
    assert (Hlen : (length (loads t) <= 1)%nat).
    { unfold single_bin in Es. apply Nat.leb_le in Es. pose proof (md_bin_list _ _ Hdom) as N. pose proof (lo_ub Hl t ltac:(lia)). pose proof (lo_len Hl t ltac:(lia)).
      assert (bt_copies (bt t) <= zsum bt_copies (in_bin_types i)).
      { apply (zmember _ bt_copies); [|apply nth_In; lia]. intros w Hw. apply (In_nth _ _ dummy_bin) in Hw. destruct Hw as (j & Hj & <-). apply (md_bins _ _ Hdom j Hj). }
      lia. }
    assert (Htot : forall x, tot x = Z.of_nat (count (nth 0 (loads t) []) x)).
    { intro x. unfold tot. assert (Hit : In t (seq 0 nb)) by (apply in_seq; lia).
      rewrite (zsum_ext _ _ (fun u => if Nat.eqb u t then Z.of_nat (count (nth 0 (loads t) []) x) else 0)).
      - pose proof (seq_NoDup nb 0) as Hn. clear - Hit Hn. induction (seq 0 nb) as [|w L IH]; [destruct Hit|]. rewrite zsum_cons. inversion Hn as [|w' L' Hw HL]; subst.
        destruct (Nat.eqb_spec w t) as [->|Hwt].
        + rewrite (zsum_ext _ _ (fun _ => 0) L); [rewrite zsum_const0; lia|]. intros u Hu. destruct (Nat.eqb_spec u t); [subst; contradiction|reflexivity].
        + rewrite IH; [lia| |exact HL]. destruct Hit; [congruence|assumption].
      - intros u Hu. apply in_seq in Hu. destruct (Nat.eqb_spec u t) as [->|Hne].
        + destruct (loads t) as [|l [|l' L]]; [reflexivity| |cbn [length] in Hlen; lia]. rewrite zsum_cons, zsum_nil. cbn [nth]. lia.
        + rewrite (Hone u ltac:(lia) Hne). reflexivity. }
    unfold row_holds, row_value. cbn [row_lower row_upper row_terms]. split; [exact Logic.I|]. rewrite qsum_snoc, (bin_slots_sum 1 a t 0 ltac:(lia)). cbn [fst snd full_point loads_point].
    rewrite <- Htot. destruct (Z.lt_ge_cases 0 (tot a)) as [Ha|Ha].
    + specialize (P Ha). pose proof (count_slots b t 0 ltac:(lia)) as Cs. rewrite Esl in Cs.
      assert (Hsl : (slots i b t 0 <= count (nth 0 (loads t) []) b)%nat).
      { apply orb_false_iff in Ef. destruct Ef as [_ Ef]. apply negb_false_iff in Ef. unfold slots, copies_bound. rewrite Ef. pose proof (Htot b) as Hb.
        generalize (Z.quot (bt_length (bt t)) (it_length (it b))) (cumulative_supply i b t). intros z1 z2. lia. }
      rewrite Esl in Hsl. destruct (Nat.ltb_spec c (count (nth 0 (loads t) []) b)); [|lia].
      assert ((inject_Z (tot a) <= inject_Z (it_copies (it a)))%Q) by (rewrite <- Zle_Qle; exact A2). lra.
    + assert (E0 : tot a = 0) by lia. rewrite E0. change (inject_Z 0) with 0%Q.
      assert (Hc : (0 <= inject_Z (it_copies (it a)))%Q) by (change 0%Q with (inject_Z 0); rewrite <- Zle_Qle; lia).
      destruct (_ <? _)%nat; lra.
  - injection H as <- <-. unfold multiple_precedence in Hrow. 
    assert (Hz : v (VZ p) = if 0 <? tot a then 1%Q else 0%Q) by (cbn [full_point]; rewrite Enth; reflexivity).
    destruct Hrow as [<-|[<-|Hrow]]; [| |apply IHr; exact Hrow]; unfold row_holds, row_value; cbn [row_lower row_upper row_terms]; (split; [|try exact Logic.I]); try exact Logic.I;
      rewrite qsum_snoc, all_slots_sum; cbn [fst snd]; rewrite Hz; destruct (Z.ltb_spec 0 (tot a)) as [Ha|Ha].
    + rewrite (P Ha). lra.
    + assert (Hc : (0 <= inject_Z (tot b))%Q) by (change 0%Q with (inject_Z 0); rewrite <- Zle_Qle; destruct (md_items _ _ Hdom b Hbn); lia). lra.
    + assert (Hc : (inject_Z (tot a) <= inject_Z (it_copies (it a)))%Q) by (rewrite <- Zle_Qle; lia). lra.
    + assert (E0 : tot a = 0) by lia. rewrite E0. change (inject_Z 0) with 0%Q. lra.
Qed.

(** ** Order of the bins *)

Lemma chain_rows_ok : forall l, StronglySorted (fun a b => (v b <= v a)%Q) l -> forall row, In row (chain_rows l) -> row_holds v row.
Proof.
  intros l H. induction H as [|a l Hs IH Ha]; intros row Hr; [destruct Hr|]. destruct l as [|b l]; [destruct Hr|]. cbn [chain_rows] in Hr. destruct Hr as [<-|Hr]; [|apply IH; exact Hr].
  inversion Ha as [|b' l' Hb _]; subst. unfold row_holds, row_value. cbn [row_lower row_upper row_terms]. split; [|exact Logic.I]. rewrite !qsum_cons, qsum_nil. cbn [fst snd]. lra.
Qed.

Lemma type_ys_sorted : forall t, StronglySorted (fun a b => (v b <= v a)%Q) (type_ys ub t).
Proof.
  intro t. unfold type_ys. generalize (ub_of ub t). intro n. generalize 0%nat. induction n as [|n IH]; intro a; [constructor|]. cbn [seq map]. constructor; [apply IH|].
  apply Forall_forall. intros u Hu. apply in_map_iff in Hu. destruct Hu as (k & <- & Hk). apply in_seq in Hk. cbn [full_point loads_point].
  destruct (Nat.ltb_spec k (length (loads t))); destruct (Nat.ltb_spec a (length (loads t))); try lia; discriminate.
Qed.

Lemma all_ys_sorted : is_bin_packing i = true -> forall n a, (a + n = nb)%nat -> StronglySorted (fun p q => (v q <= v p)%Q) (flat_map (type_ys ub) (seq a n)).
Proof.
  intros Hb n. induction n as [|n IH]; intros a Ha; [constructor|]. cbn [seq flat_map].
  assert (G : forall l1 l2, StronglySorted (fun p q => (v q <= v p)%Q) l1 -> StronglySorted (fun p q => (v q <= v p)%Q) l2 -> (forall p q, In p l1 -> In q l2 -> (v q <= v p)%Q) ->
    StronglySorted (fun p q => (v q <= v p)%Q) (l1 ++ l2)).
  { induction l1 as [|p l1 IH1]; intros l2 H1 H2 H3; [exact H2|]. inversion H1 as [|p' l1' Hs Hp]; subst. cbn [app]. constructor.
    - apply IH1; [exact Hs|exact H2|]. intros a' b' Ha' Hb'. apply H3; [right; exact Ha'|exact Hb'].
    - apply Forall_app. split; [exact Hp|]. apply Forall_forall. intros q Hq. apply H3; [left; reflexivity|exact Hq]. }
  apply G; [apply type_ys_sorted|apply IH; lia|]. intros p q Hp Hq. unfold type_ys in Hp. apply in_map_iff in Hp. destruct Hp as (k & <- & Hk). apply in_seq in Hk.
  apply in_flat_map in Hq. destruct Hq as (u & Hu & Hq). apply in_seq in Hu. unfold type_ys in Hq. apply in_map_iff in Hq. destruct Hq as (j & <- & Hj).
  cbn [full_point loads_point]. destruct (Nat.ltb_spec j (length (loads u))) as [Hju|Hju]; [|destruct (_ <? _)%nat; discriminate].
  rewrite (lo_order Hl Hb a u); [|lia|intro E; rewrite E in Hju; simpl in Hju; lia]. destruct (Nat.ltb_spec k (ub_of ub a)); [discriminate|lia].
Qed.

(** ** All together *)

Lemma penalize_all_split : forall ts cols rows, penalize_all i ub mp ts = Some (cols, rows) -> forall row, In row rows ->
  exists t c r, In t ts /\ penalize_bin i ub mp t 0 (bt_resources (bt t)) = Some (c, r) /\ In row r.
Proof.
  induction ts as [|t ts IH]; intros cols rows H row Hr; cbn [penalize_all] in H; [injection H as <- <-; destruct Hr|].
  destruct (penalize_bin i ub mp t 0 (bt_resources (bt t))) as [[c1 r1]|] eqn:E1; [|discriminate]. destruct (penalize_all i ub mp ts) as [[c2 r2]|] eqn:E2; [|discriminate].
  injection H as <- <-. apply in_app_or in Hr. destruct Hr as [Hr|Hr]; [exists t, c1, r1; split; [left; reflexivity|auto]|].
  destruct (IH c2 r2 eq_refl row Hr) as (u & c & r & Hu & G). exists u, c, r. split; [right; exact Hu|exact G].
Qed.

Lemma demand_row_ok : forall x, (x < ni)%nat -> row_holds v (mkRow (map (fun u => (u, 1%Q)) (all_slots i ub x)) (Some (inject_Z (it_copies_min (it x)))) (Some (inject_Z (it_copies (it x))))).
Proof.
  intros x Hx. destruct (lo_copies Hl x Hx) as [C1 C2]. unfold row_holds, row_value. cbn [row_lower row_upper row_terms]. rewrite all_slots_sum. split; rewrite <- Zle_Qle; assumption.
Qed.

Theorem loads_are_point : forall m, build_model i prec ub ml mp = Some m -> MilpPoint m v.
Proof.
  intros m H. unfold build_model in H. destruct (divides_by_zero i); [discriminate|].
  destruct (penalize_model i ub mp) as [[c1 r1]|] eqn:E1; [|discriminate]. destruct (precedence_model i ub 0 prec) as [[c2 r2]|] eqn:E2; [|discriminate]. injection H as <-.
  constructor; cbn [m_cols m_rows].
  - intros c Hc. split; [apply point_binary|]. apply in_app_or in Hc. destruct Hc as [Hc|Hc].
    + unfold y_cols in Hc. destruct (needs_y i) eqn:En; [|destruct Hc]. apply in_flat_map in Hc. destruct Hc as (t & Ht & Hc). apply in_map_iff in Hc. destruct Hc as (k & <- & Hk).
      apply in_seq in Ht. apply in_seq in Hk. cbn [col_lower col_var]. destruct (Z.ltb_spec (Z.of_nat k) (bt_copies_min (bt t))) as [Hm|Hm]; [|apply (binary_bounds _ (point_binary (VY t k)))].
      cbn [full_point loads_point]. pose proof (lo_mandatory Hl En t k ltac:(lia) ltac:(lia) Hm) as G. apply Nat.ltb_lt in G. rewrite G. discriminate.
    + assert (Hlow : col_lower c = 0%Q).
      { apply in_app_or in Hc. destruct Hc as [Hc|Hc].
        - unfold x_cols in Hc. apply in_flat_map in Hc. destruct Hc as (x & _ & Hc). apply in_flat_map in Hc. destruct Hc as (t & _ & Hc). apply in_flat_map in Hc. destruct Hc as (k & _ & Hc).
          apply in_map_iff in Hc. destruct Hc as (d & <- & _). reflexivity.
        - apply in_app_or in Hc. destruct Hc as [Hc|Hc].
          + unfold penalize_model in E1. destruct (is_knapsack i); [|injection E1 as <- <-; destruct Hc]. clear - E1 Hc. revert c1 r1 E1 Hc. induction (seq 0 nb) as [|t ts IH]; intros c1 r1 E1 Hc; cbn [penalize_all] in E1; [injection E1 as <- <-; destruct Hc|].
            destruct (penalize_bin i ub mp t 0 (bt_resources (bt t))) as [[ca ra]|] eqn:Ea; [|discriminate]. destruct (penalize_all i ub mp ts) as [[cb rb]|] eqn:Eb; [|discriminate]. injection E1 as <- <-.
            apply in_app_or in Hc. destruct Hc as [Hc|Hc]; [|apply (IH cb rb eq_refl Hc)]. clear - Ea Hc. revert ca ra Ea Hc. generalize 0%nat. induction (bt_resources (bt t)) as [|r rs IH]; intros n ca ra Ea Hc; cbn [penalize_bin] in Ea; [injection Ea as <- <-; destruct Hc|].
            destruct (penalize_bin i ub mp t (S n) rs) as [[cc rc]|] eqn:Ec; [|discriminate]. specialize (IH (S n) cc rc Ec).
            destruct (res_penalize r); [|injection Ea as <- <-; apply IH; exact Hc]. destruct (negb _); [discriminate|]. destruct (resource_units i r (seq 0 ni)) as [us|]; [|discriminate]. cbv zeta in Ea. injection Ea as <- <-.
            apply in_app_or in Hc. destruct Hc as [Hc|Hc]; [|apply IH; exact Hc]. unfold penalize_part in Hc. destruct (length us <? 2)%nat; [destruct Hc|]. cbn [fst] in Hc. apply in_map_iff in Hc. destruct Hc as (k & <- & _). reflexivity.
          + clear - E2 Hc. revert c2 r2 E2 Hc. generalize 0%nat. induction prec as [|[a b] ps IH]; intros n c2 r2 E2 Hc; cbn [precedence_model] in E2; [injection E2 as <- <-; destruct Hc|].
            destruct (precedence_model i ub (S n) ps) as [[cc rc]|] eqn:Ec; [|discriminate]. specialize (IH (S n) cc rc Ec). destruct (single_bin i).
            * destruct (single_precedence i ub a b); [|discriminate]. injection E2 as <- <-. apply IH. exact Hc.
            * injection E2 as <- <-. destruct Hc as [<-|Hc]; [reflexivity|apply IH; exact Hc]. }
      rewrite Hlow. apply (binary_bounds _ (point_binary (col_var c))).
  - intros r Hr. rewrite !in_app_iff in Hr. destruct Hr as [Hr|[Hr|[Hr|[Hr|[Hr|[Hr|[Hr|Hr]]]]]]].
    + unfold copy_rows in Hr. apply in_flat_map in Hr. destruct Hr as (x & _ & Hr). apply in_flat_map in Hr. destruct Hr as (t & _ & Hr). apply in_flat_map in Hr. destruct Hr as (k & _ & Hr).
      apply in_map_iff in Hr. destruct Hr as (c & <- & _). unfold row_holds, row_value. cbn [row_lower row_upper row_terms]. split; [|exact Logic.I]. rewrite !qsum_cons, qsum_nil. cbn [fst snd full_point loads_point].
      destruct (Nat.ltb_spec c (count (nth k (loads t) []) x)); destruct (Nat.ltb_spec (S c) (count (nth k (loads t) []) x)); try lia; lra.
    + unfold demand_rows in Hr. apply in_map_iff in Hr. destruct Hr as (x & <- & Hx). apply in_seq in Hx. apply demand_row_ok. lia.
    + unfold length_rows in Hr. apply in_flat_map in Hr. destruct Hr as (t & Ht & Hr). apply in_map_iff in Hr. destruct Hr as (k & <- & _). apply in_seq in Ht. apply length_row_ok. lia.
    + unfold weight_rows in Hr. apply in_flat_map in Hr. destruct Hr as (t & Ht & Hr). destruct (bt_max_weight (bt t)) as [w|] eqn:Ew; [|destruct Hr]. apply in_map_iff in Hr. destruct Hr as (k & <- & _). apply in_seq in Ht. apply weight_row_ok; [lia|exact Ew].
    + unfold resource_rows in Hr. apply in_flat_map in Hr. destruct Hr as (t & Ht & Hr). apply in_flat_map in Hr. destruct Hr as (q & Hq & Hr). destruct (res_penalize q) eqn:Ep; [destruct Hr|].
      apply in_map_iff in Hr. destruct Hr as (k & <- & _). apply in_seq in Ht. apply resource_row_ok; [lia|exact Hq|exact Ep].
    + unfold penalize_model in E1. destruct (is_knapsack i); [|injection E1 as <- <-; destruct Hr]. destruct (penalize_all_split _ _ _ E1 r Hr) as (t & cs & rs & Ht & Eb & Hin). apply in_seq in Ht.
      apply (penalize_bin_rows t (bt_resources (bt t)) 0 cs rs); [lia|reflexivity|exact Eb|exact Hin].
    + apply (precedence_rows prec 0 c2 r2); [reflexivity|exact E2|exact Hr].
    + unfold order_rows in Hr. destruct (negb (needs_y i)); [destruct Hr|]. destruct (is_bin_packing i) eqn:Eb.
      * revert Hr. apply chain_rows_ok. apply all_ys_sorted; [exact Eb|reflexivity].
      * apply in_flat_map in Hr. destruct Hr as (t & _ & Hr). revert Hr. apply chain_rows_ok. apply type_ys_sorted.
Qed.

End Point.
