(** * Proofs about the assignment MILP: every point is read back as a packing of the same value *)

From Coq Require Import List ZArith QArith Qround Bool Lia Lqa Permutation Sorted.
From Verif Require Import Util Common_Model Common_Spec Common_Proof OneDim_Model OneDim_Spec OneDim_Proof OneDim_Order OneDim_Props
  OneDimDff_Proof OneDimBounds_Spec ReducInv_Proof Bar_Proof BarPack_Proof OneDimCert_Proof Milp_Model Milp_Spec Milp_Proof MilpPoint_Proof
  MilpPacking_Proof MilpValue_Proof.
Import ListNotations.
Open Scope Z_scope.

(** ** Replaying the calls *)

Definition bin_desc (p : nat * list nat) : BinDesc := mkBD (fst p) 1 (snd p).

Lemma run_bins : forall i bs pre, (forall t l, In (t, l) bs -> (t < length (in_bin_types i))%nat /\ forall x, In x l -> (x < length (in_item_types i))%nat) ->
  sb_run i pre (Milp_Model.bin_calls (length pre) bs) = Some (pre ++ map (fun p => raw_of (bin_desc p)) bs).
Proof.
  intros i bs. induction bs as [|[t l] bs IH]; intros pre H; [simpl; rewrite app_nil_r; reflexivity|]. cbn [Milp_Model.bin_calls map]. cbn [sb_run].
  destruct (H t l (or_introl eq_refl)) as [H1 H2]. unfold sb_add_bin, in_range. assert (E : Nat.ltb t (length (in_bin_types i)) = true) by (apply Nat.ltb_lt; exact H1).
  rewrite E. cbn [andb forallb]. rewrite OneDimCert_Proof.sb_run_app.
  pose proof (sb_add_items i pre t 1 (map (fun x => mkSI x 0) l) []) as A. rewrite map_map in A. cbn [si_type] in A.
  change (map (AddItem (length pre)) l) with (map (fun x => AddItem (length pre) x) l). rewrite A.
  - rewrite map_map. cbn [si_type app]. assert (EL : S (length pre) = length (pre ++ [raw_of (bin_desc (t, l))])) by (rewrite app_length; simpl; lia). rewrite EL.
    change (raw_bin t 1 (map (fun x => mkSI x 0) l)) with (raw_of (bin_desc (t, l))). rewrite IH by (intros u k Hu; apply H; right; exact Hu). rewrite <- app_assoc. reflexivity.
  - intros y Hy. apply in_map_iff in Hy. destruct Hy as (x & <- & Hx). apply H2. exact Hx.
Qed.

Lemma desc_items_at : forall l ds d, desc_run (ds ++ [d]) (map (AddItem (length ds)) l) = ds ++ [mkBD (bd_type d) (bd_copies d) (bd_items d ++ l)].
Proof.
  induction l as [|x l IH]; intros ds d; [destruct d; simpl; rewrite app_nil_r; reflexivity|]. cbn [map desc_run]. rewrite upd_snoc, IH. cbn [bd_type bd_copies bd_items]. rewrite <- app_assoc. reflexivity.
Qed.
Lemma desc_run_app : forall c1 c2 ds, desc_run ds (c1 ++ c2) = desc_run (desc_run ds c1) c2.
Proof. induction c1 as [|c c1 IH]; intros c2 ds; [reflexivity|]. destruct c; cbn [app desc_run]; apply IH. Qed.

Lemma desc_bins : forall bs ds, desc_run ds (Milp_Model.bin_calls (length ds) bs) = ds ++ map bin_desc bs.
Proof.
  induction bs as [|[t l] bs IH]; intro ds; [simpl; rewrite app_nil_r; reflexivity|]. cbn [Milp_Model.bin_calls map desc_run]. rewrite desc_run_app, desc_items_at. cbn [bd_type bd_copies bd_items app].
  assert (EL : S (length ds) = length (ds ++ [bin_desc (t, l)])) by (rewrite app_length; simpl; lia). rewrite EL. change (mkBD t 1 l) with (bin_desc (t, l)). rewrite IH, <- app_assoc. reflexivity.
Qed.

(** ** Decreasing 0-1 sequences *)

Lemma decreasing_prefix : forall (f : nat -> Q) n, (forall c, (c < n)%nat -> binary (f c)) -> (forall c, (S c < n)%nat -> (f (S c) <= f c)%Q) ->
  let k := length (filter (fun c => Qltb (1 # 2) (f c)) (seq 0 n)) in
  (k <= n)%nat /\ forall c, (c < n)%nat -> (f c == if (c <? k)%nat then 1 else 0)%Q.
Proof.
  intros f n. induction n as [|n IH]; intros Hb Hd k; [split; [simpl in k; lia|intros c Hc; lia]|].
  destruct IH as [I1 I2]; [intros c Hc; apply Hb; lia|intros c Hc; apply Hd; lia|]. cbv zeta in I1, I2. set (k' := length _) in I1, I2. unfold k. rewrite seq_S, filter_app, app_length. cbn [Nat.add].
  fold k'. cbn [filter]. destruct (Qltb (1 # 2) (f n)) eqn:E; cbn [length].
  - apply Qltb_lt in E. assert (Ek : k' = n).
    { destruct n as [|n]; [lia|]. destruct (Nat.eq_dec k' (S n)) as [G|G]; [exact G|]. pose proof (I2 n ltac:(lia)) as In. destruct (Nat.ltb_spec n k'); [lia|]. pose proof (Hd n ltac:(lia)). lra. }
    split; [lia|]. intros c Hc. destruct (Nat.eq_dec c n) as [->|Hne].
    + destruct (Nat.ltb_spec n (k' + 1)); [|lia]. destruct (Hb n ltac:(lia)); lra.
    + rewrite (I2 c ltac:(lia)). destruct (Nat.ltb_spec c k'); destruct (Nat.ltb_spec c (k' + 1)); try lia; reflexivity.
  - apply Qltb_ge in E. rewrite Nat.add_0_r. split; [lia|]. intros c Hc. destruct (Nat.eq_dec c n) as [->|Hne]; [|apply I2; lia].
    destruct (Nat.ltb_spec n k'); [lia|]. destruct (Hb n ltac:(lia)); lra.
Qed.

Section Retrieve.

Variable i : Instance.
Variable prec : list (nat * nat).
Variable ub : list nat.
Variables ml mp : Q.
Variable m : Milp.
Variable v : MVar -> Q.
Hypothesis Hdom : milp_domain i prec.
Hypothesis Hml : (0 < ml)%Q.
Hypothesis Hmp : (0 < mp)%Q.
Hypothesis Hm : build_model i prec ub ml mp = Some m.
Hypothesis Hv : MilpPoint m v.

Notation ni := (length (in_item_types i)).
Notation nb := (length (in_bin_types i)).
Notation it x := (item_type i x).
Notation bt t := (bin_type i t).
Notation count := (count_occ Nat.eq_dec).
Notation fits := (item_type_fits_bin_type i).
Notation items t k := (chosen_items i v t k).

(** The parts of the model. *)
Lemma model_parts : exists c1 r1 c2 r2, penalize_model i ub mp = Some (c1, r1) /\ precedence_model i ub 0 prec = Some (c2, r2) /\
  m = mkMilp (is_knapsack i) (y_cols i ub ++ x_cols i ub mp ++ c1 ++ c2)
        (copy_rows i ub ++ demand_rows i ub ++ length_rows i ub ml ++ weight_rows i ub ++ resource_rows i ub ++ r1 ++ r2 ++ order_rows i ub).
Proof.
  unfold build_model in Hm. destruct (divides_by_zero i); [discriminate|]. destruct (penalize_model i ub mp) as [[c1 r1]|] eqn:E1; [|discriminate].
  destruct (precedence_model i ub 0 prec) as [[c2 r2]|] eqn:E2; [|discriminate]. injection Hm as <-. exists c1, r1, c2, r2. auto.
Qed.

Lemma row_of : forall r, (exists c1 r1 c2 r2, penalize_model i ub mp = Some (c1, r1) /\ precedence_model i ub 0 prec = Some (c2, r2) /\
    (In r (copy_rows i ub) \/ In r (demand_rows i ub) \/ In r (length_rows i ub ml) \/ In r (weight_rows i ub) \/ In r (resource_rows i ub) \/ In r r1 \/ In r r2 \/ In r (order_rows i ub))) -> row_holds v r.
Proof.
  intros r (c1 & r1 & c2 & r2 & E1 & E2 & Hr). destruct model_parts as (c1' & r1' & c2' & r2' & E1' & E2' & Em). rewrite E1 in E1'. injection E1' as <- <-. rewrite E2 in E2'. injection E2' as <- <-.
  apply (pt_rows _ _ Hv). rewrite Em. cbn [m_rows]. rewrite !in_app_iff. exact Hr.
Qed.
Lemma base_row : forall r, In r (copy_rows i ub) \/ In r (demand_rows i ub) \/ In r (length_rows i ub ml) \/ In r (weight_rows i ub) \/ In r (resource_rows i ub) \/ In r (order_rows i ub) -> row_holds v r.
Proof. intros r H. destruct model_parts as (c1 & r1 & c2 & r2 & E1 & E2 & _). apply row_of. exists c1, r1, c2, r2. tauto. Qed.

Lemma x_binary : forall x t k c, (x < ni)%nat -> (t < nb)%nat -> (k < ub_of ub t)%nat -> (c < slots i x t k)%nat -> binary (v (VX x t k c)).
Proof.
  intros x t k c Hx Ht Hk Hc. destruct model_parts as (c1 & r1 & c2 & r2 & _ & _ & Em). pose proof (pt_columns _ _ Hv) as P. rewrite Em in P. cbn [m_cols] in P.
  apply (P (mkCol (VX x t k c) 0 (if is_knapsack i then (it_profit (it x) / mp)%Q else 0%Q))). rewrite !in_app_iff. right. left. unfold x_cols.
  apply in_flat_map. exists x. split; [apply in_seq; lia|]. apply in_flat_map. exists t. split; [apply in_seq; lia|]. apply in_flat_map. exists k. split; [apply in_seq; lia|].
  apply in_map_iff. exists c. split; [reflexivity|apply in_seq; lia].
Qed.

Lemma y_col_in : needs_y i = true -> forall t k, (t < nb)%nat -> (k < ub_of ub t)%nat -> binary (v (VY t k)) /\ (Z.of_nat k < bt_copies_min (bt t) -> (1 <= v (VY t k))%Q).
Proof.
  intros Hy t k Ht Hk. destruct model_parts as (c1 & r1 & c2 & r2 & _ & _ & Em). pose proof (pt_columns _ _ Hv) as P. rewrite Em in P. cbn [m_cols] in P.
  destruct (P (mkCol (VY t k) (if Z.of_nat k <? bt_copies_min (bt t) then 1%Q else 0%Q) (if is_bin_packing i then 1%Q else bt_cost (bt t)))) as [B L].
  - rewrite !in_app_iff. left. unfold y_cols. rewrite Hy. apply in_flat_map. exists t. split; [apply in_seq; lia|]. apply in_map_iff. exists k. split; [reflexivity|apply in_seq; lia].
  - cbn [col_var col_lower] in *. split; [exact B|]. intro Hl. apply Z.ltb_lt in Hl. rewrite Hl in L. exact L.
Qed.

(** The columns of an item type in a bin: first ones, then zeros. *)
Lemma x_prefix : forall x t k, (x < ni)%nat -> (t < nb)%nat -> (k < ub_of ub t)%nat ->
  (chosen_copies i v x t k <= slots i x t k)%nat /\ forall c, (c < slots i x t k)%nat -> (v (VX x t k c) == if (c <? chosen_copies i v x t k)%nat then 1 else 0)%Q.
Proof.
  intros x t k Hx Ht Hk. apply (decreasing_prefix (fun c => v (VX x t k c))).
  - intros c Hc. apply x_binary; assumption.
  - intros c Hc. assert (R : row_holds v (mkRow [(VX x t k c, 1%Q); (VX x t k (S c), (-1)%Q)] (Some 0%Q) None)).
    { apply base_row. left. unfold copy_rows. apply in_flat_map. exists x. split; [apply in_seq; lia|]. apply in_flat_map. exists t. split; [apply in_seq; lia|]. apply in_flat_map. exists k. split; [apply in_seq; lia|].
      apply in_map_iff. exists c. split; [reflexivity|apply in_seq; lia]. }
    destruct R as [R _]. cbn [row_lower] in R. unfold row_value in R. cbn [row_terms] in R. rewrite !qsum_cons, qsum_nil in R. cbn [fst snd] in R. lra.
Qed.

Lemma count_chosen : forall x t k, (x < ni)%nat -> count (items t k) x = chosen_copies i v x t k.
Proof.
  intros x t k Hx. unfold chosen_items.
  assert (G : forall n a, (a <= x < a + n)%nat -> count (flat_map (fun x => repeat x (chosen_copies i v x t k)) (seq a n)) x = chosen_copies i v x t k).
  { assert (Z0 : forall n a, ~ (a <= x < a + n)%nat -> count (flat_map (fun x => repeat x (chosen_copies i v x t k)) (seq a n)) x = 0%nat).
    { intros n a Hna. apply count_occ_not_In. intro Hin. apply in_flat_map in Hin. destruct Hin as (y & Hy & Hin). apply in_seq in Hy. apply repeat_spec in Hin. lia. }
    induction n as [|n IH]; intros a Ha; [lia|]. cbn [seq flat_map]. rewrite count_occ_app. destruct (Nat.eq_dec a x) as [->|Hne].
    - rewrite (Z0 n (S x)) by lia. rewrite Nat.add_0_r. generalize (chosen_copies i v x t k). clear. induction n as [|n IH]; [reflexivity|]. cbn [repeat count_occ]. destruct (Nat.eq_dec x x); [rewrite IH; reflexivity|contradiction].
    - rewrite (IH (S a)) by lia. assert (E : count (repeat a (chosen_copies i v a t k)) x = 0%nat); [|rewrite E; reflexivity]. apply count_occ_not_In. intro Hin. apply repeat_spec in Hin. congruence. }
  apply G. lia.
Qed.

Lemma chosen_ids : forall x t k, In x (items t k) -> (x < ni)%nat /\ (0 < slots i x t k)%nat.
Proof.
  intros x t k H. unfold chosen_items in H. apply in_flat_map in H. destruct H as (y & Hy & H). apply in_seq in Hy. pose proof (repeat_spec _ _ _ H) as E. subst y. split; [lia|].
  unfold chosen_copies in H. destruct (slots i x t k); [destruct H|lia].
Qed.

(** Sums. *)
Lemma slots_sum : forall (q : Q) x t k, (x < ni)%nat -> (t < nb)%nat -> (k < ub_of ub t)%nat ->
  (qsum (fun p => snd p * v (fst p)) (map (fun u => (u, q)) (bin_slots i x t k)) == q * inject_Z (Z.of_nat (count (items t k) x)))%Q.
Proof.
  intros q x t k Hx Ht Hk. destruct (x_prefix x t k Hx Ht Hk) as [P1 P2]. unfold bin_slots. rewrite map_map, qsum_map. cbn [fst snd]. rewrite (count_chosen x t k Hx).
  rewrite (qsum_ext _ _ (fun c => q * (if (c <? chosen_copies i v x t k)%nat then 1 else 0))%Q); [apply qsum_scaled_indicator; exact P1|]. intros c Hc. apply in_seq in Hc. rewrite (P2 c) by lia. reflexivity.
Qed.

Definition total (x : nat) : Z := zsum (fun t => zsum (fun k => Z.of_nat (count (items t k) x)) (seq 0 (ub_of ub t))) (seq 0 nb).

Lemma all_sum : forall x, (x < ni)%nat -> (qsum (fun p => snd p * v (fst p)) (map (fun u => (u, 1)) (all_slots i ub x)) == inject_Z (total x))%Q.
Proof.
  intros x Hx. unfold all_slots, total. rewrite <- qsum_inject, qsum_map. cbn [fst snd]. rewrite qsum_flat_map. apply qsum_ext. intros t Ht. apply in_seq in Ht. rewrite qsum_flat_map, <- qsum_inject.
  apply qsum_ext. intros k Hk. apply in_seq in Hk. pose proof (slots_sum 1 x t k Hx ltac:(lia) ltac:(lia)) as B. rewrite qsum_map in B. cbn [fst snd] in B. rewrite B. ring.
Qed.

Lemma total_bounds : forall x, (x < ni)%nat -> it_copies_min (it x) <= total x <= it_copies (it x).
Proof.
  intros x Hx. assert (R : row_holds v (mkRow (map (fun u => (u, 1%Q)) (all_slots i ub x)) (Some (inject_Z (it_copies_min (it x)))) (Some (inject_Z (it_copies (it x)))))).
  { apply base_row. right. left. unfold demand_rows. apply in_map_iff. exists x. split; [reflexivity|apply in_seq; lia]. }
  unfold row_holds, row_value in R. cbn [row_lower row_upper row_terms] in R. rewrite (all_sum x Hx), <- !Zle_Qle in R. exact R.
Qed.

Lemma terms_sum : forall (f : nat -> Q) t k, (t < nb)%nat -> (k < ub_of ub t)%nat ->
  (qsum (fun p => snd p * v (fst p)) (flat_map (fun x => map (fun u => (u, f x)) (bin_slots i x t k)) (seq 0 ni)) == qsum f (items t k))%Q.
Proof.
  intros f t k Ht Hk. rewrite qsum_flat_map. rewrite <- (count_weighted f (items t k) ni) by (intros x Hx; apply (chosen_ids x t k Hx)).
  apply qsum_ext. intros x Hx. apply in_seq in Hx. rewrite (slots_sum (f x) x t k) by lia. ring.
Qed.

(** A bin is used: its [y] is 1, or there is no [y]. *)
Definition room (t k : nat) : Q := if needs_y i then v (VY t k) else 1%Q.

Lemma room_binary : forall t k, (t < nb)%nat -> (k < ub_of ub t)%nat -> binary (room t k).
Proof. intros t k Ht Hk. unfold room. destruct (needs_y i) eqn:E; [apply (y_col_in E t k Ht Hk)|right; reflexivity]. Qed.

Lemma capacity_holds : forall t k terms cap, row_holds v (capacity_row i t k terms cap) -> (qsum (fun p => snd p * v (fst p)) terms <= cap * room t k)%Q.
Proof.
  intros t k terms cap. unfold capacity_row, row_holds, row_value, room. destruct (needs_y i); cbn [row_lower row_upper row_terms]; intros [_ H]; [|lra].
  rewrite qsum_snoc in H. cbn [fst snd] in H. lra.
Qed.

Lemma length_holds : forall t k, (t < nb)%nat -> (k < ub_of ub t)%nat -> (inject_Z (zsum (fun x => it_length (it x)) (items t k)) <= inject_Z (bt_length (bt t)) * room t k)%Q.
Proof.
  intros t k Ht Hk.
  assert (R : row_holds v (capacity_row i t k (length_terms i ml t k) (inject_Z (bt_length (bt t)) / ml)%Q)).
  { apply base_row. right. right. left. unfold length_rows. apply in_flat_map. exists t. split; [apply in_seq; lia|]. apply in_map_iff. exists k. split; [reflexivity|apply in_seq; lia]. }
  apply capacity_holds in R. unfold length_terms in R. rewrite (terms_sum (fun x => inject_Z (it_length (it x)) / ml)%Q t k Ht Hk) in R.
  assert (S2 : (qsum (fun x => inject_Z (it_length (it x)) / ml) (items t k) == inject_Z (zsum (fun x => it_length (it x)) (items t k)) / ml)%Q).
  { unfold Qdiv. rewrite <- qsum_inject, Qmult_comm, <- qsum_scale. apply qsum_ext. intros x _. ring. }
  rewrite S2 in R. apply (Qmult_le_compat_r _ _ ml) in R; [|lra].
  setoid_replace (inject_Z (zsum (fun x => it_length (it x)) (items t k)) / ml * ml)%Q with (inject_Z (zsum (fun x => it_length (it x)) (items t k))) in R by (field; lra).
  setoid_replace (inject_Z (bt_length (bt t)) / ml * room t k * ml)%Q with (inject_Z (bt_length (bt t)) * room t k)%Q in R by (field; lra). exact R.
Qed.

Lemma no_room_empty : forall t k, (t < nb)%nat -> (k < ub_of ub t)%nat -> (room t k == 0)%Q -> items t k = [].
Proof.
  intros t k Ht Hk H. pose proof (length_holds t k Ht Hk) as L. rewrite H, Qmult_0_r in L. change 0%Q with (inject_Z 0) in L. rewrite <- Zle_Qle in L.
  destruct (items t k) as [|x l] eqn:E; [reflexivity|]. rewrite zsum_cons in L.
  assert (Hall : forall y, In y (x :: l) -> 0 < it_length (it y)) by (intros y Hy; rewrite <- E in Hy; apply (md_items _ _ Hdom y), (chosen_ids y t k Hy)).
  pose proof (Hall x (or_introl eq_refl)). assert (0 <= zsum (fun y => it_length (it y)) l) by (apply zsum_nonneg; intros y Hy; specialize (Hall y (or_intror Hy)); lia). lia.
Qed.

Lemma resource_terms_sum : forall r t k, (t < nb)%nat -> (k < ub_of ub t)%nat -> (qsum (fun p => snd p * v (fst p)) (resource_terms i r t k) == consumption i r (items t k))%Q.
Proof.
  intros r t k Ht Hk. unfold resource_terms, consumption. rewrite qsum_flat_map. apply qsum_ext. intros x Hx. apply in_seq in Hx. rewrite schedule_total_sum, (count_chosen x t k) by lia.
  destruct (x_prefix x t k ltac:(lia) Ht Hk) as [P1 P2]. rewrite <- (qsum_indicator (item_consumption r x) _ _ P1), qsum_flat_map. apply qsum_ext. intros c Hc. apply in_seq in Hc.
  destruct (Qeq_bool (item_consumption r x c) 0) eqn:E.
  - apply Qeq_bool_iff in E. rewrite E, qsum_nil. ring.
  - rewrite qsum_cons, qsum_nil. cbn [fst snd]. rewrite (P2 c) by lia. ring.
Qed.

Lemma milp_bin : forall t k, (t < nb)%nat -> (k < ub_of ub t)%nat -> MilpBinOK i (mkBD t 1 (items t k)).
Proof.
  intros t k Ht Hk. pose proof (room_binary t k Ht Hk) as B. destruct (binary_bounds _ B) as [B1 B2].
  assert (Hcap : forall cap q, (0 <= cap)%Q -> (q <= cap * room t k)%Q -> (q <= cap)%Q) by (intros cap q H0 H; destruct B as [B|B]; rewrite B in H; lra).
  destruct (sane_bins _ (md_sane _ _ Hdom) t) as [H1 H2]. constructor; cbn [bd_items bd_type].
  - pose proof (length_holds t k Ht Hk) as L. apply Hcap in L; [rewrite <- Zle_Qle in L; exact L|]. change 0%Q with (inject_Z 0). rewrite <- Zle_Qle. exact H1.
  - unfold within in *. destruct (bt_max_weight (bt t)) as [w|] eqn:Ew; [|exact Logic.I]. apply Hcap; [exact H2|].
    assert (R : row_holds v (capacity_row i t k (weight_terms i t k) w)).
    { apply base_row. right. right. right. left. unfold weight_rows. apply in_flat_map. exists t. split; [apply in_seq; lia|]. rewrite Ew. apply in_map_iff. exists k. split; [reflexivity|apply in_seq; lia]. }
    apply capacity_holds in R. eapply Qle_trans; [|exact R]. unfold total_weight. rewrite <- (terms_sum (fun x => it_weight (it x)) t k Ht Hk). unfold weight_terms. rewrite !qsum_flat_map.
    assert (E : (qsum (fun x => qsum (fun p => snd p * v (fst p)) (map (fun u => (u, it_weight (it x))) (bin_slots i x t k))) (seq 0 ni)
      == qsum (fun x => qsum (fun p => snd p * v (fst p)) (if Qeq_bool (it_weight (it x)) 0 then [] else map (fun u => (u, it_weight (it x))) (bin_slots i x t k))) (seq 0 ni))%Q).
    { apply qsum_ext. intros x Hx. apply in_seq in Hx. destruct (Qeq_bool (it_weight (it x)) 0) eqn:E; [|reflexivity]. apply Qeq_bool_iff in E. rewrite (slots_sum _ x t k) by lia. rewrite E, qsum_nil. ring. }
    rewrite E. apply Qle_refl.
  - intros x Hx. destruct (chosen_ids x t k Hx) as [_ Hs]. unfold slots in Hs. destruct (fits x t) eqn:Ef; [|lia]. unfold item_type_fits_bin_type in Ef. apply andb_true_iff in Ef. destruct Ef as [_ Ef].
    unfold eligible in Ef. apply orb_true_iff in Ef. destruct Ef as [Ef|Ef]; [left; apply Z.eqb_eq; exact Ef|right]. apply existsb_exists in Ef. destruct Ef as (e & He & Ee). apply Z.eqb_eq in Ee. rewrite Ee. exact He.
  - intros r Hr Hp. destruct (sane_res _ (md_sane _ _ Hdom) (bt t) r (nth_In _ _ Ht) Hr) as [H0 _]. apply Hcap; [exact H0|]. rewrite <- (resource_terms_sum r t k Ht Hk). apply capacity_holds.
    apply base_row. right. right. right. right. left. unfold resource_rows. apply in_flat_map. exists t. split; [apply in_seq; lia|]. apply in_flat_map. exists r. split; [exact Hr|]. rewrite Hp.
    apply in_map_iff. exists k. split; [reflexivity|apply in_seq; lia].
Qed.

(** ** The bins read back *)

Notation bins := (chosen_bins i ub v).
Notation ds := (map bin_desc bins).

Lemma bins_in : forall t l, In (t, l) bins -> exists k, (t < nb)%nat /\ (k < ub_of ub t)%nat /\ l = items t k /\ skipped i v t k = false.
Proof.
  intros t l H. unfold chosen_bins in H. apply in_flat_map in H. destruct H as (u & Hu & H). apply in_flat_map in H. destruct H as (k & Hk & H). apply in_seq in Hu. apply in_seq in Hk.
  destruct (skipped i v u k) eqn:E; [destruct H|]. destruct H as [H|[]]. injection H as <- <-. exists k. repeat split; auto; lia.
Qed.

Lemma skipped_room : forall t k, (t < nb)%nat -> (k < ub_of ub t)%nat ->
  (skipped i v t k = true -> items t k = []) /\ (needs_y i = true -> (v (VY t k) == if skipped i v t k then 0 else 1)%Q).
Proof.
  intros t k Ht Hk. unfold skipped. destruct (needs_y i) eqn:Ey.
  - destruct (y_col_in Ey t k Ht Hk) as [B _]. split.
    + intro H. apply Qltb_lt in H. apply no_room_empty; [exact Ht|exact Hk|]. unfold room. rewrite Ey. destruct B as [B|B]; [exact B|lra].
    + intros _. destruct (Qltb (v (VY t k)) (1 # 2)) eqn:E.
      * apply Qltb_lt in E. destruct B; lra.
      * apply Qltb_ge in E. destruct B; lra.
  - split; [|discriminate]. destruct (items t k); [reflexivity|discriminate].
Qed.

(** Sums over the bins. *)
Lemma bins_sum : forall (f : nat -> list nat -> Q), (forall t, f t [] == 0)%Q ->
  (qsum (fun d => f (bd_type d) (bd_items d)) ds == qsum (fun t => qsum (fun k => f t (items t k)) (seq 0 (ub_of ub t))) (seq 0 nb))%Q.
Proof.
  intros f H. rewrite qsum_map. unfold chosen_bins. rewrite qsum_flat_map. apply qsum_ext. intros t Ht. apply in_seq in Ht. rewrite qsum_flat_map. apply qsum_ext. intros k Hk. apply in_seq in Hk.
  destruct (skipped_room t k ltac:(lia) ltac:(lia)) as [S1 _]. destruct (skipped i v t k).
  - rewrite qsum_nil, (S1 eq_refl), H. reflexivity.
  - rewrite qsum_cons, qsum_nil. unfold bin_desc. cbn [fst snd bd_type bd_items]. ring.
Qed.
Lemma bins_type_sum : forall (f : nat -> Q), needs_y i = true ->
  (qsum (fun d => f (bd_type d)) ds == qsum (fun t => qsum (fun k => f t * v (VY t k)) (seq 0 (ub_of ub t))) (seq 0 nb))%Q.
Proof.
  intros f Hy. rewrite qsum_map. unfold chosen_bins. rewrite qsum_flat_map. apply qsum_ext. intros t Ht. apply in_seq in Ht. rewrite qsum_flat_map. apply qsum_ext. intros k Hk. apply in_seq in Hk.
  destruct (skipped_room t k ltac:(lia) ltac:(lia)) as [_ S2]. rewrite (S2 Hy). destruct (skipped i v t k).
  - rewrite qsum_nil. ring.
  - rewrite qsum_cons, qsum_nil. unfold bin_desc. cbn [fst snd bd_type bd_items]. ring.
Qed.

Lemma packed_total : forall x, packed x ds = total x.
Proof.
  intro x. apply injz. unfold packed, total. rewrite <- !qsum_inject.
  transitivity (qsum (fun d => inject_Z (Z.of_nat (count (bd_items d) x))) ds).
  - rewrite !qsum_map. apply qsum_ext. intros p _. unfold bin_desc. cbn [bd_copies bd_items]. rewrite Z.mul_1_l. reflexivity.
  - rewrite (bins_sum (fun _ l => inject_Z (Z.of_nat (count l x)))) by reflexivity. apply qsum_ext. intros t _. apply qsum_inject.
Qed.

Lemma used_eq : needs_y i = true -> forall t, (t < nb)%nat -> (inject_Z (used_bins t ds) == qsum (fun k => v (VY t k)) (seq 0 (ub_of ub t)))%Q.
Proof.
  intros Hy t Ht. unfold used_bins. rewrite <- qsum_inject.
  transitivity (qsum (fun d => if Nat.eqb (bd_type d) t then 1%Q else 0%Q) ds).
  - rewrite !qsum_map. apply qsum_ext. intros p _. unfold bin_desc. cbn [bd_copies bd_type]. destruct (Nat.eqb _ _); reflexivity.
  - rewrite (bins_type_sum (fun u => if Nat.eqb u t then 1%Q else 0%Q) Hy). rewrite (qsum_one _ _ _ t (seq_NoDup nb 0)).
    + apply qsum_ext. intros k _. rewrite Nat.eqb_refl. ring.
    + apply in_seq. lia.
    + intros u _ Hu. apply qsum_zero. intros k _. destruct (Nat.eqb_spec u t); [contradiction|ring].
Qed.

Lemma used_le : forall t, (t < nb)%nat -> used_bins t ds <= Z.of_nat (ub_of ub t).
Proof.
  intros t Ht. unfold used_bins. rewrite zsum_map. unfold bin_desc. cbn [bd_copies bd_type fst]. unfold chosen_bins. rewrite zsum_flat_map.
  assert (G : forall u, In u (seq 0 nb) -> zsum (fun p => if Nat.eqb (fst p) t then 1 else 0) (flat_map (fun k => if skipped i v u k then [] else [(u, items u k)]) (seq 0 (ub_of ub u)))
     <= zsum (fun _ : nat => if Nat.eqb u t then Z.of_nat (ub_of ub t) else 0) [0%nat]).
  { intros u _. rewrite zsum_flat_map, zsum_cons, zsum_nil. destruct (Nat.eqb_spec u t) as [->|Hne].
    - rewrite Z.add_0_r. eapply Z.le_trans; [apply (zsum_le _ _ (fun _ => 1))|].
      + intros k _. destruct (skipped i v t k); [rewrite zsum_nil; lia|]. rewrite zsum_cons, zsum_nil. cbn [fst]. rewrite Nat.eqb_refl. lia.
      + clear. generalize 0%nat at 1. induction (ub_of ub t) as [|n IH]; intro a; [reflexivity|]. cbn [seq]. rewrite zsum_cons. specialize (IH (S a)). lia.
    - rewrite (zsum_ext _ _ (fun _ => 0)); [rewrite zsum_const0; lia|]. intros k _. destruct (skipped i v u k); [reflexivity|]. rewrite zsum_cons, zsum_nil. cbn [fst]. destruct (Nat.eqb_spec u t); [contradiction|reflexivity]. }
  eapply Z.le_trans; [apply (zsum_le _ _ _ _ G)|]. rewrite zsum_swap, zsum_cons, zsum_nil, Z.add_0_r.
  assert (O : forall L, NoDup L -> zsum (fun u => if Nat.eqb u t then Z.of_nat (ub_of ub t) else 0) L <= Z.of_nat (ub_of ub t)).
  { induction L as [|u L IH]; intro Hn; [rewrite zsum_nil; lia|]. inversion Hn as [|u' L' Hu HL]; subst. rewrite zsum_cons. destruct (Nat.eqb_spec u t) as [->|Hne]; [|apply IH; exact HL].
    rewrite (zsum_ext _ _ (fun _ => 0)); [rewrite zsum_const0; lia|]. intros w Hw. destruct (Nat.eqb_spec w t); [subst; contradiction|reflexivity]. }
  apply O. apply seq_NoDup.
Qed.

(** ** Order *)

Lemma chain_sorted : forall l, (forall r, In r (chain_rows l) -> row_holds v r) -> StronglySorted (fun a b => (v b <= v a)%Q) l.
Proof.
  intros l. induction l as [|a l IH]; intro H; [constructor|]. destruct l as [|b l]; [constructor; constructor|]. cbn [chain_rows] in H.
  assert (Hs : StronglySorted (fun a b => (v b <= v a)%Q) (b :: l)) by (apply IH; intros r Hr; apply H; right; exact Hr). constructor; [exact Hs|].
  assert (Hab : (v b <= v a)%Q).
  { destruct (H _ (or_introl eq_refl)) as [R _]. cbn [row_lower] in R. unfold row_value in R. cbn [row_terms] in R. rewrite !qsum_cons, qsum_nil in R. cbn [fst snd] in R. lra. }
  constructor; [exact Hab|]. inversion Hs as [|b' l' _ Hb]; subst. rewrite Forall_forall in Hb |- *. intros u Hu. eapply Qle_trans; [apply Hb; exact Hu|exact Hab].
Qed.

Lemma sorted_app : forall A (R : A -> A -> Prop) l1 l2, StronglySorted R (l1 ++ l2) -> forall a b, In a l1 -> In b l2 -> R a b.
Proof.
  intros A R l1. induction l1 as [|c l1 IH]; intros l2 H a b Ha Hb; [destruct Ha|]. cbn [app] in H. inversion H as [|c' l' Hs Hc]; subst. destruct Ha as [<-|Ha]; [|apply (IH l2 Hs a b Ha Hb)].
  rewrite Forall_forall in Hc. apply Hc. apply in_or_app. right. exact Hb.
Qed.

(** Bounds that follow the order of the bin types. *)
Definition ordered_bounds : Prop := forall t u, (t < u < nb)%nat -> (0 < ub_of ub u)%nat -> Z.of_nat (ub_of ub t) = bt_copies (bt t).

Lemma order_ok : in_objective i = OBinPacking -> ordered_bounds -> OrderOK i ds.
Proof.
  intros Ho Hord t u Htu Hu. assert (Hy : needs_y i = true) by (unfold needs_y; rewrite Ho; reflexivity). assert (Hb : is_bin_packing i = true) by (unfold is_bin_packing; rewrite Ho; reflexivity).
  assert (Hex : exists j, (j < ub_of ub u)%nat /\ (v (VY u j) == 1)%Q).
  { assert (Hd : exists d, In d ds /\ bd_type d = u).
    { unfold used_bins in Hu. clear - Hu. induction ds as [|d L IH]; [rewrite zsum_nil in Hu; lia|]. rewrite zsum_cons in Hu. destruct (Nat.eqb_spec (bd_type d) u) as [E|E]; [exists d; split; [left; reflexivity|exact E]|].
      destruct IH as (e & He & G); [lia|]. exists e. split; [right; exact He|exact G]. }
    destruct Hd as (d & Hd & Hdu). apply in_map_iff in Hd. destruct Hd as ([t' l] & <- & Hd). cbn in Hdu. subst t'. destruct (bins_in u l Hd) as (j & _ & Hj & _ & Hs). exists j. split; [exact Hj|].
    destruct (skipped_room u j ltac:(lia) Hj) as [_ S2]. rewrite (S2 Hy), Hs. reflexivity. }
  destruct Hex as (j & Hj & Hyj).
  assert (Hub : Z.of_nat (ub_of ub t) = bt_copies (bt t)) by (apply (Hord t u Htu); lia). rewrite <- Hub. apply injz. rewrite (used_eq Hy t) by lia.
  assert (Hs : StronglySorted (fun a b => (v b <= v a)%Q) (flat_map (type_ys ub) (seq 0 nb))).
  { apply chain_sorted. intros r Hr. apply base_row. right. right. right. right. right. unfold order_rows. rewrite Hy, Hb. exact Hr. }
  replace nb with (u + (nb - u))%nat in Hs by lia. rewrite seq_app, flat_map_app in Hs. cbn [Nat.add] in Hs.
  rewrite (qsum_ext _ _ (fun _ => 1%Q)); [apply qsum_const_one|]. intros k Hk. apply in_seq in Hk. destruct (y_col_in Hy t k ltac:(lia) ltac:(lia)) as [B _].
  assert (G : (v (VY u j) <= v (VY t k))%Q).
  { apply (sorted_app _ _ _ _ Hs (VY t k) (VY u j)); apply in_flat_map.
    - exists t. split; [apply in_seq; lia|]. apply in_map_iff. exists k. split; [reflexivity|apply in_seq; lia].
    - exists u. split; [apply in_seq; lia|]. apply in_map_iff. exists j. split; [reflexivity|apply in_seq; lia]. }
  destruct B; lra.
Qed.

(** ** Building the solution *)

Hypothesis Hnest : forall x, 0 <= it_nesting (it x).

Lemma ds_in : forall d, In d ds -> (bd_type d < nb)%nat /\ bd_copies d = 1 /\ MilpBinOK i d /\ forall x, In x (bd_items d) -> (x < ni)%nat.
Proof.
  intros d H. apply in_map_iff in H. destruct H as ([t l] & <- & H). destruct (bins_in t l H) as (k & Ht & Hk & -> & _). unfold bin_desc. cbn [bd_type bd_copies bd_items fst snd].
  split; [exact Ht|]. split; [reflexivity|]. split; [apply milp_bin; assumption|]. intros x Hx. apply (chosen_ids x t k Hx).
Qed.

Lemma history_chosen : forall cb, exists s, history i cb (Milp_Model.bin_calls 0 bins) [] = Some s /\ view s = ds /\ FullInv i cb s /\
  (ds <> [] -> (c_bin_type_order_ok (s_core s) = true <-> (in_objective i = OBinPacking -> OrderOK i ds))) /\ (ds = [] -> c_bin_type_order_ok (s_core s) = true).
Proof.
  intro cb. assert (R : sb_run i [] (Milp_Model.bin_calls 0 bins) = Some (map (fun p => raw_of (bin_desc p)) bins)).
  { apply (run_bins i bins []). intros t l H. destruct (bins_in t l H) as (k & Ht & Hk & -> & _). split; [exact Ht|]. intros x Hx. apply (chosen_ids x t k Hx). }
  assert (D : desc_run [] (Milp_Model.bin_calls 0 bins) = ds) by apply (desc_bins bins []).
  assert (Hh : history i cb (Milp_Model.bin_calls 0 bins) [] = Some (sb_build i cb (map (fun p => raw_of (bin_desc p)) bins))) by (unfold history; rewrite R; reflexivity).
  assert (Hc : copies_nonneg (Milp_Model.bin_calls 0 bins) []).
  { split; [|intros c []]. rewrite D. intros d Hd. destruct (ds_in d Hd) as (_ & E & _). lia. }
  eexists. split; [exact Hh|]. destruct (history_spec i cb (md_ids _ _ Hdom) _ _ _ Hh (proj1 Hc) (proj2 Hc)) as (F & V & _). rewrite D in V. cbn [flat_map] in V. rewrite app_nil_r in V.
  split; [exact V|]. split; [exact F|]. split.
  - intro Hne. destruct (C10_bin_type_order i cb (Milp_Model.bin_calls 0 bins) [] (md_ids _ _ Hdom) Hc) as [O _]. specialize (O _ eq_refl Hh). rewrite V in O. apply O. exact Hne.
  - intro He. destruct bins; [reflexivity|discriminate].
Qed.

Lemma bin_flags : forall d, MilpBinOK i d ->
  PrefAll (fun p x => start_of i p x + it_length (item_type i x) <= bt_length (bin_type i (bd_type d))) (bd_items d) /\
  PrefAll (fun p x => within (total_weight i (p ++ [x])) (bt_max_weight (bin_type i (bd_type d)))) (bd_items d) /\
  (forall r, In r (bt_resources (bin_type i (bd_type d))) -> res_penalize r = false ->
    PrefAll (fun p x => schedule r x <> [] -> (consumption i r (p ++ [x]) <= res_capacity r)%Q) (bd_items d)).
Proof.
  intros d [B1 B2 B3 B4]. pose proof (md_sane _ _ Hdom) as Hs. split; [|split].
  - intros p x q E. rewrite <- bin_end_snoc'. eapply Z.le_trans; [|exact B1]. apply (Z.le_trans _ (bin_end i (bd_items d))).
    + rewrite E. replace (p ++ x :: q) with ((p ++ [x]) ++ q) by (rewrite <- app_assoc; reflexivity). apply bin_end_app_le; [exact Hs|destruct p; discriminate].
    + unfold bin_end. assert (0 <= zsum (fun y => it_nesting (it y)) (tl (bd_items d))) by (apply zsum_nonneg; intros y _; apply Hnest). lia.
  - intros p x q E. eapply within_le; [|exact B2]. rewrite E. replace (p ++ x :: q) with ((p ++ [x]) ++ q) by (rewrite <- app_assoc; reflexivity). apply total_weight_app. exact Hs.
  - intros r Hr Hp p x q E _. eapply Qle_trans; [|apply (B4 r Hr Hp)]. rewrite E. replace (p ++ x :: q) with ((p ++ [x]) ++ q) by (rewrite <- app_assoc; reflexivity). apply (consumption_app_le i Hs (bd_type d)). exact Hr.
Qed.

Lemma items_total : zsum (fun d => bd_copies d * Z.of_nat (length (bd_items d))) ds = zsum total (seq 0 ni).
Proof.
  rewrite (zsum_ext _ total (fun x => packed x ds)) by (intros x _; symmetry; apply packed_total). unfold packed. rewrite zsum_swap. apply zsum_ext. intros d Hd.
  destruct (ds_in d Hd) as (_ & E & _ & Hids). rewrite E.
  rewrite (zsum_ext _ (fun x => 1 * Z.of_nat (count (bd_items d) x)) (fun x => Z.of_nat (count (bd_items d) x) * 1)) by (intros x _; ring). rewrite (zcount_weighted (fun _ => 1) _ ni Hids).
  rewrite Z.mul_1_l. clear. induction (bd_items d) as [|x l IH]; [reflexivity|]. rewrite zsum_cons. cbn [length]. lia.
Qed.

Lemma retrieve_ok : forall cb, (in_objective i = OKnapsack \/ all_mandatory i) -> (in_objective i = OBinPacking -> ordered_bounds) ->
  exists s, retrieve i ub cb v = Some s /\ view s = ds /\ FullInv i cb s.
Proof.
  intros cb Hk Ho. destruct (history_chosen cb) as (s & Hs & V & F & O1 & O2). exists s. split; [|split; assumption]. unfold retrieve. rewrite Hs.
  pose proof (fi_core _ _ _ F) as C. rewrite V in C.
  assert (R : retrieve_checks i s = true); [|rewrite R; reflexivity]. unfold retrieve_checks. cbv zeta.
  assert (F1 : c_item_copies_ok (s_core s) = true).
  { apply (ci_copies _ _ _ C). intros d Hd x Hx. rewrite packed_total. apply total_bounds. apply (ds_in d Hd). exact Hx. }
  assert (F2 : is_knapsack i || (c_number_of_items (s_core s) =? in_number_of_items i) = true).
  { apply orb_true_iff. destruct Hk as [Hk|Hk]; [left; unfold is_knapsack; rewrite Hk; reflexivity|right]. apply Z.eqb_eq. rewrite (ind_items _ _ _ (ci_ind _ _ _ C)), items_total, (md_number _ _ Hdom).
    rewrite (zsum_seq_nth _ it_copies dummy_item (in_item_types i)). apply zsum_ext. intros x Hx. apply in_seq in Hx. pose proof (total_bounds x ltac:(lia)) as B. rewrite (Hk x ltac:(lia)) in B. unfold item_type in B. lia. }
  assert (F3 : c_capacity_ok (s_core s) = true) by (apply (ci_cap _ _ _ C); intros d Hd; apply bin_flags, (ds_in d Hd)).
  assert (F4 : c_weight_ok (s_core s) = true) by (apply (ci_weight _ _ _ C); intros d Hd; apply bin_flags, (ds_in d Hd)).
  assert (F5 : c_resource_ok (s_core s) = true) by (apply (ci_res _ _ _ C); intros d Hd; apply bin_flags, (ds_in d Hd)).
  assert (F6 : c_eligibility_ok (s_core s) = true) by (apply (ci_elig _ _ _ C); intros d Hd; apply (mb_eligible _ _ (proj1 (proj2 (proj2 (ds_in d Hd)))))).
  assert (F7 : c_bin_type_order_ok (s_core s) = true).
  { destruct (nil_or_not _ ds) as [E|E]; [apply O2; exact E|]. apply (O1 E). intro Hob. apply order_ok; [exact Hob|apply Ho; exact Hob]. }
  rewrite F1, F2, F3, F4, F5, F6, F7. reflexivity.
Qed.

(** ** Precedences *)

Lemma precedence_ok : single_bin i = false -> PrecOK i prec ds.
Proof.
  intros Hs a b Hab Ha. rewrite packed_total in *. destruct (md_prec _ _ Hdom a b Hab) as [Han Hbn].
  assert (Hrows : forall ps p cols rows, precedence_model i ub p ps = Some (cols, rows) -> In (a, b) ps -> exists q, In (mkCol (VZ q) 0 0) cols /\ incl (multiple_precedence i ub q a b) rows).
  { induction ps as [|[a' b'] ps IH]; intros p cols rows H Hin; [destruct Hin|]. cbn [precedence_model] in H. destruct (precedence_model i ub (S p) ps) as [[cols' rows']|] eqn:E; [|discriminate]. rewrite Hs in H. injection H as <- <-.
    destruct Hin as [Hin|Hin].
    - injection Hin as -> ->. exists p. split; [left; reflexivity|]. intros r Hr. destruct Hr as [<-|[<-|[]]]; [left; reflexivity|right; left; reflexivity].
    - destruct (IH (S p) cols' rows' E Hin) as (q & Q1 & Q2). exists q. split; [right; exact Q1|]. intros r Hr. right. right. apply Q2. exact Hr. }
  destruct model_parts as (c1 & r1 & c2 & r2 & E1 & E2 & Em). destruct (Hrows prec 0%nat c2 r2 E2 Hab) as (q & Q1 & Q2).
  assert (Hz : binary (v (VZ q))) by (apply (pt_columns _ _ Hv (mkCol (VZ q) 0 0)); rewrite Em; cbn [m_cols]; rewrite !in_app_iff; auto).
  assert (R1 : row_holds v (mkRow (map (fun u => (u, 1%Q)) (all_slots i ub b) ++ [(VZ q, (- inject_Z (it_copies (it b)))%Q)]) (Some 0%Q) None)).
  { apply row_of. exists c1, r1, c2, r2. split; [exact E1|]. split; [exact E2|]. do 6 right. left. apply Q2. left. reflexivity. }
  assert (R2 : row_holds v (mkRow (map (fun u => (u, 1%Q)) (all_slots i ub a) ++ [(VZ q, (- inject_Z (it_copies (it a)))%Q)]) None (Some 0%Q))).
  { apply row_of. exists c1, r1, c2, r2. split; [exact E1|]. split; [exact E2|]. do 6 right. left. apply Q2. right. left. reflexivity. }
  unfold row_holds, row_value in R1, R2. cbn [row_lower row_upper row_terms] in R1, R2. rewrite qsum_snoc, all_sum in R1, R2 by assumption. cbn [fst snd] in R1, R2. destruct R1 as [R1 _]. destruct R2 as [_ R2].
  pose proof (total_bounds b Hbn) as Tb.
  assert (Ha' : (inject_Z 1 <= inject_Z (total a))%Q) by (rewrite <- Zle_Qle; lia). change (inject_Z 1) with 1%Q in Ha'.
  destruct Hz as [Hz|Hz]; rewrite Hz in R1, R2; [lra|].
  assert (R3 : (inject_Z (it_copies (it b)) <= inject_Z (total b))%Q) by lra. rewrite <- Zle_Qle in R3. lia.
Qed.

(** ** Mandatory bins *)

Lemma mandatory_ok : needs_y i = true -> forall t, (t < nb)%nat -> Z.min (bt_copies_min (bt t)) (Z.of_nat (ub_of ub t)) <= used_bins t ds.
Proof.
  intros Hy t Ht. rewrite Zle_Qle, (used_eq Hy t Ht). set (n := Z.to_nat (Z.min (bt_copies_min (bt t)) (Z.of_nat (ub_of ub t)))).
  destruct (md_bins _ _ Hdom t Ht) as [_ Hmin].
  assert (Hn : (n <= ub_of ub t)%nat) by (unfold n; lia). replace (Z.min (bt_copies_min (bt t)) (Z.of_nat (ub_of ub t))) with (Z.of_nat n) by (unfold n; lia).
  replace (ub_of ub t) with (n + (ub_of ub t - n))%nat by lia. rewrite seq_app, qsum_app. rewrite <- (qsum_const_one n 0).
  assert (A : (qsum (fun _ : nat => 1) (seq 0 n) <= qsum (fun k => v (VY t k)) (seq 0 n))%Q).
  { apply qsum_le. intros k Hk. apply in_seq in Hk. apply (y_col_in Hy t k Ht ltac:(lia)). unfold n in Hk. lia. }
  assert (B : (0 <= qsum (fun k => v (VY t k)) (seq (0 + n) (ub_of ub t - n)))%Q).
  { apply qsum_nonneg. intros k Hk. apply in_seq in Hk. apply (binary_bounds _ (proj1 (y_col_in Hy t k Ht ltac:(lia)))). }
  lra.
Qed.

(** ** Value *)

Lemma pairs_cover : forall A (l : list A) a b, In a l -> In b l -> a <> b -> In (a, b) (pairs l) \/ In (b, a) (pairs l).
Proof.
  intros A l. induction l as [|c l IH]; intros a b Ha Hb Hne; [destruct Ha|]. cbn [pairs]. destruct Ha as [->|Ha]; destruct Hb as [->|Hb].
  - congruence.
  - left. apply in_or_app. left. apply in_map. exact Hb.
  - right. apply in_or_app. left. apply in_map. exact Ha.
  - destruct (IH a b Ha Hb Hne); [left|right]; apply in_or_app; right; assumption.
Qed.

(** More than one unit in a bin: two different ones. *)
Lemma two_different : forall r l, (forall x, (x < ni)%nat -> exists n, forall c, (item_consumption r x c == if (c <? n)%nat then 1 else 0)%Q) ->
  (1 < consumption i r l)%Q -> exists x c y d, (x < ni)%nat /\ (y < ni)%nat /\ (x, c) <> (y, d) /\ (c < count l x)%nat /\ (d < count l y)%nat /\
    (forall c', (c' <= c)%nat -> item_consumption r x c' == 1)%Q /\ (forall d', (d' <= d)%nat -> item_consumption r y d' == 1)%Q.
Proof.
  intros r l Hn H. unfold consumption in H.
  assert (P : forall n, (n <= ni)%nat ->
    ((qsum (fun x => schedule_total (schedule r x) (count l x)) (seq 0 n) == 0)%Q) \/
    ((qsum (fun x => schedule_total (schedule r x) (count l x)) (seq 0 n) == 1)%Q /\ exists x, (x < n)%nat /\ (0 < count l x)%nat /\ (item_consumption r x 0 == 1)%Q) \/
    exists x c y d, (x < n)%nat /\ (y < n)%nat /\ (x, c) <> (y, d) /\ (c < count l x)%nat /\ (d < count l y)%nat /\
    (forall c', (c' <= c)%nat -> item_consumption r x c' == 1)%Q /\ (forall d', (d' <= d)%nat -> item_consumption r y d' == 1)%Q).
  { induction n as [|n IH]; intro Hle; [left; reflexivity|]. rewrite seq_S, qsum_snoc. cbn [Nat.add].
    destruct (Hn n ltac:(lia)) as (k & Hk).
    assert (S1 : (schedule_total (schedule r n) (count l n) == inject_Z (Z.of_nat (Nat.min (count l n) k)))%Q).
    { rewrite schedule_total_sum. rewrite (qsum_ext _ _ (fun c => if (c <? k)%nat then 1 else 0)%Q) by (intros c _; apply Hk). generalize (count l n). clear. intro z. induction z as [|z IH]; [reflexivity|].
      rewrite seq_S, qsum_snoc, IH. cbn [Nat.add]. destruct (Nat.ltb_spec z k).
      - change 1%Q with (inject_Z 1). rewrite <- inject_Z_plus. replace (Z.of_nat (Nat.min (S z) k)) with (Z.of_nat (Nat.min z k) + 1) by lia. reflexivity.
      - replace (Nat.min (S z) k) with (Nat.min z k) by lia. ring. }
    destruct (le_lt_dec 2 (Nat.min (count l n) k)) as [H2|H2].
    - right. right. exists n, 0%nat, n, 1%nat. split; [lia|]. split; [lia|]. split; [congruence|]. split; [lia|]. split; [lia|]. split; intros c' Hc'; rewrite Hk; destruct (Nat.ltb_spec c' k); try reflexivity; lia.
    - destruct (IH ltac:(lia)) as [E|[[E (x & X1 & X2 & X3)]|(x & c & y & d & G)]].
      + rewrite E, S1. destruct (Nat.min (count l n) k) as [|[|z]] eqn:Em; [left; reflexivity| |lia]. right. left. split; [reflexivity|]. exists n. split; [lia|]. split; [lia|]. rewrite Hk. destruct (Nat.ltb_spec 0 k); [reflexivity|lia].
      + rewrite E, S1. destruct (Nat.min (count l n) k) as [|[|z]] eqn:Em; [| |lia].
        * right. left. split; [reflexivity|]. exists x. split; [lia|]. split; assumption.
        * right. right. exists x, 0%nat, n, 0%nat. split; [lia|]. split; [lia|]. split; [intro Eq; injection Eq; lia|]. split; [exact X2|]. split; [lia|]. split; intros c' Hc'; replace c' with 0%nat by lia; [exact X3|].
          rewrite Hk. destruct (Nat.ltb_spec 0 k); [reflexivity|lia].
      + right. right. exists x, c, y, d. destruct G as (G1 & G2 & G3). split; [lia|]. split; [lia|]. exact G3. }
  destruct (P ni (le_n _)) as [E|[[E _]|G]]; [rewrite E in H; discriminate H|rewrite E in H; discriminate H|exact G].
Qed.

Lemma units_cover : forall r xs us, (forall x, In x xs -> 0 <= it_copies (it x)) ->
  (forall x, In x xs -> exists n, forall c, (item_consumption r x c == if (c <? n)%nat then 1 else 0)%Q) ->
  resource_units i r xs = Some us -> forall x c, In x xs -> (forall c', (c' <= c)%nat -> item_consumption r x c' == 1)%Q -> In (x, c) us.
Proof.
  intros r xs. induction xs as [|y xs IH]; intros us Hc Hn H x c Hx Hone; [destruct Hx|]. cbn [resource_units] in H.
  destruct (Qeq_bool (item_consumption r y 0) 0) eqn:E0.
  - destruct Hx as [->|Hx]; [apply Qeq_bool_iff in E0; pose proof (Hone 0%nat ltac:(lia)) as G; rewrite E0 in G; discriminate G|].
    apply IH; [intros z Hz; apply Hc; right; exact Hz|intros z Hz; apply Hn; right; exact Hz|exact H|exact Hx|exact Hone].
  - destruct (negb _) eqn:Et in H; [discriminate|]. apply negb_false_iff, Qeq_bool_iff in Et. destruct (resource_units i r xs) as [us'|] eqn:E; [|discriminate]. injection H as <-. apply in_or_app.
    destruct Hx as [->|Hx]; [left|right; apply IH; [intros z Hz; apply Hc; right; exact Hz|intros z Hz; apply Hn; right; exact Hz|reflexivity|exact Hx|exact Hone]].
    destruct (Hn x (or_introl eq_refl)) as (n & Hxn). assert (Em : threshold i r x = n) by (unfold threshold; apply (threshold_loop_end i _ r x 0 n Hxn); [lia|lia|apply Hc; left; reflexivity|exact Et]).
    rewrite Em. apply in_map_iff. exists c. split; [reflexivity|]. apply in_seq. pose proof (Hone c ltac:(lia)) as G. rewrite Hxn in G. destruct (Nat.ltb_spec c n); [lia|discriminate G].
Qed.

Lemma penalize_bin_cost : threshold_resources i -> (forall t r, (t < nb)%nat -> In r (bt_resources (bt t)) -> (0 <= res_penalty r)%Q) ->
  forall t rs r cols rows, (t < nb)%nat -> (forall j, (j < length rs)%nat -> nth_error (bt_resources (bt t)) (r + j) = nth_error rs j) ->
  penalize_bin i ub mp t r rs = Some (cols, rows) -> (forall c, In c cols -> binary (v (col_var c))) -> (forall w, In w rows -> row_holds v w) ->
  (qsum (fun c => col_obj c * v (col_var c)) cols * mp <= - qsum (fun k => qsum (fun q => exceeded i q (items t k)) rs) (seq 0 (ub_of ub t)))%Q.
Proof.
  intros Hth Hpos t rs. induction rs as [|resource rs IH]; intros r cols rows Ht Hrs H Hcols Hrows; cbn [penalize_bin] in H.
  - injection H as <- <-. rewrite (qsum_zero _ (fun k => qsum (fun q => exceeded i q (items t k)) [])) by (intros k _; reflexivity). cbn. lra.
  - destruct (penalize_bin i ub mp t (S r) rs) as [[cols' rows']|] eqn:E; [|discriminate].
    assert (IHr : (forall c, In c cols' -> binary (v (col_var c))) -> (forall w, In w rows' -> row_holds v w) ->
      (qsum (fun c => col_obj c * v (col_var c)) cols' * mp <= - qsum (fun k => qsum (fun q => exceeded i q (items t k)) rs) (seq 0 (ub_of ub t)))%Q).
    { apply (IH (S r) cols' rows' Ht); [|exact E]. intros j Hj. specialize (Hrs (S j)). cbn [length nth_error] in Hrs. rewrite <- Hrs by lia. f_equal. lia. }
    assert (Split : (qsum (fun k => qsum (fun q => exceeded i q (items t k)) (resource :: rs)) (seq 0 (ub_of ub t)) == qsum (fun k => exceeded i resource (items t k)) (seq 0 (ub_of ub t)) + qsum (fun k => qsum (fun q => exceeded i q (items t k)) rs) (seq 0 (ub_of ub t)))%Q).
    { rewrite <- qsum_plus. apply qsum_ext. intros l _. rewrite qsum_cons. reflexivity. }
    rewrite Split. assert (Enth : nth_error (bt_resources (bt t)) r = Some resource) by (specialize (Hrs 0%nat); rewrite Nat.add_0_r in Hrs; rewrite Hrs; [reflexivity|simpl; lia]).
    pose proof (nth_error_In _ _ Enth) as Hin.
    destruct (res_penalize resource) eqn:Ep.
    2:{ injection H as <- <-. rewrite (qsum_zero _ (fun k => exceeded i resource (items t k))); [specialize (IHr Hcols Hrows); lra|]. intros k _. unfold exceeded. rewrite Ep. reflexivity. }
    destruct (negb (Qeq_bool (res_capacity resource) 1)) eqn:Ec; [discriminate|]. apply negb_false_iff, Qeq_bool_iff in Ec.
    destruct (resource_units i resource (seq 0 ni)) as [us|] eqn:Eu; [|discriminate]. cbv zeta in H. injection H as <- <-.
    rewrite qsum_app, Qmult_plus_distr_l. specialize (IHr (fun c Hc => Hcols c (in_or_app _ _ c (or_intror Hc))) (fun w Hw => Hrows w (in_or_app _ _ w (or_intror Hw)))).
    assert (Hcop : forall x, In x (seq 0 ni) -> 0 <= it_copies (it x)) by (intros x Hx; apply in_seq in Hx; destruct (md_items _ _ Hdom x) as (_ & ? & _); lia).
    assert (Hshape : forall x, In x (seq 0 ni) -> exists n, forall c, (item_consumption resource x c == if (c <? n)%nat then 1 else 0)%Q) by (intros x Hx; apply in_seq in Hx; apply (Hth t resource x Ht Hin Ep); lia).
    assert (G : (qsum (fun c => col_obj c * v (col_var c)) (fst (penalize_part i ub mp t r resource us)) * mp <= - qsum (fun k => exceeded i resource (items t k)) (seq 0 (ub_of ub t)))%Q); [|lra].
    unfold penalize_part in *. destruct (Nat.ltb_spec (length us) 2) as [Hus|Hus]; cbn [fst snd] in *.
    + rewrite qsum_nil, (qsum_zero _ (fun k => exceeded i resource (items t k))); [lra|]. intros k _. unfold exceeded. rewrite Ep. cbn [andb].
      assert (Hq : Qltb (res_capacity resource) (consumption i resource (items t k)) = false); [|rewrite Hq; reflexivity]. apply Qltb_ge. rewrite Ec. unfold consumption.
      eapply Qle_trans; [apply (units_bound i resource (seq 0 ni) us Hcop Hshape Eu)|]. change 1%Q with (inject_Z 1). rewrite <- Zle_Qle. lia.
    + rewrite qsum_map. cbn [col_obj col_var]. rewrite Qmult_comm, <- qsum_scale.
      setoid_replace (- qsum (fun k => exceeded i resource (items t k)) (seq 0 (ub_of ub t)))%Q with ((-1) * qsum (fun k => exceeded i resource (items t k)) (seq 0 (ub_of ub t)))%Q by ring.
      rewrite <- qsum_scale. apply qsum_le. intros k Hk. apply in_seq in Hk.
      assert (Bpsi : binary (v (VPsi t r k))).
      { apply (Hcols (mkCol (VPsi t r k) 0 (- res_penalty resource / mp)%Q)). apply in_or_app. left. apply in_map_iff. exists k. split; [reflexivity|apply in_seq; lia]. }
      pose proof (Hpos t resource Ht Hin) as Hp0.
      setoid_replace (mp * (- res_penalty resource / mp * v (VPsi t r k)))%Q with (- (res_penalty resource * v (VPsi t r k)))%Q by (field; lra).
      unfold exceeded. rewrite Ep. cbn [andb]. destruct (Qltb (res_capacity resource) (consumption i resource (items t k))) eqn:El.
      2:{ destruct Bpsi as [B|B]; rewrite B; lra. }
      apply Qltb_lt in El. rewrite Ec in El.
      destruct (two_different resource (items t k) (fun x Hx => Hshape x (proj2 (in_seq ni 0 x) (conj (Nat.le_0_l x) Hx))) El) as (x & c & y & d & Hx & Hy & Hne & Hc & Hd & O1 & O2).
      assert (Ux : In (x, c) us) by (apply (units_cover resource (seq 0 ni) us Hcop Hshape Eu); [apply in_seq; lia|exact O1]).
      assert (Uy : In (y, d) us) by (apply (units_cover resource (seq 0 ni) us Hcop Hshape Eu); [apply in_seq; lia|exact O2]).
      rewrite (count_chosen x t k Hx) in Hc. rewrite (count_chosen y t k Hy) in Hd. destruct (x_prefix x t k Hx Ht ltac:(lia)) as [Px Vx]. destruct (x_prefix y t k Hy Ht ltac:(lia)) as [Py Vy].
      assert (Pre : forall z e, In (z, e) us -> (e < slots i z t k)%nat -> In (VX z t k e) (presence i t k us)).
      { intros z e Hz He. unfold presence. apply in_flat_map. exists (z, e). split; [exact Hz|]. cbn [fst snd]. apply Nat.ltb_lt in He. rewrite He. left. reflexivity. }
      assert (Hv1 : (v (VX x t k c) == 1)%Q) by (rewrite (Vx c) by lia; destruct (Nat.ltb_spec c (chosen_copies i v x t k)); [reflexivity|lia]).
      assert (Hv2 : (v (VX y t k d) == 1)%Q) by (rewrite (Vy d) by lia; destruct (Nat.ltb_spec d (chosen_copies i v y t k)); [reflexivity|lia]).
      assert (Hpsi : (1 <= v (VPsi t r k))%Q).
      { assert (Row : forall a b, In (a, b) (pairs (presence i t k us)) -> (v a == 1)%Q -> (v b == 1)%Q -> (1 <= v (VPsi t r k))%Q).
        { intros a b Hab Ha Hb. assert (R : row_holds v (mkRow [(a, 1%Q); (b, 1%Q); (VPsi t r k, (-1)%Q)] None (Some 1%Q))).
          { apply Hrows. apply in_or_app. left. apply in_flat_map. exists k. split; [apply in_seq; lia|]. apply in_map_iff. exists (a, b). split; [reflexivity|exact Hab]. }
          destruct R as [_ R]. cbn [row_upper] in R. unfold row_value in R. cbn [row_terms] in R. rewrite !qsum_cons, qsum_nil in R. cbn [fst snd] in R. rewrite Ha, Hb in R. lra. }
        destruct (pairs_cover _ (presence i t k us) (VX x t k c) (VX y t k d)) as [G|G].
        - apply Pre; [exact Ux|lia].
        - apply Pre; [exact Uy|lia].
        - intro Eq. injection Eq as -> ->. apply Hne. reflexivity.
        - apply (Row _ _ G Hv1 Hv2).
        - apply (Row _ _ G Hv2 Hv1). }
      destruct Bpsi as [B|B]; rewrite B in *; lra.
Qed.

Lemma penalize_all_cost : threshold_resources i -> (forall t r, (t < nb)%nat -> In r (bt_resources (bt t)) -> (0 <= res_penalty r)%Q) ->
  forall ts cols rows, (forall t, In t ts -> (t < nb)%nat) -> penalize_all i ub mp ts = Some (cols, rows) ->
  (forall c, In c cols -> binary (v (col_var c))) -> (forall w, In w rows -> row_holds v w) ->
  (qsum (fun c => col_obj c * v (col_var c)) cols * mp <= - qsum (fun t => qsum (fun k => penalties i (mkBD t 1 (items t k))) (seq 0 (ub_of ub t))) ts)%Q.
Proof.
  intros Hth Hpos ts. induction ts as [|t ts IH]; intros cols rows Ht H Hcols Hrows; cbn [penalize_all] in H; [injection H as <- <-; cbn; lra|].
  destruct (penalize_bin i ub mp t 0 (bt_resources (bt t))) as [[c1 r1]|] eqn:E1; [|discriminate]. destruct (penalize_all i ub mp ts) as [[c2 r2]|] eqn:E2; [|discriminate]. injection H as <- <-.
  rewrite qsum_app, Qmult_plus_distr_l, qsum_cons.
  specialize (IH c2 r2 (fun u Hu => Ht u (or_intror Hu)) eq_refl (fun c Hc => Hcols c (in_or_app _ _ c (or_intror Hc))) (fun w Hw => Hrows w (in_or_app _ _ w (or_intror Hw)))).
  pose proof (penalize_bin_cost Hth Hpos t _ 0 c1 r1 (Ht t (or_introl eq_refl)) (fun j _ => eq_refl) E1 (fun c Hc => Hcols c (in_or_app _ _ c (or_introl Hc))) (fun w Hw => Hrows w (in_or_app _ _ w (or_introl Hw)))) as B.
  change (fun k => qsum (fun q => exceeded i q (items t k)) (bt_resources (bt t))) with (fun k => penalties i (mkBD t 1 (items t k))) in B. lra.
Qed.

Lemma value_zero : forall ps p cols rows, precedence_model i ub p ps = Some (cols, rows) -> (qsum (fun c => col_obj c * v (col_var c)) cols == 0)%Q.
Proof.
  induction ps as [|[a b] ps IH]; intros p cols rows H; cbn [precedence_model] in H; [injection H as <- <-; reflexivity|].
  destruct (precedence_model i ub (S p) ps) as [[cols' rows']|] eqn:E; [|discriminate]. specialize (IH (S p) cols' rows' E). destruct (single_bin i).
  - destruct (single_precedence i ub a b); [|discriminate]. injection H as <- <-. exact IH.
  - injection H as <- <-. rewrite qsum_cons, IH. cbn [col_obj]. ring.
Qed.

Lemma x_cols_value : (qsum (fun c => col_obj c * v (col_var c)) (x_cols i ub mp) == qsum (fun x => (if is_knapsack i then it_profit (it x) / mp else 0) * inject_Z (total x)) (seq 0 ni))%Q.
Proof.
  unfold x_cols. rewrite qsum_flat_map. apply qsum_ext. intros x Hx. apply in_seq in Hx. rewrite qsum_flat_map. unfold total. rewrite <- qsum_inject, <- qsum_scale. apply qsum_ext. intros t Ht. apply in_seq in Ht.
  rewrite qsum_flat_map, <- qsum_inject, <- qsum_scale. apply qsum_ext. intros k Hk. apply in_seq in Hk.
  pose proof (slots_sum (if is_knapsack i then it_profit (it x) / mp else 0)%Q x t k ltac:(lia) ltac:(lia) ltac:(lia)) as S. rewrite <- S. unfold bin_slots. rewrite map_map, !qsum_map. cbn [col_obj col_var fst snd]. reflexivity.
Qed.

Lemma total_profit : forall f : nat -> Q, (qsum (fun x => f x * inject_Z (total x)) (seq 0 ni) == qsum (fun d => qsum f (bd_items d)) ds)%Q.
Proof.
  intro f. rewrite (qsum_ext _ _ (fun x => qsum (fun d => inject_Z (Z.of_nat (count (bd_items d) x)) * f x) ds)%Q).
  - rewrite qsum_exchange. apply qsum_ext. intros d Hd. apply count_weighted. apply (ds_in d Hd).
  - intros x _. rewrite <- packed_total. unfold packed. rewrite <- qsum_inject, <- qsum_scale. apply qsum_ext. intros d Hd. destruct (ds_in d Hd) as (_ & E & _). rewrite E, Z.mul_1_l. ring.
Qed.

Theorem retrieve_value :
  match in_objective i with
  | OBinPacking => (milp_value m v == inject_Z (zsum bd_copies ds))%Q
  | OVariableSizedBinPacking => (milp_value m v == cost_of i ds)%Q
  | OKnapsack => threshold_resources i -> (forall t r, (t < nb)%nat -> In r (bt_resources (bt t)) -> (0 <= res_penalty r)%Q) ->
      (milp_value m v * mp <= net_profit i ds)%Q
  | _ => True
  end.
Proof.
  destruct model_parts as (c1 & r1 & c2 & r2 & E1 & E2 & Em).
  assert (V : (milp_value m v == qsum (fun c => col_obj c * v (col_var c)) (y_cols i ub) + qsum (fun c => col_obj c * v (col_var c)) (x_cols i ub mp) + qsum (fun c => col_obj c * v (col_var c)) c1)%Q).
  { rewrite Em. unfold milp_value. cbn [m_cols]. rewrite !qsum_app, (value_zero _ _ _ _ E2). ring. }
  assert (Ycost : needs_y i = true -> (qsum (fun c => col_obj c * v (col_var c)) (y_cols i ub) == qsum (fun d => if is_bin_packing i then 1%Q else bt_cost (bt (bd_type d))) ds)%Q).
  { intro Hy. rewrite (bins_type_sum (fun t => if is_bin_packing i then 1%Q else bt_cost (bt t)) Hy). unfold y_cols. rewrite Hy, qsum_flat_map. apply qsum_ext. intros t _. rewrite qsum_map. reflexivity. }
  pose proof x_cols_value as X. unfold needs_y, is_bin_packing, is_knapsack, penalize_model in *. unfold is_knapsack in E1.
  destruct (in_objective i) eqn:Ho; try exact Logic.I.
  - injection E1 as <- <-. rewrite V, X, Ycost by reflexivity. rewrite qsum_nil, (qsum_zero _ _ (seq 0 ni)) by (intros x _; ring). rewrite <- qsum_inject, !Qplus_0_r. apply qsum_ext. intros d Hd. destruct (ds_in d Hd) as (_ & E & _). rewrite E. reflexivity.
  - intros Hth Hpos. rewrite V, X. unfold y_cols, needs_y. rewrite Ho, qsum_nil, Qplus_0_l, Qmult_plus_distr_l.
    assert (B : (qsum (fun c => col_obj c * v (col_var c)) c1 * mp <= - qsum (fun t => qsum (fun k => penalties i (mkBD t 1 (items t k))) (seq 0 (ub_of ub t))) (seq 0 nb))%Q).
    { apply (penalize_all_cost Hth Hpos _ _ _ (fun t Ht => proj2 (proj1 (in_seq nb 0 t) Ht)) E1).
      - intros c Hc. apply (pt_columns _ _ Hv). rewrite Em. cbn [m_cols]. rewrite !in_app_iff. tauto.
      - intros w Hw. apply row_of. exists c1, r1, c2, r2. split; [unfold penalize_model, is_knapsack; rewrite Ho; exact E1|]. split; [exact E2|]. tauto. }
    assert (Pen : (qsum (fun d => penalties i d) ds == qsum (fun t => qsum (fun k => penalties i (mkBD t 1 (items t k))) (seq 0 (ub_of ub t))) (seq 0 nb))%Q).
    { rewrite <- (bins_sum (fun t l => penalties i (mkBD t 1 l))).
      - apply qsum_ext. intros d _. reflexivity.
      - intro t. unfold penalties. cbn [bd_type bd_items]. apply qsum_zero. intros r Hr. destruct (Nat.lt_ge_cases t nb) as [Ht|Ht].
        + assert (Hq : Qltb (res_capacity r) (consumption i r []) = false); [|rewrite Hq, andb_false_r; reflexivity]. apply Qltb_ge. rewrite consumption_nil. apply (sane_res _ (md_sane _ _ Hdom) (bt t) r (nth_In _ _ Ht) Hr).
        + unfold bin_type in Hr. rewrite nth_overflow in Hr by exact Ht. destruct Hr. }
    rewrite (total_profit (fun x => it_profit (it x) / mp)%Q).
    assert (Prof : (qsum (fun d => qsum (fun x => it_profit (it x) / mp) (bd_items d)) ds * mp == qsum (fun d => qsum (fun x => it_profit (it x)) (bd_items d)) ds)%Q).
    { rewrite Qmult_comm, <- qsum_scale. apply qsum_ext. intros d _. rewrite <- qsum_scale. apply qsum_ext. intros x _. field. lra. }
    rewrite Prof.
    assert (Net : (net_profit i ds == qsum (fun d => qsum (fun x => it_profit (it x)) (bd_items d)) ds + (-1) * qsum (fun d => penalties i d) ds)%Q).
    { unfold net_profit. rewrite <- qsum_scale, <- qsum_plus. apply qsum_ext. intros d Hd. destruct (ds_in d Hd) as (_ & E & _). rewrite E. change (inject_Z 1) with 1%Q. ring. }
    rewrite Net, Pen. lra.
  - injection E1 as <- <-. rewrite V, X, Ycost by reflexivity. rewrite qsum_nil, (qsum_zero _ _ (seq 0 ni)) by (intros x _; ring). unfold cost_of. rewrite !Qplus_0_r. apply qsum_ext. intros d Hd. destruct (ds_in d Hd) as (_ & E & _). rewrite E. change (inject_Z 1) with 1%Q. ring.
Qed.

End Retrieve.
