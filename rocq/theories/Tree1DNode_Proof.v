(** * The nodes of the onedimensional branching scheme describe packings *)

From Coq Require Import List ZArith QArith Bool Lia Lqa Arith Permutation.
From Verif Require Import Util Common_Model Common_Spec Common_Proof OneDim_Model OneDim_Spec OneDim_Proof OneDimBuilder_Spec Tree1D_Model Tree1D_Spec Tree1D_Proof.
Import ListNotations.
Open Scope Z_scope.

(** What an insertion is. *)
Lemma insertion_cases : forall i n ins, In ins (insertions i n) ->
  (exists x, ins = (x, None) /\ tn_bins n <> 0%nat /\ In x (bt_item_type_ids (bin_type i (nth (tn_bins n - 1) (ts_bins i) 0%nat))) /\ remains i n x = true /\ same_bin_ok i n x = true)
  \/ (exists x p, ins = (x, Some p) /\ (tn_bins n <= p < length (in_bin_type_ids i))%nat /\ In x (bt_item_type_ids (bin_type i (nth p (ts_bins i) 0%nat))) /\ remains i n x = true /\ new_bin_ok i x p = true).
Proof.
  intros i n ins H. unfold insertions in H. cbv zeta in H.
  assert (G : forall l, (forall p, In p l -> (tn_bins n <= p < length (in_bin_type_ids i))%nat) -> In ins (first_insertions i n l) ->
    exists x p, ins = (x, Some p) /\ (tn_bins n <= p < length (in_bin_type_ids i))%nat /\ In x (bt_item_type_ids (bin_type i (nth p (ts_bins i) 0%nat))) /\ remains i n x = true /\ new_bin_ok i x p = true).
  { induction l as [|p l IH]; intros Hl Hin; [destruct Hin|]. cbn [first_insertions] in Hin. destruct (new_bin_insertions i n p) eqn:E; [apply IH; [intros; apply Hl; right; assumption|exact Hin]|].
    rewrite <- E in Hin. unfold new_bin_insertions in Hin. apply in_map_iff in Hin. destruct Hin as (x & <- & Hf). apply filter_In in Hf. destruct Hf as [Hf1 Hf2]. apply andb_true_iff in Hf2. exists x, p. split; [reflexivity|]. split; [apply Hl; left; reflexivity|]. tauto. }
  assert (Hseq : forall p, In p (seq (tn_bins n) (length (in_bin_type_ids i) - tn_bins n)) -> (tn_bins n <= p < length (in_bin_type_ids i))%nat) by (intros p Hp; apply in_seq in Hp; lia).
  destruct (Nat.eqb_spec (tn_bins n) 0) as [E|E].
  - right. exact (G _ Hseq H).
  - destruct (map (fun x => (x, None)) _) eqn:Em in H; [right; exact (G _ Hseq H)|]. left. rewrite <- Em in H. apply in_map_iff in H. destruct H as (x & <- & Hf). apply filter_In in Hf. destruct Hf as [Hf1 Hf2]. apply andb_true_iff in Hf2. exists x. tauto.
Qed.

Lemma empty_bins_length : forall i m k, length (empty_bins i m k) = k.
Proof. intros. unfold empty_bins. rewrite map_length, seq_length. reflexivity. Qed.

Lemma empty_bins_in : forall i m k d, In d (empty_bins i m k) -> exists p, (m <= p < m + k)%nat /\ d = mkBD (nth p (ts_bins i) 0%nat) 1 [].
Proof. intros i m k d H. unfold empty_bins in H. apply in_map_iff in H. destruct H as (p & <- & Hp). apply in_seq in Hp. exists p. split; [lia|reflexivity]. Qed.

Lemma empty_bins_zsum : forall i (f : BinDesc -> Z) m k, (forall t, f (mkBD t 1 []) = 0) -> zsum f (empty_bins i m k) = 0.
Proof. intros i f m k H. unfold empty_bins. rewrite zsum_map. induction (seq m k) as [|p l IH]; [reflexivity|]. rewrite zsum_cons, IH, H. lia. Qed.

Lemma firstn_seq_nth : forall (l : list nat) n k, (n + k <= length l)%nat -> firstn (n + k) l = firstn n l ++ map (fun p => nth p l 0%nat) (seq n k).
Proof.
  intros l n k. induction k as [|k IH]; intros H; [rewrite Nat.add_0_r; cbn; rewrite app_nil_r; reflexivity|].
  rewrite seq_S, map_app, app_assoc, <- IH by lia. cbn [map]. replace (n + S k)%nat with (S (n + k)) by lia.
  assert (E : nth_error l (n + k) = Some (nth (n + k) l 0%nat)) by (apply nth_error_nth'; lia). rewrite (firstn_succ_snoc _ l (n + k) _ E). reflexivity.
Qed.

Lemma bins_of_snoc : forall n path x nb, bins_of n (path ++ [(x, nb)]) = Nat.max (bins_of n path) nb.
Proof. intros. unfold bins_of. rewrite fold_left_app. reflexivity. Qed.

Section Node.
Variable i : Instance.
Hypothesis Hco : consistent i.
Hypothesis Hsane : sane_instance i.
Hypothesis Hcop : sane_copies i.
Hypothesis Hstack : forall x, (x < length (in_item_types i))%nat -> 1 <= it_stackability (item_type i x).

Lemma root_inv : NodeInv i (root i) [].
Proof.
  constructor; cbn [root tn_path tn_bins tn_copies tn_items tn_item_length tn_current tn_waste tn_profit]; try reflexivity; try (intros d x []; fail); try (intros d []; fail); try lia.
  - left. auto.
  - apply repeat_length.
  - intros x Hx. rewrite nth_repeat. split; [reflexivity|]. apply Hcop.
Qed.

Lemma eligible_in : forall p x, (p < length (ts_bins i))%nat -> In x (bt_item_type_ids (bin_type i (nth p (ts_bins i) 0%nat))) -> (x < length (in_item_types i))%nat /\ is_eligible i x (nth p (ts_bins i) 0%nat).
Proof. intros p x Hp Hx. pose proof (ts_bins_nth i p Hp) as Ht. apply (co_item_type_ids i Hco _ Ht). exact Hx. Qed.

Lemma same_inv : forall n ds x, NodeInv i n ds -> tn_bins n <> 0%nat -> In x (bt_item_type_ids (bin_type i (nth (tn_bins n - 1) (ts_bins i) 0%nat))) -> remains i n x = true -> same_bin_ok i n x = true ->
  exists pre l, ds = pre ++ [mkBD (nth (tn_bins n - 1) (ts_bins i) 0%nat) 1 l] /\ NodeInv i (child i n (x, None)) (pre ++ [mkBD (nth (tn_bins n - 1) (ts_bins i) 0%nat) 1 (l ++ [x])]).
Proof.
  intros n ds x NI Hb Hin Hrem Hok. destruct NI as [N1 N2 N3 N4 N5 N6 N7 N8 N9 N10 N11 N12 N13 N14 N15].
  destruct N9 as [[E _]|(pre & l & Eds & L & Ecur)]; [contradiction|]. exists pre, l. split; [exact Eds|].
  assert (Hp : (tn_bins n - 1 < length (ts_bins i))%nat) by lia. destruct (eligible_in _ x Hp Hin) as [Hx He]. pose proof (ts_bins_nth i _ Hp) as Ht.
  destruct (last_same i Hco Hsane n x l Hp Hx L) as [L' P']. set (t := nth (tn_bins n - 1) (ts_bins i) 0%nat) in *.
  assert (Hin_ds : forall d, In d (pre ++ [mkBD t 1 (l ++ [x])]) -> In d pre \/ d = mkBD t 1 (l ++ [x])) by (intros d Hd; apply in_snoc in Hd; exact Hd).
  assert (Hpre : forall d, In d pre -> In d ds) by (intros d Hd; rewrite Eds; apply in_or_app; left; exact Hd).
  assert (Hlast : In (mkBD t 1 l) ds) by (rewrite Eds; apply in_or_app; right; left; reflexivity).
  constructor; cbn [child tn_path tn_bins tn_copies tn_items tn_item_length tn_current tn_waste tn_last_length].
  - rewrite path_calls_snoc, N2, Nat.sub_diag. cbn [seq map app]. rewrite Nat.max_id, desc_run_app, N1. rewrite Eds. rewrite <- N3, Eds, desc_run_item. reflexivity.
  - rewrite bins_of_snoc, N2. apply Nat.max_id.
  - rewrite <- N3, Eds, !app_length. reflexivity.
  - exact N4.
  - rewrite <- N5, Eds, !map_app. reflexivity.
  - intros d Hd. destruct (Hin_ds d Hd) as [Hd'| ->]; [apply N6, Hpre, Hd'|reflexivity].
  - intros d y Hd Hy. destruct (Hin_ds d Hd) as [Hd'| ->]; [exact (N7 d y (Hpre d Hd') Hy)|]. cbn [bd_items] in Hy. apply in_app_or in Hy. destruct Hy as [Hy|[<-|[]]]; [exact (N7 _ y Hlast Hy)|exact Hx].
  - intros d Hd. destruct (Hin_ds d Hd) as [Hd'| ->]; [apply N8, Hpre, Hd'|]. apply (same_ok i Hco Hsane n t l x Ht Hx He eq_refl L (N8 _ Hlast) Hok).
  - right. exists pre, (l ++ [x]). split; [reflexivity|]. split; [exact L'|]. rewrite bin_end_snoc' by (destruct L; assumption). rewrite (lb_length _ _ _ _ L). lia.
  - rewrite upd_length. exact N10.
  - intros y Hy. rewrite nth_upd by (rewrite N10; exact Hx). destruct (N11 y Hy) as [A B]. rewrite Eds, packed_snoc in A, B. cbn [bd_copies bd_items] in A, B. rewrite packed_snoc. cbn [bd_copies bd_items]. rewrite count_snoc.
    destruct (Nat.eqb_spec x y) as [<-|]; [|split; lia]. unfold remains in Hrem. apply negb_true_iff, Z.eqb_neq in Hrem. split; lia.
  - rewrite N12, Eds, !zsum_snoc. cbn [bd_items]. rewrite app_length. cbn [length]. lia.
  - rewrite N13, Eds, !zsum_snoc. cbn [bd_items]. rewrite zsum_snoc. lia.
  - reflexivity.
  - etransitivity; [exact P'|]. rewrite N15, Eds, !qsum_snoc, !pen_penalties. cbn [bd_items]. rewrite qsum_snoc. ring.
Qed.

Lemma new_inv : forall n ds x p, NodeInv i n ds -> (tn_bins n <= p < length (in_bin_type_ids i))%nat -> In x (bt_item_type_ids (bin_type i (nth p (ts_bins i) 0%nat))) -> remains i n x = true -> new_bin_ok i x p = true ->
  NodeInv i (child i n (x, Some p)) (ds ++ empty_bins i (tn_bins n) (p - tn_bins n) ++ [mkBD (nth p (ts_bins i) 0%nat) 1 [x]]).
Proof.
  intros n ds x p NI Hp0 Hin Hrem Hok. destruct NI as [N1 N2 N3 N4 N5 N6 N7 N8 N9 N10 N11 N12 N13 N14 N15].
  rewrite <- (ts_bins_length i Hco) in Hp0. assert (Hp : (p < length (ts_bins i))%nat) by lia. destruct (eligible_in _ x Hp Hin) as [Hx He]. pose proof (ts_bins_nth i _ Hp) as Ht.
  destruct (last_new i Hco Hsane n x p Hp Hx) as [L' P']. set (t := nth p (ts_bins i) 0%nat) in *. set (m := tn_bins n) in *.
  assert (Hin_ds : forall d, In d (ds ++ empty_bins i m (p - m) ++ [mkBD t 1 [x]]) -> In d ds \/ (exists q, (m <= q < p)%nat /\ d = mkBD (nth q (ts_bins i) 0%nat) 1 []) \/ d = mkBD t 1 [x]).
  { intros d Hd. apply in_app_or in Hd. destruct Hd as [Hd|Hd]; [left; exact Hd|]. apply in_app_or in Hd. destruct Hd as [Hd|[<-|[]]]; [|right; right; reflexivity]. right. left. apply empty_bins_in in Hd. destruct Hd as (q & Hq & ->). exists q. split; [lia|reflexivity]. }
  assert (Hpk : forall y, packed y (ds ++ empty_bins i m (p - m) ++ [mkBD t 1 [x]]) = packed y ds + (if Nat.eqb x y then 1 else 0)).
  { intros y. unfold packed. rewrite !zsum_app, empty_bins_zsum by reflexivity. cbn [bd_copies bd_items]. rewrite zsum_cons, zsum_nil. cbn [bd_copies bd_items count_occ]. destruct (Nat.eqb_spec x y); destruct (Nat.eq_dec x y); try congruence; lia. }
  constructor; cbn [child tn_path tn_bins tn_copies tn_items tn_item_length tn_current tn_waste tn_last_length].
  - rewrite path_calls_snoc, N2. fold m. rewrite desc_run_app, N1, desc_run_app, desc_run_add. replace (S p - m)%nat with (S (p - m)) by lia.
    assert (E : empty_bins i m (S (p - m)) = empty_bins i m (p - m) ++ [mkBD t 1 []]). { unfold empty_bins. rewrite seq_S, map_app. cbn [map]. replace (m + (p - m))%nat with p by lia. reflexivity. }
    rewrite E, !app_assoc. replace (Nat.max m (S p) - 1)%nat with (length ((ds ++ empty_bins i m (p - m)) ++ [mkBD t 1 []]) - 1)%nat by (rewrite !app_length, empty_bins_length, N3; cbn [length]; fold m; lia).
    rewrite desc_run_item. reflexivity.
  - rewrite bins_of_snoc, N2. fold m. lia.
  - rewrite !app_length, empty_bins_length, N3. cbn [length]. fold m. lia.
  - lia.
  - rewrite !map_app, N5. fold m. unfold empty_bins. rewrite map_map. cbn [bd_type map].
    assert (E := firstn_seq_nth (ts_bins i) m (S (p - m)) ltac:(lia)). replace (m + S (p - m))%nat with (S p) in E by lia. rewrite E, seq_S, map_app. cbn [map]. replace (m + (p - m))%nat with p by lia. reflexivity.
  - intros d Hd. destruct (Hin_ds d Hd) as [Hd'|[(q & _ & ->)| ->]]; [apply N6, Hd'|reflexivity|reflexivity].
  - intros d y Hd Hy. destruct (Hin_ds d Hd) as [Hd'|[(q & _ & ->)| ->]]; [exact (N7 d y Hd' Hy)|destruct Hy|]. destruct Hy as [<-|[]]. exact Hx.
  - intros d Hd. destruct (Hin_ds d Hd) as [Hd'|[(q & _ & ->)| ->]]; [apply N8, Hd'|apply empty_ok|]. apply (new_ok i Hco Hsane t x p Ht Hx He (Hstack x Hx) eq_refl Hok).
  - right. exists (ds ++ empty_bins i m (p - m)), [x]. replace (S p - 1)%nat with p by lia. fold t. split; [rewrite app_assoc; reflexivity|]. split; [exact L'|]. rewrite bin_end_one. reflexivity.
  - rewrite upd_length. exact N10.
  - intros y Hy. rewrite nth_upd by (rewrite N10; exact Hx). destruct (N11 y Hy) as [A B]. rewrite Hpk.
    destruct (Nat.eqb_spec x y) as [<-|]; [|split; lia]. unfold remains in Hrem. apply negb_true_iff, Z.eqb_neq in Hrem. split; lia.
  - rewrite N12, !zsum_app, empty_bins_zsum by reflexivity. rewrite zsum_cons, zsum_nil. cbn [bd_items length]. lia.
  - rewrite N13, !zsum_app, empty_bins_zsum by reflexivity. rewrite zsum_cons, zsum_nil. cbn [bd_items]. rewrite zsum_cons, zsum_nil. lia.
  - reflexivity.
  - etransitivity; [exact P'|]. rewrite N15, !qsum_app. rewrite (qsum_zero _ _ (empty_bins i m (p - m))).
    + rewrite qsum_cons. rewrite pen_penalties. cbn [bd_items]. rewrite qsum_cons. cbn. ring.
    + intros d Hd. apply empty_bins_in in Hd. destruct Hd as (q & Hq & ->). rewrite pen_penalties, pen_nil' by (try apply ts_bins_nth; try lia; apply Hsane). cbn. ring.
Qed.

Theorem node_inv : forall n, reachable i n -> exists ds, NodeInv i n ds.
Proof.
  intros n H. induction H as [|m ins H [ds IH] Hins].
  - exists []. apply root_inv.
  - apply insertion_cases in Hins. destruct Hins as [(x & -> & H1 & H2 & H3 & H4)|(x & p & -> & H1 & H2 & H3 & H4)].
    + destruct (same_inv m ds x IH H1 H2 H3 H4) as (pre & l & _ & G). eexists. exact G.
    + eexists. apply (new_inv m ds x p IH H1 H2 H3 H4).
Qed.
End Node.
