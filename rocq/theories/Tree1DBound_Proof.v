(** * Solutions and bounds of the onedimensional branching scheme *)

From Coq Require Import List ZArith QArith Bool Lia Lqa Arith Permutation Sorted.
From Verif Require Import Util Common_Model Common_Spec Common_Proof OneDim_Model OneDim_Spec OneDim_Proof OneDim_Order OneDimBuilder_Spec Tree1D_Model Tree1D_Spec Tree1D_Proof Tree1DNode_Proof.
Import ListNotations.
Open Scope Z_scope.

(** ** The builder calls succeed *)
Lemma sb_run_app : forall i l1 l2 bins, sb_run i bins (l1 ++ l2) = match sb_run i bins l1 with Some b => sb_run i b l2 | None => None end.
Proof.
  intros i l1. induction l1 as [|[t c|p x] l1 IH]; intros l2 bins; [reflexivity| |]; cbn [app sb_run].
  - destruct (sb_add_bin i bins t c); [apply IH|reflexivity].
  - destruct (sb_add_item i bins p x); [apply IH|reflexivity].
Qed.

Lemma sb_run_adds : forall i k m bins, (m + k <= length (ts_bins i))%nat -> exists bins', sb_run i bins (map (fun q => AddBin (nth q (ts_bins i) 0%nat) 1) (seq m k)) = Some bins' /\ length bins' = (length bins + k)%nat.
Proof.
  intros i k. induction k as [|k IH]; intros m bins H; [exists bins; split; [reflexivity|lia]|]. cbn [seq map sb_run]. unfold sb_add_bin.
  assert (Hl := ts_bins_nth i m ltac:(lia)). apply Nat.ltb_lt in Hl. unfold OneDim_Model.in_range. cbn [forallb]. rewrite Hl. cbn [andb]. destruct (IH (S m) (bins ++ [raw_bin (nth m (ts_bins i) 0%nat) 1 []]) ltac:(lia)) as (b' & E & L). exists b'. split; [exact E|]. rewrite L, app_length. cbn [length]. lia.
Qed.

Lemma zsum_zero_all' : forall A (f : A -> Z) l, (forall x, In x l -> f x = 0) -> zsum f l = 0.
Proof. intros A f l. induction l as [|x l IH]; intros H; [reflexivity|]. rewrite zsum_cons, IH, H; [reflexivity|left; reflexivity|intros; apply H; right; assumption]. Qed.

Lemma zsum_list_nth' : forall A (f : A -> Z) l d, zsum (fun k => f (nth k l d)) (seq 0 (length l)) = zsum f l.
Proof.
  intros A f l d. induction l as [|x l IH]; [reflexivity|]. cbn [length seq]. rewrite !zsum_cons. cbn [nth]. rewrite <- seq_shift, zsum_map. cbn [nth]. rewrite IH. reflexivity.
Qed.

Lemma qsum_list_nth' : forall A (f : A -> Q) l d, (qsum (fun k => f (nth k l d)) (seq 0 (length l)) == qsum f l)%Q.
Proof.
  intros A f l d. induction l as [|x l IH]; [reflexivity|]. cbn [length seq]. rewrite !qsum_cons. cbn [nth]. rewrite <- seq_shift, qsum_map. cbn [nth]. rewrite IH. reflexivity.
Qed.

Lemma qsum_pick1 : forall k n (d : Q), (k < n)%nat -> (qsum (fun x => if Nat.eqb k x then d else 0) (seq 0 n) == d)%Q.
Proof.
  intros k n d. revert k. induction n as [|n IH]; intros k H; [lia|]. rewrite seq_S, qsum_snoc. cbn [Nat.add]. destruct (Nat.eqb_spec k n) as [->|Hn].
  - rewrite qsum_zero; [ring|]. intros x Hx. apply in_seq in Hx. destruct (Nat.eqb_spec n x); [lia|reflexivity].
  - rewrite IH by lia. ring.
Qed.

(** Bins in order, in the solution of a node *)
Lemma ss_app : forall A (R : A -> A -> Prop) a b, StronglySorted R (a ++ b) -> StronglySorted R a /\ forall x y, In x a -> In y b -> R x y.
Proof.
  intros A R. induction a as [|z a IH]; intros b H; [split; [constructor|intros x y []]|]. cbn [app] in H. inversion H as [|? ? H1 H2].
  destruct (IH b H1) as [I1 I2]. rewrite Forall_forall in H2. split.
  - constructor; [exact I1|]. apply Forall_forall. intros y Hy. apply H2, in_or_app. left. exact Hy.
  - intros x y [<-|Hx] Hy; [apply H2, in_or_app; right; exact Hy|apply I2; assumption].
Qed.
Lemma ss_map : forall A B (f : A -> B) (R : B -> B -> Prop) l, StronglySorted R (map f l) -> StronglySorted (fun x y => R (f x) (f y)) l.
Proof.
  intros A B f R. induction l as [|a l IH]; intros H; [constructor|]. cbn [map] in H. inversion H as [|? ? H1 H2]. constructor; [apply IH; exact H1|].
  rewrite Forall_forall in *. intros y Hy. apply H2, in_map. exact Hy.
Qed.
Lemma ss_flat_repeat : forall (R : nat -> nat -> Prop) (c : nat -> nat) l, (forall x, R x x) -> StronglySorted R l -> StronglySorted R (flat_map (fun u => repeat u (c u)) l).
Proof.
  intros R c l Hr H. induction H as [|s l _ IH Hf]; [constructor|]. cbn [flat_map].
  assert (G : Forall (R s) (flat_map (fun u => repeat u (c u)) l)).
  { apply Forall_forall. intros t Ht. apply in_flat_map in Ht. destruct Ht as (u & Hu & Ht). apply repeat_spec in Ht. subst t. rewrite Forall_forall in Hf. apply Hf. exact Hu. }
  induction (c s) as [|k IHk]; [exact IH|]. cbn [repeat app]. constructor; [exact IHk|]. apply Forall_app. split; [|exact G]. apply Forall_forall. intros t Ht. apply repeat_spec in Ht. subst t. apply Hr.
Qed.
Lemma insert_bin_sorted : forall j t l, StronglySorted (fun a b => bt_length (bin_type j a) <= bt_length (bin_type j b)) l ->
  StronglySorted (fun a b => bt_length (bin_type j a) <= bt_length (bin_type j b)) (insert_bin j t l).
Proof.
  intros j t. induction l as [|u l IH]; intros H; cbn [insert_bin]; [constructor; [constructor|constructor]|].
  inversion H as [|? ? H1 H2]. destruct (Z.ltb_spec (bt_length (bin_type j t)) (bt_length (bin_type j u))) as [L|L].
  - constructor; [exact H|]. constructor; [lia|]. rewrite Forall_forall in *. intros y Hy. specialize (H2 y Hy). cbv beta in H2. lia.
  - constructor; [apply IH; exact H1|]. rewrite Forall_forall in *. intros y Hy. apply (Permutation_in _ (insert_bin_perm j t l)) in Hy. destruct Hy as [<-|Hy]; [exact L|apply H2; exact Hy].
Qed.
Lemma ts_bins_sorted : forall j, in_objective j = OKnapsack -> StronglySorted (fun a b => bt_length (bin_type j a) <= bt_length (bin_type j b)) (ts_bins j).
Proof.
  intros j Hj. unfold ts_bins. apply ss_flat_repeat; [intros; lia|]. unfold bin_order. rewrite Hj.
  assert (G : forall l acc, StronglySorted (fun a b => bt_length (bin_type j a) <= bt_length (bin_type j b)) acc ->
    StronglySorted (fun a b => bt_length (bin_type j a) <= bt_length (bin_type j b)) (fold_left (fun acc t => insert_bin j t acc) l acc)).
  { induction l as [|t l IH]; intros acc H; [exact H|]. cbn [fold_left]. apply IH, insert_bin_sorted, H. }
  apply G. constructor.
Qed.

Section Sol.
Variable i : Instance.
Hypothesis Hco : consistent i.
Hypothesis Hsane : sane_instance i.
Hypothesis Hcop : sane_copies i.
Hypothesis Hstack : forall x, (x < length (in_item_types i))%nat -> 1 <= it_stackability (item_type i x).

Definition node_ds (n : Node) : list BinDesc := desc_run [] (path_calls i 0 (tn_path n)).

Lemma node_inv' : forall n, reachable i n -> NodeInv i n (node_ds n).
Proof. intros n H. destruct (node_inv i Hco Hsane Hcop Hstack n H) as [ds N]. unfold node_ds. rewrite (ni_ds _ _ _ N). exact N. Qed.

Lemma run_ok : forall n, reachable i n -> exists bins, sb_run i [] (path_calls i 0 (tn_path n)) = Some bins /\ length bins = tn_bins n.
Proof.
  intros n H. induction H as [|m ins H (bins & IH & L) Hins]; [exists []; split; reflexivity|].
  pose proof (node_inv' m H) as N. pose proof (ni_bound _ _ _ N) as Nb. pose proof (ni_path _ _ _ N) as Np.
  apply insertion_cases in Hins. destruct Hins as [(x & -> & H1 & H2 & H3 & H4)|(x & p & -> & H1 & H2 & H3 & H4)]; cbn [child tn_path tn_bins]; rewrite path_calls_snoc, Np, sb_run_app, IH.
  - destruct (eligible_in i Hco (tn_bins m - 1) x ltac:(lia) H2) as [Hx _]. rewrite Nat.sub_diag, Nat.max_id. cbn [seq map app sb_run]. unfold sb_add_item.
    assert (E1 : (tn_bins m - 1 <? length bins)%nat = true) by (apply Nat.ltb_lt; lia). assert (E2 : (x <? length (in_item_types i))%nat = true) by (apply Nat.ltb_lt; exact Hx). rewrite E1, E2. cbn [andb]. eexists. split; [reflexivity|]. rewrite upd_length. exact L.
  - rewrite <- (ts_bins_length i Hco) in H1. destruct (eligible_in i Hco p x ltac:(lia) H2) as [Hx _]. rewrite sb_run_app. destruct (sb_run_adds i (S p - tn_bins m) (tn_bins m) bins ltac:(lia)) as (b' & E & L'). rewrite E. cbn [sb_run]. unfold sb_add_item.
    assert (E1 : (Nat.max (tn_bins m) (S p) - 1 <? length b')%nat = true) by (apply Nat.ltb_lt; lia). assert (E2 : (x <? length (in_item_types i))%nat = true) by (apply Nat.ltb_lt; exact Hx). rewrite E1, E2. cbn [andb]. eexists. split; [reflexivity|]. rewrite upd_length. lia.
Qed.

(** ** Bin copies *)
Lemma used_count : forall t ds, (forall d, In d ds -> bd_copies d = 1) -> used_bins t ds = Z.of_nat (count_occ Nat.eq_dec (map bd_type ds) t).
Proof.
  intros t ds. unfold used_bins. induction ds as [|d ds IH]; intros H; [reflexivity|]. rewrite zsum_cons, IH by (intros; apply H; right; assumption). cbn [map count_occ]. rewrite (H d (or_introl eq_refl)).
  destruct (Nat.eqb_spec (bd_type d) t); destruct (Nat.eq_dec (bd_type d) t); try congruence; lia.
Qed.

Lemma count_firstn_le : forall (l : list nat) k t, (count_occ Nat.eq_dec (firstn k l) t <= count_occ Nat.eq_dec l t)%nat.
Proof. intros l k t. rewrite <- (firstn_skipn k l) at 2. rewrite count_occ_app. lia. Qed.

Lemma count_repeat : forall t u k, count_occ Nat.eq_dec (repeat u k) t = if Nat.eqb u t then k else 0%nat.
Proof. intros t u k. induction k as [|k IH]; [destruct (u =? t)%nat; reflexivity|]. cbn [repeat count_occ]. rewrite IH. destruct (Nat.eqb_spec u t); destruct (Nat.eq_dec u t); congruence. Qed.

Lemma count_flat : forall (c : nat -> nat) t n s, count_occ Nat.eq_dec (flat_map (fun u => repeat u (c u)) (seq s n)) t = if ((s <=? t)%nat && (t <? s + n)%nat)%bool then c t else 0%nat.
Proof.
  intros c t n. induction n as [|n IH]; intros s.
  - cbn [seq flat_map count_occ]. destruct (s <=? t)%nat eqn:E; [|reflexivity]. cbn [andb]. destruct (Nat.ltb_spec t (s + 0)); [apply Nat.leb_le in E; lia|reflexivity].
  - cbn [seq flat_map]. rewrite count_occ_app, count_repeat, IH. destruct (Nat.eqb_spec s t) as [->|Hn].
    + destruct (Nat.leb_spec (S t) t); [lia|]. destruct (Nat.leb_spec t t); [|lia]. destruct (Nat.ltb_spec t (t + S n)); [cbn [andb]; lia|lia].
    + destruct (Nat.leb_spec (S s) t); destruct (Nat.leb_spec s t); try lia; cbn [andb]; try reflexivity. destruct (Nat.ltb_spec t (S s + n)); destruct (Nat.ltb_spec t (s + S n)); lia.
Qed.

Lemma count_perm : forall (l1 l2 : list nat) t, Permutation l1 l2 -> count_occ Nat.eq_dec l1 t = count_occ Nat.eq_dec l2 t.
Proof. intros l1 l2 t H. apply (Permutation_count_occ Nat.eq_dec). exact H. Qed.

Lemma count_ts : forall t, (t < length (in_bin_types i))%nat -> Z.of_nat (count_occ Nat.eq_dec (ts_bins i) t) = bt_copies (bin_type i t).
Proof.
  intros t Ht. rewrite (count_perm _ _ t (ts_bins_perm i)), count_flat. assert (E : (t <? 0 + length (in_bin_types i))%nat = true) by (apply Nat.ltb_lt; exact Ht). rewrite E. cbn [Nat.leb andb]. apply Z2Nat.id. apply Hcop.
Qed.

Theorem node_packing : forall n, reachable i n -> TolPackingOK i (node_ds n).
Proof.
  intros n H. pose proof (node_inv' n H) as N. constructor.
  - apply (ni_ok _ _ _ N).
  - intros x Hx. apply (ni_copies _ _ _ N x Hx).
  - intros t Ht. rewrite used_count by (apply (ni_one _ _ _ N)). rewrite (ni_types _ _ _ N), <- (count_ts t Ht). pose proof (count_firstn_le (ts_bins i) (tn_bins n) t). lia.
Qed.

(** ** Order of the bin types *)
Lemma sorted_flat : forall (c : nat -> nat) n s, StronglySorted le (flat_map (fun u => repeat u (c u)) (seq s n)).
Proof.
  intros c n. induction n as [|n IH]; intros s; [constructor|]. cbn [seq flat_map]. assert (G : Forall (le s) (flat_map (fun u => repeat u (c u)) (seq (S s) n))).
  { apply Forall_forall. intros t Ht. apply in_flat_map in Ht. destruct Ht as (u & Hu & Ht). apply repeat_spec in Ht. apply in_seq in Hu. lia. }
  induction (c s) as [|k IHk]; [apply IH|]. cbn [repeat app]. constructor; [exact IHk|]. apply Forall_app. split; [|exact G]. apply Forall_forall. intros t Ht. apply repeat_spec in Ht. lia.
Qed.

Lemma sorted_app : forall (a b : list nat), StronglySorted le (a ++ b) -> forall x y, In x a -> In y b -> (x <= y)%nat.
Proof.
  induction a as [|z a IH]; intros b H x y Hx Hy; [destruct Hx|]. cbn [app] in H. inversion H as [|? ? H1 H2]. destruct Hx as [<-|Hx]; [|apply (IH b H1 x y Hx Hy)]. rewrite Forall_forall in H2. apply H2. apply in_or_app. right. exact Hy.
Qed.

Lemma node_order : in_objective i <> OKnapsack -> forall n, reachable i n -> OrderOK i (node_ds n).
Proof.
  intros Hobj n H t u Htu Hu. pose proof (node_inv' n H) as N. rewrite used_count in * by (apply (ni_one _ _ _ N)). rewrite (ni_types _ _ _ N) in *.
  rewrite <- (count_ts t) by lia. f_equal. assert (E : count_occ Nat.eq_dec (ts_bins i) t = (count_occ Nat.eq_dec (firstn (tn_bins n) (ts_bins i)) t + count_occ Nat.eq_dec (skipn (tn_bins n) (ts_bins i)) t)%nat) by (rewrite <- count_occ_app, firstn_skipn; reflexivity).
  rewrite E. assert (Z0 : count_occ Nat.eq_dec (skipn (tn_bins n) (ts_bins i)) t = 0%nat); [|lia]. apply count_occ_not_In. intros Hin.
  assert (Hu' : In u (firstn (tn_bins n) (ts_bins i))) by (apply (count_occ_In Nat.eq_dec); lia).
  assert (S0 : StronglySorted le (ts_bins i)). { unfold ts_bins, bin_order. destruct (in_objective i); try congruence; apply sorted_flat. }
  rewrite <- (firstn_skipn (tn_bins n)) in S0. pose proof (sorted_app _ _ S0 u t Hu' Hin). lia.
Qed.

Lemma node_sorted : in_objective i <> OKnapsack -> forall n, reachable i n -> StronglySorted (fun d e => (bd_type d <= bd_type e)%nat) (node_ds n).
Proof.
  intros Hobj n H. pose proof (node_inv' n H) as N. apply (ss_map _ _ bd_type le). rewrite (ni_types _ _ _ N).
  assert (S0 : StronglySorted le (ts_bins i)). { unfold ts_bins, bin_order. destruct (in_objective i); try congruence; apply sorted_flat. }
  rewrite <- (firstn_skipn (tn_bins n)) in S0. apply (ss_app _ _ _ _ S0).
Qed.
Lemma node_sorted_knapsack : in_objective i = OKnapsack -> forall n, reachable i n ->
  StronglySorted (fun d e => bt_length (bin_type i (bd_type d)) <= bt_length (bin_type i (bd_type e))) (node_ds n).
Proof.
  intros Hobj n H. pose proof (node_inv' n H) as N. apply (ss_map _ _ bd_type (fun a b => bt_length (bin_type i a) <= bt_length (bin_type i b))). rewrite (ni_types _ _ _ N).
  pose proof (ts_bins_sorted i Hobj) as S0. rewrite <- (firstn_skipn (tn_bins n)) in S0. apply (ss_app _ _ _ _ S0).
Qed.
Lemma node_order_knapsack : in_objective i = OKnapsack -> forall n, reachable i n -> forall t d, (t < length (in_bin_types i))%nat -> In d (node_ds n) ->
  bt_length (bin_type i t) < bt_length (bin_type i (bd_type d)) -> used_bins t (node_ds n) = bt_copies (bin_type i t).
Proof.
  intros Hobj n H t d Ht Hd Hlt. pose proof (node_inv' n H) as N. rewrite used_count by (apply (ni_one _ _ _ N)). rewrite (ni_types _ _ _ N).
  rewrite <- (count_ts t Ht). f_equal. assert (E : count_occ Nat.eq_dec (ts_bins i) t = (count_occ Nat.eq_dec (firstn (tn_bins n) (ts_bins i)) t + count_occ Nat.eq_dec (skipn (tn_bins n) (ts_bins i)) t)%nat) by (rewrite <- count_occ_app, firstn_skipn; reflexivity).
  rewrite E. assert (Z0 : count_occ Nat.eq_dec (skipn (tn_bins n) (ts_bins i)) t = 0%nat); [|lia]. apply count_occ_not_In. intros Hin.
  assert (Hu' : In (bd_type d) (firstn (tn_bins n) (ts_bins i))) by (rewrite <- (ni_types _ _ _ N); apply in_map; exact Hd).
  pose proof (ts_bins_sorted i Hobj) as S0. rewrite <- (firstn_skipn (tn_bins n)) in S0. pose proof (proj2 (ss_app _ _ _ _ S0) _ _ Hu' Hin) as HR. cbv beta in HR. lia.
Qed.

(** ** Integral instances *)
Lemma int_tol : forall a m, is_int a -> is_int m -> (m < 1000000000)%Q -> (a <= m * PSTOL)%Q -> (a <= m)%Q.
Proof.
  intros a m [za Ea] [zm Em] Hm H. rewrite Ea, Em in *. unfold PSTOL in H. destruct (Z_le_gt_dec za zm) as [Hle|Hgt]; [rewrite <- Zle_Qle; exact Hle|].
  exfalso. assert (G : (inject_Z zm + 1 <= inject_Z za)%Q). { change 1%Q with (inject_Z 1). rewrite <- inject_Z_plus, <- Zle_Qle. lia. } lra.
Qed.

Lemma is_int_qsum : forall A (f : A -> Q) l, (forall x, In x l -> is_int (f x)) -> is_int (qsum f l).
Proof.
  intros A f l. induction l as [|x l IH]; intros H; [exists 0; reflexivity|]. destruct (H x (or_introl eq_refl)) as [z1 E1]. destruct IH as [z2 E2]; [intros; apply H; right; assumption|]. exists (z1 + z2). rewrite qsum_cons, E1, E2, inject_Z_plus. reflexivity.
Qed.

Lemma is_int_compat : forall a b, (a == b)%Q -> is_int a -> is_int b.
Proof. intros a b H [z E]. exists z. rewrite <- H. exact E. Qed.

Lemma within_int : forall a m, is_int a -> small_int m -> within_tol a m -> within a m.
Proof. intros a [m|] Ha Hm H; [|exact I]. destruct Hm. apply int_tol; assumption. Qed.

Lemma prefall_mono : forall (P R : list nat -> nat -> Prop) l, (forall p x, In x l -> P p x -> R p x) -> PrefAll P l -> PrefAll R l.
Proof. intros P R l H1 H2. intros a x b E. apply H1; [rewrite E; apply in_or_app; right; left; reflexivity|]. apply (H2 a x b E). Qed.

Lemma is_int_consumption : integral i -> forall t r l, (t < length (in_bin_types i))%nat -> In r (bt_resources (bin_type i t)) -> is_int (consumption i r l).
Proof.
  intros Hint t r l Ht Hr. unfold consumption. apply is_int_qsum. intros x _.
  assert (Hbt : In (bin_type i t) (in_bin_types i)) by (apply nth_In; exact Ht). destruct (ig_resources i Hint _ r Hbt Hr) as (_ & _ & G).
  assert (Hs : forall k, is_int (nth k (schedule r x) (last (schedule r x) 0%Q))).
  { intros k. unfold schedule. destruct (nth_in_or_default x (res_item_consumptions r) []) as [Hs|Hs].
    - set (s := nth x (res_item_consumptions r) []) in *. assert (Hl : is_int (last s 0%Q)).
      { destruct (exists_last_or_nil _ s) as [E|(s0 & q & E)]; rewrite E; [exists 0; reflexivity|]. rewrite last_last. apply (G s q Hs). rewrite E. apply in_or_app. right. left. reflexivity. }
      destruct (nth_in_or_default k s (last s 0%Q)) as [Hk|Hk]; [exact (G s _ Hs Hk)|rewrite Hk; exact Hl].
    - rewrite Hs. exists 0. destruct k; reflexivity. }
  induction (count_occ Nat.eq_dec l x) as [|k IH]; [exists 0; reflexivity|]. cbn [schedule_total]. destruct IH as [z1 E1]. destruct (Hs k) as [z2 E2]. exists (z1 + z2). rewrite E1, E2, inject_Z_plus. reflexivity.
Qed.

Lemma integral_bin : integral i -> forall d, (bd_type d < length (in_bin_types i))%nat -> TolBinOK i d -> BinOK i d.
Proof.
  intros Hint d Ht [T1 T2 T3 T4 T5 T6]. assert (Hw : forall l, is_int (total_weight i l)) by (intros l; apply is_int_qsum; intros x _; apply (ig_weight i Hint)).
  constructor; try assumption.
  - apply (prefall_mono _ _ _ (fun p x _ H => within_int _ _ (Hw (p ++ [x])) (ig_max_weight i Hint _) H) T2).
  - intros a x m b E. assert (G := T4 a x (m ++ b) E). apply within_int in G; [|apply Hw|apply (ig_weight_after i Hint)].
    destruct (it_max_weight_after (item_type i x)) as [w|]; [|exact I]. cbn [within] in *. unfold total_weight in *. rewrite qsum_app in G. assert (0 <= qsum (fun y => it_weight (item_type i y)) b)%Q; [|lra]. apply qsum_nonneg. intros y _. apply (sane_items i Hsane).
  - intros r Hr Hpen. refine (prefall_mono _ _ _ _ (T6 r Hr Hpen)). intros p x _ H Hs. specialize (H Hs).
    assert (Hbt : In (bin_type i (bd_type d)) (in_bin_types i)) by (apply nth_In; exact Ht). destruct (ig_resources i Hint _ r Hbt Hr) as (G1 & G2 & _). apply int_tol; try assumption. apply (is_int_consumption Hint (bd_type d) r _ Ht Hr).
Qed.

(** ** The solution of a node *)
Lemma node_solution : forall cb n, reachable i n -> exists bins, sb_run i [] (path_calls i 0 (tn_path n)) = Some bins
  /\ view (sb_build i cb bins) = node_ds n /\ FullInv i cb (sb_build i cb bins)
  /\ (node_ds n <> [] -> (c_bin_type_order_ok (s_core (sb_build i cb bins)) = true <-> (in_objective i = OBinPacking -> OrderOK i (node_ds n))))
  /\ (node_ds n = [] -> bins = []).
Proof.
  intros cb n H. pose proof (node_inv' n H) as N. destruct (run_ok n H) as (bins & E & L). exists bins. split; [exact E|].
  destruct (sb_run_spec i (path_calls i 0 (tn_path n)) [] bins E) as [V1 V2]; [intros b []|]. simpl in V1. change (map view_bin bins = node_ds n) in V1.
  assert (Hb : forall b, In b bins -> desc_ok i (view_bin b) /\ (sb_weight b == 0)%Q).
  { intros b Hb. destruct (V2 b Hb) as (R1 & R2 & R3). split; [|exact R3]. split; [exact R1|]. split; [exact R2|]. rewrite (ni_one _ _ _ N (view_bin b)); [lia|]. rewrite <- V1. apply in_map. exact Hb. }
  destruct (build_full i cb (co_resource_ids i Hco) bins Hb) as [F1 F2]. rewrite V1 in F2. split; [exact F2|]. split; [exact F1|]. split.
  - intros Hne. assert (Hh : history i cb (path_calls i 0 (tn_path n)) [] = Some (sb_build i cb bins)) by (unfold history; rewrite E; reflexivity).
    rewrite <- F2 in Hne |- *. apply (history_order_build i cb (path_calls i 0 (tn_path n)) _ (co_resource_ids i Hco)); [|exact Hh|exact Hne]. split; [|intros c []]. intros d Hd. change (In d (node_ds n)) in Hd. rewrite (ni_one _ _ _ N d Hd). lia.
  - intros E0. rewrite E0 in V1. destruct bins; [reflexivity|discriminate].
Qed.

Lemma ds_type : forall n, reachable i n -> forall d, In d (node_ds n) -> (bd_type d < length (in_bin_types i))%nat.
Proof.
  intros n H d Hd. pose proof (node_inv' n H) as N. apply ts_bins_range. rewrite <- (firstn_skipn (tn_bins n) (ts_bins i)). apply in_or_app. left. rewrite <- (ni_types _ _ _ N). apply in_map. exact Hd.
Qed.

Theorem node_exact : forall cb n, integral i -> reachable i n -> exists s, to_solution i cb n = Some s /\ view s = node_ds n
  /\ (forall d, In d (node_ds n) -> BinOK i d)
  /\ (s_feasible s = true <-> (forall x, (x < length (in_item_types i))%nat -> it_copies_min (item_type i x) <= packed x (node_ds n)) /\ s_callback_ok s = true).
Proof.
  intros cb n Hint H. pose proof (node_inv' n H) as N. destruct (node_solution cb n H) as (bins & E & V & F & O1 & O2).
  assert (B : forall d, In d (node_ds n) -> BinOK i d) by (intros d Hd; apply (integral_bin Hint); [apply (ds_type n H d Hd)|apply (ni_ok _ _ _ N d Hd)]).
  assert (C : forall d x, In d (node_ds n) -> In x (bd_items d) -> packed x (node_ds n) <= it_copies (item_type i x)) by (intros d x Hd Hx; apply (ni_copies _ _ _ N x); apply (ni_range _ _ _ N d x Hd Hx)).
  exists (sb_build i cb bins). split; [|split; [exact V|split; [exact B|]]].
  - unfold to_solution. rewrite E. cbv zeta. pose proof (fi_core _ _ _ F) as K. rewrite V in K.
    assert (E1 : c_item_copies_ok (s_core (sb_build i cb bins)) = true) by (apply (ci_copies _ _ _ K); intros d Hd x Hx; apply (C d x Hd Hx)).
    assert (E2 : c_capacity_ok (s_core (sb_build i cb bins)) = true) by (apply (ci_cap _ _ _ K); intros d Hd; apply (B d Hd)).
    assert (E3 : c_weight_ok (s_core (sb_build i cb bins)) = true) by (apply (ci_weight _ _ _ K); intros d Hd; apply (B d Hd)).
    assert (E4 : c_stackability_ok (s_core (sb_build i cb bins)) = true) by (apply (ci_stack _ _ _ K); intros d Hd; apply (B d Hd)).
    assert (E5 : c_max_weight_after_ok (s_core (sb_build i cb bins)) = true) by (apply (ci_mwa _ _ _ K); intros d Hd; apply (B d Hd)).
    assert (E6 : c_resource_ok (s_core (sb_build i cb bins)) = true) by (apply (ci_res _ _ _ K); intros d Hd; apply (B d Hd)).
    assert (E7 : c_eligibility_ok (s_core (sb_build i cb bins)) = true) by (apply (ci_elig _ _ _ K); intros d Hd; apply (B d Hd)).
    assert (E8 : c_bin_type_order_ok (s_core (sb_build i cb bins)) = true).
    { destruct (node_ds n) as [|d0 ds0] eqn:E0; [rewrite (O2 eq_refl); reflexivity|]. apply O1; [discriminate|]. intros Ho. rewrite <- E0. apply node_order; [congruence|exact H]. }
    rewrite E1, E2, E3, E4, E5, E6, E7, E8. reflexivity.
  - rewrite (fi_feasible _ _ _ F), V. split; [intros [P Q]; split; [apply (ok_copies_min _ _ P)|exact Q]|]. intros [P Q]. split; [|exact Q]. constructor; assumption.
Qed.

(** ** The values of a node are those of its solution *)
Lemma ts_previous_types : forall k, ts_previous i k = zsum (fun t => bt_length (bin_type i t)) (firstn k (ts_bins i)).
Proof. reflexivity. Qed.

Lemma node_length : forall n l, reachable i n -> length_is i (node_ds n) l -> l = tn_current n.
Proof.
  intros n l H Hl. pose proof (node_inv' n H) as N. destruct (ni_last _ _ _ N) as [(E1 & E2 & E3)|(pre & it & Eds & L & Ec)].
  - rewrite E2 in Hl. rewrite E3. destruct Hl as [[Hl _]|(p & d & q & E & _)]; [exact Hl|destruct p; discriminate].
  - destruct Hl as [[_ Hl]|(p & d & q & E & Hne & Hq & ->)].
    { exfalso. apply (lb_nonempty _ _ _ _ L). apply (Hl (mkBD (nth (tn_bins n - 1) (ts_bins i) 0%nat) 1 it)). rewrite Eds. apply in_or_app. right. left. reflexivity. }
    assert (q = []) as ->.
    { destruct (exists_last_or_nil _ q) as [->|(q0 & e & ->)]; [reflexivity|]. exfalso. apply (lb_nonempty _ _ _ _ L). rewrite Eds, app_comm_cons, app_assoc in E. apply app_inj_tail in E. destruct E as [_ E]. change it with (bd_items (mkBD (nth (tn_bins n - 1) (ts_bins i) 0%nat) 1 it)). rewrite E. apply Hq. apply in_or_app. right. left. reflexivity. }
    rewrite Eds in E. apply app_inj_tail in E. destruct E as [<- <-]. rewrite zsum_snoc, Ec. cbn [bd_copies bd_type bd_items].
    assert (T : map bd_type pre = firstn (tn_bins n - 1) (ts_bins i)).
    { pose proof (ni_types _ _ _ N) as T. rewrite Eds, map_app in T. pose proof (ni_len _ _ _ N) as Ln. rewrite Eds, app_length in Ln. cbn [length] in Ln. assert (G := f_equal (firstn (length pre)) T). rewrite firstn_app, map_length, Nat.sub_diag, firstn_O, app_nil_r, firstn_all2 in G by (rewrite map_length; lia). rewrite G, firstn_firstn. f_equal. lia. }
    rewrite ts_previous_types, <- T, zsum_map. assert (zsum (fun d => bd_copies d * bt_length (bin_type i (bd_type d))) pre = zsum (fun d => bt_length (bin_type i (bd_type d))) pre); [|lia].
    apply zsum_ext. intros d Hd. rewrite (ni_one _ _ _ N d); [lia|]. rewrite Eds. apply in_or_app. left. exact Hd.
Qed.

Theorem node_values : forall cb n bins, reachable i n -> sb_run i [] (path_calls i 0 (tn_path n)) = Some bins ->
  let c := s_core (sb_build i cb bins) in
  c_number_of_bins c = Z.of_nat (tn_bins n) /\ c_number_of_items c = tn_items n /\ c_item_length c = tn_item_length n
  /\ (c_item_profit c == tn_profit n)%Q /\ c_length c = tn_current n /\ tn_waste n = c_length c - c_item_length c
  /\ (forall x, (x < length (in_item_types i))%nat -> nth x (c_item_copies c) 0 = nth x (tn_copies n) 0).
Proof.
  intros cb n bins H E c. pose proof (node_inv' n H) as N. destruct (node_solution cb n H) as (bins' & E' & V & F & _). rewrite E in E'. injection E' as <-.
  pose proof (ci_ind _ _ _ (fi_core _ _ _ F)) as I0. rewrite V in I0. fold c in I0.
  assert (One : forall (f : BinDesc -> Z), zsum (fun d => bd_copies d * f d) (node_ds n) = zsum f (node_ds n)) by (intros f; apply zsum_ext; intros d Hd; rewrite (ni_one _ _ _ N d Hd); lia).
  assert (A1 : c_item_length c = tn_item_length n) by (rewrite (ind_item_length _ _ _ I0), (ni_item_length _ _ _ N); apply One).
  assert (A2 : c_length c = tn_current n) by (apply (node_length n _ H), (ind_length _ _ _ I0)).
  repeat apply conj.
  - rewrite (ind_bins _ _ _ I0), <- (ni_len _ _ _ N). assert (One1 := One (fun _ => 1)). assert (G : zsum bd_copies (node_ds n) = zsum (fun d => bd_copies d * 1) (node_ds n)) by (apply zsum_ext; intros; lia). rewrite G, One1. clear. induction (node_ds n) as [|d l IH]; [reflexivity|]. rewrite zsum_cons, IH. cbn [length]. lia.
  - rewrite (ind_items _ _ _ I0), (ni_items _ _ _ N). apply One.
  - exact A1.
  - rewrite (ind_profit _ _ _ I0 (sane_res i Hsane)), (ni_profit _ _ _ N). apply qsum_ext. intros d Hd. rewrite (ni_one _ _ _ N d Hd). change (inject_Z 1) with 1%Q. ring.
  - exact A2.
  - rewrite A1, A2. apply (ni_waste _ _ _ N).
  - intros x Hx. rewrite (ind_item_copies _ _ _ I0 x Hx). symmetry. apply (ni_copies _ _ _ N x Hx).
Qed.

(** ** Depth *)
Lemma path_items : forall n, reachable i n -> Z.of_nat (length (tn_path n)) = tn_items n.
Proof. intros n H. induction H as [|m [x [p|]] H IH Hins]; [reflexivity| |]; cbn [child tn_path tn_items]; rewrite app_length; cbn [length]; lia. Qed.

Lemma zsum_pick : forall k d n s, zsum (fun x => if Nat.eqb k x then d else 0) (seq s n) = if ((s <=? k)%nat && (k <? s + n)%nat)%bool then d else 0.
Proof.
  intros k d n. induction n as [|n IH]; intros s.
  - cbn [seq]. rewrite zsum_nil. destruct (Nat.leb_spec s k); cbn [andb]; [|reflexivity]. destruct (Nat.ltb_spec k (s + 0)); [lia|reflexivity].
  - cbn [seq]. rewrite zsum_cons, IH. destruct (Nat.eqb_spec k s) as [->|Hn].
    + destruct (Nat.leb_spec (S s) s); [lia|]. destruct (Nat.leb_spec s s); [|lia]. destruct (Nat.ltb_spec s (s + S n)); cbn [andb]; lia.
    + destruct (Nat.leb_spec (S s) k); destruct (Nat.leb_spec s k); try lia; cbn [andb]; try lia. destruct (Nat.ltb_spec k (S s + n)); destruct (Nat.ltb_spec k (s + S n)); lia.
Qed.

Lemma bump : forall (c : nat -> Z) l x, (x < length l)%nat -> zsum (fun y => nth y (upd x (fun v => v + 1) l) 0 * c y) (seq 0 (length l)) = zsum (fun y => nth y l 0 * c y) (seq 0 (length l)) + c x.
Proof.
  intros c l x Hx. rewrite (zsum_ext _ _ (fun y => nth y l 0 * c y + (if Nat.eqb x y then c x else 0))).
  - rewrite zsum_plus, zsum_pick. assert (E : (x <? 0 + length l)%nat = true) by (apply Nat.ltb_lt; exact Hx). rewrite E. cbn [Nat.leb andb]. reflexivity.
  - intros y _. rewrite nth_upd by exact Hx. destruct (Nat.eqb_spec x y) as [<-|]; lia.
Qed.

Lemma items_by_type : forall n, reachable i n -> tn_items n = zsum (fun x => nth x (tn_copies n) 0 * 1) (seq 0 (length (tn_copies n)))
  /\ tn_item_length n = zsum (fun x => nth x (tn_copies n) 0 * it_length (item_type i x)) (seq 0 (length (tn_copies n))).
Proof.
  intros n H. induction H as [|m ins H [IH1 IH2] Hins].
  - cbn [root tn_items tn_item_length tn_copies]. split; symmetry; apply zsum_zero_all'; intros x _; rewrite nth_repeat; lia.
  - assert (Hx : (fst ins < length (tn_copies m))%nat).
    { pose proof (node_inv' m H) as N. rewrite (ni_copies_len _ _ _ N). pose proof (ni_bound _ _ _ N). apply insertion_cases in Hins. rewrite <- (ts_bins_length i Hco) in Hins. destruct Hins as [(x & -> & H1 & H2 & _)|(x & p & -> & H1 & H2 & _)]; cbn [fst]; [apply (eligible_in i Hco (tn_bins m - 1) x)|apply (eligible_in i Hco p x)]; try assumption; lia. }
    assert (E : tn_copies (child i m ins) = upd (fst ins) (fun c => c + 1) (tn_copies m) /\ tn_items (child i m ins) = tn_items m + 1 /\ tn_item_length (child i m ins) = tn_item_length m + it_length (item_type i (fst ins))) by (destruct ins as [x [p|]]; repeat split).
    destruct E as (-> & -> & ->). rewrite upd_length, !bump by exact Hx. lia.
Qed.

Lemma copies_le : forall n, reachable i n -> forall x, (x < length (in_item_types i))%nat -> 0 <= nth x (tn_copies n) 0 <= it_copies (item_type i x).
Proof.
  intros n H x Hx. pose proof (node_inv' n H) as N. destruct (ni_copies _ _ _ N x Hx) as [-> B]. split; [|exact B]. unfold packed. apply zsum_nonneg. intros d Hd. rewrite (ni_one _ _ _ N d Hd). lia.
Qed.

Lemma total_items : in_number_of_items i = zsum (fun x => it_copies (item_type i x) * 1) (seq 0 (length (in_item_types i))).
Proof. rewrite (co_number_of_items i Hco). rewrite <- (zsum_list_nth' _ it_copies (in_item_types i) dummy_item). apply zsum_ext. intros. unfold item_type. lia. Qed.

Lemma total_length : in_item_length i = zsum (fun x => it_copies (item_type i x) * it_length (item_type i x)) (seq 0 (length (in_item_types i))).
Proof. rewrite (co_item_length i Hco). rewrite <- (zsum_list_nth' _ (fun t => it_copies t * it_length t) (in_item_types i) dummy_item). reflexivity. Qed.

Theorem node_depth : forall n, reachable i n -> Z.of_nat (length (tn_path n)) <= in_number_of_items i.
Proof.
  intros n H. rewrite (path_items n H). destruct (items_by_type n H) as [E _]. rewrite E, total_items, (ni_copies_len _ _ _ (node_inv' n H)). apply zsum_le. intros x Hx. apply in_seq in Hx. pose proof (copies_le n H x ltac:(lia)). lia.
Qed.

Lemma leaf_copies : forall n, reachable i n -> leaf i n = true -> forall x, (x < length (in_item_types i))%nat -> nth x (tn_copies n) 0 = it_copies (item_type i x).
Proof.
  intros n H Hl x Hx. unfold leaf in Hl. apply Z.eqb_eq in Hl. destruct (items_by_type n H) as [E _]. rewrite Hl, total_items, (ni_copies_len _ _ _ (node_inv' n H)) in E.
  pose proof (copies_le n H x Hx). destruct (Z.eq_dec (nth x (tn_copies n) 0) (it_copies (item_type i x))) as [?|Hne]; [assumption|exfalso].
  assert (G : zsum (fun y => nth y (tn_copies n) 0 * 1 + (if Nat.eqb x y then 1 else 0)) (seq 0 (length (in_item_types i))) <= zsum (fun y => it_copies (item_type i y) * 1) (seq 0 (length (in_item_types i)))).
  { apply zsum_le. intros y Hy. apply in_seq in Hy. pose proof (copies_le n H y ltac:(lia)). destruct (Nat.eqb_spec x y) as [<-|]; lia. }
  rewrite zsum_plus, zsum_pick in G. assert (E1 : (x <? 0 + length (in_item_types i))%nat = true) by (apply Nat.ltb_lt; exact Hx). rewrite E1 in G. cbn [Nat.leb andb] in G. lia.
Qed.

Lemma leaf_length : forall n, reachable i n -> leaf i n = true -> tn_item_length n = in_item_length i.
Proof.
  intros n H Hl. destruct (items_by_type n H) as [_ E]. rewrite E, total_length, (ni_copies_len _ _ _ (node_inv' n H)). apply zsum_ext. intros x Hx. apply in_seq in Hx. rewrite (leaf_copies n H Hl x) by lia. reflexivity.
Qed.

(** ** The current length *)
Lemma ts_previous_mono : forall k j, (k <= j)%nat -> ts_previous i k <= ts_previous i j.
Proof.
  intros k j Hkj. unfold ts_previous. replace j with (k + (j - k))%nat by lia. rewrite <- (firstn_skipn k (firstn (k + (j - k)) (ts_bins i))), firstn_firstn, Nat.min_l by lia. rewrite zsum_app.
  assert (0 <= zsum (fun t => bt_length (bin_type i t)) (skipn k (firstn (k + (j - k)) (ts_bins i)))); [|lia]. apply zsum_nonneg. intros t _. apply (sane_bins i Hsane).
Qed.

Lemma ts_previous_total : forall k, ts_previous i k <= in_bin_length i.
Proof.
  intros k. assert (G : ts_previous i (Nat.max k (length (ts_bins i))) = in_bin_length i).
  { unfold ts_previous. rewrite firstn_all2 by lia. rewrite (zsum_perm _ _ _ _ (ts_bins_perm i)), (co_bin_length i Hco), zsum_flat_map. rewrite <- (zsum_list_nth' _ (fun t => bt_copies t * bt_length t) (in_bin_types i) dummy_bin). apply zsum_ext. intros t _. rewrite zsum_repeat. unfold bin_type. rewrite Z2Nat.id; [reflexivity|]. apply Hcop. }
  rewrite <- G. apply ts_previous_mono. lia.
Qed.

Lemma current_le : forall n, reachable i n -> 0 <= tn_current n /\ tn_current n <= ts_previous i (tn_bins n).
Proof.
  intros n H. pose proof (node_inv' n H) as N. destruct (ni_last _ _ _ N) as [(E1 & E2 & ->)|(pre & l & Eds & L & ->)].
  - rewrite E1. unfold ts_previous. cbn. lia.
  - assert (Hd : In (mkBD (nth (tn_bins n - 1) (ts_bins i) 0%nat) 1 l) (node_ds n)) by (rewrite Eds; apply in_or_app; right; left; reflexivity).
    assert (T := tb_length _ _ (ni_ok _ _ _ N _ Hd)). cbn [bd_items bd_type] in T.
    assert (Hne : tn_bins n <> 0%nat). { rewrite <- (ni_len _ _ _ N), Eds, app_length. cbn. lia. }
    pose proof (ni_bound _ _ _ N) as Nb.
    assert (Hs : ts_previous i (tn_bins n) = ts_previous i (tn_bins n - 1) + bt_length (bin_type i (nth (tn_bins n - 1) (ts_bins i) 0%nat))).
    { unfold ts_previous. replace (tn_bins n) with (S (tn_bins n - 1)) at 1 by lia. assert (E : nth_error (ts_bins i) (tn_bins n - 1) = Some (nth (tn_bins n - 1) (ts_bins i) 0%nat)) by (apply nth_error_nth'; lia). rewrite (firstn_succ_snoc _ _ _ _ E), zsum_snoc. reflexivity. }
    assert (P0 : 0 <= ts_previous i (tn_bins n - 1)) by (unfold ts_previous; apply zsum_nonneg; intros t _; apply (sane_bins i Hsane)).
    destruct (exists_last_or_nil _ l) as [E|(l0 & x & E)]; [destruct (lb_nonempty _ _ _ _ L E)|]. specialize (T l0 x [] E). cbv beta in T. subst l.
    assert (Eb : bin_end i (l0 ++ [x]) = start_of i l0 x + it_length (item_type i x)).
    { unfold start_of. destruct l0 as [|y l0]; [cbn [app]; rewrite bin_end_one; reflexivity|]. rewrite bin_end_snoc' by discriminate. lia. }
    split; [|lia]. assert (B0 : 0 <= bin_end i (l0 ++ [x])); [|lia]. unfold bin_end. destruct (l0 ++ [x]) as [|y l1]; [cbn; lia|]. cbn [tl]. rewrite zsum_cons. assert (zsum (fun z => it_nesting (item_type i z)) l1 <= zsum (fun z => it_length (item_type i z)) l1) by (apply zsum_le; intros z _; apply (sane_items i Hsane)). pose proof (proj1 (sane_items i Hsane y)). lia.
Qed.

(** ** Without nesting, the waste and the bins of the nodes below never decrease *)
Hypothesis Hnest : forall x, it_nesting (item_type i x) = 0.

Lemma below_reachable : forall n m, reachable i n -> below i n m -> reachable i m.
Proof. intros n m H B. induction B as [|m ins B IH Hins]; [exact H|]. apply below_child; [exact IH|exact Hins]. Qed.

Lemma waste_step : forall n ins, reachable i n -> In ins (insertions i n) -> tn_waste n <= tn_waste (child i n ins).
Proof.
  intros n ins H Hins. pose proof (node_inv' n H) as N. rewrite (ni_waste _ _ _ N). apply insertion_cases in Hins. destruct Hins as [(x & -> & H1 & H2 & H3 & H4)|(x & p & -> & H1 & H2 & H3 & H4)]; cbn [child tn_waste].
  - destruct (ni_last _ _ _ N) as [(E & _)|(pre & l & Eds & L & ->)]; [contradiction|]. rewrite (lb_length _ _ _ _ L), Hnest. lia.
  - destruct (current_le n H) as [_ G]. pose proof (ts_previous_mono (tn_bins n) p ltac:(lia)). lia.
Qed.

Lemma waste_below : forall n m, reachable i n -> below i n m -> tn_waste n <= tn_waste m.
Proof.
  intros n m H B. induction B as [|m ins B IH Hins]; [lia|]. pose proof (waste_step m ins (below_reachable n m H B) Hins). lia.
Qed.

Lemma bins_needed_spec : forall bins k a, bins_needed i bins k a = match bins_needed i bins 0 a with None => None | Some j => Some (k + j)%nat end.
Proof.
  induction bins as [|t bins IH]; intros k a; cbn [bins_needed]; destruct (a <=? 0); try (rewrite Nat.add_0_r; reflexivity); [reflexivity|].
  rewrite (IH (S k)), (IH 1%nat). destruct (bins_needed i bins 0 _); [|reflexivity]. f_equal. lia.
Qed.

(** [bins_needed] is the smallest number of bins of total length at least [a]. *)
Lemma bins_needed_min : forall bins a j, (j <= length bins)%nat -> a <= zsum (fun t => bt_length (bin_type i t)) (firstn j bins) -> exists k, bins_needed i bins 0 a = Some k /\ (k <= j)%nat.
Proof.
  induction bins as [|t bins IH]; intros a j Hj H; cbn [bins_needed]; destruct (Z.leb_spec a 0) as [Ha|Ha]; try (exists 0%nat; split; [reflexivity|lia]).
  - exfalso. destruct j; [|cbn in Hj; lia]. cbn in H. lia.
  - destruct j as [|j]; [cbn in H; lia|]. cbn [firstn length] in *. rewrite zsum_cons in H. destruct (IH (a - bt_length (bin_type i t)) j ltac:(lia) ltac:(lia)) as (k & E & Hk). exists (S k). rewrite bins_needed_spec, E. split; [reflexivity|lia].
Qed.

Lemma bins_bound : forall n m, reachable i n -> below i n m -> leaf i m = true -> exists k, bins_needed i (ts_bins i) 0 (in_item_length i + tn_waste n) = Some k /\ (k <= tn_bins m)%nat.
Proof.
  intros n m H B Hl. pose proof (below_reachable n m H B) as Hm. pose proof (node_inv' m Hm) as N. apply bins_needed_min; [apply (ni_bound _ _ _ N)|]. pose proof (waste_below n m H B) as W. pose proof (ni_waste _ _ _ N) as W2. rewrite (leaf_length m Hm Hl) in W2. destruct (current_le m Hm) as [_ C]. unfold ts_previous in C. lia.
Qed.

(** ** Profit *)
Hypothesis Hprofit : forall x, (0 <= it_profit (item_type i x))%Q.
Hypothesis Hpenalty : forall t r, In r (bt_resources (bin_type i t)) -> (0 <= res_penalty r)%Q.

Lemma fold_profit : forall (step : list Q * Q -> nat -> list Q * Q), (forall st r, (snd (step st r) <= snd st)%Q) -> forall l st, (snd (fold_left step l st) <= snd st)%Q.
Proof. intros step Hs l. induction l as [|r l IH]; intros st; cbn [fold_left]; [lra|]. specialize (IH (step st r)). specialize (Hs st r). lra. Qed.

Lemma penalty_nth : forall t r, (0 <= res_penalty (nth r (bt_resources (bin_type i t)) dummy_resource))%Q.
Proof. intros t r. destruct (nth_in_or_default r (bt_resources (bin_type i t)) dummy_resource) as [Hr|Hr]; [apply (Hpenalty t _ Hr)|rewrite Hr; cbn; lra]. Qed.

Lemma profit_step : forall n ins, (tn_profit (child i n ins) <= tn_profit n + it_profit (item_type i (fst ins)))%Q.
Proof.
  intros n [x [p|]]; cbn [child tn_profit fst].
  - destruct (_ =? 0)%nat; [lra|]. refine (Qle_trans _ _ _ (fold_profit _ _ _ _) _); [|cbn [snd]; lra]. intros st r. unfold new_resource_step. cbv zeta. cbn [snd]. pose proof (penalty_nth (nth p (ts_bins i) 0%nat) r). destruct (_ && _); lra.
  - destruct (_ =? 0)%nat; [lra|]. refine (Qle_trans _ _ _ (fold_profit _ _ _ _) _); [|cbn [snd]; lra]. intros st r. unfold same_resource_step. cbv zeta. cbn [snd]. pose proof (penalty_nth (nth (tn_bins n - 1) (ts_bins i) 0%nat) r). destruct (_ && _); lra.
Qed.

Lemma insertion_range : forall n ins, reachable i n -> In ins (insertions i n) -> (fst ins < length (in_item_types i))%nat.
Proof.
  intros m ins H Hins. pose proof (node_inv' m H) as N. pose proof (ni_bound _ _ _ N). apply insertion_cases in Hins. rewrite <- (ts_bins_length i Hco) in Hins. destruct Hins as [(x & -> & H1 & H2 & _)|(x & p & -> & H1 & H2 & _)]; cbn [fst]; [apply (eligible_in i Hco (tn_bins m - 1) x)|apply (eligible_in i Hco p x)]; try assumption; lia.
Qed.

Lemma profit_total : forall n, reachable i n -> (tn_profit n <= qsum (fun x => inject_Z (nth x (tn_copies n) 0%Z) * it_profit (item_type i x)) (seq 0 (length (in_item_types i))))%Q.
Proof.
  intros n H. induction H as [|m ins H IH Hins].
  - cbn [root tn_profit tn_copies]. apply qsum_nonneg. intros x _. rewrite nth_repeat. change (inject_Z 0) with 0%Q. lra.
  - pose proof (profit_step m ins) as S1. pose proof (insertion_range m ins H Hins) as Hx. pose proof (ni_copies_len _ _ _ (node_inv' m H)) as Hlen.
    assert (E : tn_copies (child i m ins) = upd (fst ins) (fun c => c + 1) (tn_copies m)) by (destruct ins as [x [p|]]; reflexivity). rewrite E.
    rewrite (qsum_ext _ _ (fun y => inject_Z (nth y (tn_copies m) 0%Z) * it_profit (item_type i y) + (if Nat.eqb (fst ins) y then it_profit (item_type i (fst ins)) else 0))%Q).
    + rewrite qsum_plus, qsum_pick1 by exact Hx. lra.
    + intros y _. rewrite nth_upd by (rewrite Hlen; exact Hx). destruct (Nat.eqb_spec (fst ins) y) as [<-|]; [rewrite inject_Z_plus; change (inject_Z 1) with 1%Q; ring|ring].
Qed.

Lemma profit_all : forall n, reachable i n -> (tn_profit n <= in_item_profit i)%Q.
Proof.
  intros n H. rewrite (co_item_profit i Hco). refine (Qle_trans _ _ _ (profit_total n H) _). rewrite <- (qsum_list_nth' _ (fun t => inject_Z (it_copies t) * it_profit t)%Q (in_item_types i) dummy_item).
  apply qsum_le. intros x Hx. apply in_seq in Hx. pose proof (copies_le n H x ltac:(lia)). pose proof (Hprofit x). unfold item_type in *. assert (inject_Z (nth x (tn_copies n) 0%Z) <= inject_Z (it_copies (nth x (in_item_types i) dummy_item)))%Q by (rewrite <- Zle_Qle; lia). nra.
Qed.

Hypothesis Hlen : forall x, (x < length (in_item_types i))%nat -> 0 < it_length (item_type i x).

Lemma efficiency : forall k x, in_largest_efficiency i = Some k -> (x < length (in_item_types i))%nat ->
  (it_profit (item_type i x) <= inject_Z (it_length (item_type i x)) * (it_profit (item_type i k) / inject_Z (it_length (item_type i k))))%Q.
Proof.
  intros k x Hk Hx. pose proof (co_efficiency i Hco) as E. rewrite Hk in E. destruct E as [Ek E]. specialize (E (item_type i x) (nth_In _ _ Hx)).
  assert (Hp : (0 < inject_Z (it_length (item_type i x)))%Q) by (change 0%Q with (inject_Z 0); rewrite <- Zlt_Qlt; apply Hlen; exact Hx).
  apply (Qmult_le_l _ _ _ Hp) in E. refine (Qle_trans _ _ _ _ E). apply Qle_lteq. right. field. lra.
Qed.

Lemma gain_below : forall n m k, reachable i n -> below i n m -> in_largest_efficiency i = Some k ->
  (tn_profit m <= tn_profit n + inject_Z (tn_item_length m - tn_item_length n) * (it_profit (item_type i k) / inject_Z (it_length (item_type i k))))%Q.
Proof.
  intros n m k H B Hk. induction B as [|m ins B IH Hins].
  - rewrite Z.sub_diag. change (inject_Z 0) with 0%Q. lra.
  - pose proof (below_reachable n m H B) as Hm. pose proof (profit_step m ins) as S1. pose proof (efficiency k _ Hk (insertion_range m ins Hm Hins)) as E.
    assert (El : tn_item_length (child i m ins) = tn_item_length m + it_length (item_type i (fst ins))) by (destruct ins as [x [p|]]; reflexivity).
    rewrite El. replace (tn_item_length m + it_length (item_type i (fst ins)) - tn_item_length n) with ((tn_item_length m - tn_item_length n) + it_length (item_type i (fst ins))) by lia. rewrite inject_Z_plus, Qmult_plus_distr_l. lra.
Qed.

Theorem ubkp_sound : forall n m u, reachable i n -> below i n m -> ubkp i n = Some u -> (tn_profit m <= u)%Q.
Proof.
  intros n m u H B Hu. pose proof (below_reachable n m H B) as Hm. unfold ubkp in Hu. cbv zeta in Hu. destruct (Z.leb_spec (in_item_length i - tn_item_length n) (in_bin_length i - tn_current n)) as [Hle|Hgt].
  - injection Hu as <-. apply profit_all. exact Hm.
  - destruct (in_largest_efficiency i) as [k|] eqn:Hk; [|discriminate]. destruct (Z.eqb_spec (it_length (item_type i k)) 0) as [E0|E0]; [discriminate|]. injection Hu as <-.
    refine (Qle_trans _ _ _ (gain_below n m k H B Hk) _). pose proof (co_efficiency i Hco) as Ek. rewrite Hk in Ek. destruct Ek as [Ek _]. pose proof (Hlen k Ek) as Lk. pose proof (Hprofit k) as Pk.
    assert (G : tn_item_length m - tn_item_length n <= in_bin_length i - tn_current n).
    { pose proof (waste_below n m H B) as W. rewrite (ni_waste _ _ _ (node_inv' n H)), (ni_waste _ _ _ (node_inv' m Hm)) in W. destruct (current_le m Hm) as [_ C]. pose proof (ts_previous_total (tn_bins m)). lia. }
    assert (G' : (inject_Z (tn_item_length m - tn_item_length n) <= inject_Z (in_bin_length i - tn_current n))%Q) by (rewrite <- Zle_Qle; exact G).
    assert (E : (0 <= it_profit (item_type i k) / inject_Z (it_length (item_type i k)))%Q). { assert (0 < inject_Z (it_length (item_type i k)))%Q by (change 0%Q with (inject_Z 0); rewrite <- Zlt_Qlt; exact Lk). apply Qle_shift_div_l; [assumption|lra]. }
    assert (Er : (inject_Z (in_bin_length i - tn_current n) * it_profit (item_type i k) / inject_Z (it_length (item_type i k)) == inject_Z (in_bin_length i - tn_current n) * (it_profit (item_type i k) / inject_Z (it_length (item_type i k))))%Q) by (unfold Qdiv; ring). rewrite Er. nra.
Qed.
End Sol.
