(** * Proofs about the nodes of the onedimensional branching scheme *)

From Coq Require Import List ZArith QArith Bool Lia Lqa Arith Permutation.
From Verif Require Import Util Common_Model Common_Spec Common_Proof OneDim_Model OneDim_Spec OneDim_Proof OneDimBuilder_Spec Tree1D_Model Tree1D_Spec.
Import ListNotations.
Open Scope Z_scope.

(** ** Order of the bins *)

Lemma insert_bin_perm : forall i t l, Permutation (insert_bin i t l) (t :: l).
Proof. intros i t. induction l as [|u r IH]; [reflexivity|]. cbn [insert_bin]. destruct (_ <? _); [reflexivity|]. rewrite IH. apply perm_swap. Qed.

Lemma bin_order_perm : forall i, Permutation (bin_order i) (seq 0 (length (in_bin_types i))).
Proof.
  intros i. unfold bin_order. assert (G : forall l acc, Permutation (fold_left (fun acc t => insert_bin i t acc) l acc) (acc ++ l)).
  { induction l as [|t l IH]; intros acc; cbn [fold_left]; [rewrite app_nil_r; reflexivity|]. rewrite IH, insert_bin_perm. cbn [app]. apply Permutation_middle. }
  destruct (in_objective i); try reflexivity. apply G.
Qed.

Lemma ts_bins_perm : forall i, Permutation (ts_bins i) (flat_map (fun t => repeat t (Z.to_nat (bt_copies (bin_type i t)))) (seq 0 (length (in_bin_types i)))).
Proof. intros i. unfold ts_bins. apply Permutation_flat_map. apply bin_order_perm. Qed.

Lemma ts_bins_range : forall i t, In t (ts_bins i) -> (t < length (in_bin_types i))%nat.
Proof. intros i t H. apply (Permutation_in _ (ts_bins_perm i)) in H. apply in_flat_map in H. destruct H as (u & Hu & H). apply repeat_spec in H. subst. apply in_seq in Hu. lia. Qed.

Lemma ts_bins_nth : forall i p, (p < length (ts_bins i))%nat -> (nth p (ts_bins i) 0%nat < length (in_bin_types i))%nat.
Proof. intros i p H. apply ts_bins_range. apply nth_In. exact H. Qed.

Lemma ts_bins_length : forall i, consistent i -> length (ts_bins i) = length (in_bin_type_ids i).
Proof. intros i H. rewrite (co_bin_type_ids i H). apply Permutation_length. apply ts_bins_perm. Qed.

(** ** Calls of the solution builder *)

Lemma desc_run_app : forall l1 l2 ds, desc_run ds (l1 ++ l2) = desc_run (desc_run ds l1) l2.
Proof. induction l1 as [|c l1 IH]; intros l2 ds; [reflexivity|]. destruct c; cbn [app desc_run]; apply IH. Qed.

Definition bins_of (n : nat) (path : list (nat * nat)) : nat := fold_left (fun m e => Nat.max m (snd e)) path n.

Lemma path_calls_snoc : forall i path n x nb, path_calls i n (path ++ [(x, nb)]) =
  path_calls i n path ++ map (fun k => AddBin (nth k (ts_bins i) 0%nat) 1) (seq (bins_of n path) (nb - bins_of n path)) ++ [AddItem (Nat.max (bins_of n path) nb - 1) x].
Proof.
  intros i. induction path as [|[y mb] path IH]; intros n x nb; [reflexivity|]. cbn [app path_calls]. rewrite IH. rewrite <- app_assoc. cbn [app]. reflexivity.
Qed.

Definition empty_bins (i : Instance) (m k : nat) : list BinDesc := map (fun k => mkBD (nth k (ts_bins i) 0%nat) 1 []) (seq m k).

Lemma desc_run_add : forall i k m ds, desc_run ds (map (fun k => AddBin (nth k (ts_bins i) 0%nat) 1) (seq m k)) = ds ++ empty_bins i m k.
Proof.
  intros i. unfold empty_bins. induction k as [|k IH]; intros m ds; cbn [seq map desc_run]; [rewrite app_nil_r; reflexivity|]. rewrite IH, <- app_assoc. reflexivity.
Qed.

Lemma desc_run_item : forall ds d x, desc_run (ds ++ [d]) [AddItem (length (ds ++ [d]) - 1) x] = ds ++ [mkBD (bd_type d) (bd_copies d) (bd_items d ++ [x])].
Proof. intros ds d x. cbn [desc_run]. rewrite app_length. cbn [length]. replace (length ds + 1 - 1)%nat with (length ds) by lia. apply upd_snoc. Qed.

(** ** Loops on the resources *)

Lemma fold_res : forall (step : list Q * Q -> nat -> list Q * Q) (g p : nat -> Q -> Q),
  (forall st r, fst (step st r) = upd r (fun _ => g r (nth r (fst st) 0%Q)) (fst st) /\ (snd (step st r) == snd st - p r (nth r (fst st) 0))%Q) ->
  forall ids st, NoDup ids -> (forall r, In r ids -> (r < length (fst st))%nat) ->
  let st' := fold_left step ids st in
  length (fst st') = length (fst st)
  /\ (forall r, nth r (fst st') 0%Q = if in_dec Nat.eq_dec r ids then g r (nth r (fst st) 0%Q) else nth r (fst st) 0%Q)
  /\ (snd st' == snd st - qsum (fun r => p r (nth r (fst st) 0)) ids)%Q.
Proof.
  intros step g p Hs. induction ids as [|r0 ids IH]; intros st ND Hr; cbv zeta.
  - split; [reflexivity|]. split; [reflexivity|]. cbn. ring.
  - cbn [fold_left]. inversion ND as [|? ? N1 N2]; subst. destruct (Hs st r0) as [S1 S2]. destruct (IH (step st r0) N2) as (A & B & C).
    { intros r Hin. rewrite S1, upd_length. apply Hr. right. exact Hin. }
    assert (Same : forall r, In r ids -> nth r (fst (step st r0)) 0%Q = nth r (fst st) 0%Q).
    { intros r Hin. rewrite S1. apply nth_upd_other. intro E. subst. contradiction. }
    split; [rewrite A, S1; apply upd_length|]. split.
    + intros r. rewrite B. destruct (in_dec Nat.eq_dec r ids) as [Hi|Hi].
      * destruct (in_dec Nat.eq_dec r (r0 :: ids)) as [_|Hn]; [|exfalso; apply Hn; right; exact Hi]. rewrite Same by exact Hi. reflexivity.
      * destruct (in_dec Nat.eq_dec r (r0 :: ids)) as [[He|Hi']|Hn].
        -- subst r. rewrite S1. rewrite nth_upd_same; [reflexivity|]. apply Hr. left. reflexivity.
        -- contradiction.
        -- rewrite S1. apply nth_upd_other. intro He. apply Hn. left. exact He.
    + rewrite C, S2, qsum_cons. rewrite (qsum_ext _ _ (fun r => p r (nth r (fst st) 0%Q)) ids); [ring|]. intros r Hin. rewrite Same by exact Hin. reflexivity.
Qed.

(** Lemmas of OneDim_Proof without their loop. *)
Definition any_loop (i : Instance) : Loop :=
  mkLoop 0 0%Q [] 0 0 None [] [] 0 (repeat 0 (length (in_item_types i))) 0 0%Q true true true true true true true.
Lemma any_loop_length : forall i, length (lo_item_copies (any_loop i)) = length (in_item_types i).
Proof. intros i. apply repeat_length. Qed.
Lemma pen_nil' : forall i t, (t < length (in_bin_types i))%nat -> sane_resources i -> (pen i t [] == 0)%Q.
Proof. intros i t Ht. apply (pen_nil i t (any_loop i) Ht (any_loop_length i)). Qed.

Lemma consumption_step_nonneg : forall i t r x c, sane_resources i -> (t < length (in_bin_types i))%nat -> (r < length (bt_resources (bin_type i t)))%nat ->
  (0 <= item_consumption (nth r (bt_resources (bin_type i t)) dummy_resource) x c)%Q.
Proof.
  intros i t r x c Hs Ht Hr. set (res := nth r (bt_resources (bin_type i t)) dummy_resource).
  destruct (Hs (bin_type i t) res) as [_ Hq]; [apply nth_In; assumption|apply nth_In; assumption|].
  rewrite item_consumption_nth.
  assert (Hall : forall q, In q (schedule res x) -> (0 <= q)%Q).
  { unfold schedule. destruct (nth_in_or_default x (res_item_consumptions res) []) as [Hi|Hi]; [intros q Hq'; exact (Hq _ _ Hi Hq')|rewrite Hi; intros q []]. }
  destruct (nth_in_or_default c (schedule res x) (last (schedule res x) 0%Q)) as [Hi|Hi]; [apply Hall; assumption|].
  rewrite Hi. destruct (schedule res x) as [|q0 s] eqn:Es; [simpl; lra|]. apply Hall.
  assert (Hne : q0 :: s <> []) by discriminate. rewrite (app_removelast_last 0%Q Hne) at 2. apply in_or_app. right. left. reflexivity.
Qed.

(** Penalties after one more item. *)
Lemma pen_snoc : forall i t l x (u : nat -> Q), wf_resource_ids i -> sane_resources i -> (t < length (in_bin_types i))%nat -> (x < length (in_item_types i))%nat ->
  (forall r, (r < length (bt_resources (bin_type i t)))%nat -> (u r == consumption i (nth r (bt_resources (bin_type i t)) dummy_resource) l)%Q) ->
  (pen i t (l ++ [x]) == pen i t l + qsum (fun r => let res := nth r (bt_resources (bin_type i t)) dummy_resource in
      if res_penalize res && Qltb (res_capacity res) (u r + item_consumption res x (count_occ Nat.eq_dec l x))%Q && Qle_bool (u r) (res_capacity res)
      then res_penalty res else 0%Q) (nth t (it_resource_ids (item_type i x)) []))%Q.
Proof.
  intros i t l x u Hwf Hs Ht Hx Hu. cbv zeta. destruct (Hwf x t Hx Ht) as [Hnd Hids].
  rewrite (seq_split_sum i t (any_loop i) Ht (any_loop_length i) _ (nth t (it_resource_ids (item_type i x)) []) (length (bt_resources (bin_type i t))) Hnd); [|intros r Hr; apply Hids in Hr; tauto|].
  - unfold pen. rewrite <- qsum_plus. apply qsum_ext. intros r Hr. apply in_seq in Hr.
    assert (Hr' : (r < length (bt_resources (bin_type i t)))%nat) by lia. pose proof (consumption_step_nonneg i t r x (count_occ Nat.eq_dec l x) Hs Ht Hr') as Hnn.
    set (res := nth r (bt_resources (bin_type i t)) dummy_resource) in *. specialize (Hu r Hr'). fold res in Hu.
    destruct (res_penalize res); simpl; [|ring].
    pose proof (consumption_snoc i res l x Hx) as Hc.
    destruct (Qltb (res_capacity res) (consumption i res (l ++ [x]))) eqn:E1; destruct (Qltb (res_capacity res) (consumption i res l)) eqn:E2;
      destruct (Qle_bool (u r) (res_capacity res)) eqn:E3; destruct (Qltb (res_capacity res) (u r + item_consumption res x (count_occ Nat.eq_dec l x))%Q) eqn:E4; simpl; try ring;
      exfalso; repeat match goal with
          | H : Qltb _ _ = true |- _ => apply Qltb_lt in H
          | H : Qltb _ _ = false |- _ => apply Qltb_ge in H
          | H : Qle_bool _ _ = true |- _ => apply Qle_bool_iff in H
          | H : Qle_bool ?a ?b = false |- _ => assert (b < a)%Q by (apply Qnot_le_lt; intro HH; apply Qle_bool_iff in HH; congruence); clear H
          end; lra.
  - intros r Hr Hni. set (res := nth r (bt_resources (bin_type i t)) dummy_resource).
    assert (Es : schedule res x = []). { destruct (schedule res x) eqn:Es; [reflexivity|]. exfalso. apply Hni. apply Hids. split; [assumption|]. fold res. rewrite Es. discriminate. }
    rewrite (item_consumption_none res x _ Es). destruct (res_penalize res); simpl; [|reflexivity].
    destruct (Qle_bool (u r) (res_capacity res)) eqn:E3; simpl; [|rewrite andb_false_r; reflexivity]. apply Qle_bool_iff in E3.
    assert (E4 : Qltb (res_capacity res) (u r + 0)%Q = false) by (apply Qltb_ge; lra). rewrite E4. reflexivity.
Qed.

Lemma pen_penalties : forall i t c l, penalties i (mkBD t c l) = pen i t l.
Proof. intros i t c l. unfold penalties, pen. cbn [bd_type bd_items]. symmetry. apply (nth_seq_res _ (fun r => r) (fun r => if res_penalize r && Qltb (res_capacity r) (consumption i r l) then res_penalty r else 0%Q)). Qed.

(** ** The state of a node *)

Record LastBin (i : Instance) (n : Node) (t : nat) (l : list nat) : Prop := {
  lb_nonempty : l <> [];
  lb_length : tn_last_length n = bin_end i l;
  lb_weight : (tn_last_weight n == total_weight i l)%Q;
  lb_items : tn_last_items n = Z.of_nat (length l);
  lb_max : forall c, c <= tn_last_max n <-> forall x, In x l -> c <= it_stackability (item_type i x);
  lb_rem : forall c, within c (tn_last_remaining n) <->
    forall a x m, l = a ++ x :: m -> within (c + total_weight i m)%Q (it_max_weight_after (item_type i x));
  lb_res_len : length (tn_last_resources n) = length (bt_resources (bin_type i t));
  lb_res : forall r, (r < length (bt_resources (bin_type i t)))%nat ->
    (nth r (tn_last_resources n) 0 == consumption i (nth r (bt_resources (bin_type i t)) dummy_resource) l)%Q;
  lb_cib_len : length (bt_resources (bin_type i t)) <> 0%nat -> length (tn_last_copies n) = length (in_item_types i);
  lb_cib : length (bt_resources (bin_type i t)) <> 0%nat -> forall x, (x < length (in_item_types i))%nat -> nth x (tn_last_copies n) 0%nat = count_occ Nat.eq_dec l x
}.

Record NodeInv (i : Instance) (n : Node) (ds : list BinDesc) : Prop := {
  ni_ds : desc_run [] (path_calls i 0 (tn_path n)) = ds;
  ni_path : bins_of 0 (tn_path n) = tn_bins n;
  ni_len : length ds = tn_bins n;
  ni_bound : (tn_bins n <= length (ts_bins i))%nat;
  ni_types : map bd_type ds = firstn (tn_bins n) (ts_bins i);
  ni_one : forall d, In d ds -> bd_copies d = 1;
  ni_range : forall d x, In d ds -> In x (bd_items d) -> (x < length (in_item_types i))%nat;
  ni_ok : forall d, In d ds -> TolBinOK i d;
  ni_last : (tn_bins n = 0%nat /\ ds = [] /\ tn_current n = 0)
    \/ exists pre l, ds = pre ++ [mkBD (nth (tn_bins n - 1) (ts_bins i) 0%nat) 1 l] /\ LastBin i n (nth (tn_bins n - 1) (ts_bins i) 0%nat) l
       /\ tn_current n = ts_previous i (tn_bins n - 1) + bin_end i l;
  ni_copies_len : length (tn_copies n) = length (in_item_types i);
  ni_copies : forall x, (x < length (in_item_types i))%nat -> nth x (tn_copies n) 0 = packed x ds /\ packed x ds <= it_copies (item_type i x);
  ni_items : tn_items n = zsum (fun d => Z.of_nat (length (bd_items d))) ds;
  ni_item_length : tn_item_length n = zsum (fun d => zsum (fun x => it_length (item_type i x)) (bd_items d)) ds;
  ni_waste : tn_waste n = tn_current n - tn_item_length n;
  ni_profit : (tn_profit n == qsum (fun d => qsum (fun x => it_profit (item_type i x)) (bd_items d) - penalties i d) ds)%Q
}.

Lemma pstol_pos : (1 <= PSTOL)%Q.
Proof. unfold PSTOL. lra. Qed.

Lemma within_times_tol : forall q m, within q (times_tol m) <-> within_tol q m.
Proof. intros q [m|]; reflexivity. Qed.

Lemma within_tol_compat : forall a b m, (a == b)%Q -> within_tol a m -> within_tol b m.
Proof. intros a b [m|] H; simpl; [intro; lra|auto]. Qed.

Lemma empty_ok : forall i t c, TolBinOK i (mkBD t c []).
Proof.
  intros i t c. constructor; cbn [bd_items bd_type].
  - apply prefall_nil.
  - apply prefall_nil.
  - intros x [].
  - intros a x after E. destruct a; discriminate.
  - intros x [].
  - intros r _ _. apply prefall_nil.
Qed.

Lemma snoc_split : forall (l : list nat) x a z m, l ++ [x] = a ++ z :: m -> (m = [] /\ a = l /\ z = x) \/ exists m', m = m' ++ [x] /\ l = a ++ z :: m'.
Proof.
  intros l x a z m E. destruct (exists_last_or_nil _ m) as [->|(m' & y & ->)].
  - apply app_inj_tail in E. destruct E as [<- <-]. left. auto.
  - right. exists m'. change (a ++ z :: m' ++ [y]) with (a ++ (z :: m') ++ [y]) in E. rewrite app_assoc in E. apply app_inj_tail in E. destruct E as [E <-]. auto.
Qed.

Lemma bin_end_snoc' : forall i l x, l <> [] -> bin_end i (l ++ [x]) = bin_end i l + it_length (item_type i x) - it_nesting (item_type i x).
Proof. intros i [|y l] x H; [contradiction|]. unfold bin_end. simpl tl. cbn [app]. rewrite !zsum_cons, !zsum_snoc. lia. Qed.

Lemma bin_end_one : forall i x, bin_end i [x] = it_length (item_type i x).
Proof. intros. unfold bin_end. simpl tl. cbn. lia. Qed.

Lemma total_snoc : forall i l x, (total_weight i (l ++ [x]) == total_weight i l + it_weight (item_type i x))%Q.
Proof. intros. unfold total_weight. rewrite qsum_snoc. reflexivity. Qed.

Section Step.
Variable i : Instance.
Hypothesis Hco : consistent i.
Hypothesis Hsane : sane_instance i.

Notation Hwf := (co_resource_ids i Hco).
Notation Hres := (sane_res i Hsane).

Lemma total_nonneg : forall l, (0 <= total_weight i l)%Q.
Proof. intros l. unfold total_weight. apply qsum_nonneg. intros x _. destruct (sane_items i Hsane x) as (_ & _ & W & _). exact W. Qed.

(** One more item in the last bin respects its constraints. *)
Lemma same_ok : forall n t l x, (t < length (in_bin_types i))%nat -> (x < length (in_item_types i))%nat -> is_eligible i x t ->
  t = nth (tn_bins n - 1) (ts_bins i) 0%nat -> LastBin i n t l -> TolBinOK i (mkBD t 1 l) -> same_bin_ok i n x = true -> TolBinOK i (mkBD t 1 (l ++ [x])).
Proof.
  intros n t l x Ht Hx He Et L T H. destruct L as [L1 L2 L3 L4 L5 L6 L7 L8 L9 L10]. unfold same_bin_ok in H. rewrite <- Et in H. cbv zeta in H.
  apply andb_true_iff in H. destruct H as [H H5]. apply andb_true_iff in H. destruct H as [H H4]. apply andb_true_iff in H. destruct H as [H H3]. apply andb_true_iff in H. destruct H as [H1 H2].
  apply negb_true_iff in H1, H2, H3, H4. apply Z.ltb_ge in H1, H3. apply exceeds_false in H2, H4. rewrite within_times_tol in H2.
  destruct T as [T1 T2 T3 T4 T5 T6]. cbn [bd_type bd_items] in *. pose proof pstol_pos as PT.
  constructor; cbn [bd_type bd_items].
  - apply prefall_snoc. split; [exact T1|]. unfold start_of. destruct l; [contradiction|]. lia.
  - apply prefall_snoc. split; [exact T2|]. eapply within_tol_compat; [|exact H2]. rewrite total_snoc, L3. reflexivity.
  - intros z Hz. rewrite app_length. cbn [length]. assert (A : tn_last_items n + 1 <= tn_last_max n) by lia. rewrite L4 in A, H3. pose proof (proj1 (L5 _) A) as B.
    apply in_app_or in Hz. destruct Hz as [Hz|[<-|[]]]; [specialize (B z Hz); lia|lia].
  - intros a z m E. apply snoc_split in E. destruct E as [(-> & _ & ->)|(m' & -> & E)].
    + destruct (sane_items i Hsane x) as (_ & _ & _ & W). unfold total_weight. cbn [qsum fold_right]. destruct (it_max_weight_after (item_type i x)) as [w|]; [|exact I]. cbn in W |- *. nra.
    + destruct (tn_last_remaining n) as [rem|] eqn:Er.
      * cbn in H4. pose proof (proj1 (L6 rem) (Qle_refl rem) a z m' E) as K. pose proof (total_nonneg m') as P.
        destruct (it_max_weight_after (item_type i z)) as [w|]; [|exact I]. cbn in K |- *. rewrite total_snoc. nra.
      * destruct (it_max_weight_after (item_type i z)) as [w|] eqn:Ew; [|exact I]. exfalso. pose proof (proj1 (L6 (w + 1)%Q) I a z m' E) as K. rewrite Ew in K. cbn in K. pose proof (total_nonneg m') as P. lra.
  - intros z Hz. apply in_app_or in Hz. destruct Hz as [Hz|[<-|[]]]; [apply T5, Hz|exact He].
  - intros r Hr Hp. apply prefall_snoc. split; [apply T6; assumption|]. intros Hsc. destruct (In_nth _ _ dummy_resource Hr) as (k & Hk & Ek).
    destruct (Hwf x t Hx Ht) as [_ Hids]. assert (In k (nth t (it_resource_ids (item_type i x)) [])) as Hin by (apply Hids; rewrite Ek; split; assumption).
    assert (Hz : length (bt_resources (bin_type i t)) <> 0%nat) by lia. apply Nat.eqb_neq in Hz as Hz'. rewrite Hz' in H5. rewrite forallb_forall in H5. specialize (H5 k Hin). cbv zeta in H5. rewrite Ek, Hp in H5. cbn [orb] in H5.
    apply negb_true_iff in H5. apply Qltb_ge in H5. rewrite (L10 Hz x Hx) in H5. rewrite (consumption_snoc i r l x Hx). specialize (L8 k Hk). rewrite Ek in L8. rewrite <- L8. exact H5.
Qed.

Lemma new_ok : forall t x p, (t < length (in_bin_types i))%nat -> (x < length (in_item_types i))%nat -> is_eligible i x t -> 1 <= it_stackability (item_type i x) ->
  t = nth p (ts_bins i) 0%nat -> new_bin_ok i x p = true -> TolBinOK i (mkBD t 1 [x]).
Proof.
  intros t x p Ht Hx He Hst Et H. unfold new_bin_ok in H. rewrite <- Et in H. cbv zeta in H.
  apply andb_true_iff in H. destruct H as [H H3]. apply andb_true_iff in H. destruct H as [H1 H2]. apply negb_true_iff in H1, H2. apply Z.ltb_ge in H1. apply exceeds_false in H2. rewrite within_times_tol in H2. pose proof pstol_pos as PT.
  constructor; cbn [bd_type bd_items].
  - apply (prefall_snoc _ _ [] x). split; [apply prefall_nil|]. cbn [start_of]. lia.
  - apply (prefall_snoc _ _ [] x). split; [apply prefall_nil|]. cbn [app]. eapply within_tol_compat; [|exact H2]. unfold total_weight. cbn. ring.
  - intros z [<-|[]]. exact Hst.
  - intros a z m E. apply (snoc_split [] x) in E. destruct E as [(-> & _ & ->)|(m' & -> & E)]; [|destruct a; discriminate E].
    destruct (sane_items i Hsane x) as (_ & _ & _ & W). unfold total_weight. cbn [qsum fold_right]. destruct (it_max_weight_after (item_type i x)) as [w|]; [|exact I]. cbn in W |- *. nra.
  - intros z [<-|[]]. exact He.
  - intros r Hr Hp. apply (prefall_snoc _ _ [] x). split; [apply prefall_nil|]. cbn [app]. intros Hsc. destruct (In_nth _ _ dummy_resource Hr) as (k & Hk & Ek).
    destruct (Hwf x t Hx Ht) as [_ Hids]. assert (In k (nth t (it_resource_ids (item_type i x)) [])) as Hin by (apply Hids; rewrite Ek; split; assumption).
    rewrite forallb_forall in H3. specialize (H3 k Hin). cbv zeta in H3. rewrite Ek, Hp in H3. cbn [orb] in H3. apply negb_true_iff in H3. apply Qltb_ge in H3.
    rewrite (consumption_snoc i r [] x Hx), consumption_nil. cbn [count_occ]. lra.
Qed.

Lemma last_new : forall n x p, (p < length (ts_bins i))%nat -> (x < length (in_item_types i))%nat ->
  LastBin i (child i n (x, Some p)) (nth p (ts_bins i) 0%nat) [x]
  /\ (tn_profit (child i n (x, Some p)) == tn_profit n + it_profit (item_type i x) - pen i (nth p (ts_bins i) 0%nat) [x])%Q.
Proof.
  intros n x p Hp Hx. pose proof (ts_bins_nth i p Hp) as Ht. cbn [child]. set (t := nth p (ts_bins i) 0%nat) in *. set (bt := bin_type i t) in *. set (it := item_type i x) in *.
  destruct (Hwf x t Hx Ht) as [Hnd Hids]. fold it in Hnd, Hids. fold bt in Hids.
  set (st0 := (repeat 0%Q (length (bt_resources bt)), (tn_profit n + it_profit it)%Q)).
  assert (F := fold_res (new_resource_step bt x) (fun r _ => item_consumption (nth r (bt_resources bt) dummy_resource) x 0)
     (fun r _ => let res := nth r (bt_resources bt) dummy_resource in if res_penalize res && Qltb (res_capacity res) (item_consumption res x 0) then res_penalty res else 0%Q)).
  specialize (F ltac:(intros st r; unfold new_resource_step; cbv zeta; cbn [fst snd]; split; [reflexivity|destruct (_ && _); ring])).
  specialize (F (nth t (it_resource_ids it) []) st0 Hnd). cbv zeta in F.
  destruct F as (F1 & F2 & F3). { intros r Hr. apply Hids in Hr. unfold st0. cbn [fst]. rewrite repeat_length. tauto. }
  set (st := fold_left (new_resource_step bt x) (nth t (it_resource_ids it) []) st0) in *. unfold st0 in F1, F2, F3. cbn [fst snd] in F1, F2, F3. rewrite repeat_length in F1.
  assert (Hc : forall r, (r < length (bt_resources bt))%nat -> (nth r (fst st) 0 == consumption i (nth r (bt_resources bt) dummy_resource) [x])%Q).
  { intros r Hr. rewrite F2. rewrite (consumption_snoc i _ [] x Hx), consumption_nil. cbn [count_occ]. destruct (in_dec Nat.eq_dec r _) as [Hi|Hi]; [ring|]. rewrite nth_repeat.
    rewrite item_consumption_none; [ring|]. destruct (schedule (nth r (bt_resources bt) dummy_resource) x) eqn:Es; [reflexivity|]. exfalso. apply Hi. apply Hids. split; [assumption|]. rewrite Es. discriminate. }
  split.
  - constructor; cbn [tn_last_length tn_last_weight tn_last_items tn_last_max tn_last_remaining tn_last_resources tn_last_copies].
    + discriminate.
    + rewrite bin_end_one. reflexivity.
    + unfold total_weight. cbn. fold it. ring.
    + reflexivity.
    + intros c. split; [intros H z [<-|[]]; exact H|intro H; apply H; left; reflexivity].
    + intros c. split.
      * intros H a z m E. apply (snoc_split [] x) in E. destruct E as [(-> & _ & ->)|(m' & -> & E)]; [|destruct a; discriminate E]. eapply within_compat; [|exact H]. unfold total_weight. cbn. ring.
      * intros H. specialize (H [] x [] eq_refl). eapply within_compat; [|exact H]. unfold total_weight. cbn. ring.
    + fold bt. destruct (length (bt_resources bt) =? 0)%nat eqn:Ez; [apply Nat.eqb_eq in Ez; rewrite Ez; reflexivity|exact F1].
    + fold bt. intros r Hr. destruct (length (bt_resources bt) =? 0)%nat eqn:Ez; [apply Nat.eqb_eq in Ez; lia|]. apply Hc, Hr.
    + fold bt. intros Hz. apply Nat.eqb_neq in Hz. rewrite Hz. rewrite upd_length. apply repeat_length.
    + fold bt. intros Hz y Hy. apply Nat.eqb_neq in Hz. rewrite Hz. rewrite nth_upd by (rewrite repeat_length; exact Hx). rewrite nth_repeat. cbn [count_occ]. destruct (Nat.eqb_spec x y); destruct (Nat.eq_dec x y); congruence.
  - cbn [tn_profit]. fold st.
    assert (P : (pen i t [x] == qsum (fun r => let res := nth r (bt_resources bt) dummy_resource in if res_penalize res && Qltb (res_capacity res) (item_consumption res x 0) then res_penalty res else 0%Q) (nth t (it_resource_ids it) []))%Q).
    { change [x] with ([] ++ [x]) at 1. rewrite (pen_snoc i t [] x (fun _ => 0%Q) Hwf Hres Ht Hx) by (intros; rewrite consumption_nil; reflexivity). rewrite (pen_nil' i t Ht Hres). rewrite Qplus_0_l. apply qsum_ext. intros r Hr. cbv zeta. fold bt. cbn [count_occ].
      set (res := nth r (bt_resources bt) dummy_resource). apply Hids in Hr. destruct (Hres bt res) as [C _]; [apply nth_In; exact Ht|apply nth_In; tauto|].
      assert (E1 : Qle_bool 0 (res_capacity res) = true) by (apply Qle_bool_iff; exact C). rewrite E1, andb_true_r.
      assert (E2 : Qltb (res_capacity res) (0 + item_consumption res x 0) = Qltb (res_capacity res) (item_consumption res x 0)). { destruct (Qltb (res_capacity res) (item_consumption res x 0)) eqn:E; [apply Qltb_lt in E; apply Qltb_lt; lra|apply Qltb_ge in E; apply Qltb_ge; lra]. }
      rewrite E2. reflexivity. }
    rewrite P. destruct (length (bt_resources bt) =? 0)%nat eqn:Ez; [|exact F3]. apply Nat.eqb_eq in Ez.
    assert (En : nth t (it_resource_ids it) [] = []). { destruct (nth t (it_resource_ids it) []) as [|r rs]; [reflexivity|]. destruct (proj1 (Hids r) (or_introl eq_refl)). lia. }
    rewrite En. cbn. ring.
Qed.

Lemma last_same : forall n x l, (tn_bins n - 1 < length (ts_bins i))%nat -> (x < length (in_item_types i))%nat -> LastBin i n (nth (tn_bins n - 1) (ts_bins i) 0%nat) l ->
  LastBin i (child i n (x, None)) (nth (tn_bins n - 1) (ts_bins i) 0%nat) (l ++ [x])
  /\ (tn_profit (child i n (x, None)) == tn_profit n + it_profit (item_type i x) - (pen i (nth (tn_bins n - 1) (ts_bins i) 0%nat) (l ++ [x]) - pen i (nth (tn_bins n - 1) (ts_bins i) 0%nat) l))%Q.
Proof.
  intros n x l Hp Hx [L1 L2 L3 L4 L5 L6 L7 L8 L9 L10]. pose proof (ts_bins_nth i _ Hp) as Ht. cbn [child]. set (t := nth (tn_bins n - 1) (ts_bins i) 0%nat) in *. set (bt := bin_type i t) in *. set (it := item_type i x) in *.
  destruct (Hwf x t Hx Ht) as [Hnd Hids]. fold it in Hnd, Hids. fold bt in Hids. set (copy := nth x (tn_last_copies n) 0%nat) in *.
  set (st0 := (tn_last_resources n, (tn_profit n + it_profit it)%Q)).
  assert (F := fold_res (same_resource_step bt x copy) (fun r u => (u + item_consumption (nth r (bt_resources bt) dummy_resource) x copy)%Q)
     (fun r u => let res := nth r (bt_resources bt) dummy_resource in if res_penalize res && Qltb (res_capacity res) (u + item_consumption res x copy) && Qle_bool u (res_capacity res) then res_penalty res else 0%Q)).
  specialize (F ltac:(intros st r; unfold same_resource_step; cbv zeta; cbn [fst snd]; split; [reflexivity|destruct (_ && _); ring])).
  specialize (F (nth t (it_resource_ids it) []) st0 Hnd). cbv zeta in F.
  destruct F as (F1 & F2 & F3). { intros r Hr. apply Hids in Hr. unfold st0. cbn [fst]. rewrite L7. tauto. }
  set (st := fold_left (same_resource_step bt x copy) (nth t (it_resource_ids it) []) st0) in *. unfold st0 in F1, F2, F3. cbn [fst snd] in F1, F2, F3.
  assert (Hcopy : length (bt_resources bt) <> 0%nat -> copy = count_occ Nat.eq_dec l x) by (intros Hz; apply L10; assumption).
  assert (Hc : forall r, (r < length (bt_resources bt))%nat -> (nth r (fst st) 0 == consumption i (nth r (bt_resources bt) dummy_resource) (l ++ [x]))%Q).
  { intros r Hr. rewrite F2. rewrite (consumption_snoc i _ l x Hx), <- (L8 r Hr), <- Hcopy by lia. fold bt. destruct (in_dec Nat.eq_dec r _) as [Hi|Hi]; [reflexivity|].
    rewrite item_consumption_none; [ring|]. destruct (schedule (nth r (bt_resources bt) dummy_resource) x) eqn:Es; [reflexivity|]. exfalso. apply Hi. apply Hids. split; [assumption|]. rewrite Es. discriminate. }
  split.
  - constructor; cbn [tn_last_length tn_last_weight tn_last_items tn_last_max tn_last_remaining tn_last_resources tn_last_copies].
    + destruct l; discriminate.
    + rewrite bin_end_snoc' by exact L1. fold it. lia.
    + rewrite total_snoc, L3. reflexivity.
    + rewrite app_length, L4. cbn [length]. lia.
    + intros c. pose proof (L5 c) as Hm. split.
      * intros H z Hz. apply in_app_or in Hz. destruct Hz as [Hz|[<-|[]]]; [apply Hm; [lia|assumption]|fold it; lia].
      * intro H. apply Z.min_glb; [apply Hm; intros; apply H; apply in_or_app; auto|]. apply H. apply in_or_app. right. left. reflexivity.
    + intros c. rewrite within_omin.
      assert (Hsub : within c match tn_last_remaining n with None => None | Some w => Some (w - it_weight it)%Q end <-> within (c + it_weight it)%Q (tn_last_remaining n)).
      { destruct (tn_last_remaining n); simpl; [split; intro; lra|tauto]. }
      rewrite Hsub, (L6 (c + it_weight it)%Q). split.
      * intros [Ha Hb] a z m E. apply snoc_split in E. destruct E as [(-> & _ & ->)|(m' & -> & E)].
        -- eapply within_compat; [|exact Hb]. unfold total_weight. cbn. ring.
        -- eapply within_compat; [|apply (Ha a z m' E)]. rewrite total_snoc. fold it. ring.
      * intro H. split.
        -- intros a z m E. specialize (H a z (m ++ [x])). eapply within_compat; [|apply H; rewrite E, <- app_assoc; reflexivity]. rewrite total_snoc. fold it. ring.
        -- specialize (H l x [] eq_refl). eapply within_compat; [|exact H]. unfold total_weight. cbn. ring.
    + fold bt. destruct (length (bt_resources bt) =? 0)%nat eqn:Ez; [apply Nat.eqb_eq in Ez; rewrite Ez; reflexivity|]. etransitivity; [exact F1|exact L7].
    + fold bt. intros r Hr. destruct (length (bt_resources bt) =? 0)%nat eqn:Ez; [apply Nat.eqb_eq in Ez; lia|]. apply Hc, Hr.
    + fold bt. intros Hz. specialize (L9 Hz). apply Nat.eqb_neq in Hz. rewrite Hz. rewrite upd_length. exact L9.
    + fold bt. intros Hz y Hy. specialize (L9 Hz). specialize (L10 Hz). apply Nat.eqb_neq in Hz. rewrite Hz. rewrite nth_upd by (rewrite L9; exact Hx). rewrite count_snoc, (L10 y Hy). destruct (Nat.eqb x y); lia.
  - cbn [tn_profit]. fold st. rewrite (pen_snoc i t l x (fun r => nth r (tn_last_resources n) 0%Q) Hwf Hres Ht Hx) by exact L8. fold it. fold bt.
    destruct (length (bt_resources bt) =? 0)%nat eqn:Ez.
    + apply Nat.eqb_eq in Ez. assert (En : nth t (it_resource_ids it) [] = []). { destruct (nth t (it_resource_ids it) []) as [|r rs]; [reflexivity|]. destruct (proj1 (Hids r) (or_introl eq_refl)). lia. }
      rewrite En. cbn. ring.
    + apply Nat.eqb_neq in Ez. rewrite F3. match goal with |- (_ - ?A == _ - (_ + ?B - _))%Q => assert (EQ : (A == B)%Q) by (apply qsum_ext; intros r _; cbv zeta; rewrite <- (Hcopy Ez); reflexivity) end. rewrite EQ. ring.
Qed.
End Step.
