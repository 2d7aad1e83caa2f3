(** * Assignment MILP of the onedimensional solver (C58)

    src/onedimensional/milp_assignment.cpp *)

From Coq Require Import List ZArith QArith Qround Bool Lia Lqa Permutation.
From Verif Require Import Util Common_Model Common_Spec Common_Proof OneDim_Model OneDim_Spec OneDim_Proof OneDim_Order
  OneDimDff_Proof OneDimBounds_Spec ReducInv_Proof Bar_Proof BarPack_Proof Milp_Model Milp_Spec Milp_Proof MilpPoint_Proof
  MilpPacking_Proof MilpValue_Proof MilpClaims_Proof MilpRetrieve_Proof.
Import ListNotations.
Open Scope Z_scope.

(** ** Every packing is a point *)

Lemma objective_value_knapsack : forall i mp ds, in_objective i = OKnapsack -> (objective_value i mp ds == net_profit i ds / mp)%Q.
Proof. intros i mp ds H. unfold objective_value. rewrite H. reflexivity. Qed.

(** Completeness of the model: each packing within the bounds on the bins is a
    point of the model, and its objective is the value of the packing. *)
Theorem C58_packing_is_point : forall i prec ub ml mp, milp_domain i prec -> no_nesting i -> (0 < ml)%Q -> (0 < mp)%Q ->
  (forall t, (t < length (in_bin_types i))%nat -> Z.of_nat (nth t ub 0%nat) <= bt_copies (bin_type i t)) ->
  forall m, build_model i prec ub ml mp = Some m -> forall ds, Packing i prec ds ->
  (forall t, (t < length (in_bin_types i))%nat -> used_bins t ds <= Z.of_nat (nth t ub 0%nat)) ->
  exists v, MilpPoint m v /\
    match in_objective i with
    | OBinPacking => (milp_value m v == inject_Z (zsum bd_copies ds))%Q
    | OVariableSizedBinPacking => (milp_value m v == cost_of i ds)%Q
    | OKnapsack => threshold_resources i -> (milp_value m v * mp == net_profit i ds)%Q
    | _ => True
    end.
Proof.
  intros i prec ub ml mp Hd Hn Hml Hmp Hub m Hm ds Hds Hu.
  assert (Hp : MilpPacking i prec ub ds).
  { apply packing_milp; [apply (md_sane _ _ Hd)|exact Hn|exact Hds|]. intros t Ht. split; [apply Hu; exact Ht|apply Hub; exact Ht]. }
  destruct (packing_point i prec ub ml mp Hd Hml Hmp Hub m ds Hp Hm) as (v & Hv & Hval). exists v. split; [exact Hv|]. unfold objective_value in Hval.
  destruct (in_objective i); try exact Logic.I; try (apply Hval; discriminate). intro Hth. rewrite (Hval (fun _ => Hth)). field. lra.
Qed.
Print Assumptions C58_packing_is_point.

(** ** Claims *)

(** With the bounds the code computes on the number of bins of each type, what
    it concludes from an honest answer of the MILP solver holds of every
    packing of the instance. *)
Theorem C58_claims : forall i prec ml mp eps sub best, milp_domain i prec -> no_nesting i -> (0 < ml)%Q -> (0 < mp)%Q -> (0 <= eps)%Q ->
  (in_objective i = OKnapsack -> threshold_resources i) ->
  (in_objective i = OVariableSizedBinPacking -> forall t, (t < length (in_bin_types i))%nat -> (0 <= bt_cost (bin_type i t))%Q) ->
  one_type_right i sub -> best_valid i prec best ->
  forall m a, build_model i prec (upper_bounds i sub best) ml mp = Some m -> honest_answer m a -> claim_right i prec (milp_claim i mp eps a).
Proof.
  intros i prec ml mp eps sub best Hd Hn Hml Hmp He Hth Hcost Hsub Hbest m a Hm Ha.
  apply (claims_enough i prec Hd (upper_bounds i sub best) ml mp eps m a); try assumption. apply enough_all; assumption.
Qed.
Print Assumptions C58_claims.

(** The test on mandatory item types without a bin. *)
Theorem C58_trivially_infeasible : forall i prec sub best, milp_domain i prec -> no_nesting i ->
  (in_objective i = OVariableSizedBinPacking -> forall t, (t < length (in_bin_types i))%nat -> (0 <= bt_cost (bin_type i t))%Q) ->
  one_type_right i sub -> best_valid i prec best ->
  trivially_infeasible i (upper_bounds i sub best) = true -> forall ds, ~ Packing i prec ds.
Proof.
  intros i prec sub best Hd Hn Hcost Hsub Hbest H. apply (trivial_enough i prec Hd (upper_bounds i sub best)); [|exact H]. apply enough_all; assumption.
Qed.
Print Assumptions C58_trivially_infeasible.

(** The sequential feasibility loop keeps a valid bound on the number of bins,
    however many candidates are inconclusive. *)
Theorem C58_sequential_bound : forall i prec, in_objective i = OBinPacking ->
  forall sub, nested_right i prec sub -> forall ds, Packing i prec ds ->
  forall lower bound, bound <= zsum bd_copies ds -> fst (sequential_feasibility i sub lower bound) <= zsum bd_copies ds.
Proof.
  intros i prec Ho sub Hsub ds Hds lower bound Hb. unfold sequential_feasibility. apply (sequential_loop_right i prec); assumption.
Qed.
Print Assumptions C58_sequential_bound.

(** ** Reading a point back *)

Lemma bounds_order : forall i prec sub best, milp_domain i prec -> in_objective i = OBinPacking -> best_valid i prec best -> bounds_in_order i (upper_bounds i sub best).
Proof.
  intros i prec sub best Hd Ho Hb t u Htu Hu. unfold upper_bounds in *. rewrite Ho in *. unfold bin_packing_upper_bounds in *. destruct (Z.eqb_spec (c_number_of_items (s_core best)) (in_number_of_items i)) as [E|E].
  - specialize (Hb Ho E). rewrite solution_view in *. assert (Hc : forall d, In d (view best) -> 0 <= bd_copies d) by (intros d Hdd; apply (pk_types _ _ _ Hb d Hdd)).
    pose proof (solution_counts_nth i (view best) t ltac:(lia) Hc) as Et. pose proof (solution_counts_nth i (view best) u ltac:(lia) Hc) as Eu. unfold ub_of in Et, Eu. rewrite Et.
    apply (pk_order _ _ _ Hb Ho t u Htu). lia.
  - apply (copies_ub i prec Hd t). lia.
Qed.

(** Soundness of the model: any point of it is read back without an exception;
    the bins read satisfy every constraint the MILP knows of, and their value is
    that of the point (at least that of the point when there are penalties). *)
Theorem C58_read_back : forall i prec ub ml mp, milp_domain i prec -> (forall x, 0 <= it_nesting (item_type i x)) -> (0 < ml)%Q -> (0 < mp)%Q ->
  (in_objective i = OKnapsack \/ all_mandatory i) -> (in_objective i = OBinPacking -> bounds_in_order i ub) ->
  forall m v cb, build_model i prec ub ml mp = Some m -> MilpPoint m v ->
  exists s, retrieve i ub cb v = Some s /\
    (forall d, In d (view s) -> (bd_type d < length (in_bin_types i))%nat /\ bd_copies d = 1 /\ MilpBinOK i d /\
      forall x, In x (bd_items d) -> (x < length (in_item_types i))%nat) /\
    (forall x, (x < length (in_item_types i))%nat -> it_copies_min (item_type i x) <= packed x (view s) <= it_copies (item_type i x)) /\
    (forall t, (t < length (in_bin_types i))%nat -> used_bins t (view s) <= Z.of_nat (nth t ub 0%nat) /\
      (needs_y i = true -> Z.min (bt_copies_min (bin_type i t)) (Z.of_nat (nth t ub 0%nat)) <= used_bins t (view s))) /\
    (in_objective i = OBinPacking -> OrderOK i (view s)) /\
    ((1 < length (in_bin_type_ids i))%nat -> PrecOK i prec (view s)) /\
    match in_objective i with
    | OBinPacking => (milp_value m v == inject_Z (zsum bd_copies (view s)))%Q
    | OVariableSizedBinPacking => (milp_value m v == cost_of i (view s))%Q
    | OKnapsack => threshold_resources i -> penalties_nonneg i -> (milp_value m v * mp <= net_profit i (view s))%Q
    | _ => True
    end.
Proof.
  intros i prec ub ml mp Hd Hnest Hml Hmp Hk Ho m v cb Hm Hv.
  destruct (retrieve_ok i prec ub ml mp m v Hd Hml Hm Hv Hnest cb Hk Ho) as (s & Hs & V & F). exists s. split; [exact Hs|]. rewrite V.
  split; [intros d Hdd; apply (ds_in i prec ub ml mp m v Hd Hml Hm Hv d Hdd)|].
  split; [intros x Hx; rewrite (packed_total i prec ub ml mp m v Hd Hml Hm Hv x); apply (total_bounds i prec ub ml mp m v Hm Hv x Hx)|].
  split; [intros t Ht; split; [apply used_le; exact Ht|intro Hy; apply (mandatory_ok i prec ub ml mp m v Hd Hml Hm Hv Hy t Ht)]|].
  split; [intro Hob; apply (order_ok i prec ub ml mp m v Hd Hml Hm Hv Hob (Ho Hob))|].
  split; [intro Hb; apply (precedence_ok i prec ub ml mp m v Hd Hml Hm Hv); unfold single_bin; apply Nat.leb_gt; exact Hb|].
  apply (retrieve_value i prec ub ml mp m v Hd Hml Hmp Hm Hv).
Qed.
Print Assumptions C58_read_back.

(** End to end: the solution read back from a best point is at least as good as
    every packing of the instance. *)
Theorem C58_best_point_is_best : forall i prec ml mp sub best, milp_domain i prec -> no_nesting i -> (0 < ml)%Q -> (0 < mp)%Q ->
  (in_objective i = OKnapsack \/ all_mandatory i) ->
  (in_objective i = OKnapsack -> threshold_resources i /\ penalties_nonneg i) ->
  (in_objective i = OVariableSizedBinPacking -> forall t, (t < length (in_bin_types i))%nat -> (0 <= bt_cost (bin_type i t))%Q) ->
  one_type_right i sub -> best_valid i prec best ->
  forall m v cb, build_model i prec (upper_bounds i sub best) ml mp = Some m -> best_point m v ->
  exists s, retrieve i (upper_bounds i sub best) cb v = Some s /\ forall ds, Packing i prec ds -> as_good i (view s) ds.
Proof.
  intros i prec ml mp sub best Hd Hn Hml Hmp Hk Hpen Hcost Hsub Hbest m v cb Hm [Hv Hopt].
  destruct (C58_read_back i prec (upper_bounds i sub best) ml mp Hd (fun x => Z.eq_le_incl _ _ (eq_sym (Hn x))) Hml Hmp Hk (fun Ho => bounds_order i prec sub best Hd Ho Hbest) m v cb Hm Hv) as (s & Hs & _ & _ & _ & _ & _ & Hval).
  exists s. split; [exact Hs|]. intros ds Hds. destruct (enough_all i prec Hd Hn Hcost sub best Hsub Hbest) as [Hub Hen]. destruct (Hen ds Hds) as (ds' & Hds' & Hg).
  destruct (packing_point i prec _ ml mp Hd Hml Hmp Hub m ds' Hds' Hm) as (w & Hw & Hwv). specialize (Hopt w Hw). specialize (Hwv (fun Ho => proj1 (Hpen Ho))).
  assert (Em : m_maximize m = is_knapsack i).
  { unfold build_model in Hm. destruct (divides_by_zero i); [discriminate|]. destruct (penalize_model i _ mp) as [[c1 r1]|]; [|discriminate].
    destruct (precedence_model i _ 0 prec) as [[c2 r2]|]; [|discriminate]. injection Hm as <-. reflexivity. }
  rewrite Em in Hopt. unfold is_knapsack, as_good, at_least_as_good, objective_value in *. destruct (in_objective i); try exact Logic.I.
  - rewrite Hval, Hwv in Hopt. rewrite <- Zle_Qle in Hopt. lia.
  - destruct (Hpen eq_refl) as [P1 P2]. specialize (Hval P1 P2). rewrite Hwv in Hopt. apply (Qmult_le_compat_r _ _ mp) in Hopt; [|lra].
    setoid_replace (net_profit i ds' / mp * mp)%Q with (net_profit i ds') in Hopt by (field; lra). rewrite Hg in Hopt. lra.
  - rewrite Hval, Hwv in Hopt. lra.
Qed.
Print Assumptions C58_best_point_is_best.

(** Without the constraints the MILP ignores, the solution read back is a
    packing of the instance. *)
Theorem C58_read_back_valid : forall i prec ub ml mp, milp_domain i prec -> no_nesting i -> no_stack_limits i -> (0 < ml)%Q -> (0 < mp)%Q ->
  (in_objective i = OKnapsack \/ all_mandatory i) -> (in_objective i = OBinPacking -> bounds_in_order i ub) ->
  (forall t, (t < length (in_bin_types i))%nat -> Z.of_nat (nth t ub 0%nat) <= bt_copies (bin_type i t) /\
    (needs_y i = true -> bt_copies_min (bin_type i t) <= Z.of_nat (nth t ub 0%nat))) ->
  (prec = [] \/ (1 < length (in_bin_type_ids i))%nat) ->
  forall m v cb, build_model i prec ub ml mp = Some m -> MilpPoint m v ->
  exists s, retrieve i ub cb v = Some s /\ Packing i prec (view s).
Proof.
  intros i prec ub ml mp Hd Hn Hst Hml Hmp Hk Ho Hub Hp m v cb Hm Hv.
  destruct (C58_read_back i prec ub ml mp Hd (fun x => Z.eq_le_incl _ _ (eq_sym (Hn x))) Hml Hmp Hk Ho m v cb Hm Hv) as (s & Hs & H1 & H2 & H3 & H4 & H5 & _).
  exists s. split; [exact Hs|].
  assert (Hlen : forall d, In d (view s) -> Z.of_nat (length (bd_items d)) <= in_number_of_items i).
  { intros d Hdd. destruct (H1 d Hdd) as (_ & E & _ & Hids). rewrite (md_number _ _ Hd), (zsum_seq_nth _ it_copies dummy_item (in_item_types i)).
    assert (L : Z.of_nat (length (bd_items d)) = zsum (fun x => Z.of_nat (count_occ Nat.eq_dec (bd_items d) x) * 1) (seq 0 (length (in_item_types i)))).
    { rewrite (zcount_weighted (fun _ => 1) _ _ Hids). clear. induction (bd_items d) as [|x l IH]; [reflexivity|]. rewrite zsum_cons. cbn [length]. lia. }
    rewrite L. apply zsum_le. intros x Hx. apply in_seq in Hx. destruct (H2 x ltac:(lia)) as [_ B]. unfold item_type in B. eapply Z.le_trans; [|exact B]. unfold packed.
    pose proof (zmember _ (fun d => bd_copies d * Z.of_nat (count_occ Nat.eq_dec (bd_items d) x)) (view s) d) as M. cbv beta in M. rewrite E in M.
    rewrite Z.mul_1_r. rewrite Z.mul_1_l in M. apply M; [|exact Hdd]. intros e He. destruct (H1 e He) as (_ & Ee & _). rewrite Ee. lia. }
  constructor.
  - intros d Hdd. destruct (H1 d Hdd) as (A & B & _). split; [exact A|lia].
  - intros d x Hdd. apply (H1 d Hdd).
  - constructor.
    + intros d Hdd. destruct (H1 d Hdd) as (A & B & [C1 C2 C3 C4] & D). apply bin_ok_simple; [apply (md_sane _ _ Hd)|]. constructor.
      * eapply Z.le_trans; [|exact C1]. unfold bin_end. rewrite (zsum_ext _ _ (fun _ => 0) (tl (bd_items d))) by (intros x _; apply Hn). rewrite zsum_const0. lia.
      * exact C2.
      * intros x Hx. eapply Z.le_trans; [apply (Hlen d Hdd)|]. apply (Hst x). apply D. exact Hx.
      * intros a x after E. rewrite (proj1 (Hst x (D x ltac:(rewrite E; apply in_or_app; right; left; reflexivity)))). exact Logic.I.
      * exact C3.
      * exact C4.
    + intros d x Hdd Hx. apply (H2 x). apply (H1 d Hdd). exact Hx.
    + intros x Hx. apply (H2 x Hx).
  - intros x Hx. apply (H2 x Hx).
  - intros t Ht. destruct (H3 t Ht) as [A _]. destruct (Hub t Ht) as [B _]. lia.
  - intros Hy t Ht. destruct (H3 t Ht) as [_ A]. specialize (A Hy). destruct (Hub t Ht) as [_ B]. specialize (B Hy). lia.
  - exact H4.
  - destruct Hp as [->|Hp]; [intros a b []|apply H5; exact Hp].
Qed.
Print Assumptions C58_read_back_valid.

(** ** Checkers for the examples *)

Definition pos_check (q : Q) : bool := Qle_bool 0 q.
Definition binary_check (q : Q) : bool := Qeq_bool q 0 || Qeq_bool q 1.
Definition row_check (v : MVar -> Q) (r : MRow) : bool :=
  match row_lower r with None => true | Some l => Qle_bool l (row_value v r) end &&
  match row_upper r with None => true | Some u => Qle_bool (row_value v r) u end.
Definition point_check (m : Milp) (v : MVar -> Q) : bool :=
  forallb (fun c => binary_check (v (col_var c)) && Qle_bool (col_lower c) (v (col_var c))) (m_cols m) && forallb (row_check v) (m_rows m).

Lemma row_check_spec : forall v r, row_check v r = true <-> row_holds v r.
Proof.
  intros v r. unfold row_check, row_holds. rewrite andb_true_iff. destruct (row_lower r); destruct (row_upper r); rewrite ?Qle_bool_iff; tauto.
Qed.
Lemma point_check_spec : forall m v, point_check m v = true <-> MilpPoint m v.
Proof.
  intros m v. unfold point_check. rewrite andb_true_iff, !forallb_forall. split.
  - intros [H1 H2]. constructor.
    + intros c Hc. specialize (H1 c Hc). apply andb_true_iff in H1. destruct H1 as [A B]. apply Qle_bool_iff in B. apply orb_true_iff in A. rewrite !Qeq_bool_iff in A. split; [exact A|exact B].
    + intros r Hr. apply row_check_spec. apply H2. exact Hr.
  - intros [H1 H2]. split.
    + intros c Hc. destruct (H1 c Hc) as [A B]. apply andb_true_iff. split; [|apply Qle_bool_iff; exact B]. apply orb_true_iff. rewrite !Qeq_bool_iff. exact A.
    + intros r Hr. apply row_check_spec. apply H2. exact Hr.
Qed.

Definition within_check (q : Q) (o : option Q) : bool := match o with None => true | Some w => Qle_bool q w end.
Lemma within_check_spec : forall q o, within_check q o = true -> within q o.
Proof. intros q [w|] H; [apply Qle_bool_iff; exact H|exact Logic.I]. Qed.

Definition ids_check (i : Instance) : bool :=
  forallb (fun x => forallb (fun t =>
    let l := nth t (it_resource_ids (item_type i x)) [] in
    let want := filter (fun r => match schedule (nth r (bt_resources (bin_type i t)) dummy_resource) x with [] => false | _ => true end) (seq 0 (length (bt_resources (bin_type i t)))) in
    if list_eq_dec Nat.eq_dec l want then true else false) (seq 0 (length (in_bin_types i)))) (seq 0 (length (in_item_types i))).
Lemma ids_check_spec : forall i, ids_check i = true -> wf_resource_ids i.
Proof.
  intros i H x t Hx Ht. unfold ids_check in H. rewrite forallb_forall in H. specialize (H x (proj2 (in_seq _ _ _) (conj (Nat.le_0_l x) Hx))). rewrite forallb_forall in H.
  specialize (H t (proj2 (in_seq _ _ _) (conj (Nat.le_0_l t) Ht))). cbv zeta in H. destruct (list_eq_dec _ _ _) as [E|]; [|discriminate]. rewrite E. split; [apply NoDup_filter, seq_NoDup|].
  intro r. rewrite filter_In, in_seq. destruct (schedule _ x) eqn:Es; split; intros [A B]; try (split; [lia|]); try discriminate; try reflexivity. contradiction.
Qed.

Definition sane_check (i : Instance) : bool :=
  forallb (fun it => (0 <=? it_length it) && (it_nesting it <=? it_length it) && pos_check (it_weight it) && within_check 0 (it_max_weight_after it)) (in_item_types i)
  && forallb (fun b => (0 <=? bt_length b) && within_check 0 (bt_max_weight b)
       && forallb (fun r => pos_check (res_capacity r) && forallb (forallb pos_check) (res_item_consumptions r)) (bt_resources b)) (in_bin_types i).
Lemma sane_check_spec : forall i, sane_check i = true -> sane_instance i.
Proof.
  intros i H. unfold sane_check in H. apply andb_true_iff in H. destruct H as [H1 H2]. rewrite forallb_forall in H1, H2. constructor.
  - intros b r Hb Hr. specialize (H2 b Hb). apply andb_true_iff in H2. destruct H2 as [_ H2]. rewrite forallb_forall in H2. specialize (H2 r Hr). apply andb_true_iff in H2. destruct H2 as [A B].
    split; [apply Qle_bool_iff; exact A|]. rewrite forallb_forall in B. intros l q Hl Hq. specialize (B l Hl). rewrite forallb_forall in B. apply Qle_bool_iff. apply B. exact Hq.
  - intro x. unfold item_type. destruct (nth_in_or_default x (in_item_types i) dummy_item) as [Hin|E].
    + specialize (H1 _ Hin). rewrite !andb_true_iff in H1. destruct H1 as [[[A B] C] D]. split; [lia|]. split; [lia|]. split; [apply Qle_bool_iff; exact C|apply within_check_spec; exact D].
    + rewrite E. split; [simpl; lia|]. split; [simpl; lia|]. split; [apply Qle_refl|exact Logic.I].
  - intro t. unfold bin_type. destruct (nth_in_or_default t (in_bin_types i) dummy_bin) as [Hin|E].
    + specialize (H2 _ Hin). rewrite !andb_true_iff in H2. destruct H2 as [[A B] _]. split; [lia|apply within_check_spec; exact B].
    + rewrite E. split; [simpl; lia|exact Logic.I].
Qed.

Definition domain_check (i : Instance) (prec : list (nat * nat)) : bool :=
  sane_check i && ids_check i
  && forallb (fun it => (0 <? it_length it) && (1 <=? it_copies it) && (0 <=? it_copies_min it) && (it_copies_min it <=? it_copies it)) (in_item_types i)
  && forallb (fun b => (0 <=? bt_copies b) && (0 <=? bt_copies_min b)) (in_bin_types i)
  && forallb (fun ab => (fst ab <? length (in_item_types i))%nat && (snd ab <? length (in_item_types i))%nat) prec
  && (in_number_of_items i =? zsum it_copies (in_item_types i))
  && (Z.of_nat (length (in_bin_type_ids i)) =? zsum bt_copies (in_bin_types i)).
Lemma domain_check_spec : forall i prec, domain_check i prec = true -> milp_domain i prec.
Proof.
  intros i prec H. unfold domain_check in H. rewrite !andb_true_iff in H. destruct H as [[[[[[H1 H2] H3] H4] H5] H6] H7]. rewrite forallb_forall in H3, H4, H5. constructor.
  - apply sane_check_spec. exact H1.
  - apply ids_check_spec. exact H2.
  - intros x Hx. specialize (H3 _ (nth_In _ dummy_item Hx)). rewrite !andb_true_iff in H3. unfold item_type. lia.
  - intros t Ht. specialize (H4 _ (nth_In _ dummy_bin Ht)). rewrite !andb_true_iff in H4. unfold bin_type. lia.
  - intros a b Hab. specialize (H5 _ Hab). apply andb_true_iff in H5. cbn [fst snd] in H5. rewrite !Nat.ltb_lt in H5. exact H5.
  - lia.
  - lia.
Qed.

Definition bin_check (i : Instance) (d : BinDesc) : bool :=
  (bin_end i (bd_items d) <=? bt_length (bin_type i (bd_type d)))
  && within_check (total_weight i (bd_items d)) (bt_max_weight (bin_type i (bd_type d)))
  && forallb (fun x => (Z.of_nat (length (bd_items d)) <=? it_stackability (item_type i x))
       && match it_max_weight_after (item_type i x) with None => true | _ => false end && (it_eligibility (item_type i x) =? -1)) (bd_items d)
  && forallb (fun r => res_penalize r || Qle_bool (consumption i r (bd_items d)) (res_capacity r)) (bt_resources (bin_type i (bd_type d))).
Lemma bin_check_spec : forall i d, sane_instance i -> bin_check i d = true -> BinOK i d.
Proof.
  intros i d Hs H. apply bin_ok_simple; [exact Hs|]. unfold bin_check in H. rewrite !andb_true_iff in H. destruct H as [[[H1 H2] H3] H4]. rewrite forallb_forall in H3, H4. constructor.
  - lia.
  - apply within_check_spec. exact H2.
  - intros x Hx. specialize (H3 x Hx). rewrite !andb_true_iff in H3. lia.
  - intros a x after E. specialize (H3 x ltac:(rewrite E; apply in_or_app; right; left; reflexivity)). rewrite !andb_true_iff in H3. destruct H3 as [[_ G] _]. destruct (it_max_weight_after _); [discriminate|exact Logic.I].
  - intros x Hx. specialize (H3 x Hx). rewrite !andb_true_iff in H3. left. lia.
  - intros r Hr Hp. specialize (H4 r Hr). rewrite Hp in H4. apply Qle_bool_iff. exact H4.
Qed.

Definition packing_check (i : Instance) (prec : list (nat * nat)) (ds : list BinDesc) : bool :=
  forallb (fun d => (bd_type d <? length (in_bin_types i))%nat && (0 <=? bd_copies d) && bin_check i d && forallb (fun x => (x <? length (in_item_types i))%nat) (bd_items d)) ds
  && forallb (fun x => (it_copies_min (item_type i x) <=? packed x ds) && (packed x ds <=? it_copies (item_type i x))) (seq 0 (length (in_item_types i)))
  && forallb (fun t => (used_bins t ds <=? bt_copies (bin_type i t)) && (negb (needs_y i) || (bt_copies_min (bin_type i t) <=? used_bins t ds))
       && forallb (fun u => negb (is_bin_packing i) || negb (t <? u)%nat || negb (0 <? used_bins u ds) || (used_bins t ds =? bt_copies (bin_type i t))) (seq 0 (length (in_bin_types i))))
       (seq 0 (length (in_bin_types i)))
  && forallb (fun ab => negb (0 <? packed (fst ab) ds) || (packed (snd ab) ds =? it_copies (item_type i (snd ab)))) prec.
Lemma packing_check_spec : forall i prec ds, sane_instance i -> packing_check i prec ds = true -> Packing i prec ds.
Proof.
  intros i prec ds Hs H. unfold packing_check in H. rewrite !andb_true_iff in H. destruct H as [[[H1 H2] H3] H4]. rewrite forallb_forall in H1, H2, H3, H4.
  assert (D : forall d, In d ds -> (bd_type d < length (in_bin_types i))%nat /\ 0 <= bd_copies d /\ BinOK i d /\ forall x, In x (bd_items d) -> (x < length (in_item_types i))%nat).
  { intros d Hd. specialize (H1 d Hd). rewrite !andb_true_iff in H1. destruct H1 as [[[A B] C] E]. split; [apply Nat.ltb_lt; exact A|]. split; [lia|]. split; [apply bin_check_spec; assumption|].
    rewrite forallb_forall in E. intros x Hx. apply Nat.ltb_lt. apply E. exact Hx. }
  assert (X : forall x, (x < length (in_item_types i))%nat -> it_copies_min (item_type i x) <= packed x ds <= it_copies (item_type i x)).
  { intros x Hx. specialize (H2 x (proj2 (in_seq _ _ _) (conj (Nat.le_0_l x) Hx))). rewrite andb_true_iff in H2. lia. }
  assert (T : forall t, (t < length (in_bin_types i))%nat -> used_bins t ds <= bt_copies (bin_type i t) /\ (needs_y i = true -> bt_copies_min (bin_type i t) <= used_bins t ds) /\
    forall u, (t < u < length (in_bin_types i))%nat -> is_bin_packing i = true -> 0 < used_bins u ds -> used_bins t ds = bt_copies (bin_type i t)).
  { intros t Ht. specialize (H3 t (proj2 (in_seq _ _ _) (conj (Nat.le_0_l t) Ht))). rewrite !andb_true_iff in H3. destruct H3 as [[A B] C]. split; [lia|]. split.
    - intro Hy. rewrite Hy in B. cbn [negb orb] in B. lia.
    - intros u Hu Hb Hpos. rewrite forallb_forall in C. specialize (C u (proj2 (in_seq _ _ _) (conj (Nat.le_0_l u) (proj2 Hu)))). rewrite Hb in C. assert (E1 : (t <? u)%nat = true) by (apply Nat.ltb_lt; lia). assert (E2 : (0 <? used_bins u ds) = true) by lia.
      rewrite E1, E2 in C. cbn [negb orb] in C. lia. }
  constructor.
  - intros d Hd. destruct (D d Hd) as (A & B & _). auto.
  - intros d x Hd. apply (D d Hd).
  - constructor; [intros d Hd; apply (D d Hd)|intros d x Hd Hx; apply (X x), (D d Hd); exact Hx|intros x Hx; apply (X x Hx)].
  - intros x Hx. apply (X x Hx).
  - intros t Ht. apply (T t Ht).
  - intros Hy t Ht. apply (T t Ht). exact Hy.
  - intros Ho t u Htu Hu. apply (T t ltac:(lia)) with (u := u); [exact Htu|unfold is_bin_packing; rewrite Ho; reflexivity|exact Hu].
  - intros a b Hab Ha. specialize (H4 _ Hab). cbn [fst snd] in H4. assert (E : (0 <? packed a ds) = true) by lia. rewrite E in H4. cbn [negb orb] in H4. lia.
Qed.

(** Reading a model that is built. *)
Definition the_model (i : Instance) (prec : list (nat * nat)) (ub : list nat) (ml mp : Q) : Milp :=
  match build_model i prec ub ml mp with Some m => m | None => mkMilp false [] [] end.

(** ** Examples *)

(** Five items in two bins of one type and one of another. *)
Definition ex_bp : Instance :=
  mkInst OBinPacking [mkIT 4 4 3 3 0 0 9 None (-1) [[]; []]; mkIT 3 3 2 2 0 0 9 None (-1) [[]; []]]
    [mkBT 10 10 2 0 None [] [] [0; 1]%nat; mkBT 7 7 1 0 None [] [] [0; 1]%nat]
    [0; 0; 1]%nat [] 27 10 5 18 18 4 None 3 false.
Definition ex_bp_packing : list BinDesc := [mkBD 0 1 [0; 1; 1]; mkBD 0 1 [0; 0]]%nat.
Definition ex_cb : Callback := fun _ => true.
Definition ex_bp_ub : list nat := copies_upper_bounds ex_bp.
Definition ex_bp_model : Milp := the_model ex_bp [] ex_bp_ub 10 1.
Definition ex_bp_point : MVar -> Q := loads_point (fun t => match t with O => [[0; 1; 1]; [0; 0]]%nat | _ => [] end).

Example C58_bin_packing_example : milp_domain ex_bp [] /\ no_nesting ex_bp /\ no_stack_limits ex_bp /\ all_mandatory ex_bp /\
  Packing ex_bp [] ex_bp_packing /\ build_model ex_bp [] ex_bp_ub 10 1 = Some ex_bp_model /\ MilpPoint ex_bp_model ex_bp_point /\
  bounds_in_order ex_bp ex_bp_ub /\ (length (m_cols ex_bp_model) = 13)%nat /\ (length (m_rows ex_bp_model) = 11)%nat /\
  option_map view (retrieve ex_bp ex_bp_ub ex_cb ex_bp_point) = Some ex_bp_packing.
Proof.
  split; [apply domain_check_spec; vm_compute; reflexivity|]. split; [intros [|[|x]]; try reflexivity; unfold item_type; simpl; destruct x; reflexivity|].
  split; [intros [|[|x]] Hx; [split; [reflexivity|vm_compute; discriminate]|split; [reflexivity|vm_compute; discriminate]|simpl in Hx; lia]|].
  split; [intros [|[|x]] Hx; [reflexivity|reflexivity|simpl in Hx; lia]|].
  split; [apply packing_check_spec; [apply sane_check_spec|]; vm_compute; reflexivity|]. split; [vm_compute; reflexivity|]. split; [apply point_check_spec; vm_compute; reflexivity|].
  split; [intros [|[|t]] [|[|u]] H Hu; simpl in H; try lia; reflexivity|]. split; [vm_compute; reflexivity|]. split; vm_compute; reflexivity.
Qed.

(** Knapsack with a penalised resource "at least two of these items" and a
    precedence. *)
Definition ex_ks : Instance :=
  mkInst OKnapsack [mkIT 4 9 1 0 0 0 9 None (-1) [[0]%nat]; mkIT 3 5 2 0 0 0 9 None (-1) [[0]%nat]; mkIT 2 1 1 0 0 0 9 None (-1) [[]]]
    [mkBT 7 7 2 0 None [] [mkResource 1 [[1; 0]; [1; 0]; []]%Q true 4] [0; 1; 2]%nat]
    [0; 0]%nat [] 14 7 4 12 20 9 None 2 false.
Definition ex_ks_prec : list (nat * nat) := [(2, 1)]%nat.
Definition ex_ks_packing : list BinDesc := [mkBD 0 1 [0; 1]; mkBD 0 1 [1; 2]]%nat.
Definition ex_ks_ub : list nat := copies_upper_bounds ex_ks.
Definition ex_ks_model : Milp := the_model ex_ks ex_ks_prec ex_ks_ub 7 9.
Definition ex_ks_point : MVar -> Q := fun u =>
  match u with
  | VPsi _ _ 0 | VZ _ => 1%Q
  | _ => loads_point (fun t => match t with O => [[0; 1]; [1; 2]]%nat | _ => [] end) u
  end.

Example C58_knapsack_example : milp_domain ex_ks ex_ks_prec /\ threshold_resources ex_ks /\ penalties_nonneg ex_ks /\
  Packing ex_ks ex_ks_prec ex_ks_packing /\ build_model ex_ks ex_ks_prec ex_ks_ub 7 9 = Some ex_ks_model /\
  MilpPoint ex_ks_model ex_ks_point /\ (milp_value ex_ks_model ex_ks_point * 9 == net_profit ex_ks ex_ks_packing)%Q /\
  (net_profit ex_ks ex_ks_packing == 16)%Q /\
  option_map view (retrieve ex_ks ex_ks_ub ex_cb ex_ks_point) = Some ex_ks_packing.
Proof.
  split; [apply domain_check_spec; vm_compute; reflexivity|].
  split; [intros [|t] r x Ht Hr _ Hx; [|simpl in Ht; lia]; destruct Hr as [<-|[]]; destruct x as [|[|[|x]]]; [exists 1%nat|exists 1%nat|exists 0%nat|simpl in Hx; lia]; intros [|[|c]]; try reflexivity; destruct c; reflexivity|].
  split; [intros [|t] r Ht Hr; [|simpl in Ht; lia]; destruct Hr as [<-|[]]; discriminate|].
  split; [apply packing_check_spec; [apply sane_check_spec|]; vm_compute; reflexivity|]. split; [vm_compute; reflexivity|]. split; [apply point_check_spec; vm_compute; reflexivity|].
  split; [vm_compute; reflexivity|]. split; vm_compute; reflexivity.
Qed.

(** The assumptions on the solvers called are met, and the claims are not
    empty. *)
Definition ex_vs : Instance :=
  mkInst OVariableSizedBinPacking [mkIT 4 4 2 2 0 0 9 None (-1) [[]; []]]
    [mkBT 10 10 3 0 None [] [] [0]%nat; mkBT 5 6 3 0 None [] [] [0]%nat]
    [0; 0; 0; 1; 1; 1]%nat [] 45 10 2 8 8 4 None 2 false.
Definition ex_vs_sub : nat -> option nat := fun t => match t with O => Some 1%nat | _ => Some 2%nat end.
Example C58_variable_sized_example : milp_domain ex_vs [] /\ no_nesting ex_vs /\ one_type_right ex_vs ex_vs_sub /\
  (forall best, upper_bounds ex_vs ex_vs_sub best = [1; 2]%nat) /\ Packing ex_vs [] [mkBD 0 1 [0; 0]%nat] /\
  build_model ex_vs [] [1; 2]%nat 10 1 = Some (the_model ex_vs [] [1; 2]%nat 10 1) /\
  (forall best, best_valid ex_vs [] best) /\ milp_claim ex_vs 1 0 (DualBound 10) = CostBound 10.
Proof.
  split; [apply domain_check_spec; vm_compute; reflexivity|]. split; [intros [|x]; [reflexivity|]; unfold item_type; simpl; destruct x; reflexivity|].
  split.
  { intros [|[|t]] n Ht E; [| |simpl in Ht; lia]; injection E as <-; [exists [[0; 0]%nat]|exists [[0]; [0]]%nat]; (split; [reflexivity|]); split.
    - intros l [<-|[]]. split; [constructor; cbn [bd_items bd_type]|intros x [<-|[<-|[]]]; simpl; lia].
      + vm_compute. discriminate.
      + exact Logic.I.
      + intros x [<-|[<-|[]]]; left; reflexivity.
      + intros r [].
    - intros [|x] Hx _; [reflexivity|simpl in Hx; lia].
    - intros l Hl. assert (E : l = [0%nat]) by (destruct Hl as [<-|[<-|[]]]; reflexivity). subst l. split; [constructor; cbn [bd_items bd_type]|intros x [<-|[]]; simpl; lia].
      + vm_compute. discriminate.
      + exact Logic.I.
      + intros x [<-|[]]; left; reflexivity.
      + intros r [].
    - intros [|x] Hx _; [reflexivity|simpl in Hx; lia]. }
  split; [intro best; reflexivity|]. split; [apply packing_check_spec; [apply sane_check_spec|]; vm_compute; reflexivity|]. split; [vm_compute; reflexivity|].
  split; [intros best Ho; discriminate Ho|reflexivity].
Qed.

(** ** What does not hold *)

(** The rows use the full lengths: two nested items that fit in the only bin are
    declared infeasible by an honest answer. *)
Definition nest_inst : Instance :=
  mkInst OBinPacking [mkIT 10 10 2 2 0 5 9 None (-1) [[]]] [mkBT 15 15 1 0 None [] [] [0]%nat] [0]%nat [] 15 15 2 20 20 10 None 2 false.
Theorem C58_nesting_refuted : exists i ub m ds, milp_domain i [] /\ Packing i [] ds /\ ub = copies_upper_bounds i /\
  build_model i [] ub 10 1 = Some m /\ honest_answer m ProvenInfeasible /\ ~ claim_right i [] (milp_claim i 1 0 ProvenInfeasible).
Proof.
  exists nest_inst, [1%nat], (the_model nest_inst [] [1%nat] 10 1), [mkBD 0 1 [0; 0]%nat].
  assert (P : Packing nest_inst [] [mkBD 0 1 [0; 0]%nat]) by (apply packing_check_spec; [apply sane_check_spec|]; vm_compute; reflexivity).
  split; [apply domain_check_spec; vm_compute; reflexivity|]. split; [exact P|]. split; [reflexivity|]. split; [vm_compute; reflexivity|]. split; [|intro H; exact (H _ P)].
  intros v Hv. pose proof (pt_columns _ _ Hv (mkCol (VX 0 0 0 0) 0 0) ltac:(vm_compute; tauto)) as [B _].
  pose proof (pt_rows _ _ Hv (mkRow [(VX 0 0 0 0, 1%Q)] (Some (inject_Z 2)) (Some (inject_Z 2))) ltac:(vm_compute; tauto)) as [R _].
  unfold row_value in R. cbn [row_lower row_terms] in R. rewrite qsum_cons, qsum_nil in R. cbn [fst snd col_var] in *. change (inject_Z 2) with 2%Q in R. destruct B as [B|B]; rewrite B in R; lra.
Qed.
Print Assumptions C58_nesting_refuted.

(** A packing that pays a penalty, or that packs an item type dominated by
    another one, is not turned into a point by the warm start: the penalty and
    precedence columns stay at 0. *)
Definition warm_of (i : Instance) (ds : list BinDesc) : option Solution :=
  history i ex_cb (Milp_Model.bin_calls 0 (map (fun d => (bd_type d, bd_items d)) ds)) [].
Theorem C58_warm_start_refuted :
  (exists i ub m ds s w, milp_domain i [] /\ threshold_resources i /\ Packing i [] ds /\ build_model i [] ub 1 1 = Some m /\ ub = copies_upper_bounds i /\
    warm_of i ds = Some s /\ view s = ds /\ warm_start i ub s = Some w /\ ~ MilpPoint m w) /\
  (exists i prec ub m ds s w, milp_domain i prec /\ Packing i prec ds /\ build_model i prec ub 1 1 = Some m /\ ub = copies_upper_bounds i /\
    warm_of i ds = Some s /\ view s = ds /\ warm_start i ub s = Some w /\ ~ MilpPoint m w).
Proof.
  set (i1 := mkInst OKnapsack [mkIT 4 9 2 0 0 0 9 None (-1) [[0]%nat]] [mkBT 8 8 1 0 None [] [mkResource 1 [[1; 1; 0]]%Q true 4] [0]%nat] [0]%nat [] 8 8 2 8 18 9 None 2 false).
  set (i2 := mkInst OKnapsack [mkIT 4 9 1 0 0 0 9 None (-1) [[]]; mkIT 4 9 1 0 0 0 9 None (-1) [[]]] [mkBT 8 8 2 0 None [] [] [0; 1]%nat] [0; 0]%nat [] 16 8 2 8 18 9 None 1 false).
  split.
  - pose (s := match warm_of i1 [mkBD 0 1 [0; 0]%nat] with Some s => s | None => sol_new i1 end).
    exists i1, [1%nat], (the_model i1 [] [1%nat] 1 1), [mkBD 0 1 [0; 0]%nat], s, (loads_point (fun t => load_sort i1 (type_loads (solution_bins s) t))).
    split; [apply domain_check_spec; vm_compute; reflexivity|].
    split; [intros [|t] r x Ht Hr _ Hx; [|simpl in Ht; lia]; destruct Hr as [<-|[]]; destruct x as [|x]; [exists 2%nat|simpl in Hx; lia]; intros [|[|[|c]]]; try reflexivity; destruct c; reflexivity|].
    split; [apply packing_check_spec; [apply sane_check_spec|]; vm_compute; reflexivity|]. split; [vm_compute; reflexivity|]. split; [reflexivity|]. split; [vm_compute; reflexivity|]. split; [vm_compute; reflexivity|].
    split; [unfold warm_start; assert (E : warm_checks i1 [1%nat] s = true) by (vm_compute; reflexivity); rewrite E; reflexivity|].
    intro H. apply point_check_spec in H. vm_compute in H. discriminate H.
  - pose (s := match warm_of i2 [mkBD 0 1 [0; 1]%nat] with Some s => s | None => sol_new i2 end).
    exists i2, [(0, 1)%nat], [2%nat], (the_model i2 [(0, 1)%nat] [2%nat] 1 1), [mkBD 0 1 [0; 1]%nat], s, (loads_point (fun t => load_sort i2 (type_loads (solution_bins s) t))).
    split; [apply domain_check_spec; vm_compute; reflexivity|].
    split; [apply packing_check_spec; [apply sane_check_spec|]; vm_compute; reflexivity|]. split; [vm_compute; reflexivity|]. split; [reflexivity|]. split; [vm_compute; reflexivity|]. split; [vm_compute; reflexivity|].
    split; [unfold warm_start; assert (E : warm_checks i2 [2%nat] s = true) by (vm_compute; reflexivity); rewrite E; reflexivity|].
    intro H. apply point_check_spec in H. vm_compute in H. discriminate H.
Qed.
Print Assumptions C58_warm_start_refuted.

(** With optional copies and an objective other than Knapsack, reading back an
    optimal point of the model throws: the solution is not full. *)
Definition optional_inst : Instance :=
  mkInst OBinPacking [mkIT 6 6 2 1 0 0 9 None (-1) [[]]] [mkBT 10 10 2 0 None [] [] [0]%nat] [0; 0]%nat [] 20 10 2 12 12 6 None 2 false.
Definition optional_point : MVar -> Q := loads_point (fun t => match t with O => [[0%nat]] | _ => [] end).
Theorem C58_optional_copies_refuted : exists i ub m v, milp_domain i [] /\ no_nesting i /\ bounds_in_order i ub /\ ub = copies_upper_bounds i /\
  build_model i [] ub 10 1 = Some m /\ best_point m v /\ forall cb, retrieve i ub cb v = None.
Proof.
  exists optional_inst, [2%nat], (the_model optional_inst [] [2%nat] 10 1), optional_point.
  split; [apply domain_check_spec; vm_compute; reflexivity|]. split; [intros [|x]; [reflexivity|]; unfold item_type; simpl; destruct x; reflexivity|].
  split; [intros t u H; simpl in H; lia|]. split; [reflexivity|]. split; [vm_compute; reflexivity|]. split; [|intro cb; vm_compute; reflexivity]. split; [apply point_check_spec; vm_compute; reflexivity|].
  intros w Hw. change (m_maximize (the_model optional_inst [] [2%nat] 10 1)) with false. cbv iota.
  assert (V : (milp_value (the_model optional_inst [] [2%nat] 10 1) optional_point == 1)%Q) by (vm_compute; reflexivity). rewrite V.
  pose proof (pt_columns _ _ Hw (mkCol (VY 0 0) 0 1) ltac:(vm_compute; tauto)) as [By0 _]. pose proof (pt_columns _ _ Hw (mkCol (VY 0 1) 0 1) ltac:(vm_compute; tauto)) as [By1 _].
  pose proof (pt_columns _ _ Hw (mkCol (VX 0 0 0 0) 0 0) ltac:(vm_compute; tauto)) as [Bx0 _]. pose proof (pt_columns _ _ Hw (mkCol (VX 0 0 1 0) 0 0) ltac:(vm_compute; tauto)) as [Bx1 _]. cbn [col_var] in *.
  assert (W : (milp_value (the_model optional_inst [] [2%nat] 10 1) w == w (VY 0 0) + w (VY 0 1))%Q).
  { change (the_model optional_inst [] [2%nat] 10 1) with (mkMilp false [mkCol (VY 0 0) 0 1; mkCol (VY 0 1) 0 1; mkCol (VX 0 0 0 0) 0 0; mkCol (VX 0 0 1 0) 0 0] (m_rows (the_model optional_inst [] [2%nat] 10 1))).
    unfold milp_value. cbn [m_cols]. rewrite !qsum_cons, qsum_nil. cbn [col_obj col_var]. ring. }
  rewrite W.
  pose proof (pt_rows _ _ Hw (mkRow [(VX 0 0 0 0, 1%Q); (VX 0 0 1 0, 1%Q)] (Some (inject_Z 1)) (Some (inject_Z 2))) ltac:(vm_compute; tauto)) as [R1 _].
  pose proof (pt_rows _ _ Hw (mkRow [(VX 0 0 0 0, (inject_Z 6 / 10)%Q); (VY 0 0, (- (inject_Z 10 / 10))%Q)] None (Some 0%Q)) ltac:(vm_compute; tauto)) as [_ R2].
  pose proof (pt_rows _ _ Hw (mkRow [(VX 0 0 1 0, (inject_Z 6 / 10)%Q); (VY 0 1, (- (inject_Z 10 / 10))%Q)] None (Some 0%Q)) ltac:(vm_compute; tauto)) as [_ R3].
  unfold row_value in R1, R2, R3. cbn [row_lower row_upper row_terms] in R1, R2, R3. rewrite !qsum_cons, qsum_nil in R1, R2, R3. cbn [fst snd] in R1, R2, R3.
  change (inject_Z 1) with 1%Q in R1. setoid_replace (inject_Z 6 / 10)%Q with (6 # 10)%Q in R2 by reflexivity. setoid_replace (inject_Z 6 / 10)%Q with (6 # 10)%Q in R3 by reflexivity.
  setoid_replace (- (inject_Z 10 / 10))%Q with (-1)%Q in R2 by reflexivity. setoid_replace (- (inject_Z 10 / 10))%Q with (-1)%Q in R3 by reflexivity.
  destruct Bx0 as [Bx0|Bx0], Bx1 as [Bx1|Bx1], By0 as [By0|By0], By1 as [By1|By1]; rewrite Bx0, Bx1 in R1; rewrite Bx0, By0 in R2; rewrite Bx1, By1 in R3; rewrite By0, By1; lra.
Qed.
Print Assumptions C58_optional_copies_refuted.

(** VariableSizedBinPacking: the bound on the bins of a type may be smaller than
    the number of bins that must be used, so that mandatory bins are lost. *)
Definition mandatory_inst : Instance :=
  mkInst OVariableSizedBinPacking [mkIT 5 5 1 1 0 0 9 None (-1) [[]]] [mkBT 10 3 2 2 None [] [] [0]%nat] [0; 0]%nat [] 20 3 1 5 5 5 None 1 false.
Theorem C58_mandatory_bins_refuted : exists i sub m v cb s, milp_domain i [] /\ no_nesting i /\ all_mandatory i /\ one_type_right i sub /\
  (forall best, build_model i [] (upper_bounds i sub best) 10 1 = Some m /\ retrieve i (upper_bounds i sub best) cb v = Some s) /\ MilpPoint m v /\
  used_bins 0 (view s) < bt_copies_min (bin_type i 0).
Proof.
  pose (v := loads_point (fun t => match t with O => [[0%nat]] | _ => [] end)).
  pose (s := match retrieve mandatory_inst [1%nat] ex_cb v with Some s => s | None => sol_new mandatory_inst end).
  exists mandatory_inst, (fun _ => Some 1%nat), (the_model mandatory_inst [] [1%nat] 10 1), v, ex_cb, s.
  split; [apply domain_check_spec; vm_compute; reflexivity|]. split; [intros [|x]; [reflexivity|]; unfold item_type; simpl; destruct x; reflexivity|].
  split; [intros [|x] Hx; [reflexivity|simpl in Hx; lia]|].
  split.
  { intros [|t] n Ht E; [|simpl in Ht; lia]; injection E as <-. exists [[0%nat]]. split; [reflexivity|]. split.
    - intros l [<-|[]]. split; [constructor; cbn [bd_items bd_type]|intros x [<-|[]]; simpl; lia].
      + vm_compute. discriminate.
      + exact Logic.I.
      + intros x [<-|[]]; left; reflexivity.
      + intros r [].
    - intros [|x] Hx _; [reflexivity|simpl in Hx; lia]. }
  split; [intro best; change (upper_bounds mandatory_inst (fun _ => Some 1%nat) best) with [1%nat]; split; vm_compute; reflexivity|].
  split; [apply point_check_spec; vm_compute; reflexivity|vm_compute; reflexivity].
Qed.
Print Assumptions C58_mandatory_bins_refuted.

(** With a single bin a precedence only asks for the last copy that has a
    column: a dominated item is packed although a copy of the dominating type is
    left out. *)
Definition prec_inst : Instance :=
  mkInst OKnapsack [mkIT 2 5 1 0 0 0 9 None (-1) [[]]; mkIT 4 1 3 0 0 0 9 None (-1) [[]]] [mkBT 10 10 1 0 None [] [] [0; 1]%nat] [0]%nat [] 10 10 4 14 8 5 None 3 false.
Theorem C58_single_bin_precedence_refuted : exists i prec ub m v cb s, milp_domain i prec /\ no_nesting i /\ ub = copies_upper_bounds i /\
  build_model i prec ub 10 1 = Some m /\ MilpPoint m v /\ retrieve i ub cb v = Some s /\ ~ PrecOK i prec (view s).
Proof.
  pose (v := loads_point (fun t => match t with O => [[0; 1; 1]%nat] | _ => [] end)).
  pose (s := match retrieve prec_inst [1%nat] ex_cb v with Some s => s | None => sol_new prec_inst end).
  exists prec_inst, [(0, 1)%nat], [1%nat], (the_model prec_inst [(0, 1)%nat] [1%nat] 10 1), v, ex_cb, s.
  split; [apply domain_check_spec; vm_compute; reflexivity|]. split; [intros [|[|x]]; try reflexivity; unfold item_type; simpl; destruct x; reflexivity|]. split; [reflexivity|]. split; [vm_compute; reflexivity|].
  split; [apply point_check_spec; vm_compute; reflexivity|]. split; [vm_compute; reflexivity|].
  intro H. specialize (H 0%nat 1%nat (or_introl eq_refl) ltac:(vm_compute; reflexivity)). vm_compute in H. discriminate H.
Qed.
Print Assumptions C58_single_bin_precedence_refuted.

(** The test on the shape of the penalised schedules stops at the first 0: a
    schedule that grows again is accepted, and the value of a point is larger
    than the profit of the solution read back. *)
Definition shape_inst : Instance :=
  mkInst OKnapsack [mkIT 3 5 3 0 0 0 9 None (-1) [[0]%nat]] [mkBT 10 10 1 0 None [] [mkResource 1 [[1; 0; 5]]%Q true 4] [0]%nat] [0]%nat [] 10 10 3 9 15 5 None 3 false.
Theorem C58_penalty_shape_refuted : exists i ub m v cb s, milp_domain i [] /\ no_nesting i /\ penalties_nonneg i /\ ub = copies_upper_bounds i /\
  build_model i [] ub 10 1 = Some m /\ MilpPoint m v /\ retrieve i ub cb v = Some s /\ (net_profit i (view s) < milp_value m v * 1)%Q.
Proof.
  pose (v := loads_point (fun t => match t with O => [[0; 0; 0]%nat] | _ => [] end)).
  pose (s := match retrieve shape_inst [1%nat] ex_cb v with Some s => s | None => sol_new shape_inst end).
  exists shape_inst, [1%nat], (the_model shape_inst [] [1%nat] 10 1), v, ex_cb, s.
  split; [apply domain_check_spec; vm_compute; reflexivity|]. split; [intros [|x]; [reflexivity|]; unfold item_type; simpl; destruct x; reflexivity|].
  split; [intros [|t] r Ht Hr; [|simpl in Ht; lia]; destruct Hr as [<-|[]]; discriminate|]. split; [reflexivity|]. split; [vm_compute; reflexivity|].
  split; [apply point_check_spec; vm_compute; reflexivity|]. split; vm_compute; reflexivity.
Qed.
Print Assumptions C58_penalty_shape_refuted.

(** With a negative penalty the penalty column is free: the best points claim a
    reward the solution does not get. *)
Definition reward_inst : Instance :=
  mkInst OKnapsack [mkIT 6 5 2 0 0 0 9 None (-1) [[0]%nat]] [mkBT 10 10 1 0 None [] [mkResource 1 [[1; 1; 0]]%Q true (-4)] [0]%nat] [0]%nat [] 10 10 2 12 10 5 None 2 false.
Theorem C58_negative_penalty_refuted : exists i ub m v cb s, milp_domain i [] /\ no_nesting i /\ threshold_resources i /\ ub = copies_upper_bounds i /\
  build_model i [] ub 10 1 = Some m /\ MilpPoint m v /\ retrieve i ub cb v = Some s /\ (net_profit i (view s) < milp_value m v * 1)%Q.
Proof.
  pose (v := fun u => match u with VPsi _ _ _ => 1%Q | _ => loads_point (fun t => match t with O => [[0]%nat] | _ => [] end) u end).
  pose (s := match retrieve reward_inst [1%nat] ex_cb v with Some s => s | None => sol_new reward_inst end).
  exists reward_inst, [1%nat], (the_model reward_inst [] [1%nat] 10 1), v, ex_cb, s.
  split; [apply domain_check_spec; vm_compute; reflexivity|]. split; [intros [|x]; [reflexivity|]; unfold item_type; simpl; destruct x; reflexivity|].
  split; [intros [|t] r x Ht Hr _ Hx; [|simpl in Ht; lia]; destruct Hr as [<-|[]]; destruct x as [|x]; [exists 2%nat|simpl in Hx; lia]; intros [|[|[|c]]]; try reflexivity; destruct c; reflexivity|].
  split; [reflexivity|]. split; [vm_compute; reflexivity|]. split; [apply point_check_spec; vm_compute; reflexivity|]. split; vm_compute; reflexivity.
Qed.
Print Assumptions C58_negative_penalty_refuted.

(** The bound on the profit can be below the profit the library reports for a
    valid solution: a bin with two copies pays its penalty once there. *)
Definition twice_inst : Instance :=
  mkInst OKnapsack [mkIT 5 10 4 0 0 0 9 None (-1) [[0]%nat]] [mkBT 10 10 2 0 None [] [mkResource 1 [[1; 1; 1; 1; 0]]%Q true 5] [0]%nat] [0; 0]%nat [] 20 10 4 20 40 10 None 4 false.
Theorem C58_reported_profit_refuted : exists i ub m s, milp_domain i [] /\ no_nesting i /\ threshold_resources i /\ ub = copies_upper_bounds i /\
  build_model i [] ub 10 10 = Some m /\ honest_answer m (DualBound 3) /\ milp_claim i 10 0 (DualBound 3) = ProfitBound (3 * 10) /\
  history i ex_cb [AddBin 0 2; AddItem 0 0; AddItem 0 0] [] = Some s /\ Packing i [] (view s) /\ (3 * 10 < c_item_profit (s_core s))%Q.
Proof.
  pose (s := match history twice_inst ex_cb [AddBin 0 2; AddItem 0 0; AddItem 0 0] [] with Some s => s | None => sol_new twice_inst end).
  exists twice_inst, [2%nat], (the_model twice_inst [] [2%nat] 10 10), s.
  split; [apply domain_check_spec; vm_compute; reflexivity|]. split; [intros [|x]; [reflexivity|]; unfold item_type; simpl; destruct x; reflexivity|].
  split; [intros [|t] r x Ht Hr _ Hx; [|simpl in Ht; lia]; destruct Hr as [<-|[]]; destruct x as [|x]; [exists 4%nat|simpl in Hx; lia]; intros [|[|[|[|[|c]]]]]; try reflexivity; destruct c; reflexivity|].
  split; [reflexivity|]. split; [vm_compute; reflexivity|]. split.
  { intros v Hv. change (m_maximize (the_model twice_inst [] [2%nat] 10 10)) with true. cbv iota.
    change (the_model twice_inst [] [2%nat] 10 10) with (mkMilp true
      (map (fun kc => mkCol (VX 0 0 (fst kc) (snd kc)) 0 (10 / 10)%Q) [(0, 0); (0, 1); (1, 0); (1, 1)]%nat ++ [mkCol (VPsi 0 0 0) 0 (- (5) / 10)%Q; mkCol (VPsi 0 0 1) 0 (- (5) / 10)%Q])
      (m_rows (the_model twice_inst [] [2%nat] 10 10))).
    unfold milp_value. cbn [m_cols map app fst snd]. rewrite !qsum_cons, qsum_nil. cbn [col_obj col_var].
    assert (Bx : forall k c, In (k, c) [(0, 0); (0, 1); (1, 0); (1, 1)]%nat -> (0 <= v (VX 0 0 k c) <= 1)%Q).
    { intros k c H. apply binary_bounds. apply (pt_columns _ _ Hv (mkCol (VX 0 0 k c) 0 (10 / 10)%Q)). destruct H as [H|[H|[H|[H|[]]]]]; injection H as <- <-; vm_compute; tauto. }
    pose proof (pt_rows _ _ Hv (mkRow [(VX 0 0 0 0, 1%Q); (VX 0 0 0 1, 1%Q); (VPsi 0 0 0, (-1)%Q)] None (Some 1%Q)) ltac:(vm_compute; tauto)) as [_ R1].
    pose proof (pt_rows _ _ Hv (mkRow [(VX 0 0 1 0, 1%Q); (VX 0 0 1 1, 1%Q); (VPsi 0 0 1, (-1)%Q)] None (Some 1%Q)) ltac:(vm_compute; tauto)) as [_ R2].
    unfold row_value in R1, R2. cbn [row_upper row_terms] in R1, R2. rewrite !qsum_cons, qsum_nil in R1, R2. cbn [fst snd] in R1, R2.
    pose proof (Bx 0%nat 0%nat ltac:(simpl; tauto)). pose proof (Bx 0%nat 1%nat ltac:(simpl; tauto)). pose proof (Bx 1%nat 0%nat ltac:(simpl; tauto)). pose proof (Bx 1%nat 1%nat ltac:(simpl; tauto)).
    setoid_replace (10 / 10)%Q with 1%Q by reflexivity. setoid_replace (- (5) / 10)%Q with (-1 # 2)%Q by reflexivity. lra. }
  split; [reflexivity|]. split; [vm_compute; reflexivity|]. split; [apply packing_check_spec; [apply sane_check_spec|]; vm_compute; reflexivity|vm_compute; reflexivity].
Qed.
Print Assumptions C58_reported_profit_refuted.

(** An item of length 0 makes the construction of the model divide by zero. *)
Definition zero_inst : Instance :=
  mkInst OKnapsack [mkIT 0 5 1 0 0 0 9 None (-1) [[]]] [mkBT 10 10 1 0 None [] [] [0]%nat] [0]%nat [] 10 10 1 0 5 5 None 1 false.
Theorem C58_zero_length_refuted : exists i, sane_instance i /\ (exists ds, Packing i [] ds /\ ds <> []) /\
  forall ml mp, build_model i [] (copies_upper_bounds i) ml mp = None.
Proof.
  exists zero_inst. split; [apply sane_check_spec; vm_compute; reflexivity|]. split; [exists [mkBD 0 1 [0%nat]]; split; [|discriminate]; apply packing_check_spec; [apply sane_check_spec|]; vm_compute; reflexivity|].
  intros ml mp. reflexivity.
Qed.
Print Assumptions C58_zero_length_refuted.
