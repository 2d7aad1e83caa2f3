(** * Properties C32, C33 and C54: the column generation template *)

From Coq Require Import List ZArith QArith Bool Lia Lqa Permutation.
From Verif Require Import Util Common_Model Common_Spec OneDim_Model ColGen_Model ColGen_Spec ColGenCap_Proof ColGenCut_Proof
  ColGenSep_Proof ColGenPrice_Proof ColGenFix_Proof.
Import ListNotations.
Open Scope Z_scope.

(** ** C33: the cap on the number of bins *)

(** A solution that costs at most the given cost has at most that many bins with
    an item. *)
Theorem C33_cap : forall i bins best,
  within_copies i bins -> (forall b, In b (cn_bins i) -> (0 <= cb_cost b)%Q) -> (total_cost i bins <= best)%Q ->
  filled_bins bins <= cmaximum_number_of_bins i best.
Proof. intros i bins best W P C. apply cap_bound; assumption. Qed.
Print Assumptions C33_cap.

(** The same through the cache, whatever the calls before. *)
Theorem C33_cached : forall i (calls : list Q) best bins,
  let cache := fold_left (fun c q => fst (cmaximum_cached i c q)) calls None in
  within_copies i bins -> (forall b, In b (cn_bins i) -> (0 <= cb_cost b)%Q) -> (total_cost i bins <= best)%Q ->
  filled_bins bins <= snd (cmaximum_cached i cache best).
Proof.
  intros i calls best bins cache W P C.
  assert (G : forall l c0, (match c0 with Some (c, v) => v = cmaximum_number_of_bins i c | None => True end) ->
    match fold_left (fun c q => fst (cmaximum_cached i c q)) l c0 with Some (c, v) => v = cmaximum_number_of_bins i c | None => True end).
  { induction l as [|q l IH]; intros c0 H; [exact H|]. cbn [fold_left]. apply IH. unfold cmaximum_cached. destruct c0 as [[c v]|]; [|reflexivity].
    destruct (Qeq_bool q c); [exact H|reflexivity]. }
  specialize (G calls None I). fold cache in G. unfold cmaximum_cached. destruct cache as [[c v]|].
  - destruct (Qeq_bool best c) eqn:E; cbn [snd]; [|apply cap_bound; assumption]. subst v. apply Qeq_bool_iff in E.
    apply cap_bound; [assumption|rewrite <- E; assumption|assumption].
  - apply cap_bound; assumption.
Qed.
Print Assumptions C33_cached.

(** Two bin types: a mandatory one of cost 3, others of cost 1 and 2. *)
Definition cap_inst : CInst :=
  mkCN OVariableSizedBinPacking [mkCB 2 4 0 []; mkCB 3 1 1 []; mkCB 1 2 0 []] [mkCI 1 9 9 0; mkCI 1 1 0 0] 1 1.
Definition cap_bins : CBins := [(1%nat, 1%Z, [0; 0]%nat); (2%nat, 2%Z, [0; 0]%nat); (0%nat, 1%Z, [0; 0; 0]%nat)].
Example C33_cap_nonvacuous :
  within_copies cap_inst cap_bins /\ (total_cost cap_inst cap_bins == 7)%Q
  /\ filled_bins cap_bins = 4 /\ cmaximum_number_of_bins cap_inst 7 = 4.
Proof.
  split; [|split; [vm_compute; reflexivity|split; vm_compute; reflexivity]]. constructor.
  - intros b [<-|[<-|[<-|[]]]]; (split; [cbn; lia|split; [cbn; lia|]]); intros x Hx; cbn in Hx; cbn; intuition lia.
  - intros t Ht. destruct t as [|[|[|t]]]; [vm_compute; split; discriminate..|cbn in Ht; lia].
  - intros x Hx. destruct x as [|[|x]]; [vm_compute; discriminate..|cbn in Hx; lia].
Qed.

(** The cap is not on the number of bins: the mandatory bins may stay empty. *)
Definition cap_empty : CInst := mkCN OVariableSizedBinPacking [mkCB 1 5 3 []] [mkCI 1 1 1 0] 1 1.
Theorem C33_empty_bins_refuted :
  ~ (forall i bins best, within_copies i bins -> (forall b, In b (cn_bins i) -> (0 <= cb_cost b)%Q) -> (total_cost i bins <= best)%Q ->
     total_bins bins <= cmaximum_number_of_bins i best).
Proof.
  intro H. specialize (H cap_empty [(0%nat, 1%Z, [0]%nat); (0%nat, 2%Z, []%nat)] 3%Q).
  assert (G : 3 <= 1); [|lia]. apply H.
  - constructor.
    + intros b [<-|[<-|[]]]; (split; [cbn; lia|split; [cbn; lia|]]); intros x Hx; cbn in Hx; cbn; intuition lia.
    + intros t Ht. destruct t as [|t]; [vm_compute; split; discriminate|cbn in Ht; lia].
    + intros x Hx. destruct x as [|x]; [vm_compute; discriminate|cbn in Hx; lia].
  - intros b [<-|[]]. cbn. lra.
  - vm_compute. discriminate.
Qed.
Print Assumptions C33_empty_bins_refuted.

(** ** C32: subset-row cuts *)

(** The coefficient of a column is one when its bin holds two of the three item
    types, zero otherwise. *)
Theorem C32_coefficient : forall c col, proper c ->
  (covers_two c (cc_items col) -> ccoefficient c col = 1%Q) /\ (~ covers_two c (cc_items col) -> ccoefficient c col = 0%Q).
Proof.
  intros c col H. rewrite coefficient_two, <- (two_covers c _ H). destruct (two c (cc_items col)); split; intro G; congruence.
Qed.
Print Assumptions C32_coefficient.

(** Every set of bins that packs each of the three item types at most once
    respects the cut. *)
Theorem C32_valid : forall c (sol : list (CCol * Z)), proper c ->
  (forall p, In p sol -> 0 <= snd p) ->
  (forall x, In x (tmembers c) -> zsum (fun p => snd p * occ (cc_items (fst p)) x) sol <= 1) ->
  (qsum (fun p => ccoefficient c (fst p) * inject_Z (snd p)) sol <= 1)%Q.
Proof. exact cut_valid. Qed.
Print Assumptions C32_valid.

(** The separation ends, returns at most one cut, on three different item types
    of one copy, and the fractional solution violates it. *)
Theorem C32_separate : forall i sol sort cap, fractional i sol -> sorts sort ->
  exists cuts, cseparate i sort cap sol = Some cuts /\ (length cuts <= 1)%nat
  /\ forall c, In c cuts -> proper c
     /\ (forall x, In x (tmembers c) -> (x < cni i)%nat /\ ci_copies (citem i x) = 1)
     /\ (1 + (1 # 1000000) < cut_activity c sol)%Q.
Proof. intros i sol sort cap F S. apply separate_sound; assumption. Qed.
Print Assumptions C32_separate.

(** With at most forty item types and the rows of the item types respected up to
    the tolerance, a cut is found as soon as one is violated, and it is the most
    violated one.  Columns of value below 1e-6 do not count. *)
Theorem C32_complete : forall i sol sort d, fractional i sol -> sorts sort -> (cni i <= 40)%nat ->
  (forall x, (x < cni i)%nat -> ci_copies (citem i x) = 1 -> (item_activity x sol <= 1 + (1 # 1000000))%Q) ->
  proper d -> (forall x, In x (tmembers d) -> (x < cni i)%nat /\ ci_copies (citem i x) = 1) ->
  (1 + (1 # 1000000) < cut_activity d (significant sol))%Q ->
  exists c, cseparate i sort candidates_cap sol = Some [c] /\ (cut_activity d (significant sol) <= cut_activity c (significant sol))%Q.
Proof.
  intros i sol sort d F S Hn Hr Hp Hm Hv. apply separate_complete; try assumption.
  assert (G : forall m, (m <= 40)%nat -> Z.of_nat m * (Z.of_nat m - 1) * (Z.of_nat m - 2) <= 40 * 39 * 38).
  { intros m H. assert (B : 0 <= Z.of_nat m <= 40) by lia. destruct (Z.le_gt_cases (Z.of_nat m) 2) as [L|L].
    - assert (Z.of_nat m = 0 \/ Z.of_nat m = 1 \/ Z.of_nat m = 2) as [-> | [-> | ->]] by lia; cbn; lia.
    - apply Z.mul_le_mono_nonneg; [nia|apply Z.mul_le_mono_nonneg; lia|lia|lia]. }
  specialize (G (cni i) Hn). replace (Z.of_nat candidates_cap) with 10000 by (vm_compute; reflexivity). lia.
Qed.
Print Assumptions C32_complete.

(** Two cuts are the same when they have the same item types. *)
Theorem C32_equal : forall c1 c2, ccut_equal c1 c2 = true <-> c1 = c2.
Proof. exact cut_equal_iff. Qed.
Print Assumptions C32_equal.

(** Three items, two per bin: half of each pair. *)
Definition cut_inst : CInst := mkCN OBinPacking [mkCB 1 3 0 []] [mkCI 0 1 1 0; mkCI 0 1 1 0; mkCI 0 1 1 0] 1 1.
Definition cut_sol : list (CCol * Q) :=
  map (fun l => (ccolumn cut_inst 0 l (occ l) (seq 0 3), 1 # 2)) [[0; 1]; [0; 2]; [1; 2]]%nat.

Fixpoint tq_insert (a : Triple * Q) (l : list (Triple * Q)) : list (Triple * Q) :=
  match l with [] => [a] | b :: r => if Qle_bool (snd b) (snd a) then a :: b :: r else b :: tq_insert a r end.
Definition tq_sort (l : list (Triple * Q)) : list (Triple * Q) := fold_right tq_insert [] l.

Lemma tq_insert_perm : forall a l, Permutation (a :: l) (tq_insert a l).
Proof.
  induction l as [|b l IH]; [reflexivity|]. cbn. destruct (Qle_bool _ _); [reflexivity|]. rewrite perm_swap. constructor. exact IH.
Qed.
Lemma tq_sort_sorts : sorts tq_sort.
Proof.
  intros l. split.
  - induction l as [|a l IH]; [reflexivity|]. cbn. rewrite <- tq_insert_perm. constructor. exact IH.
  - assert (G : Sorted.StronglySorted (fun p q => (snd q <= snd p)%Q) (tq_sort l)).
    { induction l as [|a l IH]; [constructor|]. change (tq_sort (a :: l)) with (tq_insert a (tq_sort l)). induction (tq_sort l) as [|b m IHm]; [constructor; constructor|].
      inversion IH as [|? ? Hs Hb]; subst. cbn. rewrite Forall_forall in Hb. destruct (Qle_bool (snd b) (snd a)) eqn:E.
      - apply Qle_bool_iff in E. constructor; [exact IH|]. apply Forall_forall. intros q [<-|Hq]; [exact E|]. specialize (Hb q Hq). cbv beta in Hb. lra.
      - apply not_true_iff_false in E. rewrite Qle_bool_iff in E. constructor; [apply IHm; exact Hs|]. apply Forall_forall. intros q Hq.
        apply (Permutation_in _ (Permutation_sym (tq_insert_perm a m))) in Hq. destruct Hq as [<-|Hq]; [lra|]. apply Hb. exact Hq. }
    intros x y p q E. rewrite E in G. clear E. revert G. induction x as [|c x IH]; cbn [app]; intros G Hq.
    + inversion G as [|? ? _ Hp]; subst. rewrite Forall_forall in Hp. apply Hp. exact Hq.
    + inversion G; subst. apply IH; assumption.
Qed.

Lemma ccolumn_describes : forall i t l n, (t < cnb i)%nat -> n = cni i -> (forall x, In x l -> (x < cni i)%nat) ->
  describes i (ccolumn i t l (occ l) (seq 0 n)).
Proof.
  intros i t l n Ht -> Hl. constructor; cbn [cc_type cc_items cc_elements ccolumn]; [exact Ht|exact Hl| |].
  - cbn [map fst]. constructor; [|apply terms_nodup, seq_NoDup]. intro H. apply in_map_iff in H. destruct H as ([r q] & E & H). cbn in E. subst r.
    apply in_flat_map in H. destruct H as (x & _ & H). destruct (0 <? _); [|destruct H]. destruct H as [H|[]]. injection H as H _. lia.
  - intros r q. cbn [In]. split.
    + intros [H|H]; [left; injection H as <- <-; auto|]. right. apply in_flat_map in H. destruct H as (x & _ & H).
      destruct (Z.ltb_spec 0 (occ l x)); [|destruct H]. destruct H as [H|[]]. injection H as <- <-. exists x. split; [reflexivity|].
      split; [apply occ_in; assumption|reflexivity].
    + intros [[-> ->]|(x & -> & Hx & ->)]; [left; reflexivity|]. right. apply in_flat_map. exists x.
      split; [apply in_seq; specialize (Hl x Hx); lia|]. pose proof (occ_one l x Hx). destruct (Z.ltb_spec 0 (occ l x)); [left; reflexivity|lia].
Qed.

Example C32_nonvacuous : fractional cut_inst cut_sol /\ proper (0, 1, 2)%nat
  /\ (forall x, (x < cni cut_inst)%nat -> ci_copies (citem cut_inst x) = 1 -> (item_activity x cut_sol <= 1 + (1 # 1000000))%Q)
  /\ (cut_activity (0, 1, 2)%nat (significant cut_sol) == 3 # 2)%Q
  /\ cseparate cut_inst tq_sort candidates_cap cut_sol = Some [(0, 1, 2)%nat].
Proof.
  split; [|split; [unfold proper; cbn; lia|split; [|split; vm_compute; reflexivity]]].
  - intros p Hp. unfold cut_sol in Hp. apply in_map_iff in Hp. destruct Hp as (l & <- & Hl). cbn [fst snd]. split; [|lra].
    apply ccolumn_describes; [cbn; lia|reflexivity|]. intros x Hx. destruct Hl as [<-|[<-|[<-|[]]]]; cbn in Hx; cbn; intuition lia.
  - intros x Hx _. destruct x as [|[|[|x]]]; [vm_compute; discriminate..|cbn in Hx; lia].
Qed.

(** ** C54: pricing *)

(** The column made from a packing of one bin describes it: its type, the number
    of copies of each item type, its cost or profit. *)
Theorem C54_columns : forall i solver fx sf duals cut_duals col,
  (forall t s, (t < cnb i)%nat -> In s (ka_solutions (solver (ckp i fx sf duals cut_duals t))) -> ksol_bins s <> 0 ->
     exists ps, s = [(1, ps)] /\ kp_within (ckp i fx sf duals cut_duals t) ps) ->
  In col (fst (cprice i solver fx sf duals cut_duals)) ->
  describes i col /\ cc_objective col = pattern_objective i (cc_type col) (cc_items col)
  /\ forall x, occ (cc_items col) x <= ckp_copies i fx (cc_type col) x (cprofit i sf duals x) \/ occ (cc_items col) x = 0.
Proof.
  intros i solver fx sf duals cut_duals col Hs Hc. apply price_columns in Hc. destruct Hc as (t & s & Ht & Hin & Hn & ->).
  destruct (Hs t s Ht Hin Hn) as (ps & -> & P1 & P2).
  destruct (column_describes i fx sf duals cut_duals t ps Ht P1) as (D & E1 & E2 & E3). rewrite E1, E2. split; [exact D|]. split; [exact E3|].
  intros x. set (k := ckp i fx sf duals cut_duals t) in *. set (ids := kp_ids (kp_items k)).
  destruct (in_dec Nat.eq_dec x ids) as [Hx|Hx].
  - left. destruct (position_in ids x Hx) as [p Ep]. destruct (position_some _ _ _ Ep) as [A B].
    assert (EL : length (kp_items k) = length ids) by (apply ids_length).
    assert (ND : NoDup ids) by (apply ids_nodup). specialize (P2 p ltac:(lia)).
    assert (EK : kp_copies k p = ckp_copies i fx t (nth p ids O) (cprofit i sf duals (nth p ids O))) by (apply kp_copies_eq; exact A).
    rewrite EK, B in P2. rewrite <- B at 1. unfold kp_types. fold ids. rewrite occ_types; [exact P2|exact ND| |exact A].
    intros q Hq. rewrite <- EL. apply P1. exact Hq.
  - right. apply occ_out. intro Hi. apply Hx. unfold kp_types in Hi. apply in_map_iff in Hi. destruct Hi as (q & <- & Hq). apply nth_In.
    assert (EL : length (kp_items k) = length ids) by (apply ids_length). fold ids. rewrite <- EL. apply P1. exact Hq.
Qed.
Print Assumptions C54_columns.

(** What the pricing solver counts for columns fixed a number of times: the bins
    of each type, the copies of each item type in them, and those of these copies
    that are fixed in the bin types. *)
Theorem C54_fixed_columns : forall i (cols : list (CCol * Z)),
  (forall p, In p cols -> describes i (fst p) /\ 0 <= snd p) ->
  let bins := map (fun p => (cc_type (fst p), snd p, cc_items (fst p))) cols in
  let fx := cinitialize i (map (fun p => (fst p, inject_Z (snd p))) cols) in
  (forall t, (t < cnb i)%nat -> nth t (fx_bins fx) 0 = used_bins bins t)
  /\ forall x, (x < cni i)%nat -> (nth x (fx_filled fx) 0 == inject_Z (used_items bins x))%Q
     /\ (nth x (fx_fixed fx) 0 == inject_Z (zsum (fun b => b_copies b * occ (cb_fixed (cbin i (b_type b))) x)%Z bins))%Q.
Proof.
  intros i cols H bins fx. destruct (initialize_spec i cols H) as [_ _ _ F4 F5 F6]. split; [exact F6|].
  intros x Hx. split; [apply F4|apply F5]; exact Hx.
Qed.
Print Assumptions C54_fixed_columns.

(** A sub-problem offers the copies left by the fixed columns; those fixed in the
    bin types are counted apart. *)
Theorem C54_copies_left : forall i (cols : list (CCol * Z)) t x profit,
  (forall p, In p cols -> describes i (fst p) /\ 0 <= snd p) -> (x < cni i)%nat -> (0 < profit)%Q ->
  let bins := map (fun p => (cc_type (fst p), snd p, cc_items (fst p))) cols in
  let fx := cinitialize i (map (fun p => (fst p, inject_Z (snd p))) cols) in
  let left := ci_copies (citem i x) - ci_copies_fixed (citem i x)
    - zsum (fun b => b_copies b * (occ (b_items b) x - occ (cb_fixed (cbin i (b_type b))) x)) bins in
  0 <= left -> ckp_copies i fx t x profit = left + occ (cb_fixed (cbin i t)) x.
Proof.
  intros i cols t x profit H Hx Hp bins fx left Hl. unfold ckp_copies.
  destruct (Qle_bool profit 0) eqn:E; [apply Qle_bool_iff in E; lra|].
  destruct (C54_fixed_columns i cols H) as [_ G]. destruct (G x Hx) as [G1 G2]. fold bins in G1, G2. fold fx in G1, G2.
  apply qtrunc_int; [|pose proof (occ_nonneg (cb_fixed (cbin i t)) x); lia]. rewrite G1, G2.
  assert (El : left = ci_copies (citem i x) - ci_copies_fixed (citem i x) - (used_items bins x - zsum (fun b => b_copies b * occ (cb_fixed (cbin i (b_type b))) x) bins)).
  { unfold left. f_equal. unfold used_items. clear. induction bins as [|b bins IH]; [reflexivity|]. rewrite !zsum_cons. lia. }
  rewrite El. unfold Z.sub. rewrite !inject_Z_plus, !inject_Z_opp, !inject_Z_plus, !inject_Z_opp. ring.
Qed.
Print Assumptions C54_copies_left.

(** The value of a packing in the sub-problem, penalties of the cuts included,
    gives its reduced cost. *)
Theorem C54_reduced_cost : forall i fx sf duals cut_duals t ps,
  (0 < cn_mult_profit i)%Q -> minimizes (cn_objective i) \/ cn_objective i = OKnapsack -> sound_cuts i cut_duals ->
  let k := ckp i fx sf duals cut_duals t in
  (forall p, In p ps -> (p < length (kp_items k))%nat) ->
  (forall x, occ (kp_types k ps) x <= ci_copies (citem i x)) ->
  (reduced_cost i sf duals cut_duals t (kp_types k ps) ==
   match cn_objective i with
   | OKnapsack => kp_value k ps / cn_mult_profit i - nth t duals 0
   | _ => (if sf then 0 else pattern_objective i t (kp_types k ps)) - nth t duals 0 - kp_value k ps
   end)%Q.
Proof.
  intros i fx sf duals cut_duals t ps Hm Ho Hc k Hp Hx.
  assert (EL : length (kp_items k) = length (kp_ids (kp_items k))) by (apply ids_length).
  assert (EV : (kp_value k ps == qsum (cprofit i sf duals) (kp_types k ps)
     - qsum (fun cd => if covers (fst cd) (kp_types k ps) then cpenalty i (snd cd) else 0) cut_duals)%Q).
  { apply (kp_value_pattern i fx sf duals cut_duals t ps).
    - intros p Hi. fold k. rewrite <- EL. apply Hp. exact Hi.
    - intros cd Hcd. destruct (Hc cd Hcd) as (A & B & _). split; [exact A|]. intros x Hi. rewrite <- (proj2 (B x Hi)). apply Hx. }
  destruct Ho as [H|H].
  - rewrite (reduced_cost_min i sf duals cut_duals t _ H). destruct H as [H|[H|H]]; rewrite H, EV; reflexivity.
  - rewrite H. rewrite (reduced_cost_max i sf duals cut_duals Hm t _ H), EV. reflexivity.
Qed.
Print Assumptions C54_reduced_cost.

(** No pattern beats the bound on the reduced costs, when the bounds of the
    sub-problems are valid. *)
Theorem C54_reduced_cost_bound : forall i solver fx sf duals cut_duals fits t items,
  hereditary i fits -> sound_cuts i cut_duals -> (0 < cn_mult_profit i)%Q ->
  minimizes (cn_objective i) \/ cn_objective i = OKnapsack ->
  (t < cnb i)%nat -> nth t (fx_bins fx) 0 <> cb_copies (cbin i t) ->
  kp_bound_valid fits (ckp i fx sf duals cut_duals t) (solver (ckp i fx sf duals cut_duals t)) ->
  (exists s, In s (ka_solutions (solver (ckp i fx sf duals cut_duals t))) /\ ksol_bins s <> 0) ->
  (forall x, In x items -> (x < cni i)%nat /\ occ items x <= ci_copies (citem i x) /\ occ items x <= available i fx t x) ->
  fits t items ->
  match cn_objective i with
  | OKnapsack => (reduced_cost i sf duals cut_duals t items <= snd (cprice i solver fx sf duals cut_duals))%Q
  | _ => (snd (cprice i solver fx sf duals cut_duals) <= reduced_cost i sf duals cut_duals t items)%Q
  end.
Proof.
  intros i solver fx sf duals cut_duals fits t items Hh Hc Hm Ho Ht Hn Hv Hs Hi Hf.
  apply (reduced_cost_bounded i solver fx sf duals cut_duals fits Hh Hc Hm Ho t items Ht Hn Hv Hs). constructor; assumption.
Qed.
Print Assumptions C54_reduced_cost_bound.

(** The bound reported at the root: the value of the duals plus the overcost
    bounds every solution without empty bins that is not worse than the best one
    known. *)
Theorem C54_bound : forall i solver duals cut_duals fits best bins,
  hereditary i fits -> sound_cuts i cut_duals -> (0 < cn_mult_profit i)%Q -> no_fixed_items i ->
  minimizes (cn_objective i) \/ cn_objective i = OKnapsack ->
  (forall b, In b (cn_bins i) -> (0 <= cb_cost b)%Q) ->
  (forall t, (t < cnb i)%nat -> cb_copies (cbin i t) <> 0 ->
     let k := ckp i (cfix0 i) false duals cut_duals t in
     kp_bound_valid fits k (solver k) /\ exists s, In s (ka_solutions (solver k)) /\ ksol_bins s <> 0) ->
  solves i fits bins -> (forall b, In b bins -> b_items b <> []) ->
  (match cn_objective i, best with
   | OBinPacking, Some (n, _) => total_bins bins <= n
   | OVariableSizedBinPacking, Some (_, c) => (total_cost i bins <= c)%Q
   | _, _ => True
   end) ->
  let bound := snd (cprice i solver (cfix0 i) false duals cut_duals) in
  match cn_objective i with
  | OKnapsack => (objective_of i bins <= dual_value false i duals cut_duals + covercost i best bound)%Q
  | _ => (dual_value true i duals cut_duals + covercost i best bound <= objective_of i bins)%Q
  end.
Proof.
  intros i solver duals cut_duals fits best bins Hh Hc Hm Hnf Ho Hpos Hs Hsv He Hb bound.
  unfold covercost. apply (lagrangian i solver duals cut_duals fits Hh Hc Hm Ho Hnf Hs bins _ Hsv).
  pose proof Hsv as [W _ _]. pose proof W as [W1 W2 W3].
  assert (EF : total_bins bins = filled_bins bins).
  { unfold total_bins, filled_bins. apply zsum_ext. intros b Hi. specialize (He b Hi). destruct (b_items b); [congruence|reflexivity]. }
  assert (G1 : total_bins bins <= cnumber_of_items i).
  { rewrite EF. eapply Z.le_trans; [apply filled_items with (n := cni i)|].
    - intros b Hi. destruct (W1 b Hi) as (_ & A & B). split; assumption.
    - unfold cnumber_of_items.
      assert (G2 : zsum ci_copies (cn_items i) = zsum (fun x => ci_copies (citem i x)) (seq 0 (cni i))).
      { unfold citem, cni. generalize (mkCI 0 0 0 0). clear. induction (cn_items i) as [|a l IH]; intros d; [reflexivity|].
        cbn [length seq]. rewrite !zsum_cons. cbn [nth]. f_equal. rewrite <- seq_shift, zsum_map. apply IH. }
      rewrite G2. apply zsum_le. intros x Hx. apply in_seq in Hx. apply W3. lia. }
  assert (G2 : total_bins bins <= cnumber_of_bins i).
  { rewrite (by_type_z (cnb i)) by (intros b Hi; apply W1; exact Hi). unfold cnumber_of_bins.
    assert (G2 : zsum cb_copies (cn_bins i) = zsum (fun x => cb_copies (cbin i x)) (seq 0 (cnb i))).
    { unfold cbin, cnb. generalize (mkCB 0 0 0 []). clear. induction (cn_bins i) as [|a l IH]; intros d; [reflexivity|].
      cbn [length seq]. rewrite !zsum_cons. cbn [nth]. f_equal. rewrite <- seq_shift, zsum_map. apply IH. }
    rewrite G2. apply zsum_le. intros x Hx. apply in_seq in Hx. apply W2. lia. }
  unfold cpricing_cap. destruct (cn_objective i), best as [[n c]|]; try lia.
  assert (G3 : filled_bins bins <= cmaximum_number_of_bins i c) by (apply cap_bound; assumption). lia.
Qed.
Print Assumptions C54_bound.

(** Three items of one copy, two per bin, a cut of dual -1: the bound is the
    optimum. *)
Definition pr_fits (t : nat) (items : list nat) : Prop := (length items <= 2)%nat /\ forall x, In x items -> (x < 3)%nat.
Definition pr_duals : list Q := [0; 1; 1; 1]%Q.
Definition pr_cuts : list (Triple * Q) := [((0, 1, 2)%nat, (-(1))%Q)].
Definition pr_solver (k : CKp) : KAns := mkKA [[(1, [0; 1]%nat)]] 1.
Definition pr_bins : CBins := [(0%nat, 1%Z, [0; 1]%nat); (0%nat, 1%Z, [2]%nat)].

Lemma occ_length : forall n b, (forall x, In x b -> (x < n)%nat) -> Z.of_nat (length b) = zsum (occ b) (seq 0 n).
Proof.
  intros n. induction b as [|a b IH]; intros H.
  - symmetry. induction (seq 0 n) as [|x l IHl]; [reflexivity|]. rewrite zsum_cons, IHl. reflexivity.
  - cbn [length]. rewrite Nat2Z.inj_succ, IH by (intros x Hx; apply H; right; exact Hx).
    assert (Ha : (a < n)%nat) by (apply H; left; reflexivity).
    rewrite (zsum_ext _ (occ (a :: b)) (fun x => (if (a =? x)%nat then 1 else 0) + occ b x)) by (intros; apply occ_cons).
    rewrite zsum_plus. assert (E : zsum (fun x => if (a =? x)%nat then 1 else 0) (seq 0 n) = 1); [|lia].
    pose proof (qsum_pick n a (fun _ => 1%Q) Ha) as Q1.
    rewrite (qsum_ext _ _ (fun x => inject_Z (if (a =? x)%nat then 1 else 0))) in Q1 by (intros x _; destruct (a =? x)%nat; reflexivity).
    rewrite qsum_inject in Q1. unfold Qeq in Q1. cbn in Q1. lia.
Qed.

Lemma pr_hereditary : hereditary cut_inst pr_fits.
Proof.
  intros t a [H1 H2].
  assert (EF : cb_fixed (cbin cut_inst t) = []) by (destruct t as [|[|t]]; reflexivity). rewrite EF.
  split; [intros x; apply occ_nonneg|]. intros b Hb.
  assert (HI : forall x, In x b -> In x a). { intros x Hx. apply occ_in. pose proof (occ_one _ _ Hx). specialize (Hb x). lia. }
  assert (H3 : forall x, In x b -> (x < 3)%nat) by (intros x Hx; apply H2, HI, Hx). split; [|exact H3].
  assert (L : Z.of_nat (length b) <= Z.of_nat (length a)); [|lia].
  rewrite (occ_length 3 b H3), (occ_length 3 a H2). apply zsum_le. intros x _. apply Hb.
Qed.

Lemma pr_valid : forall t, (t < cnb cut_inst)%nat -> cb_copies (cbin cut_inst t) <> 0 ->
  let k := ckp cut_inst (cfix0 cut_inst) false pr_duals pr_cuts t in
  kp_bound_valid pr_fits k (pr_solver k) /\ exists s, In s (ka_solutions (pr_solver k)) /\ ksol_bins s <> 0.
Proof.
  intros t Ht _ k. assert (t = O) by (cbn in Ht; lia). subst t. split.
  - intros ps [P1 P2] [F1 _]. unfold kp_types in F1. rewrite map_length in F1. change (length (kp_items k)) with 3%nat in P1, P2.
    pose proof (P2 0%nat ltac:(lia)) as C0. pose proof (P2 1%nat ltac:(lia)) as C1. pose proof (P2 2%nat ltac:(lia)) as C2.
    clear P2. change (ka_bound (pr_solver k)) with 1%Q.
    destruct ps as [|p [|q [|r ps]]]; [vm_compute; discriminate|..|cbn in F1; lia].
    + assert (p < 3)%nat by (apply P1; left; reflexivity). destruct p as [|[|[|p]]]; [vm_compute; discriminate..|lia].
    + assert (p < 3)%nat by (apply P1; left; reflexivity). assert (q < 3)%nat by (apply P1; right; left; reflexivity).
      destruct p as [|[|[|p]]]; [..|lia]; destruct q as [|[|[|q]]]; try lia;
        first [vm_compute; discriminate|exfalso; vm_compute in C0; congruence|exfalso; vm_compute in C1; congruence|exfalso; vm_compute in C2; congruence].
  - exists [(1, [0; 1]%nat)]. split; [left; reflexivity|]. vm_compute. discriminate.
Qed.

Example C54_nonvacuous :
  hereditary cut_inst pr_fits /\ sound_cuts cut_inst pr_cuts /\ no_fixed_items cut_inst
  /\ solves cut_inst pr_fits pr_bins /\ (forall b, In b pr_bins -> b_items b <> [])
  /\ snd (cprice cut_inst pr_solver (cfix0 cut_inst) false pr_duals pr_cuts) = 0%Q
  /\ length (fst (cprice cut_inst pr_solver (cfix0 cut_inst) false pr_duals pr_cuts)) = 1%nat
  /\ (dual_value true cut_inst pr_duals pr_cuts == 2)%Q /\ (objective_of cut_inst pr_bins == 2)%Q.
Proof.
  split; [exact pr_hereditary|]. split.
  { intros cd [<-|[]]. split; [unfold proper; cbn; lia|]. split; [|cbn; lra]. intros x Hx. cbn in Hx.
    destruct Hx as [<-|[<-|[<-|[]]]]; (split; [cbn; lia|reflexivity]). }
  split.
  { split; [intros [|[|t]]; reflexivity|intros [|[|[|[|x]]]]; reflexivity]. }
  split.
  { constructor.
    - constructor.
      + intros b [<-|[<-|[]]]; (split; [cbn; lia|split; [cbn; lia|]]); intros x Hx; cbn in Hx; cbn; intuition lia.
      + intros t Ht. destruct t as [|t]; [vm_compute; split; discriminate|cbn in Ht; lia].
      + intros x Hx. destruct x as [|[|[|x]]]; [vm_compute; discriminate..|cbn in Hx; lia].
    - intros x Hx. destruct x as [|[|[|x]]]; [vm_compute; discriminate..|cbn in Hx; lia].
    - intros b [<-|[<-|[]]] _; (split; [cbn; lia|]); intros x Hx; cbn in Hx; intuition lia. }
  split; [intros b [<-|[<-|[]]]; discriminate|]. split; [reflexivity|]. split; [reflexivity|]. split; vm_compute; reflexivity.
Qed.

(** Two bins with the first two items, one of them twice, and one with the last:
    no copy is left of the item types used up. *)
Example C54_fixed_columns_nonvacuous :
  let i := mkCN OBinPacking [mkCB 1 9 0 [2%nat]] [mkCI 0 7 7 0; mkCI 0 2 2 0; mkCI 0 9 9 3] 1 1 in
  let cols := [(ccolumn i 0 [0; 0; 1; 2]%nat (occ [0; 0; 1; 2]%nat) (seq 0 3), 2); (ccolumn i 0 [2; 2]%nat (occ [2; 2]%nat) (seq 0 3), 1)] in
  (forall p, In p cols -> describes i (fst p) /\ 0 <= snd p) /\
  map (fun x => ckp_copies i (cinitialize i (map (fun p => (fst p, inject_Z (snd p))) cols)) 0 x 1) [0; 1; 2]%nat = [3; 0; 6].
Proof.
  split; [|reflexivity]. intros p Hp.
  destruct Hp as [<-|[<-|[]]]; (split; [|cbn; lia]); apply ccolumn_describes; try reflexivity; cbn; try lia; intros x Hx; intuition lia.
Qed.

(** With mandatory bins left empty, the bound may exceed the cost of a solution:
    one item, three mandatory bins, a dual of 10 on the bins. *)
Definition em_solver (k : CKp) : KAns := mkKA [[(1, [0%nat])]] 1.
Definition em_fits (t : nat) (items : list nat) : Prop := forall x, occ items x <= 1.
Theorem C54_empty_bins_refuted :
  ~ (forall i solver duals cut_duals fits best bins,
  hereditary i fits -> sound_cuts i cut_duals -> (0 < cn_mult_profit i)%Q -> no_fixed_items i ->
  cn_objective i = OVariableSizedBinPacking ->
  (forall b, In b (cn_bins i) -> (0 <= cb_cost b)%Q) ->
  (forall t, (t < cnb i)%nat -> cb_copies (cbin i t) <> 0 ->
     let k := ckp i (cfix0 i) false duals cut_duals t in
     kp_bound_valid fits k (solver k) /\ exists s, In s (ka_solutions (solver k)) /\ ksol_bins s <> 0) ->
  solves i fits bins ->
  (dual_value true i duals cut_duals + covercost i best (snd (cprice i solver (cfix0 i) false duals cut_duals)) <= objective_of i bins)%Q).
Proof.
  intro H. specialize (H cap_empty em_solver [10; 1]%Q [] em_fits None [(0%nat, 1%Z, [0]%nat); (0%nat, 2%Z, []%nat)]).
  assert (EF : forall t, cb_fixed (cbin cap_empty t) = []) by (intros [|[|t]]; reflexivity).
  assert (G : (21 <= 3)%Q); [|vm_compute in G; congruence].
  assert (E : (dual_value true cap_empty [10; 1]%Q [] + covercost cap_empty None (snd (cprice cap_empty em_solver (cfix0 cap_empty) false [10; 1]%Q [])) == 21)%Q)
    by (vm_compute; reflexivity).
  rewrite <- E. clear E. eapply Qle_trans; [apply H|vm_compute; discriminate].
  - intros t a Ha. rewrite EF. split; [intros x; apply occ_nonneg|]. intros b Hb x. specialize (Hb x). specialize (Ha x). lia.
  - intros cd [].
  - cbn. lra.
  - split; [exact EF|intros [|[|x]]; reflexivity].
  - reflexivity.
  - intros b [<-|[]]. cbn. lra.
  - intros t Ht _ k. assert (t = O) by (cbn in Ht; lia). subst t. split.
    + intros ps [P1 P2] _. change (length (kp_items k)) with 1%nat in P1, P2. pose proof (P2 0%nat ltac:(lia)) as C0. change (kp_copies k 0) with 1 in C0.
      change (ka_bound (em_solver k)) with 1%Q. unfold kp_value. change (kp_resources k) with (@nil Resource). cbn [qsum fold_right].
      assert (EQ : (qsum (kp_profit k) ps <= inject_Z (occ ps 0))%Q).
      { clear C0 P2. induction ps as [|p ps IH]; [vm_compute; discriminate|]. rewrite qsum_cons, occ_cons, inject_Z_plus.
        assert (p = O) by (specialize (P1 p (or_introl eq_refl)); lia). subst p. change (kp_profit k 0) with 1%Q. change (inject_Z (if (0 =? 0)%nat then 1 else 0)) with 1%Q.
        specialize (IH (fun q Hq => P1 q (or_intror Hq))). lra. }
      assert (C1 : (inject_Z (occ ps 0) <= inject_Z 1)%Q) by (rewrite <- Zle_Qle; exact C0). change (inject_Z 1) with 1%Q in C1. lra.
    + exists [(1, [0%nat])]. split; [left; reflexivity|]. vm_compute. discriminate.
  - constructor.
    + constructor.
      * intros b [<-|[<-|[]]]; (split; [cbn; lia|split; [cbn; lia|]]); intros x Hx; cbn in Hx; cbn; intuition lia.
      * intros t Ht. destruct t as [|t]; [vm_compute; split; discriminate|cbn in Ht; lia].
      * intros x Hx. destruct x as [|x]; [vm_compute; discriminate|cbn in Hx; lia].
    + intros x Hx. destruct x as [|x]; [vm_compute; discriminate|cbn in Hx; lia].
    + intros b [<-|[<-|[]]] _ x; unfold b_items; cbn [snd]; [rewrite occ_cons; destruct (0 =? x)%nat|]; cbn; lia.
Qed.
Print Assumptions C54_empty_bins_refuted.

(** When a sub-problem has no item left, its pool holds no bin and the bound
    ignores that bin type: the empty bin of type 0 has reduced cost -9 although
    the bound is 0. *)
Theorem C54_no_solution_refuted :
  ~ (forall i solver fx sf duals cut_duals fits t items,
  hereditary i fits -> sound_cuts i cut_duals -> (0 < cn_mult_profit i)%Q -> cn_objective i = OVariableSizedBinPacking ->
  (t < cnb i)%nat -> nth t (fx_bins fx) 0 <> cb_copies (cbin i t) ->
  kp_bound_valid fits (ckp i fx sf duals cut_duals t) (solver (ckp i fx sf duals cut_duals t)) ->
  (forall x, In x items -> (x < cni i)%nat /\ occ items x <= ci_copies (citem i x) /\ occ items x <= available i fx t x) ->
  fits t items ->
  (snd (cprice i solver fx sf duals cut_duals) <= reduced_cost i sf duals cut_duals t items)%Q).
Proof.
  intro H. specialize (H cap_empty (fun _ => mkKA [[]] 0) (cfix0 cap_empty) false [10; 0]%Q [] em_fits 0%nat []).
  assert (EF : forall t, cb_fixed (cbin cap_empty t) = []) by (intros [|[|t]]; reflexivity).
  assert (G : (0 <= -(9))%Q); [|vm_compute in G; congruence].
  assert (E1 : snd (cprice cap_empty (fun _ => mkKA [[]] 0) (cfix0 cap_empty) false [10; 0]%Q []) = 0%Q) by reflexivity.
  assert (E2 : (reduced_cost cap_empty false [10; 0]%Q [] 0 [] == -(9))%Q) by (vm_compute; reflexivity).
  rewrite <- E1, <- E2. apply H.
  - intros t a Ha. rewrite EF. split; [intros x; apply occ_nonneg|]. intros b Hb x. specialize (Hb x). specialize (Ha x). lia.
  - intros cd [].
  - cbn. lra.
  - reflexivity.
  - cbn. lia.
  - vm_compute. discriminate.
  - intros ps [P1 _] _. destruct ps as [|p ps]; [vm_compute; discriminate|]. specialize (P1 p (or_introl eq_refl)). cbn in P1. lia.
  - intros x [].
  - intros x. cbn. lia.
Qed.
Print Assumptions C54_no_solution_refuted.
