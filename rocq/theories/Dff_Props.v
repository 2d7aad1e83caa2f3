(** * Properties of the dual feasible functions (C14, C15, C16, C17) *)

From Coq Require Import List ZArith QArith Qminmax Bool Lia Lqa Arith Permutation Sorted.
From Verif Require Import Util Common_Model OneDim_Model OneDim_Spec OneDim_Proof OneDim_Order OneDim_Props.
From Verif Require Import Dff_Model Dff_Spec Dff_Proof Dff_Axis OneDimDff_Model OneDimDff_Spec OneDimDff_Proof.
Import ListNotations.
Open Scope Z_scope.

(** ** C14: the functions are dual feasible *)

Theorem C14_f_ccm_0 : forall C k, 0 <= k -> 2 * k <= C -> dual_feasible C (f_ccm_0 C k C) (f_ccm_0 C k).
Proof. exact f0_dual_feasible. Qed.
Print Assumptions C14_f_ccm_0.

Example C14_f_ccm_0_example :
  map (f_ccm_0 10 3 ) [8; 2; 5; 10] = [10; 0; 5; 10] /\ zsum (f_ccm_0 10 3) [3; 7] <= 10.
Proof. vm_compute. split; [reflexivity|discriminate]. Qed.

(** The parameter range is needed. *)
Theorem C14_f_ccm_0_range_refuted : exists C k, 0 <= k <= C /\ ~ dual_feasible C (f_ccm_0 C k C) (f_ccm_0 C k).
Proof.
  exists 10, 6. split; [lia|]. intro H.
  specialize (H [5; 5] ltac:(repeat constructor; lia) ltac:(vm_compute; discriminate)).
  vm_compute in H. apply H. reflexivity.
Qed.
Print Assumptions C14_f_ccm_0_range_refuted.

Theorem C14_f_ccm_2 : forall C k l, 1 <= C -> 1 <= k -> Forall (fun x => 0 <= x) l -> total l <= C ->
  exists vs v, mapo (f_ccm_2 C k) l = Some vs /\ f_ccm_2 C k C = Some v /\ total vs <= v.
Proof.
  intros C k l HC Hk Hl Ht. exists (map (F2 C k) l), (F2 C k C). split; [|split].
  - apply mapo_map. intros x Hx. pose proof (total_elem l x Hl Hx).
    rewrite Forall_forall in Hl. specialize (Hl x Hx). simpl in Hl. apply f_ccm_2_some; lia.
  - apply f_ccm_2_some; lia.
  - unfold total. rewrite zsum_map. apply f2_dual_feasible; try assumption; lia.
Qed.
Print Assumptions C14_f_ccm_2.

Example C14_f_ccm_2_example :
  mapo (f_ccm_2 10 3) [5; 3; 2] = Some [3; 2; 0] /\ f_ccm_2 10 3 10 = Some 6 /\ total [5; 3; 2] = 10.
Proof. vm_compute. auto. Qed.

(** All three families on the item types of an instance: any list of item types
    that respects the numbers of copies and fits in the bin has a total
    coefficient of at most the bin's. *)
Theorem C14_families : forall i k, dff_domain i -> 1 <= k -> 2 * k <= bt_length (bin_type i 0) ->
  exists r, dff_sweep_k i (bt_length (bin_type i 0)) k = Some r /\
  forall f_bin coefficients items, In (f_bin, coefficients) r ->
    (forall x, (x < length (in_item_types i))%nat ->
       Z.of_nat (count_occ Nat.eq_dec items x) <= it_copies (item_type i x)) ->
    (forall x, In x items -> (x < length (in_item_types i))%nat) ->
    zsum (fun x => it_length (item_type i x) - Z.max (it_nesting (item_type i x)) 0) items
      <= bt_length (bin_type i 0) ->
    zsum (fun x => nth x coefficients 0) items <= f_bin.
Proof.
  intros i k [H1 H2 H3] Hk Hk2.
  assert (Hred : forall it, In it (in_item_types i) -> 0 < reduced_length it).
  { intros it Hit. destruct (H3 it Hit) as (A & B & _). unfold reduced_length. lia. }
  assert (Hcop : forall it, In it (in_item_types i) -> 0 <= it_copies it) by (intros it Hit; apply H3; assumption).
  destruct (sweep_some i H2 Hred Hcop k Hk Hk2) as (r & E & Hr).
  exists r. split; [assumption|]. intros fb cs items Hin Hocc Hrange Hfit.
  rewrite Forall_forall in Hr. destruct (Hr _ Hin) as (fam & Ef & El & Ec). simpl in Ef, El, Ec.
  set (d := mkBD 0 1 items).
  assert (Hv : valid_chain (bt_length (bin_type i 0)) (length (in_item_types i)) (cand1 i)
      (fun j => it_copies (item_type i j)) (bin_chain i d)).
  { constructor.
    - intros p Hp. unfold bin_chain in Hp. apply in_map_iff in Hp. destruct Hp as (x & <- & Hx). simpl in *.
      specialize (Hrange x Hx). split; [assumption|]. split; [left; reflexivity|]. apply Hred. apply nth_In. assumption.
    - intros j Hj. rewrite occurrences_bin. apply Hocc. assumption.
    - unfold bin_chain. rewrite zsum_map. simpl. exact Hfit. }
  pose proof (axis_chain (bt_length (bin_type i 0)) _ _ _ k (plen1 i k) H2 Hk Hk2
     (cop_nonneg i Hcop) (plen1_spec i k) _ (pool1 i H2 k) fam _ Hv) as HA.
  rewrite Ef. etransitivity; [|exact HA]. unfold bin_chain. rewrite zsum_map. simpl.
  apply zsum_le. intros x Hx. rewrite Ec; [apply Z.le_refl|apply Hrange; assumption|].
  pose proof (chain_elem (bin_chain i d) (x, reduced_length (item_type i x))) as HE.
  assert (HX : reduced_length (item_type i x) <= zsum snd (bin_chain i d)).
  { apply HE; [intros q Hq; apply (vc_type _ _ _ _ _ Hv q Hq)|].
    unfold bin_chain. apply in_map_iff. exists x. auto. }
  pose proof (vc_fits _ _ _ _ _ Hv). lia.
Qed.
Print Assumptions C14_families.

(** Lengths 6, 3 and 2 in a bin of length 10. *)
Definition ex_dff (o : Objective) : Instance :=
  mkInst o
    [mkIT 6 9 2 2 0 0 9 None (-1) [[]]; mkIT 5 4 3 3 0 2 9 None (-1) [[]]; mkIT 2 1 1 1 0 0 9 None (-1) [[]]]
    [mkBT 10 10 4 0 None [] [] [0; 1; 2]%nat]
    [0; 0; 0; 0]%nat [0; 10; 20; 30] 40 10 6 29 31 9 (Some 0%nat) 3 false.

Lemma ex_dff_domain : forall o, dff_domain (ex_dff o).
Proof.
  intro o. constructor; [reflexivity|vm_compute; discriminate|].
  intros it [<-|[<-|[<-|[]]]]; vm_compute; repeat split; congruence.
Qed.

Example C14_families_example :
  dff_sweep_k (ex_dff OBinPacking) 10 3 = Some [(10, [6; 3; 0]); (3, [2; 1; 0]); (6, [4; 2; 0])].
Proof. reflexivity. Qed.

(** ** C16: greedy maximum cardinality *)

Theorem C16_greedy : forall capacity pool, 0 <= capacity ->
  (forall p, In p pool -> 0 < fst p /\ 0 <= snd p) -> StronglySorted (fun p q => fst p <= fst q) pool ->
  exists m, greedy_maximum_cardinality capacity pool = Some m /\ max_cardinality capacity pool m.
Proof.
  intros capacity pool HC Hp Hs. exists (gr capacity pool).
  assert (HP : pos_pool pool) by (apply Forall_forall; assumption).
  split; [apply greedy_some; assumption|]. apply greedy_optimal; try assumption. apply greedy_some. assumption.
Qed.
Print Assumptions C16_greedy.

Example C16_example : greedy_maximum_cardinality 10 [(2, 3); (3, 5); (9, 1)] = Some 4.
Proof. reflexivity. Qed.

(** The pool has to be sorted. *)
Theorem C16_unsorted_refuted : exists capacity pool m counts, 0 <= capacity /\
  (forall p, In p pool -> 0 < fst p /\ 0 <= snd p) /\
  greedy_maximum_cardinality capacity pool = Some m /\
  selection pool counts /\ selection_length pool counts <= capacity /\ m < selection_size counts.
Proof.
  exists 10, [(9, 1); (2, 3)], 1, [0; 3]. split; [lia|].
  split; [intros p [<-|[<-|[]]]; simpl; lia|]. split; [reflexivity|].
  split; [repeat constructor; simpl; lia|]. split; [vm_compute; discriminate|reflexivity].
Qed.
Print Assumptions C16_unsorted_refuted.

(** ** C17: Dantzig bound *)

Theorem C17_dantzig : forall items counts capacity,
  (forall it, In it items -> (0 <= di_profit it)%Q /\ 0 <= di_volume it /\ 0 <= di_copies it) ->
  choice items counts -> (0 <= capacity)%Q -> (inject_Z (choice_volume items counts) <= capacity)%Q ->
  (choice_profit items counts <= dantzig_profit_bound items capacity)%Q.
Proof. intros items counts capacity H. apply dantzig_upper. apply Forall_forall. assumption. Qed.
Print Assumptions C17_dantzig.

Example C17_example :
  let items := [mkDI 10 5 2; mkDI 7 0 1; mkDI 9 3 2] in
  choice items [1; 1; 2] /\ choice_volume items [1; 1; 2] = 11 /\
  (choice_profit items [1; 1; 2]%Z == 35)%Q /\ (dantzig_profit_bound items 12 == 37)%Q.
Proof.
  split; [repeat constructor; simpl; lia|]. split; [reflexivity|]. split; reflexivity.
Qed.

(** Finding: with a negative profit the "bound" can be below the profit of the
    empty choice. *)
Theorem C17_negative_profit_refuted : exists items counts capacity,
  (forall it, In it items -> 0 <= di_volume it /\ 0 <= di_copies it) /\
  choice items counts /\ (0 <= capacity)%Q /\ (inject_Z (choice_volume items counts) <= capacity)%Q /\
  (dantzig_profit_bound items capacity < choice_profit items counts)%Q.
Proof.
  exists [mkDI (-5) 1 1], [0], 3%Q. split; [intros it [<-|[]]; simpl; lia|].
  split; [repeat constructor; simpl; lia|]. repeat split; vm_compute; congruence.
Qed.
Print Assumptions C17_negative_profit_refuted.

(** ** C15: the onedimensional bounds *)

Lemma domain_red : forall i, dff_domain i -> forall it, In it (in_item_types i) -> 0 < reduced_length it.
Proof. intros i [_ _ H3] it Hit. destruct (H3 it Hit) as (A & B & _). unfold reduced_length. lia. Qed.
Lemma domain_cop : forall i, dff_domain i -> forall it, In it (in_item_types i) -> 0 <= it_copies it.
Proof. intros i [_ _ H3] it Hit. apply H3. assumption. Qed.

Lemma packing_bin_end : forall i ds, dff_domain i -> PackingOK i ds -> bins_of ds 0 -> forall d, In d ds ->
  bin_end i (bd_items d) <= bt_length (bin_type i 0).
Proof.
  intros i ds Hdom HP Hb d Hd. destruct (Hb d Hd) as [Et _].
  pose proof (ok_length _ _ (ok_bins _ _ HP d Hd)) as HL. rewrite Et in HL.
  destruct (exists_last_or_nil _ (bd_items d)) as [E|(l & x & E)].
  - rewrite E. unfold bin_end. simpl. pose proof (dd_bin _ Hdom). lia.
  - specialize (HL l x [] E). rewrite E, bin_end_snoc'. assumption.
Qed.

Theorem C15_bin_packing_bound : forall i, dff_domain i -> in_objective i = OBinPacking ->
  exists b, dual_feasible_functions i = Some (BinPackingBound b) /\
  forall ds, PackingOK i ds -> bins_of ds 0 -> all_packed i ds -> b <= zsum bd_copies ds.
Proof.
  intros i Hdom Ho.
  destruct (run_some i (dd_bin _ Hdom) (domain_red i Hdom) (domain_cop i Hdom)) as (combos & E & Hc).
  unfold dual_feasible_functions. rewrite (dd_one _ Hdom), Ho. simpl negb. cbv iota zeta. rewrite E. cbn [bind].
  eexists. split; [reflexivity|]. intros ds HP Hb Ha.
  apply (bound_valid i (dd_bin _ Hdom) (domain_red i Hdom) (domain_cop i Hdom) ds Hb
           (packing_bin_end i ds Hdom HP Hb) (ok_copies _ _ HP) (dd_one _ Hdom) Ha combos Hc).
Qed.
Print Assumptions C15_bin_packing_bound.

Theorem C15_infeasibility : forall i, dff_domain i -> in_objective i = OFeasibility ->
  Z.of_nat (length (in_bin_type_ids i)) = bt_copies (bin_type i 0) ->
  exists v, dual_feasible_functions i = Some (ProvenInfeasible v) /\
  (v = true -> forall ds, PackingOK i ds -> bins_of ds 0 -> all_packed i ds ->
     used_bins 0 ds <= bt_copies (bin_type i 0) -> False).
Proof.
  intros i Hdom Ho Hn.
  destruct (run_some i (dd_bin _ Hdom) (domain_red i Hdom) (domain_cop i Hdom)) as (combos & E & Hc).
  unfold dual_feasible_functions. rewrite (dd_one _ Hdom), Ho. simpl negb. cbv iota zeta. rewrite E. cbn [bind].
  eexists. split; [reflexivity|]. intros Hv ds HP Hb Ha Hu. apply Z.ltb_lt in Hv. rewrite Hn in Hv.
  pose proof (bound_valid i (dd_bin _ Hdom) (domain_red i Hdom) (domain_cop i Hdom) ds Hb
           (packing_bin_end i ds Hdom HP Hb) (ok_copies _ _ HP) (dd_one _ Hdom) Ha combos Hc) as HB.
  assert (EU : used_bins 0 ds = zsum bd_copies ds).
  { unfold used_bins. apply zsum_ext. intros d Hd. destruct (Hb d Hd) as [-> _]. reflexivity. }
  lia.
Qed.
Print Assumptions C15_infeasibility.

Lemma bin_end_first : forall i x l, (forall y, In y l -> it_nesting (item_type i y) <= it_length (item_type i y)) ->
  it_length (item_type i x) <= bin_end i (x :: l).
Proof.
  intros i x l H. unfold bin_end. cbn [tl]. rewrite zsum_cons.
  assert (zsum (fun y => it_nesting (item_type i y)) l <= zsum (fun y => it_length (item_type i y)) l)
    by (apply zsum_le; assumption). lia.
Qed.

(** Knapsack: the bound is at least the reported profit of every packing. *)
Theorem C15_knapsack_bound : forall i, dff_domain i -> in_objective i = OKnapsack ->
  (forall it, In it (in_item_types i) -> (0 <= it_profit it)%Q) -> shallow_nesting i ->
  exists b, dual_feasible_functions i = Some (KnapsackBound b) /\
  forall q ds, b = Some q -> PackingOK i ds -> bins_of ds 1 -> used_bins 0 ds <= bt_copies (bin_type i 0) ->
    (profit_of i ds <= q)%Q.
Proof.
  intros i Hdom Ho Hp Hsh.
  destruct (run_some i (dd_bin _ Hdom) (domain_red i Hdom) (domain_cop i Hdom)) as (combos & E & Hc).
  unfold dual_feasible_functions. rewrite (dd_one _ Hdom), Ho. simpl negb. cbv iota zeta. rewrite E. cbn [bind].
  eexists. split; [reflexivity|]. intros q ds Eq HP Hb1 Hu.
  assert (Hb : bins_of ds 0) by (intros d Hd; destruct (Hb1 d Hd); split; [assumption|lia]).
  assert (EU : used_bins 0 ds = zsum bd_copies ds).
  { unfold used_bins. apply zsum_ext. intros d Hd. destruct (Hb d Hd) as [-> _]. reflexivity. }
  destruct (fold_left min_bound (flat_map (knapsack_combo i) combos) None) as [q0|] eqn:EF; [|discriminate].
  injection Eq as <-.
  apply (knapsack_valid i (dd_bin _ Hdom) (domain_red i Hdom) (domain_cop i Hdom) ds Hb
           (packing_bin_end i ds Hdom HP Hb) (ok_copies _ _ HP) Hp) with (combos := combos); try assumption.
  - intros d x Hd _ Hx.
    assert (Hr : forall y, In y (bd_items d) -> (y < length (in_item_types i))%nat).
    { intros y Hy. apply (item_in_range i ds Hb (ok_copies _ _ HP) d y Hd); [apply Hb1; assumption|assumption]. }
    unfold fits_some_bin. rewrite (dd_one _ Hdom). simpl. rewrite orb_false_r.
    destruct (Hb d Hd) as [Et _]. pose proof (ok_bins _ _ HP d Hd) as HB.
    unfold item_type_fits_bin_type. apply andb_true_iff. split.
    + apply Z.leb_le. apply in_split in Hx. destruct Hx as (a & c & Ex).
      pose proof (ok_length _ _ HB a x c Ex) as HL. rewrite Et in HL.
      assert (0 <= start_of i a x); [|lia].
      destruct a as [|y a]; simpl; [lia|].
      assert (Hin : forall z, In z (y :: a) -> In (item_type i z) (in_item_types i)).
      { intros z Hz. apply nth_In. apply Hr. rewrite Ex. apply in_app_iff. left. assumption. }
      pose proof (bin_end_first i y a) as HF.
      assert (HF' : it_length (item_type i y) <= bin_end i (y :: a)).
      { apply HF. intros z Hz. destruct (dd_items _ Hdom _ (Hin z (or_intror Hz))) as (_ & ? & _). lia. }
      assert (Hxin : In (item_type i x) (in_item_types i)).
      { apply nth_In. apply Hr. rewrite Ex. apply in_app_iff. right. left. reflexivity. }
      specialize (Hsh _ _ Hxin (Hin y (or_introl eq_refl))). lia.
    + pose proof (ok_eligibility _ _ HB x Hx) as HE. rewrite Et in HE. unfold eligible.
      apply orb_true_iff. destruct HE as [HE|HE]; [left; apply Z.eqb_eq; assumption|right].
      apply existsb_exists. exists (it_eligibility (item_type i x)). split; [assumption|apply Z.eqb_refl].
  - rewrite <- EU. assumption.
  - apply (dd_one _ Hdom).
  - intros d Hd. apply Hb1. assumption.
Qed.
Print Assumptions C15_knapsack_bound.

(** On solutions built through the API. *)
Theorem C15_knapsack_bound_solutions : forall i cb calls1 calls2 s b q,
  dff_domain i -> in_objective i = OKnapsack ->
  (forall it, In it (in_item_types i) -> (0 <= it_profit it)%Q) -> shallow_nesting i ->
  wf_resource_ids i -> sane_resources i -> copies_nonneg calls1 calls2 -> history i cb calls1 calls2 = Some s ->
  s_feasible s = true -> bins_of (view s) 1 -> nth 0 (c_bin_copies (s_core s)) 0 <= bt_copies (bin_type i 0) ->
  dual_feasible_functions i = Some (KnapsackBound b) -> b = Some q -> (c_item_profit (s_core s) <= q)%Q.
Proof.
  intros i cb calls1 calls2 s b q Hdom Ho Hp Hsh Hwf Hsane Hcn H Hf Hb Hu HD Hbq.
  destruct (C15_knapsack_bound i Hdom Ho Hp Hsh) as (b' & E & HV). rewrite HD in E. injection E as ->.
  destruct (C09_indicators i cb calls1 calls2 s Hwf Hcn H) as (_ & HI & _).
  rewrite (ind_profit _ _ _ HI Hsane). apply (HV q (view s) Hbq).
  - apply (C10_feasible i cb calls1 calls2 s Hwf Hcn H). assumption.
  - assumption.
  - rewrite <- (ind_bin_copies _ _ _ HI 0%nat); [assumption|]. rewrite (dd_one _ Hdom). lia.
Qed.
Print Assumptions C15_knapsack_bound_solutions.

(** Bound 3 (2 from the volume), reached by a packing in 3 bins. *)
Definition ex_dff3 : Instance :=
  mkInst OBinPacking
    [mkIT 6 9 2 2 0 0 9 None (-1) [[]]; mkIT 4 4 1 1 0 0 9 None (-1) [[]]; mkIT 5 4 1 1 0 0 9 None (-1) [[]]]
    [mkBT 10 10 4 0 None [] [] [0; 1; 2]%nat]
    [0; 0; 0; 0]%nat [0; 10; 20; 30] 40 10 6 29 31 9 (Some 0%nat) 3 false.
Definition ex_packing : list BinDesc := [mkBD 0 1 [0; 1]%nat; mkBD 0 1 [0]%nat; mkBD 0 1 [2]%nat].

Lemma packing_check : forall i ds, sane_instance i ->
  (forall d, In d ds -> SimpleBinOK i d) ->
  (forall x, packed x ds <= it_copies (item_type i x)) ->
  (forall x, (x < length (in_item_types i))%nat -> it_copies_min (item_type i x) <= packed x ds) -> PackingOK i ds.
Proof.
  intros i ds Hs Hb Hc Hm. constructor; auto. intros d Hd. apply (bin_ok_simple i Hs). apply Hb. assumption.
Qed.

Lemma sane_ex : forall o its bt ids prev bl lbc noi il ip lip le lic inf,
  (forall it, In it its -> 0 <= it_length it /\ it_nesting it <= it_length it /\ (0 <= it_weight it)%Q /\ it_max_weight_after it = None) ->
  0 <= bt_length bt -> bt_max_weight bt = None -> bt_resources bt = [] ->
  sane_instance (mkInst o its [bt] ids prev bl lbc noi il ip lip le lic inf).
Proof.
  intros o its bt ids prev bl lbc noi il ip lip le lic inf H1 H2 H3 H4. constructor.
  - intros b r [<-|[]] Hr. rewrite H4 in Hr. destruct Hr.
  - intro x. unfold item_type. simpl. destruct (nth_in_or_default x its dummy_item) as [Hin|Hd].
    + destruct (H1 _ Hin) as (A & B & D & E). rewrite E. simpl. auto.
    + rewrite Hd. simpl. repeat split; try lia. discriminate.
  - intros [|[|t]]; unfold bin_type; simpl; rewrite ?H3; simpl; auto; split; auto; lia.
Qed.

Ltac simple_bin_ok :=
  constructor;
  [ vm_compute; discriminate
  | exact I
  | let x := fresh "x" in let H := fresh "H" in intros x H; simpl in H;
    repeat (destruct H as [H|H]; [subst x; vm_compute; discriminate|]); destruct H
  | let x := fresh "x" in intros ? x ? _; do 5 (destruct x as [|x]; [exact I|]); exact I
  | let x := fresh "x" in let H := fresh "H" in intros x H; simpl in H; left;
    repeat (destruct H as [H|H]; [subst x; reflexivity|]); destruct H
  | let H := fresh "H" in intros ? H; destruct H ].

Lemma ex_packing_ok : PackingOK ex_dff3 ex_packing.
Proof.
  apply packing_check.
  - apply sane_ex; try reflexivity; [|simpl; lia].
    intros it [<-|[<-|[<-|[]]]]; vm_compute; repeat split; congruence.
  - intros d [<-|[<-|[<-|[]]]]; simple_bin_ok.
  - intros [|[|[|x]]]; [| | |destruct x]; vm_compute; discriminate.
  - intros x Hx. simpl in Hx. destruct x as [|[|[|x]]]; try lia; vm_compute; discriminate.
Qed.

Example C15_example :
  dual_feasible_functions ex_dff3 = Some (BinPackingBound 3) /\ dff_domain ex_dff3 /\
  PackingOK ex_dff3 ex_packing /\ bins_of ex_packing 0 /\ all_packed ex_dff3 ex_packing /\ zsum bd_copies ex_packing = 3.
Proof.
  split; [vm_compute; reflexivity|]. split.
  { constructor; [reflexivity|vm_compute; discriminate|].
    intros it [<-|[<-|[<-|[]]]]; vm_compute; repeat split; congruence. }
  split; [apply ex_packing_ok|]. split; [|split; [|reflexivity]].
  - intros d [<-|[<-|[<-|[]]]]; simpl; split; try reflexivity; lia.
  - intros x Hx. simpl in Hx. destruct x as [|[|[|x]]]; try lia; reflexivity.
Qed.

(** Finding: when fewer copies are mandatory than available ([copies_min] below
    [copies]), the bin packing "bound" exceeds the number of bins of a feasible
    packing: it counts all copies. *)
Definition ex_optional (o : Objective) : Instance :=
  mkInst o [mkIT 6 9 3 1 0 0 9 None (-1) [[]]] [mkBT 10 10 4 0 None [] [] [0]%nat]
    [0; 0; 0; 0]%nat [0; 10; 20; 30] 40 10 3 18 27 9 (Some 0%nat) 3 false.

Theorem C15_optional_copies_refuted : exists i ds b,
  dff_domain i /\ in_objective i = OBinPacking /\ dual_feasible_functions i = Some (BinPackingBound b) /\
  PackingOK i ds /\ bins_of ds 1 /\ zsum bd_copies ds < b.
Proof.
  exists (ex_optional OBinPacking), [mkBD 0 1 [0]%nat], 3. split.
  { constructor; [reflexivity|vm_compute; discriminate|].
    intros it [<-|[]]; vm_compute; repeat split; congruence. }
  split; [reflexivity|]. split; [reflexivity|]. split; [|split; [|reflexivity]].
  - apply packing_check.
    + apply sane_ex; try reflexivity; [|simpl; lia]. intros it [<-|[]]; vm_compute; repeat split; congruence.
    + intros d [<-|[]]; simple_bin_ok.
    + intros [|x]; [|destruct x]; vm_compute; discriminate.
    + intros x Hx. simpl in Hx. destruct x as [|x]; try lia; vm_compute; discriminate.
  - intros d [<-|[]]. simpl. split; [reflexivity|lia].
Qed.
Print Assumptions C15_optional_copies_refuted.

(** Finding: an item type whose reduced length is 0 makes the algorithm divide
    by zero. *)
Theorem C15_zero_length_refuted : exists i, length (in_bin_types i) = 1%nat /\ 1 <= bt_length (bin_type i 0) /\
  (forall it, In it (in_item_types i) -> 0 < it_length it /\ it_nesting it <= it_length it /\ 1 <= it_copies it) /\
  in_objective i = OBinPacking /\ dual_feasible_functions i = None.
Proof.
  exists (mkInst OBinPacking [mkIT 4 9 3 1 0 4 9 None (-1) [[]]] [mkBT 10 10 4 0 None [] [] [0]%nat]
    [0; 0; 0; 0]%nat [0; 10; 20; 30] 40 10 3 18 27 9 (Some 0%nat) 3 false).
  split; [reflexivity|]. split; [vm_compute; discriminate|].
  split; [intros it [<-|[]]; simpl; lia|]. split; reflexivity.
Qed.
Print Assumptions C15_zero_length_refuted.

(** Finding: an item longer than the bin fits after a shorter item when it nests
    deep enough, but the knapsack bound counts it as unpackable. *)
Theorem C15_deep_nesting_refuted : exists i ds q,
  dff_domain i /\ in_objective i = OKnapsack /\
  (forall it, In it (in_item_types i) -> (0 <= it_profit it)%Q) /\
  dual_feasible_functions i = Some (KnapsackBound (Some q)) /\
  PackingOK i ds /\ bins_of ds 1 /\ used_bins 0 ds <= bt_copies (bin_type i 0) /\ (q < profit_of i ds)%Q.
Proof.
  exists (mkInst OKnapsack [mkIT 2 1 1 0 0 0 9 None (-1) [[]]; mkIT 11 9 1 0 0 5 9 None (-1) [[]]]
    [mkBT 10 10 1 0 None [] [] [0; 1]%nat]
    [0]%nat [0] 10 10 2 13 10 9 (Some 1%nat) 1 false), [mkBD 0 1 [0; 1]%nat], 1%Q. split.
  { constructor; [reflexivity|vm_compute; discriminate|].
    intros it [<-|[<-|[]]]; vm_compute; repeat split; congruence. }
  split; [reflexivity|]. split; [intros it [<-|[<-|[]]]; vm_compute; discriminate|].
  split; [reflexivity|]. split; [|split; [|split]].
  - apply packing_check.
    + apply sane_ex; try reflexivity; [|simpl; lia]. intros it [<-|[<-|[]]]; vm_compute; repeat split; congruence.
    + intros d [<-|[]]; simple_bin_ok.
    + intros [|[|x]]; [| |destruct x]; vm_compute; discriminate.
    + intros x Hx. simpl in Hx. destruct x as [|[|x]]; try lia; vm_compute; discriminate.
  - intros d [<-|[]]. simpl. split; [reflexivity|lia].
  - vm_compute. discriminate.
  - reflexivity.
Qed.
Print Assumptions C15_deep_nesting_refuted.
