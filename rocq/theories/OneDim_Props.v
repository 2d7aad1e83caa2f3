(** * Properties of onedimensional solutions (C06, C09, C10, C11) *)

From Coq Require Import List ZArith QArith Bool Lia Lqa Arith Permutation.
From Verif Require Import Util Common_Model Common_Spec OneDim_Model OneDim_Spec OneDim_Proof OneDim_Order.
Import ListNotations.
Open Scope Z_scope.

(** Example instance: two item types (the second nests by 2), one bin type of
    length 10 with a hard resource of capacity 9 consumed [5; 3] by item type 0;
    objective [o]. *)
Definition ex_resource (penalize : bool) : Resource := mkResource 9 [[5; 3]%Q] penalize 4.
Definition ex_instance (o : Objective) (penalize : bool) : Instance :=
  mkInst o
    [mkIT 3 7 3 0 2 0 9 (Some 4%Q) (-1) [[0%nat]];
     mkIT 4 5 2 0 1 2 9 None 1 [[]]]
    [mkBT 10 6 2 0 (Some 8%Q) [1] [ex_resource penalize] [0; 1]%nat]
    [0; 0]%nat [0; 10] 20 6 5 17 19 7 (Some 0%nat) 3 false.

Lemma ex_wf : forall o p, wf_resource_ids (ex_instance o p).
Proof.
  intros o p x t Hx Ht. simpl in Hx, Ht. destruct t as [|t]; [|lia].
  destruct x as [|[|x]]; [| |lia]; simpl.
  - split; [repeat constructor; simpl; tauto|]. intros r. split.
    + intros [<-|[]]. split; [lia|discriminate].
    + intros [Hr _]. left. lia.
  - split; [constructor|]. intros r. split; [intros []|]. intros [Hr H]. destruct r; [|lia].
    apply H. reflexivity.
Qed.

Definition accept : Callback := fun _ => true.
Definition ex_calls : list BuilderCall := [AddBin 0 2; AddItem 0 0; AddItem 0 1; AddItem 0 0].

Definition ex_solution (o : Objective) (p : bool) : Solution :=
  match history (ex_instance o p) accept ex_calls [] with Some s => s | None => sol_new (ex_instance o p) end.

(** ** C06: accumulation of the consumptions *)

(** In every bin of every solution, the consumption of each resource is, for
    each item type, the sum of the first [n] entries of its schedule, [n] being
    the number of its copies in the bin. *)
Theorem C06_accumulation : forall i cb calls1 calls2 s,
  wf_resource_ids i -> copies_nonneg calls1 calls2 -> history i cb calls1 calls2 = Some s ->
  forall b r, In b (c_bins (s_core s)) -> (r < length (bt_resources (bin_type i (sb_type b))))%nat ->
  (nth r (sb_resources b) 0 ==
   consumption i (nth r (bt_resources (bin_type i (sb_type b))) dummy_resource) (map si_type (sb_items b)))%Q.
Proof.
  intros i cb calls1 calls2 s Hwf [Hc1 Hc2] H b r Hb Hr.
  destruct (history_spec i cb Hwf calls1 calls2 s H Hc1 Hc2) as (F & _ & _).
  apply (fi_pos _ _ _ F b Hb). assumption.
Qed.
Print Assumptions C06_accumulation.

Theorem C06_order_independent : forall i r items1 items2, Permutation items1 items2 ->
  (consumption i r items1 == consumption i r items2)%Q.
Proof. exact consumption_perm. Qed.
Print Assumptions C06_order_independent.

Example C06_accumulation_example :
  map (fun b => map Qred (sb_resources b)) (c_bins (s_core (ex_solution OKnapsack false))) = [[8%Q]]
  /\ (consumption (ex_instance OKnapsack false) (ex_resource false) [0; 1; 0]%nat == 8)%Q.
Proof. vm_compute. auto. Qed.

(** ** C09: indicators *)

Theorem C09_indicators : forall i cb calls1 calls2 s,
  wf_resource_ids i -> copies_nonneg calls1 calls2 -> history i cb calls1 calls2 = Some s ->
  view s = desc_run [] calls1 ++ flat_map call_bins calls2 /\
  Indicators i (view s) (s_core s) /\
  (forall b, In b (c_bins (s_core s)) -> positions_ok i b).
Proof.
  intros i cb calls1 calls2 s Hwf [Hc1 Hc2] H.
  destruct (history_spec i cb Hwf calls1 calls2 s H Hc1 Hc2) as (F & V & _).
  split; [assumption|]. split; [apply (ci_ind _ _ _ (fi_core _ _ _ F))|apply (fi_pos _ _ _ F)].
Qed.
Print Assumptions C09_indicators.

Example C09_example :
  let s := ex_solution OKnapsack false in
  view s = [mkBD 0 2 [0; 1; 0]%nat] /\
  (c_number_of_bins (s_core s), c_number_of_items (s_core s), c_item_length (s_core s),
   c_length (s_core s), Qred (c_item_profit (s_core s)), c_item_copies (s_core s))
  = (2, 6, 20, 18, 38%Q, [4; 2])
  /\ map (fun b => map si_start (sb_items b)) (c_bins (s_core s)) = [[0; 1; 5]].
Proof. vm_compute. auto. Qed.

(** Finding: a penalised resource is charged once per entry of the bin list,
    not once per copy, so merging identical bins changes the profit. *)
Theorem C09_penalty_per_copy_refuted : exists i cb calls calls' s s',
  wf_resource_ids i /\ history i cb calls [] = Some s /\ history i cb calls' [] = Some s' /\
  view s = [mkBD 0 2 [0; 0; 0]%nat] /\
  view s' = [mkBD 0 1 [0; 0; 0]%nat; mkBD 0 1 [0; 0; 0]%nat] /\
  ~ (c_item_profit (s_core s) == c_item_profit (s_core s'))%Q.
Proof.
  exists (ex_instance OKnapsack true), accept,
    [AddBin 0 2; AddItem 0 0; AddItem 0 0; AddItem 0 0],
    [AddBin 0 1; AddItem 0 0; AddItem 0 0; AddItem 0 0; AddBin 0 1; AddItem 1 0; AddItem 1 0; AddItem 1 0].
  eexists. eexists. split; [apply ex_wf|]. split; [reflexivity|]. split; [reflexivity|].
  split; [reflexivity|]. split; [reflexivity|]. vm_compute. discriminate.
Qed.
Print Assumptions C09_penalty_per_copy_refuted.

(** ** C10: feasible() *)

Theorem C10_feasible : forall i cb calls1 calls2 s,
  wf_resource_ids i -> copies_nonneg calls1 calls2 -> history i cb calls1 calls2 = Some s ->
  (s_feasible s = true <-> PackingOK i (view s) /\ (view s <> [] -> cb (s_core s) = true)).
Proof.
  intros i cb calls1 calls2 s Hwf [Hc1 Hc2] H.
  destruct (history_spec i cb Hwf calls1 calls2 s H Hc1 Hc2) as (F & _ & _).
  rewrite (fi_feasible _ _ _ F), (fi_cb _ _ _ F). unfold view.
  destruct (c_bins (s_core s)); simpl.
  - intuition congruence.
  - split; intros [H1 H2]; split; auto. apply H2. discriminate.
Qed.
Print Assumptions C10_feasible.

(** With non-negative data the constraints are the usual ones on whole bins. *)
Theorem C10_bin_constraints : forall i, sane_instance i -> forall d, BinOK i d <-> SimpleBinOK i d.
Proof. exact bin_ok_simple. Qed.
Print Assumptions C10_bin_constraints.

Lemma ex_sane : forall o p, sane_instance (ex_instance o p).
Proof.
  intros o p. constructor.
  - intros bt r [<-|[]] [<-|[]]. split; [discriminate|].
    intros s q [<-|[]] [<-|[<-|[]]]; discriminate.
  - intros [|[|[|x]]]; vm_compute; repeat split; congruence.
  - intros [|[|t]]; vm_compute; repeat split; congruence.
Qed.

Example C10_example :
  s_feasible (ex_solution OKnapsack false) = false (* 4 copies of item type 0 *) /\
  option_map s_feasible (history (ex_instance OKnapsack false) accept
    [AddBin 0 1; AddItem 0 0; AddItem 0 1; AddItem 0 0] [AppendEmptyBin 0 1]) = Some true.
Proof. vm_compute. auto. Qed.

(** Finding: neither the number of bins of a type nor the order of the bin
    types is looked at. *)
Theorem C10_bin_copies_refuted : exists i cb calls s,
  wf_resource_ids i /\ sane_instance i /\ history i cb calls [] = Some s /\
  s_feasible s = true /\ bt_copies (bin_type i 0) < used_bins 0 (view s).
Proof.
  exists (ex_instance OBinPacking false), accept, [AddBin 0 3]. eexists.
  split; [apply ex_wf|]. split; [apply ex_sane|]. split; [reflexivity|]. vm_compute. auto.
Qed.
Print Assumptions C10_bin_copies_refuted.

(** The bin type order flag: exact after [build], then sticky. *)
Theorem C10_bin_type_order : forall i cb calls1 calls2,
  wf_resource_ids i -> copies_nonneg calls1 calls2 ->
  (forall s, calls2 = [] -> history i cb calls1 calls2 = Some s -> view s <> [] ->
     (c_bin_type_order_ok (s_core s) = true <-> (in_objective i = OBinPacking -> OrderOK i (view s)))) /\
  (forall before call s s', calls2 = before ++ [call] ->
     (forall source bids iids, call <> AppendBins source bids iids) ->
     history i cb calls1 before = Some s -> history i cb calls1 calls2 = Some s' ->
     (c_bin_type_order_ok (s_core s') = true <->
      c_bin_type_order_ok (s_core s) = true /\ (in_objective i = OBinPacking -> OrderOK i (view s')))).
Proof.
  intros i cb calls1 calls2 Hwf Hc. split.
  - intros s -> H Hne. apply (history_order_build i cb calls1); assumption.
  - intros before call s s' -> Hcall H H'. apply (history_order_append i cb calls1 before call); assumption.
Qed.
Print Assumptions C10_bin_type_order.

Definition ex_two_types : Instance :=
  mkInst OBinPacking [mkIT 3 3 2 0 0 0 9 None (-1) [[]; []]]
    [mkBT 10 10 1 0 None [] [] [0%nat]; mkBT 8 8 1 0 None [] [] [0%nat]]
    [0; 1]%nat [0; 10] 18 10 2 6 6 3 (Some 0%nat) 2 false.

(** Finding: the flag depends on the order of the calls, not only on the
    solution they build. *)
Theorem C10_order_flag_history_refuted : exists i cb calls1 calls2 calls1' s s',
  wf_resource_ids i /\
  history i cb calls1 calls2 = Some s /\ history i cb calls1' [] = Some s' /\
  view s = view s' /\ OrderOK i (view s) /\
  c_bin_type_order_ok (s_core s) = false /\ c_bin_type_order_ok (s_core s') = true.
Proof.
  exists ex_two_types, accept, [AddBin 1 1], [AppendEmptyBin 0 1], [AddBin 1 1; AddBin 0 1].
  eexists. eexists. split.
  { intros x t Hx Ht. simpl in Hx, Ht. destruct x as [|x]; [|lia]. destruct t as [|[|t]]; [| |lia];
      simpl; (split; [constructor|]; intro r; split; [intros []|intros [Hr _]; lia]). }
  split; [reflexivity|]. split; [reflexivity|]. split; [reflexivity|].
  split; [|split; reflexivity].
  intros t u Htu Hu. simpl in Htu. assert (t = 0%nat) by lia. subst t. vm_compute. reflexivity.
Qed.
Print Assumptions C10_order_flag_history_refuted.

(** ** C11: operator< *)

Theorem C11_feasible_first : forall i s1 s2,
  (sol_lt i s1 s2 = Some true -> s_feasible s2 = true) /\
  (s_feasible s1 = false -> s_feasible s2 = true -> sol_lt i s1 s2 = Some true).
Proof. exact sol_lt_feasible_first. Qed.
Print Assumptions C11_feasible_first.

Theorem C11_strict_weak_order : forall i,
  in_objective i = OBinPacking \/ in_objective i = OBinPackingWithLeftovers ->
  StrictWeakOrder Solution (fun s1 s2 => match sol_lt i s1 s2 with Some b => b | None => false end).
Proof. intros i [H|H]; apply sol_lt_swo; rewrite H; reflexivity. Qed.
Print Assumptions C11_strict_weak_order.

Theorem C11_strict_partial_order : forall i,
  in_objective i = OKnapsack \/ in_objective i = OVariableSizedBinPacking ->
  let lt s1 s2 := sol_lt i s1 s2 = Some true in
  forall a b c, nonneg_values a -> nonneg_values b -> nonneg_values c ->
  ~ lt a a /\ (lt a b -> ~ lt b a) /\ (lt a b -> lt b c -> lt a c).
Proof.
  intros i Ho lt a b c Ha Hb Hc. unfold lt.
  pose proof (sol_lt_partial i Ho a b c Ha Hb Hc) as (H1 & H2 & H3).
  assert (Hd : forall x y, sol_lt i x y = Some (better_by i x y)).
  { intros x y. unfold better_by, sol_lt. destruct Ho as [-> | ->];
      destruct (s_feasible x), (s_feasible y); reflexivity. }
  rewrite !Hd. split; [congruence|]. split.
  - intros E F. rewrite H2 in F; congruence.
  - intros E F. rewrite H3; congruence.
Qed.
Print Assumptions C11_strict_partial_order.

(** What an improvement means for the user: the objective value really
    improves. *)
Theorem C11_improvement_is_real : forall i s1 s2,
  nonneg_values s1 -> nonneg_values s2 -> s_feasible s1 = true -> sol_lt i s1 s2 = Some true ->
  s_feasible s2 = true /\
  match in_objective i with
  | OKnapsack | OFeasibility => (c_item_profit (s_core s1) < c_item_profit (s_core s2))%Q
  | OBinPacking => c_number_of_bins (s_core s2) < c_number_of_bins (s_core s1)
  | OBinPackingWithLeftovers => waste s2 < waste s1
  | OVariableSizedBinPacking => (c_bin_cost (s_core s2) < c_bin_cost (s_core s1))%Q
  | _ => True
  end.
Proof.
  intros i s1 s2 [P1 P2] [P3 P4] H1 H. split; [apply (sol_lt_feasible_first i s1 s2); assumption|].
  pose proof (proj1 (sol_lt_feasible_first i s1 s2) H) as H2.
  unfold sol_lt in H. rewrite H1, H2 in H. simpl in H.
  destruct (in_objective i); try exact I; try discriminate; injection H as H.
  - apply Z.ltb_lt. assumption.
  - apply Z.ltb_lt. assumption.
  - apply Common_Proof.sgp_sound; assumption.
  - apply Common_Proof.sgc_sound; assumption.
  - apply Common_Proof.sgp_sound; assumption.
Qed.
Print Assumptions C11_improvement_is_real.

Example C11_example :
  let s n := match history (ex_instance OBinPacking false) accept [AddBin 0 n] [] with
             | Some s => s | None => sol_new (ex_instance OBinPacking false) end in
  sol_lt (ex_instance OBinPacking false) (s 2) (s 1) = Some true /\
  sol_lt (ex_instance OBinPacking false) (s 1) (s 2) = Some false.
Proof. vm_compute. auto. Qed.

(** Finding: with the default objective the comparison can be cyclic, because
    profits closer than the tolerance fall back on the waste. *)
Definition ex_cycle : Instance :=
  mkInst ODefault
    [mkIT 10 1 1 0 0 0 9 None (-1) [[]];
     mkIT 9 (1 + (9 # 10000000)) 1 0 0 0 9 None (-1) [[]];
     mkIT 8 (1 + (18 # 10000000)) 1 0 0 0 9 None (-1) [[]];
     mkIT 1 0 1 0 0 0 9 None (-1) [[]]]
    [mkBT 10 10 2 0 None [] [] [0; 1; 2; 3]%nat]
    [0; 0]%nat [0; 10] 20 10 4 28 3 2 None 1 false.

Theorem C11_default_cycle_refuted : exists i a b c,
  (forall s, In s [a; b; c] -> nonneg_values s /\
     exists calls, history i accept calls [] = Some s) /\
  sol_lt i b a = Some true /\ sol_lt i c b = Some true /\ sol_lt i a c = Some true.
Proof.
  pose (sol k := match history ex_cycle accept [AddBin 0 1; AddItem 0 k; AddBin 0 1; AddItem 1 3] [] with
             | Some s => s | None => sol_new ex_cycle end).
  exists ex_cycle, (sol 0%nat), (sol 1%nat), (sol 2%nat).
  split; [|vm_compute; auto].
  intros s [<-|[<-|[<-|[]]]]; (split; [split; vm_compute; discriminate|]).
  - exists [AddBin 0 1; AddItem 0 0; AddBin 0 1; AddItem 1 3]. reflexivity.
  - exists [AddBin 0 1; AddItem 0 1; AddBin 0 1; AddItem 1 3]. reflexivity.
  - exists [AddBin 0 1; AddItem 0 2; AddBin 0 1; AddItem 1 3]. reflexivity.
Qed.
Print Assumptions C11_default_cycle_refuted.
