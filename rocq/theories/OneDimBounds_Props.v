(** * C29: the cheap onedimensional bounds; C46: dynamic programming for one bin *)

From Coq Require Import List ZArith QArith Bool Lia Lqa Arith Permutation Sorted.
From Verif Require Import Util Common_Model OneDim_Model OneDim_Spec OneDimDff_Model OneDimDff_Spec
  OneDimBounds_Model OneDimBounds_Spec OneDimBounds_Proof OneDimDp_Proof OneDim_Props Dff_Props.
Import ListNotations.
Open Scope Z_scope.

(** ** C29 *)

(** Knapsack: no packing has a larger profit than the bound, whatever the order
    chosen by the sort among equal items. *)
Theorem C29_knapsack : forall i order ds,
  bound_domain i -> (forall it, In it (in_item_types i) -> (0 <= it_profit it)%Q) -> shallow_nesting i ->
  sorted_by (trivial_before i) (trivial_items i) order ->
  PackingOK i ds -> available_bins i ds ->
  (profit_of i ds <= trivial_knapsack_bound i order)%Q.
Proof.
  intros i order ds Hdom Hp Hsh Hs HP Hav. apply trivial_knapsack_valid; assumption.
Qed.
Print Assumptions C29_knapsack.

(** On solutions built through the API. *)
Corollary C29_knapsack_solutions : forall i cb calls1 calls2 s order,
  bound_domain i -> (forall it, In it (in_item_types i) -> (0 <= it_profit it)%Q) -> shallow_nesting i ->
  sorted_by (trivial_before i) (trivial_items i) order ->
  wf_resource_ids i -> sane_resources i -> copies_nonneg calls1 calls2 -> history i cb calls1 calls2 = Some s ->
  s_feasible s = true -> available_bins i (view s) ->
  (c_item_profit (s_core s) <= trivial_knapsack_bound i order)%Q.
Proof.
  intros i cb calls1 calls2 s order Hdom Hp Hsh Hs Hwf Hsane Hcn H Hf Hav.
  destruct (C09_indicators i cb calls1 calls2 s Hwf Hcn H) as (_ & HI & _).
  rewrite (ind_profit _ _ _ HI Hsane). apply (C29_knapsack i order (view s)); try assumption.
  apply (C10_feasible i cb calls1 calls2 s Hwf Hcn H). assumption.
Qed.
Print Assumptions C29_knapsack_solutions.

(** Bin packing: no packing of all the items that uses the bin types in order
    has fewer bins than the bound. *)
Theorem C29_bin_packing : forall i ds, bound_domain i -> PackingOK i ds -> available_bins i ds ->
  all_packed i ds -> OrderOK i ds -> trivial_bin_packing_bound i <= zsum bd_copies ds.
Proof. exact trivial_bin_packing_valid. Qed.
Print Assumptions C29_bin_packing.

(** Variable-sized bin packing without mandatory bins: when the recursive solve
    returns a value that no selection of left-out bins exceeds, no packing of
    all the items costs less than the bound. *)
Theorem C29_variable_sized : forall i ds p, bound_domain i -> PackingOK i ds -> available_bins i ds ->
  all_packed i ds -> (forall bt, In bt (in_bin_types i) -> bt_copies_min bt = 0) ->
  at_least_every_selection (kp_items i) (kp_capacity i) p ->
  (trivial_variable_sized_bound i p <= cost_of i ds)%Q.
Proof. exact trivial_variable_sized_valid. Qed.
Print Assumptions C29_variable_sized.

Definition plain_instance (o : Objective) (items : list ItemType) (bins : list BinType) : Instance :=
  mkInst o items bins [] [] 0 0 0 0 0 0 None 0 false.
Definition plain_item (l : Z) (p : Q) (copies : Z) : ItemType := mkIT l p copies 0 0 0 9 None (-1) [].
Definition plain_bin (l : Z) (c : Q) (copies copies_min : Z) (ids : list nat) : BinType := mkBT l c copies copies_min None [] [] ids.

(** One bin of length 10, two of length 6; items 6, 6 and 4. *)
Definition ex_bounds (o : Objective) : Instance :=
  plain_instance o [plain_item 6 9 2; plain_item 4 4 1]
    [plain_bin 10 10 1 0 [0; 1]%nat; plain_bin 6 6 2 0 [0; 1]%nat].
Definition ex_bounds_packing : list BinDesc := [mkBD 0 1 [0; 1]%nat; mkBD 1 1 [0]%nat].

Lemma ex_bounds_sane : forall o, sane_instance (ex_bounds o).
Proof.
  intro o. constructor.
  - intros bt r [<-|[<-|[]]] [].
  - intros [|[|[|x]]]; vm_compute; repeat split; try congruence; exact I.
  - intros [|[|[|t]]]; vm_compute; repeat split; try congruence; exact I.
Qed.

Lemma ex_bounds_ok : forall o, PackingOK (ex_bounds o) ex_bounds_packing.
Proof.
  intro o. apply packing_check; [apply ex_bounds_sane| | |].
  - intros d [<-|[<-|[]]]; simple_bin_ok.
  - intros [|[|[|x]]]; vm_compute; discriminate.
  - intros x Hx. simpl in Hx. destruct x as [|[|x]]; try lia; vm_compute; discriminate.
Qed.

(** All the bounds are reached. *)
Example C29_example : forall o,
  bound_domain (ex_bounds o) /\ shallow_nesting (ex_bounds o) /\
  sorted_by (trivial_before (ex_bounds o)) (trivial_items (ex_bounds o)) [0; 1]%nat /\
  PackingOK (ex_bounds o) ex_bounds_packing /\ available_bins (ex_bounds o) ex_bounds_packing /\
  all_packed (ex_bounds o) ex_bounds_packing /\ OrderOK (ex_bounds o) ex_bounds_packing /\
  (trivial_knapsack_bound (ex_bounds o) [0; 1]%nat == 22)%Q /\ (profit_of (ex_bounds o) ex_bounds_packing == 22)%Q /\
  trivial_bin_packing_bound (ex_bounds o) = 2 /\ zsum bd_copies ex_bounds_packing = 2 /\
  kp_items (ex_bounds o) = [(6%Q, 6, 2)] /\ kp_capacity (ex_bounds o) = 6 /\
  at_least_every_selection (kp_items (ex_bounds o)) (kp_capacity (ex_bounds o)) 6 /\
  (trivial_variable_sized_bound (ex_bounds o) 6 == 16)%Q /\ (cost_of (ex_bounds o) ex_bounds_packing == 16)%Q.
Proof.
  intro o. split.
  { constructor; [intros bt [<-|[<-|[]]]|intros it [<-|[<-|[]]]]; vm_compute; repeat split; congruence. }
  split. { intros it1 it2 [<-|[<-|[]]] [<-|[<-|[]]]; vm_compute; congruence. }
  split. { split; [reflexivity|]. repeat constructor. }
  split; [apply ex_bounds_ok|]. split.
  { split; [intros d [<-|[<-|[]]]; simpl; lia|]. intros t Ht. simpl in Ht. destruct t as [|[|t]]; try lia; vm_compute; congruence. }
  split. { intros x Hx. simpl in Hx. destruct x as [|[|x]]; try lia; reflexivity. }
  split. { intros t u Hu _. simpl in Hu. destruct t as [|t]; [reflexivity|lia]. }
  do 6 (split; [vm_compute; reflexivity|]). split; [|split; vm_compute; reflexivity].
  change (kp_items (ex_bounds o)) with [(6%Q, 6, 2)]. change (kp_capacity (ex_bounds o)) with 6.
  intros counts H. inversion H as [|x n l l' H1 H2]; subst. inversion H2; subst. clear H H2. simpl in H1.
  cbn [combine fst snd]. rewrite zsum_cons, zsum_nil. cbn [fst snd]. intro Hw.
  assert (n <= 1) by lia. rewrite Zle_Qle in H. rewrite qsum_cons. unfold qsum. simpl.
  change (inject_Z 1) with 1%Q in H. lra.
Qed.

(** Finding: a negative profit lowers the knapsack bound below the profit of
    the empty packing. *)
Theorem C29_negative_profit_refuted : exists i order s,
  bound_domain i /\ shallow_nesting i /\ sorted_by (trivial_before i) (trivial_items i) order /\
  history i accept [AddBin 0 1] [] = Some s /\ s_feasible s = true /\
  (trivial_knapsack_bound i order < c_item_profit (s_core s))%Q.
Proof.
  exists (plain_instance OKnapsack [plain_item 5 (-1) 1] [plain_bin 10 10 1 0 [0]%nat]), [0%nat].
  eexists. split.
  { constructor; [intros bt [<-|[]]|intros it [<-|[]]]; vm_compute; repeat split; congruence. }
  split. { intros it1 it2 [<-|[]] [<-|[]]; vm_compute; congruence. }
  split. { split; [reflexivity|repeat constructor]. }
  split; [vm_compute; reflexivity|]. split; vm_compute; reflexivity.
Qed.
Print Assumptions C29_negative_profit_refuted.

(** Finding: items that nest completely are skipped by the knapsack bound. *)
Theorem C29_full_nesting_refuted : exists i order s,
  (forall it, In it (in_item_types i) -> 0 < it_length it /\ it_nesting it <= it_length it /\ (0 <= it_profit it)%Q) /\
  shallow_nesting i /\ sorted_by (trivial_before i) (trivial_items i) order /\
  history i accept [AddBin 0 1; AddItem 0 0] [] = Some s /\ s_feasible s = true /\
  (trivial_knapsack_bound i order < c_item_profit (s_core s))%Q.
Proof.
  exists (plain_instance OKnapsack [mkIT 5 3 1 0 0 5 9 None (-1) []] [plain_bin 10 10 1 0 [0]%nat]), [0%nat].
  eexists. split.
  { intros it [<-|[]]; vm_compute; repeat split; congruence. }
  split. { intros it1 it2 [<-|[]] [<-|[]]; vm_compute; congruence. }
  split. { split; [reflexivity|repeat constructor]. }
  split; [vm_compute; reflexivity|]. split; vm_compute; reflexivity.
Qed.
Print Assumptions C29_full_nesting_refuted.

(** Finding: [feasible] does not require the order of the bin types, and a
    feasible solution may use fewer bins than the bin packing bound. *)
Theorem C29_order_refuted : exists i s,
  bound_domain i /\ history i accept [AddBin 1 1; AddItem 0 0] [] = Some s /\ s_feasible s = true /\
  all_packed i (view s) /\ available_bins i (view s) /\
  c_number_of_bins (s_core s) < trivial_bin_packing_bound i.
Proof.
  exists (plain_instance OBinPacking [plain_item 10 1 1] [plain_bin 1 1 1 0 [0]%nat; plain_bin 10 10 1 0 [0]%nat]).
  eexists. split.
  { constructor; [intros bt [<-|[<-|[]]]|intros it [<-|[]]]; vm_compute; repeat split; congruence. }
  split; [vm_compute; reflexivity|]. split; [vm_compute; reflexivity|].
  split. { intros x Hx. simpl in Hx. destruct x as [|x]; try lia; reflexivity. }
  split. { split; [intros d [<-|[]]; simpl; lia|]. intros t Ht. simpl in Ht. destruct t as [|[|t]]; try lia; vm_compute; congruence. }
  vm_compute. reflexivity.
Qed.
Print Assumptions C29_order_refuted.

(** Finding: with mandatory bins, the variable-sized bound subtracts their
    length although they can hold items: a feasible solution that uses the
    mandatory bin costs less than the bound. *)
Theorem C29_mandatory_bins_refuted : exists i s p,
  bound_domain i /\ history i accept [AddBin 0 1; AddItem 0 0] [] = Some s /\ s_feasible s = true /\
  all_packed i (view s) /\ available_bins i (view s) /\
  (forall t, (t < length (in_bin_types i))%nat -> bt_copies_min (bin_type i t) <= used_bins t (view s)) /\
  at_least_every_selection (kp_items i) (kp_capacity i) p /\
  (c_bin_cost (s_core s) < trivial_variable_sized_bound i p)%Q.
Proof.
  exists (plain_instance OVariableSizedBinPacking [plain_item 10 1 1] [plain_bin 10 10 2 1 [0]%nat]).
  eexists. exists 0%Q. split.
  { constructor; [intros bt [<-|[]]|intros it [<-|[]]]; vm_compute; repeat split; congruence. }
  split; [vm_compute; reflexivity|]. split; [vm_compute; reflexivity|].
  split. { intros x Hx. simpl in Hx. destruct x as [|x]; try lia; reflexivity. }
  split. { split; [intros d [<-|[]]; simpl; lia|]. intros t Ht. simpl in Ht. destruct t as [|t]; try lia; vm_compute; congruence. }
  split. { intros t Ht. simpl in Ht. destruct t as [|t]; try lia; vm_compute; congruence. }
  split. { intros counts H _. inversion H; subst. vm_compute. congruence. }
  vm_compute. reflexivity.
Qed.
Print Assumptions C29_mandatory_bins_refuted.

(** Finding: the variable-sized bound uses the profit of the best selection
    found by the recursive call; a selection that is not optimal (time limit)
    gives a bound above the cost of a feasible solution. *)
Theorem C29_early_stop_refuted : exists i s p counts,
  bound_domain i /\ history i accept [AddBin 0 1; AddItem 0 0] [] = Some s /\ s_feasible s = true /\
  all_packed i (view s) /\ available_bins i (view s) /\
  (forall bt, In bt (in_bin_types i) -> bt_copies_min bt = 0) /\
  Forall2 (fun it n => 0 <= n <= snd it) (kp_items i) counts /\
  zsum (fun q => snd (fst (fst q)) * snd q) (combine (kp_items i) counts) <= kp_capacity i /\
  (qsum (fun q => fst (fst (fst q)) * inject_Z (snd q)) (combine (kp_items i) counts) == p)%Q /\
  (c_bin_cost (s_core s) < trivial_variable_sized_bound i p)%Q.
Proof.
  exists (plain_instance OVariableSizedBinPacking [plain_item 10 1 1] [plain_bin 10 10 2 0 [0]%nat]).
  eexists. exists 0%Q, [0]. split.
  { constructor; [intros bt [<-|[]]|intros it [<-|[]]]; vm_compute; repeat split; congruence. }
  split; [vm_compute; reflexivity|]. split; [vm_compute; reflexivity|].
  split. { intros x Hx. simpl in Hx. destruct x as [|x]; try lia; reflexivity. }
  split. { split; [intros d [<-|[]]; simpl; lia|]. intros t Ht. simpl in Ht. destruct t as [|t]; try lia; vm_compute; congruence. }
  split. { intros bt [<-|[]]. reflexivity. }
  split. { repeat constructor; vm_compute; congruence. }
  split; [vm_compute; congruence|]. split; vm_compute; reflexivity.
Qed.
Print Assumptions C29_early_stop_refuted.

(** ** C46 *)

(** Splitting the copies in powers of two loses nothing and adds nothing: the
    sums of pieces are numbers of copies at most [copies], and every number of
    copies that fits in the bin is such a sum. *)
Theorem C46_split : forall capacity w copies, 0 <= w -> 0 <= copies ->
  (forall n, 0 <= n <= copies -> n * w <= capacity ->
     exists chosen, length chosen = length (split_copies (Z.to_nat copies) capacity w copies 0 1) /\
       zsum (fun p => if fst p : bool then snd p else 0) (combine chosen (split_copies (Z.to_nat copies) capacity w copies 0 1)) = n) /\
  zsum (fun c => c) (split_copies (Z.to_nat copies) capacity w copies 0 1) <= copies /\
  Forall (fun c => 1 <= c) (split_copies (Z.to_nat copies) capacity w copies 0 1).
Proof.
  intros capacity w copies Hw Hc. split; [|split].
  - intros n Hn Hnw. destruct (split_complete capacity w copies n Hw Hn Hnw) as (sel & E1 & E2). exists sel. auto.
  - destruct (split_sound (Z.to_nat copies) capacity w copies 0 1) as [_ H]; lia.
  - apply split_sound; lia.
Qed.
Print Assumptions C46_split.

Example C46_split_example :
  split_copies 11 100 3 11 0 1 = [1; 2; 4; 4] /\ split_copies 11 10 3 11 0 1 = [1; 2].
Proof. vm_compute. auto. Qed.

(** With an exact knapsack solver and no penalised resource: the report always
    exists, its bound is at least the profit of every packing, and the reported
    solution, if any, is feasible and reaches the bound, hence is optimal. *)
Theorem C46_bound : forall i cb solver,
  bound_domain i -> one_bin i -> no_penalty i -> wf_resource_ids i -> sane_resources i -> exact_solver solver ->
  exists o b, dp_reports i cb solver = Some (o, b) /\
  (forall ds, PackingOK i ds -> available_bins i ds -> (profit_of i ds <= b)%Q) /\
  (forall s, o = Some s -> s_feasible s = true /\ PackingOK i (view s) /\ (c_item_profit (s_core s) == b)%Q /\
     forall cb' calls1 calls2 s', copies_nonneg calls1 calls2 -> history i cb' calls1 calls2 = Some s' ->
       s_feasible s' = true -> available_bins i (view s') ->
       (c_item_profit (s_core s') <= c_item_profit (s_core s))%Q).
Proof.
  intros i cb solver Hdom Hone Hnp Hwf Hsane Hex.
  destruct (dp_builds i Hone cb (solver (dp_knapsack i) (bt_length (bin_type i 0)))) as [s E].
  assert (E' : dp_solution i cb solver = Some s) by exact E.
  destruct (dp_value i cb solver s Hone Hnp Hwf Hsane E') as [V P].
  exists (if s_feasible s then Some s else None), (c_item_profit (s_core s)).
  split; [unfold dp_reports; rewrite E'; reflexivity|].
  assert (HU : forall ds, PackingOK i ds -> available_bins i ds -> (profit_of i ds <= c_item_profit (s_core s))%Q).
  { intros ds HP Hav. rewrite P. apply dp_upper; assumption. }
  split; [exact HU|].
  intros s0 Hs0. destruct (s_feasible s) eqn:F; [|discriminate]. injection Hs0 as <-.
  split; [assumption|]. split; [|split; [reflexivity|]].
  - apply (C10_feasible i cb _ _ s Hwf (dp_copies i _) E). assumption.
  - intros cb' calls1 calls2 s' Hcn H' F' Hav.
    destruct (C09_indicators i cb' calls1 calls2 s' Hwf Hcn H') as (_ & HI & _).
    rewrite (ind_profit _ _ _ HI Hsane). apply HU; [|assumption].
    apply (C10_feasible i cb' calls1 calls2 s' Hwf Hcn H'). assumption.
Qed.
Print Assumptions C46_bound.

(** When only lengths, copies and eligibility matter, a solution is reported. *)
Theorem C46_solved : forall i cb solver,
  bound_domain i -> one_bin i -> wf_resource_ids i -> sane_instance i -> only_lengths i -> exact_solver solver ->
  (forall c, cb c = true) ->
  exists s b, dp_reports i cb solver = Some (Some s, b) /\ s_feasible s = true.
Proof.
  intros i cb solver Hdom Hone Hwf Hsane Hol Hex Hcb.
  destruct (dp_builds i Hone cb (solver (dp_knapsack i) (bt_length (bin_type i 0)))) as [s E].
  assert (E' : dp_solution i cb solver = Some s) by exact E.
  pose proof (dp_feasible i cb solver s Hdom Hone Hwf Hsane Hol Hex Hcb E') as F.
  exists s, (c_item_profit (s_core s)). unfold dp_reports. rewrite E', F. split; reflexivity.
Qed.
Print Assumptions C46_solved.

(** An exact solver exists: try everything. *)
Fixpoint brute (items : list (Q * Z)) (capacity : Z) : list bool :=
  match items with
  | [] => []
  | (p, w) :: items' =>
      let skip := brute items' capacity in
      let take := brute items' (capacity - w) in
      if (w <=? capacity) && Qle_bool (selected_profit items' skip) (p + selected_profit items' take)
      then true :: take else false :: skip
  end.

Lemma brute_exact : exact_solver brute.
Proof.
  intros items. induction items as [|[p w] items IH]; intros capacity Hc Hw.
  - split; [reflexivity|]. split; [exact Hc|]. intros [|b sel] Hl _; [apply Qle_refl|discriminate].
  - assert (Hw0 := Hw (p, w) (or_introl eq_refl)). simpl in Hw0.
    assert (Hw' : forall it, In it items -> 0 <= snd it) by (intros it Hit; apply Hw; right; assumption).
    destruct (IH capacity Hc Hw') as (L1 & W1 & B1).
    assert (CW : forall b sel, selected_weight ((p, w) :: items) (b :: sel) = (if b then w else 0) + selected_weight items sel)
      by (intros; reflexivity).
    assert (CP : forall b sel, (selected_profit ((p, w) :: items) (b :: sel) == (if b then p else 0) + selected_profit items sel)%Q)
      by (intros; reflexivity).
    assert (NW : forall sel, 0 <= selected_weight items sel).
    { intro sel. unfold selected_weight. apply zsum_nonneg. intros [b it] Hin. apply in_combine_r in Hin.
      specialize (Hw' it Hin). simpl. destruct b; lia. }
    cbn [brute]. destruct (Z.leb_spec w capacity) as [Hle|Hgt]; cbn [andb].
    + destruct (IH (capacity - w) ltac:(lia) Hw') as (L2 & W2 & B2).
      destruct (Qle_bool _ _) eqn:Q.
      * apply Qle_bool_iff in Q. split; [simpl; congruence|]. split; [rewrite CW; lia|].
        intros [|b sel] Hl Hs; [discriminate|]. simpl in Hl. rewrite CW in Hs. rewrite !CP.
        destruct b.
        -- specialize (B2 sel ltac:(congruence) ltac:(lia)). lra.
        -- specialize (B1 sel ltac:(congruence) ltac:(lia)). lra.
      * split; [simpl; congruence|]. split; [rewrite CW; lia|].
        intros [|b sel] Hl Hs; [discriminate|]. simpl in Hl. rewrite CW in Hs. rewrite !CP.
        destruct b.
        -- specialize (B2 sel ltac:(congruence) ltac:(lia)).
           destruct (Qlt_le_dec (p + selected_profit items (brute items (capacity - w))) (selected_profit items (brute items capacity))) as [Hlt|Hle'];
             [lra|]. apply Qle_bool_iff in Hle'. congruence.
        -- specialize (B1 sel ltac:(congruence) ltac:(lia)). lra.
    + split; [simpl; congruence|]. split; [rewrite CW; lia|].
      intros [|b sel] Hl Hs; [discriminate|]. simpl in Hl. rewrite CW in Hs. rewrite !CP.
      destruct b; [specialize (NW sel); lia|]. specialize (B1 sel ltac:(congruence) ltac:(lia)). lra.
Qed.

Definition ex_dp : Instance :=
  plain_instance OKnapsack [plain_item 3 4 2; plain_item 4 5 1; plain_item 5 7 3] [plain_bin 11 11 1 0 [0; 1; 2]%nat].

Example C46_example :
  bound_domain ex_dp /\ one_bin ex_dp /\ no_penalty ex_dp /\ wf_resource_ids ex_dp /\ sane_instance ex_dp /\ only_lengths ex_dp /\
  match dp_reports ex_dp accept brute with
  | Some (Some s, b) => (b == 15)%Q /\ view s = [mkBD 0 1 [0; 0; 2]%nat]
  | _ => False
  end.
Proof.
  split. { constructor; [intros bt [<-|[]]|intros it [<-|[<-|[<-|[]]]]]; vm_compute; repeat split; congruence. }
  split. { constructor; [reflexivity|reflexivity| |].
    - vm_compute. repeat constructor; simpl; intuition lia.
    - intro x. change (bt_item_type_ids (bin_type ex_dp 0)) with [0; 1; 2]%nat. split.
      + intros [<-|[<-|[<-|[]]]]; (split; [simpl; lia|left; reflexivity]).
      + intros [Hx _]. simpl in Hx. destruct x as [|[|[|x]]]; simpl; auto; lia. }
  split. { intros r []. }
  split. { intros x t Hx Ht. simpl in Hx, Ht. destruct t as [|t]; [|lia].
    destruct x as [|[|[|x]]]; try lia; (split; [constructor|]; intro r; simpl; split; [intros []|intros [H _]; lia]). }
  split. { constructor.
    - intros bt r [<-|[]] [].
    - intros [|[|[|[|x]]]]; vm_compute; repeat split; try congruence; exact I.
    - intros [|[|t]]; vm_compute; repeat split; try congruence; exact I. }
  split. { constructor; try reflexivity. intros it [<-|[<-|[<-|[]]]]; vm_compute; repeat split; congruence. }
  vm_compute. split; reflexivity.
Qed.

(** Finding: with a penalised resource the reported "bound" is the profit after
    penalties of the selection that is best before penalties; a feasible
    solution can beat it. *)
Definition ex_dp_penalty : Instance :=
  plain_instance OKnapsack
    [mkIT 10 10 1 0 0 0 9 None (-1) [[0]%nat]; mkIT 10 5 1 0 0 0 9 None (-1) [[]]]
    [mkBT 10 10 1 0 None [] [mkResource 0 [[1%Q]; []] true 20] [0; 1]%nat].

Theorem C46_penalty_refuted : exists i o b s,
  bound_domain i /\ one_bin i /\ wf_resource_ids i /\ sane_resources i /\
  dp_reports i accept brute = Some (o, b) /\
  history i accept [AddBin 0 1; AddItem 0 1] [] = Some s /\ s_feasible s = true /\ available_bins i (view s) /\
  (b < c_item_profit (s_core s))%Q.
Proof.
  exists ex_dp_penalty. eexists. eexists. eexists.
  split. { constructor; [intros bt [<-|[]]|intros it [<-|[<-|[]]]]; vm_compute; repeat split; congruence. }
  split. { constructor; [reflexivity|reflexivity| |].
    - vm_compute. repeat constructor; simpl; intuition lia.
    - intro x. change (bt_item_type_ids (bin_type ex_dp_penalty 0)) with [0; 1]%nat. split.
      + intros [<-|[<-|[]]]; (split; [simpl; lia|left; reflexivity]).
      + intros [Hx _]. simpl in Hx. destruct x as [|[|x]]; simpl; auto; lia. }
  split. { intros x t Hx Ht. simpl in Hx, Ht. destruct t as [|t]; [|lia].
    destruct x as [|[|x]]; try lia; simpl.
    - split; [repeat constructor; simpl; tauto|]. intro r. split.
      + intros [<-|[]]. split; [lia|discriminate].
      + intros [Hr _]. left. lia.
    - split; [constructor|]. intro r. split; [intros []|]. intros [Hr H]. destruct r; [|lia]. apply H. reflexivity. }
  split. { intros bt r [<-|[]] [<-|[]]. split; [vm_compute; congruence|].
    intros s q [<-|[<-|[]]] Hq; simpl in Hq; intuition; subst; vm_compute; congruence. }
  split; [vm_compute; reflexivity|]. split; [vm_compute; reflexivity|]. split; [vm_compute; reflexivity|].
  split. { split; [intros d [<-|[]]; simpl; lia|]. intros t Ht. simpl in Ht. destruct t as [|t]; try lia; vm_compute; congruence. }
  vm_compute. reflexivity.
Qed.
Print Assumptions C46_penalty_refuted.
