(** * Properties of the onedimensional branching scheme (C28) *)

From Coq Require Import List ZArith QArith Bool Lia Lqa Arith Permutation Sorted.
From Verif Require Import Util Common_Model Common_Spec Common_Proof OneDim_Model OneDim_Spec OneDim_Proof OneDimBuilder_Model OneDimBuilder_Spec OneDimBuilder_Proof OneDimBuilder_Props OneDimBounds_Spec Tree1D_Model Tree1D_Spec Tree1D_Proof Tree1DNode_Proof Tree1DBound_Proof.
Import ListNotations.
Open Scope Z_scope.

(** ** Validity *)

(** The solution built from any node of the tree is a packing: lengths with nesting,
    item copies, bin copies, stackability, eligibility exactly, and weights, weights
    after and hard resources up to the relative tolerance 1e-9.  [view] reads the bins
    of the solution. *)
Theorem C28_valid : forall i cb n, tree_domain i -> reachable i n ->
  exists bins, sb_run i [] (path_calls i 0 (tn_path n)) = Some bins /\ TolPackingOK i (view (sb_build i cb bins)).
Proof.
  intros i cb n [D1 D2 D3 D4] H. destruct (node_solution i D1 D2 D3 D4 cb n H) as (bins & E & V & _). exists bins. split; [exact E|]. rewrite V. apply (node_packing i D1 D2 D3 D4 n H).
Qed.
Print Assumptions C28_valid.

(** With integer weights, limits and consumptions, [to_solution] never throws, every
    bin respects all its constraints exactly, and the solution is feasible exactly if
    the minimum numbers of copies are reached and the callback accepts it. *)
Theorem C28_exact : forall i cb n, tree_domain i -> integral i -> reachable i n ->
  exists s, to_solution i cb n = Some s /\ (forall d, In d (view s) -> BinOK i d)
  /\ (s_feasible s = true <->
      (forall x, (x < length (in_item_types i))%nat -> it_copies_min (item_type i x) <= packed x (view s)) /\ s_callback_ok s = true).
Proof.
  intros i cb n [D1 D2 D3 D4] Hint H. destruct (node_exact i D1 D2 D3 D4 cb n Hint H) as (s & E & V & B & F). exists s. rewrite V. auto.
Qed.
Print Assumptions C28_exact.

(** The values kept in a node are those of its solution. *)
Theorem C28_node_values : forall i cb n bins, tree_domain i -> reachable i n -> sb_run i [] (path_calls i 0 (tn_path n)) = Some bins ->
  let c := s_core (sb_build i cb bins) in
  c_number_of_bins c = Z.of_nat (tn_bins n) /\ c_number_of_items c = tn_items n /\ c_item_length c = tn_item_length n
  /\ (c_item_profit c == tn_profit n)%Q /\ c_length c = tn_current n /\ tn_waste n = c_length c - c_item_length c
  /\ (forall x, (x < length (in_item_types i))%nat -> nth x (c_item_copies c) 0 = nth x (tn_copies n) 0).
Proof. intros i cb n bins [D1 D2 D3 D4]. apply (node_values i D1 D2 D3 D4). Qed.
Print Assumptions C28_node_values.

(** The bins of the solution of a node come in order: for a knapsack shorter bins
    first, otherwise in the order of the bin types; and no bin type is skipped
    while it has copies left. *)
Theorem C28_bin_order : forall i cb n bins, tree_domain i -> reachable i n -> sb_run i [] (path_calls i 0 (tn_path n)) = Some bins ->
  let ds := view (sb_build i cb bins) in
  (in_objective i = OKnapsack -> StronglySorted (fun d e => bt_length (bin_type i (bd_type d)) <= bt_length (bin_type i (bd_type e))) ds
     /\ forall t d, (t < length (in_bin_types i))%nat -> In d ds -> bt_length (bin_type i t) < bt_length (bin_type i (bd_type d)) ->
          used_bins t ds = bt_copies (bin_type i t))
  /\ (in_objective i <> OKnapsack -> StronglySorted (fun d e => (bd_type d <= bd_type e)%nat) ds /\ OrderOK i ds).
Proof.
  intros i cb n bins [D1 D2 D3 D4] H E ds. destruct (node_solution i D1 D2 D3 D4 cb n H) as (bins' & E' & V & _). rewrite E in E'. injection E' as <-.
  unfold ds. rewrite V. split; intro Hobj.
  - split; [apply node_sorted_knapsack; assumption|]. apply node_order_knapsack; assumption.
  - split; [apply node_sorted; assumption|apply node_order; assumption].
Qed.
Print Assumptions C28_bin_order.

(** The tree is finite: a path is not longer than the number of items, and only the
    nodes with all the items are leaves. *)
Theorem C28_depth : forall i n, tree_domain i -> reachable i n ->
  Z.of_nat (length (tn_path n)) <= in_number_of_items i
  /\ (leaf i n = true <-> Z.of_nat (length (tn_path n)) = in_number_of_items i).
Proof.
  intros i n [D1 D2 D3 D4] H. split; [apply (node_depth i D1 D2 D3 D4 n H)|]. unfold leaf. rewrite (path_items i n H). apply Z.eqb_eq.
Qed.
Print Assumptions C28_depth.

(** A leaf packs every copy of every item type. *)
Theorem C28_leaf : forall i cb n bins, tree_domain i -> reachable i n -> sb_run i [] (path_calls i 0 (tn_path n)) = Some bins -> leaf i n = true ->
  forall x, (x < length (in_item_types i))%nat -> packed x (view (sb_build i cb bins)) = it_copies (item_type i x).
Proof.
  intros i cb n bins [D1 D2 D3 D4] H E Hl x Hx. destruct (node_solution i D1 D2 D3 D4 cb n H) as (bins' & E' & V & _). rewrite E in E'. injection E' as <-. rewrite V. destruct (ni_copies _ _ _ (node_inv' i D1 D2 D3 D4 n H) x Hx) as [<- _]. apply (leaf_copies i D1 D2 D3 D4 n H Hl x Hx).
Qed.
Print Assumptions C28_leaf.

(** ** Bounds *)

(** Without nesting, the knapsack bound of a node is at least the profit of every node
    below it. *)
Theorem C28_knapsack_bound : forall i n m u, tree_domain i -> plain i -> reachable i n -> below i n m -> ubkp i n = Some u -> (tn_profit m <= u)%Q.
Proof. intros i n m u [D1 D2 D3 D4] [P1 P2 P3 P4]. apply (ubkp_sound i D1 D2 D3 D4 P1 P3 P4 P2). Qed.
Print Assumptions C28_knapsack_bound.

(** Without nesting, a node is cut only if no node below it is better than the
    incumbent [n2].  For feasibility, the incumbent packs all the items; for the
    default objective and an incumbent without all the items, no node below has a
    larger profit. *)
Theorem C28_bound : forall i n1 n2 m, tree_domain i -> plain i -> reachable i n1 -> bound i n1 n2 = Some true -> below i n1 m ->
  (in_objective i = OFeasibility -> leaf i n2 = true)
  /\ (in_objective i = ODefault -> (tn_profit m <= tn_profit n2)%Q)
  /\ (in_objective i <> OFeasibility -> (in_objective i = ODefault -> leaf i n2 = true) -> better i m n2 = Some false).
Proof.
  intros i n1 n2 m [D1 D2 D3 D4] [P1 P2 P3 P4] H Hb B. pose proof (below_reachable i n1 m H B) as Hm. unfold bound, better in *.
  assert (W : tn_waste n1 <= tn_waste m) by (apply (waste_below i D1 D2 D3 D4 P1 n1 m H B)).
  destruct (in_objective i); try discriminate Hb; repeat split; try discriminate; intros; try congruence.
  - (* default *) destruct (ubkp i n1) as [u|] eqn:Eu; [|discriminate]. pose proof (ubkp_sound i D1 D2 D3 D4 P1 P3 P4 P2 n1 m u H B Eu) as U. destruct (leaf i n2); cbn [negb] in Hb.
    + destruct (Qeq_bool u (tn_profit n2)) eqn:Eq; cbn [negb] in Hb; [apply Qeq_bool_eq in Eq; lra|]. injection Hb as Hb. apply Qle_bool_iff in Hb. lra.
    + injection Hb as Hb. apply Qle_bool_iff in Hb. lra.
  - rewrite (H1 eq_refl) in Hb. cbn [negb] in Hb. destruct (ubkp i n1) as [u|] eqn:Eu; [|discriminate]. pose proof (ubkp_sound i D1 D2 D3 D4 P1 P3 P4 P2 n1 m u H B Eu) as U.
    destruct (Qltb (tn_profit m) (tn_profit n2)) eqn:E1; [reflexivity|]. apply Qltb_ge in E1. destruct (Qeq_bool u (tn_profit n2)) eqn:Eq; cbn [negb] in Hb; injection Hb as Hb.
    + apply Qeq_bool_eq in Eq. apply Z.leb_le in Hb. destruct (Qltb (tn_profit n2) (tn_profit m)) eqn:E2; [apply Qltb_lt in E2; lra|]. f_equal. apply Z.ltb_ge. lia.
    + apply Qle_bool_iff in Hb. apply Qeq_bool_neq in Eq. exfalso. apply Eq. apply Qle_antisym; lra.
  - (* bin packing *) destruct (leaf i n2); cbn [negb] in *; [|discriminate]. destruct (leaf i m) eqn:El; cbn [negb]; [|reflexivity]. destruct (bins_bound i D1 D2 D3 D4 P1 n1 m H B El) as (k & Ek & Hk). rewrite Ek in Hb. injection Hb as Hb. apply Nat.leb_le in Hb. f_equal. apply Nat.ltb_ge. lia.
  - (* leftovers *) destruct (leaf i n2); cbn [negb] in *; [|discriminate]. destruct (leaf i m); cbn [negb]; [|reflexivity]. injection Hb as Hb. apply Z.leb_le in Hb. f_equal. apply Z.ltb_ge. lia.
  - (* variable-sized *) destruct (leaf i n2); cbn [negb] in *; [|discriminate]. destruct (leaf i m) eqn:El; cbn [negb]; [|reflexivity]. destruct (bins_bound i D1 D2 D3 D4 P1 n1 m H B El) as (k & Ek & Hk). rewrite Ek in Hb. injection Hb as Hb. apply Nat.leb_le in Hb. f_equal. apply Nat.ltb_ge. lia.
Qed.
Print Assumptions C28_bound.

(** ** Examples *)

Definition tbuilt (calls : list BCall) : Instance :=
  match brun calls with
  | Some b => match b_build b with Built i => i | _ => mkInst ODefault [] [] [] [] 0 0 0 0 0 0 None 0 false end
  | None => mkInst ODefault [] [] [] [] 0 0 0 0 0 0 None 0 false
  end.

Lemma tbuilt_consistent : forall calls, (match brun calls with Some b => match b_build b with Built _ => true | _ => false end | None => false end) = true -> consistent (tbuilt calls).
Proof.
  intros calls H. unfold tbuilt. destruct (brun calls) as [b|] eqn:E; [|discriminate]. destruct (b_build b) as [i| |] eqn:E2; try discriminate. apply (C13_built calls b i E E2).
Qed.

(** Follows the insertions with the given numbers. *)
Fixpoint walk (i : Instance) (n : Node) (choices : list nat) : option Node :=
  match choices with
  | [] => Some n
  | k :: rest => match nth_error (insertions i n) k with Some ins => walk i (child i n ins) rest | None => None end
  end.

Lemma walk_below : forall i choices n0 n m, below i n0 n -> walk i n choices = Some m -> below i n0 m.
Proof.
  intros i choices. induction choices as [|k rest IH]; intros n0 n m B H; cbn [walk] in H; [congruence|]. destruct (nth_error (insertions i n) k) as [ins|] eqn:E; [|discriminate]. apply (IH n0 (child i n ins) m); [|exact H]. apply below_child; [exact B|]. apply (nth_error_In _ _ E).
Qed.

Ltac domain :=
  match goal with |- tree_domain ?i => unfold i end;
  constructor;
  [apply tbuilt_consistent; vm_compute; reflexivity
  |match goal with |- sane_instance ?i => let v := eval vm_compute in i in change i with v end; constructor;
   [intros bt r Hbt Hr; cbn in Hbt; repeat (destruct Hbt as [<-|Hbt]; [cbn in Hr; try contradiction; repeat (destruct Hr as [<-|Hr]; [cbn; split; [lra|intros s q Hs Hq; repeat (destruct Hs as [<-|Hs]; [cbn in Hq; repeat (destruct Hq as [<-|Hq]; [lra|]); contradiction|]); contradiction]|]); contradiction|]); contradiction
   |intros x; unfold item_type; do 6 (try destruct x as [|x]); cbn; repeat split; try lia; try lra
   |intros t; unfold bin_type; do 6 (try destruct t as [|t]); cbn; repeat split; try lia; try lra]
  |match goal with |- sane_copies ?i => let v := eval vm_compute in i in change i with v end; split; [intros x; unfold item_type; do 6 (try destruct x as [|x]); cbn; lia|intros t; unfold bin_type; do 6 (try destruct t as [|t]); cbn; lia]
  |match goal with |- forall x, (x < length (in_item_types ?i))%nat -> _ => let v := eval vm_compute in i in change i with v end; intros x; unfold item_type; do 6 (try destruct x as [|x]); cbn; lia].

Definition ex_tree : Instance := tbuilt
  [SetObjective OBinPacking; AddBinType 10; SetBinCopies 0 2; SetBinMaxWeight 0 (Some 6%Q); AddBinResource 0 8 false 0;
   AddItemType 4; SetItemCopies 0 2; SetItemWeight 0 2; SetItemWeightAfter 0 (Some 3%Q); SetItemNesting 0 1;
   AddItemType 5; SetItemWeight 1 3; SetItemStackability 1 2; AddConsumption 0 0 0 0 5; AddConsumption 0 0 0 1 3; AddConsumption 0 0 1 0 2].

Example ex_tree_domain : tree_domain ex_tree.
Proof. domain. Qed.

Example ex_tree_integral : integral ex_tree.
Proof.
  unfold ex_tree. match goal with |- integral ?i => let v := eval vm_compute in i in change i with v end. constructor.
  - intros x. unfold item_type. do 3 (try destruct x as [|x]); cbn; try (exists 2; reflexivity); try (exists 3; reflexivity); exists 0; reflexivity.
  - intros x. unfold item_type. do 3 (try destruct x as [|x]); cbn; try exact I. split; [exists 3; reflexivity|lra].
  - intros t. unfold bin_type. do 2 (try destruct t as [|t]); cbn; try exact I. split; [exists 6; reflexivity|lra].
  - intros bt r [<-|[]] [<-|[]]. cbn. split; [exists 8; reflexivity|]. split; [lra|]. intros s q [<-|[<-|[]]] Hq; cbn in Hq; repeat (destruct Hq as [<-|Hq]); try contradiction; [exists 5|exists 3|exists 2]; reflexivity.
Qed.

(** The search reaches a leaf with two bins, and it is a feasible solution. *)
Example C28_exact_example : exists n s, reachable ex_tree n /\ leaf ex_tree n = true /\ to_solution ex_tree (fun _ => true) n = Some s
  /\ s_feasible s = true /\ map bd_items (view s) = [[0; 0]; [1]]%nat /\ tn_bins n = 2%nat /\ tn_waste n = 2.
Proof.
  destruct (walk ex_tree (root ex_tree) [0; 0; 0]%nat) as [n|] eqn:E; [|vm_compute in E; discriminate].
  destruct (to_solution ex_tree (fun _ => true) n) as [s|] eqn:Es.
  - exists n, s. split; [apply (walk_below _ [0; 0; 0]%nat _ (root ex_tree)); [constructor|exact E]|]. vm_compute in E. injection E as <-. vm_compute in Es. injection Es as <-. vm_compute. repeat split.
  - exfalso. vm_compute in E. injection E as <-. vm_compute in Es. discriminate.
Qed.

Lemma below_leaf_only : forall i n m, insertions i n = [] -> below i n m -> m = n.
Proof. intros i n m H B. induction B as [|m ins B IH Hins]; [reflexivity|]. subst m. rewrite H in Hins. destruct Hins. Qed.

(** ** Findings *)

(** Finding: the search compares weights with a tolerance, the solution without: a
    node within the tolerance makes [to_solution] throw. *)
Definition ex_throw : Instance := tbuilt
  [SetObjective OBinPacking; AddBinType 10; SetBinMaxWeight 0 (Some (1999999999 # 1000000000)%Q); AddItemType 2; SetItemCopies 0 2; SetItemWeight 0 1].

Theorem C28_throws_refuted : exists i n, tree_domain i /\ reachable i n /\ leaf i n = true /\ to_solution i (fun _ => true) n = None.
Proof.
  exists ex_throw. destruct (walk ex_throw (root ex_throw) [0; 0]%nat) as [n|] eqn:E; [|vm_compute in E; discriminate]. exists n. split; [domain|].
  split; [apply (walk_below _ [0; 0]%nat _ (root ex_throw)); [constructor|exact E]|]. vm_compute in E. injection E as <-. split; vm_compute; reflexivity.
Qed.
Print Assumptions C28_throws_refuted.

(** Finding: opening a bin does not check the stackability of the item: with a
    stackability of 0, the node's solution throws. *)
Definition ex_stack : Instance := tbuilt [SetObjective OKnapsack; AddBinType 10; AddItemType 2; SetItemStackability 0 0].

Theorem C28_stackability_refuted : exists i n, consistent i /\ sane_instance i /\ sane_copies i /\ reachable i n /\ to_solution i (fun _ => true) n = None.
Proof.
  exists ex_stack. destruct (walk ex_stack (root ex_stack) [0]%nat) as [n|] eqn:E; [|vm_compute in E; discriminate]. exists n.
  split; [apply tbuilt_consistent; vm_compute; reflexivity|]. split; [|split; [|split; [apply (walk_below _ [0]%nat _ (root ex_stack)); [constructor|exact E]|]]].
  - unfold ex_stack. match goal with |- sane_instance ?i => let v := eval vm_compute in i in change i with v end. constructor.
    + intros bt r [<-|[]] [].
    + intros x. unfold item_type. do 2 (try destruct x as [|x]); cbn; repeat split; try lia; try lra.
    + intros t. unfold bin_type. do 2 (try destruct t as [|t]); cbn; repeat split; try lia; try lra.
  - unfold ex_stack. match goal with |- sane_copies ?i => let v := eval vm_compute in i in change i with v end. split; [intros x; unfold item_type; do 2 (try destruct x as [|x]); cbn; lia|intros t; unfold bin_type; do 2 (try destruct t as [|t]); cbn; lia].
  - vm_compute in E. injection E as <-. vm_compute. reflexivity.
Qed.
Print Assumptions C28_stackability_refuted.

(** Finding: [dominates] ignores the weight of the last bin: a node without any leaf
    below dominates one with the same items and a leaf below. *)
Definition ex_dominates : Instance := tbuilt
  [SetObjective OBinPacking; AddBinType 1; AddBinType 10; SetBinMaxWeight 1 (Some 10%Q);
   AddItemType 1; SetItemWeight 0 1; AddItemType 1; SetItemWeight 1 8; AddItemType 2; SetItemWeight 2 1; AddItemType 2; SetItemWeight 3 5].

Theorem C28_dominates_refuted : exists i n1 n2 m, tree_domain i /\ reachable i n1 /\ reachable i n2 /\ tn_copies n1 = tn_copies n2 /\ dominates n1 n2 = true
  /\ (forall m', below i n1 m' -> leaf i m' = false) /\ below i n2 m /\ leaf i m = true.
Proof.
  exists ex_dominates. destruct (walk ex_dominates (root ex_dominates) [0; 0; 0]%nat) as [n1|] eqn:E1; [|vm_compute in E1; discriminate].
  destruct (walk ex_dominates (root ex_dominates) [1; 0; 0]%nat) as [n2|] eqn:E2; [|vm_compute in E2; discriminate].
  destruct (walk ex_dominates n2 [0]%nat) as [m|] eqn:E3; [|vm_compute in E2; injection E2 as <-; vm_compute in E3; discriminate]. exists n1, n2, m.
  split; [domain|]. split; [apply (walk_below _ [0; 0; 0]%nat _ (root ex_dominates)); [constructor|exact E1]|]. split; [apply (walk_below _ [1; 0; 0]%nat _ (root ex_dominates)); [constructor|exact E2]|].
  assert (B : below ex_dominates n2 m) by (apply (walk_below _ [0]%nat _ n2); [constructor|exact E3]).
  vm_compute in E1. injection E1 as <-. vm_compute in E2. injection E2 as <-. split; [reflexivity|]. split; [vm_compute; reflexivity|]. split.
  - intros m' B'. apply below_leaf_only in B'; [subst m'; vm_compute; reflexivity|vm_compute; reflexivity].
  - split; [exact B|]. vm_compute in E3. injection E3 as <-. vm_compute. reflexivity.
Qed.
Print Assumptions C28_dominates_refuted.

(** Finding: if an item fits in the last bin the search opens no other bin.  With a
    penalised resource, no node of the tree reaches the best profit, although the
    exhausted search claims its best profit as a bound. *)
Definition ex_exhausted : Instance := tbuilt
  [SetObjective OKnapsack; AddBinType 10; AddBinType 10; AddBinResource 0 1 true 100;
   AddItemType 2; SetItemProfit 0 10; AddItemType 2; SetItemProfit 1 10; AddConsumption 0 0 0 0 1; AddConsumption 0 0 1 0 1].
Definition exhausted_nodes : list Node :=
  Eval vm_compute in flat_map (fun c => match walk ex_exhausted (root ex_exhausted) c with Some n => [n] | None => [] end) [[]; [0]; [1]; [0; 0]; [1; 0]]%nat.

Theorem C28_exhausted_bound_refuted : exists i ds, tree_domain i /\ in_objective i = OKnapsack
  /\ (forall n, reachable i n -> (tn_profit n <= 10)%Q)
  /\ PackingOK i ds /\ available_bins i ds
  /\ (qsum (fun d => qsum (fun x => it_profit (item_type i x)) (bd_items d) - penalties i d) ds == 20)%Q.
Proof.
  exists ex_exhausted, [mkBD 0 1 [0%nat]; mkBD 1 1 [1%nat]]. split; [domain|]. split; [reflexivity|]. split; [|split; [|split]].
  - assert (G : forall n, reachable ex_exhausted n -> In n exhausted_nodes).
    { intros n H. induction H as [|m ins H IH Hins]; [vm_compute; auto|]. clear H. unfold exhausted_nodes in IH. cbn [In] in IH.
      repeat (destruct IH as [<-|IH]; [vm_compute in Hins; repeat (destruct Hins as [<-|Hins]; [vm_compute; tauto|]); contradiction|]). contradiction. }
    intros n H. apply G in H. unfold exhausted_nodes in H. cbn [In] in H. repeat (destruct H as [<-|H]; [cbn [tn_profit]; lra|]). contradiction.
  - constructor.
    + intros d [<-|[<-|[]]]; constructor; cbn [bd_items bd_type].
      all: try (intros x [<-|[]]; vm_compute; intuition congruence).
      all: try (intros p x q E; destruct p as [|? [|? ?]]; cbn in E; try discriminate; injection E as <- <-; vm_compute; intuition congruence).
      all: try (intros a x m b E; destruct a as [|? [|? ?]]; cbn in E; try discriminate; injection E as <- E; destruct m; try discriminate; vm_compute; exact I).
      all: intros r Hr Hp; cbn in Hr; repeat (destruct Hr as [<-|Hr]; [discriminate|]); contradiction.
    + intros d x [<-|[<-|[]]] [<-|[]]; vm_compute; congruence.
    + intros x Hx. change (length (in_item_types ex_exhausted)) with 2%nat in Hx. destruct x as [|[|x]]; [vm_compute; congruence|vm_compute; congruence|lia].
  - split; [intros d [<-|[<-|[]]]; vm_compute; split; try lia; congruence|]. intros t Ht. change (length (in_bin_types ex_exhausted)) with 2%nat in Ht. destruct t as [|[|t]]; [vm_compute; congruence|vm_compute; congruence|lia].
  - vm_compute. reflexivity.
Qed.
Print Assumptions C28_exhausted_bound_refuted.

(** Finding: with nesting the waste may decrease below a node, and the bound cuts a
    node below which a solution has fewer bins than the incumbent. *)
Definition ex_nesting : Instance := tbuilt
  [SetObjective OBinPacking; AddBinType 10; SetBinCopies 0 2; AddItemType 6; AddItemType 5; SetItemNesting 1 4; SetItemCopies 1 2].

Theorem C28_bound_nesting_refuted : exists i n1 n2 m, tree_domain i /\ reachable i n1 /\ reachable i n2 /\ bound i n1 n2 = Some true
  /\ below i n1 m /\ better i m n2 = Some true /\ tn_bins m = 1%nat /\ tn_bins n2 = 2%nat.
Proof.
  exists ex_nesting. destruct (walk ex_nesting (root ex_nesting) [0]%nat) as [n1|] eqn:E1; [|vm_compute in E1; discriminate].
  destruct (walk ex_nesting (root ex_nesting) [1; 0; 0]%nat) as [n2|] eqn:E2; [|vm_compute in E2; discriminate].
  destruct (walk ex_nesting n1 [0; 0]%nat) as [m|] eqn:E3; [|vm_compute in E1; injection E1 as <-; vm_compute in E3; discriminate]. exists n1, n2, m.
  split; [domain|]. split; [apply (walk_below _ [0]%nat _ (root ex_nesting)); [constructor|exact E1]|]. split; [apply (walk_below _ [1; 0; 0]%nat _ (root ex_nesting)); [constructor|exact E2]|].
  assert (B : below ex_nesting n1 m) by (apply (walk_below _ [0; 0]%nat _ n1); [constructor|exact E3]).
  vm_compute in E1. injection E1 as <-. vm_compute in E2. injection E2 as <-. vm_compute in E3. injection E3 as <-. split; [vm_compute; reflexivity|]. split; [exact B|]. repeat split; vm_compute; reflexivity.
Qed.
Print Assumptions C28_bound_nesting_refuted.

(** Finding: for the default objective, an incumbent that does not pack all the items
    cuts a node with the same profit and less waste. *)
Definition ex_default : Instance := tbuilt
  [SetObjective ODefault; AddBinType 10; SetBinCopies 0 2; AddItemType 4; SetItemProfit 0 10; AddItemType 7; SetItemProfit 1 0;
   AddItemType 1; SetItemProfit 2 0; SetItemEligibility 2 1].

Theorem C28_default_bound_refuted : exists i n1 n2, tree_domain i /\ plain i /\ reachable i n1 /\ reachable i n2 /\ bound i n1 n2 = Some true /\ better i n1 n2 = Some true.
Proof.
  exists ex_default. destruct (walk ex_default (root ex_default) [0]%nat) as [n1|] eqn:E1; [|vm_compute in E1; discriminate].
  destruct (walk ex_default (root ex_default) [1; 0]%nat) as [n2|] eqn:E2; [|vm_compute in E2; discriminate]. exists n1, n2.
  split; [domain|]. split; [|split; [apply (walk_below _ [0]%nat _ (root ex_default)); [constructor|exact E1]|split; [apply (walk_below _ [1; 0]%nat _ (root ex_default)); [constructor|exact E2]|]]].
  - unfold ex_default. match goal with |- plain ?i => let v := eval vm_compute in i in change i with v end. constructor.
    + intros x. unfold item_type. do 4 (try destruct x as [|x]); reflexivity.
    + intros x Hx. unfold item_type. cbn in Hx. do 3 (try destruct x as [|x]); cbn; lia.
    + intros x. unfold item_type. do 4 (try destruct x as [|x]); cbn; lra.
    + intros t r Hr. unfold bin_type in Hr. do 2 (try destruct t as [|t]); destruct Hr.
  - vm_compute in E1. injection E1 as <-. vm_compute in E2. injection E2 as <-. split; vm_compute; reflexivity.
Qed.
Print Assumptions C28_default_bound_refuted.
