(** * C18, C19: rectangle dual feasible functions *)

From Coq Require Import List ZArith QArith Bool Lia Arith.
From Verif Require Import Util Common_Model Common_Spec OneDim_Model Dff_Model Dff_Spec Dff_Proof OneDimDff_Model OneDimDff_Proof Geom.
From Verif Require Import Rect_Model Rect_Spec RectDff_Model RectDff_Proof RectDffBound_Proof.
Import ListNotations.
Open Scope Z_scope.

(** Instances the algorithm is run on: one bin type, positive sizes. *)
Record rdff_domain (i : RInstance) : Prop := {
  rd_one : length (rin_bins i) = 1%nat;
  rd_pitems : positive_items i;
  rd_pbins : positive_bins i
}.

(** ** C18 *)

(** Bin packing: the algorithm terminates and its bound is at most the number of
    bins of every packing of all the items. [nan]: what the conversion of a NaN
    to an integer gives (see below). *)
Theorem C18_bin_packing_bound : forall nan i, nan <= 0 -> rdff_domain i -> rin_objective i = OBinPacking ->
  exists fuel, forall iterations, (fuel <= iterations)%nat ->
  exists b, rdual_feasible_functions nan iterations i = Some (BinPackingBound b) /\
  forall ds, packing_ok i ds -> rall_packed i ds -> b <= rbins_used ds.
Proof.
  intros nan i Hnan [H1 H2 H3] Ho. destruct (rbin_bound_terminates nan Hnan i H2 H1 H3) as (fuel & Hf).
  exists fuel. intros it Hit. destruct (Hf it Hit) as (b & E). exists b. unfold rdual_feasible_functions.
  rewrite H1, Ho, E. split; [reflexivity|]. intros ds Hds Hall.
  apply (rbin_bound_valid nan Hnan it 3 i b ds); assumption.
Qed.
Print Assumptions C18_bin_packing_bound.

(** Feasibility: an instance declared infeasible has no packing of all its items
    in the available bins. *)
Theorem C18_infeasibility : forall nan i, nan <= 0 -> rdff_domain i -> rin_objective i = OFeasibility ->
  0 <= rb_copies (rbin i 0) ->
  exists fuel, forall iterations, (fuel <= iterations)%nat ->
  exists v, rdual_feasible_functions nan iterations i = Some (ProvenInfeasible v) /\
  (v = true -> forall ds, packing_ok i ds -> rall_packed i ds -> rused_bins 0 ds <= rb_copies (rbin i 0) -> False).
Proof.
  intros nan i Hnan [H1 H2 H3] Ho Hc. destruct (rbin_bound_terminates nan Hnan i H2 H1 H3) as (fuel & Hf).
  exists fuel. intros it Hit. destruct (Hf it Hit) as (b & E). eexists. unfold rdual_feasible_functions.
  rewrite H1, Ho, E. split; [reflexivity|]. intros Hv ds Hds Hall Hu. apply Z.ltb_lt in Hv.
  pose proof (rbin_bound_valid nan Hnan it 3 i b ds H2 H1 H3 E Hds Hall) as HB.
  assert (EU : rused_bins 0 ds = rbins_used ds).
  { unfold rused_bins, rbins_used. apply zsum_ext. intros d Hd. destruct (pa_bins i ds Hds d Hd) as (A & _ & _).
    rewrite H1 in A. replace (rd_type d) with 0%nat by lia. reflexivity. }
  assert (EN : rnumber_of_bins i = rb_copies (rbin i 0)).
  { unfold rnumber_of_bins, rbin in *. destruct (rin_bins i) as [|bt [|bt' l]]; simpl in H1; try discriminate.
    rewrite zsum_cons, zsum_nil. simpl in *. lia. }
  lia.
Qed.
Print Assumptions C18_infeasibility.

(** Knapsack: the bound is at least the profit, net of penalties, of every
    packing in the available bins. *)
Theorem C18_knapsack_bound : forall nan iterations i, rdff_domain i -> rin_objective i = OKnapsack ->
  (forall it, In it (rin_items i) -> (0 <= ri_profit it)%Q) ->
  exists b, rdual_feasible_functions nan iterations i = Some (KnapsackBound b) /\
  forall q ds, b = Some q -> packing_ok i ds -> relig_ok i ds -> rused_bins 0 ds <= rb_copies (rbin i 0) ->
    (rnet_profit i ds <= q)%Q.
Proof.
  intros nan it i [H1 H2 H3] Ho Hp.
  destruct (rcombos_some (rin_items i) (rbin i 0) H2 (one_bt i H1 H3)) as (combos & E & HF).
  unfold rdual_feasible_functions. rewrite H1, Ho, E. cbn [bind]. eexists. split; [reflexivity|].
  intros q ds Eq Hds He Hu. destruct (fold_left min_bound (flat_map (rknapsack_combo i) combos) None) as [q0|] eqn:EM; [|discriminate].
  injection Eq as <-.
  assert (EU : rused_bins 0 ds = rbins_used ds).
  { unfold rused_bins, rbins_used. apply zsum_ext. intros d Hd. destruct (pa_bins i ds Hds d Hd) as (A & _ & _).
    rewrite H1 in A. replace (rd_type d) with 0%nat by lia. reflexivity. }
  apply (rknapsack_valid i H2 H1 H3 Hp ds Hds He ltac:(rewrite <- EU; exact Hu) combos q0 HF EM).
Qed.
Print Assumptions C18_knapsack_bound.

Lemma geometry_nodup : forall i bt ps, positive_items i -> geometry_ok i bt ps -> NoDup ps.
Proof.
  intros i bt ps Hits G. pose proof (disjoint_geometry i bt Hits ps G) as HD. destruct G as [_ Hd _].
  induction Hd as [|p l Hp Hd IH]; constructor.
  - intro Hin. rewrite Forall_forall in Hp. specialize (Hp p Hin). destruct (HD p (or_introl eq_refl)) as (_ & _ & W & H).
    unfold disjoint, pl_xe, pl_ye in Hp. lia.
  - apply IH. intros q Hq. apply HD. right. assumption.
Qed.

(** A product of any two dual feasible functions on the rectangles of a bin. *)
Theorem C18_product : forall i bt f fW g gH ps,
  dual_feasible (rb_x bt) fW f -> dual_feasible (rb_y bt) gH g ->
  (forall x, 0 <= f x) -> (forall y, 0 <= g y) -> 0 <= rb_x bt -> 0 <= rb_y bt ->
  positive_items i -> geometry_ok i bt ps ->
  zsum (fun p => f (pl_w i p) * g (pl_h i p)) ps <= fW * gH.
Proof.
  intros i bt f fW g gH ps Hf Hg Nf Ng HX HY Hits G.
  pose proof (disjoint_geometry i bt Hits ps G) as HD.
  set (ax := mkRA Place pl_x (pl_w i) (rb_x bt) (fun p => f (pl_w i p)) fW).
  set (ay := mkRA Place pl_y (pl_h i) (rb_y bt) (fun p => g (pl_h i p)) gH).
  pose proof (rescaled_bound Place [ax; ay] ps (geometry_nodup i bt ps Hits G)) as HR.
  cbn [map prod fold_right] in HR. unfold ax, ay in HR. cbn [ra_new ra_new_cap] in HR. rewrite Z.mul_1_r in HR.
  etransitivity; [|apply HR].
  - apply Z.eq_le_incl. apply zsum_ext. intros p _. lia.
  - intros a p Ha Hp. destruct (HD p Hp) as (W & H & W0 & H0). destruct (ge_places _ _ _ G p Hp) as [_ PX PY _].
    unfold pl_xe, pl_ye in *. destruct Ha as [<-|[<-|[]]]; cbn; repeat split; try lia; [apply Nf|apply Ng].
  - intros a [<-|[<-|[]]]; assumption.
  - assert (E : forall (h : Place -> Z) ch, total (map h ch) = zsum h ch) by (intros; unfold total; rewrite zsum_map; reflexivity).
    intros a ch [<-|[<-|[]]] _ Hi Hc; cbn in *.
    + rewrite <- (zsum_map _ _ (pl_w i) f). apply Hf; [|rewrite E; assumption].
      apply Forall_forall. intros x Hx. apply in_map_iff in Hx. destruct Hx as (p & <- & Hp). destruct (HD p (Hi p Hp)). lia.
    + rewrite <- (zsum_map _ _ (pl_h i) g). apply Hg; [|rewrite E; assumption].
      apply Forall_forall. intros x Hx. apply in_map_iff in Hx. destruct Hx as (p & <- & Hp). destruct (HD p (Hi p Hp)). lia.
  - eapply ord_pairs_impl; [|exact (ge_disjoint _ _ _ G)]. intros p q Hpq. unfold disjoint, pl_xe, pl_ye in Hpq.
    destruct Hpq as [H|[H|[H|H]]].
    + exists ax. split; [left; reflexivity|left; exact H].
    + exists ax. split; [left; reflexivity|right; exact H].
    + exists ay. split; [right; left; reflexivity|left; exact H].
    + exists ay. split; [right; left; reflexivity|right; exact H].
Qed.
Print Assumptions C18_product.

(** Three 6 x 6 oriented squares and a rotatable 4 x 7 in 10 x 10 bins: the
    area gives 2 bins, the bound is 3, and 3 bins are enough. *)
Definition ex_rdff (o : Objective) : RInstance :=
  mkRInst o default_params
    [mkRI 6 6 36 3 3 0 true 0 (-1) [[]]; mkRI 4 7 28 1 1 0 false 0 (-1) [[]]]
    [mkRB 10 10 100 4 0 None no_truck [] [] []].
Definition ex_rpacking : list RDesc :=
  [mkRD 0 2 [mkPl 0 0 0 false]; mkRD 0 1 [mkPl 0 4 0 false; mkPl 1 0 6 true]].

Lemma ex_rdff_domain : forall o, rdff_domain (ex_rdff o).
Proof.
  intro o. constructor; [reflexivity| |].
  - intros it [<-|[<-|[]]]; simpl; lia.
  - intros bt [<-|[]]; simpl; lia.
Qed.

Lemma ex_rpacking_ok : forall o, packing_ok (ex_rdff o) ex_rpacking /\ rall_packed (ex_rdff o) ex_rpacking.
Proof.
  intro o. split.
  - constructor.
    + intros d [<-|[<-|[]]]; cbn [rd_type rd_copies rd_items]; (split; [simpl; lia|]); (split; [lia|]); constructor.
      * intros p [<-|[]]; constructor; vm_compute; repeat split; congruence || lia.
      * repeat constructor.
      * intros p d _ [].
      * intros p [<-|[<-|[]]]; constructor; vm_compute; repeat split; congruence || lia.
      * constructor; [constructor; [right; right; left; vm_compute; discriminate|constructor]|repeat constructor].
      * intros p d _ [].
    + intros [|[|x]] Hx; vm_compute; try discriminate. simpl in Hx. lia.
  - intros [|[|x]] Hx; try reflexivity. simpl in Hx. lia.
Qed.

Example C18_example : rdual_feasible_functions 0 5 (ex_rdff OBinPacking) = Some (BinPackingBound 3)
  /\ rbins_used ex_rpacking = 3.
Proof. split; vm_compute; reflexivity. Qed.

Example C18_example_knapsack :
  match rdual_feasible_functions 0 5 (ex_rdff OKnapsack) with
  | Some (KnapsackBound (Some q)) => (q == 136)%Q | _ => False end
  /\ (rnet_profit (ex_rdff OKnapsack) ex_rpacking == 136)%Q.
Proof. split; vm_compute; reflexivity. Qed.

Lemma fold_max_is : forall l b m, b <= m -> Forall (fun x => x <= m) l -> (b = m \/ In m l) -> fold_left Z.max l b = m.
Proof.
  induction l as [|x l IH]; intros b m Hb Hl H; simpl.
  - destruct H as [H|[]]. assumption.
  - inversion Hl; subst. apply IH; [lia|assumption|]. destruct H as [H|[H|H]]; [left; lia|left; lia|right; assumption].
Qed.

(** Finding: the division has no guard on its denominator.  On ordinary inputs
    it is 0/0, and the resulting NaN is converted to an integer, which C++
    leaves undefined.  The bound is right only because the usual conversion
    gives a negative number: with any other one it would be the bound. *)
Theorem C18_nan_refuted : exists i ds, rdff_domain i /\ rin_objective i = OBinPacking /\
  packing_ok i ds /\ rall_packed i ds /\ rbins_used ds = 1 /\
  forall nan, rdual_feasible_functions nan 5 i = Some (BinPackingBound (Z.max nan 1)).
Proof.
  exists (mkRInst OBinPacking default_params [mkRI 6 6 36 1 1 0 true 0 (-1) [[]]]
    [mkRB 10 10 100 4 0 None no_truck [] [] []]), [mkRD 0 1 [mkPl 0 0 0 false]].
  split; [|split; [reflexivity|split; [|split; [|split; [reflexivity|]]]]].
  - constructor; [reflexivity| |]; [intros it [<-|[]]; simpl; lia|intros bt [<-|[]]; simpl; lia].
  - constructor.
    + intros d [<-|[]]; cbn [rd_type rd_copies rd_items]; (split; [simpl; lia|]); (split; [lia|]); constructor.
      * intros p [<-|[]]; constructor; vm_compute; repeat split; congruence || lia.
      * repeat constructor.
      * intros p d _ [].
    + intros [|x] Hx; vm_compute; try discriminate. simpl in Hx. lia.
  - intros [|x] Hx; try reflexivity. simpl in Hx. lia.
  - intro nan. unfold rdual_feasible_functions, rbin_bound, rsweep_bound.
    set (c := rcombos _ _). vm_compute in c. subst c. cbn [all_oriented forallb rin_items ri_oriented andb bind].
    set (l := mapo _ _). cbv in l. subst l. cbn [bind]. rewrite (fold_max_is _ _ (Z.max nan 1)); [|lia| |].
    + cbn [rin_objective rin_bins length Nat.eqb negb]. f_equal. f_equal. lia.
    + repeat (constructor; [lia|]). constructor.
    + destruct (Z.max_spec nan 1) as [[_ ->]|[_ ->]]; right; cbn [In]; auto 60.
Qed.
Print Assumptions C18_nan_refuted.

(** Finding: with fewer mandatory copies than copies, the bound counts all the
    copies. *)
Theorem C18_optional_copies_refuted : exists i ds b,
  rdff_domain i /\ rin_objective i = OBinPacking /\ rdual_feasible_functions 0 5 i = Some (BinPackingBound b) /\
  packing_ok i ds /\ (forall x, (x < length (rin_items i))%nat -> ri_copies_min (ritem i x) <= rpacked x ds) /\
  rbins_used ds < b.
Proof.
  exists (mkRInst OBinPacking default_params [mkRI 6 6 36 3 1 0 true 0 (-1) [[]]]
    [mkRB 10 10 100 4 0 None no_truck [] [] []]), [mkRD 0 1 [mkPl 0 0 0 false]], 3.
  split; [|split; [reflexivity|split; [vm_compute; reflexivity|split; [|split; [|reflexivity]]]]].
  - constructor; [reflexivity| |]; [intros it [<-|[]]; simpl; lia|intros bt [<-|[]]; simpl; lia].
  - constructor.
    + intros d [<-|[]]; cbn [rd_type rd_copies rd_items]; (split; [simpl; lia|]); (split; [lia|]); constructor.
      * intros p [<-|[]]; constructor; vm_compute; repeat split; congruence || lia.
      * repeat constructor.
      * intros p d _ [].
    + intros [|x] Hx; vm_compute; try discriminate. simpl in Hx. lia.
  - intros [|x] Hx; [vm_compute; discriminate|]. simpl in Hx. lia.
Qed.
Print Assumptions C18_optional_copies_refuted.

(** Finding: a zero side, which the instance builder accepts, divides by zero. *)
Theorem C18_zero_side_refuted : exists i, length (rin_bins i) = 1%nat /\ positive_bins i /\
  (forall it, In it (rin_items i) -> 0 <= ri_x it /\ 0 <= ri_y it /\ 1 <= ri_copies it) /\
  rin_objective i = OBinPacking /\ forall iterations, rdual_feasible_functions 0 iterations i = None.
Proof.
  exists (mkRInst OBinPacking default_params [mkRI 0 6 36 3 1 0 true 0 (-1) [[]]]
    [mkRB 10 10 100 4 0 None no_truck [] [] []]).
  split; [reflexivity|]. split; [intros bt [<-|[]]; simpl; lia|]. split; [intros it [<-|[]]; simpl; lia|].
  split; reflexivity.
Qed.
Print Assumptions C18_zero_side_refuted.

(** ** C19 *)

(** The cut found is satisfied by every set of items packed in one bin of the
    type, and violated by the selection by the reported amount; no cut is found
    only if no combination is violated. *)
Theorem C19_cut : forall i t selected, positive_items i -> positive_bins i -> (t < length (rin_bins i))%nat ->
  exists c, find_most_violated_cut i t selected = Some c /\
  (cut_found c = true ->
     length (cut_coefficients c) = length (rin_items i) /\
     (forall x, 0 <= nth x (cut_coefficients c) 0) /\
     0 < cut_violation c /\
     zsum (fun p => snd p * nth (fst p) (cut_coefficients c) 0) selected = cut_bound c + cut_violation c /\
     forall ps, geometry_ok i (rbin i t) ps ->
       (forall x, (x < length (rin_items i))%nat -> rcount x ps <= ri_copies (ritem i x)) ->
       zsum (fun p => nth (pl_type p) (cut_coefficients c) 0) ps <= cut_bound c).
Proof.
  intros i t selected Hits Hbins Ht. unfold find_most_violated_cut, rbin.
  rewrite (nth_error_nth' _ dummy_rbin Ht). set (bt := nth t (rin_bins i) dummy_rbin).
  assert (HB : 1 <= rb_x bt /\ 1 <= rb_y bt) by (apply Hbins; apply nth_In; assumption).
  destruct (rcombos_some (rin_items i) bt Hits HB) as (combos & E & HF). rewrite E. cbn [bind].
  eexists. split; [reflexivity|]. intro Hfound.
  destruct (cut_fold selected (any_rcombo (rin_items i) bt) combos no_cut HF) as (H1 & _).
  { discriminate. } { simpl. lia. }
  destruct (H1 Hfound) as (HP & H2 & H3 & H4). set (c := fold_left (cut_step selected) combos no_cut) in *.
  pose proof HP as (k & l & fw & fh & HR).
  split; [apply (rc_length _ _ _ _ _ _ _ HR)|]. split.
  { intro x. destruct (Nat.lt_ge_cases x (length (rin_items i))) as [Hx|Hx].
    - apply (rc_range _ _ _ _ _ _ _ HR x Hx).
    - rewrite nth_overflow by (pose proof (rc_length _ _ _ _ _ _ _ HR) as L; cbn [snd] in L; lia). lia. }
  split; [assumption|]. split; [lia|].
  intros ps Hg Hc. apply (rbin_combo i bt Hits HB (cut_bound c, cut_coefficients c) ps HP Hg Hc).
Qed.
Print Assumptions C19_cut.

(** Hence a selection that is cut cannot be packed in one bin of the type. *)
Definition selected_copies (selected : list (nat * Z)) (x : nat) : Z :=
  zsum (fun p => if Nat.eqb (fst p) x then snd p else 0) selected.

Theorem C19_selection_infeasible : forall i t selected c ps,
  positive_items i -> positive_bins i -> (t < length (rin_bins i))%nat ->
  find_most_violated_cut i t selected = Some c -> cut_found c = true ->
  (forall p, In p selected -> (fst p < length (rin_items i))%nat) ->
  (forall x, (x < length (rin_items i))%nat -> selected_copies selected x <= ri_copies (ritem i x)) ->
  geometry_ok i (rbin i t) ps ->
  (forall x, (x < length (rin_items i))%nat -> rcount x ps = selected_copies selected x) -> False.
Proof.
  intros i t selected c ps Hits Hbins Ht E Hf Hr Hcop Hg Hc.
  destruct (C19_cut i t selected Hits Hbins Ht) as (c' & E' & HC). rewrite E in E'. injection E' as <-.
  destruct (HC Hf) as (_ & _ & Hv & Hs & HV). specialize (HV ps Hg ltac:(intros; rewrite Hc by assumption; auto)).
  set (n := length (rin_items i)) in *. set (co := cut_coefficients c) in *.
  pose proof (rpacked_sum n [mkRD 0 1 ps] (fun x => nth x co 0)) as HP.
  rewrite !zsum_cons, !zsum_nil in HP. cbn [rd_copies rd_items] in HP.
  assert (EP : forall x, rpacked x [mkRD 0 1 ps] = rcount x ps).
  { intro x. unfold rpacked. rewrite zsum_cons, zsum_nil. cbn [rd_copies rd_items]. lia. }
  assert (ES : zsum (fun p => snd p * nth (fst p) co 0) selected = zsum (fun x => selected_copies selected x * nth x co 0) (seq 0 n)).
  { clear - Hr. unfold selected_copies. induction selected as [|p l IH].
    - symmetry. apply Dff_Axis.zsum_zero. intros x _. reflexivity.
    - rewrite zsum_cons, IH by (intros; apply Hr; right; assumption).
      rewrite <- (Dff_Axis.zsum_single n (fst p) (snd p * nth (fst p) co 0)) by (apply Hr; left; reflexivity).
      rewrite <- zsum_plus. apply zsum_ext. intros x _. rewrite zsum_cons. destruct (Nat.eqb_spec (fst p) x) as [->|]; lia. }
  rewrite ES in Hs.
  rewrite (zsum_ext _ (fun j => rpacked j [mkRD 0 1 ps] * nth j co 0) (fun x => selected_copies selected x * nth x co 0)) in HP.
  - rewrite HP in Hs; [lia|]. intros d [<-|[]] p Hp. apply (pk_type _ _ _ (ge_places _ _ _ Hg p Hp)).
  - intros x Hx. apply in_seq in Hx. rewrite EP, Hc by lia. reflexivity.
Qed.
Print Assumptions C19_selection_infeasible.

(** Two 6 x 6 squares do not fit in one bin: the cut found excludes them, and is
    satisfied by one square with the rotated 4 x 7. *)
Example C19_example :
  find_most_violated_cut (ex_rdff OKnapsack) 0 [(0%nat, 2)] = Some (mkCut true [100; 0] 100 100)
  /\ geometry_ok (ex_rdff OKnapsack) (rbin (ex_rdff OKnapsack) 0) [mkPl 0 4 0 false; mkPl 1 0 6 true].
Proof.
  split; [vm_compute; reflexivity|].
  destruct (ex_rpacking_ok OKnapsack) as [[H _] _]. apply (H (mkRD 0 1 [mkPl 0 4 0 false; mkPl 1 0 6 true])).
  right. left. reflexivity.
Qed.
