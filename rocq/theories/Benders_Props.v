(** * Benders decomposition of the rectangle solver (C59)

    src/rectangle/benders_decomposition.cpp *)

From Verif Require Import Reduc_Props RectTree_Props.
From Coq Require Import List ZArith QArith Bool Lia Lqa Arith.
From Verif Require Import Util Common_Model Common_Spec Common_Proof OneDim_Model OneDim_Spec OneDim_Proof
  OneDimBuilder_Model OneDimBounds_Spec Milp_Model Milp_Spec
  Rect_Model Rect_Spec RectDff_Model RectSol_Spec Bar_Spec RectBounds_Spec RectBounds_Proof
  Benders_Model Benders_Spec Benders_Proof BendersCuts_Proof BendersLift_Proof BendersMaster_Proof BendersPrec_Proof BendersRun_Proof BendersEnd_Proof BendersHonest_Proof.
Import ListNotations.
Open Scope Z_scope.

(** ** Theorems *)

(** Every solution found by a run, however long, is made of bins that satisfy all the
    constraints, with no more copies of items and of bins than there are. *)
Theorem C59_solutions : forall i extra o n, bd_domain i -> monotone extra -> master_valid o -> (forall k, sub_right i extra (or_sub o k)) ->
  forall d, In d (bs_solutions (outcome_state (benders i o n))) -> bd_solution i extra d.
Proof. intros i extra o n Hd Hm Hv Hs d H. eapply (run_solutions i extra o Hd Hv Hs n d H). Qed.
Print Assumptions C59_solutions.

(** Every cut made by a run is satisfied by all the bins that satisfy the constraints,
    as long as all the infeasibilities were proven. *)
Theorem C59_cuts : forall i extra o n, bd_domain i -> monotone extra -> master_right o -> master_valid o -> (forall k, sub_right i extra (or_sub o k)) ->
  (forall k, bar_right (or_bar o k)) -> (forall k, lifts_at_most_one i (or_bar o k)) -> same_orientation i -> (rin_objective i = OKnapsack -> plain_items i extra) ->
  let s := outcome_state (benders i o n) in bs_proven s = true ->
  forall t c, (t < length (rin_bins i))%nat -> In c (static_cuts i t ++ bs_dff s t ++ bs_no_good s t) -> cut_valid i extra t c.
Proof.
  intros i extra o n Hd Hm Hr Hv Hs Hb Hl Ho Hp s P t c Ht Hc. destruct (run_good i extra o Hd Hm Hr Hv Hs Hb Hl Ho Hp n) as [_ [V1 V2] _]. fold s in V1, V2.
  apply in_app_iff in Hc. destruct Hc as [Hc|Hc]; [apply static_valid; assumption|]. apply in_app_iff in Hc. destruct Hc as [Hc|Hc]; [apply (V1 t c Ht Hc)|apply (V2 P t c Ht Hc)].
Qed.
Print Assumptions C59_cuts.

(** The instance given to the master solver at any iteration lets an item in a bin when,
    and only when, it fits alone in an allowed orientation and is eligible. *)
Theorem C59_eligible : forall i dff no_good i1 x t, bd_domain i -> b_build (master_builder i dff no_good) = Built i1 ->
  (x < length (rin_items i))%nat -> (t < length (rin_bins i))%nat ->
  (is_eligible i1 x t <->
   (ri_x (ritem i x) <= rb_x (rbin i t) /\ ri_y (ritem i x) <= rb_y (rbin i t)
    \/ ri_oriented (ritem i x) = false /\ ri_y (ritem i x) <= rb_x (rbin i t) /\ ri_x (ritem i x) <= rb_y (rbin i t))
   /\ (ri_eligibility (ritem i x) = -1 \/ In (ri_eligibility (ritem i x)) (rb_eligibility_ids (rbin i t)))).
Proof.
  intros i dff no_good i1 x t Hd Hb Hx Ht. transitivity (fits_bin i x t = true).
  - split; [apply (meligible_fits i Hd dff no_good i1 Hb x t Hx Ht)|apply (meligible i Hd dff no_good i1 Hb x t Hx Ht)].
  - unfold fits_bin, ritem_fits, religible. rewrite andb_true_iff, !orb_true_iff, !andb_true_iff, !Z.leb_le, negb_true_iff, Z.eqb_eq, existsb_exists.
    assert (E : (exists z, In z (rb_eligibility_ids (rbin i t)) /\ (ri_eligibility (ritem i x) =? z) = true) <-> In (ri_eligibility (ritem i x)) (rb_eligibility_ids (rbin i t))).
    { split; [intros (z & Hz & E); apply Z.eqb_eq in E; rewrite E; exact Hz|intro H; exists (ri_eligibility (ritem i x)); split; [exact H|apply Z.eqb_refl]]. }
    rewrite E. tauto.
Qed.
Print Assumptions C59_eligible.

(** At every iteration the master can be built (without mandatory bins, for bin packing),
    and all the cuts found so far are limits of its bins. *)
Theorem C59_master : forall i o n, bd_domain i -> (rin_objective i = OBinPacking -> forall bt, In bt (rin_bins i) -> rb_copies_min bt = 0) ->
  let s := outcome_state (benders i o n) in
  exists i1, b_build (master_builder i (bs_dff s) (bs_no_good s)) = Built i1 /\
    forall t c, (t < length (rin_bins i))%nat -> In c (static_cuts i t ++ bs_dff s t ++ bs_no_good s t) ->
      exists r, In r (bt_resources (bin_type i1 t)) /\ res_capacity r = ct_capacity c /\ res_penalize r = false /\
        forall l, (consumption i1 r l == cut_consumption c (fun x => Z.of_nat (count_occ Nat.eq_dec l x)))%Q.
Proof.
  intros i o n Hd Hmin s.
  assert (W : cuts_wf i s).
  { unfold s, benders. assert (G : forall n k s, cuts_wf i s -> cuts_wf i (outcome_state (iterations i o n k s))).
    { clear. induction n as [|n IH]; intros k s W; [exact W|]. cbn [iterations]. pose proof (step_wf i no_extra o k s W) as W'.
      destruct (iteration i o k s) as [s'|s'|s']; cbn [outcome_state] in *; [apply IH|..]; exact W'. }
    apply G. constructor; intros t c []. }
  pose proof (store_wf i s W) as Hwf. destruct (master_builds i Hd _ _ Hwf Hmin) as [i1 E]. exists i1. split; [exact E|].
  intros t c Ht Hc. exists (cut_resource c). destruct (cut_resource_ok _ c (Hwf t c Ht Hc)) as (R1 & R2 & _).
  destruct (mbins i Hd _ _ i1 E) as [_ B]. destruct (B t Ht) as (_ & _ & _ & _ & _ & _ & R). split; [|split; [exact R1|split; [exact R2|]]].
  - rewrite R. apply in_or_app. left. apply in_map. exact Hc.
  - intro l. apply (mcut i Hd _ _ Hwf i1 E t c l Ht Hc).
Qed.
Print Assumptions C59_master.

(** Every claim (infeasibility, bound on the profit, the number of bins or the cost) that
    a run passes on is right. *)
Theorem C59_claims : forall i extra o n, bd_domain i -> monotone extra -> master_right o -> master_valid o -> (forall k, sub_right i extra (or_sub o k)) ->
  (forall k, bar_right (or_bar o k)) -> (forall k, lifts_at_most_one i (or_bar o k)) -> same_orientation i -> (rin_objective i = OKnapsack -> plain_items i extra) ->
  forall c, In c (bs_claims (outcome_state (benders i o n))) -> bd_claim_right i extra c.
Proof. intros i extra o n Hd Hm Hr Hv Hs Hb Hl Ho Hp c Hc. apply (gd_claims _ _ _ (run_good i extra o Hd Hm Hr Hv Hs Hb Hl Ho Hp n) c Hc). Qed.
Print Assumptions C59_claims.

(** The check of the cuts against the best solution throws for no solution that
    satisfies the constraints, wherever it comes from. *)
Theorem C59_check : forall i extra o n best, bd_domain i -> monotone extra -> master_right o -> master_valid o -> (forall k, sub_right i extra (or_sub o k)) ->
  (forall k, bar_right (or_bar o k)) -> (forall k, lifts_at_most_one i (or_bar o k)) -> same_orientation i -> (rin_objective i = OKnapsack -> plain_items i extra) ->
  let s := outcome_state (benders i o n) in bs_proven s = true -> bd_solution i extra best ->
  check_cuts_throws i (bs_dff s) (bs_no_good s) best = false.
Proof.
  intros i extra o n best Hd Hm Hr Hv Hs Hb Hl Ho Hp s P Hbest. apply (cuts_check i extra); [|exact Hbest]. intros t c Ht Hc.
  apply (C59_cuts i extra o n Hd Hm Hr Hv Hs Hb Hl Ho Hp P t c Ht). apply in_app_iff. right. exact Hc.
Qed.
Print Assumptions C59_check.

(** The run ends: no more iterations than ways to choose a bin type and, for each item
    type, a number of copies. *)
Theorem C59_ends : forall i extra o n s, bd_domain i -> master_valid o -> (forall k, sub_right i extra (or_sub o k)) -> (1 <= or_maximum o)%nat ->
  (length (rin_bins i) * fold_right (fun it m => (S (Z.to_nat (ri_copies it)) * m)%nat) 1%nat (rin_items i) < n)%nat ->
  benders i o n <> Continue s.
Proof. intros i extra o n s Hd Hv Hs Hmax Hn. apply (run_ends i extra o Hd Hv Hmax n s). rewrite candidates_length. exact Hn. Qed.
Print Assumptions C59_ends.

(** When the run stops by itself, with all infeasibilities proven and a last master
    solved to optimality, its solution packs the mandatory items and is at least as good
    as every packing. *)
Theorem C59_optimal : forall i extra o n s s', bd_domain i -> monotone extra -> master_right o -> master_valid o -> (forall k, sub_right i extra (or_sub o k)) ->
  (forall k, bar_right (or_bar o k)) -> (forall k, lifts_at_most_one i (or_bar o k)) -> same_orientation i -> (rin_objective i = OKnapsack -> plain_items i extra) ->
  benders i o n = Continue s -> benders i o (S n) = Stop s' -> bs_proven s' = true ->
  (forall i1, b_build (master_builder i (bs_dff s) (bs_no_good s)) = Built i1 -> master_exact i1 (or_master o n i1 (precedences i))) ->
  exists sol, (sol = [] \/ In sol (bs_solutions s')) /\ bd_solution i extra sol /\
    forall ds, bd_packing i extra ds -> bd_as_good i sol ds /\ forall x, (x < length (rin_items i))%nat -> ri_copies_min (ritem i x) <= rpacked x sol.
Proof.
  intros i extra o n s s' Hd Hm Hr Hv Hs Hb Hl Ho Hp E1 E2 P Hex. pose proof (run_good i extra o Hd Hm Hr Hv Hs Hb Hl Ho Hp (S n)) as G. rewrite E2 in G. cbn [outcome_state] in G.
  unfold benders in E1, E2. rewrite iterations_last, E1, Nat.add_0_r in E2.
  apply (stop_optimal i extra o Hd Hv Hs Hp n s s'); try assumption.
  - apply (iterations_wf i extra o n 0 initial_state s); [constructor; intros t c []|exact E1].
  - intros _. apply (gd_claims _ _ _ G).
Qed.
Print Assumptions C59_optimal.

(** The subsets reported for a selection that does not fit: not empty if at least one is
    allowed, no more than allowed, each one within the selection, and, when marked as
    proven, never in one bin. *)
Theorem C59_subsets : forall i extra sub t us maximum, rsane_resources i -> monotone extra -> sub_right i extra sub ->
  let cuts := minimal_subsets i sub t (aggregate i us) (so_infeasible (sub t (aggregate i us))) maximum in
  (length cuts <= maximum)%nat /\ ((1 <= maximum)%nat -> cuts <> []) /\
  forall c, In c cuts -> (forall x, (x < length (rin_items i))%nat -> selected (fst c) x <= selected (aggregate i us) x)
    /\ (snd c = true -> never_together i extra t (fst c)).
Proof.
  intros i extra sub t us maximum Hr Hm Hs cuts. split; [apply dfs_length|]. split; [apply dfs_length|]. intros c Hc.
  destruct (minimal_reported i _ _ _ _ _ _ Hc) as (vs & E & Hvs & _). split.
  - intros x Hx. rewrite E, !aggregate_selected by exact Hx. apply Hvs. exact Hx.
  - intro P. apply (minimal_never i extra Hr Hm sub t us _ maximum c Hs) with (2 := Hc); [intro Q; exact Q|exact P].
Qed.
Print Assumptions C59_subsets.

(** Lifting a valid no-good cut by one item type: still valid, and at least as strong. *)
Theorem C59_lift : forall i extra bar t sel, rsane_resources i -> monotone extra -> bar_right bar -> selection_ok i sel ->
  never_together i extra t sel ->
  let cut := lift_no_good_cut i bar t (no_good_cut sel) in
  (forall count, (cut_consumption (no_good_cut sel) count <= cut_consumption cut count)%Q) /\
  ct_capacity cut = ct_capacity (no_good_cut sel) /\
  ((length (ct_consumption cut) <= S (length sel))%nat -> cut_valid i extra t cut).
Proof.
  intros i extra bar t sel Hr Hm Hb Hs Hn cut. split; [intro count; apply lifted_stronger|]. split; [apply lifted_capacity|].
  intro L. apply (lifted_valid i extra Hr Hm bar t sel Hb Hs L Hn).
Qed.
Print Assumptions C59_lift.

(** Following the precedences loses nothing, when items are told apart by their size,
    profit and eligibility only. *)
Theorem C59_precedences : forall i extra ds, rin_objective i = OKnapsack -> plain_items i extra -> bd_packing i extra ds ->
  exists ds', bd_packing i extra ds' /\ (bd_profit i ds <= bd_profit i ds')%Q /\
    forall a b, In (a, b) (precedences i) -> 0 < rpacked a ds' -> rpacked b ds' = ri_copies (ritem i b).
Proof. intros i extra ds K Hp Hds. apply (prec_dominates i extra Hp K ds Hds). Qed.
Print Assumptions C59_precedences.

(** ** Examples *)

Definition bt10 (copies copies_min : Z) : RBin := mkRB 10 10 1 copies copies_min None no_truck [] [] [].
Definition fixed (x y copies copies_min : Z) : RItem := mkRI x y (inject_Z (x * y)) copies copies_min 0 true 0 (-1) [].
Definition free (x y copies copies_min : Z) : RItem := mkRI x y (inject_Z (x * y)) copies copies_min 0 false 0 (-1) [].

Lemma no_extra_monotone : monotone no_extra.
Proof. intros t a p b _. exact Logic.I. Qed.

(** Three 6 x 5 in bins 10 x 10: they have an area of 90, but three of them are never in
    one bin.  First master: one bin; a dual feasible function cuts it off.  Second master:
    two bins, which can be filled. *)
Definition ex_be : RInstance := mkRInst OBinPacking default_params [fixed 6 5 3 3] [bt10 3 0].
Definition ex_be_answers (k : nat) : MilpClaim * list BinDesc :=
  match k with
  | O => (BinsBound 1, [mkBD 0 1 [0; 0; 0]%nat])
  | _ => (BinsBound 2, [mkBD 0 1 [0; 0]%nat; mkBD 0 1 [0]%nat])
  end.
Definition ex_be_table : list (nat * list (nat * Z) * list Place) :=
  [(0%nat, [(0%nat, 2)], [mkPl 0 0 0 false; mkPl 0 0 5 false]); (0%nat, [(0%nat, 1)], [mkPl 0 4 5 false])].
Definition ex_be_oracles : Oracles :=
  mkOr (honest_master ex_be_answers) (fun _ => honest_sub ex_be ex_be_table) (fun _ => no_bar) 8 (fun l => last l []).


(** A 12 x 6 fits no bin but the second one; a 6 x 12 that may be rotated as well; the
    third one everywhere. *)
Example C59_eligible_example : match b_build (master_builder (mkRInst OKnapsack default_params [fixed 12 6 1 0; free 6 12 1 0; fixed 6 5 1 0]
    [bt10 3 0; mkRB 20 10 1 2 0 None no_truck [] [] []]) (fun _ => []) (fun _ => [])) with
  | Built i1 => map it_eligibility (in_item_types i1) = [0; 1; -1] /\ map bt_eligibility_ids (in_bin_types i1) = [[]; [0; 1]]
  | _ => False end.
Proof. vm_compute. split; reflexivity. Qed.

Definition is_continue (r : Outcome) : bool := match r with Continue _ => true | _ => false end.
Definition is_stop (r : Outcome) : bool := match r with Stop _ => true | _ => false end.
Definition is_throw (r : Outcome) : bool := match r with Throw _ => true | _ => false end.
Lemma is_continue_ok : forall r, is_continue r = true -> r = Continue (outcome_state r).
Proof. intros [s|s|s] H; try discriminate H; reflexivity. Qed.
Lemma is_stop_ok : forall r, is_stop r = true -> r = Stop (outcome_state r).
Proof. intros [s|s|s] H; try discriminate H; reflexivity. Qed.
Lemma is_throw_ok : forall r, is_throw r = true -> r = Throw (outcome_state r).
Proof. intros [s|s|s] H; try discriminate H; reflexivity. Qed.

Definition exact_check (i1 : Instance) (out : MasterOut) : bool :=
  forallb (fun x => it_copies_min (item_type i1 x) <=? packed x (mo_solution out)) (seq 0 (length (in_item_types i1)))
  && match in_objective i1, mo_claim out with OBinPacking, BinsBound n => n =? zsum bd_copies (mo_solution out) | _, _ => false end.
Lemma exact_check_ok : forall i1 out, exact_check i1 out = true -> master_exact i1 out.
Proof.
  intros i1 out H. unfold exact_check in H. apply andb_true_iff in H. destruct H as [H1 H2]. rewrite forallb_forall in H1. right. split.
  - intros x Hx. apply Z.leb_le, H1, in_seq. lia.
  - destruct (in_objective i1); try discriminate H2. destruct (mo_claim out); try discriminate H2. apply Z.eqb_eq in H2. rewrite H2. reflexivity.
Qed.

(** The hypotheses of the theorems hold. *)
Lemma ex_be_hypotheses : bd_domain ex_be /\ monotone no_extra /\ master_right ex_be_oracles /\ master_valid ex_be_oracles /\
  (forall k, sub_right ex_be no_extra (or_sub ex_be_oracles k)) /\ (forall k, bar_right (or_bar ex_be_oracles k)) /\
  (forall k, lifts_at_most_one ex_be (or_bar ex_be_oracles k)) /\ same_orientation ex_be /\ (rin_objective ex_be = OKnapsack -> plain_items ex_be no_extra).
Proof.
  split; [apply domain_checks_ok; vm_compute; reflexivity|]. split; [apply no_extra_monotone|]. split; [apply (honest_right ex_be_answers); reflexivity|].
  split; [apply (honest_valid ex_be_answers); reflexivity|]. split; [intro k; apply honest_sub_right|]. split; [intro k; apply no_bar_right|]. split; [intro k; apply no_bar_lift|].
  split; [left; intros it [<-|[]]; reflexivity|]. discriminate.
Qed.

(** The run: a bound of 1, a cut, a bound of 2, a solution with 2 bins, and the run stops
    with all infeasibilities proven; the last master is exact. *)
Example C59_run_example : let s := outcome_state (benders ex_be ex_be_oracles 1) in let s' := outcome_state (benders ex_be ex_be_oracles 2) in
  benders ex_be ex_be_oracles 1 = Continue s /\ length (bs_dff s 0%nat) = 1%nat /\ benders ex_be ex_be_oracles 2 = Stop s' /\ bs_proven s' = true /\
  bs_claims s' = [BinsBound 1; BinsBound 2] /\ map rbins_used (bs_solutions s') = [2] /\
  (forall i1, b_build (master_builder ex_be (bs_dff s) (bs_no_good s)) = Built i1 -> master_exact i1 (or_master ex_be_oracles 1 i1 (precedences ex_be))) /\
  bd_packing ex_be no_extra (nth 0 (bs_solutions s') []).
Proof.
  cbv zeta. split; [apply is_continue_ok; vm_compute; reflexivity|]. split; [vm_compute; reflexivity|]. split; [apply is_stop_ok; vm_compute; reflexivity|].
  split; [vm_compute; reflexivity|]. split; [vm_compute; reflexivity|]. split; [vm_compute; reflexivity|]. split.
  - intros i1 E. apply exact_check_ok.
    assert (H : match b_build (master_builder ex_be (bs_dff (outcome_state (benders ex_be ex_be_oracles 1))) (bs_no_good (outcome_state (benders ex_be ex_be_oracles 1)))) with
                | Built i1 => exact_check i1 (or_master ex_be_oracles 1 i1 (precedences ex_be)) | _ => false end = true) by (vm_compute; reflexivity).
    rewrite E in H. exact H.
  - apply bd_check_ok; [vm_compute; reflexivity|]. intros d _. exact Logic.I.
Qed.

(** ** Findings *)

(** The run of given answers on an instance, without lifting. *)
Definition run_of (i : RInstance) (answers : nat -> MilpClaim * list BinDesc) (table : list (nat * list (nat * Z) * list Place)) : Oracles :=
  mkOr (honest_master answers) (fun _ => honest_sub i table) (fun _ => no_bar) 8 (fun l => last l []).
Lemma run_of_honest : forall i answers table, let o := run_of i answers table in
  master_right o /\ master_valid o /\ (forall k, sub_right i no_extra (or_sub o k)) /\ (forall k, bar_right (or_bar o k)) /\ (forall k, lifts_at_most_one i (or_bar o k)).
Proof.
  intros i answers table o. split; [apply (honest_right answers); reflexivity|]. split; [apply (honest_valid answers); reflexivity|]. split; [intro k; apply honest_sub_right|].
  split; [intro k; apply no_bar_right|intro k; apply no_bar_lift].
Qed.

(** items_incompatible adds the larger side of the item that may be rotated to both sides
    of the one that may not, where the smaller one is needed: a 10 x 1 that may be rotated
    and a 5 x 5 that may not are said incompatible in a 10 x 10 bin, and the bound of two
    bins is passed on, although one bin is enough. *)
Theorem C59_orientation_refuted : exists i o ds, bd_domain i /\ master_right o /\ master_valid o /\ (forall k, sub_right i no_extra (or_sub o k)) /\
  (forall k, bar_right (or_bar o k)) /\ (forall k, lifts_at_most_one i (or_bar o k)) /\
  bd_packing i no_extra ds /\ rbins_used ds = 1 /\ In (BinsBound 2) (bs_claims (outcome_state (benders i o 1))).
Proof.
  pose (i := mkRInst OBinPacking default_params [free 10 1 1 1; fixed 5 5 1 1] [bt10 2 0]).
  pose (o := run_of i (fun _ => (BinsBound 2, [mkBD 0 1 [0]%nat; mkBD 0 1 [1]%nat])) []).
  exists i, o, [mkRD 0 1 [mkPl 0 0 0 false; mkPl 1 0 1 false]]. destruct (run_of_honest i (fun _ => (BinsBound 2, [mkBD 0 1 [0]%nat; mkBD 0 1 [1]%nat])) []) as (H1 & H2 & H3 & H4 & H5).
  split; [apply domain_checks_ok; vm_compute; reflexivity|]. split; [exact H1|]. split; [exact H2|]. split; [exact H3|]. split; [exact H4|]. split; [exact H5|].
  split; [apply bd_check_ok; [vm_compute; reflexivity|intros d _; exact Logic.I]|]. split; [reflexivity|].
  assert (E : bs_claims (outcome_state (benders i o 1)) = [BinsBound 2]) by (vm_compute; reflexivity). rewrite E. left. reflexivity.
Qed.
Print Assumptions C59_orientation_refuted.

(** The precedences of the knapsack master forget that an item may be mandatory: a
    mandatory 10 x 10 item is not allowed without the other, more profitable 10 x 10 item,
    and the instance is claimed infeasible. *)
Theorem C59_mandatory_refuted : exists i o ds, bd_domain i /\ master_right o /\ master_valid o /\ (forall k, sub_right i no_extra (or_sub o k)) /\
  (forall k, bar_right (or_bar o k)) /\ (forall k, lifts_at_most_one i (or_bar o k)) /\ same_orientation i /\
  bd_packing i no_extra ds /\ In Infeasible (bs_claims (outcome_state (benders i o 1))).
Proof.
  pose (i := mkRInst OKnapsack default_params [fixed 10 10 1 1; mkRI 10 10 200 1 0 0 true 0 (-1) []] [bt10 1 0]).
  pose (o := run_of i (fun _ => (Infeasible, [])) []).
  exists i, o, [mkRD 0 1 [mkPl 0 0 0 false]]. destruct (run_of_honest i (fun _ => (Infeasible, [])) []) as (H1 & H2 & H3 & H4 & H5).
  split; [apply domain_checks_ok; vm_compute; reflexivity|]. split; [exact H1|]. split; [exact H2|]. split; [exact H3|]. split; [exact H4|]. split; [exact H5|].
  split; [left; intros it [<-|[<-|[]]]; reflexivity|]. split; [apply bd_check_ok; [vm_compute; reflexivity|intros d _; exact Logic.I]|].
  assert (E : bs_claims (outcome_state (benders i o 1)) = [Infeasible]) by (vm_compute; reflexivity). rewrite E. left. reflexivity.
Qed.
Print Assumptions C59_mandatory_refuted.

(** An instance without a packing is not reported as infeasible: the claim is passed on,
    then the run throws ("master problem should not be infeasible"), here with two 8 x 8
    items and one bin. *)
Theorem C59_infeasible_throws_refuted : exists i o, bd_domain i /\ master_right o /\ master_valid o /\ (forall k, sub_right i no_extra (or_sub o k)) /\
  (forall k, bar_right (or_bar o k)) /\ (forall k, lifts_at_most_one i (or_bar o k)) /\ same_orientation i /\
  (forall ds, ~ bd_packing i no_extra ds) /\ benders i o 1 = Throw (outcome_state (benders i o 1)).
Proof.
  pose (i := mkRInst OBinPacking default_params [fixed 8 8 2 2] [bt10 1 0]).
  pose (o := run_of i (fun _ => (Infeasible, [])) []). destruct (run_of_honest i (fun _ => (Infeasible, [])) []) as (H1 & H2 & H3 & H4 & H5).
  assert (Hd : bd_domain i) by (apply domain_checks_ok; vm_compute; reflexivity).
  assert (Hso : same_orientation i) by (left; intros it [<-|[]]; reflexivity).
  exists i, o. split; [exact Hd|]. split; [exact H1|]. split; [exact H2|]. split; [exact H3|]. split; [exact H4|]. split; [exact H5|]. split; [exact Hso|].
  split; [|apply is_throw_ok; vm_compute; reflexivity].
  intros ds Hds. assert (R : bd_claim_right i no_extra Infeasible); [|exact (R ds Hds)].
  apply (C59_claims i no_extra o 1 Hd no_extra_monotone H1 H2 H3 H4 H5 Hso ltac:(discriminate)).
  assert (E : bs_claims (outcome_state (benders i o 1)) = [Infeasible]) by (vm_compute; reflexivity). rewrite E. left. reflexivity.
Qed.
Print Assumptions C59_infeasible_throws_refuted.

(** A bin type with two mandatory copies: the subproblem copies the bin type, then sets
    its number of copies to 1, which throws. *)
Theorem C59_mandatory_bins_refuted : exists i o ds, bd_domain i /\ master_right o /\ master_valid o /\ (forall k, sub_right i no_extra (or_sub o k)) /\
  (forall k, bar_right (or_bar o k)) /\ (forall k, lifts_at_most_one i (or_bar o k)) /\ same_orientation i /\
  bd_packing i no_extra ds /\ benders i o 1 = Throw (outcome_state (benders i o 1)).
Proof.
  pose (i := mkRInst OVariableSizedBinPacking default_params [fixed 5 5 2 2] [bt10 2 2]).
  pose (a := fun _ : nat => (NoClaim, [mkBD 0 1 [0]%nat; mkBD 0 1 [0]%nat])).
  pose (o := run_of i a []). destruct (run_of_honest i a []) as (H1 & H2 & H3 & H4 & H5).
  exists i, o, [mkRD 0 2 [mkPl 0 0 0 false]].
  split; [apply domain_checks_ok; vm_compute; reflexivity|]. split; [exact H1|]. split; [exact H2|]. split; [exact H3|]. split; [exact H4|]. split; [exact H5|].
  split; [left; intros it [<-|[]]; reflexivity|]. split; [apply bd_check_ok; [vm_compute; reflexivity|intros d _; exact Logic.I]|].
  apply is_throw_ok. vm_compute. reflexivity.
Qed.
Print Assumptions C59_mandatory_bins_refuted.

(** The bins that the master leaves empty are not in the solution: a mandatory bin type is
    not used, although the run stops and there is a packing. *)
Theorem C59_lost_bin_refuted : exists i o ds s, bd_domain i /\ master_right o /\ master_valid o /\ (forall k, sub_right i no_extra (or_sub o k)) /\
  (forall k, bar_right (or_bar o k)) /\ (forall k, lifts_at_most_one i (or_bar o k)) /\ same_orientation i /\
  bd_packing i no_extra ds /\ benders i o 1 = Stop s /\ bs_proven s = true /\ forall sol, In sol (bs_solutions s) -> ~ bd_packing i no_extra sol.
Proof.
  pose (i := mkRInst OVariableSizedBinPacking default_params [fixed 15 15 1 1] [mkRB 20 20 1 1 0 None no_truck [] [] []; bt10 1 1]).
  pose (a := fun _ : nat => (NoClaim, [mkBD 0 1 [0]%nat; mkBD 1 1 []])).
  pose (tb := [(0%nat, [(0%nat, 1)], [mkPl 0 0 0 false])]).
  pose (o := run_of i a tb). destruct (run_of_honest i a tb) as (H1 & H2 & H3 & H4 & H5).
  exists i, o, [mkRD 0 1 [mkPl 0 0 0 false]; mkRD 1 1 []], (outcome_state (benders i o 1)).
  split; [apply domain_checks_ok; vm_compute; reflexivity|]. split; [exact H1|]. split; [exact H2|]. split; [exact H3|]. split; [exact H4|]. split; [exact H5|].
  split; [left; intros it [<-|[]]; reflexivity|]. split; [apply bd_check_ok; [vm_compute; reflexivity|intros d _; exact Logic.I]|].
  split; [apply is_stop_ok; vm_compute; reflexivity|]. split; [vm_compute; reflexivity|].
  assert (E : bs_solutions (outcome_state (benders i o 1)) = [[mkRD 0 1 [mkPl 0 0 0 false]]]) by (vm_compute; reflexivity). rewrite E.
  intros sol [<-|[]] P. pose proof (bk_used _ _ _ P 1%nat ltac:(cbn; lia)) as U. cbn in U. lia.
Qed.
Print Assumptions C59_lost_bin_refuted.

(** Limits on the weight of the items of a bin. *)
Definition weight_limit (i : RInstance) (t : nat) (ps : list Place) : Prop :=
  match rb_max_weight (rbin i t) with Some w => (RectTree_Spec.rweight i ps <= w)%Q | None => True end.
Definition weights_ok (i : RInstance) : bool := forallb (fun it => Qle_bool 0 (ri_weight it)) (rin_items i).

Lemma weights_nonneg : forall i x, weights_ok i = true -> (0 <= ri_weight (ritem i x))%Q.
Proof.
  intros i x H. unfold weights_ok in H. rewrite forallb_forall in H. unfold ritem. destruct (nth_in_or_default x (rin_items i) dummy_ritem) as [I| ->]; [apply Qle_bool_iff, H, I|apply Qle_refl].
Qed.
Lemma weight_limit_monotone : forall i, weights_ok i = true -> monotone (weight_limit i).
Proof.
  intros i H t a p b. unfold weight_limit. destruct (rb_max_weight (rbin i t)) as [w|]; [|tauto]. unfold RectTree_Spec.rweight. rewrite !qsum_app, qsum_cons.
  pose proof (weights_nonneg i (pl_type p) H). lra.
Qed.

(** A solver that knows that item type [h] is too heavy. *)
Definition too_heavy (i : RInstance) (t h : nat) : bool :=
  match rb_max_weight (rbin i t) with Some w => Qltb w (ri_weight (ritem i h)) && weights_ok i && (h <? length (rin_items i))%nat | None => false end.
Definition weight_check (i : RInstance) (t : nat) (ps : list Place) : bool :=
  match rb_max_weight (rbin i t) with Some w => Qle_bool (RectTree_Spec.rweight i ps) w | None => true end.
Definition weight_sub (i : RInstance) (h : nat) (table : list (nat * list (nat * Z) * list Place)) (t : nat) (sel : list (nat * Z)) : SubOut :=
  if (0 <? selected sel h) && too_heavy i t h then mkSO None false true
  else match so_places (honest_sub i table t sel) with
       | Some ps => if weight_check i t ps then honest_sub i table t sel else mkSO None false false
       | None => honest_sub i table t sel
       end.
Lemma weight_sub_right : forall i h table, sub_right i (weight_limit i) (weight_sub i h table).
Proof.
  intros i h table t sel. destruct (honest_sub_right i table t sel) as (A & B & C). unfold weight_sub. destruct ((0 <? selected sel h) && too_heavy i t h) eqn:E.
  - cbn [so_places so_full so_infeasible]. split; [discriminate|]. split; [discriminate|]. intros _ ps Ok Hall. apply andb_true_iff in E. destruct E as [E1 E2]. apply Z.ltb_lt in E1.
    unfold too_heavy in E2. pose proof (bo_extra _ _ _ _ Ok) as X. unfold weight_limit in X. destruct (rb_max_weight (rbin i t)) as [w|]; [|discriminate E2].
    rewrite !andb_true_iff in E2. destruct E2 as ((E2 & E3) & E4). apply Qltb_lt in E2. apply Nat.ltb_lt in E4. specialize (Hall h E4).
    unfold rcount in Hall. destruct (filter (fun p => Nat.eqb (pl_type p) h) ps) as [|p l] eqn:F; [cbn in Hall; lia|].
    assert (I : In p ps /\ pl_type p = h). { assert (I : In p (filter (fun p => Nat.eqb (pl_type p) h) ps)) by (rewrite F; left; reflexivity). apply filter_In in I. destruct I as [I J]. apply Nat.eqb_eq in J. tauto. }
    destruct I as [I J]. apply in_split in I. destruct I as (l1 & l2 & ->). unfold RectTree_Spec.rweight in X. rewrite qsum_app, qsum_cons, J in X.
    assert (0 <= qsum (fun p => ri_weight (ritem i (pl_type p))) l1)%Q by (apply qsum_nonneg; intros; apply weights_nonneg; exact E3).
    assert (0 <= qsum (fun p => ri_weight (ritem i (pl_type p))) l2)%Q by (apply qsum_nonneg; intros; apply weights_nonneg; exact E3). lra.
  - assert (Inf : so_infeasible (honest_sub i table t sel) = false) by (unfold honest_sub; destruct sel; [reflexivity|]; destruct (find _ table); reflexivity).
    destruct (so_places (honest_sub i table t sel)) as [ps0|] eqn:P0.
    + destruct (weight_check i t ps0) eqn:W; [|cbn [so_places so_full so_infeasible]; repeat split; discriminate].
      rewrite P0. try rewrite P0 in B. split; [|split].
      * intros ps Hps. injection Hps as <-. destruct (A ps0 eq_refl) as [[O1 O2 O3 O4 _] Q]. split; [|exact Q]. constructor; try assumption.
        unfold weight_limit, weight_check in *. destruct (rb_max_weight (rbin i t)); [apply Qle_bool_iff; exact W|exact Logic.I].
      * exact B.
      * rewrite Inf. discriminate.
    + rewrite P0. split; [discriminate|]. try rewrite P0 in B. split; [exact B|]. rewrite Inf. discriminate.
Qed.

Definition weighing (x y : Z) (profit weight : Q) : RItem := mkRI x y profit 1 0 0 true weight (-1) [].
Definition light10 : RBin := mkRB 10 10 1 1 0 (Some 3%Q) no_truck [] [] [].

(** The precedences of the knapsack master forget the weights as well: an item that is too
    heavy is cut off, then a light one of the same size and less profit is not allowed any
    more, and a bound of 0 is passed on, although a profit of 1 can be had. *)
Theorem C59_weights_refuted : exists i o ds, bd_domain i /\ monotone (weight_limit i) /\ master_right o /\ master_valid o /\ (forall k, sub_right i (weight_limit i) (or_sub o k)) /\
  (forall k, bar_right (or_bar o k)) /\ (forall k, lifts_at_most_one i (or_bar o k)) /\ same_orientation i /\
  bd_packing i (weight_limit i) ds /\ (bd_profit i ds == 1)%Q /\ In (ProfitBound 0) (bs_claims (outcome_state (benders i o 2))).
Proof.
  pose (i := mkRInst OKnapsack default_params [weighing 5 5 1 1; weighing 5 5 2 5] [light10]).
  pose (a := fun k : nat => match k with O => (NoClaim, [mkBD 0 1 [0; 1]%nat]) | _ => (ProfitBound 0, []) end).
  pose (o := mkOr (honest_master a) (fun _ => weight_sub i 1 [(0%nat, [(0%nat, 1)], [mkPl 0 0 0 false])]) (fun _ => no_bar) 8 (fun l => last l [])).
  exists i, o, [mkRD 0 1 [mkPl 0 0 0 false]].
  split; [apply domain_checks_ok; vm_compute; reflexivity|]. split; [apply weight_limit_monotone; vm_compute; reflexivity|]. split; [apply (honest_right a); reflexivity|]. split; [apply (honest_valid a); reflexivity|].
  split; [intro k; apply weight_sub_right|]. split; [intro k; apply no_bar_right|]. split; [intro k; apply no_bar_lift|].
  split; [left; intros it [<-|[<-|[]]]; reflexivity|]. split; [apply bd_check_ok; [vm_compute; reflexivity|intros d [<-|[]]; vm_compute; discriminate]|]. split; [vm_compute; reflexivity|].
  assert (E : bs_claims (outcome_state (benders i o 2)) = [NoClaim; ProfitBound 0]) by (vm_compute; reflexivity). rewrite E. right. left. reflexivity.
Qed.
Print Assumptions C59_weights_refuted.

(** The subsets reported are not minimal: with two light items and one too heavy, {heavy}
    is reported, and {light, heavy} as well: the search does not try again to remove the
    items before its position. *)
Theorem C59_minimal_refuted : exists i sub us, bd_domain i /\ sub_right i (weight_limit i) sub /\
  let cuts := map fst (minimal_subsets i sub 0 (aggregate i us) (so_infeasible (sub 0%nat (aggregate i us))) 8) in
  In [(2%nat, 1)] cuts /\ In [(0%nat, 1); (2%nat, 1)] cuts.
Proof.
  pose (i := mkRInst OKnapsack default_params [weighing 1 1 1 1; weighing 2 2 1 1; weighing 3 3 1 5] [light10]).
  exists i, (weight_sub i 2 [(0%nat, [(0%nat, 1)], [mkPl 0 0 0 false]); (0%nat, [(1%nat, 1)], [mkPl 1 0 0 false]);
    (0%nat, [(0%nat, 1); (1%nat, 1)], [mkPl 0 0 0 false; mkPl 1 1 0 false])]), [0; 1; 2]%nat.
  split; [apply domain_checks_ok; vm_compute; reflexivity|]. split; [apply weight_sub_right|].
  match goal with |- let cuts := ?c in _ => assert (E : c = [[(2%nat, 1)]; [(0%nat, 1); (2%nat, 1)]]) by (vm_compute; reflexivity) end.
  cbv zeta. rewrite E. split; [left; reflexivity|right; left; reflexivity].
Qed.
Print Assumptions C59_minimal_refuted.

(** Lifting by two item types is wrong: the coefficients are computed as if each copy
    consumed all of them, but the schedule of a lifted item only makes the first copy
    consume 1.  Three 5 x 9 never fit in a 10 x 10 bin; lifted by a 10 x 10 and a 1 x 1
    item, the cut forbids two 5 x 9 and the 1 x 1, which fit. *)
Theorem C59_lift_refuted : exists i bar sel ps, bd_domain i /\ bar_right bar /\ selection_ok i sel /\ never_together i no_extra 0 sel /\ bin_ok i no_extra 0 ps /\
  let cut := lift_no_good_cut i bar 0 (no_good_cut sel) in
  (ct_capacity cut < cut_consumption cut (fun x => rcount x ps))%Q /\
  check_cuts_throws i (fun _ => []) (fun _ => [cut]) [mkRD 0 1 ps] = true.
Proof.
  pose (i := mkRInst OKnapsack default_params [fixed 5 9 3 0; fixed 10 10 1 0; fixed 1 1 1 0] [bt10 1 0]).
  exists i, area_bar, [(0%nat, 3)], [mkPl 0 0 0 false; mkPl 0 5 0 false; mkPl 2 0 9 false].
  assert (Hd : bd_domain i) by (apply domain_checks_ok; vm_compute; reflexivity).
  split; [exact Hd|]. split; [apply area_bar_right|]. split.
  { constructor; [constructor; [intros []|constructor]|]. intros p [<-|[]]. cbn. lia. }
  split.
  { intros ps Ok Hall. specialize (Hall 0%nat ltac:(cbn; lia)). change (selected [(0%nat, 3)] 0%nat) with 3 in Hall.
    assert (P : packing_ok i [mkRD 0 1 ps]).
    { constructor.
      - intros d [<-|[]]. split; [cbn; lia|]. split; [cbn; lia|]. apply (bo_geometry _ _ _ _ Ok).
      - intros x Hx. unfold rpacked. rewrite zsum_cons, zsum_nil. cbn [rd_copies rd_items]. pose proof (bo_copies _ _ _ _ Ok x Hx). lia. }
    pose proof (area_fits i (do_relax i Hd) _ P (mkRD 0 1 ps) (or_introl eq_refl)) as A. cbn [rd_items rd_type] in A.
    assert (G : 45 * rcount 0 ps <= zsum (fun p => ri_area (ritem i (pl_type p))) ps).
    { clear. unfold rcount. induction ps as [|p ps IH]; [cbn; lia|]. rewrite zsum_cons. cbn [filter].
      assert (0 <= ri_area (ritem i (pl_type p))) by (destruct (pl_type p) as [|[|[|[|n]]]]; vm_compute; discriminate).
      destruct (Nat.eqb_spec (pl_type p) 0) as [E|E]; [rewrite E; cbn [length]; change (ri_area (ritem i 0)) with 45; lia|lia]. }
    change (rb_area (rbin i 0)) with 100 in A. lia. }
  split; [apply (bin_ok_check_ok i no_extra 0%nat); [vm_compute; reflexivity|exact Logic.I]|].
  split; vm_compute; reflexivity.
Qed.
Print Assumptions C59_lift_refuted.

(** With at most 0 no-good cuts per bin (a parameter), a bin that the subproblem does not
    solve is never cut off, and the run does not end. *)
Theorem C59_endless_refuted : exists i o, bd_domain i /\ master_right o /\ master_valid o /\ (forall k, sub_right i no_extra (or_sub o k)) /\
  (forall k, bar_right (or_bar o k)) /\ (forall k, lifts_at_most_one i (or_bar o k)) /\ same_orientation i /\
  forall n, exists s, benders i o n = Continue s.
Proof.
  pose (i := mkRInst OBinPacking default_params [fixed 5 5 1 1] [bt10 1 0]).
  pose (a := fun _ : nat => (NoClaim, [mkBD 0 1 [0]%nat])).
  pose (o := mkOr (honest_master a) (fun _ => honest_sub i []) (fun _ => no_bar) 0 (fun l => last l [])).
  exists i, o. split; [apply domain_checks_ok; vm_compute; reflexivity|]. split; [apply (honest_right a); reflexivity|]. split; [apply (honest_valid a); reflexivity|].
  split; [intro k; apply honest_sub_right|]. split; [intro k; apply no_bar_right|]. split; [intro k; apply no_bar_lift|]. split; [left; intros it [<-|[]]; reflexivity|].
  assert (Step : forall k s, bs_dff s 0%nat = [] -> bs_no_good s 0%nat = [] -> exists s', iteration i o k s = Continue s' /\ bs_dff s' 0%nat = [] /\ bs_no_good s' 0%nat = []).
  { intros k [dff no_good proven claims solutions] D N. cbn [bs_dff bs_no_good] in D, N.
    assert (EB : master_builder i dff no_good = master_builder i (fun _ => []) (fun _ => [])).
    { unfold master_builder, master_bin. cbn [rin_bins i length seq map]. rewrite D, N. reflexivity. }
    unfold iteration. cbn [bs_dff bs_no_good]. rewrite EB.
    destruct (b_build (master_builder i (fun _ => []) (fun _ => []))) as [i1| |] eqn:E1; try (vm_compute in E1; discriminate E1).
    assert (V : mo_solution (or_master o k i1 (precedences i)) = [mkBD 0 1 [0%nat]]).
    { assert (V : match b_build (master_builder i (fun _ => []) (fun _ => [])) with Built i1 => BendersHonest_Proof.valid_check i1 [mkBD 0 1 [0%nat]] | _ => false end = true) by (vm_compute; reflexivity).
      rewrite E1 in V. cbn [o or_master]. unfold honest_master. cbn [a mo_solution]. rewrite V. reflexivity. }
    rewrite V. clear E1 EB V.
    assert (F : find_most_violated_cut i 0 (aggregate i [0%nat]) <> None /\ match find_most_violated_cut i 0 (aggregate i [0%nat]) with Some c => cut_found c = false | None => False end) by (vm_compute; split; [discriminate|reflexivity]).
    destruct F as [_ F].
    cbv zeta. change (zsum bd_copies [mkBD 0 1 [0%nat]] =? 0) with false. cbn [andb].
    match goal with |- context [pass1 i _ (bs_dff ?s) false] => remember s as s1 eqn:Es1 end. assert (E2 : bs_dff s1 = dff /\ bs_no_good s1 = no_good /\ bs_solutions s1 = solutions) by (rewrite Es1; cbn [bs_proven]; destruct proven; repeat split).
    destruct E2 as (E2 & E3 & E4). cbn [pass1 bd_type bd_items].
    destruct (find_most_violated_cut i 0 (aggregate i [0%nat])) as [c|]; [|destruct F]. rewrite F. cbn [pass1].
    change (pass2 i o k [mkBD 0 1 [0%nat]] (bs_no_good s1) (bs_proven s1) [] true) with (Some (add_at (bs_no_good s1) 0 [], bs_proven s1 && true, @nil RDesc, false)).
    cbv iota beta. rewrite E2, E3, E4. change (0 <? zsum rd_copies (@nil RDesc)) with false. cbv iota.
    assert (T : check_cuts_throws i dff (add_at no_good 0 []) (or_best o solutions) = false).
    { unfold check_cuts_throws. cbn [rin_bins i length seq existsb]. unfold add_at. cbn [Nat.eqb]. rewrite D, N. reflexivity. }
    rewrite T, andb_false_r. eexists. split; [reflexivity|]. cbn [bs_dff bs_no_good]. split; [exact D|]. unfold add_at. cbn [Nat.eqb]. rewrite N. reflexivity. }
  assert (Run : forall n k s, bs_dff s 0%nat = [] -> bs_no_good s 0%nat = [] -> exists s', iterations i o n k s = Continue s').
  { induction n as [|n IH]; intros k s D N; [exists s; reflexivity|]. cbn [iterations]. destruct (Step k s D N) as (s' & E & D' & N'). rewrite E. apply IH; assumption. }
  intro n. apply (Run n 0%nat initial_state); reflexivity.
Qed.
Print Assumptions C59_endless_refuted.

(** The limits on the weight on the axles are not kept when an item is removed: an item
    before the harness relieves the rear axle. *)
Definition axle_limit (i : RInstance) (t : nat) (ps : list Place) : Prop :=
  forall middle rear, balanced (rb_truck (rbin i t)) (group_moment i 0 ps) (group_weight i 0 ps) middle rear ->
    within rear (tr_rear_maximum (rb_truck (rbin i t))).

(** The item 12 x 5 alone puts 1 on the rear axle, whose limit is 1/2; with the item
    8 x 5 beside it, nothing.  The solve of the bin with the first item only is infeasible,
    and the cut made of it forbids both. *)
Theorem C59_axles_refuted : exists i o ps, bd_domain i /\ master_right o /\ master_valid o /\ (forall k, sub_right i (axle_limit i) (or_sub o k)) /\
  (forall k, bar_right (or_bar o k)) /\ (forall k, lifts_at_most_one i (or_bar o k)) /\ same_orientation i /\ bin_ok i (axle_limit i) 0 ps /\
  let s := outcome_state (benders i o 1) in bs_proven s = true /\
  exists c, In c (bs_no_good s 0%nat) /\ (ct_capacity c < cut_consumption c (fun x => rcount x ps))%Q.
Proof.
  pose (truck := mkTruck true 0 1 0 0 0 1 0 5 (Some (1 # 2)) None).
  pose (i := mkRInst OKnapsack default_params [weighing 12 5 60 1; weighing 8 5 40 1] [mkRB 20 10 1 1 0 None truck [] [] []]).
  pose (a := fun _ : nat => (NoClaim, [mkBD 0 1 [0]%nat])).
  pose (sub := fun (t : nat) (sel : list (nat * Z)) => match sel with [] => mkSO None true false | [(O, 1)] => if Nat.eqb t 0 then mkSO None false true else mkSO None false false | _ => mkSO None false false end).
  pose (o := mkOr (honest_master a) (fun _ => sub) (fun _ => no_bar) 8 (fun l => last l [])).
  exists i, o, [mkPl 0 0 0 false; mkPl 1 0 5 false].
  split; [apply domain_checks_ok; vm_compute; reflexivity|]. split; [apply (honest_right a); reflexivity|]. split; [apply (honest_valid a); reflexivity|].
  split.
  { intros k t sel. cbn [o or_sub]. unfold sub. destruct sel as [|[[|x] [|[q|q|]|]] [|p l]]; try (repeat split; discriminate).
    destruct t as [|t]; cbn [Nat.eqb]; [|repeat split; discriminate].
    split; [discriminate|]. split; [discriminate|]. intros _ ps Ok Hall.
    pose proof (Hall 0%nat ltac:(cbn; lia)) as A0. pose proof (Hall 1%nat ltac:(cbn; lia)) as A1. change (selected [(0%nat, 1)] 0%nat) with 1 in A0. change (selected [(0%nat, 1)] 1%nat) with 0 in A1.
    assert (Ty : forall p, In p ps -> pl_type p = 0%nat).
    { intros p Hp. pose proof (pk_type _ _ _ (ge_places _ _ _ (bo_geometry _ _ _ _ Ok) p Hp)) as T. cbn in T. destruct (pl_type p) as [|[|n]] eqn:E; [reflexivity|exfalso|lia].
      unfold rcount in A1. assert (I : In p (filter (fun p => Nat.eqb (pl_type p) 1) ps)) by (apply filter_In; split; [exact Hp|rewrite E; reflexivity]).
      destruct (filter (fun p => Nat.eqb (pl_type p) 1) ps); [destruct I|cbn in A1; lia]. }
    assert (exists p, ps = [p]) as (p & ->).
    { unfold rcount in A0. assert (F : filter (fun p => Nat.eqb (pl_type p) 0) ps = ps) by (clear - Ty; induction ps as [|p l IH]; [reflexivity|]; cbn [filter]; rewrite (Ty p (or_introl eq_refl)); cbn [Nat.eqb]; f_equal; apply IH; intros; apply Ty; right; assumption). rewrite F in A0. destruct ps as [|p [|q l]]; [cbn in A0; lia|exists p; reflexivity|cbn in A0; lia]. }
    pose proof (bo_extra _ _ _ _ Ok) as X. specialize (Ty p (or_introl eq_refl)). destruct p as [ty x y rot]. cbn [pl_type] in Ty. subst ty.
    pose proof (ge_places _ _ _ (bo_geometry _ _ _ _ Ok) _ (or_introl eq_refl)) as [_ [Px _] _ Pr]. cbn [pl_x pl_rot] in Px, Pr.
    destruct rot; [specialize (Pr eq_refl); discriminate Pr|].
    specialize (X 0%Q (inject_Z x + 1)%Q). assert (B : balanced (rb_truck (rbin i 0)) (group_moment i 0 [mkPl 0 x y false]) (group_weight i 0 [mkPl 0 x y false]) 0 (inject_Z x + 1)).
    { exists (- inject_Z x)%Q. unfold group_moment, group_weight. cbn. split; [ring|]. split; [unfold pl_w; cbn; field|ring]. }
    specialize (X B). cbn in X. assert ((0 <= inject_Z x)%Q) by (change 0%Q with (inject_Z 0); rewrite <- Zle_Qle; exact Px). lra. }
  split; [intro k; apply no_bar_right|]. split; [intro k; apply no_bar_lift|]. split; [left; intros it [<-|[<-|[]]]; reflexivity|].
  split.
  { apply (bin_ok_check_ok i (axle_limit i) 0%nat); [vm_compute; reflexivity|]. intros middle rear (h & B1 & B2 & B3). unfold group_moment, group_weight, pl_w in *. cbn in *. unfold inject_Z, Qdiv in *; cbn in *; lra. }
  cbv zeta. split; [vm_compute; reflexivity|]. exists (no_good_cut [(0%nat, 1)]). split; [vm_compute; left; reflexivity|vm_compute; reflexivity].
Qed.
Print Assumptions C59_axles_refuted.
