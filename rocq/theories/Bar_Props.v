(** * C56: the bar relaxation bound of the rectangle solver *)

From Coq Require Import List ZArith QArith Bool Lia Lqa.
From Verif Require Import Util Common_Model Common_Spec Common_Proof OneDim_Model Rect_Model Rect_Spec Geom Scale_Model Scale_Spec Scale_Props Bar_Model Bar_Spec Bar_Proof BarDual_Proof BarPack_Proof.
Import ListNotations.
Open Scope Z_scope.

(** Every packing is a point of the linear program, whose value is the profit of its
    items (knapsack) or the cost of its bins (bin packing, variable-sized bin packing). *)
Theorem C56_relaxation : forall i ds, positive_items i -> positive_bins i -> bar_packing i ds ->
  exists cs, bar_point i cs /\ (lp_value cs == match rin_objective i with
    | OKnapsack => rprofit i ds
    | OBinPacking | OVariableSizedBinPacking => packing_cost i ds
    | _ => 0 end)%Q.
Proof.
  intros i ds Hi Hb BP. exists (cs1 i ds ++ cs2 i ds). split; [apply packing_point; assumption|]. rewrite (packing_value i ds BP). unfold knapsack, costs_bins. destruct (rin_objective i); ring.
Qed.
Print Assumptions C56_relaxation.

(** Every column given to the column generation solver is a bar: copies that fit side by
    side in a row or a column of the bin, whatever the duals are. *)
Theorem C56_columns : forall i solver duals c, positive_items i -> positive_bins i -> bar_solver_sound solver ->
  In c (fst (bar_pricing i solver duals)) -> bar_pattern i c.
Proof.
  intros i solver duals c Hi Hb Hs Hc. apply in_flat_map in Hc. destruct Hc as (t & Ht & Hc). apply filter_In in Ht. destruct Ht as [Ht _]. apply in_seq in Ht. assert (Ht' : (t < length (rin_bins i))%nat) by (unfold nbins in Ht; lia).
  assert (C0 : forall v, In v (eligible_variants i t) -> 0 <= ri_copies (ritem i (va_type (variant i v)))).
  { intros v Hv. destruct (eligible_in i t v Hv) as (Hl & _). destruct (variant_in i v Hl) as (x & Hx & E & _). rewrite E. pose proof (Hi (ritem i x) (nth_In _ _ Hx)). lia. }
  destruct Hc as [<-|[<-|[]]]; apply priced_pattern; assumption.
Qed.
Print Assumptions C56_columns.

(** For any duals, a dual value of the static part plus the overcost given by the
    pricing is a bound of every point of the program, with all the bars there are, and
    not only with those generated. *)
Theorem C56_dual_bound : forall i solver duals d, positive_items i -> positive_bins i -> bar_solver_exact solver ->
  dual_value i duals d -> bar_bound i (d + snd (bar_pricing i solver duals)).
Proof.
  intros i solver duals d Hi Hb Hs Hd cs Hcs. apply (sg_iff i (lp_value cs) (d + snd (bar_pricing i solver duals))). exact (dual_bound i solver duals Hi Hb d cs Hs Hd Hcs).
Qed.
Print Assumptions C56_dual_bound.

(** If the bound given by the column generation solver is right, then what is claimed
    is right for every packing: infeasibility, the bound on the profit net of penalties,
    on the cost and on the number of bins. *)
Theorem C56_claims : forall i bound, positive_items i -> positive_bins i -> (forall bt, In bt (rin_bins i) -> (0 < rb_cost bt)%Q) ->
  bar_accepts i = true -> cg_right i bound -> claim_right i (bar_claim i bound).
Proof. exact claims_right. Qed.
Print Assumptions C56_claims.

(** Together: whatever duals the column generation stops at. *)
Theorem C56_any_duals : forall i solver duals d, positive_items i -> positive_bins i -> (forall bt, In bt (rin_bins i) -> (0 < rb_cost bt)%Q) ->
  bar_accepts i = true -> bar_solver_exact solver -> dual_value i duals d ->
  claim_right i (bar_claim i (CgFinite (d + snd (bar_pricing i solver duals)))).
Proof.
  intros i solver duals d Hi Hb Hc Ha Hs Hd. apply C56_claims; [assumption|assumption|assumption|assumption|]. exact (C56_dual_bound i solver duals d Hi Hb Hs Hd).
Qed.
Print Assumptions C56_any_duals.

(** ** Examples *)

Definition exact_bar_solver : bool -> nat -> Z -> list KItem -> nat -> Z := fun _ _ cap ks => exact_kp cap ks.
Lemma exact_bar_solver_ok : bar_solver_exact exact_bar_solver.
Proof. intros rows t cap ks H1 H2 H3. apply exact_kp_ok; assumption. Qed.

(** Three 6 x 6 squares in 10 x 10 bins: each square needs 6 of the 10 rows of a bin, so
    the relaxation gives 180 of cost and 2 bins; 3 are needed. *)
Definition bar_inst : RInstance := three_inst OBinPacking 4.
Definition bar_duals (l : Q) : BRow -> Q := fun r => match r with
  | RowCap _ => -10 | Link1 _ _ => l | ItemRow _ => 6 * l | _ => 0 end%Q.
Definition bar_three : list RDesc := [mkRD 0 3 [mkPl 0 0 0 false]].

Lemma bar_dual_value : forall l : Q, dual_value bar_inst (bar_duals l) (18 * l).
Proof.
  intro l. exists (fun r => match r with ItemRow _ => 18 * l | _ => 0 end)%Q, (fun _ => 0%Q). split; [|split].
  - intros r lo up Hr. change (bar_rows bar_inst) with [(RowCap 0, None, Some 0%Q); (ColCap 0, None, Some 0%Q); (Link1 0 0, Some 0%Q, Some 0%Q); (Link2 0 0, Some 0%Q, Some 0%Q); (ItemRow 0, Some (3 # 1), Some (3 # 1))] in Hr.
    cbn [In] in Hr. destruct Hr as [E|[E|[E|[E|[E|[]]]]]]; inversion E; subst; unfold extreme_ok; cbn [above below bar_duals]; change (knapsack bar_inst) with false; cbn iota; intros x H1 H2; try lra.
    + assert (x == 0)%Q as -> by lra. lra.
    + assert (x == 3)%Q as -> by lra. lra.
  - intros c Hc. destruct (static_in bar_inst c Hc) as (t & Ht & Hc'). assert (t = 0)%nat by (change (length (rin_bins bar_inst)) with 1%nat in Ht; lia). subst t.
    assert (Hr : (reduced_cost (bar_duals l) c == 0)%Q).
    { destruct Hc' as [->|(v & Hv & ->)].
      - unfold reduced_cost, k_column, bar_duals. cbn. ring.
      - change (eligible_variants bar_inst 0) with [0%nat] in Hv. destruct Hv as [<-|[]]. unfold reduced_cost, n_column, bar_duals. cbn. ring. }
    intros x _ _. change (knapsack bar_inst) with false. cbn iota. rewrite Hr. lra.
  - change (bar_rows bar_inst) with [(RowCap 0, @None Q, Some 0%Q); (ColCap 0, None, Some 0%Q); (Link1 0 0, Some 0%Q, Some 0%Q); (Link2 0 0, Some 0%Q, Some 0%Q); (ItemRow 0, Some (3 # 1), Some (3 # 1))].
    change (static_columns bar_inst) with [k_column bar_inst 0; n_column bar_inst 0 0]. rewrite !qsum_cons, !qsum_nil. cbn [fst]. ring.
Qed.

Lemma bar_three_ok : bar_packing bar_inst bar_three.
Proof.
  constructor.
  - constructor.
    + intros d [<-|[]]. split; [cbn; lia|]. split; [cbn; lia|]. constructor.
      * intros p [<-|[]]. constructor; cbn; try lia; try discriminate; unfold pl_xe, pl_ye, pl_w, pl_h; cbn; lia.
      * repeat constructor.
      * intros p d _ [].
    + intros [|x] Hx; [cbn; lia|cbn in Hx; lia].
  - intros d p [<-|[]] [<-|[]]. left. reflexivity.
  - intros [|t] Ht; [cbn; lia|cbn in Ht; lia].
  - intros [|x] Hx; [cbn; lia|cbn in Hx; lia].
Qed.
Lemma bar_inst_ok : positive_items bar_inst /\ positive_bins bar_inst /\ (forall bt, In bt (rin_bins bar_inst) -> (0 < rb_cost bt)%Q) /\ bar_accepts bar_inst = true.
Proof. split; [intros it [<-|[]]; cbn; lia|]. split; [intros bt [<-|[]]; cbn; lia|]. split; [intros bt [<-|[]]; cbn; lra|reflexivity]. Qed.

Example C56_run : dual_value bar_inst (bar_duals 10) 180 /\ snd (bar_pricing bar_inst exact_bar_solver (bar_duals 10)) = 0%Q
  /\ length (fst (bar_pricing bar_inst exact_bar_solver (bar_duals 10))) = 2%nat
  /\ bar_claim bar_inst (CgFinite (180 + snd (bar_pricing bar_inst exact_bar_solver (bar_duals 10)))) = BarBins 2
  /\ bar_packing bar_inst bar_three /\ rbins_used bar_three = 3.
Proof.
  split; [apply (bar_dual_value 10)|]. split; [vm_compute; reflexivity|]. split; [vm_compute; reflexivity|]. split; [vm_compute; reflexivity|]. split; [exact bar_three_ok|reflexivity].
Qed.
(** With duals far from the optimum, the overcost makes up for them. *)
Example C56_overcost : dual_value bar_inst (bar_duals 100) 1800 /\ snd (bar_pricing bar_inst exact_bar_solver (bar_duals 100)) = (-3600 # 1)%Q.
Proof. split; [apply (bar_dual_value 100)|vm_compute; reflexivity]. Qed.

(** The bound depends on the knapsack solver being exact: with one that only returns
    selections that fit (here, none), the overcost is too small and 18 bins are claimed to
    be needed where 3 are enough. *)
Theorem C56_inexact_knapsack_refuted : exists i solver duals d ds, positive_items i /\ positive_bins i /\ bar_accepts i = true
  /\ bar_solver_sound solver /\ dual_value i duals d /\ bar_claim i (CgFinite (d + snd (bar_pricing i solver duals))) = BarBins 18
  /\ bar_packing i ds /\ rbins_used ds = 3.
Proof.
  exists bar_inst, (fun _ _ _ _ _ => 0), (bar_duals 100), 1800%Q, bar_three. destruct bar_inst_ok as (P1 & P2 & _ & P4). split; [exact P1|]. split; [exact P2|]. split; [exact P4|].
  split; [|split; [apply (bar_dual_value 100)|split; [vm_compute; reflexivity|split; [exact bar_three_ok|reflexivity]]]].
  intros rows t cap ks H1 H2 H3. split; [intros k Hk; specialize (H3 k Hk); lia|].
  assert (E : zsum (fun k : KItem => ki_len k * 0) ks = 0) by (clear; induction ks as [|k ks IH]; [reflexivity|rewrite zsum_cons; lia]). rewrite E. exact H1.
Qed.
Print Assumptions C56_inexact_knapsack_refuted.
