(** * C39: box dual feasible functions *)

From Coq Require Import List ZArith QArith Bool Lia Arith.
From Verif Require Import Util Common_Model Common_Spec OneDim_Model Dff_Model Dff_Spec Dff_Proof OneDimDff_Model OneDimDff_Proof.
From Verif Require Geom.
From Verif Require Import Box_Model Box_Spec BoxDff_Model BoxDff_Proof.
Import ListNotations.
Open Scope Z_scope.

(** Instances the bound is proved on: one bin type, positive items, a bin of
    size at least 2 along each axis (see [C39_unit_axis_refuted]). *)
Record xdff_domain (i : BInstance) : Prop := {
  xdd_one : length (bx_bins i) = 1%nat;
  xdd_items : bpositive_items i;
  xdd_bin : forall a, 2 <= vat (bn_box (bxbin i 0)) a
}.

(** Bin packing: the bound is at most the number of bins of every packing of all
    the items. *)
Theorem C39_bin_packing_bound : forall i, xdff_domain i -> bx_objective i = OBinPacking ->
  exists b, xdual_feasible_functions i = Some (BinPackingBound b) /\
  forall ds, bpacking_ok i ds -> ball_packed i ds -> b <= bbins_used ds.
Proof.
  intros i [H1 H2 H3] Ho. destruct (xcombos_some (bx_items i) (bxbin i 0) H2 H3) as (combos & E & HF).
  unfold xdual_feasible_functions. rewrite H1, Ho, E. eexists. split; [reflexivity|]. intros ds Hds Hall.
  apply (xbound_valid i H2 H1 H3 combos ds HF Hds Hall).
Qed.
Print Assumptions C39_bin_packing_bound.

Lemma xone_bins : forall i ds, length (bx_bins i) = 1%nat -> bpacking_ok i ds -> bused_bins 0 ds = bbins_used ds.
Proof.
  intros i ds H1 Hds. unfold bused_bins, bbins_used. apply zsum_ext. intros d Hd.
  destruct (bpa_bins i ds Hds d Hd) as (A & _ & _). rewrite H1 in A. replace (xd_type d) with 0%nat by lia. reflexivity.
Qed.

(** Feasibility: an instance declared infeasible has no packing of all its items
    in the available bins. *)
Theorem C39_infeasibility : forall i, xdff_domain i -> bx_objective i = OFeasibility ->
  exists v, xdual_feasible_functions i = Some (ProvenInfeasible v) /\
  (v = true -> forall ds, bpacking_ok i ds -> ball_packed i ds -> bused_bins 0 ds <= bn_copies (bxbin i 0) -> False).
Proof.
  intros i [H1 H2 H3] Ho. destruct (xcombos_some (bx_items i) (bxbin i 0) H2 H3) as (combos & E & HF).
  unfold xdual_feasible_functions. rewrite H1, Ho, E. eexists. split; [reflexivity|].
  intros Hv ds Hds Hall Hu. apply Z.ltb_lt in Hv.
  pose proof (xbound_valid i H2 H1 H3 combos ds HF Hds Hall) as HB. unfold xbound_of in HB.
  rewrite (xone_bins i ds H1 Hds) in Hu.
  assert (EN : xnumber_of_bins i = bn_copies (bxbin i 0)).
  { unfold xnumber_of_bins, bxbin in *. destruct (bx_bins i) as [|bt [|bt' l]]; simpl in H1; try discriminate.
    rewrite zsum_cons, zsum_nil. simpl in *. lia. }
  lia.
Qed.
Print Assumptions C39_infeasibility.

(** Knapsack: the bound is at least the profit, net of penalties, of every
    packing in the available bins. *)
Theorem C39_knapsack_bound : forall i, xdff_domain i -> bx_objective i = OKnapsack ->
  (forall it, In it (bx_items i) -> (0 <= bi_profit it)%Q) ->
  exists b, xdual_feasible_functions i = Some (KnapsackBound b) /\
  forall q ds, b = Some q -> bpacking_ok i ds -> bused_bins 0 ds <= bn_copies (bxbin i 0) ->
    (bnet_profit i ds <= q)%Q.
Proof.
  intros i [H1 H2 H3] Ho Hp. destruct (xcombos_some (bx_items i) (bxbin i 0) H2 H3) as (combos & E & HF).
  unfold xdual_feasible_functions. rewrite H1, Ho, E. cbn [bind]. eexists. split; [reflexivity|].
  intros q ds Eq Hds Hu. destruct (fold_left min_bound (flat_map (xknapsack_combo i) combos) None) as [q0|] eqn:EM; [|discriminate].
  injection Eq as <-. rewrite (xone_bins i ds H1 Hds) in Hu.
  apply (xknapsack_valid i H2 H1 H3 Hp ds Hds Hu combos q0 HF EM).
Qed.
Print Assumptions C39_knapsack_bound.

(** A product of any three dual feasible functions, on the boxes of a bin. *)
Theorem C39_product : forall i bt (f : Axis -> Z -> Z) (fB : Axis -> Z) ps,
  (forall a, dual_feasible (vat (bn_box bt) a) (fB a) (f a)) ->
  (forall a x, 0 <= f a x) -> (forall a, 0 <= vat (bn_box bt) a) ->
  bpositive_items i -> bgeometry_ok i bt ps ->
  zsum (fun p => f AX (bp_size i p AX) * f AY (bp_size i p AY) * f AZ (bp_size i p AZ)) ps <= fB AX * fB AY * fB AZ.
Proof.
  intros i bt f fB ps Hf Nf HB Hits G. pose proof (xdim i bt Hits ps G) as HD.
  set (ax := fun a => Geom.mkRA BPlace (fun p => vat (bp_pos p) a) (fun p => bp_size i p a) (vat (bn_box bt) a)
    (fun p => f a (bp_size i p a)) (fB a)).
  assert (ND : NoDup ps).
  { destruct G as [_ Hd]. induction Hd as [|p l Hp Hd IH]; constructor.
    - intro Hin. rewrite Forall_forall in Hp. destruct (Hp p Hin) as (a & Ha). destruct (HD p a (or_introl eq_refl)) as (_ & S0 & _ & _).
      unfold bp_end in Ha. lia.
    - apply IH. intros q a Hq. apply HD. right. assumption. }
  pose proof (Geom.rescaled_bound BPlace (map ax axes) ps ND) as HR. rewrite map_map in HR.
  unfold axes in HR. cbn [map Geom.prod fold_right] in HR. unfold Geom.prod in HR. cbn [fold_right] in HR.
  unfold ax in HR. cbn [Geom.ra_new Geom.ra_new_cap] in HR.
  etransitivity; [|etransitivity; [apply HR|lia]].
  - apply Z.eq_le_incl. apply zsum_ext. intros p _. ring.
  - intros g p Hg Hp. assert (exists a, g = ax a) as (a & ->) by (destruct Hg as [<-|[<-|[<-|[]]]]; [exists AX|exists AY|exists AZ]; reflexivity).
    destruct (HD p a Hp) as (D1 & D2 & D3 & D4). unfold bp_end in D3. cbn. repeat split; try lia. apply Nf.
  - intros g Hg. assert (exists a, g = ax a) as (a & ->) by (destruct Hg as [<-|[<-|[<-|[]]]]; [exists AX|exists AY|exists AZ]; reflexivity). apply HB.
  - intros g ch Hg _ Hi Hc. assert (exists a, g = ax a) as (a & ->) by (destruct Hg as [<-|[<-|[<-|[]]]]; [exists AX|exists AY|exists AZ]; reflexivity).
    cbn in *. rewrite <- (zsum_map _ _ (fun p => bp_size i p a) (f a)). apply Hf.
    + apply Forall_forall. intros x Hx. apply in_map_iff in Hx. destruct Hx as (p & <- & Hp). destruct (HD p a (Hi p Hp)). lia.
    + unfold total. rewrite zsum_map. assumption.
  - eapply Geom.ord_pairs_impl; [|exact (bg_disjoint _ _ _ G)]. intros p q (a & Hpq).
    exists (ax a). split; [destruct a; simpl; auto|]. exact Hpq.
Qed.
Print Assumptions C39_product.

(** Three 6 x 6 x 6 cubes and a rotatable 4 x 7 x 10 in 10 x 10 x 10 bins: the
    volume gives 1 bin, the bound is 3, and 3 bins are enough. *)
Definition ex_xdff (o : Objective) : BInstance :=
  mkBInst o
    [mkBI (mkV 6 6 6) 216 3 3 [XYZ] 0 [[]];
     mkBI (mkV 4 7 10) 280 1 1 [XYZ; YXZ; ZYX; YZX; XZY; ZXY] 0 [[]]]
    [mkBB (mkV 10 10 10) 1000 4 0 None []].
Definition ex_xpacking : list XDesc :=
  [mkXD 0 2 [mkBP 0 (mkV 0 0 0) XYZ]; mkXD 0 1 [mkBP 0 (mkV 4 0 0) XYZ; mkBP 1 (mkV 0 6 0) ZXY]].

Lemma ex_xdff_domain : forall o, xdff_domain (ex_xdff o).
Proof.
  intro o. constructor; [reflexivity| |].
  - intros it [<-|[<-|[]]]; (split; [intros []|]); simpl; lia.
  - intros []; simpl; lia.
Qed.

Lemma ex_xpacking_ok : forall o, bpacking_ok (ex_xdff o) ex_xpacking /\ ball_packed (ex_xdff o) ex_xpacking.
Proof.
  intro o. split.
  - constructor.
    + intros d [<-|[<-|[]]]; cbn [xd_type xd_copies xd_items]; (split; [simpl; lia|]); (split; [lia|]); constructor.
      * intros p [<-|[]]; constructor; [simpl; lia| |simpl; auto]. intros []; vm_compute; split; discriminate.
      * repeat constructor.
      * intros p [<-|[<-|[]]]; constructor; try (simpl; lia); try (simpl; tauto); intros []; vm_compute; split; discriminate.
      * constructor; [constructor; [|constructor]|repeat constructor]. exists AY. left. vm_compute. discriminate.
    + intros [|[|x]] Hx; vm_compute; try discriminate. simpl in Hx. lia.
  - intros [|[|x]] Hx; try reflexivity. simpl in Hx. lia.
Qed.

Example C39_example : xdual_feasible_functions (ex_xdff OBinPacking) = Some (BinPackingBound 3)
  /\ bbins_used ex_xpacking = 3.
Proof. split; vm_compute; reflexivity. Qed.

Example C39_example_knapsack :
  match xdual_feasible_functions (ex_xdff OKnapsack) with
  | Some (KnapsackBound (Some q)) => (q == 928)%Q | _ => False end
  /\ (bnet_profit (ex_xdff OKnapsack) ex_xpacking == 928)%Q.
Proof. split; vm_compute; reflexivity. Qed.

(** Finding: half the size of the bin is a threshold even when it is 0, and
    thresholds are divisors.  As soon as the bin has size 1 along an axis the
    algorithm divides by zero, whatever the items. *)
Lemma mapo_none : forall A B (f : A -> option B) l x, In x l -> f x = None -> mapo f l = None.
Proof.
  intros A B f l x. induction l as [|y l IH]; intros Hx E; [destruct Hx|]. simpl. destruct Hx as [->|Hx].
  - rewrite E. reflexivity.
  - rewrite IH by assumption. destruct (f y); reflexivity.
Qed.

Lemma mapo_in : forall A B (f : A -> option B) l r x, mapo f l = Some r -> In x l -> exists y, f x = Some y /\ In y r.
Proof.
  intros A B f. induction l as [|y l IH]; intros r x E Hx; [destruct Hx|]. simpl in E.
  destruct (f y) as [v|] eqn:Ev; [|discriminate]. destruct (mapo f l) as [vs|] eqn:Evs; [|discriminate].
  injection E as <-. destruct Hx as [<-|Hx].
  - exists v. split; [assumption|left; reflexivity].
  - destruct (IH vs x eq_refl Hx) as (w & Ew & Hw). exists w. split; [assumption|right; assumption].
Qed.

Lemma xthreshold_half : forall its a c, In (Z.quot c 2) (xthresholds its a c).
Proof. intros. unfold xthresholds. apply sort_unique_in. apply in_or_app. right. left. reflexivity. Qed.

Lemma xtables_row : forall its a c t, xtables its a c = Some t -> exists r, In r t /\ xr_k r = Z.quot c 2.
Proof.
  intros its a c t E. destruct (mapo_in _ _ _ _ _ _ E (xthreshold_half its a c)) as (r & Er & Hr). exists r. split; [assumption|].
  unfold xrow in Er. destruct (greedy_maximum_cardinality c _); [|discriminate]. cbn [bind] in Er.
  destruct (mapo _ _); [|discriminate]. cbn [bind] in Er. injection Er as <-. reflexivity.
Qed.

Theorem C39_unit_axis_refuted : forall i a, vat (bn_box (bxbin i 0)) a = 1 -> xdual_feasible_functions i = None.
Proof.
  intros i a Ha. unfold xdual_feasible_functions. destruct (negb _); [reflexivity|].
  assert (E : xcombos (bx_items i) (bxbin i 0) = None).
  { unfold xcombos. set (bt := bxbin i 0) in *. set (its := bx_items i).
    destruct (xtables its AX (v_x (bn_box bt))) as [tx|] eqn:Ex; [|reflexivity]. cbn [bind].
    destruct (xtables its AY (v_y (bn_box bt))) as [ty|] eqn:Ey; [|reflexivity]. cbn [bind].
    destruct (xtables its AZ (v_z (bn_box bt))) as [tz|] eqn:Ez; [|reflexivity]. cbn [bind].
    destruct (xtables_row _ _ _ _ Ex) as (rx & Rx & Kx), (xtables_row _ _ _ _ Ey) as (ry & Ry & Ky), (xtables_row _ _ _ _ Ez) as (rz & Rz & Kz).
    apply (mapo_none _ _ _ _ ((rx, (ry, rz)), (2, (2, 2))%nat)).
    - apply in_prod; [apply in_prod; [|apply in_prod]; assumption|]. vm_compute. tauto.
    - unfold xcombo. assert (EP : prod3 (fun a => xbin_value (tri 2 2 2 a)%nat (vat (bn_box bt) a) (tri rx ry rz a)) = None).
      { assert (EA : xbin_value 2 (vat (bn_box bt) a) (tri rx ry rz a) = None).
        { assert (EK : xr_k (tri rx ry rz a) = 0) by (destruct a; cbn [tri vat] in *; rewrite ?Kx, ?Ky, ?Kz, Ha; reflexivity).
          unfold xbin_value. rewrite EK, Ha. reflexivity. }
        unfold prod3. destruct a; cbn [tri] in EA |- *.
        - rewrite EA. reflexivity.
        - destruct (xbin_value 2 (vat (bn_box bt) AX) rx); [cbn [bind]; rewrite EA|]; reflexivity.
        - destruct (xbin_value 2 (vat (bn_box bt) AX) rx); [cbn [bind]|reflexivity].
          destruct (xbin_value 2 (vat (bn_box bt) AY) ry); [cbn [bind]; rewrite EA|]; reflexivity. }
      rewrite EP. reflexivity. }
  rewrite E. destruct (bx_objective i); reflexivity.
Qed.
Print Assumptions C39_unit_axis_refuted.

(** Finding: with fewer mandatory copies than copies, the bound counts all the
    copies. *)
Theorem C39_optional_copies_refuted : exists i ds b,
  xdff_domain i /\ bx_objective i = OBinPacking /\ xdual_feasible_functions i = Some (BinPackingBound b) /\
  bpacking_ok i ds /\ (forall x, (x < length (bx_items i))%nat -> bi_copies_min (bxitem i x) <= bpacked x ds) /\
  bbins_used ds < b.
Proof.
  exists (mkBInst OBinPacking [mkBI (mkV 6 6 6) 216 3 1 [XYZ] 0 [[]]] [mkBB (mkV 10 10 10) 1000 4 0 None []]),
    [mkXD 0 1 [mkBP 0 (mkV 0 0 0) XYZ]], 3.
  split; [|split; [reflexivity|split; [vm_compute; reflexivity|split; [|split; [|reflexivity]]]]].
  - constructor; [reflexivity| |]; [intros it [<-|[]]; (split; [intros []|]); simpl; lia|intros []; simpl; lia].
  - constructor.
    + intros d [<-|[]]; cbn [xd_type xd_copies xd_items]; (split; [simpl; lia|]); (split; [lia|]); constructor.
      * intros p [<-|[]]; constructor; [simpl; lia| |simpl; auto]. intros []; vm_compute; split; discriminate.
      * repeat constructor.
    + intros [|x] Hx; vm_compute; try discriminate. simpl in Hx. lia.
  - intros [|x] Hx; [vm_compute; discriminate|]. simpl in Hx. lia.
Qed.
Print Assumptions C39_optional_copies_refuted.
