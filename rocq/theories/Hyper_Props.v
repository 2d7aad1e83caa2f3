(** * C63, C64: the guillotine knapsack algorithms *)

From Coq Require Import List ZArith QArith Bool Lia Lqa.
From Verif Require Import Util Common_Model Common_Proof Guil_Model Guil_Spec Guil_Proof GuilPlan_Proof Hyper_Model Hyper_Spec
  HyperDp_Proof HyperPat_Proof HyperBuild_Proof HyperRec_Proof HyperInf_Proof HyperSearch_Proof HyperOpt_Proof HyperTerm_Proof.
Import ListNotations.
Open Scope Z_scope.

(** ** C63: limited copies *)

(** The search ends, whatever the timer does. *)
Theorem C63_ends : forall i timer, hyper_instance i -> hyper_supported i ->
  exists fuel st, forall fuel2, (fuel <= fuel2)%nat -> hyper i timer fuel2 = Some st.
Proof. intros i timer HI HU. unfold hyper. apply run_ends; assumption. Qed.
Print Assumptions C63_ends.

(** Whenever it ends, every solution it gave is accepted by the builder, is one
    copy of the first plate, respects the copies and has the profit the search
    recorded for it; the last one has the best profit. *)
Theorem C63_solutions : forall i timer fuel st, hyper_instance i -> hyper_supported i -> hyper i timer fuel = Some st ->
  (forall p sol, In (p, sol) (hs_out st) -> exists calls xs, sol = Some calls /\ solution_with i calls xs
     /\ within_copies i xs /\ (items_profit i xs == p)%Q)
  /\ match hs_out st with [] => hs_best st = 0%Q | (p, _) :: _ => p = hs_best st end.
Proof.
  intros i timer fuel st HI HU E. unfold hyper in E. pose proof (run_inv i HI HU _ _ _ _ _ _ E) as [_ _ _ I4 I5]. split.
  - intros p sol Hin. pose proof (proj1 (Forall_forall _ _) I4 _ Hin) as (calls & xs & A & B & C & D).
    cbn [fst snd] in A, D. exists calls, xs. auto.
  - destruct (hs_out st) as [|[p sol] l]; exact I5.
Qed.
Print Assumptions C63_solutions.

(** Without cut thickness, and if the timer does not end it, no way to cut items
    out of the plate within their copies is worth more than the best profit. *)
Theorem C63_optimal : forall i fuel st, hyper_instance i -> hyper_supported i -> gp_ct (gin_params i) = 0 ->
  hyper i (fun _ => false) fuel = Some st ->
  forall xs, cut_from_plate i 0 (plate_w i) (plate_h i) xs -> within_copies i xs -> (items_profit i xs <= hs_best st)%Q.
Proof.
  intros i fuel st HI HU Hct E xs HX HW. unfold hyper in E. rewrite Hct in E.
  exact (run_optimal i HI HU Hct _ (Nat.lt_0_succ _) fuel st E xs HX HW).
Qed.
Print Assumptions C63_optimal.

(** A plate of 6 x 4, cuts without thickness: the best items do not fit together. *)
Definition hx_params (first : GOrient) (ct : Z) : GParams := mkGP 9 GExact first 0 (-1) 0 (-1) 0 (-1) (-1) false ct [] 0.
Definition hx_plate (w h : Z) (top : GTrim) : GBinType := mkGBT 24 1 0 w h [] (mkGT 0 true) top (mkGT 0 true) (mkGT 0 true) [].
Definition hx_item (profit : Q) (copies w h : Z) (oriented : bool) : GItem := mkGI profit copies 0 w h 0 0 oriented [].
Definition hx_inst (first : GOrient) (ct w h : Z) (top : GTrim) (items : list GItem) : GInstance :=
  mkGIn OKnapsack (hx_params first ct) [hx_plate w h top] items [] [].

Definition hx_six : GInstance := hx_inst GVertical 0 6 4 (mkGT 0 true) [hx_item 7 2 3 3 true; hx_item 3 3 1 2 false; hx_item 8 1 5 4 true].

Lemma hx_six_ok : hyper_instance hx_six /\ hyper_supported hx_six.
Proof.
  split; constructor; cbn; try discriminate; try lia; auto.
  intros it [<-|[<-|[<-|[]]]]; cbn; lia.
Qed.

Example C63_ex : exists st, hyper hx_six (fun _ => false) 3000 = Some st /\ hs_best st == 23 /\ length (hs_out st) = 9%nat
  /\ (exists calls, nth 0 (hs_out st) (0%Q, None) = (hs_best st, Some calls) /\ gaccepted hx_six [] calls = true).
Proof.
  assert (X : match hyper hx_six (fun _ => false) 3000 with
              | Some st => Qeq_bool (hs_best st) 23 && Nat.eqb (length (hs_out st)) 9
                  && match nth 0 (hs_out st) (0%Q, None) with (_, Some calls) => gaccepted hx_six [] calls | _ => false end
              | None => false end = true) by (vm_compute; reflexivity).
  destruct (hyper hx_six (fun _ => false) 3000) as [st|] eqn:E; [|discriminate].
  apply andb_true_iff in X. destruct X as [X X3]. apply andb_true_iff in X. destruct X as [X1 X2].
  apply Qeq_bool_iff in X1. apply Nat.eqb_eq in X2.
  exists st. split; [reflexivity|]. split; [exact X1|]. split; [exact X2|].
  destruct hx_six_ok as [HI HU]. destruct (C63_solutions _ _ _ _ HI HU E) as [_ L].
  destruct (hs_out st) as [|[p sol] l]; [discriminate|]. cbn [nth] in *. destruct sol as [calls|]; [|discriminate].
  exists calls. rewrite L. auto.
Qed.

Definition hx_thick : GInstance := hx_inst GVertical 1 10 10 (mkGT 0 true) [hx_item 5 1 9 10 true].

Lemma hx_thick_ok : hyper_instance hx_thick /\ hyper_supported hx_thick.
Proof.
  split; constructor; cbn; try discriminate; try lia; auto.
  intros it [<-|[]]; cbn; lia.
Qed.

Lemma hx_thick_cut : cut_from_plate hx_thick 1 (plate_w hx_thick) (plate_h hx_thick) [0%nat].
Proof.
  exists [mkGR 0 9 0 10]. split.
  - change [mkGR 0 9 0 10] with ([mkGR 0 9 0 10] ++ @nil GRect). apply cut_vertical with (x := 9); cbn; try lia.
    + apply cut_keep.
    + apply cut_waste.
  - constructor; [|constructor]. split; [cbn; lia|]. left. cbn. auto.
Qed.

(** Refuted: with a cut thickness the best packing can be missed. A cut is only
    considered if both of its parts have a positive size after the thickness, so a
    cut whose strip ends at the edge of the plate is never tried. An item of 9 x 10
    is cut from a plate of 10 x 10 by one cut of thickness 1, and the solution
    builder accepts that, but the algorithm finds nothing, however long it runs. *)
Theorem C63_thick_refuted : exists i xs calls, hyper_instance i /\ hyper_supported i
  /\ cut_from_plate i (gp_ct (gin_params i)) (plate_w i) (plate_h i) xs /\ within_copies i xs /\ solution_with i calls xs
  /\ (forall timer fuel st, hyper i timer fuel = Some st -> hs_out st = [] /\ (hs_best st < items_profit i xs)%Q).
Proof.
  exists hx_thick, [0%nat], [GAddBin 0 1 GVertical; GAddNode 1 9; GSetItem 0].
  split; [apply hx_thick_ok|]. split; [apply hx_thick_ok|]. split; [exact hx_thick_cut|].
  split; [intros x [<-|[]]; vm_compute; discriminate|]. split.
  { split; [vm_compute; reflexivity|]. eexists. split; [vm_compute; reflexivity|]. vm_compute. auto. }
  intros timer fuel st E.
  assert (X : match hyper hx_thick timer fuel with Some st => hs_out st = [] /\ hs_best st = 0%Q | None => True end).
  { unfold hyper, hrun. set (rdp := hrdp _ _ _ _). set (init := hget _ _ _ _).
    set (g := hseeds hx_thick 2000 rdp init _).
    assert (G : hs_out g = [] /\ hs_best g = 0%Q) by (vm_compute; auto).
    assert (T : hthreshold init 0 == 0) by (vm_compute; reflexivity).
    clearbody g init. change (seq 0 2000) with (0%nat :: seq 1 1999). cbn [hbuckets_loop]. destruct G as [G1 G2].
    destruct (timer (hs_asked g)); cbv zeta; cbn [hs_out hs_best]; [auto|]. rewrite G2.
    replace (Qle_bool (hthreshold init 0) 0) with true by (symmetry; apply Qle_bool_iff; lra). cbn [hs_out hs_best]. auto. }
  rewrite E in X. destruct X as [X1 X2]. split; [exact X1|]. rewrite X2. vm_compute. reflexivity.
Qed.
Print Assumptions C63_thick_refuted.

Definition hx_horizontal : GInstance := hx_inst GHorizontal 0 20 10 (mkGT 0 true) [hx_item 5 1 20 10 true].

(** Refuted: when the first cuts have to be horizontal, the algorithm still gives
    the cuts the coordinates of vertical first cuts. On a plate of 20 x 10 with an item
    of the size of the plate, the solution builder refuses the first cut. *)
Theorem C63_horizontal_refuted : exists i fuel st calls, hyper_instance i /\ gp_first (gin_params i) = GHorizontal
  /\ hyper i (fun _ => false) fuel = Some st /\ hs_out st = [(5%Q, Some calls)] /\ gaccepted i [] calls = false.
Proof.
  exists hx_horizontal, 10%nat.
  assert (X : match hyper hx_horizontal (fun _ => false) 10 with
              | Some st => match hs_out st with [(p, Some calls)] => p = 5%Q /\ gaccepted hx_horizontal [] calls = false | _ => False end
              | None => False end) by (vm_compute; auto).
  destruct (hyper hx_horizontal (fun _ => false) 10) as [st|]; [|contradiction].
  destruct (hs_out st) as [|[p [calls|]] [|]] eqn:EO; try contradiction. destruct X as [-> X].
  exists st, calls. split; [constructor; cbn; try discriminate; try lia; auto; intros it [<-|[]]; cbn; lia|].
  split; [reflexivity|]. split; [reflexivity|]. split; [exact EO|exact X].
Qed.
Print Assumptions C63_horizontal_refuted.

Definition hx_soft : GInstance := hx_inst GVertical 0 10 10 (mkGT 2 false) [hx_item 5 1 10 8 true].

(** Refuted: with a soft trim above (or below) the plate, the first cut leaves a
    part that includes the trim, but the algorithm puts the item there as if it did not. On a
    plate of 10 x 10 with a soft trim of 2, the solution with an item of 10 x 8 is
    refused by the solution builder. *)
Theorem C63_soft_trim_refuted : exists i fuel st calls, hyper_instance i /\ gp_first (gin_params i) = GVertical
  /\ hyper i (fun _ => false) fuel = Some st /\ hs_out st = [(5%Q, Some calls)] /\ gaccepted i [] calls = false.
Proof.
  exists hx_soft, 10%nat.
  assert (X : match hyper hx_soft (fun _ => false) 10 with
              | Some st => match hs_out st with [(p, Some calls)] => p = 5%Q /\ gaccepted hx_soft [] calls = false | _ => False end
              | None => False end) by (vm_compute; auto).
  destruct (hyper hx_soft (fun _ => false) 10) as [st|]; [|contradiction].
  destruct (hs_out st) as [|[p [calls|]] [|]] eqn:EO; try contradiction. destruct X as [-> X].
  exists st, calls. split; [constructor; cbn; try discriminate; try lia; auto; intros it [<-|[]]; cbn; lia|].
  split; [reflexivity|]. split; [reflexivity|]. split; [exact EO|exact X].
Qed.
Print Assumptions C63_soft_trim_refuted.

(** ** C64: infinite copies *)

(** The solution it gives is accepted by the builder, is one copy of the first
    plate and has the profit the table holds for the plate. *)
Theorem C64_solution : forall i, hyper_instance i -> hyper_supported i ->
  exists calls xs, snd (hyper_infinite i) = Some calls /\ solution_with i calls xs
    /\ (items_profit i xs == hget (plate_w i) (fst (hyper_infinite i)) (plate_w i) (plate_h i))%Q.
Proof. exact infinite_solution. Qed.
Print Assumptions C64_solution.

(** Every value of the table is the profit of a way to cut items, in any number of
    copies, out of a plate of these dimensions. *)
Theorem C64_attained : forall i w h, hyper_instance i -> 1 <= w <= plate_w i -> 1 <= h <= plate_h i ->
  exists xs, cut_from_plate i (gp_ct (gin_params i)) w h xs
    /\ (items_profit i xs == hget (plate_w i) (fst (hyper_infinite i)) w h)%Q.
Proof.
  intros i w h HI Hw Hh. set (ct := gp_ct (gin_params i)). unfold hyper_infinite. cbn [fst].
  set (W := plate_w i) in *. set (T := plate_h i) in *.
  change (heff_w i) with W. change (heff_h i) with T. fold ct.
  set (D := hget W (hdp (gin_items i) W T ct)).
  assert (A : forall n w h l b, (Z.to_nat (w + h) <= n)%nat -> 1 <= w <= W -> 1 <= h <= T ->
    exists L xs, cuttable ct (mkGR l (l + w) b (b + h)) L /\ Forall2 (piece i) L xs /\ (items_profit i xs == D w h)%Q).
  { pose proof (hi_ct i HI) as Hct. fold ct in Hct.
    induction n as [|n IH]; intros w' h' l b Hn Hw' Hh'; [lia|].
    destruct (dp_facts (gin_items i) W T ct Hct w' h' Hw' Hh') as (_ & _ & _ & _ & [E|[(it & Hin & F & E)|[(c & Hc & E)|(c & Hc & E)]]]);
      fold D in E.
    - exists [], []. split; [apply cut_waste|]. split; [constructor|]. rewrite E. reflexivity.
    - destruct (In_nth _ _ gdummy_item Hin) as (j & Hj & Ej). fold (gitem i j) in Ej.
      exists [mkGR l (l + w') b (b + h')], [j]. split; [apply cut_keep|]. split.
      + constructor; [|constructor]. split; [exact Hj|]. cbn [rl rr rb rt]. rewrite Ej.
        destruct F as [[F1 F2]|(F0 & F1 & F2)]; [left|right]; repeat split; lia || assumption.
      + unfold items_profit. rewrite qsum_cons. change (qsum (fun x => gi_profit (gitem i x)) []) with 0%Q. rewrite Ej, E. lra.
    - apply hcuts_in in Hc.
      destruct (IH c h' l b ltac:(lia) ltac:(lia) Hh') as (L1 & x1 & A1 & B1 & C1).
      destruct (IH (w' - c - ct) h' (l + c + ct) b ltac:(lia) ltac:(lia) Hh') as (L2 & x2 & A2 & B2 & C2).
      exists (L1 ++ L2), (x1 ++ x2). split.
      + apply cut_vertical with (x := l + c); [lia|lia|exact A1|].
        replace (l + c + ct + (w' - c - ct)) with (l + w') in A2 by lia. exact A2.
      + split; [apply Forall2_app; assumption|]. unfold items_profit in *. rewrite qsum_app, E. lra.
    - apply hcuts_in in Hc.
      destruct (IH w' c l b ltac:(lia) Hw' ltac:(lia)) as (L1 & x1 & A1 & B1 & C1).
      destruct (IH w' (h' - c - ct) l (b + c + ct) ltac:(lia) Hw' ltac:(lia)) as (L2 & x2 & A2 & B2 & C2).
      exists (L1 ++ L2), (x1 ++ x2). split.
      + apply cut_horizontal with (y := b + c); [lia|lia|exact A1|].
        replace (b + c + ct + (h' - c - ct)) with (b + h') in A2 by lia. exact A2.
      + split; [apply Forall2_app; assumption|]. unfold items_profit in *. rewrite qsum_app, E. lra. }
  destruct (A _ w h 0 0 (le_n _) Hw Hh) as (L & xs & A1 & A2 & A3). exists xs. split; [|exact A3].
  exists L. split; [exact A1|exact A2].
Qed.
Print Assumptions C64_attained.

(** Without cut thickness, no way to cut items, in any number of copies, out of a
    plate of these dimensions is worth more than the value of the table. *)
Theorem C64_optimal : forall i w h xs, hyper_instance i -> gp_ct (gin_params i) = 0 ->
  1 <= w <= plate_w i -> 1 <= h <= plate_h i -> cut_from_plate i 0 w h xs ->
  (items_profit i xs <= hget (plate_w i) (fst (hyper_infinite i)) w h)%Q.
Proof.
  intros i w h xs HI Hct Hw Hh HX. unfold hyper_infinite. cbn [fst]. rewrite Hct.
  change (heff_w i) with (plate_w i). change (heff_h i) with (plate_h i).
  destruct (plate_pat i 0 ltac:(lia) w h xs HX) as [->|(P & A & B & C & D)].
  - change (items_profit i []) with 0%Q. apply dp_nonneg; assumption.
  - pose proof (ppos i 0 ltac:(lia) (hi_items i HI) _ A) as PP.
    pose proof (pat_dp i (plate_w i) (plate_h i) (hi_items i HI) P A ltac:(lia) ltac:(lia)) as Q1.
    pose proof (dp_mono i (plate_w i) (plate_h i) (pw i 0 P) (ph i 0 P) w h ltac:(lia) ltac:(lia) ltac:(lia) ltac:(lia)) as Q2.
    unfold pprofit in Q1. rewrite B in Q1. eapply Qle_trans; [exact Q1|exact Q2].
Qed.
Print Assumptions C64_optimal.

(** On the plate of 6 x 4 of above, twelve copies of the small item are best. *)
Example C64_ex : hget 6 (fst (hyper_infinite hx_six)) 6 4 == 36
  /\ (exists calls, snd (hyper_infinite hx_six) = Some calls /\ gaccepted hx_six [] calls = true).
Proof. split; [vm_compute; reflexivity|]. eexists. split; [vm_compute; reflexivity|vm_compute; reflexivity]. Qed.

(** Refuted: with a cut thickness the value can be below what can be cut, for the
    same reason as above. *)
Theorem C64_thick_refuted : exists i xs, hyper_instance i /\ hyper_supported i
  /\ cut_from_plate i (gp_ct (gin_params i)) (plate_w i) (plate_h i) xs
  /\ (hget (plate_w i) (fst (hyper_infinite i)) (plate_w i) (plate_h i) < items_profit i xs)%Q.
Proof.
  exists hx_thick, [0%nat]. split; [apply hx_thick_ok|]. split; [apply hx_thick_ok|]. split; [exact hx_thick_cut|].
  vm_compute. reflexivity.
Qed.
Print Assumptions C64_thick_refuted.

(** Refuted: when the first cuts have to be horizontal, the solution of the algorithm
    with infinite copies is refused by the solution builder too. *)
Theorem C64_horizontal_refuted : exists i calls, hyper_instance i /\ gp_first (gin_params i) = GHorizontal
  /\ snd (hyper_infinite i) = Some calls /\ gaccepted i [] calls = false.
Proof.
  exists hx_horizontal. eexists. split; [constructor; cbn; try discriminate; try lia; auto; intros it [<-|[]]; cbn; lia|].
  split; [reflexivity|]. split; vm_compute; reflexivity.
Qed.
Print Assumptions C64_horizontal_refuted.

(** Refuted: with a soft trim above the plate, the solution of the algorithm with
    infinite copies is refused by the solution builder too. *)
Theorem C64_soft_trim_refuted : exists i calls, hyper_instance i /\ gp_first (gin_params i) = GVertical
  /\ snd (hyper_infinite i) = Some calls /\ gaccepted i [] calls = false.
Proof.
  exists hx_soft. eexists. split; [constructor; cbn; try discriminate; try lia; auto; intros it [<-|[]]; cbn; lia|].
  split; [reflexivity|]. split; vm_compute; reflexivity.
Qed.
Print Assumptions C64_soft_trim_refuted.
