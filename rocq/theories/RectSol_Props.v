(** * C42, C45, C11 (rectangle): rectangle solutions *)

From Coq Require Import List ZArith QArith Bool Lia Arith.
From Verif Require Import Util Common_Model Common_Spec Common_Proof OneDim_Model OneDim_Order Geom.
From Verif Require Import Rect_Model Rect_Spec RectSol_Model RectSol_Spec RectSol_Proof RectAxle_Proof.
Import ListNotations.
Open Scope Z_scope.

(** ** An example *)

Definition ex_truck : Truck :=
  mkTruck true 8000 38 10 32 6000 75 40 5 (Some 2800%Q) (Some 6000%Q).

(** Item 2 consumes 3 for its first copy and 1 for the next ones. *)
Definition ex_res : Resource := mkResource (4 # 1) [[]; []; [3%Q; 1%Q]] false 0.
Definition ex_rinstance (objective : Objective) : RInstance :=
  mkRInst objective (mkRP UNone LX [])
    [ mkRI 4 3 12 5 1 0 false 700 (-1) [[]; []];
      mkRI 2 6 10 5 0 1 false 900 (-1) [[]; []];
      mkRI 5 5 25 5 0 1 true 400 7 [[0%nat]; []] ]
    [ mkRB 10 8 80 3 0 (Some 3000%Q) ex_truck [7] [mkDefect 9 0 1 1] [ex_res];
      mkRB 20 8 150 3 0 None no_truck [] [] [] ].
Definition raccept : RCallback := fun _ => true.

Lemma ex_rwf : forall o, rwf_resources (ex_rinstance o).
Proof.
  intros o x t Hx Ht. simpl in Hx, Ht.
  destruct x as [|[|[|x]]]; [| | |lia]; (destruct t as [|[|t]]; [| |lia]); simpl;
    (split; [repeat constructor; simpl; tauto|]); intro r; split; intro H; try (destruct H as [H H']);
    repeat (destruct r as [|r]; simpl in *; try lia; try congruence; try tauto).
  all: try (destruct H as [H|[]]; subst; simpl; split; [lia|discriminate]).
  all: try (split; [lia|discriminate]).
  all: try tauto; try (destruct H; [discriminate|contradiction]).
Qed.
Lemma ex_rsane : forall o, rsane_resources (ex_rinstance o).
Proof.
  intros o bt r Hbt Hr. simpl in Hbt. destruct Hbt as [<-|[<-|[]]]; simpl in Hr; [|destruct Hr].
  destruct Hr as [<-|[]]. split; [unfold Qle; simpl; lia|]. intros s q Hs Hq. simpl in Hs.
  destruct Hs as [<-|[<-|[<-|[]]]]; simpl in Hq; try (destruct Hq; fail). destruct Hq as [<-|[<-|[]]]; unfold Qle; simpl; lia.
Qed.

(** Two bins of the first type, one of the second with a rotated item. *)
Definition ex_rcalls : list RBuilderCall :=
  [RAddBin 0 2; RAddItem 0 (mkPl 0 0 0 false); RAddItem 0 (mkPl 1 4 0 false);
   RAddBin 1 1; RAddItem 1 (mkPl 1 0 0 true); RAddItem 1 (mkPl 2 0 2 false)].

(** ** C42 *)

(** For every sequence of construction calls, the bins are those asked for and
    every indicator is the sum over the bins it claims to be. *)
Theorem C42_indicators : forall i cb calls1 calls2 s, rwf_resources i -> rcopies_nonneg calls1 calls2 ->
  rhistory i cb calls1 calls2 = Some s ->
  rview s = rdesc_run [] calls1 ++ flat_map rcall_bins calls2 /\ RIndicators i (rview s) (rs_core s).
Proof.
  intros i cb calls1 calls2 s Hwf Hc H. destruct (rhistory_spec i cb Hwf calls1 calls2 s H Hc) as [[F _] V].
  split; [exact V|]. apply rinv_indicators, (rf_inv _ _ _ F).
Qed.
Print Assumptions C42_indicators.

Example C42_indicators_example :
  rcopies_nonneg ex_rcalls [] /\
  exists s, rhistory (ex_rinstance OBinPacking) raccept ex_rcalls [] = Some s /\
    rc_number_of_bins (rs_core s) = 3 /\ rc_item_area (rs_core s) = 85 /\ rc_bin_area (rs_core s) = 320 /\
    (rc_item_profit (rs_core s) == 79)%Q /\ rc_item_copies (rs_core s) = [2; 3; 1] /\
    rs_feasible s = true.
Proof.
  split.
  - intros d Hd. simpl in Hd. destruct Hd as [<-|[<-|[]]]; simpl; lia.
  - eexists. split; [vm_compute; reflexivity|]. repeat split.
Qed.

(** [feasible()] of a solution with bins: numbers of copies, resources without
    penalty, and the callback; nothing else. *)
Theorem C42_feasible : forall i cb calls1 calls2 s, rwf_resources i -> rsane_resources i ->
  rcopies_nonneg calls1 calls2 -> rhistory i cb calls1 calls2 = Some s ->
  (rs_feasible s = true <->
   copies_ok i (rview s) /\ (forall d, In d (rview s) -> resources_ok_end i d) /\ (rview s <> [] -> cb (rs_core s) = true)
   \/ rview s = [] /\ forall x, (x < length (rin_items i))%nat -> ri_copies_min (ritem i x) <= 0).
Proof.
  intros i cb calls1 calls2 s Hwf Hsane Hc H. destruct (rhistory_spec i cb Hwf calls1 calls2 s H Hc) as [[F D] V].
  rewrite (rf_feasible _ _ _ F).
  assert (HR : (forall d, In d (rview s) -> resources_ok i d) <-> (forall d, In d (rview s) -> resources_ok_end i d)).
  { split; intros G d Hd; apply (resources_whole i d Hsane (D d Hd)); apply G, Hd. }
  rewrite HR. pose proof (rf_cb _ _ _ F) as E.
  assert (HC : rs_callback_ok s = true <-> (rview s <> [] -> cb (rs_core s) = true)).
  { rewrite E. unfold rview. destruct (rc_bins (rs_core s)); cbn [map].
    - split; [intros _ N; contradiction|reflexivity].
    - split; [intros G _; exact G|intro G; apply G; discriminate]. }
  rewrite HC. reflexivity.
Qed.
Print Assumptions C42_feasible.

(** The extent and the leftover are those of the last bin, when it is not
    empty. *)
Theorem C42_last_bin : forall i cb calls1 calls2 s ds d, rwf_resources i -> rcopies_nonneg calls1 calls2 ->
  rhistory i cb calls1 calls2 = Some s -> rview s = ds ++ [d] -> rd_items d <> [] ->
  let bt := rbin i (rd_type d) in
  rc_x_max (rs_core s) = rightmost i (rd_items d) /\ rc_y_max (rs_core s) = topmost i (rd_items d) /\
  rc_area (rs_core s) = rc_bin_area (rs_core s) - rb_x bt * rb_y bt + rightmost i (rd_items d) * topmost i (rd_items d) /\
  rc_leftover (rs_core s) = match rp_leftover (rin_params i) with
    | LArea => rb_x bt * rb_y bt - rightmost i (rd_items d) * topmost i (rd_items d)
    | LX => rb_x bt - rightmost i (rd_items d)
    | LY => rb_y bt - topmost i (rd_items d)
    end.
Proof.
  intros i cb calls1 calls2 s ds d Hwf Hc H V Hne bt. destruct (rhistory_spec i cb Hwf calls1 calls2 s H Hc) as [[F D] _].
  pose proof (rf_last _ _ _ F) as L. rewrite V, rev_app_distr in L. cbn [rev app] in L.
  destruct L as (L1 & L2 & L3). destruct (L3 Hne) as [L4 L5]. rewrite L1, L2 in L4. unfold rb_area in L4. fold bt in L4.
  split; [exact L1|]. split; [exact L2|]. split; [exact L4|]. rewrite L5, L1, L2. fold bt.
  destruct (rp_leftover (rin_params i)); [rewrite L4; lia|reflexivity|reflexivity].
Qed.
Print Assumptions C42_last_bin.

Example C42_last_bin_example : exists s ds d, rhistory (ex_rinstance OBinPacking) raccept ex_rcalls [] = Some s /\
  rview s = ds ++ [d] /\ rd_items d <> [] /\ rc_x_max (rs_core s) = 6 /\ rc_y_max (rs_core s) = 7 /\ rc_leftover (rs_core s) = 14.
Proof.
  eexists. exists [mkRD 0 2 [mkPl 0 0 0 false; mkPl 1 4 0 false]], (mkRD 1 1 [mkPl 1 0 0 true; mkPl 2 0 2 false]).
  split; [vm_compute; reflexivity|]. repeat split. discriminate.
Qed.

(** Items of non-negative sizes that do not overlap cover at most the area
    around them. *)
Lemma area_bound : forall i ps w h, 0 <= w -> 0 <= h ->
  (forall p, In p ps -> 0 <= pl_x p /\ 0 <= pl_w i p /\ pl_xe i p <= w /\ 0 <= pl_y p /\ 0 <= pl_h i p /\ pl_ye i p <= h) ->
  ForallOrdPairs (disjoint i) ps ->
  zsum (fun p => ri_x (ritem i (pl_type p)) * ri_y (ritem i (pl_type p))) ps <= w * h.
Proof.
  intros i ps w h Hw Hh Hin Hd.
  pose proof (volume_bound Place [mkAxis Place pl_x (pl_w i) w; mkAxis Place pl_y (pl_h i) h] ps) as HV.
  assert (E : zsum (fun p => ri_x (ritem i (pl_type p)) * ri_y (ritem i (pl_type p))) ps
    = zsum (fun a => prod (map (fun ax => ax_len Place ax a) [mkAxis Place pl_x (pl_w i) w; mkAxis Place pl_y (pl_h i) h])) ps).
  { apply zsum_ext. intros p _. cbn [map ax_len prod fold_right]. unfold pl_w, pl_h. destruct (pl_rot p); lia. }
  rewrite E. cbn [map ax_cap prod fold_right] in HV. cbn [map ax_len prod fold_right] in *. rewrite Z.mul_1_r in HV. apply HV.
  - intros ax p [<-|[<-|[]]] Hp; destruct (Hin p Hp) as (A1 & A2 & A3 & A4 & A5 & A6); unfold inside, pl_xe, pl_ye in *; cbn; lia.
  - intros ax [<-|[<-|[]]]; assumption.
  - apply (ord_pairs_impl _ (disjoint i)); [|exact Hd]. intros p q H. unfold separated, disjoint, pl_xe, pl_ye in *.
    destruct H as [H|[H|[H|H]]].
    + exists (mkAxis Place pl_x (pl_w i) w). split; [left; reflexivity|left; exact H].
    + exists (mkAxis Place pl_x (pl_w i) w). split; [left; reflexivity|right; exact H].
    + exists (mkAxis Place pl_y (pl_h i) h). split; [right; left; reflexivity|left; exact H].
    + exists (mkAxis Place pl_y (pl_h i) h). split; [right; left; reflexivity|right; exact H].
Qed.

Lemma max_in : forall l x, In x l -> x <= fold_right Z.max 0 l.
Proof. induction l as [|y l IH]; intros x H; [destruct H|]. destruct H as [->|H]; cbn [fold_right]; [lia|]. specialize (IH x H). lia. Qed.

(** The waste of a geometrically valid packing whose last bin is not empty is
    not negative. *)
Theorem C42_waste : forall i cb calls1 calls2 s ds d, rwf_resources i -> rcopies_nonneg calls1 calls2 ->
  positive_items i -> positive_bins i ->
  rhistory i cb calls1 calls2 = Some s -> packing_ok i (rview s) -> rview s = ds ++ [d] -> rd_items d <> [] ->
  0 <= rwaste s <= rfull_waste s.
Proof.
  intros i cb calls1 calls2 s ds d Hwf Hc Hits Hbins H [P1 _] V Hne.
  destruct (C42_last_bin i cb calls1 calls2 s ds d Hwf Hc H V Hne) as (_ & _ & A & _).
  destruct (C42_indicators i cb calls1 calls2 s Hwf Hc H) as (_ & I).
  unfold rwaste, rfull_waste. rewrite A, (ri_item_area _ _ _ I), (ri_bin_area _ _ _ I).
  assert (Hpos : forall e p, In e (rview s) -> In p (rd_items e) -> 0 < pl_w i p /\ 0 < pl_h i p).
  { intros e p He Hp. destruct (P1 e He) as (_ & _ & G). destruct (ge_places _ _ _ G p Hp) as [T _ _ _].
    destruct (Hits (ritem i (pl_type p)) (nth_In _ _ T)) as (S1 & S2 & _). unfold pl_w, pl_h. destruct (pl_rot p); lia. }
  assert (Hbin : forall e, In e (rview s) -> 1 <= rb_x (rbin i (rd_type e)) /\ 1 <= rb_y (rbin i (rd_type e))).
  { intros e He. destruct (P1 e He) as (T & _). apply Hbins, nth_In, T. }
  assert (Hle : forall e, In e (rview s) ->
    zsum (fun p => ri_x (ritem i (pl_type p)) * ri_y (ritem i (pl_type p))) (rd_items e) <= rb_x (rbin i (rd_type e)) * rb_y (rbin i (rd_type e))).
  { intros e He. destruct (P1 e He) as (_ & _ & [G1 G2 _]). destruct (Hbin e He). apply area_bound; try lia; [|exact G2].
    intros p Hp. destruct (G1 p Hp) as [_ [X1 X2] [Y1 Y2] _]. destruct (Hpos e p He Hp). lia. }
  rewrite V, !zsum_snoc.
  assert (Hd : In d (rview s)) by (rewrite V; apply in_or_app; right; left; reflexivity).
  assert (Hds : zsum (fun e => rd_copies e * zsum (fun p => ri_x (ritem i (pl_type p)) * ri_y (ritem i (pl_type p))) (rd_items e)) ds
    <= zsum (fun e => rd_copies e * (rb_x (rbin i (rd_type e)) * rb_y (rbin i (rd_type e)))) ds).
  { apply zsum_le. intros e He. assert (He' : In e (rview s)) by (rewrite V; apply in_or_app; left; exact He).
    destruct (P1 e He') as (_ & C & _). pose proof (Hle e He'). apply Z.mul_le_mono_nonneg_l; lia. }
  destruct (P1 d Hd) as (_ & C & [G1 G2 _]). destruct (Hbin d Hd) as [B1 B2].
  pose proof (rightmost_nonneg i (rd_items d)) as [N1 N2].
  assert (Hl : zsum (fun p => ri_x (ritem i (pl_type p)) * ri_y (ritem i (pl_type p))) (rd_items d)
    <= rightmost i (rd_items d) * topmost i (rd_items d)).
  { apply area_bound; try lia; [|exact G2]. intros p Hp. destruct (G1 p Hp) as [_ [X1 X2] [Y1 Y2] _]. destruct (Hpos d p Hd Hp).
    pose proof (max_in (map (pl_xe i) (rd_items d)) (pl_xe i p) (in_map _ _ _ Hp)).
    pose proof (max_in (map (pl_ye i) (rd_items d)) (pl_ye i p) (in_map _ _ _ Hp)). unfold rightmost, topmost. lia. }
  assert (R1 : rightmost i (rd_items d) <= rb_x (rbin i (rd_type d))).
  { unfold rightmost. clear - G1 B1. induction (rd_items d) as [|p l IH]; cbn [map fold_right]; [lia|].
    destruct (G1 p (or_introl eq_refl)) as [_ [_ X] _ _]. specialize (IH (fun q Hq => G1 q (or_intror Hq))). lia. }
  assert (R2 : topmost i (rd_items d) <= rb_y (rbin i (rd_type d))).
  { unfold topmost. clear - G1 B2. induction (rd_items d) as [|p l IH]; cbn [map fold_right]; [lia|].
    destruct (G1 p (or_introl eq_refl)) as [_ _ [_ Y] _]. specialize (IH (fun q Hq => G1 q (or_intror Hq))). lia. }
  pose proof (Hle d Hd) as Hled.
  set (a := zsum (fun p => _) (rd_items d)) in *. set (R := rightmost _ _) in *. set (T := topmost _ _) in *.
  set (X := rb_x _) in *. set (Y := rb_y _) in *.
  assert (M : R * T <= X * Y) by (apply Z.mul_le_mono_nonneg; lia).
  assert (K : 0 <= (rd_copies d - 1) * (X * Y - a)) by (apply Z.mul_nonneg_nonneg; lia).
  nia.
Qed.
Print Assumptions C42_waste.

(** Not when the last bin is empty: the area stays zero. *)
Theorem C42_empty_last_bin_refuted : exists i calls s,
  rwf_resources i /\ rcopies_nonneg calls [] /\ rhistory i raccept calls [] = Some s /\
  rs_feasible s = true /\ packing_ok i (rview s) /\ rwaste s < 0 /\
  rc_area (rs_core s) = 0 /\ rc_item_area (rs_core s) = 12 /\ rc_leftover (rs_core s) = 0.
Proof.
  exists (ex_rinstance OBinPacking), [RAddBin 0 1; RAddItem 0 (mkPl 0 0 0 false); RAddBin 1 1].
  eexists. split; [apply ex_rwf|]. split; [intros d Hd; simpl in Hd; destruct Hd as [<-|[<-|[]]]; simpl; lia|].
  split; [vm_compute; reflexivity|]. split; [reflexivity|]. split.
  - split.
    + intros d Hd. simpl in Hd. destruct Hd as [<-|[<-|[]]]; simpl; (split; [lia|split; [lia|]]).
      * split.
        -- intros p [<-|[]]. split; simpl; unfold pl_xe, pl_ye, pl_w, pl_h; simpl; first [lia|discriminate].
        -- repeat constructor.
        -- intros p df [<-|[]] [<-|[]]. unfold avoids, pl_xe, pl_w; simpl. lia.
      * split; [intros p []|constructor|intros p df []].
    + intros x Hx. simpl in Hx. destruct x as [|[|[|x]]]; [| | |lia]; vm_compute; discriminate.
  - repeat split.
Qed.
Print Assumptions C42_empty_last_bin_refuted.

(** [feasible()] is no guarantee on the geometry, the eligibility, the weight or
    the number of bins: here the items overlap, one is outside the bin, one is on the
    defect, one is in a bin it is not eligible for, the load is over the maximum
    weight of the bin, and more bins are used than there are. *)
Theorem C42_geometry_refuted : exists i calls s,
  rwf_resources i /\ rsane_resources i /\ rcopies_nonneg calls [] /\ rhistory i raccept calls [] = Some s /\
  rs_feasible s = true /\
  (exists d p q, In d (rview s) /\ rd_items d = [p; q] /\ ~ disjoint i p q /\ ~ place_ok i (rbin i (rd_type d)) q) /\
  (exists d p df, In d (rview s) /\ In p (rd_items d) /\ In df (rb_defects (rbin i (rd_type d))) /\ ~ avoids i p df) /\
  (exists d w, In d (rview s) /\ rb_max_weight (rbin i (rd_type d)) = Some w /\
     (w < qsum (fun p => ri_weight (ritem i (pl_type p))) (rd_items d))%Q) /\
  ~ relig_ok i (rview s) /\
  rb_copies (rbin i 1) < rused_bins 1 (rview s).
Proof.
  exists (ex_rinstance OBinPacking),
    [RAddBin 0 1; RAddItem 0 (mkPl 1 8 0 false); RAddItem 0 (mkPl 1 0 0 false); RAddItem 0 (mkPl 1 2 0 false); RAddItem 0 (mkPl 1 4 0 false);
     RAddBin 1 4; RAddItem 1 (mkPl 2 0 0 false);
     RAddBin 0 1; RAddItem 2 (mkPl 0 0 0 false); RAddItem 2 (mkPl 0 (-1) 0 false)].
  eexists. split; [apply ex_rwf|]. split; [apply ex_rsane|].
  split; [intros d Hd; simpl in Hd; repeat (destruct Hd as [<-|Hd]; [simpl; lia|]); destruct Hd|].
  split; [vm_compute; reflexivity|]. split; [reflexivity|].
  split; [|split; [|split; [|split]]].
  - exists (mkRD 0 1 [mkPl 0 0 0 false; mkPl 0 (-1) 0 false]), (mkPl 0 0 0 false), (mkPl 0 (-1) 0 false).
    split; [simpl; tauto|]. split; [reflexivity|]. split.
    + unfold disjoint, pl_xe, pl_ye, pl_w, pl_h. simpl. lia.
    + intros [_ [H _] _ _]. simpl in H. lia.
  - exists (mkRD 0 1 [mkPl 1 8 0 false; mkPl 1 0 0 false; mkPl 1 2 0 false; mkPl 1 4 0 false]), (mkPl 1 8 0 false), (mkDefect 9 0 1 1).
    split; [simpl; tauto|]. split; [simpl; tauto|]. split; [simpl; tauto|].
    unfold avoids, pl_xe, pl_ye, pl_w, pl_h. simpl. lia.
  - exists (mkRD 0 1 [mkPl 1 8 0 false; mkPl 1 0 0 false; mkPl 1 2 0 false; mkPl 1 4 0 false]), 3000%Q.
    split; [simpl; tauto|]. split; [reflexivity|]. vm_compute. reflexivity.
  - intro H. destruct (H (mkRD 1 4 [mkPl 2 0 0 false]) (mkPl 2 0 0 false)) as [A|A]; try (simpl; tauto); simpl in A; lia.
  - vm_compute. reflexivity.
Qed.
Print Assumptions C42_geometry_refuted.

(** ** C45 *)

(** For a truck with non-zero lever arms and a load with a weight, the computed
    axle weights are the only ones in equilibrium. *)
Theorem C45_equilibrium : forall t m w, tr_is t = true -> tr_harness_rear t <> 0 -> tr_front_middle t <> 0 ->
  ~ (w == 0)%Q ->
  exists middle rear, compute_axle_weights t m w = Some (middle, rear) /\ balanced t m w middle rear /\
  forall middle' rear', balanced t m w middle' rear' -> (middle' == middle /\ rear' == rear)%Q.
Proof.
  intros t m w Ht Hr Hm Hw. destruct (axle_defined t m w Ht Hw Hr Hm) as (a & b & E). exists a, b.
  pose proof (axle_balanced t m w a b Ht E) as B. split; [exact E|]. split; [exact B|].
  intros a' b' B'. destruct (balanced_unique t m w a' b' a b Hr Hm B' B). auto.
Qed.
Print Assumptions C45_equilibrium.

(** What every bin keeps: for each group, the weight and the moment of the items
    to be unloaded with it or later. *)
Theorem C45_stored_groups : forall i cb calls1 calls2 s, rcopies_nonneg calls1 calls2 ->
  rhistory i cb calls1 calls2 = Some s -> forall b, In b (rc_bins (rs_core s)) -> stored_groups i b.
Proof. intros i cb calls1 calls2 s Hc H. apply (over_history i cb calls1 calls2 s H Hc). Qed.
Print Assumptions C45_stored_groups.

(** The overweights of a solution: those of its last bin with items, summed over
    the groups up to the group of the item added last to it. *)
Theorem C45_overweight : forall i cb calls1 calls2 s ds1 d ds2 l p, rcopies_nonneg calls1 calls2 ->
  rhistory i cb calls1 calls2 = Some s ->
  rview s = ds1 ++ d :: ds2 -> (forall e, In e ds2 -> rd_items e = []) -> rd_items d = l ++ [p] ->
  let truck := rb_truck (rbin i (rd_type d)) in
  let groups := seq 0 (S (ri_group (ritem i (pl_type p)))) in
  tr_is truck = true -> tr_harness_rear truck <> 0 -> tr_front_middle truck <> 0 ->
  (forall g, In g groups -> ~ (group_weight i g (rd_items d) == 0)%Q) ->
  exists middle rear axles,
    rc_middle (rs_core s) = Some middle /\ rc_rear (rs_core s) = Some rear /\
    (forall g, In g groups -> balanced truck (group_moment i g (rd_items d)) (group_weight i g (rd_items d))
       (fst (axles g)) (snd (axles g))) /\
    (middle == qsum (fun g => excess (fst (axles g)) (tr_middle_maximum truck)) groups)%Q /\
    (rear == qsum (fun g => excess (snd (axles g)) (tr_rear_maximum truck)) groups)%Q.
Proof.
  intros i cb calls1 calls2 s ds1 d ds2 l p Hc H V Hds2 Ed truck groups Ht Hr Hm Hw.
  destruct (over_history i cb calls1 calls2 s H Hc) as ((e1 & e2 & E & He2 & O) & _).
  assert (Hcut : exists e0, e1 = e0 ++ [d]).
  { assert (Hnd : rd_items d <> []) by (rewrite Ed; destruct l; discriminate). rewrite E in V.
    destruct (exists_last_or_nil _ e1) as [->|(e0 & x & ->)].
    - exfalso. apply Hnd, He2. cbn [app] in V. rewrite V. apply in_or_app. right. left. reflexivity.
    - rewrite rev_app_distr in O. cbn [rev app] in O. destruct O as (l' & p' & Ex & _).
      assert (Hnx : rd_items x <> []) by (rewrite Ex; destruct l'; discriminate).
      assert (G : forall a b : list RDesc, forall x y u v, a ++ x :: u = b ++ y :: v ->
        (forall e, In e u -> rd_items e = []) -> (forall e, In e v -> rd_items e = []) ->
        rd_items x <> [] -> rd_items y <> [] -> a = b /\ x = y).
      { clear. induction a as [|a0 a IH]; intros [|b0 b] x y u v E Hu Hv Hx Hy; cbn [app] in E; injection E as E1 E2.
        - auto.
        - exfalso. apply Hy, Hu. rewrite E2. apply in_or_app. right. left. reflexivity.
        - exfalso. apply Hx, Hv. rewrite <- E2. apply in_or_app. right. left. reflexivity.
        - destruct (IH b x y u v E2 Hu Hv Hx Hy) as [-> ->]. subst. auto. }
      rewrite <- app_assoc in V. cbn [app] in V. destruct (G _ _ _ _ _ _ V He2 Hds2 Hnx Hnd) as [_ ->]. exists e0. reflexivity. }
  destruct Hcut as (e0 & ->). rewrite rev_app_distr in O. cbn [rev app] in O. destruct O as (l' & p' & Ex & O).
  assert (p' = p) by (rewrite Ed in Ex; apply app_inj_tail in Ex; destruct Ex; congruence). subst p'.
  destruct O as [O1 O2]. fold truck in O1, O2.
  destruct O2 as [D1 D2].
  { intros _. split; [exact Hr|]. split; [exact Hm|]. intros k Hk. apply Hw, in_seq. lia. }
  destruct (rc_middle (rs_core s)) as [m|]; [|congruence]. destruct (rc_rear (rs_core s)) as [r|]; [|congruence].
  destruct (O1 m r eq_refl eq_refl) as (f & F1 & F2 & F3). exists m, r, f.
  split; [reflexivity|]. split; [reflexivity|]. split; [|split; assumption].
  intros g Hg. apply in_seq in Hg. specialize (F1 g ltac:(lia)). rewrite Ht in F1. exact F1.
Qed.
Print Assumptions C45_overweight.


(** A load of 1600, of which 900 in the second group. *)
Definition ex_truck_calls : list RBuilderCall :=
  [RAddBin 0 1; RAddItem 0 (mkPl 0 0 0 false); RAddItem 0 (mkPl 1 6 0 false); RAddBin 1 1].
Example C45_overweight_example : exists s d p,
  rhistory (ex_rinstance OBinPacking) raccept ex_truck_calls [] = Some s /\
  rview s = [] ++ d :: [mkRD 1 1 []] /\ rd_items d = [mkPl 0 0 0 false] ++ [p] /\ pl_type p = 1%nat /\
  (group_weight (ex_rinstance OBinPacking) 0 (rd_items d) == 1600)%Q /\
  (group_weight (ex_rinstance OBinPacking) 1 (rd_items d) == 900)%Q /\
  exists m r, rc_middle (rs_core s) = Some m /\ rc_rear (rs_core s) = Some r /\
    (m == (116864 # 19) - 6000)%Q /\ (r == 24)%Q /\ middle_overweight s = Some 150.
Proof.
  eexists. exists (mkRD 0 1 [mkPl 0 0 0 false; mkPl 1 6 0 false]), (mkPl 1 6 0 false). split; [vm_compute; reflexivity|].
  repeat (split; [reflexivity|]). eexists. eexists. repeat (split; [reflexivity|]). reflexivity.
Qed.

(** Finding: the overweights depend on the order in which the items are added:
    with the same placements in the other order the overweight of the
    second group is not seen. *)
Theorem C45_last_item_refuted : exists i t p q s1 s2 r1 r2,
  rhistory i raccept [RAddBin t 1; RAddItem 0 p; RAddItem 0 q] [] = Some s1 /\
  rhistory i raccept [RAddBin t 1; RAddItem 0 q; RAddItem 0 p] [] = Some s2 /\
  rs_feasible s1 = true /\ rs_feasible s2 = true /\
  rc_rear (rs_core s1) = Some r1 /\ rc_rear (rs_core s2) = Some r2 /\ (r1 == 24)%Q /\ (r2 == 0)%Q.
Proof.
  exists (ex_rinstance OBinPacking), 0%nat, (mkPl 0 0 0 false), (mkPl 1 6 0 false). eexists. eexists. eexists. eexists.
  split; [vm_compute; reflexivity|]. split; [vm_compute; reflexivity|]. repeat (split; [reflexivity|]). reflexivity.
Qed.
Print Assumptions C45_last_item_refuted.

(** Finding: the overweight of a bin is forgotten when another bin with items
    is added. *)
Theorem C45_last_bin_refuted : exists i s1 s2 r1 r2,
  rhistory i raccept [RAddBin 0 1; RAddItem 0 (mkPl 0 0 0 false); RAddItem 0 (mkPl 1 6 0 false)] [] = Some s1 /\
  rhistory i raccept [RAddBin 0 1; RAddItem 0 (mkPl 0 0 0 false); RAddItem 0 (mkPl 1 6 0 false);
    RAddBin 1 1; RAddItem 1 (mkPl 0 0 0 false)] [] = Some s2 /\
  rc_rear (rs_core s1) = Some r1 /\ rc_rear (rs_core s2) = Some r2 /\ (r1 == 24)%Q /\ (r2 == 0)%Q.
Proof.
  exists (ex_rinstance OBinPacking). eexists. eexists. eexists. eexists.
  split; [vm_compute; reflexivity|]. split; [vm_compute; reflexivity|]. repeat (split; [reflexivity|]). reflexivity.
Qed.
Print Assumptions C45_last_bin_refuted.

(** Finding: an empty load is in equilibrium, but its axle weights are not a number. *)
Theorem C45_weightless_refuted : exists t middle rear, tr_is t = true /\ tr_harness_rear t <> 0 /\ tr_front_middle t <> 0 /\
  balanced t 0 0 middle rear /\ compute_axle_weights t 0 0 = None.
Proof.
  exists ex_truck, (91200 # 19)%Q, 2800%Q. repeat (split; [discriminate || reflexivity|]). split; [|reflexivity].
  exists 3200%Q. vm_compute. auto.
Qed.
Print Assumptions C45_weightless_refuted.

(** ** C11, rectangle solutions *)

Definition rlt (i : RInstance) (s1 s2 : RSolution) : bool :=
  match rsol_lt i s1 s2 with Some b => b | None => false end.

Theorem C11_rectangle_feasible_first : forall i s1 s2,
  (rsol_lt i s1 s2 = Some true -> rs_feasible s2 = true) /\
  (rs_feasible s1 = false -> rs_feasible s2 = true -> rsol_lt i s1 s2 = Some true).
Proof.
  intros i s1 s2. unfold rsol_lt. split.
  - destruct (rs_feasible s2); [reflexivity|discriminate].
  - intros -> ->. reflexivity.
Qed.
Print Assumptions C11_rectangle_feasible_first.

Lemma greater_int : forall a b, strictly_greater (inject_Z a) (inject_Z b) = (b <? a).
Proof.
  intros a b. unfold strictly_greater, Qltb, tol. destruct (Z.ltb_spec b a) as [H|H].
  - apply negb_true_iff. destruct (Qle_bool (inject_Z a - inject_Z b) (1 # 1000000)) eqn:E; [|reflexivity].
    apply Qle_bool_iff in E. unfold Qle, Qminus, Qplus, Qopp, inject_Z in E. simpl in E. lia.
  - apply negb_false_iff. apply Qle_bool_iff. unfold Qle, Qminus, Qplus, Qopp, inject_Z. simpl. lia.
Qed.

(** Bin packing, leftovers and open dimensions: a strict weak order. *)
Theorem C11_rectangle_strict_weak_order : forall i,
  rin_objective i = OBinPacking \/ rin_objective i = OBinPackingWithLeftovers
  \/ rin_objective i = OOpenDimensionX \/ rin_objective i = OOpenDimensionY ->
  StrictWeakOrder RSolution (rlt i).
Proof.
  intros i Ho. unfold rlt, rsol_lt. constructor.
  - intro a. destruct (rs_feasible a); cbn [negb]; [|reflexivity].
    destruct Ho as [-> |[-> |[-> | ->]]]; rewrite ?greater_int, ?Z.eqb_refl, ?Z.ltb_irrefl; reflexivity.
  - intros a b c. destruct (rs_feasible a), (rs_feasible b), (rs_feasible c); cbn [negb]; try congruence;
    destruct Ho as [-> |[-> |[-> | ->]]]; rewrite ?greater_int; rewrite ?Z.ltb_lt; try lia; try reflexivity;
    repeat match goal with |- context [?x =? ?y] => destruct (Z.eqb_spec x y) end; cbn [negb]; rewrite ?Z.ltb_lt; lia.
  - intros a b c. destruct (rs_feasible a), (rs_feasible b), (rs_feasible c); cbn [negb]; try congruence;
    destruct Ho as [-> |[-> |[-> | ->]]]; rewrite ?greater_int; rewrite ?Z.ltb_ge; try lia; try congruence;
    repeat match goal with |- context [?x =? ?y] => destruct (Z.eqb_spec x y) end; cbn [negb]; rewrite ?Z.ltb_ge; lia.
Qed.
Print Assumptions C11_rectangle_strict_weak_order.

(** Better means better for the user. *)
Theorem C11_rectangle_improvement : forall i s1 s2, rs_feasible s1 = true -> rsol_lt i s1 s2 = Some true ->
  (0 <= rc_item_profit (rs_core s1))%Q -> (0 <= rc_item_profit (rs_core s2))%Q ->
  (0 <= rc_bin_cost (rs_core s1))%Q -> (0 <= rc_bin_cost (rs_core s2))%Q ->
  rs_feasible s2 = true /\
  match rin_objective i with
  | OKnapsack | OFeasibility => (rc_item_profit (rs_core s1) < rc_item_profit (rs_core s2))%Q
  | OBinPacking => rc_number_of_bins (rs_core s2) < rc_number_of_bins (rs_core s1)
  | OBinPackingWithLeftovers => rc_number_of_bins (rs_core s2) < rc_number_of_bins (rs_core s1)
      \/ rc_number_of_bins (rs_core s2) = rc_number_of_bins (rs_core s1)
         /\ rc_leftover (rs_core s1) < rc_leftover (rs_core s2)
  | OOpenDimensionX => rc_x_max (rs_core s2) < rc_x_max (rs_core s1)
  | OOpenDimensionY => rc_y_max (rs_core s2) < rc_y_max (rs_core s1)
  | OVariableSizedBinPacking => (rc_bin_cost (rs_core s2) < rc_bin_cost (rs_core s1))%Q
  | _ => True
  end.
Proof.
  intros i s1 s2 H1 H P1 P2 C1 C2. pose proof (proj1 (C11_rectangle_feasible_first i s1 s2) H) as H2. split; [exact H2|].
  unfold rsol_lt in H. rewrite H1, H2 in H. cbn [negb] in H.
  destruct (rin_objective i); try exact I; try discriminate.
  - injection H as H. apply Z.ltb_lt. exact H.
  - rewrite greater_int in H. destruct (Z.eqb_spec (rc_number_of_bins (rs_core s2)) (rc_number_of_bins (rs_core s1))) as [E|E];
      cbn [negb] in H; injection H as H; apply Z.ltb_lt in H; auto.
  - injection H as H. apply Z.ltb_lt. exact H.
  - injection H as H. apply Z.ltb_lt. exact H.
  - injection H as H. apply Common_Proof.sgp_sound; assumption.
  - injection H as H. apply Common_Proof.sgc_sound; assumption.
  - injection H as H. apply Common_Proof.sgp_sound; assumption.
Qed.
Print Assumptions C11_rectangle_improvement.

Example C11_rectangle_example :
  let s n := match rhistory (ex_rinstance OBinPacking) raccept [RAddBin 0 n; RAddItem 0 (mkPl 0 0 0 false)] [] with
             | Some s => s | None => rsol_new (ex_rinstance OBinPacking) end in
  rs_feasible (s 1) = true /\ rs_feasible (s 2) = true /\
  rsol_lt (ex_rinstance OBinPacking) (s 2) (s 1) = Some true /\
  rsol_lt (ex_rinstance OBinPacking) (s 1) (s 2) = Some false.
Proof. vm_compute. auto. Qed.
