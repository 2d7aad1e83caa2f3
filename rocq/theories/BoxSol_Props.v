(** * C50, C11 (box): box solutions *)

From Coq Require Import List ZArith QArith Bool Lia Arith.
From Verif Require Import Util Common_Model Common_Spec Common_Proof OneDim_Model OneDim_Order Geom.
From Verif Require Import RectSol_Props Box_Model Box_Spec BoxSol_Model BoxSol_Spec BoxSol_Proof.
Import ListNotations.
Open Scope Z_scope.

(** ** An example *)

Definition all_rotations : list Rotation := [XYZ; YXZ; ZYX; YZX; XZY; ZXY].

(** Item 2 consumes 3 for its first copy and 1 for the next ones. *)
Definition ex_bres : Resource := mkResource (3 # 1) [[]; []; [3%Q; 1%Q]] false 0.
Definition ex_binstance (objective : Objective) : BInstance :=
  mkBInst objective
    [ mkBI (mkV 4 3 2) 24 5 1 all_rotations 700 [[]; []];
      mkBI (mkV 2 6 5) 60 5 0 [XYZ; ZYX] 900 [[]; []];
      mkBI (mkV 5 5 1) 25 5 0 [XYZ] 400 [[0%nat]; []] ]
    [ mkBB (mkV 10 8 6) 480 3 0 (Some 3000%Q) [ex_bres];
      mkBB (mkV 20 8 6) 900 3 0 None [] ].
Definition xaccept : XCallback := fun _ => true.

Lemma ex_xwf : forall o, xwf_resources (ex_binstance o).
Proof.
  intros o x t Hx Ht. simpl in Hx, Ht.
  destruct x as [|[|[|x]]]; [| | |lia]; (destruct t as [|[|t]]; [| |lia]); simpl;
    (split; [repeat constructor; simpl; tauto|]); intro r; split; intro H; try (destruct H as [H H']);
    repeat (destruct r as [|r]; simpl in *; try lia; try congruence; try tauto).
  all: try (destruct H as [H|[]]; subst; simpl; split; [lia|discriminate]).
  all: try (split; [lia|discriminate]).
  all: try tauto; try (destruct H; [discriminate|contradiction]).
Qed.
Lemma ex_xsane : forall o, xsane_resources (ex_binstance o).
Proof.
  intros o bt r Hbt Hr. simpl in Hbt. destruct Hbt as [<-|[<-|[]]]; simpl in Hr; [|destruct Hr].
  destruct Hr as [<-|[]]. split; [unfold Qle; simpl; lia|]. intros s q Hs Hq. simpl in Hs.
  destruct Hs as [<-|[<-|[<-|[]]]]; simpl in Hq; try tauto. destruct Hq as [<-|[<-|[]]]; unfold Qle; simpl; lia.
Qed.

Definition ex_xcalls : list XBuilderCall :=
  [XAddBin 0 2; XAddItem 0 (mkBP 0 (mkV 0 0 0) YXZ); XAddItem 0 (mkBP 1 (mkV 3 0 0) XYZ);
   XAddBin 1 1; XAddItem 1 (mkBP 1 (mkV 0 0 0) ZYX); XAddItem 1 (mkBP 2 (mkV 0 0 2) XYZ)].

(** ** C50 *)

(** For every sequence of construction calls, the bins are those asked for and
    every indicator is the sum over the bins it claims to be. *)
Theorem C50_indicators : forall i cb calls1 calls2 s, xwf_resources i -> xcopies_nonneg calls1 calls2 ->
  xhistory i cb calls1 calls2 = Some s ->
  xview s = xdesc_run [] calls1 ++ flat_map xcall_bins calls2 /\ XIndicators i (xview s) (xsol_core s) /\ xeach i (xsol_core s).
Proof.
  intros i cb calls1 calls2 s Hwf Hc H. destruct (xhistory_spec i cb Hwf calls1 calls2 s H Hc) as [[F _] V].
  split; [exact V|]. split; [apply xinv_indicators, (xf_inv _ _ _ _ _ F)|apply (xf_each _ _ _ _ _ F)].
Qed.
Print Assumptions C50_indicators.

Example C50_indicators_example :
  xcopies_nonneg ex_xcalls [] /\
  exists s, xhistory (ex_binstance OBinPacking) xaccept ex_xcalls [] = Some s /\
    xc_number_of_bins (xsol_core s) = 3 /\ xc_item_volume (xsol_core s) = 253 /\ xc_bin_volume (xsol_core s) = 1920 /\
    (xc_item_profit (xsol_core s) == 253)%Q /\ xc_item_copies (xsol_core s) = [2; 3; 1] /\
    xc_bin_weight (xsol_core s) = None /\ xsol_feasible s = true.
Proof.
  split.
  - intros d Hd. simpl in Hd. destruct Hd as [<-|[<-|[]]]; simpl; lia.
  - eexists. split; [vm_compute; reflexivity|]. repeat split.
Qed.

(** An item is only accepted in an allowed orientation, by the builder. *)
Theorem C50_orientations : forall i bins calls d p, xb_run i [] calls = Some bins ->
  In d (xdesc_run [] calls) -> In p (xd_items d) ->
  (bp_type p < length (bx_items i))%nat /\ In (bp_rot p) (bi_rotations (bxitem i (bp_type p))).
Proof.
  intros i bins calls d p H Hd Hp. destruct (xb_run_spec i calls [] bins H) as [V1 V2]; [intros b []|]. cbn [map] in V1.
  rewrite <- V1 in Hd. apply in_map_iff in Hd. destruct Hd as (b & <- & Hb). destruct (V2 b Hb) as (_ & R & _). apply R. exact Hp.
Qed.
Print Assumptions C50_orientations.

Example C50_orientations_example :
  (exists bins, xb_run (ex_binstance OBinPacking) [] ex_xcalls = Some bins) /\
  xb_run (ex_binstance OBinPacking) [] [XAddBin 0 1; XAddItem 0 (mkBP 1 (mkV 0 0 0) YXZ)] = None.
Proof. split; [eexists|]; vm_compute; reflexivity. Qed.

(** [feasible()] of a solution with bins: numbers of copies, resources without
    penalty, and the callback; nothing else. *)
Theorem C50_feasible : forall i cb calls1 calls2 s, xwf_resources i -> xsane_resources i ->
  xcopies_nonneg calls1 calls2 -> xhistory i cb calls1 calls2 = Some s ->
  (xsol_feasible s = true <->
   xcopies_ok i (xview s) /\ (forall d, In d (xview s) -> xresources_ok_end i d) /\ (xview s <> [] -> cb (xsol_core s) = true)
   \/ xview s = [] /\ forall x, (x < length (bx_items i))%nat -> bi_copies_min (bxitem i x) <= 0).
Proof.
  intros i cb calls1 calls2 s Hwf Hsane Hc H. destruct (xhistory_spec i cb Hwf calls1 calls2 s H Hc) as [[F D] V].
  rewrite (xf_feasible _ _ _ _ _ F).
  assert (HR : (forall d, In d (xview s) -> xresources_ok i d) <-> (forall d, In d (xview s) -> xresources_ok_end i d)).
  { split; intros G d Hd; apply (xresources_whole i d Hsane (D d Hd)); apply G, Hd. }
  rewrite HR. pose proof (xf_cb _ _ _ _ _ F) as E.
  assert (HC : xsol_callback_ok s = true <-> (xview s <> [] -> cb (xsol_core s) = true)).
  { rewrite E. unfold xview. destruct (xc_bins (xsol_core s)); cbn [map].
    - split; [intros _ N; contradiction|reflexivity].
    - split; [intros G _; exact G|intro G; apply G; discriminate]. }
  rewrite HC. reflexivity.
Qed.
Print Assumptions C50_feasible.

Example C50_feasible_example : exists s1 s2,
  xhistory (ex_binstance OBinPacking) xaccept ex_xcalls [] = Some s1 /\ xsol_feasible s1 = true /\
  xhistory (ex_binstance OBinPacking) xaccept (ex_xcalls ++ [XAddItem 0 (mkBP 2 (mkV 0 0 5) XYZ); XAddItem 0 (mkBP 2 (mkV 5 0 5) XYZ)]) []
    = Some s2 /\ xsol_feasible s2 = false.
Proof. eexists. eexists. split; [vm_compute; reflexivity|]. split; [reflexivity|]. split; [vm_compute; reflexivity|reflexivity]. Qed.

(** The extent of a solution made by the builder is that of its last bin; so are
    volume and leftover when this bin is not empty. *)
Theorem C50_last_bin : forall i cb calls s ds d, xwf_resources i -> xcopies_nonneg calls [] ->
  xhistory i cb calls [] = Some s -> xview s = ds ++ [d] ->
  (forall a, vat (xc_max (xsol_core s)) a = extent i a (xd_items d)) /\
  (xd_items d <> [] ->
   xc_volume (xsol_core s) = xc_bin_volume (xsol_core s) - bn_vol (bxbin i (xd_type d))
     + extent i AX (xd_items d) * extent i AY (xd_items d) * extent i AZ (xd_items d) /\
   xc_leftover (xsol_core s) = bn_vol (bxbin i (xd_type d))
     - extent i AX (xd_items d) * extent i AY (xd_items d) * extent i AZ (xd_items d)).
Proof.
  intros i cb calls s ds d Hwf Hc H V. destruct (xhistory_spec i cb Hwf calls [] s H Hc) as [[F D] V'].
  pose proof (xf_last _ _ _ _ _ F) as L. pose proof (xf_z _ _ _ _ _ F) as Lz. rewrite V, rev_app_distr in L. cbn [rev app] in L.
  cbn [flat_map] in V'. rewrite app_nil_r in V'. rewrite skipn_all2 in Lz by (rewrite V'; lia).
  rewrite <- V', V in Lz. unfold built_z in Lz. rewrite rev_app_distr in Lz. cbn [rev app map fold_right] in Lz.
  rewrite Z.max_l in Lz by apply extent_nonneg.
  destruct L as (L1 & L2 & L3). assert (M : forall a, vat (xc_max (xsol_core s)) a = extent i a (xd_items d)) by (intros []; assumption).
  split; [exact M|]. intro Hne. destruct (L3 Hne) as [L4 L5]. unfold vol in L4. rewrite L1, L2, Lz in L4.
  split; [exact L4|]. rewrite L5, L4. lia.
Qed.
Print Assumptions C50_last_bin.

Example C50_last_bin_example : exists s ds d, xhistory (ex_binstance OBinPacking) xaccept ex_xcalls [] = Some s /\
  xview s = ds ++ [d] /\ xd_items d <> [] /\ xc_max (xsol_core s) = mkV 5 6 3 /\ xc_leftover (xsol_core s) = 870.
Proof.
  eexists. exists [mkXD 0 2 [mkBP 0 (mkV 0 0 0) YXZ; mkBP 1 (mkV 3 0 0) XYZ]], (mkXD 1 1 [mkBP 1 (mkV 0 0 0) ZYX; mkBP 2 (mkV 0 0 2) XYZ]).
  split; [vm_compute; reflexivity|]. repeat split. discriminate.
Qed.

(** Finding: with appended bins, the height is the largest of the appended bins
    and of the last bin built before, not that of the last bin. *)
Theorem C50_appended_height : forall i cb calls1 calls2 s, xwf_resources i -> xcopies_nonneg calls1 calls2 ->
  xhistory i cb calls1 calls2 = Some s ->
  v_z (xc_max (xsol_core s)) =
    Z.max (match rev (xdesc_run [] calls1) with [] => 0 | d :: _ => extent i AZ (xd_items d) end)
      (fold_right Z.max 0 (map (fun d => extent i AZ (xd_items d)) (flat_map xcall_bins calls2))).
Proof.
  intros i cb calls1 calls2 s Hwf Hc H. destruct (xhistory_spec i cb Hwf calls1 calls2 s H Hc) as [[F D] V].
  pose proof (xf_z _ _ _ _ _ F) as Lz. rewrite Lz. unfold built_z. f_equal. f_equal. f_equal. rewrite V, skipn_app.
  rewrite skipn_all2 by lia. replace (_ - _)%nat with 0%nat by lia. reflexivity.
Qed.
Print Assumptions C50_appended_height.

Theorem C50_appended_last_bin_refuted : exists i calls1 calls2 s ds d,
  xwf_resources i /\ xcopies_nonneg calls1 calls2 /\ xhistory i xaccept calls1 calls2 = Some s /\
  xsol_feasible s = true /\ xview s = ds ++ [d] /\ xd_items d <> [] /\ bpacking_ok i (xview s) /\
  extent i AZ (xd_items d) = 2 /\ v_z (xc_max (xsol_core s)) = 5 /\
  xc_leftover (xsol_core s) = 480 - 4 * 3 * 5.
Proof.
  set (i := ex_binstance OBinPackingWithLeftovers).
  destruct (xhistory i xaccept [XAddBin 0 1; XAddItem 0 (mkBP 0 (mkV 0 0 0) XYZ)] []) as [source|] eqn:E; [|vm_compute in E; discriminate].
  exists i, [XAddBin 0 1; XAddItem 0 (mkBP 1 (mkV 0 0 0) XYZ)], [XAppendBin source 0 1 [] []]. eexists.
  exists [mkXD 0 1 [mkBP 1 (mkV 0 0 0) XYZ]], (mkXD 0 1 [mkBP 0 (mkV 0 0 0) XYZ]).
  vm_compute in E. injection E as <-.
  split; [apply ex_xwf|].
  split; [intros d Hd; simpl in Hd; repeat (destruct Hd as [<-|Hd]; [simpl; lia|]); destruct Hd|].
  split; [vm_compute; reflexivity|]. split; [reflexivity|]. split; [reflexivity|]. split; [discriminate|]. split; [|repeat split].
  split.
  - intros d Hd. simpl in Hd. destruct Hd as [<-|[<-|[]]]; (split; [simpl; lia|split; [simpl; lia|]]).
    + split; [|repeat constructor]. intros p [<-|[]]. split; [simpl; lia| |simpl; tauto]. intros []; vm_compute; split; discriminate.
    + split; [|repeat constructor]. intros p [<-|[]]. split; [simpl; lia| |simpl; tauto]. intros []; vm_compute; split; discriminate.
  - intros x Hx. simpl in Hx. destruct x as [|[|[|x]]]; [| | |lia]; vm_compute; discriminate.
Qed.
Print Assumptions C50_appended_last_bin_refuted.

(** Items of non-negative sizes that do not overlap fill at most the volume
    around them. *)
Lemma box_volume_bound : forall i ps (w : Axis -> Z), (forall a, 0 <= w a) ->
  (forall p, In p ps -> forall a, 0 <= vat (bp_pos p) a /\ 0 <= bp_size i p a /\ bp_end i p a <= w a) ->
  ForallOrdPairs (bdisjoint i) ps ->
  zsum (fun p => bi_vol (bxitem i (bp_type p))) ps <= w AX * w AY * w AZ.
Proof.
  intros i ps w Hw Hin Hd.
  set (ax := fun a => mkAxis BPlace (fun p => vat (bp_pos p) a) (fun p => bp_size i p a) (w a)).
  pose proof (volume_bound BPlace (map ax axes) ps) as HV.
  assert (E : zsum (fun p => bi_vol (bxitem i (bp_type p))) ps
    = zsum (fun p => prod (map (fun a => ax_len BPlace a p) (map ax axes))) ps).
  { apply zsum_ext. intros p _. cbn [map axes ax_len prod fold_right ax]. unfold bp_size, bi_vol. destruct (bp_rot p); lia. }
  rewrite E. clear E.
  assert (E2 : prod (map (fun a => ax_cap BPlace a) (map ax axes)) = w AX * w AY * w AZ) by (cbn [map axes ax_cap prod fold_right ax]; lia).
  rewrite <- E2. apply HV.
  - intros a p Ha Hp. apply in_map_iff in Ha. destruct Ha as (b & <- & _). destruct (Hin p Hp b) as (A1 & A2 & A3).
    unfold inside, bp_end in *. cbn. lia.
  - intros a Ha. apply in_map_iff in Ha. destruct Ha as (b & <- & _). apply Hw.
  - apply (ord_pairs_impl _ (bdisjoint i)); [|exact Hd]. intros p q (a & H). unfold separated. exists (ax a).
    split; [apply in_map; destruct a; simpl; tauto|]. unfold bp_end in H. cbn. exact H.
Qed.

Lemma extent_ge : forall i a ps p, In p ps -> bp_end i p a <= extent i a ps.
Proof. intros i a ps p H. unfold extent. apply max_in. apply (in_map (fun p => bp_end i p a)). exact H. Qed.

(** The waste of a geometrically valid packing made by the builder whose last bin
    is not empty is not negative. *)
Theorem C50_waste : forall i cb calls s ds d, xwf_resources i -> xcopies_nonneg calls [] ->
  bpositive_items i -> bpositive_bins i ->
  xhistory i cb calls [] = Some s -> bpacking_ok i (xview s) -> xview s = ds ++ [d] -> xd_items d <> [] ->
  0 <= xwaste s <= xfull_waste s.
Proof.
  intros i cb calls s ds d Hwf Hc Hits Hbins H [P1 _] V Hne.
  destruct (C50_last_bin i cb calls s ds d Hwf Hc H V) as (_ & A). destruct (A Hne) as [A' _]. clear A.
  destruct (C50_indicators i cb calls [] s Hwf Hc H) as (_ & I & _).
  unfold xwaste, xfull_waste. rewrite A', (xi_item_volume _ _ _ I), (xi_bin_volume _ _ _ I).
  assert (Hpos : forall e p a, In e (xview s) -> In p (xd_items e) -> 0 < bp_size i p a).
  { intros e p a He Hp. destruct (P1 e He) as (_ & _ & G). destruct (bg_places _ _ _ G p Hp) as [T _ _].
    destruct (Hits (bxitem i (bp_type p)) (nth_In _ _ T)) as (S1 & _).
    pose proof (S1 AX). pose proof (S1 AY). pose proof (S1 AZ). unfold vat in *. unfold bp_size. destruct (bp_rot p), a; assumption. }
  assert (Hbin : forall e a, In e (xview s) -> 1 <= vat (bn_box (bxbin i (xd_type e))) a).
  { intros e a He. destruct (P1 e He) as (T & _). apply Hbins, nth_In, T. }
  assert (Hle : forall e, In e (xview s) -> zsum (fun p => bi_vol (bxitem i (bp_type p))) (xd_items e) <= bn_vol (bxbin i (xd_type e))).
  { intros e He. destruct (P1 e He) as (_ & _ & [G1 G2]).
    apply (box_volume_bound i (xd_items e) (vat (bn_box (bxbin i (xd_type e))))); [|intros p Hp a|exact G2].
    - intro a. pose proof (Hbin e a He). lia.
    - destruct (G1 p Hp) as [_ X _]. destruct (X a). pose proof (Hpos e p a He Hp). lia. }
  rewrite V, !zsum_snoc.
  assert (Hd : In d (xview s)) by (rewrite V; apply in_or_app; right; left; reflexivity).
  assert (Hds : zsum (fun e => xd_copies e * zsum (fun p => bi_vol (bxitem i (bp_type p))) (xd_items e)) ds
    <= zsum (fun e => xd_copies e * bn_vol (bxbin i (xd_type e))) ds).
  { apply zsum_le. intros e He. assert (He' : In e (xview s)) by (rewrite V; apply in_or_app; left; exact He).
    destruct (P1 e He') as (_ & C & _). pose proof (Hle e He'). apply Z.mul_le_mono_nonneg_l; lia. }
  destruct (P1 d Hd) as (_ & C & [G1 G2]).
  assert (Hl : zsum (fun p => bi_vol (bxitem i (bp_type p))) (xd_items d)
    <= extent i AX (xd_items d) * extent i AY (xd_items d) * extent i AZ (xd_items d)).
  { apply (box_volume_bound i (xd_items d) (fun a => extent i a (xd_items d))); [intro a; apply extent_nonneg| |exact G2].
    intros p Hp a. destruct (G1 p Hp) as [_ X _]. destruct (X a). pose proof (Hpos d p a Hd Hp). pose proof (extent_ge i a _ p Hp). lia. }
  assert (R : forall a, extent i a (xd_items d) <= vat (bn_box (bxbin i (xd_type d))) a).
  { intro a. pose proof (Hbin d a Hd). unfold extent. clear - G1 H0. induction (xd_items d) as [|p l IH]; cbn [map fold_right]; [lia|].
    destruct (G1 p (or_introl eq_refl)) as [_ X _]. destruct (X a). specialize (IH (fun q Hq => G1 q (or_intror Hq))). lia. }
  pose proof (Hle d Hd) as Hled. pose proof (R AX) as RX. pose proof (R AY) as RY. pose proof (R AZ) as RZ. cbn [vat] in RX, RY, RZ.
  pose proof (extent_nonneg i AX (xd_items d)). pose proof (extent_nonneg i AY (xd_items d)). pose proof (extent_nonneg i AZ (xd_items d)).
  assert (M : extent i AX (xd_items d) * extent i AY (xd_items d) * extent i AZ (xd_items d) <= bn_vol (bxbin i (xd_type d))).
  { unfold bn_vol. apply Z.mul_le_mono_nonneg; [apply Z.mul_nonneg_nonneg; lia| |lia|lia]. apply Z.mul_le_mono_nonneg; lia. }
  set (a := zsum (fun p => _) (xd_items d)) in *. set (B := bn_vol _) in *.
  set (E := extent i AX _ * _ * _) in *.
  assert (K : 0 <= (xd_copies d - 1) * (B - a)) by (apply Z.mul_nonneg_nonneg; lia).
  nia.
Qed.
Print Assumptions C50_waste.

Lemma ex_xcalls_packing : exists s, xhistory (ex_binstance OBinPacking) xaccept ex_xcalls [] = Some s /\
  bpacking_ok (ex_binstance OBinPacking) (xview s) /\ xwaste s = 797 /\ xfull_waste s = 1667.
Proof.
  eexists. split; [vm_compute; reflexivity|]. split; [|split; reflexivity]. split.
  - intros d Hd. simpl in Hd. destruct Hd as [<-|[<-|[]]]; (split; [simpl; lia|split; [simpl; lia|]]); split.
    + intros p Hp. destruct Hp as [<-|[<-|[]]]; (split; [simpl; lia|intros []; vm_compute; split; discriminate|simpl; tauto]).
    + repeat constructor. exists AX. left. vm_compute. discriminate.
    + intros p Hp. destruct Hp as [<-|[<-|[]]]; (split; [simpl; lia|intros []; vm_compute; split; discriminate|simpl; tauto]).
    + repeat constructor. exists AZ. left. vm_compute. discriminate.
  - intros x Hx. simpl in Hx. destruct x as [|[|[|x]]]; [| | |lia]; vm_compute; discriminate.
Qed.

(** [feasible()] is no guarantee on the geometry, the weight or the number of
    bins: here the items overlap, one is outside the bin, the load is over the maximum
    weight of the bin, and more bins are used than there are. *)
Theorem C50_geometry_refuted : exists i calls s,
  xwf_resources i /\ xsane_resources i /\ xcopies_nonneg calls [] /\ xhistory i xaccept calls [] = Some s /\
  xsol_feasible s = true /\
  (exists d p q, In d (xview s) /\ xd_items d = [p; q] /\ ~ bdisjoint i p q /\ ~ bplace_ok i (bxbin i (xd_type d)) q) /\
  (exists d w, In d (xview s) /\ bn_max_weight (bxbin i (xd_type d)) = Some w /\
     (w < qsum (fun p => bi_weight (bxitem i (bp_type p))) (xd_items d))%Q) /\
  bn_copies (bxbin i 1) < bused_bins 1 (xview s).
Proof.
  exists (ex_binstance OBinPacking),
    [XAddBin 0 1; XAddItem 0 (mkBP 1 (mkV 8 0 0) XYZ); XAddItem 0 (mkBP 1 (mkV 0 0 0) XYZ);
     XAddItem 0 (mkBP 1 (mkV 2 0 0) XYZ); XAddItem 0 (mkBP 1 (mkV 4 0 0) XYZ);
     XAddBin 1 4; XAddItem 1 (mkBP 2 (mkV 0 0 0) XYZ);
     XAddBin 0 1; XAddItem 2 (mkBP 0 (mkV 0 0 0) XYZ); XAddItem 2 (mkBP 0 (mkV (-1) 0 0) XYZ)].
  eexists. split; [apply ex_xwf|]. split; [apply ex_xsane|].
  split; [intros d Hd; simpl in Hd; repeat (destruct Hd as [<-|Hd]; [simpl; lia|]); destruct Hd|].
  split; [vm_compute; reflexivity|]. split; [reflexivity|].
  split; [|split].
  - exists (mkXD 0 1 [mkBP 0 (mkV 0 0 0) XYZ; mkBP 0 (mkV (-1) 0 0) XYZ]), (mkBP 0 (mkV 0 0 0) XYZ), (mkBP 0 (mkV (-1) 0 0) XYZ).
    split; [simpl; tauto|]. split; [reflexivity|]. split.
    + intros (a & H). destruct a; vm_compute in H; destruct H as [H|H]; apply H; reflexivity.
    + intros [_ H _]. destruct (H AX) as [H1 _]. vm_compute in H1. apply H1. reflexivity.
  - exists (mkXD 0 1 [mkBP 1 (mkV 8 0 0) XYZ; mkBP 1 (mkV 0 0 0) XYZ; mkBP 1 (mkV 2 0 0) XYZ; mkBP 1 (mkV 4 0 0) XYZ]), 3000%Q.
    split; [simpl; tauto|]. split; [reflexivity|]. vm_compute. reflexivity.
  - vm_compute. reflexivity.
Qed.
Print Assumptions C50_geometry_refuted.

(** ** C11, box solutions *)

Definition xlt (i : BInstance) (s1 s2 : XSolution) : bool :=
  match xsol_lt i s1 s2 with Some b => b | None => false end.

Theorem C11_box_feasible_first : forall i s1 s2,
  (xsol_lt i s1 s2 = Some true -> xsol_feasible s2 = true) /\
  (xsol_feasible s1 = false -> xsol_feasible s2 = true -> xsol_lt i s1 s2 = Some true).
Proof.
  intros i s1 s2. unfold xsol_lt. split.
  - destruct (xsol_feasible s2); [reflexivity|discriminate].
  - intros -> ->. reflexivity.
Qed.
Print Assumptions C11_box_feasible_first.

(** Bin packing, leftovers and open dimensions: a strict weak order. *)
Theorem C11_box_strict_weak_order : forall i,
  bx_objective i = OBinPacking \/ bx_objective i = OBinPackingWithLeftovers
  \/ bx_objective i = OOpenDimensionX \/ bx_objective i = OOpenDimensionY \/ bx_objective i = OOpenDimensionZ ->
  StrictWeakOrder XSolution (xlt i).
Proof.
  intros i Ho. unfold xlt, xsol_lt. constructor.
  - intro a. destruct (xsol_feasible a); cbn [negb]; [|reflexivity].
    destruct Ho as [-> |[-> |[-> |[-> | ->]]]]; rewrite ?greater_int, ?Z.eqb_refl, ?Z.ltb_irrefl; reflexivity.
  - intros a b c. destruct (xsol_feasible a), (xsol_feasible b), (xsol_feasible c); cbn [negb]; try congruence;
    destruct Ho as [-> |[-> |[-> |[-> | ->]]]]; rewrite ?greater_int; rewrite ?Z.ltb_lt; try lia; try reflexivity;
    repeat match goal with |- context [?x =? ?y] => destruct (Z.eqb_spec x y) end; cbn [negb]; rewrite ?Z.ltb_lt; lia.
  - intros a b c. destruct (xsol_feasible a), (xsol_feasible b), (xsol_feasible c); cbn [negb]; try congruence;
    destruct Ho as [-> |[-> |[-> |[-> | ->]]]]; rewrite ?greater_int; rewrite ?Z.ltb_ge; try lia; try congruence;
    repeat match goal with |- context [?x =? ?y] => destruct (Z.eqb_spec x y) end; cbn [negb]; rewrite ?Z.ltb_ge; lia.
Qed.
Print Assumptions C11_box_strict_weak_order.

(** Better means better for the user. *)
Theorem C11_box_improvement : forall i s1 s2, xsol_feasible s1 = true -> xsol_lt i s1 s2 = Some true ->
  (0 <= xc_item_profit (xsol_core s1))%Q -> (0 <= xc_item_profit (xsol_core s2))%Q ->
  xsol_feasible s2 = true /\
  match bx_objective i with
  | OKnapsack | OFeasibility => (xc_item_profit (xsol_core s1) < xc_item_profit (xsol_core s2))%Q
  | OBinPacking => xc_number_of_bins (xsol_core s2) < xc_number_of_bins (xsol_core s1)
  | OBinPackingWithLeftovers => xc_number_of_bins (xsol_core s2) < xc_number_of_bins (xsol_core s1)
      \/ xc_number_of_bins (xsol_core s2) = xc_number_of_bins (xsol_core s1)
         /\ xc_leftover (xsol_core s1) < xc_leftover (xsol_core s2)
  | OOpenDimensionX => v_x (xc_max (xsol_core s2)) < v_x (xc_max (xsol_core s1))
  | OOpenDimensionY => v_y (xc_max (xsol_core s2)) < v_y (xc_max (xsol_core s1))
  | OOpenDimensionZ => v_z (xc_max (xsol_core s2)) < v_z (xc_max (xsol_core s1))
  | _ => True
  end.
Proof.
  intros i s1 s2 H1 H P1 P2. pose proof (proj1 (C11_box_feasible_first i s1 s2) H) as H2. split; [exact H2|].
  unfold xsol_lt in H. rewrite H1, H2 in H. cbn [negb] in H.
  destruct (bx_objective i); try exact I; try discriminate.
  - injection H as H. apply Z.ltb_lt. exact H.
  - rewrite greater_int in H. destruct (Z.eqb_spec (xc_number_of_bins (xsol_core s2)) (xc_number_of_bins (xsol_core s1))) as [E|E];
      cbn [negb] in H; injection H as H; apply Z.ltb_lt in H; auto.
  - injection H as H. apply Z.ltb_lt. exact H.
  - injection H as H. apply Z.ltb_lt. exact H.
  - injection H as H. apply Z.ltb_lt. exact H.
  - injection H as H. apply Common_Proof.sgp_sound; assumption.
  - injection H as H. apply Common_Proof.sgp_sound; assumption.
Qed.
Print Assumptions C11_box_improvement.

Example C11_box_example :
  let s n := match xhistory (ex_binstance OBinPacking) xaccept [XAddBin 0 n; XAddItem 0 (mkBP 0 (mkV 0 0 0) XYZ)] [] with
             | Some s => s | None => xsol_new (ex_binstance OBinPacking) end in
  xsol_feasible (s 1) = true /\ xsol_feasible (s 2) = true /\
  xsol_lt (ex_binstance OBinPacking) (s 2) (s 1) = Some true /\
  xsol_lt (ex_binstance OBinPacking) (s 1) (s 2) = Some false.
Proof. vm_compute. auto. Qed.

(** Finding: the variable-sized objective, which the optimizer of this problem
    type accepts, has no comparison: two feasible solutions make it throw. *)
Theorem C11_box_variable_sized_refuted : forall i s1 s2, bx_objective i = OVariableSizedBinPacking ->
  xsol_feasible s1 = true -> xsol_feasible s2 = true -> xsol_lt i s1 s2 = None.
Proof. intros i s1 s2 E H1 H2. unfold xsol_lt. rewrite H1, H2, E. reflexivity. Qed.
Print Assumptions C11_box_variable_sized_refuted.
