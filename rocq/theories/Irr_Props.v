(** * C67, C11 (irregular): irregular solutions *)

From Coq Require Import List ZArith QArith Bool Lia Arith Lqa.
From Verif Require Import Util Common_Model Common_Spec Common_Proof OneDim_Model RectSol_Proof.
From Verif Require Import Irr_Model Irr_Spec Irr_Proof.
Import ListNotations.
Open Scope Z_scope.

(** ** An example *)

(** Item 0: a right triangle with legs 4 and 2, on its bottom or turned by a
    quarter; item 1: a square of side 3, which may be mirrored; item 2 consumes 3
    for its first copy and 1 for the next ones. *)
Definition ex_irtriangle : Q -> bool -> IrBox := fun a _ =>
  if Qeq_bool a 90 then mkIrBox (-2) 0 0 4 else mkIrBox 0 4 0 2.
Definition ex_irsquare (l : Q) : Q -> bool -> IrBox := fun _ m =>
  if m then mkIrBox (-l) 0 0 l else mkIrBox 0 l 0 l.
Definition ex_irres (penalize : bool) : Resource := mkResource (3 # 1) [[]; []; [3%Q; 1%Q]] penalize 7.
Definition ex_irinstance (objective : Objective) (mode : LeftoverMode) (penalize : bool) : IrInstance :=
  mkIrInst objective mode 2 0
    [ mkIrItem 4 16 4 5 1 [mkIrRot 0 0 false; mkIrRot 90 90 false] ex_irtriangle [[]; []];
      mkIrItem 9 36 9 5 0 [mkIrRot 0 45 false; mkIrRot 0 0 true] (ex_irsquare 3) [[]; []];
      mkIrItem 25 100 25 8 0 [mkIrRot 0 0 false] (ex_irsquare 5) [[0%nat]; []] ]
    [ mkIrBin 100 400 (mkIrBox 0 10 0 10) 100 3 0 [ex_irres penalize];
      mkIrBin 150 600 (mkIrBox (-10) 10 0 10) 180 3 0 [] ].
Definition iraccept : IrCallback := fun _ => true.

Lemma ex_irwf : forall o m b, irwf_resources (ex_irinstance o m b).
Proof.
  intros o m b x t Hx Ht. simpl in Hx, Ht.
  destruct x as [|[|[|x]]]; [| | |lia]; (destruct t as [|[|t]]; [| |lia]); simpl;
    (split; [repeat constructor; simpl; tauto|]); intro r; split; intro H; try (destruct H as [H H']);
    repeat (destruct r as [|r]; simpl in *; try lia; try congruence; try tauto).
  all: try (destruct H as [H|[]]; subst; simpl; split; [lia|discriminate]).
  all: try (split; [lia|discriminate]).
  all: try tauto; try (destruct H; [discriminate|contradiction]).
Qed.
Lemma ex_irsane : forall o m b, irsane_resources (ex_irinstance o m b).
Proof.
  intros o m b bt r Hbt Hr. simpl in Hbt. destruct Hbt as [<-|[<-|[]]]; simpl in Hr; [|destruct Hr].
  destruct Hr as [<-|[]]. split; [unfold Qle; simpl; lia|]. intros s q Hs Hq. simpl in Hs.
  destruct Hs as [<-|[<-|[<-|[]]]]; simpl in Hq; try tauto. destruct Hq as [<-|[<-|[]]]; unfold Qle; simpl; lia.
Qed.

(** Two copies of a bin with a turned triangle and a square, then a bin with a
    mirrored square and a large square. *)
Definition ex_ircalls : list IrBuilderCall :=
  [IrAddBin 0 2; IrAddItem 0 (mkIrP 0 2 0 90 false false); IrAddItem 0 (mkIrP 1 2 0 (45 # 2) false false);
   IrAddBin 1 1; IrAddItem 1 (mkIrP 1 (-4) 1 0 true false); IrAddItem 1 (mkIrP 2 (-4) 0 0 false true)].

(** ** C67 *)

(** For every sequence of construction calls, the bins are those asked for and
    every indicator is the sum over the bins it claims to be. *)
Theorem C67_indicators : forall i cb calls1 calls2 s, irwf_resources i -> ircopies_nonneg calls1 calls2 ->
  irhistory i cb calls1 calls2 = Some s ->
  irview s = irdesc_run [] calls1 ++ flat_map ircall_bins calls2 /\ IrIndicators i (irview s) (irsol_core s) /\ ireach i (irsol_core s).
Proof.
  intros i cb calls1 calls2 s Hwf Hc H. destruct (irhistory_spec i cb Hwf calls1 calls2 s H Hc) as [[F _] V].
  split; [exact V|]. split; [apply irinv_indicators, (irf_inv _ _ _ F)|apply (irf_each _ _ _ F)].
Qed.
Print Assumptions C67_indicators.

Example C67_indicators_example :
  ircopies_nonneg ex_ircalls [] /\
  exists s, irhistory (ex_irinstance OBinPacking LLeft false) iraccept ex_ircalls [] = Some s /\
    irc_number_of_bins (irsol_core s) = 3 /\ (irc_item_area (irsol_core s) == 60)%Q /\ (irc_bin_area (irsol_core s) == 350)%Q /\
    (irc_item_profit (irsol_core s) == 60)%Q /\ (irc_bin_cost (irsol_core s) == 380)%Q /\
    irc_item_copies (irsol_core s) = [2; 3; 1] /\ irc_bin_copies (irsol_core s) = [2; 1] /\ irsol_feasible s = true.
Proof.
  split.
  - intros d Hd. simpl in Hd. destruct Hd as [<-|[<-|[]]]; simpl; lia.
  - eexists. split; [vm_compute; reflexivity|]. repeat split.
Qed.

(** An item is only accepted by the builder in an allowed orientation: an angle
    within one of the ranges of the item type, with the mirror flag of the range. *)
Theorem C67_orientations : forall i bins calls d p, irb_run i [] calls = Some bins ->
  In d (irdesc_run [] calls) -> In p (ird_items d) ->
  (ip_type p < length (ir_items i))%nat /\
  exists r, In r (ii_rotations (iritem i (ip_type p))) /\ irr_mirror r = ip_mirror p /\
    (irr_start r <= ip_angle p /\ ip_angle p <= irr_end r)%Q.
Proof.
  intros i bins calls d p H Hd Hp. destruct (irb_run_spec i calls [] bins H) as [V1 V2]; [intros b []|]. cbn [map] in V1.
  rewrite <- V1 in Hd. apply in_map_iff in Hd. destruct Hd as (b & <- & Hb). destruct (V2 b Hb) as (_ & R & _).
  destruct (R p Hp) as [R1 R2]. split; [exact R1|]. apply rotation_allowed, R2.
Qed.
Print Assumptions C67_orientations.

Example C67_orientations_example :
  (exists bins, irb_run (ex_irinstance OBinPacking LLeft false) [] ex_ircalls = Some bins) /\
  irb_run (ex_irinstance OBinPacking LLeft false) [] [IrAddBin 0 1; IrAddItem 0 (mkIrP 1 0 0 45 true false)] = None /\
  irb_run (ex_irinstance OBinPacking LLeft false) [] [IrAddBin 0 1; IrAddItem 0 (mkIrP 0 0 0 45 false false)] = None.
Proof. split; [eexists|split]; vm_compute; reflexivity. Qed.

(** [feasible()] of a solution with bins: numbers of copies, resources without
    penalty, and the callback; nothing else. *)
Theorem C67_feasible : forall i cb calls1 calls2 s, irwf_resources i -> irsane_resources i ->
  ircopies_nonneg calls1 calls2 -> irhistory i cb calls1 calls2 = Some s ->
  (irsol_feasible s = true <->
   ircopies_ok i (irview s) /\ (forall d, In d (irview s) -> irresources_ok_end i d) /\ (irview s <> [] -> cb (irsol_core s) = true)
   \/ irview s = [] /\ forall x, (x < length (ir_items i))%nat -> ii_copies_min (iritem i x) <= 0).
Proof.
  intros i cb calls1 calls2 s Hwf Hsane Hc H. destruct (irhistory_spec i cb Hwf calls1 calls2 s H Hc) as [[F D] V].
  rewrite (irf_feasible _ _ _ F).
  assert (HR : (forall d, In d (irview s) -> irresources_ok i d) <-> (forall d, In d (irview s) -> irresources_ok_end i d)).
  { split; intros G d Hd; apply (irresources_whole i d Hsane (D d Hd)); apply G, Hd. }
  rewrite HR. pose proof (irf_cb _ _ _ F) as E.
  assert (HC : irsol_callback_ok s = true <-> (irview s <> [] -> cb (irsol_core s) = true)).
  { rewrite E. unfold irview. destruct (irc_bins (irsol_core s)); cbn [map].
    - split; [intros _ N; contradiction|reflexivity].
    - split; [intros G _; exact G|intro G; apply G; discriminate]. }
  rewrite HC. reflexivity.
Qed.
Print Assumptions C67_feasible.

Example C67_feasible_example : exists s1 s2,
  irhistory (ex_irinstance OBinPacking LLeft false) iraccept ex_ircalls [] = Some s1 /\ irsol_feasible s1 = true /\
  irhistory (ex_irinstance OBinPacking LLeft false) iraccept
    (ex_ircalls ++ [IrAddItem 0 (mkIrP 2 0 4 0 false false); IrAddItem 0 (mkIrP 2 5 4 0 false false)]) []
    = Some s2 /\ irsol_feasible s2 = false.
Proof. eexists. eexists. split; [vm_compute; reflexivity|]. split; [reflexivity|]. split; [vm_compute; reflexivity|reflexivity]. Qed.

(** The bounds of a solution are those of the items of its last bin, for every
    history; for an empty last bin they are the sides of the bin, exchanged. *)
Theorem C67_last_bin : forall i cb calls1 calls2 s ds d, irwf_resources i -> ircopies_nonneg calls1 calls2 ->
  irhistory i cb calls1 calls2 = Some s -> irview s = ds ++ [d] ->
  (ird_items d <> [] -> ExtOf i (ird_items d) (irc_ext (irsol_core s))) /\
  (ird_items d = [] -> let box := ib_aabb (irbin i (ird_type d)) in
     irc_ext (irsol_core s) = mkIrE (Some (ix_max box)) (Some (ix_min box)) (Some (iy_max box)) (Some (iy_min box))).
Proof.
  intros i cb calls1 calls2 s ds d Hwf Hc H V. destruct (irhistory_spec i cb Hwf calls1 calls2 s H Hc) as [[F D] V'].
  pose proof (irf_last _ _ _ F) as L. rewrite V, rev_app_distr in L. cbn [rev app] in L. destruct L as [L1 L2].
  split; [intro Hne; apply (L2 Hne)|exact L1].
Qed.
Print Assumptions C67_last_bin.

(** If the last bin has items, whose bounding boxes are inside the bounding box
    of the bin, the leftover is the area of the box outside the smallest
    rectangle placed as the leftover mode asks and holding the items. *)
Theorem C67_leftover : forall i cb calls1 calls2 s ds d, irwf_resources i -> ircopies_nonneg calls1 calls2 ->
  irhistory i cb calls1 calls2 = Some s -> irview s = ds ++ [d] -> ird_items d <> [] ->
  let box := ib_aabb (irbin i (ird_type d)) in
  box_proper box ->
  (forall p, In p (ird_items d) -> box_in (place_box i p) box /\ box_proper (place_box i p)) ->
  LeftoverOf (ir_mode i) box (map (place_box i) (ird_items d)) (irc_leftover_orig (irsol_core s)) /\
  (0 <= irc_leftover_orig (irsol_core s) <= box_area box)%Q /\
  irc_leftover_scaled (irsol_core s) = (irc_leftover_orig (irsol_core s) * ir_scale i)%Q.
Proof.
  intros i cb calls1 calls2 s ds d Hwf Hc H V Hne box HP Hin. destruct (irhistory_spec i cb Hwf calls1 calls2 s H Hc) as [[F D] V'].
  pose proof (irf_last _ _ _ F) as L. rewrite V, rev_app_distr in L. cbn [rev app] in L. destruct L as [_ L].
  destruct (L Hne) as (L1 & L2 & L3).
  destruct (leftover_spec i (ir_mode i) box (ird_items d) (irc_ext (irsol_core s)) Hne L1 HP Hin) as [A B].
  rewrite L2. split; [exact A|]. split; [exact B|]. rewrite L3, L2. reflexivity.
Qed.
Print Assumptions C67_leftover.

Example C67_leftover_example : exists s d, irhistory (ex_irinstance OBinPacking LBottomRight false) iraccept ex_ircalls [] = Some s /\
  irview s = [mkIrD 0 2 [mkIrP 0 2 0 90 false false; mkIrP 1 2 0 (45 # 2) false false]] ++ [d] /\ ird_items d <> [] /\
  box_proper (ib_aabb (irbin (ex_irinstance OBinPacking LBottomRight false) (ird_type d))) /\
  (forall p, In p (ird_items d) ->
     box_in (place_box (ex_irinstance OBinPacking LBottomRight false) p) (ib_aabb (irbin (ex_irinstance OBinPacking LBottomRight false) (ird_type d)))
     /\ box_proper (place_box (ex_irinstance OBinPacking LBottomRight false) p)) /\
  (irc_leftover_orig (irsol_core s) == 20 * 10 - 17 * 5)%Q.
Proof.
  eexists. exists (mkIrD 1 1 [mkIrP 1 (-4) 1 0 true false; mkIrP 2 (-4) 0 0 false true]).
  split; [vm_compute; reflexivity|]. split; [reflexivity|]. split; [discriminate|].
  split; [vm_compute; split; discriminate|]. split; [|vm_compute; reflexivity].
  intros p [<-|[<-|[]]]; vm_compute; repeat split; discriminate.
Qed.

(** The witness of the next finding. *)
Definition ex_irsource : IrSolution :=
  match irhistory (ex_irinstance OBinPackingWithLeftovers LBottomLeft false) iraccept
    [IrAddBin 0 1; IrAddItem 0 (mkIrP 0 0 0 0 false false)] [] with
  | Some s => s | None => irsol_new (ex_irinstance OBinPackingWithLeftovers LBottomLeft false) end.

(** Finding: an empty last bin does not change the leftover: it keeps the value of
    the bin before, or 0, instead of the whole bin.  The "scaled" leftover, an
    area, is scaled by the factor of the lengths, not by its square. *)
Theorem C67_empty_leftover_refuted :
  let i := ex_irinstance OBinPackingWithLeftovers LBottomLeft false in
  exists s1 s2 s3,
    irhistory i iraccept [IrAddBin 0 1; IrAddItem 0 (mkIrP 0 0 0 0 false false)] [IrAppendEmpty 0 1] = Some s1 /\
    irsol_feasible s1 = true /\ (exists ds, irview s1 = ds ++ [mkIrD 0 1 []]) /\
    (irc_leftover_orig (irsol_core s1) == 100 - 4 * 2)%Q /\
    irhistory i iraccept [IrAddBin 0 1; IrAddItem 0 (mkIrP 0 0 0 0 false false); IrAddBin 0 1] [] = Some s2 /\
    irsol_feasible s2 = true /\ irview s2 = irview s1 /\ (irc_leftover_orig (irsol_core s2) == 0)%Q /\
    irhistory i iraccept [] [IrAppendBin ex_irsource 0 1 [] []] = Some s3 /\
    ir_scale i = 2%Q /\ ~ (irc_leftover_scaled (irsol_core s3) == box_area (mkIrBox 0 20 0 20) - box_area (mkIrBox 0 8 0 4))%Q.
Proof.
  cbv zeta. eexists. eexists. eexists. split; [vm_compute; reflexivity|]. split; [reflexivity|].
  split; [eexists [_]; reflexivity|]. split; [vm_compute; reflexivity|].
  split; [vm_compute; reflexivity|]. split; [reflexivity|]. split; [reflexivity|]. split; [vm_compute; reflexivity|].
  split; [vm_compute; reflexivity|]. split; [reflexivity|]. vm_compute. discriminate.
Qed.
Print Assumptions C67_empty_leftover_refuted.

(** The densities are at most 1: the items of a solution, whose area in each bin is at
    most that of the bin, and in the last bin at most that of the part of the
    bounding box up to the farthest item, when this box starts at 0. *)
Theorem C67_density : forall i cb calls1 calls2 s ds d, irwf_resources i -> ircopies_nonneg calls1 calls2 ->
  irhistory i cb calls1 calls2 = Some s -> irview s = ds ++ [d] -> 1 <= ird_copies d ->
  (forall e, In e (irview s) -> (irarea i (ird_items e) <= ib_area (irbin i (ird_type e)))%Q) ->
  let box := ib_aabb (irbin i (ird_type d)) in
  (ix_min box == 0 ->
     irarea i (ird_items d) <= (ext_q (ie_xmax (irc_ext (irsol_core s))) - ix_min box) * (iy_max box - iy_min box) ->
     irc_item_area (irsol_core s) <= density_x_area i s)%Q /\
  (iy_min box == 0 ->
     irarea i (ird_items d) <= (ext_q (ie_ymax (irc_ext (irsol_core s))) - iy_min box) * (ix_max box - ix_min box) ->
     irc_item_area (irsol_core s) <= density_y_area i s)%Q.
Proof.
  intros i cb calls1 calls2 s ds d Hwf Hc H V Hcopies Harea box.
  destruct (irhistory_spec i cb Hwf calls1 calls2 s H Hc) as [[F D] V'].
  pose proof (irinv_indicators _ _ _ (irf_inv _ _ _ F)) as I.
  assert (Hb : exists b r, rev (irc_bins (irsol_core s)) = b :: r /\ irview_bin b = d).
  { unfold irview in V. destruct (rev (irc_bins (irsol_core s))) as [|b r] eqn:E.
    - apply (f_equal (@rev _)) in E. rewrite rev_involutive in E. rewrite E in V. cbn in V. destruct ds; discriminate.
    - exists b, r. split; [reflexivity|]. apply (f_equal (@rev _)) in E. rewrite rev_involutive in E. cbn [rev] in E.
      rewrite E, map_app in V. cbn [map] in V. apply app_inj_tail in V. apply V. }
  destruct Hb as (b & r & Eb & Ed).
  assert (Et : irs_type b = ird_type d) by (rewrite <- Ed; reflexivity).
  assert (K : (irc_item_area (irsol_core s) <= irc_bin_area (irsol_core s) - ib_area (irbin i (ird_type d)) + irarea i (ird_items d))%Q).
  { rewrite (iri_item_area _ _ _ I), (iri_bin_area _ _ _ I). rewrite V in *. rewrite !qsum_snoc.
    assert (K1 : (qsum (fun d0 => inject_Z (ird_copies d0) * irarea i (ird_items d0)) ds
      <= qsum (fun d0 => inject_Z (ird_copies d0) * ib_area (irbin i (ird_type d0))) ds)%Q).
    { apply qsum_le. intros e He. assert (He' : In e (ds ++ [d])) by (apply in_or_app; left; exact He).
      destruct (D e He') as (_ & _ & C). pose proof (Harea e He') as A.
      assert (C' : (0 <= inject_Z (ird_copies e))%Q) by (change 0%Q with (inject_Z 0); rewrite <- Zle_Qle; exact C).
      assert (M : (0 <= inject_Z (ird_copies e) * (ib_area (irbin i (ird_type e)) - irarea i (ird_items e)))%Q) by (apply Qmult_le_0_compat; lra).
      lra. }
    assert (Hd : In d (ds ++ [d])) by (apply in_or_app; right; left; reflexivity).
    pose proof (Harea d Hd) as A.
    assert (C' : (1 <= inject_Z (ird_copies d))%Q) by (change 1%Q with (inject_Z 1); rewrite <- Zle_Qle; exact Hcopies).
    set (n := inject_Z (ird_copies d)) in *. set (a := irarea i (ird_items d)) in *. set (w := ib_area _) in *.
    assert (K2 : (0 <= (n - 1) * (w - a))%Q) by (apply Qmult_le_0_compat; lra).
    nra. }
  unfold density_x_area, density_y_area. rewrite Eb, Et. fold box. split; intros Z0 Hl.
  - assert (X : ((ext_q (ie_xmax (irc_ext (irsol_core s))) - ix_min box) * (iy_max box - iy_min box)
      == ext_q (ie_xmax (irc_ext (irsol_core s))) * (iy_max box - iy_min box))%Q) by (rewrite Z0; ring).
    lra.
  - assert (X : ((ext_q (ie_ymax (irc_ext (irsol_core s))) - iy_min box) * (ix_max box - ix_min box)
      == ext_q (ie_ymax (irc_ext (irsol_core s))) * (ix_max box - ix_min box))%Q) by (rewrite Z0; ring).
    lra.
Qed.
Print Assumptions C67_density.

Example C67_density_example : exists s,
  irhistory (ex_irinstance OBinPacking LLeft false) iraccept
    [IrAddBin 1 1; IrAddItem 0 (mkIrP 2 (-4) 0 0 false false); IrAddBin 0 1; IrAddItem 1 (mkIrP 0 2 0 90 false false); IrAddItem 1 (mkIrP 1 2 0 (45 # 2) false false)] [] = Some s /\
  (density_x_area (ex_irinstance OBinPacking LLeft false) s == 200)%Q /\ (irc_item_area (irsol_core s) == 38)%Q /\
  (irarea (ex_irinstance OBinPacking LLeft false) [mkIrP 0 2 0 90 false false; mkIrP 1 2 0 (45 # 2) false false] == 13)%Q.
Proof. eexists. split; [vm_compute; reflexivity|]. repeat split. Qed.

(** Finding: for a bin that does not start at 0 the density is computed with the
    coordinate of the farthest item instead of its distance to the side of the bin:
    here it is negative, although the packing is correct. *)
Theorem C67_density_refuted : exists i calls s d,
  irwf_resources i /\ irhistory i iraccept calls [] = Some s /\ irsol_feasible s = true /\
  irview s = [d] /\ ird_copies d = 1 /\
  (forall p, In p (ird_items d) -> box_in (place_box i p) (ib_aabb (irbin i (ird_type d)))) /\
  (0 < irc_item_area (irsol_core s))%Q /\ (density_x_area i s < 0)%Q.
Proof.
  exists (ex_irinstance OBinPacking LLeft false), [IrAddBin 1 1; IrAddItem 0 (mkIrP 0 (-10) 0 0 false false)].
  eexists. exists (mkIrD 1 1 [mkIrP 0 (-10) 0 0 false false]). split; [apply ex_irwf|].
  split; [vm_compute; reflexivity|]. repeat split.
  all: destruct H as [<-|[]]; vm_compute; discriminate.
Qed.
Print Assumptions C67_density_refuted.

(** Finding: the penalty of a resource is charged once per entry of the solution,
    whatever its number of copies: two descriptions of the same packing have
    different profits. *)
Theorem C67_penalty_copies_refuted :
  let i := ex_irinstance OKnapsack LLeft true in
  let items := [mkIrP 2 0 0 0 false false; mkIrP 2 5 0 0 false false] in
  exists s1 s2, irwf_resources i /\ irsane_resources i /\
    irhistory i iraccept [] [IrAppendBin (mkIrS (irwith_bins (irsol_core (irsol_new i)) [irraw_bin 0 1 items]) true true) 0 2 [] []] = Some s1 /\
    irhistory i iraccept [] [IrAppendBin (mkIrS (irwith_bins (irsol_core (irsol_new i)) [irraw_bin 0 1 items]) true true) 0 1 [] [];
                             IrAppendBin (mkIrS (irwith_bins (irsol_core (irsol_new i)) [irraw_bin 0 1 items]) true true) 0 1 [] []] = Some s2 /\
    irview s1 = [mkIrD 0 2 items] /\ irview s2 = [mkIrD 0 1 items; mkIrD 0 1 items] /\
    (irc_item_profit (irsol_core s1) == 93)%Q /\ (irc_item_profit (irsol_core s2) == 86)%Q.
Proof.
  cbv zeta. eexists. eexists. split; [apply ex_irwf|]. split; [apply ex_irsane|].
  split; [vm_compute; reflexivity|]. split; [vm_compute; reflexivity|]. repeat split.
Qed.
Print Assumptions C67_penalty_copies_refuted.

(** [feasible()] is no guarantee on the geometry or the number of bins: here two
    items are at the same place, one is outside the bin, and more bins are used
    than there are. *)
Theorem C67_geometry_refuted : exists i calls s d p q,
  irwf_resources i /\ irsane_resources i /\ ircopies_nonneg calls [] /\ irhistory i iraccept calls [] = Some s /\
  irsol_feasible s = true /\ irview s = [d] /\ ird_items d = [p; p; q] /\
  ~ box_in (place_box i q) (ib_aabb (irbin i (ird_type d))) /\
  ib_copies (irbin i (ird_type d)) < irused_bins (ird_type d) (irview s).
Proof.
  set (p := mkIrP 0 0 0 0 false false). set (q := mkIrP 0 8 0 0 false false).
  exists (mkIrInst OBinPacking LLeft 1 0 [mkIrItem 4 4 4 100 1 [mkIrRot 0 0 false] ex_irtriangle [[]]] [mkIrBin 100 100 (mkIrBox 0 10 0 10) 100 3 0 []]),
    [IrAddBin 0 4; IrAddItem 0 p; IrAddItem 0 p; IrAddItem 0 q].
  eexists. exists (mkIrD 0 4 [p; p; q]), p, q.
  split.
  { intros x t Hx Ht. simpl in Hx, Ht. destruct x as [|x]; [|lia]. destruct t as [|t]; [|lia]. simpl.
    split; [constructor|]. intro r. split; [intros []|intros [H _]; lia]. }
  split. { intros bt r [<-|[]] []. }
  split. { intros d [<-|[]]. simpl. lia. }
  split; [vm_compute; reflexivity|]. split; [reflexivity|]. split; [reflexivity|]. split; [reflexivity|]. split.
  - intros (_ & H & _). vm_compute in H. apply H. reflexivity.
  - vm_compute. reflexivity.
Qed.
Print Assumptions C67_geometry_refuted.

(** ** C11, irregular solutions *)

Definition irlt (e : Q) (i : IrInstance) (s1 s2 : IrSolution) : bool :=
  match irsol_lt e i s1 s2 with Some b => b | None => false end.

Theorem C11_irregular_feasible_first : forall e i s1 s2,
  (irsol_lt e i s1 s2 = Some true -> irsol_feasible s2 = true) /\
  (irsol_feasible s1 = false -> irsol_feasible s2 = true -> irsol_lt e i s1 s2 = Some true).
Proof.
  intros e i s1 s2. unfold irsol_lt. split.
  - destruct (irsol_feasible s2); [reflexivity|discriminate].
  - intros -> ->. reflexivity.
Qed.
Print Assumptions C11_irregular_feasible_first.

Lemma ltb_irrefl : forall q, Qltb q q = false.
Proof. intro q. apply Qltb_ge, Qle_refl. Qed.

Lemma lt_minf_swo : StrictWeakOrder (option Q) lt_minf.
Proof.
  constructor; unfold lt_minf.
  - intros [a|]; [apply ltb_irrefl|reflexivity].
  - intros [a|] [b|] [c|]; try discriminate; try reflexivity. rewrite !Qltb_lt. intros. lra.
  - intros [a|] [b|] [c|]; try discriminate; try reflexivity. rewrite !Qltb_ge. intros. lra.
Qed.
Lemma lt_pinf_swo : StrictWeakOrder (option Q) lt_pinf.
Proof.
  constructor; unfold lt_pinf.
  - intros [a|]; [apply ltb_irrefl|reflexivity].
  - intros [a|] [b|] [c|]; try discriminate; try reflexivity. rewrite !Qltb_lt. intros. lra.
  - intros [a|] [b|] [c|]; try discriminate; try reflexivity. rewrite !Qltb_ge. intros. lra.
Qed.

(** Bin packing and open dimensions: a strict weak order. *)
Theorem C11_irregular_strict_weak_order : forall e i,
  ir_objective i = OBinPacking \/ ir_objective i = OOpenDimensionX \/ ir_objective i = OOpenDimensionY
  \/ ir_objective i = OOpenDimensionXY ->
  StrictWeakOrder IrSolution (irlt e i).
Proof.
  intros e i Ho. unfold irlt, irsol_lt. constructor.
  - intro a. destruct (irsol_feasible a); cbn [negb]; [|reflexivity].
    destruct Ho as [-> |[-> |[-> | ->]]].
    + apply Z.ltb_irrefl.
    + apply lt_minf_swo.
    + apply lt_minf_swo.
    + apply lt_pinf_swo.
  - intros a b c. destruct (irsol_feasible a), (irsol_feasible b), (irsol_feasible c); cbn [negb]; try congruence.
    destruct Ho as [-> |[-> |[-> | ->]]].
    + rewrite !Z.ltb_lt. lia.
    + intros H1 H2. eapply (swo_trans _ _ lt_minf_swo); eassumption.
    + intros H1 H2. eapply (swo_trans _ _ lt_minf_swo); eassumption.
    + intros H1 H2. eapply (swo_trans _ _ lt_pinf_swo); eassumption.
  - intros a b c. destruct (irsol_feasible a), (irsol_feasible b), (irsol_feasible c); cbn [negb]; try congruence.
    destruct Ho as [-> |[-> |[-> | ->]]].
    + rewrite !Z.ltb_ge. lia.
    + intros H1 H2. exact (swo_neg _ _ lt_minf_swo _ _ _ H2 H1).
    + intros H1 H2. exact (swo_neg _ _ lt_minf_swo _ _ _ H2 H1).
    + intros H1 H2. exact (swo_neg _ _ lt_pinf_swo _ _ _ H2 H1).
Qed.
Print Assumptions C11_irregular_strict_weak_order.

(** The comparison of the leftovers is that of their square roots, up to the
    tolerance: [c] separates the roots. *)
Theorem C11_irregular_leftover_roots : forall e i s1 s2 c,
  ir_objective i = OBinPackingWithLeftovers -> irsol_feasible s1 = true -> irsol_feasible s2 = true ->
  irc_number_of_bins (irsol_core s1) = irc_number_of_bins (irsol_core s2) ->
  let l1 := irc_leftover_scaled (irsol_core s1) in
  let l2 := irc_leftover_scaled (irsol_core s2) in
  (0 <= e)%Q -> (0 <= c)%Q -> (0 <= l1)%Q -> (0 <= l2)%Q ->
  ((l1 <= c * c)%Q -> ((c + e) * (c + e) < l2)%Q -> irsol_lt e i s1 s2 = Some true) /\
  ((c * c <= l1)%Q -> (l2 <= (c + e) * (c + e))%Q -> irsol_lt e i s1 s2 = Some false).
Proof.
  intros e i s1 s2 c Ho F1 F2 En l1 l2 He Hc H1 H2. unfold irsol_lt. rewrite F1, F2, Ho, En, Z.eqb_refl. cbn [negb].
  fold l1 l2. split; intros A B; f_equal.
  - apply (sqrt_greater_above e l2 l1 c); assumption.
  - apply (sqrt_greater_below e l2 l1 c); assumption.
Qed.
Print Assumptions C11_irregular_leftover_roots.

Lemma ratio_le : forall r u v, (0 < r -> 0 <= u -> 0 <= v -> v * r * v <= u * u * r -> v <= u)%Q.
Proof.
  intros r u v R U V H. apply Qnot_lt_le. intro A.
  assert (P : (0 < (v - u) * (v + u))%Q) by (apply Qmult_lt_0_compat; lra).
  assert (P2 : (0 < (v - u) * (v + u) * r)%Q) by (apply Qmult_lt_0_compat; assumption). nra.
Qed.

(** The value of the open dimension xy objective: without an imposed ratio the area of the
    box of the items; with a ratio [r], the area of the smallest rectangle [r] times as high
    as wide into which the box fits. *)
Theorem C67_open_dimension_xy : forall i e xl xu yl yu, ie_xmin e = Some xl -> ie_xmax e = Some xu -> ie_ymin e = Some yl -> ie_ymax e = Some yu ->
  (xl <= xu)%Q -> (yl <= yu)%Q -> exists a, xy_area i e = Some a /\
  ((ir_ratio i <= 0)%Q -> (a == (xu - xl) * (yu - yl))%Q) /\
  ((0 < ir_ratio i)%Q ->
    (exists w h, (h == ir_ratio i * w)%Q /\ (xu - xl <= w)%Q /\ (yu - yl <= h)%Q /\ (a == w * h)%Q) /\
    (forall w h, (h == ir_ratio i * w)%Q -> (xu - xl <= w)%Q -> (yu - yl <= h)%Q -> (a <= w * h)%Q)).
Proof.
  intros i e xl xu yl yu E1 E2 E3 E4 Hx Hy. unfold xy_area. rewrite E1, E2, E3, E4.
  set (dx := (xu - xl)%Q). set (dy := (yu - yl)%Q). set (r := ir_ratio i).
  assert (Dx : (0 <= dx)%Q) by (unfold dx; lra). assert (Dy : (0 <= dy)%Q) by (unfold dy; lra). clearbody dx dy r. cbv zeta.
  destruct (Qle_bool r 0) eqn:Er.
  - eexists. split; [reflexivity|]. apply Qle_bool_iff in Er. split; [intros _; reflexivity|]. intro. lra.
  - assert (R : (0 < r)%Q) by (apply Qnot_le_lt; intro A; apply Qle_bool_iff in A; congruence).
    assert (Dr : (dy / r * r == dy)%Q) by (field; lra).
    assert (Db : (dy * dy / r == dy * (dy / r))%Q) by (field; lra).
    assert (Dn : (0 <= dy / r)%Q) by (apply Qle_shift_div_l; lra). set (v := (dy / r)%Q) in *. clearbody v.
    eexists. split; [reflexivity|]. split; [intro; lra|]. intros _. unfold Qltb.
    destruct (Qle_bool (dy * dy / r) (dx * dx * r)) eqn:C; cbn [negb].
    + apply Qle_bool_iff in C. rewrite Db in C. assert (V : (v <= dx)%Q) by (apply (ratio_le r); try assumption; rewrite <- Dr in C at 1; lra). split.
      * exists dx, (r * dx)%Q. split; [reflexivity|]. split; [lra|]. split; [nra|ring].
      * intros w h Hh Hw Hd. rewrite Hh. assert (0 <= (w - dx) * (w + dx))%Q by (apply Qmult_le_0_compat; lra). nra.
    + assert (C' : (dx * dx * r < dy * v)%Q) by (rewrite <- Db; apply Qnot_le_lt; intro A; apply Qle_bool_iff in A; congruence).
      assert (V : (dx <= v)%Q) by (apply (ratio_le r); try assumption; rewrite <- Dr in C' at 1; lra). split.
      * exists v, (r * v)%Q. split; [reflexivity|]. split; [lra|]. split; [lra|]. rewrite Db, <- Dr. ring.
      * intros w h Hh Hw Hd. rewrite Hh in *. assert (v <= w)%Q by (apply Qnot_lt_le; intro; nra). rewrite Db, <- Dr. assert (0 <= (w - v) * (w + v))%Q by (apply Qmult_le_0_compat; lra). nra.
Qed.
Print Assumptions C67_open_dimension_xy.

(** Better means better for the user. *)
Theorem C11_irregular_improvement : forall e i s1 s2, irsol_feasible s1 = true -> irsol_lt e i s1 s2 = Some true ->
  (0 <= irc_item_profit (irsol_core s1))%Q -> (0 <= irc_item_profit (irsol_core s2))%Q ->
  (0 <= irc_bin_cost (irsol_core s1))%Q -> (0 <= irc_bin_cost (irsol_core s2))%Q ->
  irsol_feasible s2 = true /\
  match ir_objective i with
  | OKnapsack | OFeasibility => (irc_item_profit (irsol_core s1) < irc_item_profit (irsol_core s2))%Q
  | OVariableSizedBinPacking => (irc_bin_cost (irsol_core s2) < irc_bin_cost (irsol_core s1))%Q
  | OBinPacking => irc_number_of_bins (irsol_core s2) < irc_number_of_bins (irsol_core s1)
  | OBinPackingWithLeftovers => irc_number_of_bins (irsol_core s2) < irc_number_of_bins (irsol_core s1)
      \/ irc_number_of_bins (irsol_core s2) = irc_number_of_bins (irsol_core s1)
         /\ (irc_leftover_scaled (irsol_core s1) < irc_leftover_scaled (irsol_core s2))%Q
  | OOpenDimensionX => lt_minf (ie_xmax (irc_ext (irsol_core s2))) (ie_xmax (irc_ext (irsol_core s1))) = true
  | OOpenDimensionY => lt_minf (ie_ymax (irc_ext (irsol_core s2))) (ie_ymax (irc_ext (irsol_core s1))) = true
  | OOpenDimensionXY => lt_pinf (xy_area i (irc_ext (irsol_core s2))) (xy_area i (irc_ext (irsol_core s1))) = true
  | _ => False
  end.
Proof.
  intros e i s1 s2 H1 H P1 P2 K1 K2. pose proof (proj1 (C11_irregular_feasible_first e i s1 s2) H) as H2. split; [exact H2|].
  unfold irsol_lt in H. rewrite H1, H2 in H. cbn [negb] in H.
  destruct (ir_objective i); try discriminate; try (injection H as H; try (apply Z.ltb_lt); exact H).
  - destruct (Z.eqb_spec (irc_number_of_bins (irsol_core s2)) (irc_number_of_bins (irsol_core s1))) as [E|E];
      cbn [negb] in H; injection H as H; [right|left; apply Z.ltb_lt; exact H].
    split; [exact E|]. apply (sqrt_greater_lt e). exact H.
  - injection H as H. apply Common_Proof.sgp_sound; assumption.
  - injection H as H. unfold strictly_lesser_cost in H. apply Common_Proof.sgc_sound; assumption.
  - injection H as H. apply Common_Proof.sgp_sound; assumption.
Qed.
Print Assumptions C11_irregular_improvement.

Example C11_irregular_example :
  let i := ex_irinstance OBinPackingWithLeftovers LBottomLeft false in
  let s x := match irhistory i iraccept [IrAddBin 0 1; IrAddItem 0 (mkIrP 0 x 0 0 false false)] [] with
             | Some s => s | None => irsol_new i end in
  irsol_feasible (s 0%Q) = true /\ irsol_feasible (s 1%Q) = true /\
  irsol_lt (1 # 1000000) i (s 1%Q) (s 0%Q) = Some true /\ irsol_lt (1 # 1000000) i (s 0%Q) (s 1%Q) = Some false.
Proof. vm_compute. auto. Qed.
