(** * C38: rotations and flips of boxes *)

From Coq Require Import List ZArith QArith Bool Lia Lqa Arith.
From Verif Require Import Util Common_Model OneDim_Model OneDim_Spec OneDimBuilder_Model OneDimBuilder_Spec OneDimBuilder_Proof
  OneDimSub_Proof Box_Model Box_Spec BoxSol_Model BoxSol_Spec BoxSol_Proof BoxSol_Props BoxBuilder_Model BoxBuilder_Spec
  BoxBuilder_Proof BoxFlip_Model BoxFlip_Spec BoxFlip_Proof.
Import ListNotations.
Open Scope Z_scope.

(** ** Points, boxes and rotations *)

(** Rotating by the flipped orientation gives the rotated box with the axes
    exchanged; points are converted by the same exchange; both conversions are
    involutions; the flipped orientation is the only one that does so for every
    box. *)
Theorem C38_rotation : forall d r,
  (forall b a, vat (rotate b (get_flipped_rotation r d)) a = vat (rotate b r) (other_axis d a)) /\
  get_flipped_rotation (get_flipped_rotation r d) d = r /\
  (forall p a, vat (convert_point_back p d) a = vat p (other_axis d a)) /\
  (forall p, convert_point_back (convert_point_back p d) d = p) /\
  (forall r', (forall b a, vat (rotate b r') a = vat (rotate b r) (other_axis d a)) -> r' = get_flipped_rotation r d).
Proof.
  intros d r. split; [intros b a; rewrite flipped_rotation; apply exchange_rot_sizes|].
  split; [rewrite !flipped_rotation; apply exchange_rot_twice|].
  split; [intros p a; rewrite convert_exchange; apply exchange_at|].
  split; [intro p; rewrite !convert_exchange; apply exchange_twice|].
  intros r' H. pose proof (H (mkV 0 1 2) AX) as H1. pose proof (H (mkV 0 1 2) AY) as H2.
  destruct d, r, r'; cbn in H1, H2; try discriminate; reflexivity.
Qed.
Print Assumptions C38_rotation.

(** The size of a placed item is the side its orientation names, and rotating
    keeps the volume. *)
Theorem C38_sizes : forall i p, (forall a, bp_size i p a = vat (rotate (bi_box (bxitem i (bp_type p))) (bp_rot p)) a) /\
  bp_size i p AX * bp_size i p AY * bp_size i p AZ = bi_vol (bxitem i (bp_type p)).
Proof.
  intros i p. split; [intro a; apply bp_size_rotate|]. unfold bi_vol. destruct p as [x v []]; cbn; ring.
Qed.
Print Assumptions C38_sizes.

(** ** flip *)

Theorem C38_flip : forall o d i, bflippable i -> exists j e, bflip o d i = WBuilt j e /\ bswapped d i j /\ wconsistent j e /\
  (bx_objective i = OOpenDimensionY \/ bx_objective i = OOpenDimensionZ -> bx_objective j = OOpenDimensionX) /\
  (bx_objective i <> OOpenDimensionY -> bx_objective i <> OOpenDimensionZ -> bx_objective j = bx_objective i) /\
  (forall x, (x < length (bx_items i))%nat ->
     bi_copies_min (bxitem j x) = match bx_objective i with OKnapsack => 0 | _ => bi_copies (bxitem i x) end) /\
  (forall k, (k < length (bx_bins i))%nat -> bn_copies_min (bxbin j k) = 0 /\ bn_resources (bxbin j k) = []).
Proof.
  intros o d i Hf. destruct (bflip_ok o d i Hf) as (j & e & E & O & S & C & M & B). exists j, e.
  split; [exact E|]. split; [exact S|]. split; [exact C|]. rewrite O. split; [intros [->| ->]; reflexivity|].
  split; [|split; [exact M|exact B]]. intros H1 H2. destruct (bx_objective i); try reflexivity; contradiction.
Qed.
Print Assumptions C38_flip.

(** Every built instance whose bin types have positive sizes and costs, whose
    types have at least one copy, and with one bin if the dimension z is open (the
    builder does not check it, C51_open_z_refuted) can be flipped. *)
Theorem C38_built : forall o0 calls b i e, wrun o0 calls = Some b -> w_build b = WBuilt i e ->
  (forall t, In t (bx_bins i) -> (forall a, 0 < vat (bn_box t) a) /\ (0 < bn_cost t)%Q /\ 1 <= bn_copies t) ->
  (forall t, In t (bx_items i) -> 1 <= bi_copies t) ->
  (bx_objective i = OOpenDimensionZ -> zsum bn_copies (bx_bins i) = 1) ->
  forall o d, exists j e', bflip o d i = WBuilt j e' /\ bswapped d i j.
Proof.
  intros o0 calls b i e Hb Hi Hbins Hitems Hz o d. pose proof (wrun_inv o0 calls b Hb) as Hinv.
  pose proof (wbuild_bounded b i e Hi Hinv) as [W1 W2]. pose proof (wbuild_consistent b i e Hi Hinv) as C.
  assert (Hf : bflippable i).
  { constructor.
    - exact Hbins.
    - intros t Ht. destruct (W1 t Ht) as (A1 & A2 & _). auto.
    - intros [Ho|[Ho|Ho]]; [| |apply Hz; exact Ho]; (pose proof (wc_open i e C) as L1);
        (rewrite (wc_bin_type_ids i e C) in L1); (pose proof (wids_length (bx_bins i)) as L2); (pose proof (wexpand_spec (bx_bins i)) as X);
        (destruct (wexpand_bins (bx_bins i)) as [[ids prev] p]); cbn [fst] in L2; (destruct X as [X _]); rewrite X in L2;
        (rewrite <- L2; [|intros t Ht; destruct (Hbins t Ht) as (_ & _ & A); lia]); unfold bxbin in L1; rewrite L1; auto. }
  destruct (bflip_ok o d i Hf) as (j & e' & E & _ & S & _). exists j, e'. auto.
Qed.
Print Assumptions C38_built.

(** ** The packings of the two instances *)

(** The packings of the flipped instance are exactly those of the original one
    with the axes exchanged... *)
Theorem C38_packings : forall d i j ds, bswapped d i j -> (bpacking_ok j (map (bswap_desc d) ds) <-> bpacking_ok i ds).
Proof.
  intros d i j ds Hs. split; intro H; [|apply (bswap_packing d i j Hs), H].
  apply (bswap_packing d j i (bswapped_sym d i j Hs)) in H. rewrite map_map in H.
  rewrite (map_ext _ (fun b => b)), List.map_id in H by apply bswap_desc_twice. exact H.
Qed.
Print Assumptions C38_packings.

(** ... with the same numbers of copies, profits, costs and weights, the extents
    being exchanged. *)
Theorem C38_values : forall d i j ds, bswapped d i j -> bpacking_ok i ds ->
  (forall x, bpacked x (map (bswap_desc d) ds) = bpacked x ds) /\
  (forall t, bused_bins t (map (bswap_desc d) ds) = bused_bins t ds) /\
  (bprofit j (map (bswap_desc d) ds) == bprofit i ds)%Q /\
  (qsum (fun b => inject_Z (xd_copies b) * bn_cost (bxbin j (xd_type b))) (map (bswap_desc d) ds) ==
   qsum (fun b => inject_Z (xd_copies b) * bn_cost (bxbin i (xd_type b))) ds)%Q /\
  forall b, In b ds ->
    (forall a, extent j a (xd_items (bswap_desc d b)) = extent i (other_axis d a) (xd_items b)) /\
    (qsum (fun p => bi_weight (bxitem j (bp_type p))) (xd_items (bswap_desc d b)) ==
     qsum (fun p => bi_weight (bxitem i (bp_type p))) (xd_items b))%Q.
Proof.
  intros d i j ds Hs Hok. destruct (bswap_values d i j Hs ds Hok) as (V1 & V2 & V3).
  split; [intro; apply bswap_packed|]. split; [exact V3|]. split; [exact V1|]. split; [exact V2|].
  intros b Hb. assert (T : forall p, In p (xd_items b) -> (bp_type p < length (bx_items i))%nat).
  { intros p Hp. destruct Hok as [P _]. destruct (P b Hb) as (_ & _ & [G _]). apply (G p Hp). }
  split; [intro a; apply (bswap_extents d i j Hs a _ T)|apply (bswap_weight d i j Hs _ T)].
Qed.
Print Assumptions C38_values.

(** ** unflip_solution *)

Definition no_resources (i : BInstance) : Prop := forall t, In t (bx_bins i) -> bn_resources t = [].

Lemma no_resources_net : forall i ds, no_resources i -> (bnet_profit i ds == bprofit i ds)%Q.
Proof.
  intros i ds H. unfold bnet_profit.
  assert (E : (qsum (bpenalties i) ds == 0)%Q).
  { induction ds as [|b ds IH]; [reflexivity|]. rewrite qsum_cons, IH. unfold bpenalties.
    assert (R : bn_resources (bxbin i (xd_type b)) = []).
    { destruct (nth_in_or_default (xd_type b) (bx_bins i) dummy_bbin) as [K|K]; unfold bxbin; [apply H; exact K|rewrite K; reflexivity]. }
    rewrite R. reflexivity. }
  rewrite E. ring.
Qed.

Theorem C38_unflip : forall d i j cb cbj calls1 calls2 s, bswapped d i j ->
  xwf_resources i -> xwf_resources j -> xcopies_nonneg calls1 calls2 ->
  xhistory j cbj calls1 calls2 = Some s -> bpacking_ok j (xview s) ->
  exists s', bunflip_solution d i cb s = Some s' /\ xview s' = map (bswap_desc d) (xview s) /\ bpacking_ok i (xview s') /\
    xc_number_of_bins (xsol_core s') = xc_number_of_bins (xsol_core s) /\
    xc_number_of_items (xsol_core s') = xc_number_of_items (xsol_core s) /\
    xc_bin_volume (xsol_core s') = xc_bin_volume (xsol_core s) /\
    xc_item_volume (xsol_core s') = xc_item_volume (xsol_core s) /\
    (xc_bin_cost (xsol_core s') == xc_bin_cost (xsol_core s))%Q /\
    (xc_item_weight (xsol_core s') == xc_item_weight (xsol_core s))%Q /\
    (no_resources i -> no_resources j -> (xc_item_profit (xsol_core s') == xc_item_profit (xsol_core s))%Q) /\
    (forall x, (x < length (bx_items i))%nat -> nth x (xc_item_copies (xsol_core s')) 0 = nth x (xc_item_copies (xsol_core s)) 0) /\
    (forall t, (t < length (bx_bins i))%nat -> nth t (xc_bin_copies (xsol_core s')) 0 = nth t (xc_bin_copies (xsol_core s)) 0) /\
    (calls2 = [] -> forall a, vat (xc_max (xsol_core s')) a = vat (xc_max (xsol_core s)) (other_axis d a)).
Proof.
  intros d i j cb cbj calls1 calls2 s Hs Hwi Hwj Hc Hh Hok.
  pose proof (bswapped_sym d i j Hs) as Hs'.
  pose proof Hs as [[S3 S4] [S5 S6]].
  destruct (C50_indicators j cbj calls1 calls2 s Hwj Hc Hh) as (_ & I & _).
  pose proof (bswap_packing d j i Hs' _ Hok) as Hok'.
  assert (Hr : exists bins, xb_run i [] (bunflip_calls d s) = Some bins).
  { apply bunflip_run. intros b Hb. destruct Hok as [P _]. destruct (P b Hb) as (T & _ & [G _]). rewrite S5 in T. split; [exact T|].
    intros p Hp. destruct (G p Hp) as [T1 _ T2]. rewrite S3 in T1. split; [exact T1|].
    destruct (S4 _ T1) as (_ & _ & _ & _ & O). rewrite O in T2. apply in_map_iff in T2. destruct T2 as (r & <- & Hr).
    rewrite exchange_rot_twice. exact Hr. }
  destruct Hr as (bins & Hr).
  assert (Hex : exists s', bunflip_solution d i cb s = Some s') by (unfold bunflip_solution, xhistory; rewrite Hr; eexists; reflexivity).
  destruct Hex as (s' & E). exists s'. split; [exact E|].
  assert (Hc' : xcopies_nonneg (bunflip_calls d s) []).
  { intros b Hb. cbn [flat_map] in Hb. rewrite app_nil_r, bunflip_calls_desc in Hb.
    apply in_map_iff in Hb. destruct Hb as (e & <- & He). cbn [bswap_desc xd_copies]. destruct Hok as [P _]. destruct (P e He) as (_ & Q & _). lia. }
  destruct (C50_indicators i cb (bunflip_calls d s) [] s' Hwi Hc' E) as (V & I' & _).
  cbn [flat_map] in V. rewrite app_nil_r, bunflip_calls_desc in V.
  split; [exact V|]. split; [rewrite V; exact Hok'|].
  destruct (bswap_values d j i Hs' (xview s) Hok) as (V1 & V2 & V4).
  rewrite V in I'.
  assert (Ty : forall b p, In b (xview s) -> In p (xd_items b) -> (bp_type p < length (bx_items j))%nat).
  { intros b p Hb Hp. destruct Hok as [P _]. destruct (P b Hb) as (_ & _ & [G _]). apply (G p Hp). }
  split. { rewrite (xi_bins _ _ _ I), (xi_bins _ _ _ I'), zsum_map. reflexivity. }
  split. { rewrite (xi_nitems _ _ _ I), (xi_nitems _ _ _ I'), zsum_map. apply zsum_ext. intros b _. simpl. rewrite map_length. reflexivity. }
  split. { rewrite (xi_bin_volume _ _ _ I), (xi_bin_volume _ _ _ I'), zsum_map. apply zsum_ext. intros b Hb. cbn [bswap_desc xd_type xd_copies].
    destruct Hok as [P _]. destruct (P b Hb) as (T & _). rewrite S5 in T. destruct (S6 _ T) as (A1 & _). f_equal. unfold bn_vol.
    pose proof (A1 AX) as X1. pose proof (A1 AY) as X2. pose proof (A1 AZ) as X3. destruct d; cbn in X1, X2, X3; rewrite X1, X2, X3; ring. }
  split. { rewrite (xi_item_volume _ _ _ I), (xi_item_volume _ _ _ I'), zsum_map. apply zsum_ext. intros b Hb. simpl. rewrite zsum_map. f_equal.
    apply zsum_ext. intros p Hp. simpl. pose proof (Ty b p Hb Hp) as T.
    rewrite S3 in T. destruct (S4 _ T) as (A1 & _). unfold bi_vol. rewrite A1. reflexivity. }
  split. { rewrite (xi_cost _ _ _ I), (xi_cost _ _ _ I'). exact V2. }
  split. { rewrite (xi_item_weight _ _ _ I), (xi_item_weight _ _ _ I'), qsum_map. apply qsum_ext. intros b Hb.
    cbn [bswap_desc xd_type xd_copies xd_items]. apply Qmult_comp; [reflexivity|].
    apply (bswap_weight d j i Hs'). intros p Hp. apply (Ty b p Hb Hp). }
  split. { intros Ni Nj.
    assert (Sn : forall k, no_resources k -> xsane_resources k) by (intros k Nk bt r Hbt Hr'; rewrite (Nk bt Hbt) in Hr'; destruct Hr').
    rewrite (xi_net _ _ _ I (Sn j Nj)), (xi_net _ _ _ I' (Sn i Ni)), !no_resources_net by assumption. exact V1. }
  split. { intros x Hx. rewrite (xi_item_copies _ _ _ I' x Hx), (xi_item_copies _ _ _ I x) by lia. apply bswap_packed. }
  split. { intros t Ht. rewrite (xi_bin_copies _ _ _ I' t Ht), (xi_bin_copies _ _ _ I t) by lia. apply V4. }
  intros -> a. destruct (exists_last_or_nil _ (xview s)) as [Hv|(ds & b & Hv)].
  - assert (Z : forall k cb' calls u, xhistory k cb' calls [] = Some u -> xview u = [] -> vat (xc_max (xsol_core u)) AX = 0 /\ xc_max (xsol_core u) = mkV 0 0 0).
    { intros k cb' calls u Hu Vu. unfold xhistory in Hu. destruct (xb_run k [] calls) as [bs|] eqn:Er; [|discriminate].
      cbn [xsol_run] in Hu. injection Hu as <-.
      destruct bs as [|b0 bs]; [split; reflexivity|]. exfalso.
      assert (Len : forall l q, length (xc_bins (xsol_core (fold_left (fun s pos => xupdate k cb' pos s) l q))) = length (xc_bins (xsol_core q))).
      { induction l as [|n l IH]; intro q; [reflexivity|]. cbn [fold_left]. rewrite IH. unfold xupdate.
        destruct (nth_error (xc_bins (xsol_core q)) n); [|reflexivity]. cbn [xsol_core xc_bins]. apply upd_length. }
      apply (f_equal (@length _)) in Vu. unfold xview in Vu. rewrite map_length in Vu. unfold xb_build in Vu. rewrite Len in Vu. discriminate. }
    assert (Hv' : xview s' = []) by (rewrite V, Hv; reflexivity).
    destruct (Z j cbj calls1 s Hh Hv) as [_ Z1]. destruct (Z i cb (bunflip_calls d s) s' E Hv') as [_ Z2]. rewrite Z1, Z2.
    destruct a, d; reflexivity.
  - assert (Hv' : xview s' = map (bswap_desc d) ds ++ [bswap_desc d b]) by (rewrite V, Hv, map_app; reflexivity).
    destruct (C50_last_bin j cbj calls1 s ds b Hwj Hc Hh Hv) as (X1 & _).
    destruct (C50_last_bin i cb (bunflip_calls d s) s' _ _ Hwi Hc' E Hv') as (X2 & _).
    rewrite X1, X2. cbn [bswap_desc xd_items]. apply (bswap_extents d j i Hs').
    intros p Hp. apply (Ty b p); [rewrite Hv; apply in_or_app; right; left; reflexivity|exact Hp].
Qed.
Print Assumptions C38_unflip.

(** Flipping twice gives back geometry, weights, profits, costs and copies. *)
Theorem C38_twice : forall d i j k, bswapped d i j -> bswapped d j k ->
  length (bx_items k) = length (bx_items i) /\ length (bx_bins k) = length (bx_bins i) /\
  (forall x, (x < length (bx_items i))%nat -> bi_box (bxitem k x) = bi_box (bxitem i x) /\
     bi_rotations (bxitem k x) = bi_rotations (bxitem i x) /\
     bi_copies (bxitem k x) = bi_copies (bxitem i x) /\ bi_profit (bxitem k x) = bi_profit (bxitem i x) /\
     bi_weight (bxitem k x) = bi_weight (bxitem i x)) /\
  (forall t, (t < length (bx_bins i))%nat -> bn_box (bxbin k t) = bn_box (bxbin i t) /\
     bn_copies (bxbin k t) = bn_copies (bxbin i t) /\ bn_cost (bxbin k t) = bn_cost (bxbin i t) /\
     bn_max_weight (bxbin k t) = bn_max_weight (bxbin i t)).
Proof.
  intros d i j k [[A3 A4] [A5 A6]] [[B3 B4] [B5 B6]].
  split; [congruence|]. split; [congruence|]. split.
  - intros x Hx. specialize (A4 x Hx). specialize (B4 x ltac:(lia)). cbv zeta in *.
    destruct A4 as (C1 & C2 & C3 & C4 & C5). destruct B4 as (D1 & D2 & D3 & D4 & D5).
    split; [congruence|]. split; [|repeat split; congruence]. rewrite D5, C5, map_map. rewrite <- List.map_id.
    apply map_ext. intro r. apply exchange_rot_twice.
  - intros t Ht. specialize (A6 t Ht). specialize (B6 t ltac:(lia)). cbv zeta in *.
    destruct A6 as (C1 & C2 & C3 & C4). destruct B6 as (D1 & D2 & D3 & D4).
    split; [|repeat split; congruence].
    destruct (bn_box (bxbin k t)) as [x y z] eqn:E1. destruct (bn_box (bxbin i t)) as [x' y' z'] eqn:E2.
    assert (G : forall a, vat (mkV x y z) a = vat (mkV x' y' z') a) by (intro a; rewrite D1, C1, other_twice; reflexivity).
    pose proof (G AX) as G1. pose proof (G AY) as G2. pose proof (G AZ) as G3. cbn in G1, G2, G3. congruence.
Qed.
Print Assumptions C38_twice.

(** ** An example *)

Lemma ex_bflippable : forall o, o <> OOpenDimensionX -> o <> OOpenDimensionY -> o <> OOpenDimensionZ -> bflippable (ex_binstance o).
Proof.
  intros o H1 H2 H3. constructor.
  - intros t [<-|[<-|[]]]; (split; [intros []; reflexivity|]); (split; [reflexivity|simpl; lia]).
  - intros t [<-|[<-|[<-|[]]]]; (split; [intros []; reflexivity|]); (split; [simpl; lia|discriminate]).
  - simpl. intros [H|[H|H]]; contradiction.
Qed.

Example C38_example : exists j e s s', bflip OKnapsack AZ (ex_binstance OBinPacking) = WBuilt j e /\
  bswapped AZ (ex_binstance OBinPacking) j /\
  map bn_box (bx_bins j) = [mkV 6 8 10; mkV 6 8 20] /\
  map bi_rotations (bx_items j) = [flip_rotations AZ all_rotations; [ZYX; XYZ]; [ZYX]] /\
  xhistory j xaccept [XAddBin 0 2; XAddItem 0 (mkBP 0 (mkV 0 0 0) ZXY); XAddItem 0 (mkBP 1 (mkV 0 0 3) ZYX);
     XAddBin 1 1; XAddItem 1 (mkBP 1 (mkV 0 0 0) XYZ); XAddItem 1 (mkBP 2 (mkV 2 0 0) ZYX)] [] = Some s /\
  bunflip_solution AZ (ex_binstance OBinPacking) xaccept s = Some s' /\
  xview s' = xdesc_run [] ex_xcalls.
Proof.
  destruct (C38_flip OKnapsack AZ (ex_binstance OBinPacking)) as (j & e & E & S & _); [apply ex_bflippable; discriminate|].
  assert (E' := E). vm_compute in E'. injection E' as Ej Ee. subst j e. eexists. eexists. eexists. eexists.
  split; [exact E|]. split; [exact S|]. clear E S.
  split; [vm_compute; reflexivity|]. split; [vm_compute; reflexivity|]. split; [vm_compute; reflexivity|]. split; [vm_compute; reflexivity|].
  vm_compute. reflexivity.
Qed.

(** ** What flipping does not preserve *)

(** Resources are dropped: a feasible solution of the flipped instance can be
    unflipped into a solution that is not feasible. *)
Theorem C38_resources_refuted : exists d i j e s s', bflippable i /\ bflip OBinPacking d i = WBuilt j e /\ bpacking_ok j (xview s) /\
  xhistory j xaccept [XAddBin 0 1; XAddItem 0 (mkBP 0 (mkV 0 0 0) YXZ)] [] = Some s /\ xsol_feasible s = true /\
  bunflip_solution d i xaccept s = Some s' /\ xsol_feasible s' = false.
Proof.
  exists AY, (mkBInst OBinPacking [mkBI (mkV 4 3 2) 24 1 1 [XYZ] 0 [[0%nat]]]
    [mkBB (mkV 10 8 6) 480 1 0 None [mkResource 1 [[2%Q]] false 0]]).
  eexists. eexists. eexists. eexists. split.
  { constructor.
    - intros t [<-|[]]. split; [intros []; reflexivity|]. split; [reflexivity|simpl; lia].
    - intros t [<-|[]]. split; [intros []; reflexivity|]. split; [simpl; lia|discriminate].
    - intros _. reflexivity. }
  split; [vm_compute; reflexivity|].
  match goal with |- bpacking_ok ?j (xview ?s) /\ _ =>
    assert (Hh : xhistory j xaccept [XAddBin 0 1; XAddItem 0 (mkBP 0 (mkV 0 0 0) YXZ)] [] = Some s) by (vm_compute; reflexivity) end.
  split; [|split; [exact Hh|split; [reflexivity|split; [vm_compute; reflexivity|reflexivity]]]].
  constructor.
  - intros b [<-|[]]. split; [simpl; lia|]. split; [simpl; lia|]. split.
    + intros p [<-|[]]. split; [simpl; lia|intros []; vm_compute; split; discriminate|simpl; tauto].
    + repeat constructor.
  - intros x Hx. simpl in Hx. destruct x as [|x]; [vm_compute; discriminate|lia].
Qed.
Print Assumptions C38_resources_refuted.

(** So are the minimum numbers of copies of the item types. *)
Theorem C38_copies_min_refuted : exists d i j e s s', bflip OBinPacking d i = WBuilt j e /\
  xhistory j xaccept [XAddBin 0 1] [] = Some s /\ xsol_feasible s = true /\
  bunflip_solution d i xaccept s = Some s' /\ xsol_feasible s' = false.
Proof.
  exists AY, (mkBInst OKnapsack [mkBI (mkV 4 3 2) 24 2 1 [XYZ] 0 [[]]] [mkBB (mkV 10 8 6) 480 1 0 None []]).
  eexists. eexists. eexists. eexists. split; [vm_compute; reflexivity|].
  split; [vm_compute; reflexivity|]. split; [reflexivity|]. split; [vm_compute; reflexivity|]. reflexivity.
Qed.
Print Assumptions C38_copies_min_refuted.

(** The objective becomes the open dimension X whatever the direction: with the
    dimension z open and the flip exchanging x and y, the flipped instance asks for
    the smallest extent along y, and the two orders can be opposite. *)
Definition ex_bopen : BInstance :=
  mkBInst OOpenDimensionZ [mkBI (mkV 4 3 2) 24 1 1 [XYZ; XZY] 0 [[]]] [mkBB (mkV 10 8 6) 480 1 0 None []].
Theorem C38_open_dimension_refuted : exists i j e b1 b2, bflip OBinPacking AY i = WBuilt j e /\
  bx_objective i = OOpenDimensionZ /\ bx_objective j = OOpenDimensionX /\
  bpacking_ok i [b1] /\ bpacking_ok i [b2] /\
  extent i AZ (xd_items b1) < extent i AZ (xd_items b2) /\
  extent j AX (xd_items (bswap_desc AY b2)) < extent j AX (xd_items (bswap_desc AY b1)).
Proof.
  exists ex_bopen. eexists. eexists. exists (mkXD 0 1 [mkBP 0 (mkV 0 0 0) XYZ]), (mkXD 0 1 [mkBP 0 (mkV 0 0 0) XZY]).
  split; [vm_compute; reflexivity|]. split; [reflexivity|]. split; [reflexivity|].
  split; [|split; [|split; vm_compute; reflexivity]].
  all: constructor;
    [intros b [<-|[]]; split; [simpl; lia|]; split; [simpl; lia|]; split;
      [intros p [<-|[]]; split; [simpl; lia|intros []; vm_compute; split; discriminate|simpl; tauto]|repeat constructor]
    |intros x Hx; simpl in Hx; destruct x as [|x]; [vm_compute; discriminate|lia]].
Qed.
Print Assumptions C38_open_dimension_refuted.

(** Flipping throws on a built instance with dimension z open and several bins,
    which the builder accepts. *)
Theorem C38_throws_refuted : exists calls b i e, wcalls_from (w_new OBinPacking) calls = WOk b /\ w_build b = WBuilt i e /\
  forall o d, bflip o d i = WBuildThrow.
Proof.
  exists [WSetObjective OOpenDimensionZ; WAddBin (mkV 10 8 6); WSetBinCopies 0 2; WAddItem (mkV 4 3 2)].
  eexists. eexists. eexists. split; [vm_compute; reflexivity|]. split; [vm_compute; reflexivity|].
  intros o []; vm_compute; reflexivity.
Qed.
Print Assumptions C38_throws_refuted.
