(** * C60, C11 (boxstacks): boxstacks solutions *)

From Coq Require Import List ZArith QArith Bool Lia Arith Lqa.
From Verif Require Dff_Axis.
From Verif Require Import ReducInv_Proof.
From Verif Require Import Util Common_Model Common_Spec Common_Proof OneDim_Model OneDim_Order Rect_Model RectSol_Spec RectSol_Props.
From Verif Require Import Box_Model Stack_Model Stack_Spec Stack_Proof StackCheck_Proof.
Import ListNotations.
Open Scope Z_scope.

(** ** An example: crates (nested by 2 when stacked) and pallets in a truck *)

Definition ex_truck : Truck := mkTruck true 7000 3 1 2 8000 8 4 1 (Some 9000%Q) (Some 12000%Q).
Definition ex_kinstance (objective : Objective) : KInstance :=
  mkKInst objective [true; true]
    [ mkKI (mkV 4 3 6) 10 8 1 0 [XYZ; YXZ] 900 0 2 3 (Some 2000%Q);
      mkKI (mkV 5 5 4) 25 8 0 1 [XYZ] 1500 1 0 2 None ]
    [ mkKB (mkV 14 8 10) 480 5 0 [] (Some 9000%Q) (Some 300%Q) ex_truck;
      mkKB (mkV 20 8 10) 900 5 0 [] None None no_truck ].
Definition kaccept : KCallback := fun _ => true.

Lemma ex_trucks : forall o, trucks_ok (ex_kinstance o).
Proof. intros o bt [<-|[<-|[]]]; cbn; intro E; [split; discriminate|discriminate]. Qed.
Lemma ex_maxima : forall o, maxima_ok (ex_kinstance o).
Proof. intros o bt [<-|[<-|[]]]; cbn; intro E; [discriminate|split; intros m M; discriminate]. Qed.

Definition ex_kcalls : list KBuilderCall :=
  [KAddBin 0 2; KAddStack 0 0 4 0 3; KAddItem 0 0 (0%nat, XYZ); KAddItem 0 0 (0%nat, XYZ);
   KAddStack 0 4 9 0 5; KAddItem 0 1 (1%nat, XYZ)].

(** ** C60 *)

(** For every sequence of construction calls, the bins are those asked for and
    every indicator is the sum over the bins it claims to be. *)
Theorem C60_indicators : forall i cb calls1 calls2 s, khistory i cb calls1 calls2 = Some s ->
  kview s = kdesc_run [] calls1 ++ flat_map kcall_bins calls2 /\ KIndicators i (kview s) (ksol_core s).
Proof.
  intros i cb calls1 calls2 s H. destruct (khistory_spec i cb calls1 calls2 s H) as [G V]. split; [exact V|].
  apply (kv_ind _ _ _ (kg_inv _ _ _ G)).
Qed.
Print Assumptions C60_indicators.

(** The positions of the items, the heights of the stacks, the weights and moments that
    remain for each group and the profits are those of the stacks and bins asked for. *)
Theorem C60_stacks : forall i cb calls1 calls2 s b, khistory i cb calls1 calls2 = Some s ->
  In b (kc_bins (ksol_core s)) -> KBinOk i b.
Proof.
  intros i cb calls1 calls2 s b H Hb. destruct (khistory_spec i cb calls1 calls2 s H) as [G _].
  apply (kg_bins _ _ _ G b Hb).
Qed.
Print Assumptions C60_stacks.

Example C60_indicators_example : exists s, khistory (ex_kinstance OBinPacking) kaccept ex_kcalls [KAppendEmpty 1 1] = Some s /\
  kc_number_of_bins (ksol_core s) = 3 /\ kc_number_of_stacks (ksol_core s) = 4 /\ kc_item_copies (ksol_core s) = [4; 2] /\
  kc_item_volume (ksol_core s) = 488 /\ kc_stack_area (ksol_core s) = 74 /\ (kc_item_profit (ksol_core s) == 90)%Q /\
  map (fun b => map ks_z (kn_stacks b)) (kc_bins (ksol_core s)) = [[10; 4]; []] /\
  map (fun b => map Qred (kn_weight b)) (kc_bins (ksol_core s)) = [[3300%Q; 1500%Q]; [0%Q; 0%Q]] /\
  map (fun b => map Qred (kn_moment b)) (kc_bins (ksol_core s)) = [[13350%Q; 9750%Q]; [0%Q; 0%Q]] /\
  ksol_feasible s = true.
Proof. eexists. split; [vm_compute; reflexivity|]. repeat split. Qed.

(** The builder only accepts an item in an allowed orientation on a stack whose base is
    that of the item. *)
Theorem C60_builder : forall i bins bins' pos stack p, kb_add_item i bins pos stack p = Some bins' ->
  exists b s, nth_error bins pos = Some b /\ nth_error (kn_stacks b) stack = Some s /\
    (fst p < length (kx_items i))%nat /\ In (snd p) (ki_rotations (kitem i (fst p))) /\
    ks_xe s - ks_x s = v_x (rotate (ki_box (kitem i (fst p))) (snd p)) /\
    ks_ye s - ks_y s = v_y (rotate (ki_box (kitem i (fst p))) (snd p)).
Proof.
  intros i bins bins' pos stack p H. unfold kb_add_item in H.
  destruct (nth_error bins pos) as [b|]; [|discriminate]. destruct (nth_error (kn_stacks b) stack) as [s|] eqn:E; [|discriminate].
  destruct (Nat.ltb_spec (fst p) (length (kx_items i))); cbn [andb] in H; [|discriminate].
  destruct (kcan_rotate _ _) eqn:R; cbn [andb] in H; [|discriminate].
  destruct (Z.eqb_spec (v_x (ksize i p)) (ks_xe s - ks_x s)); cbn [andb] in H; [|discriminate].
  destruct (Z.eqb_spec (v_y (ksize i p)) (ks_ye s - ks_y s)); [|discriminate].
  exists b, s. split; [reflexivity|]. split; [exact E|]. split; [assumption|]. split; [|split; symmetry; assumption].
  unfold kcan_rotate in R. apply existsb_exists in R. destruct R as (r & Hr & R).
  destruct r, (snd p); try discriminate; exact Hr.
Qed.
Print Assumptions C60_builder.

Example C60_builder_example :
  (exists bins, kb_run (ex_kinstance OBinPacking) [] ex_kcalls = Some bins) /\
  kb_run (ex_kinstance OBinPacking) [] [KAddBin 0 1; KAddStack 0 0 4 0 3; KAddItem 0 0 (0%nat, YXZ)] = None /\
  kb_run (ex_kinstance OBinPacking) [] [KAddBin 0 1; KAddStack 0 0 5 0 5; KAddItem 0 0 (1%nat, YXZ)] = None.
Proof. split; [eexists|split]; vm_compute; reflexivity. Qed.

(** [feasible()] of a solution with bins: numbers of copies of the items, maximum weight
    of the bins, weights on the axles when the groups are unloaded one after the other, and
    the callback; nothing else. *)
Theorem C60_feasible : forall i cb calls1 calls2 s, trucks_ok i -> maxima_ok i -> khistory i cb calls1 calls2 = Some s ->
  (ksol_feasible s = true <->
   kcopies_ok i (kview s) /\ (forall d, In d (kview s) -> total_ok i d /\ axles_ok i d) /\ cb (ksol_core s) = true /\ kview s <> []
   \/ kview s = [] /\ forall x, (x < length (kx_items i))%nat -> ki_copies_min (kitem i x) <= 0).
Proof.
  intros i cb calls1 calls2 s Ht Hm H. destruct (khistory_spec i cb calls1 calls2 s H) as [G _].
  destruct (kview s) as [|d0 ds] eqn:V.
  - pose proof (kg_empty _ _ _ G V) as E. rewrite E. cbn [ksol_new ksol_feasible]. rewrite Z.eqb_eq.
    assert (C : forall l n, 0 <= n -> 0 <= fold_left (fun n it => if 0 <? ki_copies_min it then n + 1 else n) l n /\
      (fold_left (fun n it => if 0 <? ki_copies_min it then n + 1 else n) l n = 0 <-> n = 0 /\ forall it, In it l -> ki_copies_min it <= 0)).
    { induction l as [|it l IH]; intros n Hn; cbn [fold_left].
      - split; [exact Hn|]. split; [intro E'; split; [exact E'|intros it []]|intros [E' _]; exact E'].
      - destruct (Z.ltb_spec 0 (ki_copies_min it)) as [L|L].
        + destruct (IH (n + 1) ltac:(lia)) as [I1 I2]. split; [exact I1|]. rewrite I2. split; [intros [E' _]; lia|].
          intros [_ K]. specialize (K it (or_introl eq_refl)). lia.
        + destruct (IH n Hn) as [I1 I2]. split; [exact I1|]. rewrite I2. split; intros [E' K]; (split; [exact E'|]).
          * intros y [<-|Hy]; [lia|apply K, Hy].
          * intros y Hy. apply K. right. exact Hy. }
    destruct (C (kx_items i) 0 ltac:(lia)) as [_ C']. rewrite C'. split.
    + intros [_ K]. right. split; [reflexivity|]. intros x Hx. apply K, nth_In, Hx.
    + intros [(_ & _ & _ & N)|[_ K]]; [contradiction|]. split; [reflexivity|]. intros it Hit. apply (In_nth _ _ dummy_kitem) in Hit.
      destruct Hit as (x & Hx & <-). apply (K x Hx).
  - assert (N : kview s <> []) by (rewrite V; discriminate). rewrite <- V.
    destruct (kg_flags _ _ _ G N) as [F1 F2 F3 F4]. destruct (kg_inv _ _ _ G) as [I _ _].
    destruct (kfeasible_spec i (ksol_core s) (cb (ksol_core s))) as (f & Ef & Sp); [intros b Hb; apply (kg_bins _ _ _ G b Hb)|].
    rewrite F1 in Ef. injection Ef as Ef. rewrite Ef. specialize (Sp (kg_bins _ _ _ G) Ht Hm). rewrite Sp, F3, F4, kmissing_zero, kcopies_ok_iff.
    assert (Cp : (forall x, (x < length (kx_items i))%nat -> nth x (kc_item_copies (ksol_core s)) 0 <= ki_copies (kitem i x)) /\
                 (forall x, (x < length (kx_items i))%nat -> ki_copies_min (kitem i x) <= nth x (kc_item_copies (ksol_core s)) 0) <-> kcopies_ok i (kview s)).
    { unfold kcopies_ok. split.
      - intros [A B] x Hx. rewrite <- (kq_item_copies _ _ _ I x Hx). split; [apply B|apply A]; exact Hx.
      - intro K. split; intros x Hx; rewrite (kq_item_copies _ _ _ I x Hx); apply (K x Hx). }
    split.
    + intros (A & B & C). left. split; [apply Cp; exact C|]. split; [exact A|]. split; [exact B|exact N].
    + intros [(A & B & C & _)|[K _]]; [|contradiction]. split; [exact B|]. split; [exact C|]. apply Cp. exact A.
Qed.
Print Assumptions C60_feasible.

(** A fifth pallet at the rear overloads the rear axle; the total weight is allowed. *)
Definition ex_heavy : list KBuilderCall :=
  ex_kcalls ++ [KAddItem 0 1 (1%nat, XYZ); KAddStack 0 9 14 0 5; KAddItem 0 2 (1%nat, XYZ); KAddItem 0 2 (1%nat, XYZ)].
Example C60_feasible_example : exists s1 s2,
  khistory (ex_kinstance OBinPacking) kaccept ex_kcalls [] = Some s1 /\ ksol_feasible s1 = true /\
  khistory (ex_kinstance OBinPacking) kaccept ex_heavy [] = Some s2 /\ ksol_feasible s2 = false /\
  kcopies_ok (ex_kinstance OBinPacking) (kview s2) /\
  (forall d, In d (kview s2) -> total_ok (ex_kinstance OBinPacking) d) /\
  (0 < ksol_violation (ex_kinstance OBinPacking) s2)%Q.
Proof.
  eexists. eexists. split; [vm_compute; reflexivity|]. split; [reflexivity|]. split; [vm_compute; reflexivity|]. split; [reflexivity|].
  split; [|split; [|vm_compute; reflexivity]].
  - intros x Hx. cbn in Hx. destruct x as [|[|x]]; [| |lia]; vm_compute; split; discriminate.
  - intros d [<-|[]]. vm_compute. discriminate.
Qed.

(** The violation shown to the user is zero when, and only when, no axle is overloaded. *)
Theorem C60_violation : forall i cb calls1 calls2 s, trucks_ok i -> maxima_ok i ->
  (forall bt m, In bt (kx_bins i) -> tr_middle_maximum (kb_truck bt) = Some m \/ tr_rear_maximum (kb_truck bt) = Some m -> (0 <= m)%Q) ->
  khistory i cb calls1 calls2 = Some s ->
  (0 <= ksol_violation i s)%Q /\ ((ksol_violation i s == 0)%Q <-> forall d, In d (kview s) -> axles_ok i d).
Proof.
  intros i cb calls1 calls2 s Ht Hm Hpos H. destruct (khistory_spec i cb calls1 calls2 s H) as [G _].
  assert (P : forall b, In b (kc_bins (ksol_core s)) -> In (kbin i (kn_type b)) (kx_bins i)).
  { intros b Hb. apply nth_In. destruct (kg_bins _ _ _ G b Hb) as [_ [T _]]. exact T. }
  assert (V1 : forall b, In b (kc_bins (ksol_core s)) -> _) by
    exact (fun b Hb => kviolation_spec i fst tr_middle_maximum b (fun m E => Hpos _ m (P b Hb) (or_introl E))).
  assert (V2 : forall b, In b (kc_bins (ksol_core s)) -> _) by
    exact (fun b Hb => kviolation_spec i snd tr_rear_maximum b (fun m E => Hpos _ m (P b Hb) (or_intror E))).
  destruct (violation_sum i (kc_bins (ksol_core s)) 0%Q (Qle_refl 0)) as [S1 S2].
  { intros b Hb. split; [apply (V1 b Hb)|apply (V2 b Hb)]. }
  unfold ksol_violation. split; [exact S1|]. rewrite S2. split.
  - intros [_ K] d Hd. unfold kview in Hd. apply in_map_iff in Hd. destruct Hd as (b & <- & Hb). destruct (K b Hb) as [K1 K2].
    apply (proj1 (kaxles_bin i b (kg_bins _ _ _ G b Hb) Ht Hm)). intros g Hg Hc.
    split; [apply (V1 b Hb)|apply (V2 b Hb)]; assumption.
  - intro K. split; [reflexivity|]. intros b Hb. specialize (K (kview_bin b) ltac:(apply in_map; exact Hb)).
    pose proof (proj2 (kaxles_bin i b (kg_bins _ _ _ G b Hb) Ht Hm) K) as K'.
    split; [apply (V1 b Hb)|apply (V2 b Hb)]; intros g Hg Hc; apply (K' g Hg Hc).
Qed.
Print Assumptions C60_violation.

(** A solution with one bin can always be built, and bins in range can always be
    appended. *)
Theorem C60_defined : forall i cb calls bins b, kb_run i [] calls = Some bins -> bins = [b] ->
  (exists s, khistory i cb calls [] = Some s) /\
  (forall calls1 calls2 s t copies, khistory i cb calls1 calls2 = Some s -> (t < length (kx_bins i))%nat ->
     exists s', kappend_empty i cb s t copies = Some s') /\
  (forall calls1 calls2 s source pos copies bids iids, khistory i cb calls1 calls2 = Some s ->
     (exists d, nth_error (kc_bins (ksol_core source)) pos = Some d /\ (exists t, map_id bids (kn_type d) = Some t /\
        exists stacks, kmap_stacks iids (kn_stacks d) = Some stacks /\ kin_range i t stacks = true)) ->
     exists s', kappend_bin i cb s source pos copies bids iids = Some s').
Proof.
  intros i cb calls bins b H ->. split; [|split].
  - destruct (kb_run_spec i calls [] [b] H) as [_ D]; [intros x []|].
    destruct (kbuild_one i cb b (D b (or_introl eq_refl))) as [s E]. exists s. unfold khistory. rewrite H, E. reflexivity.
  - intros calls1 calls2 s t copies Hs T. destruct (khistory_spec i cb calls1 calls2 s Hs) as [G _]. unfold kappend_empty.
    assert (R : kin_range i t [] = true) by (unfold kin_range; apply Nat.ltb_lt in T; rewrite T; reflexivity). rewrite R.
    destruct (kpush_good i cb s (kraw_bin t copies []) G (kin_range_ok i t copies [] R)) as (s' & E & _). exists s'. exact E.
  - intros calls1 calls2 s source pos copies bids iids Hs (d & E1 & t & E2 & stacks & E3 & R).
    destruct (khistory_spec i cb calls1 calls2 s Hs) as [G _]. unfold kappend_bin. rewrite E1, E2, E3, R.
    destruct (kpush_good i cb s (kraw_bin t copies stacks) G (kin_range_ok i t copies stacks R)) as (s' & E & _). exists s'. exact E.
Qed.
Print Assumptions C60_defined.

(** Finding: [build] on two or more bins reads outside of the weight vectors of the
    second bin, which are only filled by the next step of its loop, as soon as the first bin
    satisfies its constraints and the weights of some group are checked.  This is for every
    instance and every sequence of calls; the tree search and the flipper of instances build
    their solutions this way. *)
Theorem C60_build_refuted : forall i cb calls b1 b2 bins g, trucks_ok i -> maxima_ok i ->
  (forall bt m, In bt (kx_bins i) -> kb_max_weight bt = Some m -> (0 <= m)%Q) ->
  kb_run i [] calls = Some (b1 :: b2 :: bins) ->
  total_ok i (kview_bin b1) -> axles_ok i (kview_bin b1) -> (g < kgroups i)%nat -> kcheck_weight i g = true ->
  khistory i cb calls [] = None.
Proof.
  intros i cb calls b1 b2 bins g Ht Hm Hw H T A Hg Hc. unfold khistory. rewrite H.
  destruct (kb_run_spec i calls [] _ H) as [_ D]; [intros x []|].
  rewrite (kbuild_undefined i cb b1 b2 bins g Ht Hm Hw D); try assumption; [reflexivity|].
  apply (kb_run_fresh i calls [] _ H). intros b [].
Qed.
Print Assumptions C60_build_refuted.

Example C60_build_example :
  let calls := ex_kcalls ++ [KAddBin 1 1; KAddStack 1 0 5 0 5; KAddItem 1 0 (1%nat, XYZ)] in
  (exists bins, kb_run (ex_kinstance OBinPacking) [] calls = Some bins /\ length bins = 2%nat) /\
  khistory (ex_kinstance OBinPacking) kaccept calls [] = None.
Proof. split; [eexists; split; [vm_compute; reflexivity|reflexivity]|vm_compute; reflexivity]. Qed.

(** x_max and y_max are those of the last bin. *)
Theorem C60_last_bin : forall i cb calls1 calls2 s ds d, khistory i cb calls1 calls2 = Some s -> kview s = ds ++ [d] ->
  kc_x_max (ksol_core s) = far sd_xe d /\ kc_y_max (ksol_core s) = far sd_ye d.
Proof.
  intros i cb calls1 calls2 s ds d H V. destruct (khistory_spec i cb calls1 calls2 s H) as [G _].
  destruct (kg_last _ _ _ G ds d V) as (L1 & L2 & _). split; assumption.
Qed.
Print Assumptions C60_last_bin.

(** Without nesting, the waste of a geometrically valid solution whose last bin has a
    stack is at least what the bounding rectangle of this bin leaves (the larger of the two
    possible leftovers being kept), is not negative and is at most the full waste. *)
Theorem C60_waste : forall i cb calls1 calls2 s ds d, flat_items i ->
  (forall bt, In bt (kx_bins i) -> 1 <= v_x (kb_box bt) /\ 1 <= v_y (kb_box bt) /\ 1 <= v_z (kb_box bt)) ->
  khistory i cb calls1 calls2 = Some s -> (forall e, In e (kview s) -> kgeom i e /\ 1 <= kd_copies e) ->
  kview s = ds ++ [d] -> kd_stacks d <> [] ->
  let b := kb_box (kbin i (kd_type d)) in
  0 <= kc_bin_volume (ksol_core s) - v_z b * Z.max ((v_x b - far sd_xe d) * v_y b) ((v_y b - far sd_ye d) * v_x b) - kc_item_volume (ksol_core s)
    <= kwaste s /\ kwaste s <= kfull_waste s.
Proof.
  intros i cb calls1 calls2 s ds d Hf Hbins H Hg V Ne. cbv zeta. destruct (khistory_spec i cb calls1 calls2 s H) as [G _].
  destruct (kg_last _ _ _ G ds d V) as (_ & _ & L). specialize (L Ne). destruct (kg_inv _ _ _ G) as [I _ _].
  assert (Hok : forall e, In e (kview s) -> kdesc_ok i e).
  { intros e He. unfold kview in He. apply in_map_iff in He. destruct He as (b & <- & Hb). apply (kg_bins _ _ _ G b Hb). }
  assert (Hd : In d (kview s)) by (rewrite V; apply in_or_app; right; left; reflexivity).
  assert (Hb : forall e, In e (kview s) -> 1 <= v_x (kb_box (kbin i (kd_type e))) /\ 1 <= v_y (kb_box (kbin i (kd_type e))) /\ 1 <= v_z (kb_box (kbin i (kd_type e)))).
  { intros e He. apply Hbins, nth_In. apply (Hok e He). }
  assert (Hle : forall e, In e (kview s) -> zsum (fun s => base s * zsum (kheight i) (sd_items s)) (kd_stacks e) <= vol (kb_box (kbin i (kd_type e)))).
  { intros e He. destruct (Hg e He) as [Ge _]. destruct (Hb e He) as (B1 & B2 & B3). unfold vol.
    apply bin_volume_bound; [exact Hf|apply Hok, He|exact Ge|lia|]. destruct Ge as [G1 _ G3]. apply base_bound; [lia|lia|exact G1|exact G3]. }
  destruct (Hg d Hd) as [Gd Cd]. destruct (Hb d Hd) as (B1 & B2 & B3).
  pose proof (far_nonneg sd_xe d) as FX. pose proof (far_nonneg sd_ye d) as FY.
  pose proof Gd as [G1 _ G3].
  assert (FX' : far sd_xe d <= v_x (kb_box (kbin i (kd_type d)))) by (apply far_le; [lia|]; intros st Hs; apply (G1 st Hs)).
  assert (FY' : far sd_ye d <= v_y (kb_box (kbin i (kd_type d)))) by (apply far_le; [lia|]; intros st Hs; apply (G1 st Hs)).
  assert (A1 : zsum base (kd_stacks d) <= far sd_xe d * v_y (kb_box (kbin i (kd_type d)))).
  { apply base_bound; [lia|lia| |exact G3]. intros st Hs. destruct (G1 st Hs) as (C1 & C2 & C3 & C4). pose proof (far_ge sd_xe d st Hs). lia. }
  assert (A2 : zsum base (kd_stacks d) <= v_x (kb_box (kbin i (kd_type d))) * far sd_ye d).
  { apply base_bound; [lia|lia| |exact G3]. intros st Hs. destruct (G1 st Hs) as (C1 & C2 & C3 & C4). pose proof (far_ge sd_ye d st Hs). lia. }
  apply (bin_volume_bound i d _ Hf (Hok d Hd) Gd ltac:(lia)) in A1. apply (bin_volume_bound i d _ Hf (Hok d Hd) Gd ltac:(lia)) in A2.
  unfold kwaste, kfull_waste. rewrite L. unfold klast_volume. destruct (kd_stacks d) as [|st0 sts] eqn:Es; [congruence|]. rewrite <- Es in *.
  rewrite (kq_item_volume _ _ _ I), (kq_bin_volume _ _ _ I), V, !zsum_snoc.
  assert (Hds : zsum (fun e => kd_copies e * zsum (fun s => base s * zsum (kheight i) (sd_items s)) (kd_stacks e)) ds
    <= zsum (fun e => kd_copies e * vol (kb_box (kbin i (kd_type e)))) ds).
  { apply zsum_le. intros e He. assert (He' : In e (kview s)) by (rewrite V; apply in_or_app; left; exact He).
    destruct (Hg e He') as [_ C]. pose proof (Hle e He'). apply Z.mul_le_mono_nonneg_l; lia. }
  pose proof (Hle d Hd) as Hled. set (a := zsum (fun s => base s * _) (kd_stacks d)) in *.
  unfold vol in *. set (X := v_x (kb_box (kbin i (kd_type d)))) in *. set (Y := v_y (kb_box (kbin i (kd_type d)))) in *.
  set (W := v_z (kb_box (kbin i (kd_type d)))) in *. set (xm := far sd_xe d) in *. set (ym := far sd_ye d) in *.
  assert (K : 0 <= (kd_copies d - 1) * (X * Y * W - a)) by (apply Z.mul_nonneg_nonneg; lia).
  assert (M1 : W * Z.max ((X - xm) * Y) ((Y - ym) * X) = Z.max (W * ((X - xm) * Y)) (W * ((Y - ym) * X))) by (symmetry; apply Z.mul_max_distr_nonneg_l; lia).
  assert (M2 : Z.max ((X - xm) * Y) (Y - ym * X) <= Z.max ((X - xm) * Y) ((Y - ym) * X)).
  { apply Z.max_le_compat_l. assert (Y * 1 <= Y * X) by (apply Z.mul_le_mono_nonneg_l; lia). lia. }
  assert (M3 : 0 <= Z.max ((X - xm) * Y) (Y - ym * X)).
  { assert (0 <= (X - xm) * Y) by (apply Z.mul_nonneg_nonneg; lia). lia. }
  assert (M4 : W * Z.max ((X - xm) * Y) (Y - ym * X) <= W * Z.max ((X - xm) * Y) ((Y - ym) * X)) by (apply Z.mul_le_mono_nonneg_l; lia).
  assert (M5 : 0 <= W * Z.max ((X - xm) * Y) (Y - ym * X)) by (apply Z.mul_nonneg_nonneg; lia).
  assert (M6 : a <= X * Y * W - Z.max (W * ((X - xm) * Y)) (W * ((Y - ym) * X))) by lia.
  assert (M7 : kd_copies d * (X * Y * W) - kd_copies d * a = (kd_copies d - 1) * (X * Y * W - a) + (X * Y * W - a)) by ring.
  lia.
Qed.
Print Assumptions C60_waste.

(** Flat boards, in any of their two orientations on the floor. *)
Definition board_instance (check : list bool) (objective : Objective) : KInstance :=
  mkKInst objective check [mkKI (mkV 10 1 1) 1 5 0 0 [XYZ; YXZ] 1 0 0 9 None]
    [mkKB (mkV 10 10 1) 1 5 0 [] None None no_truck].

(** [full()]: when no item type is used more than it may be, all the copies of all of them
    are packed. *)
Theorem C60_full : forall i cb calls1 calls2 s, khistory i cb calls1 calls2 = Some s ->
  (forall x, (x < length (kx_items i))%nat -> kpacked x (kview s) <= ki_copies (kitem i x)) ->
  (kfull i s = true <-> forall x, (x < length (kx_items i))%nat -> kpacked x (kview s) = ki_copies (kitem i x)).
Proof.
  intros i cb calls1 calls2 s H Hle. destruct (khistory_spec i cb calls1 calls2 s H) as [G _]. destruct (kg_inv _ _ _ G) as [I _ _].
  assert (Hok : forall d, In d (kview s) -> kdesc_ok i d).
  { intros d Hd. unfold kview in Hd. apply in_map_iff in Hd. destruct Hd as (b & <- & Hb). apply (kg_bins _ _ _ G b Hb). }
  assert (E : kc_number_of_items (ksol_core s) = zsum (fun x => kpacked x (kview s)) (seq 0 (length (kx_items i)))).
  { rewrite (kq_nitems _ _ _ I). unfold kpacked. rewrite zsum_swap. apply zsum_ext. intros d Hd. rewrite zsum_mult. f_equal.
    unfold kcount. rewrite zsum_swap, <- Dff_Axis.zsum_one. apply zsum_ext. intros p Hp. destruct (Hok d Hd) as [_ T]. specialize (T p Hp).
    symmetry. exact (Dff_Axis.zsum_single _ (fst p) 1 T). }
  assert (E' : knumber_of_items i = zsum (fun x => ki_copies (kitem i x)) (seq 0 (length (kx_items i)))).
  { unfold knumber_of_items, kitem. rewrite <- (zsum_map _ _ (fun x => nth x (kx_items i) dummy_kitem) ki_copies). f_equal.
    apply (nth_ext _ _ dummy_kitem dummy_kitem); [rewrite map_length, seq_length; reflexivity|]. intros n Hn.
    rewrite (nth_indep (map _ _) dummy_kitem (nth O (kx_items i) dummy_kitem)) by (rewrite map_length, seq_length; exact Hn).
    rewrite (map_nth (fun x => nth x (kx_items i) dummy_kitem)), seq_nth by exact Hn. reflexivity. }
  unfold kfull. rewrite Z.eqb_eq, E, E'. split.
  - intros S x Hx.
    assert (K : forall l, (forall y, In y l -> (y < length (kx_items i))%nat) -> zsum (fun x => kpacked x (kview s)) l = zsum (fun x => ki_copies (kitem i x)) l -> forall y, In y l -> kpacked y (kview s) = ki_copies (kitem i y)).
    { induction l as [|a l IH]; intros Hl S' y []; rewrite !zsum_cons in S';
        pose proof (Hle a (Hl a (or_introl eq_refl))) as L;
        assert (L' : zsum (fun x => kpacked x (kview s)) l <= zsum (fun x => ki_copies (kitem i x)) l)
          by (apply zsum_le; intros z Hz; apply Hle, Hl; right; exact Hz).
      - subst y. lia.
      - apply IH; [intros z Hz; apply Hl; right; exact Hz|lia|assumption]. }
    apply (K (seq 0 (length (kx_items i)))); [intros y Hy; apply in_seq in Hy; lia|exact S|apply in_seq; lia].
  - intro K. apply zsum_ext. intros x Hx. apply in_seq in Hx. apply K. lia.
Qed.
Print Assumptions C60_full.

Example C60_full_example : exists s s', khistory (ex_kinstance OBinPacking) kaccept ex_kcalls [] = Some s /\ kfull (ex_kinstance OBinPacking) s = false /\
  khistory (board_instance [] OBinPacking) kaccept [KAddBin 0 5; KAddStack 0 0 10 0 1; KAddItem 0 0 (0%nat, XYZ)] [] = Some s' /\
  kfull (board_instance [] OBinPacking) s' = true.
Proof. eexists. eexists. repeat split; vm_compute; reflexivity. Qed.

(** ** Findings on the waste *)

Lemma board_geom : forall c o d, (forall s, In s (kd_stacks d) -> 0 <= sd_x s < sd_xe s /\ sd_xe s <= 10 /\ 0 <= sd_y s < sd_ye s /\ sd_ye s <= 10) ->
  (forall s, In s (kd_stacks d) -> stack_height (board_instance c o) (sd_items s) <= 1) -> ForallOrdPairs sapart (kd_stacks d) -> kd_type d = 0%nat ->
  kgeom (board_instance c o) d.
Proof. intros c o d H1 H2 H3 E. constructor; rewrite ?E; assumption. Qed.

(** Finding: a closing parenthesis is misplaced in the leftover along y, which is not
    counted.  A board along x at the origin leaves 90 of the 100 units of the bin; the same
    board along y next to the opposite wall leaves 10, and is said to be better. *)
Theorem C60_leftover_refuted : exists i calls1 calls2 s1 s2,
  khistory i kaccept calls1 [] = Some s1 /\ khistory i kaccept calls2 [] = Some s2 /\
  ksol_feasible s1 = true /\ ksol_feasible s2 = true /\
  (forall d, In d (kview s1) \/ In d (kview s2) -> kgeom i d) /\
  kx_objective i = OBinPackingWithLeftovers /\
  kc_item_copies (ksol_core s1) = kc_item_copies (ksol_core s2) /\
  kc_x_max (ksol_core s1) = 10 /\ kc_y_max (ksol_core s1) = 1 /\ kc_x_max (ksol_core s2) = 9 /\ kc_y_max (ksol_core s2) = 10 /\
  kwaste s1 = 90 /\ kwaste s2 = 80 /\ ksol_lt i s1 s2 = Some true.
Proof.
  exists (board_instance [] OBinPackingWithLeftovers), [KAddBin 0 1; KAddStack 0 0 10 0 1; KAddItem 0 0 (0%nat, XYZ)],
    [KAddBin 0 1; KAddStack 0 8 9 0 10; KAddItem 0 0 (0%nat, YXZ)].
  eexists. eexists. split; [vm_compute; reflexivity|]. split; [vm_compute; reflexivity|]. split; [reflexivity|]. split; [reflexivity|].
  split; [|repeat split].
  intros d [[<-|[]]|[<-|[]]]; apply board_geom; try reflexivity;
    try (intros s [<-|[]]; vm_compute; repeat split; discriminate || reflexivity); repeat constructor.
Qed.
Print Assumptions C60_leftover_refuted.

(** Finding: the volume of the last bin is only computed when it has a stack; with an
    empty last bin, the waste of a built solution is negative. *)
Theorem C60_empty_last_refuted : exists i calls s, khistory i kaccept calls [] = Some s /\ ksol_feasible s = true /\
  (forall d, In d (kview s) -> kgeom i d) /\ kwaste s = -10.
Proof.
  exists (board_instance [false] OBinPackingWithLeftovers), [KAddBin 0 1; KAddStack 0 0 10 0 1; KAddItem 0 0 (0%nat, XYZ); KAddBin 0 1].
  eexists. split; [vm_compute; reflexivity|]. split; [reflexivity|]. split; [|reflexivity].
  intros d [<-|[<-|[]]]; apply board_geom; try reflexivity;
    try (intros s [<-|[]]; vm_compute; repeat split; discriminate || reflexivity); try (intros s []); repeat constructor.
Qed.
Print Assumptions C60_empty_last_refuted.

(** Finding: nested items are counted with their whole volume, so that a valid solution
    can have more volume of items than volume of bins. *)
Theorem C60_nested_waste_refuted : exists i calls s, khistory i kaccept calls [] = Some s /\ ksol_feasible s = true /\
  (forall d, In d (kview s) -> kgeom i d) /\ (forall it, In it (kx_items i) -> 0 <= ki_nesting it < v_z (ki_box it)) /\ kfull_waste s = -9.
Proof.
  exists (mkKInst OBinPacking [] [mkKI (mkV 1 1 10) 1 5 0 0 [XYZ] 1 0 9 9 None] [mkKB (mkV 1 1 11) 1 5 0 [] None None no_truck]),
    [KAddBin 0 1; KAddStack 0 0 1 0 1; KAddItem 0 0 (0%nat, XYZ); KAddItem 0 0 (0%nat, XYZ)].
  eexists. split; [vm_compute; reflexivity|]. split; [reflexivity|]. split; [|split; [|reflexivity]].
  - intros d [<-|[]]. constructor; cbn [kd_stacks kd_type].
    + intros s [<-|[]]. vm_compute. repeat split; discriminate || reflexivity.
    + intros s [<-|[]]. vm_compute. discriminate.
    + repeat constructor.
  - intros it [<-|[]]. vm_compute. split; [discriminate|reflexivity].
Qed.
Print Assumptions C60_nested_waste_refuted.

(** Finding: [feasible()] is no guarantee on the geometry, the stacks, or the number of
    bins: here two stacks overlap and are out of the bin, a stack is higher than the bin and
    breaks the number and the weight limits of its items, items of different stackability ids are
    stacked, and more bins are used than there are. *)
Theorem C60_geometry_refuted : exists i calls s d s1 s2 p q rest, trucks_ok i /\ maxima_ok i /\
  khistory i kaccept calls [] = Some s /\ ksol_feasible s = true /\ In d (kview s) /\ kd_stacks d = [s1; s2] /\
  ~ sapart s1 s2 /\ v_x (kb_box (kbin i (kd_type d))) < sd_xe s1 /\
  v_z (kb_box (kbin i (kd_type d))) < stack_height i (sd_items s1) /\ sd_items s1 = p :: q :: rest /\
  ki_stackability (kitem i (fst p)) <> ki_stackability (kitem i (fst q)) /\
  ki_max_stackability (kitem i (fst p)) < Z.of_nat (length (sd_items s1)) /\
  (exists w, ki_max_above (kitem i (fst p)) = Some w /\ (w < qsum (kweight i) (q :: rest))%Q) /\
  kb_copies (kbin i (kd_type d)) < kused (kd_type d) (kview s).
Proof.
  exists (mkKInst OBinPacking [] [mkKI (mkV 1 1 1) 1 50 0 0 [XYZ] 2 0 0 1 (Some 1%Q); mkKI (mkV 1 1 1) 1 50 0 0 [XYZ] 2 1 0 9 None]
     [mkKB (mkV 1 1 1) 1 5 0 [] None None no_truck]),
    [KAddBin 0 6; KAddStack 0 1 2 0 1; KAddItem 0 0 (0%nat, XYZ); KAddItem 0 0 (1%nat, XYZ); KAddStack 0 1 2 0 1; KAddItem 0 1 (0%nat, XYZ)].
  eexists. exists (mkKD 0 6 [mkKSD 1 2 0 1 [(0%nat, XYZ); (1%nat, XYZ)]; mkKSD 1 2 0 1 [(0%nat, XYZ)]]),
    (mkKSD 1 2 0 1 [(0%nat, XYZ); (1%nat, XYZ)]), (mkKSD 1 2 0 1 [(0%nat, XYZ)]), (0%nat, XYZ), (1%nat, XYZ), [].
  split; [intros bt [<-|[]]; discriminate|]. split; [intros bt [<-|[]] _; split; discriminate|].
  split; [vm_compute; reflexivity|]. split; [reflexivity|]. split; [left; reflexivity|]. split; [reflexivity|].
  split; [intros [H|[H|[H|H]]]; cbn in H; lia|]. split; [cbn; lia|]. split; [cbn; lia|]. split; [reflexivity|].
  split; [cbn; lia|]. split; [cbn; lia|]. split; [exists 1%Q; split; [reflexivity|vm_compute; reflexivity]|]. cbn. lia.
Qed.
Print Assumptions C60_geometry_refuted.

(** ** check_stack *)

(** An accepted stack of items of non-negative nesting heights that share their base
    satisfies, up to the tolerance, the height, density, number and weight limits. *)
Theorem C60_check_stack : forall i t ps bx by_, kcheck_stack i t ps = true ->
  (forall p, In p ps -> 0 <= ki_nesting (kitem i (fst p))) -> 0 < bx -> 0 < by_ -> 0 <= v_z (kb_box (kbin i t)) ->
  (forall p, In p ps -> v_x (rotate (ki_box (kitem i (fst p))) (snd p)) = bx /\ v_y (rotate (ki_box (kitem i (fst p))) (snd p)) = by_) ->
  (forall k, (k <= length ps)%nat -> stack_height i (firstn k ps) <= v_z (kb_box (kbin i t))) /\
  (forall d, kb_max_density (kbin i t) = Some d -> ps <> [] -> (qsum (kweight i) ps <= (d + tol) * inject_Z (bx * by_))%Q) /\
  (forall p, In p ps -> Z.of_nat (length ps) <= ki_max_stackability (kitem i (fst p))) /\
  (forall below p above w, ps = below ++ p :: above -> above <> [] -> ki_max_above (kitem i (fst p)) = Some w ->
     (qsum (kweight i) above <= w + tol)%Q).
Proof.
  intros i t ps bx by_ H Hn Hx Hy Hz Hb. unfold kcheck_stack in H. apply kcheck_loop_sound in H. destruct H as (H1 & H2 & H3 & _ & H5).
  assert (N : forall l, (forall p, In p l -> In p ps) -> 0 <= zsum (fun p => ki_nesting (kitem i (fst p))) l).
  { intros l Hl. apply zsum_nonneg. intros p Hp. apply Hn, Hl, Hp. }
  split; [|split; [|split]].
  - intros k Hk. destruct k as [|k]; [cbn; lia|]. specialize (H1 (S k) ltac:(lia)). cbv iota in H1. unfold stack_height.
    assert (Hs : forall p, In p (tl (firstn (S k) ps)) -> In p ps).
    { intros p Hp. assert (Hp' : In p (firstn (S k) ps)) by (destruct (firstn (S k) ps); [destruct Hp|right; exact Hp]).
      rewrite <- (firstn_skipn (S k) ps). apply in_or_app. left. exact Hp'. }
    specialize (N _ Hs). lia.
  - intros d Hd Ne. destruct (exists_last_or_nil _ ps) as [-> |(l & p & E)]; [congruence|].
    specialize (H2 l p [] d E Hd). rewrite <- E in H2.
    destruct (Hb p) as [Ex Ey]; [rewrite E; apply in_or_app; right; left; reflexivity|]. unfold ksize in H2. rewrite Ex, Ey in H2.
    assert (PX : (0 < inject_Z bx)%Q) by (unfold Qlt; cbn; lia). assert (PY : (0 < inject_Z by_)%Q) by (unfold Qlt; cbn; lia).
    rewrite inject_Z_mult.
    assert (Eq : (qsum (kweight i) ps == (0 + qsum (kweight i) ps) / inject_Z bx / inject_Z by_ * (inject_Z bx * inject_Z by_))%Q).
    { field. split; intro E0; lra. }
    rewrite Eq. apply Qmult_le_compat_r; [exact H2|]. apply Qlt_le_weak, Qmult_lt_0_compat; assumption.
  - exact H3.
  - intros below p above w E Ne Hw. destruct (exists_last_or_nil _ above) as [-> |(m & a & Ea)]; [congruence|].
    rewrite Ea in E |- *. apply (H5 below p m a [] w E Hw).
Qed.
Print Assumptions C60_check_stack.

(** Without nesting, a stack that satisfies the limits is accepted. *)
Theorem C60_check_stack_complete : forall i t ps bx by_,
  (forall p, In p ps -> ki_nesting (kitem i (fst p)) = 0 /\ (0 <= kweight i p)%Q) -> 0 < bx -> 0 < by_ ->
  (forall p, In p ps -> v_x (rotate (ki_box (kitem i (fst p))) (snd p)) = bx /\ v_y (rotate (ki_box (kitem i (fst p))) (snd p)) = by_) ->
  stack_ok i t ps -> kcheck_stack i t ps = true.
Proof.
  intros i t ps bx by_ Hn Hx Hy Hb [S1 S2 S3 S4]. unfold kcheck_stack. apply kcheck_loop_complete.
  - exact Hn.
  - intros k Hk. specialize (S1 k ltac:(lia)). unfold stack_height in S1.
    rewrite (zsum_ext _ (fun p => ki_nesting (kitem i (fst p))) (fun _ => 0)) in S1.
    + rewrite zsum_const in S1. lia.
    + intros p Hp. apply Hn. assert (Hp' : In p (firstn k ps)) by (destruct (firstn k ps); [destruct Hp|right; exact Hp]).
      rewrite <- (firstn_skipn k ps). apply in_or_app. left. exact Hp'.
  - intros below p above d E Hd. assert (Hp : In p ps) by (rewrite E; apply in_or_app; right; left; reflexivity).
    specialize (S2 d p Hd Hp). destruct (Hb p Hp) as [Ex Ey]. rewrite Ex, Ey in S2. unfold ksize. rewrite Ex, Ey.
    assert (PX : (0 < inject_Z bx)%Q) by (unfold Qlt; cbn; lia). assert (PY : (0 < inject_Z by_)%Q) by (unfold Qlt; cbn; lia).
    assert (Le : (qsum (kweight i) (below ++ [p]) <= qsum (kweight i) ps)%Q).
    { rewrite E. change (p :: above) with ([p] ++ above). rewrite app_assoc, (qsum_app _ _ (below ++ [p]) above).
      assert (0 <= qsum (kweight i) above)%Q; [|lra]. apply qsum_nonneg. intros q Hq. apply Hn. rewrite E. apply in_or_app. right. right. exact Hq. }
    rewrite inject_Z_mult in S2. apply (Qle_trans _ d); [|unfold tol; lra].
    apply Qle_shift_div_r; [exact PY|]. apply Qle_shift_div_r; [exact PX|].
    rewrite Qplus_0_l. apply (Qle_trans _ _ _ Le). setoid_replace (d * inject_Z by_ * inject_Z bx)%Q with (d * (inject_Z bx * inject_Z by_))%Q by ring. exact S2.
  - exact S3.
  - intros q Hq. discriminate.
  - exact S4.
Qed.
Print Assumptions C60_check_stack_complete.

Example C60_check_stack_example :
  kcheck_stack (ex_kinstance OBinPacking) 1 [(1%nat, XYZ); (1%nat, XYZ)] = true /\
  kcheck_stack (ex_kinstance OBinPacking) 1 [(1%nat, XYZ); (1%nat, XYZ); (1%nat, XYZ)] = false /\
  stack_ok (ex_kinstance OBinPacking) 1 [(1%nat, XYZ); (1%nat, XYZ)].
Proof.
  split; [vm_compute; reflexivity|]. split; [vm_compute; reflexivity|]. constructor.
  - intros [|[|[|k]]] Hk; cbn in *; lia.
  - intros d p E. discriminate.
  - intros p [<-|[<-|[]]]; vm_compute; discriminate.
  - intros below p above w E Ew. exfalso. assert (Hp : In p [(1%nat, XYZ); (1%nat, XYZ)]) by (rewrite E; apply in_or_app; right; left; reflexivity).
    destruct Hp as [<-|[<-|[]]]; discriminate Ew.
Qed.

(** Finding: check_stack adds the nesting height where the rest of the code subtracts
    it; a valid stack of two nested crates is rejected ... *)
Theorem C60_nesting_refuted : exists i t ps, stack_ok i t ps /\ (forall it, In it (kx_items i) -> 0 <= ki_nesting it) /\ kcheck_stack i t ps = false.
Proof.
  exists (ex_kinstance OBinPacking), 1%nat, [(0%nat, XYZ); (0%nat, XYZ)]. split; [|split; [|vm_compute; reflexivity]].
  - constructor.
    + intros [|[|[|k]]] Hk; cbn in *; lia.
    + intros d p E. discriminate.
    + intros p [<-|[<-|[]]]; vm_compute; discriminate.
    + intros below p above w E Ew. destruct below as [|b1 [|b2 below]]; cbn in E.
      * injection E as <- <-. cbn in Ew. injection Ew as <-. vm_compute. discriminate.
      * injection E as <- <- <-. cbn in Ew. injection Ew as <-. vm_compute. discriminate.
      * injection E as <- <- E. destruct below; discriminate.
  - intros it [<-|[<-|[]]]; cbn; lia.
Qed.
Print Assumptions C60_nesting_refuted.

(** ... and with a negative nesting height (which the instance builder accepts, and which
    means a gap), a stack that is too high is accepted. *)
Theorem C60_negative_nesting_refuted : exists i t ps, kcheck_stack i t ps = true /\ v_z (kb_box (kbin i t)) < stack_height i ps.
Proof.
  exists (mkKInst OBinPacking [] [mkKI (mkV 1 1 3) 1 9 0 0 [XYZ] 1 0 (-1) 9 None] [mkKB (mkV 1 1 5) 1 9 0 [] None None no_truck]), 0%nat,
    [(0%nat, XYZ); (0%nat, XYZ)]. vm_compute. split; reflexivity.
Qed.
Print Assumptions C60_negative_nesting_refuted.

(** ** C11, boxstacks solutions *)

Definition klt (i : KInstance) (s1 s2 : KSolution) : bool :=
  match ksol_lt i s1 s2 with Some b => b | None => false end.

(** A solution is only replaced by a feasible one. *)
Theorem C11_boxstacks_feasible_first : forall i s1 s2,
  (ksol_lt i s1 s2 = Some true -> ksol_feasible s2 = true) /\
  (ksol_feasible s1 = false -> ksol_feasible s2 = true -> ksol_lt i s1 s2 = Some true).
Proof.
  intros i s1 s2. unfold ksol_lt. split.
  - destruct (ksol_feasible s2); [reflexivity|discriminate].
  - intros -> ->. reflexivity.
Qed.
Print Assumptions C11_boxstacks_feasible_first.

(** Bin packing, leftovers and open dimensions: a strict weak order. *)
Theorem C11_boxstacks_strict_weak_order : forall i,
  kx_objective i = OBinPacking \/ kx_objective i = OBinPackingWithLeftovers
  \/ kx_objective i = OOpenDimensionX \/ kx_objective i = OOpenDimensionY ->
  StrictWeakOrder KSolution (klt i).
Proof.
  intros i Ho. unfold klt, ksol_lt. constructor.
  - intro a. destruct (ksol_feasible a); cbn [negb]; [|reflexivity].
    destruct Ho as [-> |[-> |[-> | ->]]]; rewrite ?Z.ltb_irrefl; reflexivity.
  - intros a b c. destruct (ksol_feasible a), (ksol_feasible b), (ksol_feasible c); cbn [negb]; try congruence;
    destruct Ho as [-> |[-> |[-> | ->]]]; rewrite ?Z.ltb_lt; try lia; reflexivity.
  - intros a b c. destruct (ksol_feasible a), (ksol_feasible b), (ksol_feasible c); cbn [negb]; try congruence;
    destruct Ho as [-> |[-> |[-> | ->]]]; rewrite ?Z.ltb_ge; try lia; congruence.
Qed.
Print Assumptions C11_boxstacks_strict_weak_order.

(** Better means better for the user. *)
Theorem C11_boxstacks_improvement : forall i s1 s2, ksol_feasible s1 = true -> ksol_lt i s1 s2 = Some true ->
  (0 <= kc_item_profit (ksol_core s1))%Q -> (0 <= kc_item_profit (ksol_core s2))%Q ->
  ksol_feasible s2 = true /\
  match kx_objective i with
  | OKnapsack | OFeasibility => (kc_item_profit (ksol_core s1) < kc_item_profit (ksol_core s2))%Q
  | OBinPacking => kc_number_of_bins (ksol_core s2) < kc_number_of_bins (ksol_core s1)
  | OOpenDimensionX => kc_x_max (ksol_core s2) < kc_x_max (ksol_core s1)
  | OOpenDimensionY => kc_y_max (ksol_core s2) < kc_y_max (ksol_core s1)
  | _ => True
  end.
Proof.
  intros i s1 s2 H1 H P1 P2. pose proof (proj1 (C11_boxstacks_feasible_first i s1 s2) H) as H2. split; [exact H2|].
  unfold ksol_lt in H. rewrite H1, H2 in H. cbn [negb] in H.
  destruct (kx_objective i); try exact Logic.I; try discriminate; injection H as H;
    try (apply Z.ltb_lt; exact H); try (apply Common_Proof.sgp_sound; assumption).
Qed.
Print Assumptions C11_boxstacks_improvement.

Example C11_boxstacks_example :
  let s n := match khistory (ex_kinstance OBinPacking) kaccept [KAddBin 0 n; KAddStack 0 0 4 0 3; KAddItem 0 0 (0%nat, XYZ)] [] with
             | Some s => s | None => ksol_new (ex_kinstance OBinPacking) end in
  ksol_feasible (s 1) = true /\ ksol_feasible (s 2) = true /\
  ksol_lt (ex_kinstance OBinPacking) (s 2) (s 1) = Some true /\
  ksol_lt (ex_kinstance OBinPacking) (s 1) (s 2) = Some false.
Proof. vm_compute. auto. Qed.

(** Finding: the variable-sized objective has no comparison: two feasible solutions make
    it throw. *)
Theorem C11_boxstacks_variable_sized_refuted : forall i s1 s2, kx_objective i = OVariableSizedBinPacking ->
  ksol_feasible s1 = true -> ksol_feasible s2 = true -> ksol_lt i s1 s2 = None.
Proof. intros i s1 s2 E H1 H2. unfold ksol_lt. rewrite H1, H2, E. reflexivity. Qed.
Print Assumptions C11_boxstacks_variable_sized_refuted.
