(** * C65, C66: the box branching scheme *)

From Coq Require Import List ZArith QArith Bool Lia Lqa Arith Permutation.
From Verif Require Import Util Common_Model Common_Spec Common_Proof OneDim_Model OneDim_Spec OneDim_Proof OneDimBuilder_Spec Tree1D_Model Tree1D_Spec
  Box_Model Box_Spec BoxSol_Model BoxSol_Spec BoxSol_Proof BoxSol_Props BoxBuilder_Model BoxBuilder_Spec BoxBuilder_Props BoxFlip_Model BoxFlip_Spec BoxFlip_Proof
  BoxTree_Model BoxTree_Spec BoxSky_Proof BoxTreeRes_Proof BoxTree_Proof BoxTreeNode_Proof BoxTreeBound_Proof.
Import ListNotations.
Open Scope Z_scope.

(** ** Schemes from calls to the instance builder *)

Definition zscheme_of (calls : list WCall) (dir : option Axis) : option ZScheme :=
  match wrun ODefault calls with
  | Some b =>
      match w_build b with
      | WBuilt i d =>
          match bflip ODefault AY i, bflip ODefault AZ i with
          | WBuilt jy dy, WBuilt jz dz => Some (mkZS i d jy dy jz dz dir)
          | _, _ => None
          end
      | _ => None
      end
  | None => None
  end.

(** Checks of the domain by computation. *)
Definition zdomainb (i : BInstance) : bool :=
  forallb (fun t => (0 <? v_x (bn_box t)) && (0 <? v_y (bn_box t)) && (0 <? v_z (bn_box t)) && Qltb 0 (bn_cost t) && (1 <=? bn_copies t)
    && forallb (fun r => Qle_bool 0 (res_capacity r) && forallb (forallb (Qle_bool 0)) (res_item_consumptions r)) (bn_resources t)) (bx_bins i)
  && forallb (fun t => (0 <? v_x (bi_box t)) && (0 <? v_y (bi_box t)) && (0 <? v_z (bi_box t)) && (1 <=? bi_copies t) && negb (length (bi_rotations t) =? 0)%nat) (bx_items i)
  && match bx_objective i with OOpenDimensionX | OOpenDimensionY | OOpenDimensionZ => zsum bn_copies (bx_bins i) =? 1 | _ => true end.

Lemma zdomainb_ok : forall calls dir s, zscheme_of calls dir = Some s -> zdomainb (zs_i s) = true -> ztree_domain s.
Proof.
  intros calls dir s H Hd. unfold zscheme_of in H. destruct (wrun ODefault calls) as [b|] eqn:Eb; [|discriminate]. destruct (w_build b) as [i d| |] eqn:Ei; try discriminate. destruct (bflip ODefault AY i) as [jy dy| |] eqn:Ey; try discriminate. destruct (bflip ODefault AZ i) as [jz dz| |] eqn:Ez; try discriminate. injection H as <-. cbn [zs_i] in Hd.
  destruct (C51_built ODefault calls b i d Eb Ei) as (Hc & _ & _). unfold zdomainb in Hd. apply andb_true_iff in Hd. destruct Hd as [Hd HO]. apply andb_true_iff in Hd. destruct Hd as [HB HI]. rewrite forallb_forall in HB, HI.
  constructor; cbn [zs_i zs_d zs_jy zs_dy zs_jz zs_dz]; try assumption.
  - constructor.
    + intros t Ht. specialize (HB t Ht). rewrite !andb_true_iff, !Z.ltb_lt, Z.leb_le in HB. destruct HB as (((((A1 & A2) & A3) & A4) & A5) & _). apply Qltb_lt in A4. split; [intros [| |]; assumption|]. split; assumption.
    + intros t Ht. specialize (HI t Ht). rewrite !andb_true_iff, !Z.ltb_lt, Z.leb_le in HI. destruct HI as ((((A1 & A2) & A3) & A4) & A5). split; [intros [| |]; assumption|]. split; [assumption|]. intro X. rewrite X in A5. discriminate.
    + intros Ho. destruct Ho as [Ho|[Ho|Ho]]; rewrite Ho in HO; apply Z.eqb_eq; exact HO.
  - exists ODefault. exact Ey.
  - exists ODefault. exact Ez.
  - intros t r Ht Hr. specialize (HB t Ht). rewrite !andb_true_iff in HB. destruct HB as [_ HB]. rewrite forallb_forall in HB. specialize (HB r Hr). apply andb_true_iff in HB. destruct HB as [A B]. apply Qle_bool_iff in A. split; [exact A|].
    intros q v Hq Hv. rewrite forallb_forall in B. specialize (B q Hq). rewrite forallb_forall in B. apply Qle_bool_iff, B, Hv.
Qed.

(** Nodes by choice of insertions; all the nodes below a node. *)
Fixpoint zwalk (s : ZScheme) (n : ZNode) (ks : list nat) : option ZNode :=
  match ks with
  | [] => Some n
  | k :: rest => match nth_error (zinsertions s n) k with Some ins => match zchild s n ins with Some m => zwalk s m rest | None => None end | None => None end
  end.

Lemma zbelow_first : forall s n ins c m, In ins (zinsertions s n) -> zchild s n ins = Some c -> zbelow s c m -> zbelow s n m.
Proof. intros s n ins c m Hin Hc H. eapply zbelow_trans; [|exact H]. exact (zbelow_child s n n ins c (zbelow_refl s n) Hin Hc). Qed.

Lemma zwalk_below : forall s ks n m, zwalk s n ks = Some m -> zbelow s n m.
Proof.
  induction ks as [|k ks IH]; intros n m H; cbn [zwalk] in H; [injection H as <-; constructor|]. destruct (nth_error (zinsertions s n) k) as [ins|] eqn:Ek; [|discriminate]. destruct (zchild s n ins) as [c|] eqn:Ec; [|discriminate].
  eapply zbelow_first; [exact (nth_error_In _ _ Ek)|exact Ec|apply IH, H].
Qed.

Fixpoint zconcat (l : list (option (list ZNode))) : option (list ZNode) :=
  match l with
  | [] => Some []
  | a :: rest => match a, zconcat rest with Some a, Some b => Some (a ++ b) | _, _ => None end
  end.
Fixpoint zexplore (fuel : nat) (s : ZScheme) (n : ZNode) : option (list ZNode) :=
  match fuel with
  | O => None
  | S fuel => option_map (cons n) (zconcat (map (fun ins => match zchild s n ins with Some c => zexplore fuel s c | None => Some [] end) (zinsertions s n)))
  end.

Lemma zbelow_cases : forall s n m, zbelow s n m -> m = n \/ exists ins c, In ins (zinsertions s n) /\ zchild s n ins = Some c /\ zbelow s c m.
Proof.
  intros s n m H. induction H as [|m ins m' H IH Hin Hc]; [left; reflexivity|right]. destruct IH as [->|(ins0 & c & B & C & D)].
  - exists ins, m'. repeat split; try assumption. constructor.
  - exists ins0, c. repeat split; try assumption. exact (zbelow_child s c m ins m' D Hin Hc).
Qed.

Lemma zexplore_all : forall fuel s n l, zexplore fuel s n = Some l -> forall m, zbelow s n m -> In m l.
Proof.
  induction fuel as [|fuel IH]; intros s n l H m Hm; cbn [zexplore] in H; [discriminate|].
  destruct (zconcat _) as [rest|] eqn:Er; [|discriminate]. cbn [option_map] in H. injection H as <-. destruct (zbelow_cases s n m Hm) as [->|(ins & c & B & C & D)]; [left; reflexivity|right].
  revert rest Er B. generalize (zinsertions s n). induction l as [|i0 li IHl]; intros rest Er B; [destruct B|]. cbn [map zconcat] in Er. destruct B as [->|B].
  - rewrite C in Er. destruct (zexplore fuel s c) as [a|] eqn:Ea; [|discriminate]. destruct (zconcat (map _ li)) as [b|]; [|discriminate]. injection Er as <-. apply in_or_app. left. apply (IH s c a Ea m D).
  - destruct (match zchild s n i0 with Some c0 => zexplore fuel s c0 | None => Some [] end) as [a|]; [|discriminate]. destruct (zconcat (map _ li)) as [b|] eqn:Eb; [|discriminate]. injection Er as <-. apply in_or_app. right. apply (IHl b eq_refl B).
Qed.

Lemma zexplore_check : forall fuel s n (f : ZNode -> bool), option_map (forallb f) (zexplore fuel s n) = Some true -> forall m, zbelow s n m -> f m = true.
Proof.
  intros fuel s n f H m Hm. destruct (zexplore fuel s n) as [l|] eqn:E; [|discriminate]. cbn [option_map] in H. injection H as H. rewrite forallb_forall in H. apply H. apply (zexplore_all fuel s n l E m Hm).
Qed.

Definition no_zscheme : ZScheme :=
  let i := mkBInst ODefault [] [] in
  let d := mkDb [] [] 0 0 None 0 0 0 0 0 0 0 0 0 None 0 false in mkZS i d i d i d None.
Definition the_zscheme (calls : list WCall) (dir : option Axis) : ZScheme := match zscheme_of calls dir with Some s => s | None => no_zscheme end.
(** Node reached by the choices [ks] of insertions. *)
Definition the_znode (s : ZScheme) (ks : list nat) : ZNode := match zwalk s (zroot s) ks with Some n => n | None => zroot s end.

Ltac zdom calls dir := apply (zdomainb_ok calls dir); vm_compute; reflexivity.
Ltac zwalk ks := apply (zwalk_below _ ks); vm_compute; reflexivity.

(** ** C65 *)

(** Every node of the tree becomes a solution: items inside the bins, in allowed
    orientations, without overlap, the weight up to the tolerance; no item type and no
    bin type is used more than its copies. *)
Theorem C65_solutions : forall s cb n, ztree_domain s -> zreachable s n -> exists sol, zto_solution s cb n = Some sol /\
  bpacking_ok (zs_i s) (xview sol) /\ (forall d, In d (xview sol) -> zbin_ok (zs_i s) d) /\
  (forall t, (t < length (bx_bins (zs_i s)))%nat -> bused_bins t (xview sol) <= bn_copies (bxbin (zs_i s) t)).
Proof.
  intros s cb n Hd Hn. destruct (znode_inv s Hd n Hn) as [ds NI]. destruct (zsolution_ok s Hd cb n ds NI) as (sol & E & V & _). exists sol. split; [exact E|]. rewrite V. split; [|split].
  - constructor; [|intros x Hx; apply (ni_copies s n ds NI x Hx)]. intros d Hdd. split; [apply (zinv_bin_types s n ds NI d Hdd)|]. split; [rewrite (ni_one s n ds NI d Hdd); lia|]. apply (zk_geometry _ _ (ni_ok s n ds NI d Hdd)).
  - apply (ni_ok s n ds NI).
  - intros t Htt. etransitivity; [|apply (zused_bound s Hd (zn_bins n) t Htt)]. rewrite <- (ni_types s n ds NI). pose proof (ni_one s n ds NI) as Ho. clear - Ho. unfold bused_bins. induction ds as [|d ds IH]; [cbn; lia|]. rewrite zsum_cons. cbn [map count_occ].
    specialize (IH (fun d' H => Ho d' (or_intror H))). rewrite (Ho d (or_introl eq_refl)). destruct (Nat.eqb_spec (xd_type d) t) as [E|E]; destruct (Nat.eq_dec (xd_type d) t); try contradiction; lia.
Qed.
Print Assumptions C65_solutions.

(** In the direction X (or without resources) the capacities of the resources without
    penalty are respected up to the tolerance. *)
Theorem C65_resources : forall s cb n sol, ztree_domain s -> zreachable s n -> zsees_resources s -> zto_solution s cb n = Some sol -> forall d, In d (xview sol) -> zcapacities_ok (zs_i s) d.
Proof.
  intros s cb n sol Hd Hn Hs E d Hdd. destruct (znode_inv s Hd n Hn) as [ds NI]. destruct (zsolution_ok s Hd cb n ds NI) as (sol' & E' & V & _). rewrite E in E'. injection E' as <-. rewrite V in Hdd. apply (ni_hard s n ds NI Hs d Hdd).
Qed.
Print Assumptions C65_resources.

(** The values of a node are those of its solution; its waste is not negative. *)
Theorem C65_values : forall s cb n sol, ztree_domain s -> zreachable s n -> zto_solution s cb n = Some sol ->
  let i := zs_i s in let ds := xview sol in
  Z.of_nat (zn_bins n) = bbins_used ds /\
  zn_items n = zsum (fun d => Z.of_nat (length (xd_items d))) ds /\
  zn_volume n = zsum (fun d => bitems_volume i (xd_items d)) ds /\
  (zsees_resources s -> zn_profit n == bnet_profit i ds)%Q /\
  (forall x, (x < length (bx_items i))%nat -> nth x (zn_copies n) 0 = bpacked x ds) /\
  (zleaf s n = true <-> ball_packed i ds).
Proof.
  intros s cb n sol Hd Hn E i ds. destruct (znode_inv s Hd n Hn) as [ds' NI]. destruct (zsolution_ok s Hd cb n ds' NI) as (sol' & E' & V & _). rewrite E in E'. injection E' as <-. unfold ds. rewrite V. clear ds.
  split; [|split; [apply (ni_items s n ds' NI)|split; [apply (ni_volume s n ds' NI)|split; [|split; [intros x Hx; apply (ni_copies s n ds' NI x Hx)|]]]]].
  - rewrite <- (ni_len s n ds' NI). unfold bbins_used. pose proof (ni_one s n ds' NI) as Ho. clear - Ho. induction ds' as [|d ds IH]; [reflexivity|]. rewrite zsum_cons, <- IH by (intros d' Hd'; apply Ho; right; exact Hd'). rewrite (Ho d (or_introl eq_refl)). cbn [length]. lia.
  - intros Hs. rewrite (ni_profit s n ds' NI Hs). unfold bnet_profit, bprofit. pose proof (ni_one s n ds' NI) as Ho. fold i. clear - Ho. induction ds' as [|d ds IH]; [cbn; ring|]. rewrite !qsum_cons, IH by (intros d' Hd'; apply Ho; right; exact Hd'). rewrite (Ho d (or_introl eq_refl)). change (inject_Z 1) with 1%Q. ring.
  - unfold zleaf. rewrite Z.eqb_eq. apply (ninv_items_le s Hd n ds' NI).
Qed.
Print Assumptions C65_values.

(** The last bin of a node: its weight, its length along the direction, and its
    uncovered items, which cut the face of the bin in rectangles; the height of a
    rectangle is the end of the last item over each of its cells.  The items are read in
    the axes of the direction. *)
Theorem C65_last_bin : forall s cb n sol, ztree_domain s -> zreachable s n -> zto_solution s cb n = Some sol -> zn_bins n <> 0%nat ->
  exists ds d ps, xview sol = ds ++ [d] /\ xd_items d = map (bswap_place (zn_dir n)) ps /\ xd_items d <> [] /\
    let i := zs_i s in let inst := zinst s (zn_dir n) in let bt := bxbin inst (xd_type d) in
    (zn_weight n == bweight i (xd_items d))%Q /\
    zn_xe_max n = extent i (zn_dir n) (xd_items d) /\
    (forall y z, 0 <= y < v_y (bn_box bt) -> 0 <= z < v_z (bn_box bt) ->
      length (filter (fun u => covers u y z) (zn_pieces n)) = 1%nat /\
      forall u, In u (zn_pieces n) -> covers u y z = true -> zp_x u = cell_end inst ps y z /\ zp_x u <= zp_xd u).
Proof.
  intros s cb n sol Hd Hn E Hb. destruct (znode_inv s Hd n Hn) as [ds' NI]. destruct (zsolution_ok s Hd cb n ds' NI) as (sol' & E' & V & _). rewrite E in E'. injection E' as <-.
  destruct (ni_last s n ds' NI) as [(E0 & _)|(pre & ps & _ & Eds & BS & _)]; [contradiction|]. cbv zeta in BS, Eds. set (k := (zn_bins n - 1)%nat) in *. set (t := nth k (zts_bins (zs_i s)) 0%nat) in *.
  assert (Ht : (t < length (bx_bins (zs_i s)))%nat) by (apply zts_bins_nth; pose proof (ni_le s n ds' NI); unfold k; lia).
  exists pre, (mkXD t 1 (map (bswap_place (zn_dir n)) ps)), ps. rewrite V. split; [exact Eds|]. cbn [xd_items xd_type]. split; [reflexivity|]. split; [intro X; apply map_eq_nil in X; exact (zb_ne _ _ _ _ BS X)|].
  assert (Hr : forall q, In q ps -> (bp_type q < length (bx_items (zs_i s)))%nat). { intros q Hq. destruct (zdom_lengths s Hd (zn_dir n)) as [<- _]. apply (bk_type _ _ _ (bg_places _ _ _ (zb_geometry _ _ _ _ BS) q Hq)). }
  cbv zeta. split; [|split].
  - rewrite (zb_weight _ _ _ _ BS). unfold bweight. rewrite qsum_map. apply qsum_ext. intros q Hq. cbn [bswap_place bp_type]. destruct (zdom_item s Hd (zn_dir n) _ (Hr q Hq)) as (_ & E1 & E2 & E3 & _). first [rewrite E1; reflexivity|rewrite E2; reflexivity|rewrite E3; reflexivity].
  - rewrite (zb_xe _ _ _ _ BS), (zdir_extent s Hd (zn_dir n) (zn_dir n) ps Hr). destruct (zn_dir n); reflexivity.
  - intros y z Hy Hz. pose proof (zb_sky _ _ _ _ BS) as K. split; [|intros u Hu Hc; split; [apply (sk_height _ _ _ _ _ K u y z Hu Hc)|apply (sk_raised _ _ _ _ _ K u Hu)]].
    pose proof (sk_once _ _ _ _ _ K y z Hy Hz) as S. apply Nat2Z.inj. change (Z.of_nat 1) with 1. rewrite <- S. generalize (zn_pieces n). clear. induction l as [|u l IH]; [reflexivity|]. rewrite zsum_cons. cbn [filter]. unfold b2z at 1. destruct (covers u y z); cbn [length]; lia.
Qed.
Print Assumptions C65_last_bin.

(** Generated insertions never end in the exception on z nor in an index out of range;
    the tree is finite: the depth of a node is its number of items. *)
Theorem C65_children : forall s n ins, ztree_domain s -> zreachable s n -> In ins (zinsertions s n) -> exists m, zchild s n ins = Some m /\ zn_items m = zn_items n + 1 /\ (zn_bins n <= zn_bins m)%nat.
Proof.
  intros s n ins Hd Hn Hin. destruct (znode_inv s Hd n Hn) as [ds NI]. destruct (znode_step s Hd n ds ins NI Hin) as (m & ds' & E & _ & St). exists m. split; [exact E|]. split; [apply (zt_items _ _ _ St)|apply (zt_bins _ _ _ St)].
Qed.
Print Assumptions C65_children.

Theorem C65_depth : forall s n, ztree_domain s -> zreachable s n -> Z.of_nat (length (zn_path n)) = zn_items n /\ zn_items n <= zsum bi_copies (bx_items (zs_i s)) /\ (zn_bins n <= length (db_bin_type_ids (zs_d s)))%nat.
Proof.
  intros s n Hd Hn. destruct (znode_inv s Hd n Hn) as [ds NI]. split; [symmetry; apply (ni_depth s n ds NI)|]. split; [|rewrite <- (zts_bins_length _ _ (zd_consistent s Hd)); apply (ni_le s n ds NI)]. rewrite <- (wc_number_of_items _ _ (zd_consistent s Hd)). apply (ninv_items_le s Hd n ds NI).
Qed.
Print Assumptions C65_depth.

(** The waste of a node: the volume of the full bins and the volume up to the skyline of
    the last bin, less the volume of the items, at least, and exactly that when no
    uncovered item has been raised. *)
Theorem C65_waste : forall s cb n sol, ztree_domain s -> zreachable s n -> zto_solution s cb n = Some sol -> zn_bins n <> 0%nat ->
  exists ds d ps, xview sol = ds ++ [d] /\ xd_items d = map (bswap_place (zn_dir n)) ps /\
    let inst := zinst s (zn_dir n) in
    let real := zsum (fun e => bn_vol (bxbin (zs_i s) (xd_type e))) ds + bshadow inst (bxbin inst (xd_type d)) ps - zn_volume n in
    0 <= real <= zn_waste n /\ (znot_raised n -> zn_waste n = real).
Proof.
  intros s cb n sol Hd Hn E Hb. destruct (znode_inv s Hd n Hn) as [ds' NI]. destruct (zsolution_ok s Hd cb n ds' NI) as (sol' & E' & V & _). rewrite E in E'. injection E' as <-.
  pose proof (zreal_spec s Hd n ds' NI) as (R1 & _ & R3 & _).
  destruct (ni_last s n ds' NI) as [(E0 & _)|(pre & ps & _ & Eds & BS & _)]; [contradiction|]. cbv zeta in BS, Eds. set (k := (zn_bins n - 1)%nat) in *. set (t := nth k (zts_bins (zs_i s)) 0%nat) in *.
  exists pre, (mkXD t 1 (map (bswap_place (zn_dir n)) ps)), ps. rewrite V. split; [exact Eds|]. cbn [xd_items xd_type]. split; [reflexivity|]. cbv zeta.
  assert (Lk : length pre = k) by (pose proof (ni_len s n ds' NI) as L; rewrite Eds, app_length in L; cbn [length] in L; unfold k; lia).
  assert (Ep : zsum (fun e => bn_vol (bxbin (zs_i s) (xd_type e))) pre = zts_previous (zs_i s) k).
  { pose proof (ni_types s n ds' NI) as T. rewrite Eds, map_app in T. apply (f_equal (firstn k)) in T. rewrite firstn_app, map_length, Lk, Nat.sub_diag, firstn_O, app_nil_r in T. rewrite <- Lk in T at 1. rewrite <- (map_length xd_type pre), firstn_all in T. rewrite firstn_firstn in T. replace (Nat.min k (zn_bins n)) with k in T by (unfold k; lia).
    unfold zts_previous. rewrite <- T, zsum_map. reflexivity. }
  pose proof (zb_sky _ _ _ _ BS) as K. assert (Er : zreal s n = zts_previous (zs_i s) k + bshadow (zinst s (zn_dir n)) (bxbin (zinst s (zn_dir n)) t) ps).
  { unfold zreal. destruct (Nat.eqb_spec (zn_bins n) 0); [contradiction|]. fold k. rewrite (sky_shadow _ _ _ _ K). reflexivity. }
  rewrite Ep. rewrite (ni_waste s n ds' NI). rewrite <- Er. split; [split; [|lia]|intros H; rewrite (R3 H); reflexivity].
  rewrite Er, <- Ep, (ni_volume s n ds' NI), Eds. rewrite zsum_snoc. cbn [xd_items].
  assert (F : zsum (fun d => bitems_volume (zs_i s) (xd_items d)) pre <= zsum (fun e => bn_vol (bxbin (zs_i s) (xd_type e))) pre) by (apply zsum_le; intros d Hdd; apply (ni_fill s n ds' NI d); rewrite Eds; apply in_or_app; left; exact Hdd).
  rewrite bitems_volume_swap. pose proof (zb_fill _ _ _ _ BS) as F2. rewrite (bitems_volume_dir s Hd (zn_dir n) ps) in F2; [lia|].
  intros q Hq. destruct (zdom_lengths s Hd (zn_dir n)) as [<- _]. apply (bk_type _ _ _ (bg_places _ _ _ (zb_geometry _ _ _ _ BS) q Hq)).
Qed.
Print Assumptions C65_waste.

(** Two bin types; items with rotations, weights and a resource. *)
Definition ex_ztree_calls : list WCall :=
  [WSetObjective OBinPacking; WAddBin (mkV 10 8 6); WSetBinWeight 0 (Some 9%Q); WSetBinCopies 0 2; WAddBin (mkV 12 8 6); WAddResource 0 3 false 0;
   WAddItem (mkV 4 3 5); WAddRotation 0 XYZ; WAddRotation 0 YXZ; WSetItemCopies 0 3; WSetItemWeight 0 2; WAddItem (mkV 5 5 4); WSetItemCopies 1 2; WSetItemWeight 1 3; WAddConsumption 0 0 1 0 2; WAddConsumption 0 0 1 1 1].

Example C65_example : let s := the_zscheme ex_ztree_calls (Some AX) in let n := the_znode s [0; 0; 0; 0; 0]%nat in ztree_domain s /\ zreachable s n /\ zsees_resources s /\ zn_bins n = 2%nat /\ zleaf s n = true /\
  exists sol, zto_solution s xaccept n = Some sol /\ length (xview sol) = 2%nat /\ ball_packed (zs_i s) (xview sol).
Proof.
  cbv zeta. split; [zdom ex_ztree_calls (Some AX)|]. split; [zwalk [0; 0; 0; 0; 0]%nat|]. split; [left; vm_compute; reflexivity|]. split; [vm_compute; reflexivity|]. split; [vm_compute; reflexivity|]. eexists. split; [vm_compute; reflexivity|]. split; [vm_compute; reflexivity|]. intros [|[|x]] Hx; try (vm_compute; reflexivity). vm_compute in Hx. lia.
Qed.
(** The same in the direction Z: the last bin is filled from the bottom. *)
Example C65_example_z : let s := the_zscheme ex_ztree_calls (Some AZ) in let n := the_znode s [0; 0; 0; 0; 0]%nat in ztree_domain s /\ zreachable s n /\ zn_dir n = AZ /\ zleaf s n = true /\ zn_items n = 5 /\ (exists ins, In ins (zinsertions s (the_znode s [0%nat]))).
Proof.
  cbv zeta. split; [zdom ex_ztree_calls (Some AZ)|]. split; [zwalk [0; 0; 0; 0; 0]%nat|]. split; [vm_compute; reflexivity|]. split; [vm_compute; reflexivity|]. split; [vm_compute; reflexivity|]. eexists. vm_compute. left. reflexivity.
Qed.

Definition ex_zresource_calls : list WCall :=
  [WSetObjective OBinPacking; WAddBin (mkV 10 10 10); WSetBinCopies 0 2; WAddResource 0 1 false 0; WAddItem (mkV 4 4 4); WSetItemCopies 0 2; WAddConsumption 0 0 0 0 1; WAddConsumption 0 0 0 1 1].

(** The flipped instances have no resources: in the direction Y the search packs items
    over a capacity that may not be exceeded. *)
Theorem C65_resources_y_refuted : exists s n sol d, ztree_domain s /\ In (zs_direction s) (zdirections (zs_i s)) /\ zreachable s n /\ zleaf s n = true /\ zto_solution s xaccept n = Some sol /\ In d (xview sol) /\ ~ zcapacities_ok (zs_i s) d.
Proof.
  set (s := the_zscheme ex_zresource_calls (Some AY)). exists s, (the_znode s [0; 0]%nat). eexists. eexists. split; [zdom ex_zresource_calls (Some AY)|]. split; [vm_compute; right; left; reflexivity|]. split; [zwalk [0; 0]%nat|]. split; [vm_compute; reflexivity|]. split; [vm_compute; reflexivity|]. split; [vm_compute; left; reflexivity|].
  intros H. specialize (H (mkResource 1 [[1%Q; 1%Q]] false 0)). vm_compute in H. apply H; [left; reflexivity|reflexivity|reflexivity].
Qed.
Print Assumptions C65_resources_y_refuted.

(** The claims of an exhausted search: every complete solution of the tree in the
    direction Y breaks the capacity, so that whichever node is the best one the search
    claims that the instance is infeasible; two bins are enough. *)
Theorem C65_infeasible_refuted : exists s s' m sol', ztree_domain s /\ ztree_domain s' /\ zs_i s' = zs_i s /\ In (zs_direction s) (zdirections (zs_i s)) /\
  (forall n sol, zreachable s n -> zto_solution s xaccept n = Some sol -> zc_infeasible (zclaims s sol) = true) /\
  zreachable s' m /\ zto_solution s' xaccept m = Some sol' /\ xsol_feasible sol' = true /\ ball_packed (zs_i s) (xview sol').
Proof.
  set (s := the_zscheme ex_zresource_calls (Some AY)). set (s' := the_zscheme ex_zresource_calls (Some AX)). exists s, s', (the_znode s' [0; 0]%nat). eexists. split; [zdom ex_zresource_calls (Some AY)|]. split; [zdom ex_zresource_calls (Some AX)|]. split; [vm_compute; reflexivity|]. split; [vm_compute; right; left; reflexivity|]. split.
  - intros n sol Hn E. assert (X : option_map (forallb (fun n => match zto_solution s xaccept n with Some t => zc_infeasible (zclaims s t) | None => true end)) (zexplore 4 s (zroot s)) = Some true) by (vm_compute; reflexivity). pose proof (zexplore_check _ _ _ _ X n Hn) as Y. cbv beta in Y. rewrite E in Y. exact Y.
  - split; [zwalk [0; 0]%nat|]. split; [vm_compute; reflexivity|]. split; [vm_compute; reflexivity|]. intros [|x] Hx; [vm_compute; reflexivity|vm_compute in Hx; lia].
Qed.
Print Assumptions C65_infeasible_refuted.

(** An item type is only packed when all the copies of the lighter item types of the same
    size and profit are: with a bin for 10 and a bin for 1, the light item takes the first
    bin and no node packs both items, although there is a packing. *)
Theorem C65_predecessors_refuted : exists s sol, ztree_domain s /\ In (zs_direction s) (zdirections (zs_i s)) /\
  (forall n, zreachable s n -> zleaf s n = false) /\
  xhistory (zs_i s) xaccept [XAddBin 0 1; XAddItem 0 (mkBP 1 (mkV 0 0 0) XYZ); XAddBin 1 1; XAddItem 1 (mkBP 0 (mkV 0 0 0) XYZ)] [] = Some sol /\ xsol_feasible sol = true /\ ball_packed (zs_i s) (xview sol).
Proof.
  set (calls := [WSetObjective OBinPacking; WAddBin (mkV 10 10 10); WSetBinWeight 0 (Some 10%Q); WAddBin (mkV 10 10 10); WSetBinWeight 1 (Some 1%Q); WAddItem (mkV 10 10 10); WSetItemWeight 0 1; WAddItem (mkV 10 10 10); WSetItemWeight 1 10]).
  set (s := the_zscheme calls None). exists s. eexists. split; [zdom calls (@None Axis)|]. split; [vm_compute; left; reflexivity|]. split.
  - intros n Hn. assert (X : option_map (forallb (fun n => negb (zleaf s n))) (zexplore 4 s (zroot s)) = Some true) by (vm_compute; reflexivity). apply negb_true_iff. exact (zexplore_check _ _ _ _ X n Hn).
  - split; [vm_compute; reflexivity|]. split; [vm_compute; reflexivity|]. intros [|[|x]] Hx; try (vm_compute; reflexivity). vm_compute in Hx. lia.
Qed.
Print Assumptions C65_predecessors_refuted.

(** ** C66 *)

Definition zlt (s : ZScheme) (n1 n2 : ZNode) : bool := match zbetter s n1 n2 with Some b => b | None => false end.

(** [better] is a strict weak order. *)
Theorem C66_better : forall s, StrictWeakOrder ZNode (zlt s).
Proof.
  intros s. unfold zlt, zbetter. constructor.
  - intros a. destruct (bx_objective (zs_i s)); try reflexivity; try (destruct (zleaf s a); cbn [negb]); rewrite ?Z.ltb_irrefl, ?Nat.ltb_irrefl; try reflexivity;
      destruct (Qltb (zn_profit a) (zn_profit a)) eqn:E; try reflexivity; apply Qltb_lt in E; lra.
  - intros a b c. destruct (bx_objective (zs_i s)); try congruence; try (destruct (zleaf s a), (zleaf s b), (zleaf s c); cbn [negb]; try congruence; try reflexivity; rewrite ?Z.ltb_lt, ?Nat.ltb_lt; lia).
    + destruct (Qltb (zn_profit a) (zn_profit b)) eqn:E1, (Qltb (zn_profit b) (zn_profit a)) eqn:E2, (Qltb (zn_profit b) (zn_profit c)) eqn:E3, (Qltb (zn_profit c) (zn_profit b)) eqn:E4, (Qltb (zn_profit a) (zn_profit c)) eqn:E5, (Qltb (zn_profit c) (zn_profit a)) eqn:E6; try congruence; try reflexivity; rewrite ?Z.ltb_lt; try lia;
        repeat match goal with H : Qltb _ _ = true |- _ => apply Qltb_lt in H | H : Qltb _ _ = false |- _ => apply Qltb_ge in H end; intros; exfalso; lra.
    + rewrite !Qltb_lt. lra.
    + rewrite !Qltb_lt. lra.
  - intros a b c. destruct (bx_objective (zs_i s)); try congruence; try (destruct (zleaf s a), (zleaf s b), (zleaf s c); cbn [negb]; try congruence; try reflexivity; rewrite ?Z.ltb_ge, ?Nat.ltb_ge; lia).
    + destruct (Qltb (zn_profit a) (zn_profit b)) eqn:E1, (Qltb (zn_profit b) (zn_profit a)) eqn:E2, (Qltb (zn_profit b) (zn_profit c)) eqn:E3, (Qltb (zn_profit c) (zn_profit b)) eqn:E4, (Qltb (zn_profit a) (zn_profit c)) eqn:E5, (Qltb (zn_profit c) (zn_profit a)) eqn:E6; try congruence; try reflexivity; rewrite ?Z.ltb_ge; try lia;
        repeat match goal with H : Qltb _ _ = true |- _ => apply Qltb_lt in H | H : Qltb _ _ = false |- _ => apply Qltb_ge in H end; intros; exfalso; lra.
    + intros H1 H2. apply Qltb_ge in H1, H2. apply Qltb_ge. lra.
    + intros H1 H2. apply Qltb_ge in H1, H2. apply Qltb_ge. lra.
Qed.
Print Assumptions C66_better.

(** A node cut by the bound has no node below it better than the solution, when none of
    its uncovered items has been raised. *)
Theorem C66_bin_packing_partial : forall s n1 n2 m, ztree_domain s -> zreachable s n1 -> bx_objective (zs_i s) = OBinPacking \/ bx_objective (zs_i s) = OVariableSizedBinPacking ->
  znot_raised n1 -> zbound s n1 n2 = Some true -> zbelow s n1 m -> zbetter s m n2 = Some false.
Proof. intros s n1 n2 m Hd. apply (zbin_packing_cut s Hd n1 n2 m). Qed.
Print Assumptions C66_bin_packing_partial.

Theorem C66_leftovers_partial : forall s n1 n2 m, ztree_domain s -> zreachable s n1 -> bx_objective (zs_i s) = OBinPackingWithLeftovers ->
  znot_raised n1 -> zbound s n1 n2 = Some true -> zbelow s n1 m -> zbetter s m n2 = Some false.
Proof. intros s n1 n2 m Hd. apply (zleftovers_cut s Hd n1 n2 m). Qed.
Print Assumptions C66_leftovers_partial.

(** Open dimensions X and Y: the directions of [tree_search] are such that, between two
    complete solutions in one bin, the order of the nodes is the order of the extents of the
    solutions along the open axis. *)
Theorem C66_open_dimension_order : forall s cb a n1 n2 sol1 sol2 d1 d2, ztree_domain s ->
  (bx_objective (zs_i s) = OOpenDimensionX /\ a = AX) \/ (bx_objective (zs_i s) = OOpenDimensionY /\ a = AY) ->
  In (zs_direction s) (zdirections (zs_i s)) -> zreachable s n1 -> zreachable s n2 -> zleaf s n1 = true -> zleaf s n2 = true ->
  zto_solution s cb n1 = Some sol1 -> zto_solution s cb n2 = Some sol2 -> xview sol1 = [d1] -> xview sol2 = [d2] ->
  zbetter s n1 n2 = Some (extent (zs_i s) a (xd_items d1) <? extent (zs_i s) a (xd_items d2)).
Proof.
  intros s cb a n1 n2 sol1 sol2 d1 d2 Hd Ho Hdir H1 H2 L1 L2 E1 E2 V1 V2.
  assert (D : zs_direction s = Some a) by (unfold zdirections in Hdir; destruct Ho as [[Ho ->]|[Ho ->]]; rewrite Ho in Hdir; destruct Hdir as [X|[]]; congruence).
  assert (K : forall n sol d, zreachable s n -> zto_solution s cb n = Some sol -> xview sol = [d] -> zn_xe_max n = extent (zs_i s) a (xd_items d)).
  { intros n sol d Hn E V. assert (B : zn_bins n <> 0%nat).
    { destruct (C65_values s cb n sol Hd Hn E) as (B & BB). clear BB. cbv zeta in B. rewrite V in B. unfold bbins_used in B. rewrite zsum_cons, zsum_nil in B.
      destruct (C65_solutions s cb n Hd Hn) as (sol' & E' & P & _). rewrite E in E'. injection E' as <-. destruct (bpa_bins _ _ P d) as (_ & C & _); [rewrite V; left; reflexivity|]. lia. }
    destruct (C65_last_bin s cb n sol Hd Hn E B) as (ds & e & ps & V' & _ & _ & X). cbv zeta in X. destruct X as (_ & X & _).
    rewrite V in V'. destruct ds as [|z ds]; [|destruct ds; discriminate]. injection V' as <-. rewrite X.
    destruct (znode_inv s Hd n Hn) as [ds NI]. rewrite (ni_dir s n ds NI a D B). reflexivity. }
  rewrite <- (K n1 sol1 d1 H1 E1 V1), <- (K n2 sol2 d2 H2 E2 V2). unfold zbetter. rewrite L1, L2. destruct Ho as [[-> _]|[-> _]]; reflexivity.
Qed.
Print Assumptions C66_open_dimension_order.
Example C66_open_dimension_order_example : let s := the_zscheme [WSetObjective OOpenDimensionY; WAddBin (mkV 100 10 1); WAddItem (mkV 100 2 1); WAddItem (mkV 50 2 1); WSetItemCopies 1 2] (Some AY) in
  let n1 := the_znode s [0; 0; 1]%nat in let n2 := the_znode s [0; 0; 0]%nat in
  ztree_domain s /\ In (zs_direction s) (zdirections (zs_i s)) /\ zreachable s n1 /\ zreachable s n2 /\ zleaf s n1 = true /\ zleaf s n2 = true /\
  (exists sol1 sol2 d1 d2, zto_solution s xaccept n1 = Some sol1 /\ zto_solution s xaccept n2 = Some sol2 /\ xview sol1 = [d1] /\ xview sol2 = [d2] /\
     extent (zs_i s) AY (xd_items d1) = 4 /\ extent (zs_i s) AY (xd_items d2) = 6) /\ zbetter s n1 n2 = Some true.
Proof.
  cbv zeta. split; [zdom [WSetObjective OOpenDimensionY; WAddBin (mkV 100 10 1); WAddItem (mkV 100 2 1); WAddItem (mkV 50 2 1); WSetItemCopies 1 2] (Some AY)|].
  split; [vm_compute; left; reflexivity|]. split; [zwalk [0; 0; 1]%nat|]. split; [zwalk [0; 0; 0]%nat|]. split; [vm_compute; reflexivity|]. split; [vm_compute; reflexivity|].
  split; [|vm_compute; reflexivity]. do 4 eexists. repeat (split; [vm_compute; reflexivity|]). vm_compute; reflexivity.
Qed.

Theorem C66_open_dimension_x_partial : forall s n1 n2 m, ztree_domain s -> zreachable s n1 -> bx_objective (zs_i s) = OOpenDimensionX -> zs_direction s = Some AX ->
  znot_raised n1 -> zbound s n1 n2 = Some true -> zbelow s n1 m -> zbetter s m n2 = Some false.
Proof.
  intros s n1 n2 m Hd H Ho Hdir Hw Hb Hm. unfold zbetter. rewrite Ho. destruct (zleaf s m) eqn:Lm; cbn [negb]; [|reflexivity].
  assert (L2 : zleaf s n2 = true) by (unfold zbound in Hb; rewrite Ho in Hb; destruct (zleaf s n2); [reflexivity|discriminate]). rewrite L2. cbn [negb]. f_equal. apply Z.ltb_ge. apply (zopen_cut s Hd n1 n2 m AX H (or_introl Ho) Hdir); try assumption. cbn [zinst]. lia.
Qed.
Print Assumptions C66_open_dimension_x_partial.

(** The bound divides by the section y z of the bin whatever the direction: in the
    direction Y it is valid if the section x z is not larger than that plus one. *)
Theorem C66_open_dimension_y_partial : forall s n1 n2 m, ztree_domain s -> zreachable s n1 -> bx_objective (zs_i s) = OOpenDimensionY -> zs_direction s = Some AY ->
  (let b := bn_box (bxbin (zs_i s) 0) in v_x b * v_z b <= v_y b * v_z b + 1) ->
  znot_raised n1 -> zbound s n1 n2 = Some true -> zbelow s n1 m -> zbetter s m n2 = Some false.
Proof.
  intros s n1 n2 m Hd H Ho Hdir Hy Hw Hb Hm. unfold zbetter. rewrite Ho. destruct (zleaf s m) eqn:Lm; cbn [negb]; [|reflexivity].
  assert (L2 : zleaf s n2 = true) by (unfold zbound in Hb; rewrite Ho in Hb; destruct (zleaf s n2); [reflexivity|discriminate]). rewrite L2. cbn [negb]. f_equal. apply Z.ltb_ge. apply (zopen_cut s Hd n1 n2 m AY H (or_intror (or_introl Ho)) Hdir); try assumption.
  destruct (zone_bin_type s Hd (or_intror (or_introl Ho))) as [L E0]. pose proof (zts_bins_nth (zs_i s) 0 ltac:(lia)) as A. rewrite E0 in A.
  destruct (zdom_bin s Hd AY 0%nat A) as (_ & X & _). pose proof (X AY) as X1. pose proof (X AZ) as X2. cbn [vat other_axis axis_eqb] in X1, X2. rewrite X1, X2. exact Hy.
Qed.
Print Assumptions C66_open_dimension_y_partial.

(** Profits and penalties are not negative, the solution pays no penalty and the scheme
    sees the resources. *)
Theorem C66_knapsack_partial : forall s cb n1 n2 sol2 m, ztree_domain s -> zsees_resources s -> zreachable s n1 -> zreachable s n2 -> zto_solution s cb n2 = Some sol2 ->
  bx_objective (zs_i s) = OKnapsack \/ bx_objective (zs_i s) = OFeasibility ->
  (forall t, In t (bx_items (zs_i s)) -> (0 <= bi_profit t)%Q) ->
  (forall bt r, In bt (bx_bins (zs_i s)) -> In r (bn_resources bt) -> (0 <= res_penalty r)%Q) ->
  (qsum (bpenalties (zs_i s)) (xview sol2) == 0)%Q ->
  zbound s n1 n2 = Some true -> zbelow s n1 m -> zbetter s m n2 = Some false.
Proof.
  intros s cb n1 n2 sol2 m Hd Hs H1 H2 E Ho Hp Hr H0 Hb Hm. destruct (znode_inv s Hd n2 H2) as [ds NI]. destruct (zsolution_ok s Hd cb n2 ds NI) as (sol & E' & V & _). rewrite E in E'. injection E' as <-. rewrite V in H0.
  apply (zknapsack_cut s Hd n1 n2 m ds Hs H1 NI Ho Hp Hr H0 Hb Hm).
Qed.
Print Assumptions C66_knapsack_partial.

(** The bound on the profit below a node: the profit of all the items or the profit of
    the best item type per volume in the volume left. *)
Theorem C66_profit_bound : forall s cb n sol m, ztree_domain s -> zsees_resources s -> zreachable s n -> zto_solution s cb n = Some sol -> znot_raised n ->
  (forall t, In t (bx_items (zs_i s)) -> (0 <= bi_profit t)%Q) ->
  (forall bt r, In bt (bx_bins (zs_i s)) -> In r (bn_resources bt) -> (0 <= res_penalty r)%Q) ->
  (qsum (bpenalties (zs_i s)) (xview sol) == 0)%Q ->
  zbelow s n m -> (zn_profit m <= zubkp s n)%Q.
Proof.
  intros s cb n sol m Hd Hs H1 E Hw Hp Hr H0 Hm. destruct (znode_inv s Hd n H1) as [ds NI]. destruct (zsolution_ok s Hd cb n ds NI) as (sol' & E' & V & _). rewrite E in E'. injection E' as <-. rewrite V in H0.
  apply (zubkp_bound s Hd n ds m Hs NI Hw Hp Hr H0 Hm).
Qed.
Print Assumptions C66_profit_bound.

(** Default: nothing below a cut node has a larger profit; nothing is better when the
    solution packs all the items. *)
Theorem C66_default_partial : forall s cb n1 sol1 n2 m, ztree_domain s -> zsees_resources s -> zreachable s n1 -> zto_solution s cb n1 = Some sol1 -> bx_objective (zs_i s) = ODefault -> znot_raised n1 ->
  (forall t, In t (bx_items (zs_i s)) -> (0 <= bi_profit t)%Q) ->
  (forall bt r, In bt (bx_bins (zs_i s)) -> In r (bn_resources bt) -> (0 <= res_penalty r)%Q) ->
  (qsum (bpenalties (zs_i s)) (xview sol1) == 0)%Q ->
  zbound s n1 n2 = Some true -> zbelow s n1 m -> (zn_profit m <= zn_profit n2)%Q /\ (zleaf s n2 = true -> zbetter s m n2 = Some false).
Proof.
  intros s cb n1 sol1 n2 m Hd Hs H1 E Ho Hw Hp Hr H0 Hb Hm. destruct (znode_inv s Hd n1 H1) as [ds NI]. destruct (zsolution_ok s Hd cb n1 ds NI) as (sol' & E' & V & _). rewrite E in E'. injection E' as <-. rewrite V in H0.
  apply (zdefault_cut s Hd n1 ds n2 m Hs H1 NI Ho Hw Hp Hr H0 Hb Hm).
Qed.
Print Assumptions C66_default_partial.

(** The hypotheses are met: an item behind another is not raised, the node is cut by a
    complete solution and has a node below, for all the objectives. *)
Definition ex_zcut_calls (o : Objective) : list WCall :=
  match o with
  | OOpenDimensionY => [WSetObjective o; WAddBin (mkV 10 30 10); WAddItem (mkV 5 6 5); WAddItem (mkV 10 8 5); WSetItemCopies 1 2]
  | _ => [WSetObjective o; WAddBin (mkV 30 10 10); WSetBinCopies 0 (match o with OOpenDimensionX => 1 | _ => 2 end); WAddItem (mkV 6 5 5); WAddItem (mkV 8 10 5); WSetItemCopies 1 2]
  end.
Lemma znot_raised_b : forall n, forallb (fun u => zp_xd u =? zp_x u) (zn_pieces n) = true -> znot_raised n.
Proof. intros n H u Hu. rewrite forallb_forall in H. apply Z.eqb_eq, H, Hu. Qed.

Example C66_example : forall o, In o [OBinPacking; OVariableSizedBinPacking; OBinPackingWithLeftovers; OOpenDimensionX; OOpenDimensionY; OKnapsack; OFeasibility; ODefault] ->
  let s := the_zscheme (ex_zcut_calls o) (Some (match o with OOpenDimensionY => AY | _ => AX end)) in
  ztree_domain s /\ bx_objective (zs_i s) = o /\ zsees_resources s /\ (let b := bn_box (bxbin (zs_i s) 0) in o = OOpenDimensionY -> v_x b * v_z b <= v_y b * v_z b + 1) /\
  (forall t, In t (bx_items (zs_i s)) -> (0 <= bi_profit t)%Q) /\
  exists n1 n2 m sol1 sol2, zreachable s n1 /\ zreachable s n2 /\ znot_raised n1 /\ zbound s n1 n2 = Some true /\ zbelow s n1 m /\ n1 <> m /\ zleaf s n2 = true /\
    zto_solution s xaccept n1 = Some sol1 /\ zto_solution s xaccept n2 = Some sol2 /\ (qsum (bpenalties (zs_i s)) (xview sol1) == 0)%Q /\ (qsum (bpenalties (zs_i s)) (xview sol2) == 0)%Q.
Proof.
  assert (G : forall calls dir o, zdomainb (zs_i (the_zscheme calls (Some dir))) = true -> zscheme_of calls (Some dir) = Some (the_zscheme calls (Some dir)) ->
    let s := the_zscheme calls (Some dir) in bx_objective (zs_i s) = o -> forallb (fun bt => (length (bn_resources bt) =? 0)%nat) (bx_bins (zs_i s)) = true ->
    (let b := bn_box (bxbin (zs_i s) 0) in o = OOpenDimensionY -> v_x b * v_z b <= v_y b * v_z b + 1) -> forallb (fun t => Qle_bool 0 (bi_profit t)) (bx_items (zs_i s)) = true ->
    match zwalk s (zroot s) [0; 0]%nat, zwalk s (zroot s) [0; 0; 1]%nat, zwalk s (zroot s) [0; 0; 0]%nat with
    | Some n1, Some n2, Some m => forallb (fun u => zp_xd u =? zp_x u) (zn_pieces n1) && match zbound s n1 n2 with Some b => b | None => false end && negb (zn_items n1 =? zn_items m) && zleaf s n2
        && match zwalk s n1 [0%nat] with Some m' => zn_items m' =? zn_items m | None => false end
        && match zto_solution s xaccept n1, zto_solution s xaccept n2 with Some s1, Some s2 => Qeq_bool (qsum (bpenalties (zs_i s)) (xview s1)) 0 && Qeq_bool (qsum (bpenalties (zs_i s)) (xview s2)) 0 | _, _ => false end
    | _, _, _ => false
    end = true ->
    ztree_domain s /\ bx_objective (zs_i s) = o /\ zsees_resources s /\ (let b := bn_box (bxbin (zs_i s) 0) in o = OOpenDimensionY -> v_x b * v_z b <= v_y b * v_z b + 1) /\
    (forall t, In t (bx_items (zs_i s)) -> (0 <= bi_profit t)%Q) /\
    exists n1 n2 m sol1 sol2, zreachable s n1 /\ zreachable s n2 /\ znot_raised n1 /\ zbound s n1 n2 = Some true /\ zbelow s n1 m /\ n1 <> m /\ zleaf s n2 = true /\
      zto_solution s xaccept n1 = Some sol1 /\ zto_solution s xaccept n2 = Some sol2 /\ (qsum (bpenalties (zs_i s)) (xview sol1) == 0)%Q /\ (qsum (bpenalties (zs_i s)) (xview sol2) == 0)%Q).
  { intros calls dir o A1 A2 s A3 A4 A5 A6 A7. split; [apply (zdomainb_ok calls (Some dir) s A2 A1)|]. split; [exact A3|]. split; [right; intros bt Hbt; rewrite forallb_forall in A4; specialize (A4 bt Hbt); apply Nat.eqb_eq in A4; destruct (bn_resources bt); [reflexivity|discriminate]|]. split; [exact A5|]. split; [intros t Ht; rewrite forallb_forall in A6; apply Qle_bool_iff, A6, Ht|].
    destruct (zwalk s (zroot s) [0; 0]%nat) as [n1|] eqn:E1; [|discriminate]. destruct (zwalk s (zroot s) [0; 0; 1]%nat) as [n2|] eqn:E2; [|discriminate]. destruct (zwalk s (zroot s) [0; 0; 0]%nat) as [m|] eqn:E3; [|discriminate].
    rewrite !andb_true_iff in A7. destruct A7 as (((((B1 & B2) & B3) & B4) & B5) & B6). destruct (zwalk s n1 [0%nat]) as [m'|] eqn:E4; [|discriminate].
    destruct (zto_solution s xaccept n1) as [s1|] eqn:S1; [|discriminate]. destruct (zto_solution s xaccept n2) as [s2|] eqn:S2; [|discriminate]. apply andb_true_iff in B6. destruct B6 as [B6 B7]. apply Qeq_bool_iff in B6, B7.
    exists n1, n2, m', s1, s2. split; [apply (zwalk_below s _ _ _ E1)|]. split; [apply (zwalk_below s _ _ _ E2)|]. split; [apply znot_raised_b, B1|]. split; [destruct (zbound s n1 n2) as [[|]|]; try discriminate; reflexivity|]. split; [apply (zwalk_below s _ _ _ E4)|].
    split; [intros <-; rewrite B5 in B3; discriminate|]. auto. }
  intros o Ho. destruct o; try (exfalso; cbn in Ho; repeat destruct Ho as [Ho|Ho]; try discriminate; exact Ho); cbv zeta; apply G; try (vm_compute; reflexivity); vm_compute; intros; discriminate.
Qed.

Definition ex_zraise_calls (o : Objective) (x : Z) : list WCall := [WSetObjective o; WAddBin (mkV x 10 10); WSetBinCopies 0 2; WAddItem (mkV 10 7 5); WAddRotation 0 XYZ; WAddRotation 0 XZY; WAddItem (mkV 10 10 5)].

(** An uncovered item beside which no item fits along y is raised even where items fit
    along z: after a 10 x 7 x 5 item in a bin of size 10 the whole strip y >= 7 is counted
    as waste, and the node that leads to one bin is cut because of a solution with two. *)
Theorem C66_bin_packing_refuted : exists s n1 n2 m, ztree_domain s /\ bx_objective (zs_i s) = OBinPacking /\ zreachable s n1 /\ zreachable s n2 /\
  zbound s n1 n2 = Some true /\ zbelow s n1 m /\ zbetter s m n2 = Some true /\ zn_bins m = 1%nat /\ zn_bins n2 = 2%nat.
Proof.
  set (s := the_zscheme (ex_zraise_calls OBinPacking 10) (Some AX)). exists s, (the_znode s [0%nat]), (the_znode s [1; 0]%nat), (the_znode s [0; 0]%nat).
  split; [zdom (ex_zraise_calls OBinPacking 10) (Some AX)|]. split; [vm_compute; reflexivity|]. split; [zwalk [0%nat]|]. split; [zwalk [1; 0]%nat|]. split; [vm_compute; reflexivity|]. split; [zwalk [0%nat]|]. repeat split; vm_compute; reflexivity.
Qed.
Print Assumptions C66_bin_packing_refuted.

(** The same with leftovers. *)
Theorem C66_leftovers_refuted : exists s n1 n2 m, ztree_domain s /\ bx_objective (zs_i s) = OBinPackingWithLeftovers /\ zreachable s n1 /\ zreachable s n2 /\
  zbound s n1 n2 = Some true /\ zbelow s n1 m /\ zbetter s m n2 = Some true.
Proof.
  set (s := the_zscheme (ex_zraise_calls OBinPackingWithLeftovers 20) (Some AX)). exists s, (the_znode s [0%nat]), (the_znode s [0; 0]%nat), (the_znode s [0; 1]%nat).
  split; [zdom (ex_zraise_calls OBinPackingWithLeftovers 20) (Some AX)|]. split; [vm_compute; reflexivity|]. split; [zwalk [0%nat]|]. split; [zwalk [0; 0]%nat|]. split; [vm_compute; reflexivity|]. split; [zwalk [1%nat]|]. repeat split; vm_compute; reflexivity.
Qed.
Print Assumptions C66_leftovers_refuted.

(** With leftovers nodes are compared by the volume up to the skyline, solutions by the
    box around the items of the last bin: the better node may be the worse solution. *)
Theorem C66_leftovers_order_refuted : exists s n1 n2 sol1 sol2, ztree_domain s /\ bx_objective (zs_i s) = OBinPackingWithLeftovers /\ zreachable s n1 /\ zreachable s n2 /\
  zto_solution s xaccept n1 = Some sol1 /\ zto_solution s xaccept n2 = Some sol2 /\ zbetter s n1 n2 = Some true /\ xsol_lt (zs_i s) sol1 sol2 = Some true.
Proof.
  set (calls := [WSetObjective OBinPackingWithLeftovers; WAddBin (mkV 10 13 10); WAddItem (mkV 4 4 4); WSetItemCopies 0 3]). set (s := the_zscheme calls (Some AX)). exists s, (the_znode s [0; 0; 1]%nat), (the_znode s [0; 2; 2]%nat). eexists. eexists.
  split; [zdom calls (Some AX)|]. split; [vm_compute; reflexivity|]. split; [zwalk [0; 0; 1]%nat|]. split; [zwalk [0; 2; 2]%nat|]. split; [vm_compute; reflexivity|]. split; [vm_compute; reflexivity|]. split; vm_compute; reflexivity.
Qed.
Print Assumptions C66_leftovers_order_refuted.

(** In the direction Y the bound of the open dimension still divides by the section y z
    of the bin: with a bin 100 x 10 x 1 the root is cut by a solution of length 6 although
    a solution of length 4 is below. *)
Theorem C66_open_dimension_y_refuted : exists s n1 n2 m, ztree_domain s /\ bx_objective (zs_i s) = OOpenDimensionY /\ zs_direction s = Some AY /\ zreachable s n1 /\ zreachable s n2 /\
  zbound s n1 n2 = Some true /\ zbelow s n1 m /\ zbetter s m n2 = Some true /\ zn_xe_max m = 4 /\ zn_xe_max n2 = 6.
Proof.
  set (calls := [WSetObjective OOpenDimensionY; WAddBin (mkV 100 10 1); WAddItem (mkV 100 2 1); WAddItem (mkV 50 2 1); WSetItemCopies 1 2]). set (s := the_zscheme calls (Some AY)). exists s, (zroot s), (the_znode s [0; 0; 0]%nat), (the_znode s [0; 0; 1]%nat).
  split; [zdom calls (Some AY)|]. split; [vm_compute; reflexivity|]. split; [vm_compute; reflexivity|]. split; [constructor|]. split; [zwalk [0; 0; 0]%nat|]. split; [vm_compute; reflexivity|]. split; [zwalk [0; 0; 1]%nat|]. repeat split; vm_compute; reflexivity.
Qed.
Print Assumptions C66_open_dimension_y_refuted.

(** [tree_search] has a direction for the objective OpenDimensionZ, but [better] throws for
    this objective whatever the nodes. *)
Theorem C66_open_dimension_z_refuted : forall i, bx_objective i = OOpenDimensionZ -> zdirections i = [Some AZ] /\ forall s n1 n2, zs_i s = i -> zbetter s n1 n2 = None.
Proof. intros i Ho. split; [unfold zdirections; rewrite Ho; reflexivity|]. intros s n1 n2 <-. unfold zbetter. rewrite Ho. reflexivity. Qed.
Print Assumptions C66_open_dimension_z_refuted.

(** The knapsack bound cuts everything once all the items are packed, although with
    penalties a solution with fewer items may be better. *)
Theorem C66_knapsack_penalty_refuted : exists s n1 n2 m, ztree_domain s /\ bx_objective (zs_i s) = OKnapsack /\ zreachable s n1 /\ zreachable s n2 /\
  zbound s n1 n2 = Some true /\ zbelow s n1 m /\ zbetter s m n2 = Some true.
Proof.
  set (calls := [WSetObjective OKnapsack; WAddBin (mkV 10 10 10); WAddResource 0 1 true 10; WAddItem (mkV 4 5 5); WSetItemCopies 0 2; WSetItemProfit 0 1; WAddConsumption 0 0 0 0 1;  WAddConsumption 0 0 0 1 1]).
  set (s := the_zscheme calls (Some AX)). exists s, (zroot s), (the_znode s [0; 0]%nat), (the_znode s [0%nat]).
  split; [zdom calls (Some AX)|]. split; [vm_compute; reflexivity|]. split; [constructor|]. split; [zwalk [0; 0]%nat|]. split; [vm_compute; reflexivity|]. split; [zwalk [0%nat]|]. vm_compute; reflexivity.
Qed.
Print Assumptions C66_knapsack_penalty_refuted.

(** Default: while no solution packs all the items, a node whose profit cannot be larger
    than the one of the solution is cut although it may have the same profit with less
    waste. *)
Theorem C66_default_refuted : exists s n1 n2 m, ztree_domain s /\ bx_objective (zs_i s) = ODefault /\ zreachable s n1 /\ zreachable s n2 /\
  zbound s n1 n2 = Some true /\ zbelow s n1 m /\ zbetter s m n2 = Some true /\ zn_waste m = 0 /\ zn_waste n2 = 300.
Proof.
  set (calls := [WSetObjective ODefault; WAddBin (mkV 10 10 10); WAddItem (mkV 7 10 10); WAddRotation 0 XYZ; WAddRotation 0 YXZ; WSetItemProfit 0 1; WAddItem (mkV 3 10 10); WSetItemProfit 1 0]).
  set (s := the_zscheme calls (Some AX)). exists s, (zroot s), (the_znode s [1%nat]), (the_znode s [0%nat]).
  split; [zdom calls (Some AX)|]. split; [vm_compute; reflexivity|]. split; [constructor|]. split; [zwalk [1%nat]|]. split; [vm_compute; reflexivity|]. split; [zwalk [0%nat]|]. repeat split; vm_compute; reflexivity.
Qed.
Print Assumptions C66_default_refuted.

(** Dominance does not compare the weights of the last bins: the node that dominates
    leads to no complete solution, the dominated one does. *)
Theorem C66_dominance_refuted : exists s n1 n2 m, ztree_domain s /\ zreachable s n1 /\ zreachable s n2 /\ zn_copies n1 = zn_copies n2 /\ zdominates n1 n2 = true /\
  (forall k, zbelow s n1 k -> zleaf s k = false) /\ zbelow s n2 m /\ zleaf s m = true.
Proof.
  set (calls := [WSetObjective OBinPacking; WAddBin (mkV 10 10 1); WSetBinCopies 0 2; WSetBinWeight 0 (Some 10%Q); WAddItem (mkV 7 5 1); WSetItemWeight 0 6; WAddItem (mkV 10 5 1); WSetItemWeight 1 1; WAddItem (mkV 8 5 1); WSetItemWeight 2 4; WAddItem (mkV 9 5 1); WSetItemWeight 3 9]).
  set (s := the_zscheme calls (Some AX)). exists s, (the_znode s [1; 1; 0]%nat), (the_znode s [0; 1; 0]%nat), (the_znode s [0; 1; 0; 0]%nat).
  split; [zdom calls (Some AX)|]. split; [zwalk [1; 1; 0]%nat|]. split; [zwalk [0; 1; 0]%nat|]. split; [vm_compute; reflexivity|]. split; [vm_compute; reflexivity|]. split; [|split; [zwalk [0%nat]|vm_compute; reflexivity]].
  intros k Hk. assert (X : option_map (forallb (fun n => negb (zleaf s n))) (zexplore 3 s (the_znode s [1; 1; 0]%nat)) = Some true) by (vm_compute; reflexivity). apply negb_true_iff. exact (zexplore_check _ _ _ _ X k Hk).
Qed.
Print Assumptions C66_dominance_refuted.
