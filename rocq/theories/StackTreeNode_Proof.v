(** * Nodes of the boxstacks branching scheme *)

From Coq Require Import List ZArith QArith Bool Lia Lqa Arith Permutation.
From Verif Require Import Util Common_Model Common_Proof OneDim_Model OneDim_Proof Rect_Model RectFlip_Model RectTree_Model RectSky_Proof RectTree_Proof RectTreeNode_Proof
  Box_Model Stack_Model Stack_Spec Stack_Proof StackTree_Model StackTree_Spec StackSky_Proof StackTree_Proof StackTreeBin_Proof.
Import ListNotations.
Open Scope Z_scope.

(** The last bin of a node, in the instance of its direction. *)
Record VState (inst : KInstance) (un : Unloading) (t : nat) (n : VNode) (st : list KSDesc) : Prop := {
  ve_ne : st <> [];
  ve_ok : vbin_ok inst un (mkKD t 1 st);
  ve_sky : VSky inst un (v_x (kb_box (kbin inst t))) (v_y (kb_box (kbin inst t))) (v_z (kb_box (kbin inst t))) (vn_pieces n) st;
  ve_w : forall g, (g < kgroups inst)%nat -> (nth g (vn_w n) 0 == bin_gweight inst g (mkKD t 1 st))%Q;
  ve_m : forall g, (g < kgroups inst)%nat -> (nth g (vn_m n) 0 == bin_gmoment inst g (mkKD t 1 st))%Q;
  ve_groups : un = UIncreasingX -> forall q, In q st -> sd_x q <= nth (sgroup inst q) (vn_xmax n) 0 /\ exists v, nth (sgroup inst q) (vn_xmin n) None = Some v /\ v <= sd_x q;
  ve_xe : vn_xe_max n = far sd_xe (mkKD t 1 st);
  ve_middle : vn_middle n = voverweight inst (kb_truck (kbin inst t)) fst (tr_middle_maximum (kb_truck (kbin inst t))) (vn_w n) (vn_m n);
  ve_rear : vn_rear n = voverweight inst (kb_truck (kbin inst t)) snd (tr_rear_maximum (kb_truck (kbin inst t))) (vn_w n) (vn_m n)
}.

(** What the step from a node to a child does, its last bin apart. *)
Record VChildStep (s : VScheme) (n n' : VNode) (x : nat) (r : Rotation) (dir : bool) (k : nat) (isnew : bool) (xs ys zj : Z) : Prop := {
  vc_path : vn_path n' = vn_path n ++ [mkVT (S k) dir isnew (x, r) xs ys];
  vc_dir : vn_dir n' = dir;
  vc_copies : vn_copies n' = upd x (fun c => c + 1) (vn_copies n);
  vc_bins : vn_bins n' = S k;
  vc_items : vn_items n' = vn_items n + 1;
  vc_volume : vn_volume n' = vn_volume n + v_x (ksize (vinst s dir) (x, r)) * v_y (ksize (vinst s dir) (x, r)) * zj;
  vc_current : vn_current n' = vprevious (vs_i s) k + vpieces_volume (v_z (kb_box (kbin (vinst s dir) (nth k (vbins (vs_i s)) 0%nat)))) (vn_pieces n');
  vc_waste : vn_waste n' = vn_current n' - vn_volume n';
  vc_profit : (vn_profit n' == vn_profit n + ki_profit (kitem (vs_i s) x))%Q
}.

Record VLengths (s : VScheme) (n : VNode) : Prop := {
  vl_w : length (vn_w n) = kgroups (vs_i s);
  vl_m : length (vn_m n) = kgroups (vs_i s);
  vl_xmin : length (vn_xmin n) = kgroups (vs_i s);
  vl_xmax : length (vn_xmax n) = kgroups (vs_i s)
}.

Lemma vinst_groups : forall s dir, kgroups (vinst s dir) = kgroups (vs_i s).
Proof. intros s [|]; [apply kflip_groups|reflexivity]. Qed.

Lemma vonly_x_spec : forall inst g ys ye l, vonly_x inst g ys ye l = Some true -> forall u, In u l -> ys < vp_ye u -> vp_ys u < ye -> vp_items u <> [] /\ (g <= ki_group (kitem inst (last (vp_items u) 0%nat)))%nat.
Proof.
  intros inst g ys ye. induction l as [|v l IH]; intros H u Hu H1 H2; [destruct Hu|]. cbn [vonly_x] in H. destruct Hu as [<-|Hu].
  - rewrite (voverlaps_true ys ye v H1 H2) in H. cbn [negb] in H. destruct (vp_items v) as [|a b] eqn:E; [discriminate|]. rewrite <- E in *. destruct (Nat.ltb_spec (ki_group (kitem inst (last (vp_items v) 0%nat))) g) as [C|C]; [discriminate|]. rewrite E. split; [discriminate|rewrite <- E; exact C].
  - destruct (voverlaps ys ye v); cbn [negb] in H; [|apply IH; assumption]. destruct (vp_items v) as [|a b] eqn:E; [discriminate|]. rewrite <- E in *. destruct (_ <? _)%nat; [discriminate|apply IH; assumption].
Qed.

Lemma hd_nth : forall (l : list Q), hd 0%Q l = nth 0 l 0%Q.
Proof. intros [|a l]; reflexivity. Qed.

Lemma bin_gweight_snoc : forall inst g t st s, (bin_gweight inst g (mkKD t 1 (st ++ [s])) == bin_gweight inst g (mkKD t 1 st) + gweight inst g (sd_items s))%Q.
Proof. intros. unfold bin_gweight. cbn [kd_stacks]. rewrite qsum_snoc. reflexivity. Qed.
Lemma bin_gmoment_snoc : forall inst g t st s, (bin_gmoment inst g (mkKD t 1 (st ++ [s])) == bin_gmoment inst g (mkKD t 1 st) + mid s * gweight inst g (sd_items s))%Q.
Proof. intros. unfold bin_gmoment. cbn [kd_stacks]. rewrite qsum_snoc. reflexivity. Qed.

Lemma nth_repeat_q : forall k g, nth g (repeat 0%Q k) 0%Q = 0%Q.
Proof. intros k g. apply nth_repeat. Qed.

Section Step.
Variable s : VScheme.
Hypothesis Hd : vdomain s.

Lemma vdom_group_lt : forall dir x, (x < length (kx_items (vs_i s)))%nat -> (ki_group (kitem (vinst s dir) x) < kgroups (vs_i s))%nat.
Proof. intros dir x Hx. destruct (vdom_item s dir x) as (_ & _ & -> & _). apply group_lt, Hx. Qed.

Definition vstart (n : VNode) (new : option (nat * bool)) (yi : Z) : list VPiece := match new with Some _ => [vfree 0 yi] | None => vn_pieces n end.

Lemma step_new : forall n x r new xs ys st, NewIns s n x r new xs ys -> (vins_pos n new < length (vbins (vs_i s)))%nat -> VLengths s n ->
  let inst := vinst s (vins_dir n new) in let un := vunloading s (vins_dir n new) in let t := nth (vins_pos n new) (vbins (vs_i s)) 0%nat in let size := ksize inst (x, r) in
  match new with Some _ => st = [] | None => VState inst un t n st end ->
  exists n', vchild s n (mkVI x r xs ys 0 None new) = Some n'
    /\ VState inst un t n' (st ++ [mkKSD xs (xs + v_x size) ys (ys + v_y size) [(x, r)]])
    /\ VChildStep s n n' x r (vins_dir n new) (vins_pos n new) true xs ys (v_z size)
    /\ VLengths s n'
    /\ (forall q, In q st -> (sd_x q, sd_y q) <> (xs, ys))
    /\ vpieces_volume (v_z (kb_box (kbin inst t))) (vstart n new (v_y (kb_box (kbin inst t)))) + v_x size * v_y size * v_z size
       <= vpieces_volume (v_z (kb_box (kbin inst t))) (vn_pieces n').
Proof.
  intros n x r new xs ys st N Hpos [L1 L2 L3 L4]. cbv zeta. intros Hst. set (dir := vins_dir n new) in *. set (k := vins_pos n new) in *.
  pose proof (vbins_nth _ _ Hpos) as Ht. destruct N as [N1 (N2 & N3 & _) N4 N5 N6 N7 N8 N9 N10 (xs0 & N11 & N12)]. fold dir k in N4, N5, N6, N7, N8, N9, N10, N11, N12.
  set (t := nth k (vbins (vs_i s)) 0%nat) in *. set (inst := vinst s dir) in *. set (un := vunloading s dir) in *. set (bt := kbin inst t) in *.
  destruct (vdom_size s Hd dir x r N2) as (Px & Py & Pz). fold inst in Px, Py, Pz. destruct (vdom_bin s Hd dir t Ht) as (B1 & B2 & B3 & _). fold inst bt in B1, B2, B3.
  set (xj := v_x (ksize inst (x, r))) in *. set (yj := v_y (ksize inst (x, r))) in *. set (zj := v_z (ksize inst (x, r))) in *.
  set (p := mkKSD xs (xs + xj) ys (ys + yj) [(x, r)]).
  set (l0 := vstart n new (v_y (kb_box bt))).
  assert (K0 : VSky inst un (v_x (kb_box bt)) (v_y (kb_box bt)) (v_z (kb_box bt)) l0 st). { unfold l0, vstart. destruct new as [pd|]; [subst st; apply vsky_empty; lia|apply (ve_sky _ _ _ _ _ Hst)]. }
  assert (V0 : vbin_ok inst un (mkKD t 1 st)). { destruct new as [pd|]; [subst st; apply vbin_empty|apply (ve_ok _ _ _ _ _ Hst)]. }
  assert (Hr : In r (ki_rotations (kitem inst x))). { destruct (vdom_item s dir x) as (_ & _ & _ & _ & E & _). fold inst in E. rewrite E. exact N3. }
  assert (Hx : (x < length (kx_items inst))%nat). { destruct (vdom_lengths s dir) as [E _]. fold inst in E. rewrite E. exact N2. }
  assert (Hin : forall q, In q st -> inside (v_y (kb_box bt)) q) by (intros q Hq; apply (vbin_inside inst t un st q V0 Hq)).
  assert (Eh : stack_height inst [(x, r)] = zj). { unfold stack_height. cbn [tl]. rewrite zsum_cons, !zsum_nil. unfold kheight, zj, ksize. cbn [fst snd]. lia. }
  assert (Eg : sgroup inst p = ki_group (kitem inst x)) by reflexivity.
  assert (Hstk : vstack_ok inst t p) by (apply vstack_new; try assumption; fold bt; lia).
  assert (F : VFits inst un (v_x (kb_box bt)) (v_y (kb_box bt)) (v_z (kb_box bt)) l0 p).
  { constructor; cbn [sd_x sd_xe sd_y sd_ye sd_items p].
    - lia.
    - lia.
    - rewrite Eh. lia.
    - intros u Hu H1 H2. unfold l0, vstart in Hu. destruct new as [pd|]; [destruct Hu as [<-|[]]; cbn; lia|]. exact (N9 eq_refl u Hu H1 H2).
    - intros Eun u Hu Hne H1 H2. rewrite Eg. unfold l0, vstart in Hu. destruct new as [pd|]; [destruct Hu as [<-|[]]; cbn in Hne; contradiction|].
      unfold vunloading_allows in N11. rewrite Eun in N11. exact (proj2 (vonly_x_spec _ _ _ _ _ N11 u Hu H1 H2)). }
  set (P := vnew_piece x (kitem inst x) xs (xs + xj) ys (ys + yj) zj).
  assert (SP : Shows inst P p).
  { constructor; cbn [P vnew_piece p vp_items vp_xs vp_xe vp_ys vp_ye vp_ze vp_weight vp_max vp_rem sd_items sd_x sd_xe sd_y sd_ye]; try reflexivity.
    - lia.
    - symmetry. exact Eh.
    - rewrite qsum_cons. change (qsum (kweight inst) []) with 0%Q. unfold kweight. cbn [fst]. ring.
    - intros q [<-|[]]. cbn [fst]. lia.
    - intros below q above w E Ew. destruct below as [|b below]; [|injection E as _ E; destruct below; discriminate]. injection E as <- <-. cbn [fst] in Ew. exists w. split; [exact Ew|]. change (qsum (kweight inst) []) with 0%Q. lra. }
  set (l1 := flat_map (vbelow_clip ys) l0 ++ [P] ++ flat_map (vabove_clip (ys + yj)) l0).
  assert (K1 : VSky inst un (v_x (kb_box bt)) (v_y (kb_box bt)) (v_z (kb_box bt)) l1 (st ++ [p])).
  { apply (vsky_new inst un _ _ _ l0 st p P K0 Hin F SP); try reflexivity. discriminate. }
  assert (Epieces : (match new with Some _ => vnew_pieces P (v_y (kb_box bt)) | None => flat_map (vcover P) (vn_pieces n) end) = l1).
  { unfold l1, l0, vstart. destruct new as [pd|].
    - rewrite vnew_pieces_eq by (cbn [P vnew_piece vp_ys vp_ye]; lia). reflexivity.
    - rewrite (vcover_eq P (vn_pieces n) 0 (v_y (kb_box bt)) (vy_tiles _ _ _ _ _ _ _ K0)) by (cbn [P vnew_piece vp_ys vp_ye]; lia). reflexivity. }
  set (g := ki_group (kitem inst x)) in *. set (w := ki_weight (kitem inst x)) in *.
  set (w0 := match new with Some _ => repeat 0%Q (length (vn_w n)) | None => vn_w n end). set (m0 := match new with Some _ => repeat 0%Q (length (vn_w n)) | None => vn_m n end).
  assert (Lw0 : length w0 = kgroups (vs_i s)) by (unfold w0; destruct new; [rewrite repeat_length|]; assumption).
  assert (Lm0 : length m0 = kgroups (vs_i s)) by (unfold m0; destruct new; [rewrite repeat_length|]; assumption).
  pose proof (vinst_groups s dir) as Egr. fold inst in Egr.
  assert (W0 : forall h, (h < kgroups inst)%nat -> (nth h w0 0 == bin_gweight inst h (mkKD t 1 st))%Q).
  { intros h Hh. unfold w0. destruct new as [pd|]; [rewrite nth_repeat_q; subst st; reflexivity|apply (ve_w _ _ _ _ _ Hst h Hh)]. }
  assert (M0 : forall h, (h < kgroups inst)%nat -> (nth h m0 0 == bin_gmoment inst h (mkKD t 1 st))%Q).
  { intros h Hh. unfold m0. destruct new as [pd|]; [rewrite nth_repeat_q; subst st; reflexivity|apply (ve_m _ _ _ _ _ Hst h Hh)]. }
  assert (W1 : forall h, (h < kgroups inst)%nat -> (nth h (add_groups g w w0) 0 == bin_gweight inst h (mkKD t 1 (st ++ [p])))%Q).
  { intros h Hh. rewrite add_groups_nth by lia. rewrite bin_gweight_snoc. cbn [p sd_items]. rewrite gweight_one, W0 by exact Hh. reflexivity. }
  assert (M1 : forall h, (h < kgroups inst)%nat -> (nth h (add_groups g (vcenter xs xj * w) m0) 0 == bin_gmoment inst h (mkKD t 1 (st ++ [p])))%Q).
  { intros h Hh. rewrite add_groups_nth by lia. rewrite bin_gmoment_snoc, M0 by exact Hh. assert (Emid : (mid p == vcenter xs xj)%Q) by apply mid_new. rewrite Emid. cbn [p sd_items]. rewrite gweight_one. fold g w. destruct (Nat.leb h g); ring. }
  assert (Gpos : (0 < kgroups inst)%nat) by (apply (kgroups_pos inst x Hx)).
  assert (Tot : total_ok inst (mkKD t 1 (st ++ [p]))).
  { unfold total_ok. cbn [kd_type]. fold bt. eapply most_compat; [|exact N7]. rewrite <- gweight_zero, bin_gweight_snoc. cbn [p sd_items]. rewrite gweight_one. cbn [Nat.leb]. fold w. rewrite <- W0 by exact Gpos. unfold w0. destruct new as [pd|]; [rewrite nth_repeat_q; ring|rewrite hd_nth; reflexivity]. }
  assert (Hgl : (g < kgroups (vs_i s))%nat) by (apply vdom_group_lt; exact N2).
  assert (V1 : vbin_ok inst un (mkKD t 1 (st ++ [p]))).
  { apply (vbin_new inst t un l0 st p K0 V0 F Hstk); fold bt; [|exact Tot| | |].
    - intros f Hf. specialize (N10 f Hf). unfold clear_of, df_xe, df_ye in N10. unfold off_defect. cbn [p sd_x sd_xe sd_y sd_ye]. tauto.
    - intro E. unfold vunloading_allows in N11. rewrite E in N11. discriminate.
    - intro E. unfold vunloading_allows in N11. rewrite E in N11. discriminate.
    - intros En Eun q Hq. rewrite Eg. cbn [p sd_x]. destruct new as [pd|]; [subst st; destruct Hq|]. unfold vunloading_allows in N11. rewrite Eun in N11. injection N11 as N11. apply andb_true_iff in N11. destruct N11 as [N11a N11b]. rewrite forallb_forall in N11a, N11b.
      rewrite (N12 En) in *. destruct (ve_groups _ _ _ _ _ Hst Eun q Hq) as [U1 (v & U2 & U3)]. split; intros Hg.
      + specialize (N11b (sgroup inst q) ltac:(apply in_seq; lia)). cbv beta in N11b. rewrite U2 in N11b. apply negb_true_iff, Z.ltb_ge in N11b. lia.
      + assert (Hql : (sgroup inst q < kgroups (vs_i s))%nat).
        { pose proof (vb_stacks _ _ _ V0 q Hq) as Vq. cbn [kd_type] in Vq. destruct (sd_items q) as [|q0 lq] eqn:Eq; [destruct (vk_ne _ _ _ Vq Eq)|]. destruct (vk_item _ _ _ Vq q0) as (Q1 & _); [rewrite Eq; left; reflexivity|]. unfold sgroup. rewrite Eq. cbn [hd]. rewrite <- Egr. apply group_lt, Q1. }
        specialize (N11a (sgroup inst q) ltac:(apply in_seq; lia)). cbv beta in N11a. apply negb_true_iff, Z.ltb_ge in N11a. lia. }
  assert (Hz0 : v_z (kb_box bt) <? 0 + zj = false) by (apply Z.ltb_ge; lia).
  assert (Enb : (match new with Some (q, _) => S q | None => vn_bins n end) = S k). { unfold k. destruct new as [[q d]|]; cbn [vins_pos]; [reflexivity|lia]. }
  unfold vchild. cbn [vi_type vi_rot vi_x vi_y vi_z vi_above vi_to]. rewrite Enb. change (match new with Some (_, d) => d | None => vn_dir n end) with dir. cbv zeta. replace (S k - 1)%nat with k by lia. fold t inst. fold bt. fold xj yj zj. rewrite Hz0. fold P. rewrite Epieces.
  assert (A1 : add_groups g w (match new with Some _ => repeat 0%Q (length (vn_w n)) | None => vn_w n end) = add_groups g w w0) by reflexivity.
  fold g w. change (match new with Some _ => repeat 0%Q (length (vn_w n)) | None => vn_w n end) with w0. change (match new with Some _ => repeat 0%Q (length (vn_w n)) | None => vn_m n end) with m0. fold un.
  eexists. split; [reflexivity|]. split; [|split; [|split; [|split]]].
  - constructor; cbn [vn_pieces vn_w vn_m vn_xmax vn_xmin vn_xe_max vn_middle vn_rear]; fold bt; try assumption; try reflexivity.
    + intro E. apply app_eq_nil in E. destruct E. discriminate.
    + intros Eun q Hq. rewrite Eun. apply in_snoc in Hq. destruct Hq as [Hq| ->].
      * destruct new as [pd|]; [subst st; destruct Hq|]. destruct (ve_groups _ _ _ _ _ Hst Eun q Hq) as [U1 (v & U2 & U3)]. rewrite !nth_upd by lia. destruct (Nat.eqb_spec g (sgroup inst q)) as [E|E]; [|split; [exact U1|exists v; auto]]. split.
        -- unfold max_x. destruct (Z.ltb_spec (nth (sgroup inst q) (vn_xmax n) 0) xs); lia.
        -- rewrite U2. unfold min_x. destruct (Z.ltb_spec xs v); [exists xs; split; [reflexivity|lia]|exists v; auto].
      * rewrite Eg. rewrite !nth_upd_same by lia. cbn [p sd_x]. split.
        -- unfold max_x. destruct (Z.ltb_spec (nth g (vn_xmax n) 0) xs); lia.
        -- unfold min_x. destruct (nth g (vn_xmin n) None) as [v|]; [|exists xs; split; [reflexivity|lia]]. destruct (Z.ltb_spec xs v); [exists xs; split; [reflexivity|lia]|exists v; auto].
    + apply (vsky_xe_max inst un _ _ _ _ _ t K1). intros q Hq. apply (vbin_inside inst t un _ q V1 Hq).
  - constructor; cbn [vn_path vn_dir vn_copies vn_bins vn_items vn_volume vn_current vn_waste vn_profit vn_pieces]; try reflexivity.
    destruct (vdom_item s dir x) as (E & _). fold inst in E. rewrite E. reflexivity.
  - constructor; cbn [vn_w vn_m vn_xmin vn_xmax]; rewrite ?add_groups_length; try assumption; (destruct un; rewrite ?upd_length; assumption).
  - intros q Hq E. injection E as E1 E2. pose proof (kg_apart _ _ (vb_geom _ _ _ V1)) as G. cbn [kd_stacks] in G. pose proof (Hin q Hq) as (Q1 & Q2 & Q3).
    assert (R : rows_meet q p) by (split; cbn [p sd_y sd_ye]; lia). destruct (vfits_left inst _ _ _ _ _ _ _ q K0 F Hq (Hin q Hq) R) as (u & _ & _ & _ & _ & _ & U1 & U2). cbn [p sd_x] in U2. lia.
  - cbn [vn_pieces]. pose proof (vsky_volume_new inst un _ _ _ l0 st p P K0 F ltac:(lia) SP eq_refl eq_refl) as Q. assert (Ebp : base p = xj * yj) by (unfold base, p; cbn [sd_x sd_xe sd_y sd_ye]; ring). rewrite Ebp in Q. cbn [p sd_items] in Q. rewrite Eh in Q.
    exact Q.
Qed.

Lemma step_above : forall n x r k u st, AboveIns s n x r k u -> (vn_bins n <= length (vbins (vs_i s)))%nat -> VLengths s n -> dir_allowed s (vn_dir n) ->
  let inst := vinst s (vn_dir n) in let un := vunloading s (vn_dir n) in let t := nth (vn_bins n - 1) (vbins (vs_i s)) 0%nat in let size := ksize inst (x, r) in
  VState inst un t n st ->
  exists n' j d, vchild s n (mkVI x r (vp_xs u) (vp_ys u) (vp_ze u) (Some k) None) = Some n'
    /\ nth_error st j = Some d /\ sd_x d = vp_xs u /\ sd_y d = vp_ys u /\ v_x size = sd_xe d - sd_x d /\ v_y size = sd_ye d - sd_y d
    /\ VState inst un t n' (upd j (spush (x, r)) st)
    /\ VChildStep s n n' x r (vn_dir n) (vn_bins n - 1) false (vp_xs u) (vp_ys u) (v_z size - ki_nesting (kitem inst x))
    /\ VLengths s n'
    /\ vpieces_volume (v_z (kb_box (kbin inst t))) (vn_pieces n')
       = vpieces_volume (v_z (kb_box (kbin inst t))) (vn_pieces n) + v_x size * v_y size * (v_z size - ki_nesting (kitem inst x)).
Proof.
  intros n x r k u st [A1 (A2 & A3 & _) A4 A5 A6 A7 A8 A9 A10 A11 A12 A13 A14] Hlen [L1 L2 L3 L4] Hal. cbv zeta. intros Hst. set (dir := vn_dir n) in *.
  assert (Hpos : (vn_bins n - 1 < length (vbins (vs_i s)))%nat) by lia. pose proof (vbins_nth _ _ Hpos) as Ht. set (t := nth (vn_bins n - 1) (vbins (vs_i s)) 0%nat) in *.
  set (inst := vinst s dir) in *. set (un := vunloading s dir) in *. set (bt := kbin inst t) in *.
  destruct (vdom_size s Hd dir x r A2) as (Px & Py & Pz). fold inst in Px, Py, Pz. destruct (vdom_bin s Hd dir t Ht) as (B1 & B2 & B3 & _). fold inst bt in B1, B2, B3.
  assert (Hr : In r (ki_rotations (kitem inst x))). { destruct (vdom_item s dir x) as (_ & _ & _ & _ & E & _). fold inst in E. rewrite E. exact A3. }
  assert (Hx : (x < length (kx_items inst))%nat). { destruct (vdom_lengths s dir) as [E _]. fold inst in E. rewrite E. exact A2. }
  pose proof (ve_sky _ _ _ _ _ Hst) as K0. pose proof (ve_ok _ _ _ _ _ Hst) as V0. fold bt in K0.
  assert (Hu : In u (vn_pieces n)) by (eapply nth_error_In; exact A4).
  destruct (vy_some _ _ _ _ _ _ _ K0 u Hu A5) as (j & d & Hj & Sh). assert (Hd0 : In d st) by (eapply nth_error_In; exact Hj).
  pose proof (vb_stacks _ _ _ V0 d Hd0) as Vd. cbn [kd_type] in Vd. pose proof (vk_ne _ _ _ Vd) as Hne.
  assert (Hq0 : exists q0, In q0 (sd_items d) /\ fst q0 = last (vp_items u) 0%nat).
  { rewrite (sh_items _ _ _ Sh). destruct (exists_last_or_nil _ (sd_items d)) as [E|(l & q & E)]; [contradiction|]. exists q. rewrite E. split; [apply in_snoc; right; reflexivity|]. rewrite map_app. cbn [map]. rewrite last_snoc. reflexivity. }
  destruct Hq0 as (q0 & Hq0 & Eq0). destruct (vk_item _ _ _ Vd q0 Hq0) as (Q1 & Q2 & Q3 & Q4).
  assert (Ex : v_x (ksize inst (x, r)) = sd_xe d - sd_x d) by (rewrite A6, (sh_xe _ _ _ Sh), (sh_xs _ _ _ Sh); reflexivity).
  assert (Ey : v_y (ksize inst (x, r)) = sd_ye d - sd_y d).
  { rewrite <- Q4. apply (dir_bases s Hd dir Hal (x, r) q0); cbn [fst snd]; fold inst; try assumption; try congruence.
    - unfold item_group. cbn [fst]. congruence.
    - change (item_size inst (x, r)) with (ksize inst (x, r)). congruence. }
  pose proof (sh_rows _ _ _ Sh) as Rw. assert (Eys : vp_ys u = sd_y d) by lia. assert (Eye : vp_ye u = sd_ye d) by lia.
  set (zj := v_z (ksize inst (x, r)) - ki_nesting (kitem inst x)) in *.
  assert (Hh : stack_height inst (sd_items d ++ [(x, r)]) <= v_z (kb_box bt)).
  { rewrite stack_height_snoc. destruct (sd_items d) as [|a b] eqn:E; [contradiction|]. rewrite <- E in *. rewrite <- (sh_ze _ _ _ Sh). unfold kheight, zj, ksize in *. cbn [fst snd] in *. exact A10. }
  pose proof (vsky_above inst un _ _ _ _ st k j u d x r K0 A4 Hj Sh Hne Eys Eye Hh A9) as K1. change (kheight inst (x, r) - ki_nesting (kitem inst x)) with zj in K1.
  assert (Hpush : vstack_ok inst t (spush (x, r) d)) by (apply (vstack_push inst t u d x r); fold bt; assumption).
  set (g := ki_group (kitem inst x)) in *. set (w := ki_weight (kitem inst x)) in *. pose proof (vinst_groups s dir) as Egr. fold inst in Egr.
  assert (Gi : forall h, (gweight inst h (sd_items d ++ [(x, r)]) == gweight inst h (sd_items d) + (if Nat.leb h g then w else 0))%Q) by (intros h; rewrite gweight_snoc, gweight_one; reflexivity).
  assert (W1 : forall h, (h < kgroups inst)%nat -> (nth h (add_groups g w (vn_w n)) 0 == bin_gweight inst h (mkKD t 1 (upd j (spush (x, r)) st)))%Q).
  { intros h Hh0. rewrite add_groups_nth by lia. unfold bin_gweight. cbn [kd_stacks]. rewrite (qsum_upd _ _ _ _ _ _ Hj). cbn [spush sd_items]. rewrite Gi. pose proof (ve_w _ _ _ _ _ Hst h Hh0) as E. unfold bin_gweight in E. cbn [kd_stacks] in E. rewrite E. ring. }
  assert (Mid : (mid d == vcenter (vp_xs u) (v_x (ksize inst (x, r))))%Q).
  { unfold mid, vcenter. rewrite Ex, (sh_xs _ _ _ Sh). unfold Zminus. rewrite !inject_Z_plus, inject_Z_opp. field. }
  assert (M1 : forall h, (h < kgroups inst)%nat -> (nth h (add_groups g (vcenter (vp_xs u) (v_x (ksize inst (x, r))) * w) (vn_m n)) 0 == bin_gmoment inst h (mkKD t 1 (upd j (spush (x, r)) st)))%Q).
  { intros h Hh0. rewrite add_groups_nth by lia. unfold bin_gmoment. cbn [kd_stacks]. rewrite (qsum_upd _ _ _ _ _ _ Hj). cbn [spush sd_items]. change (mid (spush (x, r) d)) with (mid d). rewrite Gi. pose proof (ve_m _ _ _ _ _ Hst h Hh0) as E. unfold bin_gmoment in E. cbn [kd_stacks] in E. rewrite E.
    destruct (Nat.leb h g); [rewrite <- Mid|]; ring. }
  assert (Gpos : (0 < kgroups inst)%nat) by (apply (kgroups_pos inst x Hx)).
  assert (Tot : total_ok inst (mkKD t 1 (upd j (spush (x, r)) st))).
  { unfold total_ok. cbn [kd_type]. fold bt. eapply most_compat; [|exact A11]. rewrite <- gweight_zero, <- W1 by exact Gpos. rewrite add_groups_nth by lia. cbn [Nat.leb]. rewrite hd_nth. reflexivity. }
  pose proof (vbin_above inst t un st j d (x, r) V0 Hj Hpush Vd Tot) as V1.
  assert (Hgl : (g < kgroups (vs_i s))%nat) by (apply vdom_group_lt; exact A2).
  assert (Hk : (k < length (vn_pieces n))%nat) by (eapply nth_error_lt; exact A4).
  unfold vchild. cbn [vi_type vi_rot vi_x vi_y vi_z vi_above vi_to]. fold dir. cbv zeta. fold t inst. fold bt. fold zj. assert (Hz0 : v_z (kb_box bt) <? vp_ze u + zj = false) by (apply Z.ltb_ge; exact A10). rewrite Hz0.
  destruct (Nat.ltb_spec k (length (vn_pieces n))); [|lia]. fold g w. fold un.
  eexists. exists j, d. split; [reflexivity|]. split; [exact Hj|]. split; [symmetry; apply (sh_xs _ _ _ Sh)|]. split; [symmetry; exact Eys|]. split; [exact Ex|]. split; [exact Ey|].
  assert (Gd : sgroup inst d = g). { rewrite A9, <- Eq0. change (ki_group (kitem inst (fst q0))) with (item_group inst q0). symmetry. apply (stack_group inst t d q0 Vd Hq0). }
  split; [|split; [|split]].
  - constructor; cbn [vn_pieces vn_w vn_m vn_xmax vn_xmin vn_xe_max vn_middle vn_rear]; fold bt; try assumption; try reflexivity.
    + intro E. apply (f_equal (@length KSDesc)) in E. rewrite upd_length in E. destruct st; [destruct j; discriminate|discriminate].
    + intros Eun q Hq. rewrite Eun.
      assert (C : exists q1, In q1 st /\ sd_x q = sd_x q1 /\ sgroup inst q = sgroup inst q1).
      { destruct (in_upd_cases _ _ _ _ _ Hq) as [(b & Eb & ->)|(j' & _ & Ej)]; [|exists q; split; [eapply nth_error_In; exact Ej|auto]]. assert (b = d) by congruence. subst b. exists d. split; [exact Hd0|]. split; [reflexivity|]. unfold sgroup. cbn [spush sd_items]. destruct (sd_items d); [contradiction|reflexivity]. }
      destruct C as (q1 & C1 & C2 & C3). rewrite C2, C3. destruct (ve_groups _ _ _ _ _ Hst Eun q1 C1) as [U1 (v & U2 & U3)]. rewrite !nth_upd by lia. destruct (Nat.eqb_spec g (sgroup inst q1)) as [E|E]; [|split; [exact U1|exists v; auto]]. split.
      * unfold max_x. destruct (Z.ltb_spec (nth (sgroup inst q1) (vn_xmax n) 0) (vp_xs u)); lia.
      * rewrite U2. unfold min_x. destruct (Z.ltb_spec (vp_xs u) v); [exists (vp_xs u); split; [reflexivity|lia]|exists v; auto].
    + apply (vsky_xe_max inst un _ _ _ _ _ t K1). intros q Hq. apply (vbin_inside inst t un _ q V1 Hq).
  - constructor; cbn [vn_path vn_dir vn_copies vn_bins vn_items vn_volume vn_current vn_waste vn_profit vn_pieces]; try reflexivity; try (replace (S (vn_bins n - 1)) with (vn_bins n) by lia; reflexivity).
    destruct (vdom_item s dir x) as (E & _). fold inst in E. rewrite E. reflexivity.
  - constructor; cbn [vn_w vn_m vn_xmin vn_xmax]; rewrite ?add_groups_length; try assumption; (destruct un; rewrite ?upd_length; assumption).
  - cbn [vn_pieces]. rewrite (vvolume_above _ _ _ _ _ _ _ A4). rewrite A6, A7. reflexivity.
Qed.
End Step.
