(** * Leaves and bounds of the boxstacks branching scheme *)

From Coq Require Import List ZArith QArith Bool Lia Lqa Arith Permutation.
From Verif Require Dff_Axis.
From Verif Require Import ReducInv_Proof.
From Verif Require Import Util Common_Model Common_Proof OneDim_Model OneDim_Proof Rect_Model RectFlip_Model RectTree_Model
  Box_Model Stack_Model Stack_Spec Stack_Proof StackTree_Model StackTree_Spec StackSky_Proof StackTree_Proof StackTreeBin_Proof StackTreeNode_Proof StackTreeInv_Proof.
Import ListNotations.
Open Scope Z_scope.

Lemma rotate_vol : forall b r, v_x (rotate b r) * v_y (rotate b r) * v_z (rotate b r) = vol b.
Proof. intros b []; unfold vol; cbn; ring. Qed.

(** Sums over the items by item type. *)
Lemma sum_types : forall i ds (f : nat -> Z), (forall d p, In d ds -> In p (kd_items d) -> (fst p < length (kx_items i))%nat) -> (forall d, In d ds -> kd_copies d = 1) ->
  zsum (fun d => zsum (fun p => f (fst p)) (kd_items d)) ds = zsum (fun x => kpacked x ds * f x) (seq 0 (length (kx_items i))).
Proof.
  intros i ds f H H1. induction ds as [|d ds IH].
  - rewrite zsum_nil, (zsum_ext _ (fun x => kpacked x [] * f x) (fun _ => 0)) by (intros; reflexivity). rewrite zsum_const. lia.
  - rewrite zsum_cons, IH; [|intros d0 p Hd0 Hp0; apply (H d0 p (or_intror Hd0) Hp0)|intros d0 Hd0; apply (H1 d0 (or_intror Hd0))].
    rewrite (zsum_ext _ (fun x => kpacked x (d :: ds) * f x) (fun x => kcount x (kd_items d) * f x + kpacked x ds * f x)) by (intros x _; unfold kpacked; rewrite zsum_cons, (H1 d (or_introl eq_refl)); ring).
    rewrite zsum_plus. f_equal. specialize (H d). assert (Hp : forall p, In p (kd_items d) -> (fst p < length (kx_items i))%nat) by (intros p; apply H; left; reflexivity). clear H IH H1.
    induction (kd_items d) as [|p l IHl]; [rewrite zsum_nil, (zsum_ext _ (fun x => kcount x [] * f x) (fun _ => 0)) by (intros; reflexivity); rewrite zsum_const; lia|].
    rewrite zsum_cons, IHl by (intros q Hq; apply Hp; right; exact Hq).
    rewrite (zsum_ext _ (fun x => kcount x (p :: l) * f x) (fun x => (if Nat.eqb (fst p) x then f (fst p) else 0) + kcount x l * f x)).
    + rewrite zsum_plus. f_equal. symmetry. exact (Dff_Axis.zsum_single _ (fst p) (f (fst p)) (Hp p (or_introl eq_refl))).
    + intros x _. unfold kcount. rewrite zsum_cons. destruct (Nat.eqb_spec (fst p) x) as [<-|]; ring.
Qed.

Lemma sum_items : forall i (f : KItem -> Z), zsum f (kx_items i) = zsum (fun x => f (kitem i x)) (seq 0 (length (kx_items i))).
Proof.
  intros i f. unfold kitem. rewrite <- (zsum_map _ _ (fun x => nth x (kx_items i) dummy_kitem) f). f_equal.
  apply (nth_ext _ _ dummy_kitem dummy_kitem); [rewrite map_length, seq_length; reflexivity|]. intros n Hn.
  rewrite (nth_indep (map _ _) dummy_kitem (nth O (kx_items i) dummy_kitem)) by (rewrite map_length, seq_length; exact Hn).
  rewrite (map_nth (fun x => nth x (kx_items i) dummy_kitem)), seq_nth by exact Hn. reflexivity.
Qed.

Lemma sum_equal : forall (f g : nat -> Z) l, (forall x, In x l -> f x <= g x) -> zsum f l = zsum g l -> forall x, In x l -> f x = g x.
Proof.
  intros f g. induction l as [|a l IH]; intros H E x Hx; [destruct Hx|]. rewrite !zsum_cons in E. pose proof (H a (or_introl eq_refl)) as H1.
  assert (H2 : zsum f l <= zsum g l) by (apply zsum_le; intros y Hy; apply H; right; exact Hy). destruct Hx as [<-|Hx]; [lia|]. apply IH; [intros y Hy; apply H; right; exact Hy|lia|exact Hx].
Qed.

Section Bound.
Variable s : VScheme.
Hypothesis Hd : vdomain s.
Notation i := (vs_i s).

Lemma inv_ids : forall n ds, VNodeInv s n ds -> forall d p, In d ds -> In p (kd_items d) -> (fst p < length (kx_items i))%nat.
Proof.
  intros n ds NI d p Hdd Hp. unfold kd_items in Hp. apply in_flat_map in Hp. destruct Hp as (q & Hq & Hp). apply (vk_item _ _ _ (vb_stacks _ _ _ (vv_ok s n ds NI d Hdd) q Hq) p Hp).
Qed.

Lemma inv_items_copies : forall n ds, VNodeInv s n ds -> vn_items n = zsum (fun x => kpacked x ds) (seq 0 (length (kx_items i))).
Proof.
  intros n ds NI. rewrite (vv_items s n ds NI). rewrite (zsum_ext _ (fun x => kpacked x ds) (fun x => kpacked x ds * 1)) by (intros; ring).
  rewrite <- (sum_types i ds (fun _ => 1) (inv_ids n ds NI) (vv_one s n ds NI)). apply zsum_ext. intros d _. rewrite zsum_const. lia.
Qed.

Lemma inv_items_le : forall n ds, VNodeInv s n ds -> vn_items n <= knumber_of_items i.
Proof.
  intros n ds NI. rewrite (inv_items_copies n ds NI). unfold knumber_of_items. rewrite (sum_items i ki_copies). apply zsum_le. intros x Hx. apply (vv_copies s n ds NI). apply in_seq in Hx. lia.
Qed.

Lemma leaf_copies : forall n ds, VNodeInv s n ds -> (vleaf s n = true <-> forall x, (x < length (kx_items i))%nat -> kpacked x ds = ki_copies (kitem i x)).
Proof.
  intros n ds NI. unfold vleaf. rewrite Z.eqb_eq, (inv_items_copies n ds NI). unfold knumber_of_items. rewrite (sum_items i ki_copies). split.
  - intros E x Hx. apply (sum_equal (fun x => kpacked x ds) (fun x => ki_copies (kitem i x)) (seq 0 (length (kx_items i)))); [|exact E|apply in_seq; lia].
    intros y Hy. apply (vv_copies s n ds NI). apply in_seq in Hy. lia.
  - intros H. apply zsum_ext. intros x Hx. apply H. apply in_seq in Hx. lia.
Qed.

Lemma flat_volume : forall n ds, VNodeInv s n ds -> flat_items i -> vn_volume n = zsum (fun x => kpacked x ds * vol (ki_box (kitem i x))) (seq 0 (length (kx_items i))).
Proof.
  intros n ds NI Hf. rewrite (vv_volume s n ds NI). rewrite <- (sum_types i ds (fun x => vol (ki_box (kitem i x))) (inv_ids n ds NI) (vv_one s n ds NI)). apply zsum_ext. intros d Hdd.
  unfold packed_volume, kd_items. rewrite zsum_flat_map. apply zsum_ext. intros q Hq. pose proof (vb_stacks _ _ _ (vv_ok s n ds NI d Hdd) q Hq) as V.
  assert (N : zsum (fun p => ki_nesting (kitem i (fst p))) (tl (sd_items q)) = 0).
  { rewrite (zsum_ext _ (fun p => ki_nesting (kitem i (fst p))) (fun _ => 0)); [rewrite zsum_const; lia|]. intros p Hp. apply Hf, nth_In. apply (vk_item _ _ _ V). destruct (sd_items q); [destruct Hp|right; exact Hp]. }
  unfold stack_height. rewrite N, Z.sub_0_r, <- zsum_mult. apply zsum_ext. intros p Hp. destruct (vk_item _ _ _ V p Hp) as (_ & _ & X & Y). unfold base, kheight. rewrite <- X, <- Y. unfold item_size. apply rotate_vol.
Qed.

Lemma leaf_volume : forall n ds, VNodeInv s n ds -> flat_items i -> vleaf s n = true -> vn_volume n = kitem_volume i.
Proof.
  intros n ds NI Hf L. rewrite (flat_volume n ds NI Hf). unfold kitem_volume. rewrite (sum_items i (fun it => ki_copies it * vol (ki_box it))). apply zsum_ext. intros x Hx. apply in_seq in Hx.
  rewrite (proj1 (leaf_copies n ds NI) L x ltac:(lia)). reflexivity.
Qed.

(** Number of bins of the bound. *)
Lemma bins_needed_spec : forall bins k a, (forall t, In t bins -> 0 <= vol (kb_box (kbin i t))) ->
  match vbins_needed i bins k a with
  | None => zsum (fun t => vol (kb_box (kbin i t))) bins < a
  | Some k' => (k <= k')%nat /\ forall j, (j + k < k')%nat -> zsum (fun t => vol (kb_box (kbin i t))) (firstn j bins) < a
  end.
Proof.
  induction bins as [|t bins IH]; intros k a Hv; cbn [vbins_needed].
  - destruct (Z.leb_spec a 0); [split; [lia|intros j Hj; lia]|rewrite zsum_nil; lia].
  - destruct (Z.leb_spec a 0); [split; [lia|intros j Hj; lia]|]. specialize (IH (S k) (a - vol (kb_box (kbin i t))) (fun u Hu => Hv u (or_intror Hu))).
    destruct (vbins_needed i bins (S k) _) as [k'|]; [|rewrite zsum_cons; lia]. destruct IH as [L H1]. split; [lia|]. intros [|j] Hj; cbn [firstn]; [rewrite zsum_nil; lia|]. rewrite zsum_cons. specialize (H1 j ltac:(lia)). lia.
Qed.

Lemma bins_nonneg : forall t, In t (vbins i) -> 0 <= vol (kb_box (kbin i t)).
Proof. intros t Ht. destruct (In_nth _ _ 0%nat Ht) as (k & Hk & <-). apply (vol_nonneg s Hd). apply vbins_nth, Hk. Qed.

Lemma needed_le : forall m ds a, VNodeInv s m ds -> a <= vprevious i (vn_bins m) ->
  match vbins_needed i (vbins i) 0 a with None => False | Some k => (k <= vn_bins m)%nat end.
Proof.
  intros m ds a NI Ha. pose proof (bins_needed_spec (vbins i) 0 a bins_nonneg) as H. destruct (vbins_needed i (vbins i) 0 a) as [k|].
  - destruct (le_lt_dec k (vn_bins m)) as [L|L]; [exact L|]. destruct H as [_ H]. specialize (H (vn_bins m) ltac:(lia)). unfold vprevious in Ha. lia.
  - pose proof (vprevious_mono i (vn_bins m) (length (vbins i)) (fun t Ht => vol_nonneg s Hd t Ht) (vv_bound s m ds NI) (le_n _)) as M. unfold vprevious in *. rewrite firstn_all in M. lia.
Qed.

(** Overweights of the axles. *)
Lemma overweight_spec : forall inst truck axle maximum ws ms, (forall m, maximum = Some m -> (0 <= m)%Q) ->
  (0 <= voverweight inst truck axle maximum ws ms)%Q /\
  ((voverweight inst truck axle maximum ws ms <= 0)%Q ->
   forall g, (g < length ws)%nat -> kcheck_weight inst g = true -> ~ (nth g ws 0 == 0)%Q ->
   kexceeds (option_map axle (compute_axle_weights truck (nth g ms 0%Q) (nth g ws 0%Q))) maximum = false).
Proof.
  intros inst truck axle maximum ws ms Hm. unfold voverweight.
  set (step := fun v g => _).
  assert (P : forall a mx, kexceeds (Some a) (Some mx) = true -> (0 <= mx)%Q -> (0 < a - mx)%Q).
  { intros a mx E L. unfold kexceeds in E. apply Qltb_lt in E. unfold PSTOL in E. assert (mx <= mx * (1 + (1 # 1000000000)))%Q by nra. lra. }
  assert (K : forall gs v, (0 <= v)%Q -> (v <= fold_left step gs v)%Q /\ ((fold_left step gs v <= 0)%Q -> forall g, In g gs -> kcheck_weight inst g = true -> ~ (nth g ws 0 == 0)%Q ->
     kexceeds (option_map axle (compute_axle_weights truck (nth g ms 0%Q) (nth g ws 0%Q))) maximum = false)).
  { induction gs as [|g gs IH]; intros v Hv; cbn [fold_left]; [split; [lra|intros _ g []]|].
    assert (B : (v <= step v g)%Q /\ ((step v g <= v)%Q -> kcheck_weight inst g = true -> ~ (nth g ws 0 == 0)%Q ->
      kexceeds (option_map axle (compute_axle_weights truck (nth g ms 0%Q) (nth g ws 0%Q))) maximum = false)).
    { unfold step. destruct (kcheck_weight inst g); cbn [negb]; [|split; [lra|congruence]]. destruct (Qeq_bool (nth g ws 0%Q) 0) eqn:E0; [split; [lra|]; intros _ _ N; apply Qeq_bool_iff in E0; contradiction|].
      destruct (compute_axle_weights truck (nth g ms 0%Q) (nth g ws 0%Q)) as [a|]; cbn [option_map].
      - destruct (kexceeds (Some (axle a)) maximum) eqn:E; [|split; [lra|reflexivity]]. destruct maximum as [mx|]; [|discriminate]. pose proof (P _ _ E (Hm mx eq_refl)). split; [lra|intros; lra].
      - destruct (kexceeds None maximum) eqn:E; [|split; [lra|reflexivity]]. destruct maximum; discriminate. }
    destruct B as [B1 B2]. destruct (IH (step v g) ltac:(lra)) as [I1 I2]. split; [lra|]. intros L h [<-|Hh]; [apply B2; lra|apply I2; [exact L|exact Hh]]. }
  destruct (K (seq 0 (length ws)) 0%Q ltac:(lra)) as [K1 K2]. split; [exact K1|]. intros L g Hg. apply K2; [exact L|apply in_seq; lia].
Qed.

Lemma overweight_none : forall inst truck axle maximum ws ms,
  (forall g, (g < length ws)%nat -> kcheck_weight inst g = true -> ~ (nth g ws 0 == 0)%Q ->
   kexceeds (option_map axle (compute_axle_weights truck (nth g ms 0%Q) (nth g ws 0%Q))) maximum = false) ->
  voverweight inst truck axle maximum ws ms = 0%Q.
Proof.
  intros inst truck axle maximum ws ms H. unfold voverweight. assert (Hs : forall g, In g (seq 0 (length ws)) -> (g < length ws)%nat) by (intros g Hg; apply in_seq in Hg; lia).
  induction (seq 0 (length ws)) as [|g gs IH]; [reflexivity|]. cbn [fold_left]. etransitivity; [|apply IH; intros h Hh; apply Hs; right; exact Hh]. f_equal.
  destruct (kcheck_weight inst g) eqn:Ec; cbn [negb]; [|reflexivity]. destruct (Qeq_bool (nth g ws 0%Q) 0) eqn:E0; [reflexivity|]. rewrite (H g (Hs g (or_introl eq_refl)) Ec); [reflexivity|]. intros E. apply Qeq_bool_iff in E. congruence.
Qed.

End Bound.
