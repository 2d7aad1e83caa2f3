(** * The box dual feasible functions bounds are valid *)

From Coq Require Import List ZArith QArith Qminmax Bool Lia Lqa Arith Permutation Sorted Psatz.
From Verif Require Import Util Common_Model OneDim_Model Dff_Model Dff_Spec Dff_Proof Dff_Axis OneDimDff_Model OneDimDff_Proof.
From Verif Require Geom.
From Verif Require Import Dff_Pack RectDff_Proof RectDffBound_Proof Box_Model Box_Spec BoxDff_Model.
Import ListNotations.
Open Scope Z_scope.

Definition rsize (it : BItem) (r : Rotation) (a : Axis) : Z := vat (rotate (bi_box it) r) a.

Lemma rsize_spec : forall i p a, rsize (bxitem i (bp_type p)) (bp_rot p) a = bp_size i p a.
Proof. intros i p a. unfold bp_size, rsize. destruct (bp_rot p), a; reflexivity. Qed.

Lemma rsize_pos : forall it r a, (forall b, 0 < vat (bi_box it) b) -> 0 < rsize it r a.
Proof. intros it r a H. pose proof (H AX). pose proof (H AY). pose proof (H AZ). unfold rsize. destruct r, a; assumption. Qed.

Lemma gr_zero : forall p, pos_pool p -> gr 0 p = 0.
Proof.
  intros p Hp. pose proof (gr_nonneg p 0 Hp ltac:(lia)). pose proof (gr_le_capacity p 0 Hp ltac:(lia)). lia.
Qed.

(** ** The combinations of the sweep *)

Section Combos.

Variable its : list BItem.
Variable bt : BBin.
Hypothesis Hits : forall it, In it its -> (forall a, 0 < vat (bi_box it) a) /\ 1 <= bi_copies it.
Hypothesis Hbt : forall a, 2 <= vat (bn_box bt) a.

Let n := length its.
Let item (j : nat) : BItem := nth j its dummy_bitem.
Let cop (j : nat) : Z := bi_copies (item j).
Let side (a : Axis) : Z := vat (bn_box bt) a.

Lemma xitem_range : forall j, (j < n)%nat -> In (item j) its.
Proof. intros j Hj. apply nth_In. assumption. Qed.

Lemma xcop_nonneg : forall j, 0 <= cop j.
Proof.
  intro j. unfold cop, item. destruct (nth_in_or_default j its dummy_bitem) as [H|H];
    [destruct (Hits _ H) as (_ & ?); lia|rewrite H; simpl; lia].
Qed.

Lemma axis_values_in : forall it a d, In d (axis_values it a) <-> exists r, In r (bi_rotations it) /\ d = rsize it r a.
Proof.
  intros it a d. unfold axis_values. rewrite sort_unique_in, in_map_iff. split.
  - intros (r & E & H). exists r. auto.
  - intros (r & H & E). exists r. auto.
Qed.

Lemma axis_values_pos : forall it a d, In it its -> In d (axis_values it a) -> 0 < d.
Proof.
  intros it a d Hit Hd. apply axis_values_in in Hd. destruct Hd as (r & _ & ->).
  apply rsize_pos. apply (Hits it Hit).
Qed.

Lemma xthreshold_range : forall a k, In k (xthresholds its a (side a)) -> 1 <= k /\ 2 * k <= side a.
Proof.
  intros a k Hk. pose proof (Hbt a) as HC. fold (side a) in HC. unfold xthresholds in Hk.
  rewrite sort_unique_in, in_app_iff in Hk. pose proof (div2_spec (side a)) as HD. rewrite quot2 in Hk by lia.
  destruct Hk as [Hk|[<-|[]]]; [|lia].
  apply in_flat_map in Hk. destruct Hk as (it & Hit & Hk). apply in_flat_map in Hk. destruct Hk as (d & Hd & Hk).
  pose proof (axis_values_pos it a d Hit Hd).
  unfold fold_breakpoint in Hk. rewrite quot2 in Hk by lia.
  destruct (Z.ltb_spec (side a) d); [destruct Hk|].
  destruct (Z.eqb_spec d (side a)); [destruct Hk|].
  destruct (Z.leb_spec d (side a / 2)); destruct Hk as [<-|[]]; lia.
Qed.

Lemma medium_fold : forall k h, 1 <= k -> forall l b, (0 <= b -> k <= b <= h) ->
  let m := fold_left (xmedium_step k h) l b in
  (0 <= m -> k <= m <= h)
  /\ (0 <= b -> 0 <= m <= b)
  /\ (forall d, In d l -> k <= d <= h -> 0 <= m <= d).
Proof.
  intros k h Hk l. induction l as [|v l IH]; intros b Hb; cbn [fold_left].
  - cbv zeta. split; [exact Hb|]. split; [lia|]. intros d [].
  - assert (Hs : 0 <= xmedium_step k h b v -> k <= xmedium_step k h b v <= h).
    { unfold xmedium_step. destruct (Z.leb_spec k v), (Z.leb_spec v h), (Z.ltb_spec b 0), (Z.ltb_spec v b); cbn [andb orb]; lia. }
    destruct (IH (xmedium_step k h b v) Hs) as (I1 & I2 & I3). cbv zeta. cbv zeta in I1, I2, I3.
    set (m := fold_left (xmedium_step k h) l (xmedium_step k h b v)) in *. clearbody m. split; [assumption|]. split.
    + intro H0. specialize (Hb H0). revert I2.
      unfold xmedium_step. destruct (Z.leb_spec k v), (Z.leb_spec v h), (Z.ltb_spec b 0), (Z.ltb_spec v b); cbn [andb orb]; lia.
    + intros d [<-|Hd] Hdk; [|apply I3; assumption]. revert I2.
      unfold xmedium_step. destruct (Z.leb_spec k v), (Z.leb_spec v h), (Z.ltb_spec b 0), (Z.ltb_spec v b); cbn [andb orb]; lia.
Qed.

Section OneAxis.

Variable a : Axis.
Variable k : Z.
Let C := side a.
Hypothesis Hk : 1 <= k.
Hypothesis Hk2 : 2 * k <= C.

Definition xcand (j : nat) : list Z := axis_values (item j) a.
Definition xplen (j : nat) : option Z :=
  let m := xmedium_pool_length (item j) a k (C / 2) in
  if 0 <=? m then Some m else None.

Lemma side_ge : 1 <= C.
Proof. pose proof (Hbt a). unfold C, side. lia. Qed.

Lemma xplen_spec : forall j, match xplen j with
  | Some m => k <= m /\ forall d, In d (xcand j) -> k <= d -> 2 * d <= C -> m <= d
  | None => forall d, In d (xcand j) -> k <= d -> 2 * d <= C -> False
  end.
Proof.
  intro j. unfold xplen, xcand, xmedium_pool_length. pose proof (div2_spec C) as HD.
  destruct (medium_fold k (C / 2) Hk (axis_values (item j) a) (-1) ltac:(lia)) as (M1 & _ & M3). cbv zeta in M1, M3.
  set (m := fold_left _ _ _) in *. destruct (Z.leb_spec 0 m).
  - split; [lia|]. intros d Hd H1 H2. specialize (M3 d Hd). lia.
  - intros d Hd H1 H2. specialize (M3 d Hd). lia.
Qed.

Definition xp : list (Z * Z) := xpool its a C k.

Lemma xp_eq : xp = sort_pairs (axis_entries n cop xplen).
Proof.
  unfold xp, xpool, axis_entries. f_equal.
  rewrite (flat_map_seq_nth _ _ _ dummy_bitem). apply flat_map_ext. intro j.
  fold (item j). fold (cop j). pose proof side_ge. rewrite quot2 by lia. unfold xplen.
  destruct (0 <=? xmedium_pool_length (item j) a k (C / 2)); reflexivity.
Qed.

Lemma xp_pos : pos_pool xp.
Proof. apply (axis_pool_pos C n xcand cop k xplen Hk xcop_nonneg xplen_spec xp xp_eq). Qed.
Lemma xp_sorted : StronglySorted fst_le xp.
Proof. apply (axis_pool_sorted n cop xplen xp xp_eq). Qed.

Lemma xbig_in : forall j d, (j < n)%nat -> In d (xcand j) -> C / 2 < d -> d <= C -> In d (xbig_values its a C).
Proof.
  intros j d Hj Hd Hb Hc. unfold xbig_values. rewrite sort_unique_in. apply in_flat_map.
  exists (item j). split; [apply xitem_range; assumption|]. apply filter_In. split; [exact Hd|].
  pose proof side_ge. rewrite quot2 by lia. apply andb_true_iff. split; [apply Z.ltb_lt|apply Z.leb_le]; lia.
Qed.

Definition xrow_of : XRow := mkXRow k (gr C xp) (map (fun b => (b, gr (C - b) xp)) (xbig_values its a C)).

Lemma xrow_some : xrow its a C k = Some xrow_of.
Proof.
  unfold xrow. fold xp. rewrite greedy_some by apply xp_pos. cbn [bind].
  rewrite (mapo_map _ _ _ (fun b => (b, gr (C - b) xp))).
  2:{ intros b _. rewrite greedy_some by apply xp_pos. reflexivity. }
  reflexivity.
Qed.

(** The value on a length, clamped to the capacity. *)
Lemma xeval_some : forall fam j d, (j < n)%nat -> In d (xcand j) ->
  xeval_axis fam C xrow_of d = Some (FF C k xp fam (Z.min d C)) /\ 0 <= FF C k xp fam (Z.min d C).
Proof.
  intros fam j d Hj Hd. pose proof side_ge as HC. pose proof (div2_spec C) as HD.
  pose proof (axis_values_pos (item j) a d (xitem_range j Hj) Hd) as Hd0.
  split.
  2:{ apply (FF_nonneg C n xcand cop k xplen HC Hk xcop_nonneg xplen_spec xp xp_eq). lia. }
  unfold xeval_axis, xrow_of. cbn [xr_k xr_full xr_excluded]. destruct fam as [|[|fam]]; [reflexivity| |].
  - unfold xf_ccm_1_axis, FF, f_ccm_1. rewrite quot2 by lia.
    pose proof (gr_nonneg xp C xp_pos ltac:(lia)).
    destruct (Z.leb_spec C (Z.min d C)) as [HL|HL].
    + destruct (Z.ltb_spec (C / 2) C); [|lia]. destruct (Z.ltb_spec (gr C xp) 0); [lia|].
      destruct (Z.ltb_spec (C / 2) (Z.min d C)); [|lia].
      replace (C - Z.min d C) with 0 by lia. rewrite (gr_zero xp xp_pos), Z.sub_0_r. reflexivity.
    + destruct (Z.ltb_spec (C / 2) (Z.min d C)).
      * rewrite (map_at_big (fun b => gr (C - b) xp)).
        2:{ replace (Z.min d C) with d in * by lia. apply (xbig_in j d); assumption || lia. }
        cbn [bind].
        pose proof (gr_mono xp (C - Z.min d C) C xp_pos xp_sorted ltac:(lia) ltac:(lia)).
        destruct (Z.ltb_spec (gr C xp - gr (C - Z.min d C) xp) 0); [lia|reflexivity].
      * destruct (Z.ltb_spec (Z.min d C) k); reflexivity.
  - rewrite f_ccm_2_some by lia. reflexivity.
Qed.

Lemma xbin_value_some : forall fam, xbin_value fam C xrow_of = Some (FF_bin C k xp fam).
Proof.
  intro fam. apply (bin_value_some C k side_ge Hk Hk2 xp xp_pos).
Qed.

Lemma xFF_bin_nonneg : forall fam, 0 <= FF_bin C k xp fam.
Proof.
  intro fam. apply (FF_bin_nonneg C n xcand cop k xplen side_ge Hk xcop_nonneg xplen_spec xp xp_eq).
Qed.

End OneAxis.

(** A combination: a threshold and a family per axis. *)
Record xcombo_ok (k : Axis -> Z) (fam : Axis -> nat) (fc : Z * list Z) : Prop := {
  xc_k : forall a, 1 <= k a /\ 2 * k a <= side a;
  xc_bin : fst fc = Geom.prod (map (fun a => FF_bin (side a) (k a) (xp a (k a)) (fam a)) axes);
  xc_length : length (snd fc) = n;
  xc_coef : forall j r, (j < n)%nat -> In r (bi_rotations (item j)) ->
    (forall a, rsize (item j) r a <= side a) ->
    nth j (snd fc) 0 <= Geom.prod (map (fun a => FF (side a) (k a) (xp a (k a)) (fam a) (rsize (item j) r a)) axes);
  xc_nonneg : forall j, (j < n)%nat -> bi_rotations (item j) <> [] -> 0 <= nth j (snd fc) 0
}.

Definition any_xcombo (fc : Z * list Z) : Prop := exists k fam, xcombo_ok k fam fc.

Lemma best_fold : forall l b, Forall (fun v => 0 <= v) l ->
  let m := fold_left xbest_step l b in
  (0 <= b -> 0 <= m <= b) /\ (l <> [] -> 0 <= m) /\ (forall v, In v l -> m <= v).
Proof.
  induction l as [|v l IH]; intros b Hl; cbn [fold_left]; cbv zeta.
  - split; [lia|]. split; [tauto|]. intros v [].
  - inversion Hl as [|? ? Hv Hl']; subst. destruct (IH (xbest_step b v) Hl') as (I1 & I2 & I3). clear IH.
    assert (Hs : 0 <= xbest_step b v <= v /\ (0 <= b -> xbest_step b v <= b)).
    { unfold xbest_step. destruct (Z.ltb_spec b 0), (Z.ltb_spec v b); cbn [orb]; lia. }
    specialize (I1 ltac:(lia)). split; [lia|]. split; [lia|].
    intros w [<-|Hw]; [lia|apply I3; assumption].
Qed.

Lemma prod3_some : forall (f : Axis -> option Z) (g : Axis -> Z), (forall a, f a = Some (g a)) ->
  prod3 f = Some (Geom.prod (map g axes)).
Proof.
  intros f g H. unfold prod3. rewrite !H. cbn [bind]. unfold Geom.prod, axes. cbn [map fold_right].
  f_equal. ring.
Qed.

Lemma xcombo_some : forall k fam, (forall a, 1 <= k a /\ 2 * k a <= side a) ->
  exists fc, xcombo its bt (fun a => xrow_of a (k a)) fam = Some fc /\ xcombo_ok k fam fc.
Proof.
  intros k fam Hk. unfold xcombo.
  rewrite (prod3_some _ (fun a => FF_bin (side a) (k a) (xp a (k a)) (fam a))).
  2:{ intro a. apply (xbin_value_some a (k a)); apply Hk. }
  cbn [bind].
  set (val := fun it r => Geom.prod (map (fun a => FF (side a) (k a) (xp a (k a)) (fam a) (Z.min (rsize it r a) (side a))) axes)).
  rewrite (mapo_map _ _ _ (fun it => fold_left xbest_step (map (val it) (bi_rotations it)) (-1))).
  2:{ intros it Hit. destruct (In_nth _ _ dummy_bitem Hit) as (j & Hj & Ej). fold (item j) in Ej.
      unfold xitem_coefficient. rewrite (mapo_map _ _ _ (val it)); [reflexivity|].
      intros r Hr. apply prod3_some. intro a.
      apply (xeval_some a (k a) ltac:(apply Hk) ltac:(apply Hk) (fam a) j); [assumption|].
      unfold xcand. rewrite Ej. apply axis_values_in. exists r. auto. }
  cbn [bind]. eexists. split; [reflexivity|].
  assert (Hval : forall j, (j < n)%nat -> Forall (fun v => 0 <= v) (map (val (item j)) (bi_rotations (item j)))).
  { intros j Hj. apply Forall_forall. intros v Hv. apply in_map_iff in Hv. destruct Hv as (r & <- & Hr).
    apply Geom.prod_nonneg. intros x Hx. apply in_map_iff in Hx. destruct Hx as (a & <- & _).
    apply (xeval_some a (k a) ltac:(apply Hk) ltac:(apply Hk) (fam a) j); [assumption|].
    apply axis_values_in. exists r. auto. }
  assert (Hnth : forall j, (j < n)%nat ->
    nth j (map (fun it => fold_left xbest_step (map (val it) (bi_rotations it)) (-1)) its) 0
    = fold_left xbest_step (map (val (item j)) (bi_rotations (item j))) (-1)).
  { intros j Hj. rewrite (nth_indep _ 0 ((fun it => fold_left xbest_step (map (val it) (bi_rotations it)) (-1)) dummy_bitem))
      by (rewrite map_length; assumption).
    rewrite (map_nth (fun it => fold_left xbest_step (map (val it) (bi_rotations it)) (-1))). reflexivity. }
  constructor; cbn [fst snd].
  - assumption.
  - reflexivity.
  - apply map_length.
  - intros j r Hj Hr Hs. rewrite (Hnth j Hj). destruct (best_fold _ (-1) (Hval j Hj)) as (_ & _ & B3). cbv zeta in B3.
    etransitivity; [apply B3; apply in_map; exact Hr|]. unfold val. apply Z.eq_le_incl. f_equal.
    apply map_ext. intro a. rewrite Z.min_l by apply Hs. reflexivity.
  - intros j Hj Hne. rewrite (Hnth j Hj). destruct (best_fold _ (-1) (Hval j Hj)) as (_ & B2 & _). cbv zeta in B2.
    apply B2. intro E. apply map_eq_nil in E. contradiction.
Qed.

Lemma xtables_some : forall a, xtables its a (side a) = Some (map (xrow_of a) (xthresholds its a (side a))).
Proof.
  intro a. unfold xtables. apply mapo_map. intros k Hk. destruct (xthreshold_range a k Hk). apply (xrow_some a k); assumption.
Qed.

Lemma xcombos_some : exists combos, xcombos its bt = Some combos /\ Forall any_xcombo combos.
Proof.
  unfold xcombos.
  change (v_x (bn_box bt)) with (side AX). change (v_y (bn_box bt)) with (side AY). change (v_z (bn_box bt)) with (side AZ).
  rewrite !xtables_some. cbn [bind].
  match goal with |- context [mapo ?f ?l] => destruct (mapo_some _ _ f (fun _ fc => any_xcombo fc) l) as (r & E & Hr) end.
  { intros [[rx [ry rz]] [fx [fy fz]]] Hin. apply in_prod_iff in Hin. destruct Hin as [Hin _].
    apply in_prod_iff in Hin. destruct Hin as [Hx Hin]. apply in_prod_iff in Hin. destruct Hin as [Hy Hz].
    apply in_map_iff in Hx, Hy, Hz. destruct Hx as (kx & <- & Hx), Hy as (ky & <- & Hy), Hz as (kz & <- & Hz).
    destruct (xcombo_some (tri kx ky kz) (tri fx fy fz)) as (fc & E & Hfc).
    { intros []; apply xthreshold_range; assumption. }
    exists fc. split; [|exists (tri kx ky kz), (tri fx fy fz); assumption].
    rewrite <- E. unfold xcombo, prod3. reflexivity. }
  rewrite E. exists r. split; [reflexivity|]. apply (forall2_right _ _ _ _ _ Hr).
Qed.

End Combos.

(** ** A bin *)

Section OneBin.

Variable i : BInstance.
Variable bt : BBin.
Hypothesis Hits : bpositive_items i.
Hypothesis Hbt : forall a, 2 <= vat (bn_box bt) a.

Let its := bx_items i.
Let n := length its.
Let item (j : nat) : BItem := nth j its dummy_bitem.
Let cop (j : nat) : Z := bi_copies (item j).

Lemma xdim : forall ps, bgeometry_ok i bt ps -> forall p a, In p ps ->
  0 <= vat (bp_pos p) a /\ 0 < bp_size i p a /\ bp_end i p a <= vat (bn_box bt) a /\ bp_size i p a <= vat (bn_box bt) a.
Proof.
  intros ps [Hp _] p a Hin. destruct (Hp p Hin) as [T Ins R]. destruct (Ins a) as [I1 I2].
  assert (0 < bp_size i p a).
  { rewrite <- rsize_spec. apply rsize_pos. apply (Hits (bxitem i (bp_type p))). apply nth_In. assumption. }
  unfold bp_end in *. lia.
Qed.

Lemma xbin_combo : forall fc ps, any_xcombo its bt fc -> bgeometry_ok i bt ps ->
  (forall x, (x < n)%nat -> bcount x ps <= cop x) ->
  zsum (fun p => nth (bp_type p) (snd fc) 0) ps <= fst fc.
Proof.
  intros fc ps (k & fam & [K EB EL EC EN]) Hg Hcount.
  pose proof (xdim ps Hg) as Hdim. destruct Hg as [Hp Hd].
  set (g := fun a => mkGA BPlace (fun p => vat (bp_pos p) a) (fun p => bp_size i p a) (vat (bn_box bt) a) (k a)
     (xcand its a) (xplen its bt a (k a)) (fam a)).
  pose proof (packed_product BPlace bp_type n cop (xcop_nonneg its Hits) (map g axes)) as HP.
  assert (Hpool : forall a, ga_pool BPlace n cop (g a) = xp its bt a (k a)).
  { intro a. unfold ga_pool. symmetry. apply (xp_eq its bt Hbt). }
  rewrite EB. etransitivity; [|etransitivity; [apply HP|]].
  - apply zsum_le. intros p Hin. rewrite map_map.
    destruct (Hp p Hin) as [T Ins R].
    pose proof (EC (bp_type p) (bp_rot p) T R) as HE.
    etransitivity; [apply HE|].
    + intro a. change (nth (bp_type p) its dummy_bitem) with (bxitem i (bp_type p)). rewrite rsize_spec. apply (Hdim p a Hin).
    + apply Z.eq_le_incl. f_equal. apply map_ext. intro a. unfold g_value. rewrite Hpool.
      unfold g. cbn [ga_cap ga_k ga_fam ga_len].
      change (nth (bp_type p) its dummy_bitem) with (bxitem i (bp_type p)). rewrite rsize_spec. reflexivity.
  - intros x Hx. apply in_map_iff in Hx. destruct Hx as (a & <- & _). constructor; unfold g; cbn [ga_cap ga_k ga_plen ga_cand].
    + pose proof (Hbt a). lia.
    + apply K.
    + apply K.
    + apply (xplen_spec its bt a (k a)). apply K.
  - intros p Hin. apply (bk_type _ _ _ (Hp p Hin)).
  - intros j Hj. apply (Hcount j Hj).
  - intros x p Hx Hin. apply in_map_iff in Hx. destruct Hx as (a & <- & _). destruct (Hp p Hin) as [T Ins R].
    destruct (Hdim p a Hin) as (D1 & D2 & D3 & D4). unfold g. cbn [ga_len ga_cand ga_pos ga_cap].
    split; [|unfold bp_end in D3; lia].
    unfold xcand. change (nth (bp_type p) its dummy_bitem) with (bxitem i (bp_type p)).
    apply axis_values_in. exists (bp_rot p). split; [assumption|]. symmetry. apply rsize_spec.
  - eapply Geom.ord_pairs_impl; [|exact Hd]. intros p q (a & Hpq). exists (g a). split.
    + apply in_map. destruct a; simpl; auto.
    + exact Hpq.
  - rewrite map_map. apply Z.eq_le_incl. f_equal. apply map_ext. intro a. unfold g_bin. rewrite Hpool. reflexivity.
Qed.

End OneBin.

(** ** A packing *)

Lemma xbcount_nonneg : forall x ps, 0 <= bcount x ps.
Proof. intros. unfold bcount. lia. Qed.

Lemma xpacked_nonneg : forall x ds, (forall d, In d ds -> 0 <= xd_copies d) -> 0 <= bpacked x ds.
Proof. intros x ds H. apply zsum_nonneg. intros d Hd. specialize (H d Hd). pose proof (xbcount_nonneg x (xd_items d)). nia. Qed.

Lemma xpacked_in : forall ds d x, (forall d, In d ds -> 0 <= xd_copies d) -> In d ds ->
  xd_copies d * bcount x (xd_items d) <= bpacked x ds.
Proof.
  intros ds d x Hc Hd. unfold bpacked. destruct (in_split_perm _ d ds Hd) as (ds' & HP).
  rewrite (zsum_perm _ _ _ _ HP), zsum_cons.
  assert (0 <= zsum (fun d0 => xd_copies d0 * bcount x (xd_items d0)) ds'); [|lia].
  apply zsum_nonneg. intros e He. assert (In e ds) by (apply (Permutation_in e (Permutation_sym HP)); right; assumption).
  specialize (Hc e H). pose proof (xbcount_nonneg x (xd_items e)). nia.
Qed.

Lemma xpacked_sum : forall n ds (c : nat -> Z),
  (forall d, In d ds -> forall p, In p (xd_items d) -> (bp_type p < n)%nat) ->
  zsum (fun j => bpacked j ds * c j) (seq 0 n) = zsum (fun d => xd_copies d * zsum (fun p => c (bp_type p)) (xd_items d)) ds.
Proof.
  intros n ds c. unfold bpacked. induction ds as [|d l IH]; intro H.
  - apply zsum_zero. intros j _. reflexivity.
  - rewrite zsum_cons, <- IH by (intros; eauto using in_cons).
    rewrite <- (zsum_group _ bp_type (fun p => c (bp_type p)) n (xd_items d) (H d (or_introl eq_refl))), <- zsum_mult, <- zsum_plus.
    apply zsum_ext. intros j _. rewrite zsum_cons.
    assert (E : zsum (fun p => c (bp_type p)) (filter (fun p => Nat.eqb (bp_type p) j) (xd_items d)) = bcount j (xd_items d) * c j).
    { unfold bcount. clear. induction (xd_items d) as [|p l IH]; [reflexivity|]. cbn [filter].
      destruct (Nat.eqb_spec (bp_type p) j); [|assumption]. rewrite zsum_cons, IH. cbn [length]. subst. lia. }
    rewrite E. lia.
Qed.

Lemma xqpacked_sum : forall n ds (c : nat -> Q),
  (forall d, In d ds -> forall p, In p (xd_items d) -> (bp_type p < n)%nat) ->
  (qsum (fun j => inject_Z (bpacked j ds) * c j) (seq 0 n)
   == qsum (fun d => inject_Z (xd_copies d) * qsum (fun p => c (bp_type p)) (xd_items d)) ds)%Q.
Proof.
  intros n ds c. unfold bpacked. induction ds as [|d l IH]; intro H.
  - apply qsum_zero. intros j _. simpl. ring.
  - rewrite qsum_cons, <- IH by (intros; eauto using in_cons).
    rewrite <- (qsum_group _ bp_type (fun p => c (bp_type p)) n (xd_items d) (H d (or_introl eq_refl))), <- qsum_scale, <- qsum_plus.
    apply qsum_ext. intros j _. rewrite zsum_cons.
    assert (E : (qsum (fun p => c (bp_type p)) (filter (fun p => Nat.eqb (bp_type p) j) (xd_items d)) == inject_Z (bcount j (xd_items d)) * c j)%Q).
    { unfold bcount. clear. induction (xd_items d) as [|p l IH]; [simpl; ring|]. cbn [filter].
      destruct (Nat.eqb_spec (bp_type p) j); [|assumption]. rewrite qsum_cons, IH. cbn [length]. subst.
      rewrite Nat2Z.inj_succ, <- Z.add_1_l, inject_Z_plus. ring. }
    rewrite E, inject_Z_plus, inject_Z_mult. ring.
Qed.

Section Packing.

Variable i : BInstance.
Hypothesis Hits : bpositive_items i.
Hypothesis Hone : length (bx_bins i) = 1%nat.
Hypothesis Hbins : forall a, 2 <= vat (bn_box (bxbin i 0)) a.

Let n := length (bx_items i).
Let bt := bxbin i 0.

Section WithPacking.

Variable ds : list XDesc.
Hypothesis Hds : bpacking_ok i ds.

Lemma xds_bin : forall d, In d ds -> xd_type d = 0%nat /\ 1 <= xd_copies d /\ bgeometry_ok i bt (xd_items d).
Proof.
  intros d Hd. destruct (bpa_bins i ds Hds d Hd) as (H1 & H2 & H3).
  assert (E : xd_type d = 0%nat) by lia. rewrite E in H3. auto.
Qed.

Lemma xds_type : forall d, In d ds -> forall p, In p (xd_items d) -> (bp_type p < n)%nat.
Proof. intros d Hd p Hp. destruct (xds_bin d Hd) as (_ & _ & G). apply (bk_type _ _ _ (bg_places _ _ _ G p Hp)). Qed.

Lemma xds_nonneg : forall d, In d ds -> 0 <= xd_copies d.
Proof. intros d Hd. destruct (xds_bin d Hd) as (_ & ? & _). lia. Qed.

Lemma xds_count : forall d x, In d ds -> (x < n)%nat -> bcount x (xd_items d) <= bi_copies (bxitem i x).
Proof.
  intros d x Hd Hx. pose proof (bpa_copies i ds Hds x Hx).
  pose proof (xpacked_in ds d x xds_nonneg Hd).
  destruct (xds_bin d Hd) as (_ & Hc & _). pose proof (xbcount_nonneg x (xd_items d)). nia.
Qed.

Lemma xcombo_packed : forall fc, any_xcombo (bx_items i) bt fc ->
  zsum (fun j => bpacked j ds * nth j (snd fc) 0) (seq 0 n) <= bbins_used ds * fst fc.
Proof.
  intros fc Hfc. rewrite (xpacked_sum n ds _ xds_type). unfold bbins_used. rewrite Z.mul_comm, <- zsum_mult.
  apply zsum_le. intros d Hd. destruct (xds_bin d Hd) as (_ & Hc & G).
  pose proof (xbin_combo i bt Hits Hbins fc (xd_items d) Hfc G (fun x Hx => xds_count d x Hd Hx)). nia.
Qed.

Lemma xbins_nonneg : 0 <= bbins_used ds.
Proof. apply zsum_nonneg. exact xds_nonneg. Qed.

End WithPacking.

Lemma xcombine_sum : forall (cs : list Z), length cs = n ->
  zsum (fun p => bi_copies (fst p) * snd p) (combine (bx_items i) cs)
  = zsum (fun j => bi_copies (bxitem i j) * nth j cs 0) (seq 0 n).
Proof.
  intros cs Hl. unfold bxitem, n in *. revert cs Hl. generalize (bx_items i) as l.
  induction l as [|a l IH]; intros [|c cs] Hl; try discriminate; [reflexivity|].
  cbn [combine length seq]. rewrite !zsum_cons. cbn [fst snd nth]. f_equal.
  rewrite <- seq_shift, zsum_map. cbn [nth]. apply IH. simpl in Hl. lia.
Qed.

Definition xbound_of (combos : list (Z * list Z)) : Z :=
  fold_left Z.max (flat_map (xbound_combo (bx_items i)) combos) 0.

Lemma xbound_valid : forall combos ds, Forall (any_xcombo (bx_items i) bt) combos ->
  bpacking_ok i ds -> ball_packed i ds -> xbound_of combos <= bbins_used ds.
Proof.
  intros combos ds HF Hds Hall. apply fold_zmax_le; [apply xbins_nonneg; assumption|].
  intros b Hb. apply in_flat_map in Hb. destruct Hb as (fc & Hfc & Hb). rewrite Forall_forall in HF. specialize (HF fc Hfc).
  unfold xbound_combo in Hb. destruct (Z.leb_spec (fst fc) 0) as [|Hf]; [destruct Hb|]. destruct Hb as [<-|[]].
  apply ceil_div_le; [assumption|]. pose proof HF as (k & fam & HX). rewrite xcombine_sum by apply (xc_length _ _ _ _ _ HX).
  rewrite (zsum_ext _ _ (fun j => bpacked j ds * nth j (snd fc) 0)).
  - apply xcombo_packed; assumption.
  - intros j Hj. apply in_seq in Hj. rewrite Hall by (unfold n in Hj; lia). reflexivity.
Qed.

Section Knapsack.

Hypothesis Hprofit : forall it, In it (bx_items i) -> (0 <= bi_profit it)%Q.
Variable ds : list XDesc.
Hypothesis Hds : bpacking_ok i ds.
Hypothesis Hused : bbins_used ds <= bn_copies bt.

Lemma xpacked_fits : forall d p, In d ds -> In p (xd_items d) -> bfits_some_bin i (bp_type p) = true.
Proof.
  intros d p Hd Hp. destruct (xds_bin ds Hds d Hd) as (Et & _ & G).
  pose proof (xdim i bt Hits _ G p) as D. destruct (bg_places _ _ _ G p Hp) as [T Ins R].
  unfold bfits_some_bin. apply existsb_exists. exists bt. split; [apply nth_In; lia|].
  unfold bfits. apply existsb_exists. exists (bp_rot p). split; [assumption|]. apply forallb_forall. intros a _.
  apply Z.leb_le. change (rsize (bxitem i (bp_type p)) (bp_rot p) a <= vat (bn_box bt) a). rewrite rsize_spec. apply D. assumption.
Qed.

Lemma xpacked_pos : forall j, bpacked j ds <> 0 -> exists d p, In d ds /\ In p (xd_items d) /\ bp_type p = j.
Proof.
  intro j. unfold bpacked. clear. induction ds as [|d l IH]; intro H; [exfalso; apply H; reflexivity|].
  rewrite zsum_cons in H. destruct (filter (fun p => Nat.eqb (bp_type p) j) (xd_items d)) as [|p ps] eqn:E.
  - unfold bcount at 1 in H. rewrite E in H. destruct IH as (e & p & He & Hp & Ep); [simpl in H; lia|].
    exists e, p. split; [right; assumption|]. auto.
  - assert (Hin : In p (filter (fun p => Nat.eqb (bp_type p) j) (xd_items d))) by (rewrite E; left; reflexivity).
    apply filter_In in Hin. destruct Hin as [Hin Ej]. apply Nat.eqb_eq in Ej. exists d, p. split; [left; reflexivity|]. auto.
Qed.

Lemma xnot_fits : forall j, bfits_some_bin i j = false -> bpacked j ds = 0.
Proof.
  intros j H. destruct (Z.eq_dec (bpacked j ds) 0) as [E|N]; [assumption|].
  destruct (xpacked_pos j N) as (d & p & Hd & Hp & Ej). rewrite <- Ej, (xpacked_fits d p Hd Hp) in H. discriminate.
Qed.

Lemma fits_rotations : forall j, bfits_some_bin i j = true -> bi_rotations (bxitem i j) <> [].
Proof.
  intros j H E. unfold bfits_some_bin in H. apply existsb_exists in H. destruct H as (b & _ & H).
  unfold bfits in H. rewrite E in H. discriminate.
Qed.

Lemma xknapsack_combo_bound : forall fc q, any_xcombo (bx_items i) bt fc -> In q (xknapsack_combo i fc) -> (bprofit i ds <= q)%Q.
Proof.
  intros fc q Hfc Hq. unfold xknapsack_combo in Hq. destruct (Z.leb_spec (fst fc) 0) as [|Hf]; [destruct Hq|].
  destruct Hq as [<-|[]]. unfold bprofit.
  rewrite <- (xqpacked_sum n ds (fun j => bi_profit (bxitem i j)) (xds_type ds Hds)).
  set (cs := snd fc) in *.
  set (its := fun j => if bfits_some_bin i j
      then [mkDI (bi_profit (bxitem i j)) (nth j cs 0) (bi_copies (bxitem i j))] else []).
  set (cnt := fun j => if bfits_some_bin i j then [bpacked j ds] else []).
  assert (Hrange : forall s, (forall j, In j s -> (j < n)%nat) ->
    choice (flat_map its s) (flat_map cnt s)
    /\ (choice_profit (flat_map its s) (flat_map cnt s) == qsum (fun j => inject_Z (bpacked j ds) * bi_profit (bxitem i j)) s)%Q
    /\ choice_volume (flat_map its s) (flat_map cnt s) = zsum (fun j => bpacked j ds * nth j cs 0) s).
  { unfold choice. induction s as [|j s IH]; intro Hs.
    - split; [constructor|]. split; reflexivity.
    - destruct IH as (I1 & I2 & I3); [intros x Hx; apply Hs; right; assumption|].
      simpl flat_map. rewrite qsum_cons, zsum_cons. unfold its at 1 3 5, cnt at 1 3 5.
      destruct (bfits_some_bin i j) eqn:Ef.
      + simpl app. rewrite choice_profit_cons, choice_volume_cons, I2, I3. cbn [di_profit di_volume di_copies].
        split; [constructor; [|exact I1]|split; [ring|lia]].
        cbn [di_copies]. pose proof (xpacked_nonneg j ds (xds_nonneg ds Hds)).
        pose proof (bpa_copies i ds Hds j (Hs j (or_introl eq_refl))). lia.
      + simpl app. rewrite (xnot_fits j Ef). split; [exact I1|]. split; [rewrite I2; simpl; ring|lia]. }
  destruct (Hrange (seq 0 n)) as (H1 & H2 & H3); [intros j Hj; apply in_seq in Hj; lia|].
  rewrite <- H2. change (xdantzig_items i cs) with (flat_map its (seq 0 n)).
  pose proof (xbins_nonneg ds Hds) as HU.
  apply dantzig_upper; [|exact H1| |].
  - apply Forall_forall. intros it Hit. apply in_flat_map in Hit. destruct Hit as (j & Hj & Hit).
    apply in_seq in Hj. unfold its in Hit. destruct (bfits_some_bin i j) eqn:Ef; [|destruct Hit].
    destruct Hit as [<-|[]]. cbn [di_profit di_volume di_copies].
    assert (Hin : In (bxitem i j) (bx_items i)) by (apply nth_In; unfold n in Hj; lia).
    destruct (Hits _ Hin) as (_ & Hc). split; [apply Hprofit; assumption|].
    split; [|lia]. destruct Hfc as (k & fam & HR). apply (xc_nonneg _ _ _ _ _ HR); [unfold n in Hj; lia|].
    apply fits_rotations. assumption.
  - rewrite <- inject_Z_mult. apply inj_nonneg. unfold bt in Hused. nia.
  - rewrite <- inject_Z_mult, <- Zle_Qle, H3. pose proof (xcombo_packed ds Hds fc Hfc) as HP.
    fold cs in HP. unfold bt in Hused. nia.
Qed.

Lemma xpenalties_bound : (- qsum (bpenalties i) ds <= xnegative_penalty_sum i)%Q.
Proof.
  unfold xnegative_penalty_sum. unfold bt in Hused.
  destruct (bx_bins i) as [|bt0 [|bt' l]] eqn:E; simpl in Hone; try discriminate. cbn [fold_left].
  assert (Ebt : bxbin i 0 = bt0) by (unfold bxbin; rewrite E; reflexivity).
  destruct (negative_sum_le (bn_resources bt0) (fun _ => true)) as [_ N0].
  assert (HS : (- qsum (bpenalties i) ds <= inject_Z (bbins_used ds) * negative_penalty_sum (bn_resources bt0))%Q).
  { assert (HT : forall d, In d ds -> xd_type d = 0%nat /\ 1 <= xd_copies d).
    { intros d Hd. destruct (bpa_bins i ds Hds d Hd) as (A & B & _). rewrite E in A. simpl in A. split; [lia|assumption]. }
    unfold bbins_used. revert HT. clear -N0 Ebt. induction ds as [|d l IH]; intro HT.
    - simpl. change (inject_Z 0) with 0%Q. lra.
    - rewrite qsum_cons, zsum_cons, inject_Z_plus.
      specialize (IH (fun e He => HT e (or_intror He))).
      destruct (HT d (or_introl eq_refl)) as [Et Hpos].
      assert (HP : (- bpenalties i d <= negative_penalty_sum (bn_resources bt0))%Q).
      { unfold bpenalties. rewrite Et, Ebt.
        apply (negative_sum_le (bn_resources bt0) (fun r => Qltb (res_capacity r) (bconsumption i r (xd_items d)))). }
      assert (1 <= inject_Z (xd_copies d))%Q by (change 1%Q with (inject_Z 1); rewrite <- Zle_Qle; assumption).
      nra. }
  rewrite Ebt in Hused.
  assert (inject_Z (bbins_used ds) <= inject_Z (bn_copies bt0))%Q by (rewrite <- Zle_Qle; assumption).
  nra.
Qed.

Lemma xknapsack_valid : forall combos q, Forall (any_xcombo (bx_items i) bt) combos ->
  fold_left min_bound (flat_map (xknapsack_combo i) combos) None = Some q ->
  (bnet_profit i ds <= q + xnegative_penalty_sum i)%Q.
Proof.
  intros combos q H E.
  assert (HQ : (bprofit i ds <= q)%Q).
  { assert (G : forall l (b : option Q) m, (match b with Some q => (m <= q)%Q | None => True end) ->
      (forall x, In x l -> (m <= x)%Q) ->
      match fold_left min_bound l b with Some q => (m <= q)%Q | None => True end).
    { induction l as [|x l IH]; intros b m Hb Hl; simpl; [assumption|]. apply IH.
      - unfold min_bound. specialize (Hl x (or_introl eq_refl)). destruct b; [apply Q.min_glb; assumption|assumption].
      - intros y Hy. apply Hl. right. assumption. }
    specialize (G (flat_map (xknapsack_combo i) combos) None (bprofit i ds) I). rewrite E in G. apply G.
    intros x Hx. apply in_flat_map in Hx. destruct Hx as (fc & Hfc & Hx). rewrite Forall_forall in H.
    apply (xknapsack_combo_bound fc); auto. }
  unfold bnet_profit. pose proof xpenalties_bound as HP. lra.
Qed.

End Knapsack.

End Packing.
