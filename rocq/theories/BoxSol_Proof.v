(** * Proofs about the box solution

    The counters shared with the onedimensional solution are obtained from it:
    the loop does the same thing on the instance whose lengths are the volumes. *)

From Coq Require Import List ZArith QArith Bool Lia Arith Lqa.
From Verif Require Import Util Common_Model Common_Spec OneDim_Model OneDim_Spec OneDim_Proof.
From Verif Require Import Box_Model Box_Spec BoxSol_Model BoxSol_Spec FormatterDet_Proof RectSol_Proof OneDim_Order.
Import ListNotations.
Open Scope Z_scope.

Definition xproj_item (it : BItem) : ItemType :=
  mkIT (bi_vol it) (bi_profit it) (bi_copies it) (bi_copies_min it) (bi_weight it) 0 0 None (-1) (bi_resource_ids it).
Definition xproj_bin (bt : BBin) : BinType :=
  mkBT (bn_vol bt) (bn_cost bt) (bn_copies bt) (bn_copies_min bt) None [] (bn_resources bt) [].
Definition xproj (i : BInstance) : Instance :=
  mkInst (bx_objective i) (map xproj_item (bx_items i)) (map xproj_bin (bx_bins i))
    [] [] 0 0 0 0 0 0 None 0 false.
Definition xpdesc (d : XDesc) : BinDesc := mkBD (xd_type d) (xd_copies d) (map bp_type (xd_items d)).

Lemma xproj_item_type : forall i x, item_type (xproj i) x = xproj_item (bxitem i x).
Proof. intros i x. unfold item_type, bxitem. cbn [in_item_types xproj]. change dummy_item with (xproj_item dummy_bitem). apply map_nth. Qed.
Lemma xproj_bin_type : forall i t, bin_type (xproj i) t = xproj_bin (bxbin i t).
Proof. intros i t. unfold bin_type, bxbin. cbn [in_bin_types xproj]. change dummy_bin with (xproj_bin dummy_bbin). apply map_nth. Qed.
Lemma xproj_items_length : forall i, length (in_item_types (xproj i)) = length (bx_items i).
Proof. intro i. apply map_length. Qed.
Lemma xproj_bins_length : forall i, length (in_bin_types (xproj i)) = length (bx_bins i).
Proof. intro i. apply map_length. Qed.

(** The resource loop does not look at the profit. *)

Record XSimLoop (rl : XLoop) (lo : Loop) : Prop := {
  xsl_res : xl_resources rl = lo_resources lo;
  xsl_cib : xl_copies_in_bin rl = lo_copies_in_bin lo;
  xsl_nit : xl_number_of_items rl = lo_number_of_items lo;
  xsl_area : xl_item_volume rl = lo_item_length lo;
  xsl_profit : (xl_item_profit rl == lo_item_profit lo)%Q;
  xsl_ic : xl_item_copies rl = lo_item_copies lo;
  xsl_rok : xl_resource_ok rl = lo_resource_ok lo
}.

Lemma xsim_step : forall i t n last area rl lo p,
  XSimLoop rl lo -> XSimLoop (xitem_step i t n last area rl p) (item_step (xproj i) t n lo (mkSI (bp_type p) 0)).
Proof.
  intros i t n last area rl lo p [H1 H2 H3 H4 H5 H6 H7].
  unfold xitem_step, item_step. cbn [si_type]. rewrite xproj_item_type, xproj_bin_type. cbn [it_resource_ids xproj_item].
  destruct (fold_left (resource_step (xproj_bin (bxbin i t)) _ _) _ _) as [[u' p'] ok'] eqn:E.
  destruct (resource_fold_shift _ _ _ _ _ _ _ _ _ _ (xl_item_profit rl + inject_Z n * bi_profit (bxitem i (bp_type p)))%Q
    (inject_Z n * bi_profit (bxitem i (bp_type p)))%Q E) as (q' & E' & Eq).
  { rewrite H5. reflexivity. }
  change (xresource_step (bxbin i t)) with (resource_step (xproj_bin (bxbin i t))).
  rewrite H1, H2, H7. rewrite E'.
  constructor; cbn [xl_resources xl_copies_in_bin xl_number_of_items xl_item_volume xl_item_profit xl_item_copies
    xl_resource_ok lo_resources lo_copies_in_bin lo_number_of_items lo_item_length lo_item_profit lo_item_copies
    lo_resource_ok it_length it_profit xproj_item]; try congruence.
  change (vol (bi_box (bxitem i (bp_type p)))) with (bi_vol (bxitem i (bp_type p))). congruence.
Qed.

Lemma xsim_fold : forall i t n last area ps rl lo,
  XSimLoop rl lo -> XSimLoop (fold_left (xitem_step i t n last area) ps rl)
    (fold_left (item_step (xproj i) t n) (map (fun p => mkSI (bp_type p) 0) ps) lo).
Proof. intros i t n last area ps. induction ps as [|p ps IH]; intros rl lo H; [exact H|]. cbn [fold_left map]. apply IH, xsim_step, H. Qed.

(** ** The rest of the loop *)

Record XLoopRest (i : BInstance) (t : nat) (n : Z) (last : bool) (area : Z) (ps : list BPlace) (lo0 lo : XLoop) : Prop := {
  xlr_weight : (xl_item_weight lo == xl_item_weight lo0
    + inject_Z n * qsum (fun p => bi_weight (bxitem i (bp_type p))) ps)%Q;
  xlr_bin : (xl_weight lo == xl_weight lo0 + qsum (fun p => bi_weight (bxitem i (bp_type p))) ps
    /\ xl_profit lo == xl_profit lo0 + qsum (fun p => bi_profit (bxitem i (bp_type p))) ps)%Q;
  xlr_max : forall a, vat (xl_max lo) a = if last then Z.max (vat (xl_max lo0) a) (extent i a ps) else vat (xl_max lo0) a;
  xlr_volume : last = true -> ps <> [] -> xl_volume lo = area - bn_vol (bxbin i t) + vol (xl_max lo)
    /\ xl_leftover lo = area - xl_volume lo
}.

Lemma extent_nonneg : forall i a ps, 0 <= extent i a ps.
Proof. intros i a ps. unfold extent. induction ps as [|p ps IH]; simpl; lia. Qed.
Lemma extent_snoc : forall i a ps p, extent i a (ps ++ [p]) = Z.max (extent i a ps) (Z.max (bp_end i p a) 0).
Proof. intros. unfold extent. rewrite map_app, fold_max_app. reflexivity. Qed.
Lemma rotate_at : forall i p a, vat (rotate (bi_box (bxitem i (bp_type p))) (bp_rot p)) a = bp_size i p a.
Proof. intros i p a. unfold bp_size. destruct (bp_rot p), a; reflexivity. Qed.
Lemma vat_vadd : forall u v a, vat (vadd u v) a = vat u a + vat v a.
Proof. intros u v []; reflexivity. Qed.
Lemma vat_vmax : forall u v a, vat (vmax u v) a = Z.max (vat u a) (vat v a).
Proof. intros u v []; reflexivity. Qed.

Lemma xloop_rest : forall i t n last area lo0 ps, (forall a, 0 <= vat (xl_max lo0) a) ->
  XLoopRest i t n last area ps lo0 (fold_left (xitem_step i t n last area) ps lo0).
Proof.
  intros i t n last area lo0 ps Hx. induction ps as [|p ps IH] using rev_ind.
  - constructor; cbn [fold_left].
    + unfold qsum; simpl. ring.
    + unfold qsum; simpl. split; ring.
    + intro a. specialize (Hx a). destruct last; unfold extent; simpl; lia.
    + congruence.
  - rewrite fold_left_app. cbn [fold_left]. set (lo := fold_left _ ps lo0) in *.
    destruct IH as [I1 [I1b I1c] I2 I3]. unfold xitem_step.
    destruct (fold_left (xresource_step _ _ _) _ _) as [[u' p'] ok'].
    constructor; cbn [xl_item_weight xl_weight xl_profit xl_max xl_volume xl_leftover].
    + rewrite qsum_snoc, I1. ring.
    + rewrite !qsum_snoc, I1b, I1c. split; ring.
    + intro a. specialize (I2 a). destruct last; [|exact I2].
      rewrite vat_vmax, vat_vadd, rotate_at, I2, extent_snoc. unfold bp_end. pose proof (extent_nonneg i a ps). specialize (Hx a). lia.
    + intros -> _. split; reflexivity.
Qed.

(** ** One update *)

Definition xdesc_ok (i : BInstance) (d : XDesc) : Prop :=
  (xd_type d < length (bx_bins i))%nat /\
  (forall p, In p (xd_items d) -> (bp_type p < length (bx_items i))%nat) /\ 0 <= xd_copies d.

Record XMatch (rc : XCore) (c : Core) : Prop := {
  xma_nb : xc_number_of_bins rc = c_number_of_bins c;
  xma_ni : xc_number_of_items rc = c_number_of_items c;
  xma_ba : xc_bin_volume rc = c_bin_length c;
  xma_ia : xc_item_volume rc = c_item_length c;
  xma_pr : (xc_item_profit rc == c_item_profit c)%Q;
  xma_co : xc_bin_cost rc = c_bin_cost c;
  xma_bc : xc_bin_copies rc = c_bin_copies c;
  xma_ic : xc_item_copies rc = c_item_copies c;
  xma_ro : xc_resource_ok rc = c_resource_ok c
}.

Record XInv (i : BInstance) (ds : list XDesc) (rc : XCore) : Prop := {
  xv_core : exists c, CoreInv (xproj i) (map xpdesc ds) c /\ XMatch rc c;
  xv_weight : (xc_item_weight rc
    == qsum (fun d => inject_Z (xd_copies d) * qsum (fun p => bi_weight (bxitem i (bp_type p))) (xd_items d)) ds)%Q;
  xv_area : xc_bin_area rc
    = zsum (fun d => xd_copies d * (v_x (bn_box (bxbin i (xd_type d))) * v_y (bn_box (bxbin i (xd_type d))))) ds;
  xv_max_weight : match xc_bin_weight rc with
    | Some w => (forall d, In d ds -> bn_max_weight (bxbin i (xd_type d)) <> None) /\
        (w == qsum (fun d => inject_Z (xd_copies d)
            * match bn_max_weight (bxbin i (xd_type d)) with Some m => m | None => 0 end) ds)%Q
    | None => exists d, In d ds /\ bn_max_weight (bxbin i (xd_type d)) = None
    end;
  xv_z : 0 <= v_z (xc_max rc)
}.

Lemma xwf_proj : forall i, xwf_resources i -> wf_resource_ids (xproj i).
Proof.
  intros i H x t Hx Ht. rewrite xproj_items_length in Hx. rewrite xproj_bins_length in Ht.
  rewrite xproj_item_type, xproj_bin_type. exact (H x t Hx Ht).
Qed.

Lemma xpdesc_ok : forall i d, xdesc_ok i d -> desc_ok (xproj i) (xpdesc d).
Proof.
  intros i d (H1 & H2 & H3). split; [rewrite xproj_bins_length; exact H1|]. split; [|exact H3].
  intros x Hx. cbn [bd_items xpdesc] in Hx. apply in_map_iff in Hx. destruct Hx as (p & <- & Hp). rewrite xproj_items_length. apply H2. assumption.
Qed.



Lemma xupdate_inv : forall i cb ds s pos b, xwf_resources i -> XInv i ds (xsol_core s) ->
  (forall d, In d ds -> xdesc_ok i d) -> nth_error (xc_bins (xsol_core s)) pos = Some b -> xdesc_ok i (xview_bin b) ->
  XInv i (ds ++ [xview_bin b]) (xsol_core (xupdate i cb pos s)).
Proof.
  intros i cb ds s pos b Hwf [(c & HC & HM) HW HA HMW HZ] Hds Hb Hd.
  set (b0 := raw_bin (xs_type b) (xs_copies b) (map (fun p => mkSI (bp_type p) 0) (xs_items b))).
  set (s0 := with_bins (mkSol c true true) [b0]).
  assert (Hv : view_bin b0 = xpdesc (xview_bin b)).
  { unfold view_bin, b0, xpdesc, xview_bin. cbn. rewrite map_map. reflexivity. }
  assert (Hd' : desc_ok (xproj i) (view_bin b0)) by (rewrite Hv; apply xpdesc_ok; assumption).
  assert (Hds' : forall d, In d (map xpdesc ds) -> desc_ok (xproj i) d).
  { intros d Hin. apply in_map_iff in Hin. destruct Hin as (d0 & <- & Hin). apply xpdesc_ok, Hds, Hin. }
  destruct (update_core (xproj i) accept_all (xwf_proj i Hwf) (map xpdesc ds) s0 0 b0
    (core_inv_rebins _ _ (mkSol c true true) [b0] HC) Hds' eq_refl Hd' (Qeq_refl _)) as (U & _).
  unfold xupdate. rewrite Hb.
  match goal with |- context [fold_left (xitem_step i (xs_type b) (xs_copies b) ?l ?a) (xs_items b) ?x] =>
    set (lb := l); set (ar := a); set (lo0 := x) end.
  assert (Hpos : forall a, 0 <= vat (xl_max lo0) a) by (intros []; cbn; lia).
  pose proof (xloop_rest i (xs_type b) (xs_copies b) lb ar lo0 (xs_items b) Hpos) as [R1 _ R2 _].
  cbn [xsol_core]. constructor.
  - exists (s_core (update_indicators (xproj i) accept_all 0 s0)). split.
    + rewrite map_app. cbn [map]. rewrite <- Hv. exact U.
    + destruct HM as [M1 M2 M3 M4 M5 M6 M7 M8 M9].
      unfold update_indicators. cbn [s0 with_bins s_core c_bins nth_error].
      match goal with |- context [fold_left (item_step (xproj i) _ _) _ ?x] => set (l0 := x) end.
      assert (S0 : XSimLoop lo0 l0).
      { unfold lo0, l0. constructor; cbn [xl_resources xl_copies_in_bin xl_number_of_items xl_item_volume xl_item_profit xl_item_copies
          xl_resource_ok lo_resources lo_copies_in_bin lo_number_of_items lo_item_length lo_item_profit lo_item_copies lo_resource_ok
          c_number_of_items c_item_length c_item_profit c_item_copies c_resource_ok]; try assumption.
        - unfold b0. cbn [sb_type raw_bin]. rewrite xproj_bin_type. reflexivity.
        - rewrite xproj_items_length. reflexivity. }
      pose proof (xsim_fold i (xs_type b) (xs_copies b) lb ar (xs_items b) lo0 l0 S0) as [S1 S2 S3 S4 S5 S6 S7].
      change (sb_type b0) with (xs_type b). change (sb_copies b0) with (xs_copies b).
      change (sb_items b0) with (map (fun p => mkSI (bp_type p) 0) (xs_items b)).
      constructor; cbn [s_core xc_number_of_bins xc_number_of_items xc_bin_volume xc_item_volume xc_item_profit xc_bin_cost
        xc_bin_copies xc_item_copies xc_resource_ok c_number_of_bins c_number_of_items c_bin_length c_item_length
        c_item_profit c_bin_cost c_bin_copies c_item_copies c_resource_ok]; try assumption.
      * rewrite M1. reflexivity.
      * rewrite xproj_bin_type. cbn [bt_length xproj_bin]. unfold ar. rewrite M3. reflexivity.
      * rewrite xproj_bin_type. cbn [bt_cost xproj_bin]. rewrite M6. reflexivity.
      * rewrite M7. reflexivity.
  - cbn [xc_item_weight]. rewrite qsum_snoc, R1. unfold lo0. cbn [xl_item_weight]. rewrite HW. reflexivity.
  - cbn [xc_bin_area]. rewrite zsum_snoc, HA. reflexivity.
  - cbn [xc_bin_weight]. destruct (xc_bin_weight (xsol_core s)) as [w|]; cbn [xadd_bin_weight].
    + destruct HMW as [W1 W2]. destruct (bn_max_weight (bxbin i (xs_type b))) as [m|] eqn:Em.
      * split.
        -- intros d Hin. apply in_snoc in Hin. destruct Hin as [Hin| ->]; [auto|]. cbn [xd_type xview_bin]. congruence.
        -- rewrite qsum_snoc, W2. cbn [xd_type xd_copies xview_bin]. rewrite Em. reflexivity.
      * exists (xview_bin b). split; [apply in_or_app; right; left; reflexivity|exact Em].
    + destruct HMW as (d & D1 & D2). exists d. split; [apply in_or_app; left; exact D1|exact D2].
  - cbn [xc_max]. specialize (R2 AZ). cbn [vat] in R2. rewrite R2. unfold lo0. cbn [xl_max v_z].
    pose proof (extent_nonneg i AZ (xs_items b)). destruct lb; lia.
Qed.

(** ** Back to the rectangle vocabulary *)

Lemma xcount_pl : forall x ps, count_occ Nat.eq_dec (map bp_type ps) x = Z.to_nat (bcount x ps).
Proof.
  intros x ps. unfold bcount. rewrite Nat2Z.id. induction ps as [|p ps IH]; [reflexivity|]. cbn [map count_occ filter].
  destruct (Nat.eq_dec (bp_type p) x) as [E|E].
  - rewrite E, Nat.eqb_refl. cbn [length]. rewrite IH. reflexivity.
  - apply Nat.eqb_neq in E. rewrite E. exact IH.
Qed.
Lemma xcount_nonneg : forall x ps, 0 <= bcount x ps.
Proof. intros. unfold bcount. lia. Qed.

Lemma xproj_consumption : forall i r ps, consumption (xproj i) r (map bp_type ps) = bconsumption i r ps.
Proof.
  intros i r ps. unfold consumption, bconsumption. rewrite xproj_items_length.
  induction (seq 0 (length (bx_items i))) as [|x l IH]; [reflexivity|]. cbn [qsum fold_right]. unfold qsum in IH. rewrite IH.
  rewrite xcount_pl. reflexivity.
Qed.

Lemma xproj_packed : forall x ds, packed x (map xpdesc ds) = bpacked x ds.
Proof.
  intros x ds. unfold packed, bpacked. rewrite zsum_map'. apply zsum_ext. intros d _. cbn [bd_copies bd_items xpdesc].
  rewrite xcount_pl, Z2Nat.id by apply xcount_nonneg. reflexivity.
Qed.
Lemma xproj_used : forall t ds, used_bins t (map xpdesc ds) = bused_bins t ds.
Proof. intros t ds. unfold used_bins, bused_bins. rewrite zsum_map'. reflexivity. Qed.

Lemma xsane_proj : forall i, xsane_resources i -> sane_resources (xproj i).
Proof.
  intros i H bt r Hbt Hr. cbn [in_bin_types xproj] in Hbt. apply in_map_iff in Hbt. destruct Hbt as (bt0 & <- & Hbt).
  exact (H bt0 r Hbt Hr).
Qed.

Lemma xinv_indicators : forall i ds rc, XInv i ds rc -> XIndicators i ds rc.
Proof.
  intros i ds rc [(c & [[I1 I2 I3 I4 I5 I6 I7 I8 I9] _ _ _ _ _ _ _ _ _] & [M1 M2 M3 M4 M5 M6 M7 M8 M9]) HW HA HMW HZ]. constructor.
  - rewrite M1, I1, zsum_map'. reflexivity.
  - rewrite M2, I2, zsum_map'. apply zsum_ext. intros d _. cbn [bd_copies bd_items xpdesc]. rewrite map_length. reflexivity.
  - rewrite M3, I3, zsum_map'. apply zsum_ext. intros d _. cbn [bd_copies bd_type xpdesc]. rewrite xproj_bin_type. reflexivity.
  - rewrite M4, I4, zsum_map'. apply zsum_ext. intros d _. cbn [bd_copies bd_items xpdesc]. rewrite zsum_map'.
    f_equal. apply zsum_ext. intros p _. rewrite xproj_item_type. reflexivity.
  - exact HA.
  - exact HMW.
  - rewrite M6, I5, qsum_map'. apply qsum_ext. intros d _. cbn [bd_copies bd_type xpdesc]. rewrite xproj_bin_type. reflexivity.
  - exact HW.
  - intro Hs. rewrite M5, (I6 (xsane_proj i Hs)), qsum_map'. unfold bnet_profit, bprofit.
    rewrite (qsum_ext _ _ (fun d => (inject_Z (xd_copies d) * qsum (fun p => bi_profit (bxitem i (bp_type p))) (xd_items d)
      + (- bpenalties i d))%Q)).
    + rewrite qsum_plus.
      assert (E : (qsum (fun d => - bpenalties i d) ds == - qsum (bpenalties i) ds)%Q).
      { clear. induction ds as [|d ds IH]; [reflexivity|]. cbn [qsum fold_right]. unfold qsum in IH. rewrite IH. ring. }
      rewrite E. ring.
    + intros d _. cbn [bd_copies bd_items xpdesc]. rewrite qsum_map'.
      assert (E1 : (qsum (fun x => it_profit (item_type (xproj i) (bp_type x))) (xd_items d)
        == qsum (fun p => bi_profit (bxitem i (bp_type p))) (xd_items d))%Q).
      { apply qsum_ext. intros p _. rewrite xproj_item_type. reflexivity. }
      rewrite E1. assert (E2 : (penalties (xproj i) (xpdesc d) == bpenalties i d)%Q).
      { unfold penalties, bpenalties. cbn [bd_type bd_items xpdesc]. rewrite xproj_bin_type. cbn [bt_resources xproj_bin].
        apply qsum_ext. intros r _. rewrite xproj_consumption. reflexivity. }
      rewrite E2. ring.
  - intros t Ht. rewrite M7, I7 by (rewrite xproj_bins_length; assumption). apply xproj_used.
  - intros x Hx. rewrite M8, I8 by (rewrite xproj_items_length; assumption). apply xproj_packed.
Qed.


Lemma xinv_resources : forall i ds rc, XInv i ds rc ->
  (xc_resource_ok rc = true <-> forall d, In d ds -> xresources_ok i d).
Proof.
  intros i ds rc [(c & HC & HM) _ _ _ _]. rewrite (xma_ro _ _ HM), (ci_res _ _ _ HC). unfold xresources_ok. split.
  - intros H d Hd r Hr Hp. specialize (H (xpdesc d) (in_map _ _ _ Hd) r). cbn [bd_type bd_items xpdesc] in H.
    rewrite xproj_bin_type in H. specialize (H Hr Hp). apply prefall_map in H.
    intros p x q E Hs. rewrite <- xproj_consumption, map_app. exact (H p x q E Hs).
  - intros H d Hd r Hr Hp. apply in_map_iff in Hd. destruct Hd as (d0 & <- & Hd). cbn [bd_type bd_items xpdesc] in *.
    rewrite xproj_bin_type in Hr. apply prefall_map. intros p x q E Hs.
    change [bp_type x] with (map bp_type [x]). rewrite <- map_app, xproj_consumption. exact (H d0 Hd r Hr Hp p x q E Hs).
Qed.

Lemma xmissing_zero : forall i l, xcount_missing i l = 0 <->
  forall x, (x < length (bx_items i))%nat -> bi_copies_min (bxitem i x) <= nth x l 0.
Proof.
  intros i l. unfold xcount_missing. rewrite (count_fold _ (fun x => nth x l 0 <? bi_copies_min (bxitem i x))), Z.add_0_l. split.
  - intros H x Hx. destruct (Z.ltb_spec (nth x l 0) (bi_copies_min (bxitem i x))) as [Hlt|]; [|assumption]. exfalso.
    assert (Hin : In x (filter (fun x => nth x l 0 <? bi_copies_min (bxitem i x)) (seq 0 (length (bx_items i)))))
      by (apply filter_In; split; [apply in_seq; lia|apply Z.ltb_lt; assumption]).
    destruct (filter _ _); [destruct Hin|simpl length in H; lia].
  - intro H. destruct (filter _ _) as [|x l'] eqn:E; [reflexivity|]. exfalso.
    assert (Hin : In x (x :: l')) by (left; reflexivity). rewrite <- E in Hin. apply filter_In in Hin.
    destruct Hin as [H1 H2]. apply in_seq in H1. apply Z.ltb_lt in H2. specialize (H x ltac:(lia)). lia.
Qed.

Lemma xcopies_ok_iff : forall i l, xitem_copies_ok i l = true <->
  forall x, (x < length (bx_items i))%nat -> nth x l 0 <= bi_copies (bxitem i x).
Proof.
  intros i l. unfold xitem_copies_ok. rewrite forallb_forall. split.
  - intros H x Hx. apply Z.leb_le, H, in_seq. lia.
  - intros H x Hx. apply in_seq in Hx. apply Z.leb_le, H. lia.
Qed.

(** ** Flags, bins and extent after an update *)

Definition XLastOK (i : BInstance) (s : XSolution) (d : XDesc) : Prop :=
  let c := xsol_core s in
  v_x (xc_max c) = extent i AX (xd_items d) /\ v_y (xc_max c) = extent i AY (xd_items d) /\
  (xd_items d <> [] ->
   xc_volume c = xc_bin_volume c - bn_vol (bxbin i (xd_type d)) + vol (xc_max c) /\
   xc_leftover c = xc_bin_volume c - xc_volume c).

Lemma xupdate_flags : forall i cb s pos b, nth_error (xc_bins (xsol_core s)) pos = Some b -> 0 <= v_z (xc_max (xsol_core s)) ->
  let s' := xupdate i cb pos s in
  xsol_callback_ok s' = cb (xsol_core s') /\
  (xsol_feasible s' = true <->
     (forall x, (x < length (bx_items i))%nat ->
        bi_copies_min (bxitem i x) <= nth x (xc_item_copies (xsol_core s')) 0 <= bi_copies (bxitem i x)) /\
     xc_resource_ok (xsol_core s') = true /\ xsol_callback_ok s' = true) /\
  (exists b', xc_bins (xsol_core s') = upd pos (fun _ => b') (xc_bins (xsol_core s)) /\ xview_bin b' = xview_bin b
     /\ (xs_weight b' == xs_weight b + qsum (fun p => bi_weight (bxitem i (bp_type p))) (xs_items b)
     /\ xs_profit b' == xs_profit b + qsum (fun p => bi_profit (bxitem i (bp_type p))) (xs_items b))%Q) /\
  (S pos = length (xc_bins (xsol_core s)) -> XLastOK i s' (xview_bin b) /\
     v_z (xc_max (xsol_core s')) = Z.max (v_z (xc_max (xsol_core s))) (extent i AZ (xs_items b))) /\
  (S pos <> length (xc_bins (xsol_core s)) -> v_z (xc_max (xsol_core s')) = v_z (xc_max (xsol_core s))).
Proof.
  intros i cb s pos b Hb HZ s'. unfold s', xupdate. rewrite Hb.
  match goal with |- context [fold_left (xitem_step i (xs_type b) (xs_copies b) ?l ?a) (xs_items b) ?x] =>
    set (lb := l); set (ar := a); set (lo0 := x) end.
  assert (Hpos : forall a, 0 <= vat (xl_max lo0) a) by (intros []; cbn; lia).
  pose proof (xloop_rest i (xs_type b) (xs_copies b) lb ar lo0 (xs_items b) Hpos) as [_ R1 R2 R3].
  set (lo := fold_left _ _ lo0) in *.
  split; [reflexivity|]. split; [|split; [|split]].
  - cbn [xsol_feasible xsol_core xc_item_copies xc_resource_ok xsol_callback_ok]. rewrite !andb_true_iff, Z.eqb_eq, xmissing_zero, xcopies_ok_iff.
    split.
    + intros (((A & B) & C) & D). split; [|split; assumption]. intros x Hx. split; [apply D; assumption|apply A; assumption].
    + intros (A & B & C). split; [split; [split|]|]; try assumption; intros x Hx; apply (A x Hx).
  - eexists. split; [reflexivity|]. split; [reflexivity|exact R1].
  - intro Hlast. assert (El : lb = true) by (unfold lb; apply Nat.eqb_eq; lia). rewrite El in *.
    pose proof (R2 AX) as RX. pose proof (R2 AY) as RY. pose proof (R2 AZ) as RZ. clear R2.
    unfold lo0 in RX, RY, RZ. cbn [xl_max vat v_x v_y v_z] in RX, RY, RZ.
    pose proof (extent_nonneg i AX (xs_items b)) as N1. pose proof (extent_nonneg i AY (xs_items b)) as N2.
    split.
    + unfold XLastOK, xview_bin. cbn [xsol_core xc_max xc_volume xc_leftover xc_bin_volume xd_items xd_type].
      split; [lia|]. split; [lia|]. intro Hne. destruct (R3 eq_refl Hne) as [R4 R5]. split; [exact R4|exact R5].
    + cbn [xsol_core xc_max]. exact RZ.
  - intro Hlast. assert (El : lb = false) by (unfold lb; apply Nat.eqb_neq; lia). rewrite El in *. exact (R2 AZ).
Qed.

(** ** Whole histories *)

(** [k] bins built together, the others appended; [z]: height after the
    construction. *)
Record XFull (i : BInstance) (cb : XCallback) (k : nat) (z : Z) (s : XSolution) : Prop := {
  xf_inv : XInv i (xview s) (xsol_core s);
  xf_cb : xsol_callback_ok s = match xc_bins (xsol_core s) with [] => true | _ => cb (xsol_core s) end;
  xf_feasible : xsol_feasible s = true <->
    xcopies_ok i (xview s) /\ (forall d, In d (xview s) -> xresources_ok i d) /\ xsol_callback_ok s = true
    \/ xview s = [] /\ forall x, (x < length (bx_items i))%nat -> bi_copies_min (bxitem i x) <= 0;
  xf_last : match rev (xview s) with
    | [] => xc_max (xsol_core s) = mkV 0 0 0 /\ xc_volume (xsol_core s) = 0 /\ xc_leftover (xsol_core s) = 0
    | d :: _ => XLastOK i s d end;
  xf_each : xeach i (xsol_core s);
  xf_len : (k <= length (xview s))%nat;
  xf_z : v_z (xc_max (xsol_core s)) = Z.max z (fold_right Z.max 0 (map (fun d => extent i AZ (xd_items d)) (skipn k (xview s))))
}.

Lemma xinv_new : forall i, XInv i [] (xsol_core (xsol_new i)).
Proof.
  intro i. constructor.
  - exists (s_core (sol_new (xproj i))). split; [apply core_inv_new|].
    constructor; try reflexivity; cbn; rewrite map_length; reflexivity.
  - unfold qsum; reflexivity.
  - reflexivity.
  - split; [intros d []|unfold qsum; reflexivity].
  - cbn. lia.
Qed.

Lemma xfull_new : forall i cb, XFull i cb 0 0 (xsol_new i).
Proof.
  intros i cb. constructor.
  - apply xinv_new.
  - reflexivity.
  - unfold xsol_new, xview. cbn [xsol_feasible xsol_core xc_bins map xsol_callback_ok].
    rewrite (count_fold _ (fun it => 0 <? bi_copies_min it)), Z.add_0_l, Z.eqb_eq.
    assert (Hz : Z.of_nat (length (filter (fun it => 0 <? bi_copies_min it) (bx_items i))) = 0
      <-> forall x, (x < length (bx_items i))%nat -> bi_copies_min (bxitem i x) <= 0).
    { split.
      - intros H x Hx. destruct (Z.ltb_spec 0 (bi_copies_min (bxitem i x))) as [Hlt|]; [|assumption]. exfalso.
        assert (Hin : In (bxitem i x) (filter (fun it => 0 <? bi_copies_min it) (bx_items i)))
          by (apply filter_In; split; [apply nth_In; assumption|apply Z.ltb_lt; assumption]).
        destruct (filter _ _); [destruct Hin|simpl length in H; lia].
      - intro H. destruct (filter _ _) as [|it l'] eqn:E; [reflexivity|]. exfalso.
        assert (Hin : In it (it :: l')) by (left; reflexivity). rewrite <- E in Hin. apply filter_In in Hin.
        destruct Hin as [H1 H2]. apply Z.ltb_lt in H2. destruct (In_nth _ _ dummy_bitem H1) as (x & Hx & Ex).
        specialize (H x Hx). unfold bxitem in H. rewrite Ex in H. lia. }
    rewrite Hz. split; [intro H; right; auto|]. intros [(H & _)|[_ H]]; [|assumption].
    intros x Hx. specialize (H x Hx). unfold bpacked in H. rewrite zsum_nil in H. lia.
  - cbn. auto.
  - intros b [].
  - cbn. lia.
  - reflexivity.
Qed.

Section Hist.

Variable i : BInstance.
Variable cb : XCallback.
Hypothesis Hwf : xwf_resources i.

Lemma xfeasible_iff : forall s', XInv i (xview s') (xsol_core s') -> xview s' <> [] ->
  (xsol_feasible s' = true <->
     (forall x, (x < length (bx_items i))%nat ->
        bi_copies_min (bxitem i x) <= nth x (xc_item_copies (xsol_core s')) 0 <= bi_copies (bxitem i x)) /\
     xc_resource_ok (xsol_core s') = true /\ xsol_callback_ok s' = true) ->
  (xsol_feasible s' = true <->
    xcopies_ok i (xview s') /\ (forall d, In d (xview s') -> xresources_ok i d) /\ xsol_callback_ok s' = true
    \/ xview s' = [] /\ forall x, (x < length (bx_items i))%nat -> bi_copies_min (bxitem i x) <= 0).
Proof.
  intros s' HI Hne H. rewrite H, (xinv_resources _ _ _ HI).
  pose proof (xi_item_copies _ _ _ (xinv_indicators _ _ _ HI)) as IC.
  split.
  - intros (A & B & C). left. split; [|split; assumption]. intros x Hx. rewrite <- (IC x Hx). apply A. assumption.
  - intros [(A & B & C)|[A _]]; [|congruence]. split; [|split; assumption]. intros x Hx. rewrite (IC x Hx). apply A. assumption.
Qed.

Lemma xinv_rebins : forall ds rc bins, XInv i ds rc -> XInv i ds (xwith_bins rc bins).
Proof.
  intros ds rc bins [(c & HC & [M1 M2 M3 M4 M5 M6 M7 M8 M9]) HW HA HMW HZ]. constructor; try assumption.
  exists c. split; [exact HC|]. constructor; assumption.
Qed.

Definition xfresh (b : XSBin) : Prop := (xs_weight b == 0 /\ xs_profit b == 0)%Q.

Lemma xpush_full : forall k z s b, XFull i cb k z s -> (forall d, In d (xview s) -> xdesc_ok i d) ->
  xdesc_ok i (xview_bin b) -> xfresh b ->
  XFull i cb k z (xpush_bin i cb s b) /\ xview (xpush_bin i cb s b) = xview s ++ [xview_bin b].
Proof.
  intros k z s b [F1 F2 F3 F4 F5 F6 F7] Hds Hd [Hf1 Hf2]. unfold xpush_bin.
  set (s1 := mkXS (xwith_bins (xsol_core s) (xc_bins (xsol_core s) ++ [b])) (xsol_callback_ok s) (xsol_feasible s)).
  assert (Hb : nth_error (xc_bins (xsol_core s1)) (length (xc_bins (xsol_core s))) = Some b) by apply nth_error_snoc.
  assert (HI1 : XInv i (xview s) (xsol_core s1)) by (apply xinv_rebins; assumption).
  pose proof (xupdate_inv i cb (xview s) s1 _ b Hwf HI1 Hds Hb Hd) as U.
  destruct (xupdate_flags i cb s1 _ b Hb (xv_z _ _ _ HI1)) as (G1 & G2 & (b' & G3 & G4 & G5 & G6) & G7 & _).
  destruct G7 as [G7 G8]. { cbn [s1 xsol_core xwith_bins xc_bins]. rewrite app_length. simpl. lia. }
  set (s' := xupdate i cb (length (xc_bins (xsol_core s))) s1) in *.
  assert (Hbins : xc_bins (xsol_core s') = xc_bins (xsol_core s) ++ [b']).
  { rewrite G3. cbn [s1 xsol_core xwith_bins xc_bins]. apply upd_snoc. }
  assert (Hv : xview s' = xview s ++ [xview_bin b]).
  { unfold xview. rewrite Hbins, map_app. cbn [map]. rewrite G4. reflexivity. }
  split; [|exact Hv]. rewrite <- Hv in U. constructor.
  - exact U.
  - rewrite G1, Hbins. destruct (xc_bins (xsol_core s)); reflexivity.
  - apply xfeasible_iff; [exact U| |exact G2]. rewrite Hv. destruct (xview s); discriminate.
  - rewrite Hv, rev_app_distr. cbn [rev app]. exact G7.
  - intros c Hc. rewrite Hbins in Hc. apply in_snoc in Hc. destruct Hc as [Hc| ->]; [apply F5; assumption|].
    unfold xview_bin in G4. injection G4 as _ _ G4. rewrite G4, G5, G6, Hf1, Hf2. split; ring.
  - rewrite Hv, app_length. lia.
  - rewrite G8, Hv, skipn_app. cbn [s1 xsol_core xwith_bins xc_max]. rewrite F7.
    replace (k - length (xview s))%nat with 0%nat by lia. cbn [skipn]. rewrite map_app, fold_max_app. cbn [map fold_right xview_bin xd_items].
    pose proof (extent_nonneg i AZ (xs_items b)). lia.
Qed.

Record XBuild (bins : list XSBin) (k : nat) (s : XSolution) : Prop := {
  xbi_len : length (xc_bins (xsol_core s)) = length bins;
  xbi_view : xview s = map xview_bin bins;
  xbi_inv : XInv i (firstn k (map xview_bin bins)) (xsol_core s);
  xbi_each : forall j b, nth_error (xc_bins (xsol_core s)) j = Some b ->
    if Nat.ltb j k then (xs_weight b == qsum (fun p => bi_weight (bxitem i (bp_type p))) (xs_items b)
      /\ xs_profit b == qsum (fun p => bi_profit (bxitem i (bp_type p))) (xs_items b))%Q
    else xfresh b;
  xbi_z : v_z (xc_max (xsol_core s)) = if Nat.ltb k (length bins) then 0
    else match rev (map xview_bin bins) with [] => 0 | d :: _ => extent i AZ (xd_items d) end
}.

Lemma map_xview_upd : forall bins pos b b', nth_error bins pos = Some b -> xview_bin b' = xview_bin b ->
  map xview_bin (upd pos (fun _ => b') bins) = map xview_bin bins.
Proof.
  induction bins as [|c bins IH]; intros [|pos] b b' H E; cbn [nth_error] in H; try discriminate; cbn [upd map].
  - injection H as ->. rewrite E. reflexivity.
  - rewrite (IH pos b b' H E). reflexivity.
Qed.

Lemma nth_error_last : forall A (l : list A) k x, nth_error l k = Some x -> S k = length l -> exists r, rev l = x :: r.
Proof.
  intros A l k x H E. destruct (exists_last_or_nil _ l) as [->|(pre & y & ->)]; [simpl in E; lia|].
  rewrite app_length in E. simpl in E. rewrite nth_error_app2 in H by lia.
  replace (k - length pre)%nat with 0%nat in H by lia. injection H as <-. rewrite rev_app_distr. cbn [rev app]. eauto.
Qed.

Lemma xbuild_inv : forall bins, (forall b, In b bins -> xdesc_ok i (xview_bin b)) ->
  forall k s0, (k <= length bins)%nat -> XBuild bins 0 s0 ->
  XBuild bins k (fold_left (fun s pos => xupdate i cb pos s) (seq 0 k) s0).
Proof.
  intros bins Hbins k s0 Hk H0. induction k as [|k IH]; [exact H0|].
  rewrite seq_S, fold_left_app. cbn [fold_left Nat.add]. specialize (IH ltac:(lia)).
  set (s := fold_left _ (seq 0 k) s0) in *. destruct IH as [B1 B2 B3 B4 B5].
  destruct (nth_error (xc_bins (xsol_core s)) k) as [b|] eqn:Eb; [|apply nth_error_None in Eb; lia].
  assert (Hvb : nth_error (map xview_bin bins) k = Some (xview_bin b)).
  { rewrite <- B2. unfold xview. rewrite nth_error_map, Eb. reflexivity. }
  assert (Hd : xdesc_ok i (xview_bin b)).
  { apply nth_error_In in Hvb. apply in_map_iff in Hvb. destruct Hvb as (b0 & <- & Hb0). apply Hbins. assumption. }
  assert (Hds : forall d, In d (firstn k (map xview_bin bins)) -> xdesc_ok i d).
  { intros d Hin. apply in_firstn in Hin. apply in_map_iff in Hin. destruct Hin as (b0 & <- & Hb0). apply Hbins. assumption. }
  pose proof (xupdate_inv i cb _ s k b Hwf B3 Hds Eb Hd) as U.
  destruct (xupdate_flags i cb s k b Eb (xv_z _ _ _ B3)) as (G1 & G2 & (b' & G3 & G4 & G5 & G6) & G7 & G8).
  constructor.
  - rewrite G3, upd_length. exact B1.
  - unfold xview in *. rewrite G3, (map_xview_upd _ k b b' Eb G4). exact B2.
  - rewrite (firstn_succ_snoc _ _ k _ Hvb). exact U.
  - intros j c Hj. rewrite G3 in Hj. destruct (Nat.eq_dec j k) as [->|Hn].
    + rewrite (nth_error_upd_eq _ _ k b _ Eb) in Hj. injection Hj as <-.
      pose proof (B4 k b Eb) as Hfr. rewrite Nat.ltb_irrefl in Hfr. destruct Hfr as [Hf1 Hf2].
      replace (Nat.ltb k (S k)) with true by (symmetry; apply Nat.ltb_lt; lia).
      unfold xview_bin in G4. injection G4 as _ _ G4. rewrite G4, G5, G6, Hf1, Hf2. split; ring.
    + rewrite nth_error_upd_neq in Hj by congruence. specialize (B4 j c Hj).
      replace (Nat.ltb j (S k)) with (Nat.ltb j k); [exact B4|].
      destruct (Nat.ltb_spec j k), (Nat.ltb_spec j (S k)); try reflexivity; lia.
  - replace (Nat.ltb k (length bins)) with true in B5 by (symmetry; apply Nat.ltb_lt; lia).
    destruct (Nat.ltb_spec (S k) (length bins)) as [Hl|Hl].
    + rewrite G8 by lia. exact B5.
    + destruct G7 as [_ G7]; [lia|]. rewrite G7, B5.
      destruct (nth_error_last _ _ _ _ Hvb) as (r & Er); [rewrite map_length; lia|]. rewrite Er.
      cbn [xview_bin xd_items]. pose proof (extent_nonneg i AZ (xs_items b)). lia.
Qed.

Definition built_z (ds : list XDesc) : Z := match rev ds with [] => 0 | d :: _ => extent i AZ (xd_items d) end.

Lemma xbuild_full : forall bins, (forall b, In b bins -> xdesc_ok i (xview_bin b)) -> (forall b, In b bins -> xfresh b) ->
  XFull i cb (length bins) (built_z (map xview_bin bins)) (xb_build i cb bins) /\ xview (xb_build i cb bins) = map xview_bin bins.
Proof.
  intros bins Hbins Hfresh. unfold xb_build.
  set (s0 := mkXS (xwith_bins (xsol_core (xsol_new i)) bins) (xsol_callback_ok (xsol_new i)) (xsol_feasible (xsol_new i))).
  assert (H0 : XBuild bins 0 s0).
  { constructor; [reflexivity|reflexivity| | |].
    - cbn [firstn]. apply xinv_rebins, xinv_new.
    - intros j b Hj. apply nth_error_In in Hj. cbn [Nat.ltb Nat.leb]. apply Hfresh. exact Hj.
    - cbn. destruct bins as [|b bins]; reflexivity. }
  destruct (exists_last_or_nil _ bins) as [E|(pre & bl & E)].
  - subst bins. split; [exact (xfull_new i cb)|reflexivity].
  - assert (Hlen : length bins = S (length pre)) by (rewrite E, app_length; simpl; lia).
    rewrite Hlen, seq_S, fold_left_app. cbn [fold_left Nat.add].
    pose proof (xbuild_inv bins Hbins (length pre) s0 ltac:(lia) H0) as [B1 B2 B3 B4 B5].
    pose proof (xbuild_inv bins Hbins (S (length pre)) s0 ltac:(lia) H0) as [C1 C2 C3 C4 C5].
    rewrite seq_S, fold_left_app in C1, C2, C3, C4, C5. cbn [fold_left Nat.add] in C1, C2, C3, C4, C5.
    set (s := fold_left _ (seq 0 (length pre)) s0) in *.
    destruct (nth_error (xc_bins (xsol_core s)) (length pre)) as [b|] eqn:Eb; [|apply nth_error_None in Eb; lia].
    destruct (xupdate_flags i cb s _ b Eb (xv_z _ _ _ B3)) as (G1 & G2 & _ & G5 & _). destruct G5 as [G5 _]; [lia|].
    set (s' := xupdate i cb (length pre) s) in *.
    rewrite firstn_all2 in C3 by (rewrite map_length; lia). rewrite <- C2 in C3.
    split; [|exact C2]. constructor.
    + exact C3.
    + rewrite G1. destruct (xc_bins (xsol_core s')) eqn:Ec; [|reflexivity]. simpl in C1. lia.
    + apply xfeasible_iff; [exact C3| |exact G2]. rewrite C2, E, map_app. destruct (map xview_bin pre); discriminate.
    + assert (Ev : xview_bin bl = xview_bin b).
      { assert (Hn : nth_error (xview s) (length pre) = Some (xview_bin b)) by (unfold xview; rewrite nth_error_map, Eb; reflexivity).
        rewrite B2, E, map_app in Hn. rewrite nth_error_app2 in Hn by (rewrite map_length; lia).
        rewrite map_length, Nat.sub_diag in Hn. cbn [nth_error map] in Hn. congruence. }
      rewrite C2, E, map_app, rev_app_distr. cbn [map rev app]. rewrite Ev. exact G5.
    + intros c Hc. destruct (In_nth_error _ _ Hc) as (j & Hj). specialize (C4 j c Hj).
      assert (Hlt : (j < length (xc_bins (xsol_core s')))%nat) by (apply nth_error_Some; congruence).
      replace (Nat.ltb j (S (length pre))) with true in C4 by (symmetry; apply Nat.ltb_lt; lia). exact C4.
    + rewrite C2, map_length. lia.
    + rewrite C5. replace (Nat.ltb (S (length pre)) (length bins)) with false by (symmetry; apply Nat.ltb_ge; lia).
      fold (built_z (map xview_bin bins)).
      rewrite skipn_all2 by (rewrite C2, map_length; lia). cbn [map fold_right].
      assert (0 <= built_z (map xview_bin bins)) by (unfold built_z; destruct (rev _); [lia|apply extent_nonneg]). lia.
Qed.

Definition xraw_ok (b : XSBin) : Prop :=
  (xs_type b < length (bx_bins i))%nat /\ (forall p, In p (xs_items b) -> (bp_type p < length (bx_items i))%nat
    /\ In (bp_rot p) (bi_rotations (bxitem i (bp_type p)))) /\ xfresh b.

Lemma can_rotate_in : forall it r, can_rotate it r = true <-> In r (bi_rotations it).
Proof.
  intros it r. unfold can_rotate. rewrite existsb_exists. split.
  - intros (s & H & E). replace r with s; [exact H|]. destruct s, r; try discriminate; reflexivity.
  - intro H. exists r. split; [exact H|]. destruct r; reflexivity.
Qed.

Lemma xb_run_spec : forall calls bins bins', xb_run i bins calls = Some bins' ->
  (forall b, In b bins -> xraw_ok b) ->
  map xview_bin bins' = xdesc_run (map xview_bin bins) calls /\ (forall b, In b bins' -> xraw_ok b).
Proof.
  induction calls as [|call calls IH]; intros bins bins' H Hraw; cbn [xb_run] in H.
  - injection H as <-. auto.
  - destruct (xb_call i bins call) as [bins1|] eqn:E; [|discriminate]. destruct call as [t n|pos p]; cbn [xb_call] in E.
    + unfold xb_add_bin in E. destruct (xin_range i t []) eqn:Er; [|discriminate]. injection E as <-.
      destruct (IH _ _ H) as [H1 H2].
      * intros b Hb. apply in_snoc in Hb. destruct Hb as [Hb| ->]; [auto|].
        unfold xin_range in Er. apply andb_true_iff in Er. destruct Er as [Er _]. apply Nat.ltb_lt in Er. split; [exact Er|]. split; [intros p []|split; reflexivity].
      * rewrite map_app in H1. auto.
    + unfold xb_add_item in E. destruct (_ && _) eqn:Er; [|discriminate]. injection E as <-.
      apply andb_true_iff in Er. destruct Er as [Er Er3]. apply andb_true_iff in Er. destruct Er as [Er1 Er2]. apply Nat.ltb_lt in Er2.
      destruct (IH _ _ H) as [H1 H2].
      * intros b Hb. apply in_upd in Hb. destruct Hb as [Hb|(c & Hc & ->)]; [auto|].
        destruct (Hraw c Hc) as (R1 & R2 & R3). split; [exact R1|]. split; [|exact R3]. cbn [xs_items].
        intros q Hq. apply in_snoc in Hq. destruct Hq as [Hq| ->]; [auto|]. split; [exact Er2|apply can_rotate_in; exact Er3].
      * split; [|assumption]. rewrite H1. cbn [xdesc_run]. f_equal. apply map_upd. intro b. reflexivity.
Qed.

Lemma xmap_id_mapped : forall ids id r, map_id ids id = Some r -> r = xmapped ids id.
Proof.
  intros [|a ids] id r H; cbn [map_id xmapped] in *; [congruence|]. symmetry. apply nth_error_nth. exact H.
Qed.

Lemma xmap_ids_mapped : forall ids l r, xmap_ids ids l = Some r ->
  r = map (fun p => mkBP (xmapped ids (bp_type p)) (bp_pos p) (bp_rot p)) l.
Proof.
  intros ids l. induction l as [|p l IH]; intros r H; cbn [xmap_ids] in H; [injection H as <-; reflexivity|].
  destruct (map_id ids (bp_type p)) eqn:E1; [|discriminate]. destruct (xmap_ids ids l) eqn:E2; [|discriminate].
  injection H as <-. cbn [map]. rewrite (xmap_id_mapped _ _ _ E1), (IH _ eq_refl). reflexivity.
Qed.

Lemma xin_range_ok : forall t ps, xin_range i t ps = true -> (t < length (bx_bins i))%nat /\
  forall p, In p ps -> (bp_type p < length (bx_items i))%nat.
Proof.
  intros t ps H. unfold xin_range in H. apply andb_true_iff in H. destruct H as [H1 H2]. apply Nat.ltb_lt in H1.
  split; [exact H1|]. intros p Hp. rewrite forallb_forall in H2. apply Nat.ltb_lt, H2, Hp.
Qed.

Variable k0 : nat.
Variable z0 : Z.
Definition XGood (s : XSolution) : Prop := XFull i cb k0 z0 s /\ forall d, In d (xview s) -> xdesc_ok i d.

Lemma xappend_bin_spec : forall s source pos copies bids iids s',
  XGood s -> xappend_bin i cb s source pos copies bids iids = Some s' ->
  0 <= copies -> exists d, nth_error (xview source) pos = Some d /\ XGood s' /\
    xview s' = xview s ++ [xmapped_desc bids iids copies d].
Proof.
  intros s source pos copies bids iids s' [F D] H Hc. unfold xappend_bin in H.
  destruct (nth_error (xc_bins (xsol_core source)) pos) as [b|] eqn:Eb; [|discriminate].
  destruct (map_id bids (xs_type b)) as [t|] eqn:Et; [|discriminate].
  destruct (xmap_ids iids (xs_items b)) as [items|] eqn:Ei; [|discriminate].
  destruct (xin_range i t items) eqn:Er; [|discriminate]. injection H as <-.
  destruct (xin_range_ok _ _ Er) as [R1 R2].
  assert (Hd : xdesc_ok i (xview_bin (xraw_bin t copies items))) by (split; [exact R1|split; [exact R2|exact Hc]]).
  destruct (xpush_full k0 z0 s _ F D Hd (conj (Qeq_refl 0) (Qeq_refl 0))) as [F' V].
  exists (xview_bin b). split; [unfold xview; rewrite nth_error_map, Eb; reflexivity|].
  split; [split; [exact F'|]|].
  - intros d Hin. rewrite V in Hin. apply in_snoc in Hin. destruct Hin as [Hin| ->]; [apply D; assumption|exact Hd].
  - rewrite V. f_equal. f_equal. unfold xmapped_desc, xview_bin, xraw_bin. cbn [xs_type xs_copies xs_items xd_type xd_items].
    rewrite (xmap_id_mapped _ _ _ Et), (xmap_ids_mapped _ _ _ Ei). reflexivity.
Qed.

Lemma xappend_from_spec : forall source bids iids positions s s',
  (forall d, In d (xview source) -> 0 <= xd_copies d) -> XGood s ->
  xappend_from i cb s source bids iids positions = Some s' ->
  exists ds, map (nth_error (xview source)) positions = map Some ds /\ XGood s' /\
    xview s' = xview s ++ map (fun d => xmapped_desc bids iids (xd_copies d) d) ds.
Proof.
  intros source bids iids positions. induction positions as [|pos rest IH]; intros s s' Hc G H; cbn [xappend_from] in H.
  - injection H as <-. exists []. split; [reflexivity|]. split; [exact G|]. rewrite app_nil_r. reflexivity.
  - destruct (nth_error (xc_bins (xsol_core source)) pos) as [b|] eqn:Eb; [|discriminate].
    destruct (xappend_bin i cb s source pos (xs_copies b) bids iids) as [s1|] eqn:E1; [|discriminate].
    assert (Hv : nth_error (xview source) pos = Some (xview_bin b)) by (unfold xview; rewrite nth_error_map, Eb; reflexivity).
    assert (Hcb : 0 <= xs_copies b) by (apply (Hc (xview_bin b)); eapply nth_error_In; exact Hv).
    destruct (xappend_bin_spec _ _ _ _ _ _ _ G E1 Hcb) as (d & A1 & A2 & A3).
    rewrite Hv in A1. injection A1 as <-.
    destruct (IH s1 s' Hc A2 H) as (ds & B1 & B2 & B3). exists (xview_bin b :: ds). split; [|split; [exact B2|]].
    + cbn [map]. rewrite Hv, B1. reflexivity.
    + rewrite B3, A3, <- app_assoc. reflexivity.
Qed.

Lemma xsol_run_spec : forall calls s s', XGood s -> (forall d, In d (flat_map xcall_bins calls) -> 0 <= xd_copies d) ->
  xsol_run i cb s calls = Some s' -> XGood s' /\ xview s' = xview s ++ flat_map xcall_bins calls.
Proof.
  induction calls as [|c calls IH]; intros s s' G Hc H; cbn [xsol_run] in H.
  - injection H as <-. split; [exact G|]. cbn [flat_map]. rewrite app_nil_r. reflexivity.
  - destruct (xsol_call i cb s c) as [s1|] eqn:E; [|discriminate]. cbn [flat_map] in Hc.
    assert (A : XGood s1 /\ xview s1 = xview s ++ xcall_bins c).
    { assert (Hc1 : forall d, In d (xcall_bins c) -> 0 <= xd_copies d) by (intros d Hd; apply Hc, in_or_app; left; exact Hd).
      destruct c as [source pos copies bids iids|source bids iids|t copies]; cbn [xsol_call xcall_bins] in *.
      - assert (E0 : exists d, nth_error (xview source) pos = Some d).
        { unfold xappend_bin in E. destruct (nth_error (xc_bins (xsol_core source)) pos) as [b|] eqn:Eb; [|discriminate].
          exists (xview_bin b). unfold xview. rewrite nth_error_map, Eb. reflexivity. }
        destruct E0 as (d0 & E0). rewrite E0 in Hc1. specialize (Hc1 _ (or_introl eq_refl)). cbn [xd_copies xmapped_desc] in Hc1.
        destruct (xappend_bin_spec _ _ _ _ _ _ _ G E Hc1) as (d & A1 & A2 & A3). rewrite E0 in A1. injection A1 as <-.
        rewrite E0. auto.
      - assert (Hs : forall d, In d (xview source) -> 0 <= xd_copies d).
        { intros d Hd. apply (Hc1 (xmapped_desc bids iids (xd_copies d) d)).
          apply (in_map (fun d => xmapped_desc bids iids (xd_copies d) d)). exact Hd. }
        destruct (xappend_from_spec _ _ _ _ _ _ Hs G E) as (ds & A1 & A2 & A3). split; [exact A2|].
        rewrite A3. f_equal. f_equal. apply map_nth_error_seq. rewrite <- A1. unfold xview. rewrite map_length. reflexivity.
      - unfold xappend_empty in E. destruct (xin_range i t []) eqn:Er; [|discriminate]. injection E as <-.
        destruct G as [F D]. destruct (xin_range_ok _ _ Er) as [R1 _].
        assert (Hd : xdesc_ok i (xview_bin (xraw_bin t copies []))).
        { split; [exact R1|]. split; [intros p []|]. apply (Hc1 (mkXD t copies [])). left. reflexivity. }
        destruct (xpush_full k0 z0 s _ F D Hd (conj (Qeq_refl 0) (Qeq_refl 0))) as [F' V]. split; [split; [exact F'|]|exact V].
        intros d Hin. rewrite V in Hin. apply in_snoc in Hin. destruct Hin as [Hin| ->]; [apply D; assumption|exact Hd]. }
    destruct A as [A1 A2].
    destruct (IH s1 s' A1) as [B1 B2]; [intros d Hd; apply Hc, in_or_app; right; exact Hd|exact H|].
    split; [exact B1|]. rewrite B2, A2, <- app_assoc. reflexivity.
Qed.

End Hist.

Lemma xhistory_spec : forall i cb, xwf_resources i -> forall calls1 calls2 s, xhistory i cb calls1 calls2 = Some s -> xcopies_nonneg calls1 calls2 ->
  XGood i cb (length (xdesc_run [] calls1)) (built_z i (xdesc_run [] calls1)) s
  /\ xview s = xdesc_run [] calls1 ++ flat_map xcall_bins calls2.
Proof.
  intros i cb Hwf calls1 calls2 s H Hc. unfold xhistory in H. destruct (xb_run i [] calls1) as [bins|] eqn:E; [|discriminate].
  destruct (xb_run_spec i calls1 [] bins E) as [V1 V2]; [intros b []|]. cbn [map] in V1.
  assert (Hb : forall b, In b bins -> xdesc_ok i (xview_bin b)).
  { intros b Hb. destruct (V2 b Hb) as (R1 & R2 & _). split; [exact R1|]. split; [intros p Hp; apply (R2 p Hp)|]. apply Hc, in_or_app. left.
    rewrite <- V1. apply in_map. assumption. }
  destruct (xbuild_full i cb Hwf bins Hb (fun b H => proj2 (proj2 (V2 b H)))) as [F V].
  rewrite V1 in F. rewrite <- (map_length xview_bin bins), V1 in F.
  destruct (xsol_run_spec i cb Hwf (length (xdesc_run [] calls1)) (built_z i (xdesc_run [] calls1)) calls2 (xb_build i cb bins) s) as [G1 G2].
  - split; [exact F|]. rewrite V. intros d Hd. apply in_map_iff in Hd. destruct Hd as (b & <- & Hin). apply Hb, Hin.
  - intros d Hd. apply Hc, in_or_app. right. exact Hd.
  - exact H.
  - split; [exact G1|]. rewrite G2, V, V1. reflexivity.
Qed.

Lemma xresources_whole : forall i d, xsane_resources i -> xdesc_ok i d -> (xresources_ok i d <-> xresources_ok_end i d).
Proof.
  intros i d Hs (Hd & _). unfold xresources_ok, xresources_ok_end. split.
  - intros H r Hr Hp. specialize (H r Hr Hp). destruct (Hs (bxbin i (xd_type d)) r (nth_In _ _ Hd) Hr) as [Hcap Hq].
    induction (xd_items d) as [|p l IH] using rev_ind.
    + rewrite <- xproj_consumption. cbn [map]. rewrite consumption_nil. exact Hcap.
    + apply prefall_snoc in H. destruct H as [H1 H2].
      destruct (nth (bp_type p) (res_item_consumptions r) []) as [|q0 s0] eqn:Es; [|apply H2; congruence].
      assert (Heq : (bconsumption i r (l ++ [p]) == bconsumption i r l)%Q).
      { unfold bconsumption. apply qsum_ext. intros y _. unfold bcount. rewrite filter_app, app_length. cbn [filter].
        destruct (Nat.eqb_spec (bp_type p) y) as [<-|Hn].
        - rewrite Es. assert (Hz : forall n, (schedule_total [] n == 0)%Q).
          { induction n as [|n IHn]; simpl; [reflexivity|]. rewrite IHn. destruct n; reflexivity. }
          rewrite !Hz. reflexivity.
        - cbn [length]. rewrite Nat.add_0_r. reflexivity. }
      rewrite Heq. apply IH. exact H1.
  - intros H r Hr Hp before p after E _. eapply Qle_trans; [|apply (H r Hr Hp)]. rewrite E.
    destruct (Hs (bxbin i (xd_type d)) r (nth_In _ _ Hd) Hr) as [_ Hq].
    unfold bconsumption. apply qsum_le. intros x _. apply schedule_total_mono.
    + intros q Hin. destruct (nth_in_or_default x (res_item_consumptions r) []) as [Hi|Hi]; [apply (Hq _ q Hi Hin)|].
      rewrite Hi in Hin. destruct Hin.
    + unfold bcount. rewrite !filter_app, !app_length. cbn [filter]. destruct (Nat.eqb (bp_type p) x); cbn [length]; lia.
Qed.
