(** * Proofs about the irregular solution

    The counters shared with the onedimensional solution are obtained from it:
    the loop does the same thing on the instance whose lengths are 0. *)

From Coq Require Import List ZArith QArith Bool Lia Arith Lqa.
From Verif Require Import Util Common_Model Common_Spec Common_Proof OneDim_Model OneDim_Spec OneDim_Proof.
From Verif Require Import Irr_Model Irr_Spec FormatterDet_Proof RectSol_Proof OneDim_Order.
Import ListNotations.
Open Scope Z_scope.

Definition irproj_item (it : IrItem) : ItemType :=
  mkIT 0 (ii_profit it) (ii_copies it) (ii_copies_min it) 0 0 0 None (-1) (ii_resource_ids it).
Definition irproj_bin (bt : IrBin) : BinType :=
  mkBT 0 (ib_cost bt) (ib_copies bt) (ib_copies_min bt) None [] (ib_resources bt) [].
Definition irproj (i : IrInstance) : Instance :=
  mkInst (ir_objective i) (map irproj_item (ir_items i)) (map irproj_bin (ir_bins i))
    [] [] 0 0 0 0 0 0 None 0 false.
Definition irpdesc (d : IrDesc) : BinDesc := mkBD (ird_type d) (ird_copies d) (map ip_type (ird_items d)).

Lemma irproj_item_type : forall i x, item_type (irproj i) x = irproj_item (iritem i x).
Proof. intros i x. unfold item_type, iritem. cbn [in_item_types irproj]. change dummy_item with (irproj_item dummy_iritem). apply map_nth. Qed.
Lemma irproj_bin_type : forall i t, bin_type (irproj i) t = irproj_bin (irbin i t).
Proof. intros i t. unfold bin_type, irbin. cbn [in_bin_types irproj]. change dummy_bin with (irproj_bin dummy_irbin). apply map_nth. Qed.
Lemma irproj_items_length : forall i, length (in_item_types (irproj i)) = length (ir_items i).
Proof. intro i. apply map_length. Qed.
Lemma irproj_bins_length : forall i, length (in_bin_types (irproj i)) = length (ir_bins i).
Proof. intro i. apply map_length. Qed.

(** The resource loop does not look at the profit. *)

Record IrSimLoop (rl : IrLoop) (lo : Loop) : Prop := {
  irsl_res : irl_resources rl = lo_resources lo;
  irsl_cib : irl_copies_in_bin rl = lo_copies_in_bin lo;
  irsl_nit : irl_number_of_items rl = lo_number_of_items lo;
  irsl_profit : (irl_item_profit rl == lo_item_profit lo)%Q;
  irsl_ic : irl_item_copies rl = lo_item_copies lo;
  irsl_rok : irl_resource_ok rl = lo_resource_ok lo
}.

Lemma irsim_step : forall i t n rl lo p,
  IrSimLoop rl lo -> IrSimLoop (iritem_step i t n rl p) (item_step (irproj i) t n lo (mkSI (ip_type p) 0)).
Proof.
  intros i t n rl lo p [H1 H2 H3 H5 H6 H7].
  unfold iritem_step, item_step. cbn [si_type]. rewrite irproj_item_type, irproj_bin_type. cbn [it_resource_ids irproj_item].
  destruct (fold_left (resource_step (irproj_bin (irbin i t)) _ _) _ _) as [[u' p'] ok'] eqn:E.
  destruct (resource_fold_shift _ _ _ _ _ _ _ _ _ _ (irl_item_profit rl + inject_Z n * ii_profit (iritem i (ip_type p)))%Q
    (inject_Z n * ii_profit (iritem i (ip_type p)))%Q E) as (q' & E' & Eq).
  { rewrite H5. reflexivity. }
  change (irresource_step (irbin i t)) with (resource_step (irproj_bin (irbin i t))).
  rewrite H1, H2, H7. rewrite E'.
  constructor; cbn [irl_resources irl_copies_in_bin irl_number_of_items irl_item_profit irl_item_copies
    irl_resource_ok lo_resources lo_copies_in_bin lo_number_of_items lo_item_profit lo_item_copies
    lo_resource_ok it_profit irproj_item]; congruence.
Qed.

Lemma irsim_fold : forall i t n ps rl lo,
  IrSimLoop rl lo -> IrSimLoop (fold_left (iritem_step i t n) ps rl)
    (fold_left (item_step (irproj i) t n) (map (fun p => mkSI (ip_type p) 0) ps) lo).
Proof. intros i t n ps. induction ps as [|p ps IH]; intros rl lo H; [exact H|]. cbn [fold_left map]. apply IH, irsim_step, H. Qed.

(** ** The rest of the loop *)

Record IrLoopRest (i : IrInstance) (t : nat) (n : Z) (ps : list IrPlace) (lo0 lo : IrLoop) : Prop := {
  irlr_area : (irl_item_area lo == irl_item_area lo0 + inject_Z n * irarea i ps)%Q;
  irlr_bin : (irl_area lo == irl_area lo0 + irarea i ps)%Q;
  irlr_ext : irl_ext lo = fold_left (ext_item i) ps (irl_ext lo0)
}.

Lemma irarea_snoc : forall i ps p, (irarea i (ps ++ [p]) == irarea i ps + ii_area (iritem i (ip_type p)))%Q.
Proof. intros. unfold irarea. rewrite qsum_snoc. reflexivity. Qed.

Lemma irloop_rest : forall i t n lo0 ps,
  IrLoopRest i t n ps lo0 (fold_left (iritem_step i t n) ps lo0).
Proof.
  intros i t n lo0 ps. induction ps as [|p ps IH] using rev_ind.
  - constructor; cbn [fold_left].
    + unfold irarea, qsum; simpl. ring.
    + unfold irarea, qsum; simpl. ring.
    + reflexivity.
  - rewrite !fold_left_app. cbn [fold_left]. set (lo := fold_left _ ps lo0) in *.
    destruct IH as [I1 I1b I2]. unfold iritem_step.
    destruct (fold_left (irresource_step _ _ _) _ _) as [[u' p'] ok'].
    constructor; cbn [irl_item_area irl_area irl_ext].
    + rewrite irarea_snoc, I1. ring.
    + rewrite irarea_snoc, I1b. ring.
    + rewrite fold_left_app. cbn [fold_left]. rewrite I2. reflexivity.
Qed.

Lemma omin_least : forall f ps p v, LeastOf f ps v -> LeastOf f (ps ++ [p]) (omin v (f p)).
Proof.
  intros f ps p [q|] H; cbn [omin LeastOf] in *.
  - destruct H as [(p0 & H1 & H2) H3]. destruct (Qltb (f p) q) eqn:E.
    + apply Qltb_lt in E. cbn [LeastOf]. split.
      * exists p. split; [apply in_or_app; right; left; reflexivity|reflexivity].
      * intros r Hr. apply in_app_or in Hr. destruct Hr as [Hr|[<-|[]]]; [|apply Qle_refl]. specialize (H3 r Hr). lra.
    + apply Qltb_ge in E. cbn [LeastOf]. split.
      * exists p0. split; [apply in_or_app; left; assumption|assumption].
      * intros r Hr. apply in_app_or in Hr. destruct Hr as [Hr|[<-|[]]]; auto.
  - subst ps. cbn [app]. split; [exists p; split; [left; reflexivity|reflexivity]|].
    intros r [<-|[]]. apply Qle_refl.
Qed.
Lemma omax_largest : forall f ps p v, LargestOf f ps v -> LargestOf f (ps ++ [p]) (omax v (f p)).
Proof.
  intros f ps p [q|] H; cbn [omax LargestOf] in *.
  - destruct H as [(p0 & H1 & H2) H3]. destruct (Qltb q (f p)) eqn:E.
    + apply Qltb_lt in E. cbn [LargestOf]. split.
      * exists p. split; [apply in_or_app; right; left; reflexivity|reflexivity].
      * intros r Hr. apply in_app_or in Hr. destruct Hr as [Hr|[<-|[]]]; [|apply Qle_refl]. specialize (H3 r Hr). lra.
    + apply Qltb_ge in E. cbn [LargestOf]. split.
      * exists p0. split; [apply in_or_app; left; assumption|assumption].
      * intros r Hr. apply in_app_or in Hr. destruct Hr as [Hr|[<-|[]]]; auto.
  - subst ps. cbn [app]. split; [exists p; split; [left; reflexivity|reflexivity]|].
    intros r [<-|[]]. apply Qle_refl.
Qed.

Lemma ext_fold : forall i ps, ExtOf i ps (fold_left (ext_item i) ps no_ext).
Proof.
  intros i ps. induction ps as [|p ps IH] using rev_ind.
  - cbn. repeat split.
  - rewrite fold_left_app. cbn [fold_left]. destruct IH as (A & B & C & D).
    split; [|split; [|split]]; cbn [ext_item ie_xmin ie_xmax ie_ymin ie_ymax].
    + exact (omin_least _ _ p _ A).
    + exact (omax_largest _ _ p _ B).
    + exact (omin_least _ _ p _ C).
    + exact (omax_largest _ _ p _ D).
Qed.

(** ** One update *)

Definition irdesc_ok (i : IrInstance) (d : IrDesc) : Prop :=
  (ird_type d < length (ir_bins i))%nat /\
  (forall p, In p (ird_items d) -> (ip_type p < length (ir_items i))%nat) /\ 0 <= ird_copies d.

Record IrMatch (rc : IrCore) (c : Core) : Prop := {
  irma_nb : irc_number_of_bins rc = c_number_of_bins c;
  irma_ni : irc_number_of_items rc = c_number_of_items c;
  irma_pr : (irc_item_profit rc == c_item_profit c)%Q;
  irma_co : irc_bin_cost rc = c_bin_cost c;
  irma_bc : irc_bin_copies rc = c_bin_copies c;
  irma_ic : irc_item_copies rc = c_item_copies c;
  irma_ro : irc_resource_ok rc = c_resource_ok c
}.

Record IrInv (i : IrInstance) (ds : list IrDesc) (rc : IrCore) : Prop := {
  irv_core : exists c, CoreInv (irproj i) (map irpdesc ds) c /\ IrMatch rc c;
  irv_area : (irc_item_area rc == qsum (fun d => inject_Z (ird_copies d) * irarea i (ird_items d)) ds)%Q;
  irv_bin_area : (irc_bin_area rc == qsum (fun d => inject_Z (ird_copies d) * ib_area (irbin i (ird_type d))) ds)%Q
}.

Lemma irwf_proj : forall i, irwf_resources i -> wf_resource_ids (irproj i).
Proof.
  intros i H x t Hx Ht. rewrite irproj_items_length in Hx. rewrite irproj_bins_length in Ht.
  rewrite irproj_item_type, irproj_bin_type. exact (H x t Hx Ht).
Qed.

Lemma irpdesc_ok : forall i d, irdesc_ok i d -> desc_ok (irproj i) (irpdesc d).
Proof.
  intros i d (H1 & H2 & H3). split; [rewrite irproj_bins_length; exact H1|]. split; [|exact H3].
  intros x Hx. cbn [bd_items irpdesc] in Hx. apply in_map_iff in Hx. destruct Hx as (p & <- & Hp). rewrite irproj_items_length. apply H2. assumption.
Qed.



Lemma irupdate_inv : forall i cb ds s pos b, irwf_resources i -> IrInv i ds (irsol_core s) ->
  (forall d, In d ds -> irdesc_ok i d) -> nth_error (irc_bins (irsol_core s)) pos = Some b -> irdesc_ok i (irview_bin b) ->
  IrInv i (ds ++ [irview_bin b]) (irsol_core (irupdate i cb pos s)).
Proof.
  intros i cb ds s pos b Hwf [(c & HC & HM) HW HA] Hds Hb Hd.
  set (b0 := raw_bin (irs_type b) (irs_copies b) (map (fun p => mkSI (ip_type p) 0) (irs_items b))).
  set (s0 := with_bins (mkSol c true true) [b0]).
  assert (Hv : view_bin b0 = irpdesc (irview_bin b)).
  { unfold view_bin, b0, irpdesc, irview_bin. cbn. rewrite map_map. reflexivity. }
  assert (Hd' : desc_ok (irproj i) (view_bin b0)) by (rewrite Hv; apply irpdesc_ok; assumption).
  assert (Hds' : forall d, In d (map irpdesc ds) -> desc_ok (irproj i) d).
  { intros d Hin. apply in_map_iff in Hin. destruct Hin as (d0 & <- & Hin). apply irpdesc_ok, Hds, Hin. }
  destruct (update_core (irproj i) accept_all (irwf_proj i Hwf) (map irpdesc ds) s0 0 b0
    (core_inv_rebins _ _ (mkSol c true true) [b0] HC) Hds' eq_refl Hd' (Qeq_refl _)) as (U & _).
  unfold irupdate. rewrite Hb.
  match goal with |- context [fold_left (iritem_step i (irs_type b) (irs_copies b)) (irs_items b) ?x] =>
    set (lo0 := x) end.
  pose proof (irloop_rest i (irs_type b) (irs_copies b) lo0 (irs_items b)) as [R1 _ _].
  cbn [irsol_core]. constructor.
  - exists (s_core (update_indicators (irproj i) accept_all 0 s0)). split.
    + rewrite map_app. cbn [map]. rewrite <- Hv. exact U.
    + destruct HM as [M1 M2 M5 M6 M7 M8 M9].
      unfold update_indicators. cbn [s0 with_bins s_core c_bins nth_error].
      match goal with |- context [fold_left (item_step (irproj i) _ _) _ ?x] => set (l0 := x) end.
      assert (S0 : IrSimLoop lo0 l0).
      { unfold lo0, l0. constructor; cbn [irl_resources irl_copies_in_bin irl_number_of_items irl_item_profit irl_item_copies
          irl_resource_ok lo_resources lo_copies_in_bin lo_number_of_items lo_item_length lo_item_profit lo_item_copies lo_resource_ok
          c_number_of_items c_item_length c_item_profit c_item_copies c_resource_ok]; try assumption.
        - unfold b0. cbn [sb_type raw_bin]. rewrite irproj_bin_type. reflexivity.
        - rewrite irproj_items_length. reflexivity. }
      pose proof (irsim_fold i (irs_type b) (irs_copies b) (irs_items b) lo0 l0 S0) as [S1 S2 S3 S5 S6 S7].
      change (sb_type b0) with (irs_type b). change (sb_copies b0) with (irs_copies b).
      change (sb_items b0) with (map (fun p => mkSI (ip_type p) 0) (irs_items b)).
      constructor; cbn [s_core irc_number_of_bins irc_number_of_items irc_item_profit irc_bin_cost
        irc_bin_copies irc_item_copies irc_resource_ok c_number_of_bins c_number_of_items c_bin_length c_item_length
        c_item_profit c_bin_cost c_bin_copies c_item_copies c_resource_ok]; try assumption.
      * rewrite M1. reflexivity.
      * rewrite irproj_bin_type. cbn [bt_cost irproj_bin]. rewrite M6. reflexivity.
      * rewrite M7. reflexivity.
  - cbn [irc_item_area]. rewrite qsum_snoc, R1. unfold lo0. cbn [irl_item_area]. rewrite HW. reflexivity.
  - cbn [irc_bin_area]. rewrite qsum_snoc, HA. reflexivity.
Qed.

(** ** Back to the rectangle vocabulary *)

Lemma ircount_pl : forall x ps, count_occ Nat.eq_dec (map ip_type ps) x = Z.to_nat (ircount x ps).
Proof.
  intros x ps. unfold ircount. rewrite Nat2Z.id. induction ps as [|p ps IH]; [reflexivity|]. cbn [map count_occ filter].
  destruct (Nat.eq_dec (ip_type p) x) as [E|E].
  - rewrite E, Nat.eqb_refl. cbn [length]. rewrite IH. reflexivity.
  - apply Nat.eqb_neq in E. rewrite E. exact IH.
Qed.
Lemma ircount_nonneg : forall x ps, 0 <= ircount x ps.
Proof. intros. unfold ircount. lia. Qed.

Lemma irproj_consumption : forall i r ps, consumption (irproj i) r (map ip_type ps) = irconsumption i r ps.
Proof.
  intros i r ps. unfold consumption, irconsumption. rewrite irproj_items_length.
  induction (seq 0 (length (ir_items i))) as [|x l IH]; [reflexivity|]. cbn [qsum fold_right]. unfold qsum in IH. rewrite IH.
  rewrite ircount_pl. reflexivity.
Qed.

Lemma irproj_packed : forall x ds, packed x (map irpdesc ds) = irpacked x ds.
Proof.
  intros x ds. unfold packed, irpacked. rewrite zsum_map'. apply zsum_ext. intros d _. cbn [bd_copies bd_items irpdesc].
  rewrite ircount_pl, Z2Nat.id by apply ircount_nonneg. reflexivity.
Qed.
Lemma irproj_used : forall t ds, used_bins t (map irpdesc ds) = irused_bins t ds.
Proof. intros t ds. unfold used_bins, irused_bins. rewrite zsum_map'. reflexivity. Qed.

Lemma irsane_proj : forall i, irsane_resources i -> sane_resources (irproj i).
Proof.
  intros i H bt r Hbt Hr. cbn [in_bin_types irproj] in Hbt. apply in_map_iff in Hbt. destruct Hbt as (bt0 & <- & Hbt).
  exact (H bt0 r Hbt Hr).
Qed.

Lemma irinv_indicators : forall i ds rc, IrInv i ds rc -> IrIndicators i ds rc.
Proof.
  intros i ds rc [(c & [[I1 I2 I3 I4 I5 I6 I7 I8 I9] _ _ _ _ _ _ _ _ _] & [M1 M2 M5 M6 M7 M8 M9]) HW HA]. constructor.
  - rewrite M1, I1, zsum_map'. reflexivity.
  - rewrite M2, I2, zsum_map'. apply zsum_ext. intros d _. cbn [bd_copies bd_items irpdesc]. rewrite map_length. reflexivity.
  - exact HA.
  - exact HW.
  - rewrite M6, I5, qsum_map'. apply qsum_ext. intros d _. cbn [bd_copies bd_type irpdesc]. rewrite irproj_bin_type. reflexivity.
  - intro Hs. rewrite M5, (I6 (irsane_proj i Hs)), qsum_map'. unfold irnet_profit, irprofit.
    rewrite (qsum_ext _ _ (fun d => (inject_Z (ird_copies d) * qsum (fun p => ii_profit (iritem i (ip_type p))) (ird_items d)
      + (- irpenalties i d))%Q)).
    + rewrite qsum_plus.
      assert (E : (qsum (fun d => - irpenalties i d) ds == - qsum (irpenalties i) ds)%Q).
      { clear. induction ds as [|d ds IH]; [reflexivity|]. cbn [qsum fold_right]. unfold qsum in IH. rewrite IH. ring. }
      rewrite E. ring.
    + intros d _. cbn [bd_copies bd_items irpdesc]. rewrite qsum_map'.
      assert (E1 : (qsum (fun x => it_profit (item_type (irproj i) (ip_type x))) (ird_items d)
        == qsum (fun p => ii_profit (iritem i (ip_type p))) (ird_items d))%Q).
      { apply qsum_ext. intros p _. rewrite irproj_item_type. reflexivity. }
      rewrite E1. assert (E2 : (penalties (irproj i) (irpdesc d) == irpenalties i d)%Q).
      { unfold penalties, irpenalties. cbn [bd_type bd_items irpdesc]. rewrite irproj_bin_type. cbn [bt_resources irproj_bin].
        apply qsum_ext. intros r _. rewrite irproj_consumption. reflexivity. }
      rewrite E2. ring.
  - intros t Ht. rewrite M7, I7 by (rewrite irproj_bins_length; assumption). apply irproj_used.
  - intros x Hx. rewrite M8, I8 by (rewrite irproj_items_length; assumption). apply irproj_packed.
Qed.


Lemma irinv_resources : forall i ds rc, IrInv i ds rc ->
  (irc_resource_ok rc = true <-> forall d, In d ds -> irresources_ok i d).
Proof.
  intros i ds rc [(c & HC & HM) _ _]. rewrite (irma_ro _ _ HM), (ci_res _ _ _ HC). unfold irresources_ok. split.
  - intros H d Hd r Hr Hp. specialize (H (irpdesc d) (in_map _ _ _ Hd) r). cbn [bd_type bd_items irpdesc] in H.
    rewrite irproj_bin_type in H. specialize (H Hr Hp). apply prefall_map in H.
    intros p x q E Hs. rewrite <- irproj_consumption, map_app. exact (H p x q E Hs).
  - intros H d Hd r Hr Hp. apply in_map_iff in Hd. destruct Hd as (d0 & <- & Hd). cbn [bd_type bd_items irpdesc] in *.
    rewrite irproj_bin_type in Hr. apply prefall_map. intros p x q E Hs.
    change [ip_type x] with (map ip_type [x]). rewrite <- map_app, irproj_consumption. exact (H d0 Hd r Hr Hp p x q E Hs).
Qed.

Lemma irmissing_zero : forall i l, ircount_missing i l = 0 <->
  forall x, (x < length (ir_items i))%nat -> ii_copies_min (iritem i x) <= nth x l 0.
Proof.
  intros i l. unfold ircount_missing. rewrite (count_fold _ (fun x => nth x l 0 <? ii_copies_min (iritem i x))), Z.add_0_l. split.
  - intros H x Hx. destruct (Z.ltb_spec (nth x l 0) (ii_copies_min (iritem i x))) as [Hlt|]; [|assumption]. exfalso.
    assert (Hin : In x (filter (fun x => nth x l 0 <? ii_copies_min (iritem i x)) (seq 0 (length (ir_items i)))))
      by (apply filter_In; split; [apply in_seq; lia|apply Z.ltb_lt; assumption]).
    destruct (filter _ _); [destruct Hin|simpl length in H; lia].
  - intro H. destruct (filter _ _) as [|x l'] eqn:E; [reflexivity|]. exfalso.
    assert (Hin : In x (x :: l')) by (left; reflexivity). rewrite <- E in Hin. apply filter_In in Hin.
    destruct Hin as [H1 H2]. apply in_seq in H1. apply Z.ltb_lt in H2. specialize (H x ltac:(lia)). lia.
Qed.

Lemma ircopies_ok_iff : forall i l, iritem_copies_ok i l = true <->
  forall x, (x < length (ir_items i))%nat -> nth x l 0 <= ii_copies (iritem i x).
Proof.
  intros i l. unfold iritem_copies_ok. rewrite forallb_forall. split.
  - intros H x Hx. apply Z.leb_le, H, in_seq. lia.
  - intros H x Hx. apply in_seq in Hx. apply Z.leb_le, H. lia.
Qed.

(** ** Flags, bins and extent after an update *)

Definition IrLastOK (i : IrInstance) (s : IrSolution) (d : IrDesc) : Prop :=
  let c := irsol_core s in
  let box := ib_aabb (irbin i (ird_type d)) in
  (ird_items d = [] ->
     irc_ext c = mkIrE (Some (ix_max box)) (Some (ix_min box)) (Some (iy_max box)) (Some (iy_min box))) /\
  (ird_items d <> [] ->
     ExtOf i (ird_items d) (irc_ext c) /\ irc_leftover_orig c = leftover_of (ir_mode i) box (irc_ext c) /\
     irc_leftover_scaled c = (irc_leftover_orig c * ir_scale i)%Q).

Definition irfresh (b : IrSBin) : Prop := (irs_area b == 0)%Q /\ irs_ext b = no_ext.

Lemma irupdate_flags : forall i cb s pos b, nth_error (irc_bins (irsol_core s)) pos = Some b -> irfresh b ->
  let s' := irupdate i cb pos s in
  irsol_callback_ok s' = cb (irsol_core s') /\
  (irsol_feasible s' = true <->
     (forall x, (x < length (ir_items i))%nat ->
        ii_copies_min (iritem i x) <= nth x (irc_item_copies (irsol_core s')) 0 <= ii_copies (iritem i x)) /\
     irc_resource_ok (irsol_core s') = true /\ irsol_callback_ok s' = true) /\
  (exists b', irc_bins (irsol_core s') = upd pos (fun _ => b') (irc_bins (irsol_core s)) /\ irview_bin b' = irview_bin b
     /\ (irs_area b' == irarea i (irs_items b))%Q /\ ExtOf i (irs_items b) (irs_ext b')) /\
  (S pos = length (irc_bins (irsol_core s)) -> IrLastOK i s' (irview_bin b)) /\
  (S pos <> length (irc_bins (irsol_core s)) ->
     irc_leftover_orig (irsol_core s') = irc_leftover_orig (irsol_core s) /\
     irc_leftover_scaled (irsol_core s') = irc_leftover_scaled (irsol_core s)).
Proof.
  intros i cb s pos b Hb [Hf1 Hf2] s'. unfold s', irupdate. rewrite Hb.
  match goal with |- context [fold_left (iritem_step i (irs_type b) (irs_copies b)) (irs_items b) ?x] =>
    set (lo0 := x) end.
  pose proof (irloop_rest i (irs_type b) (irs_copies b) lo0 (irs_items b)) as [_ R1 R2].
  set (lo := fold_left _ _ lo0) in *.
  assert (HE : ExtOf i (irs_items b) (irl_ext lo)).
  { rewrite R2. unfold lo0. cbn [irl_ext]. rewrite Hf2. apply ext_fold. }
  split; [reflexivity|]. split; [|split; [|split]].
  - cbn [irsol_feasible irsol_core irc_item_copies irc_resource_ok irsol_callback_ok]. rewrite !andb_true_iff, Z.eqb_eq, irmissing_zero, ircopies_ok_iff.
    split.
    + intros (((A & B) & C) & D). split; [|split; assumption]. intros x Hx. split; [apply D; assumption|apply A; assumption].
    + intros (A & B & C). split; [split; [split|]|]; try assumption; intros x Hx; apply (A x Hx).
  - eexists. split; [reflexivity|]. split; [reflexivity|]. split; [|exact HE].
    cbn [irs_area]. rewrite R1. unfold lo0. cbn [irl_area]. rewrite Hf1. ring.
  - intro Hlast. replace (Nat.eqb (pos + 1) (length (irc_bins (irsol_core s)))) with true by (symmetry; apply Nat.eqb_eq; lia).
    unfold IrLastOK, irview_bin. cbn [irsol_core irc_ext irc_leftover_orig irc_leftover_scaled ird_items ird_type]. split.
    + intros ->. reflexivity.
    + intro Hne. destruct (irs_items b) as [|p ps] eqn:Ep; [congruence|]. cbn [negb andb]. split; [exact HE|]. split; reflexivity.
  - intro Hlast. replace (Nat.eqb (pos + 1) (length (irc_bins (irsol_core s)))) with false by (symmetry; apply Nat.eqb_neq; lia).
    split; reflexivity.
Qed.

(** ** Whole histories *)

Record IrFull (i : IrInstance) (cb : IrCallback) (s : IrSolution) : Prop := {
  irf_inv : IrInv i (irview s) (irsol_core s);
  irf_cb : irsol_callback_ok s = match irc_bins (irsol_core s) with [] => true | _ => cb (irsol_core s) end;
  irf_feasible : irsol_feasible s = true <->
    ircopies_ok i (irview s) /\ (forall d, In d (irview s) -> irresources_ok i d) /\ irsol_callback_ok s = true
    \/ irview s = [] /\ forall x, (x < length (ir_items i))%nat -> ii_copies_min (iritem i x) <= 0;
  irf_last : match rev (irview s) with
    | [] => irc_ext (irsol_core s) = no_ext /\ irc_leftover_orig (irsol_core s) = 0%Q /\ irc_leftover_scaled (irsol_core s) = 0%Q
    | d :: _ => IrLastOK i s d end;
  irf_each : ireach i (irsol_core s)
}.

Lemma irinv_new : forall i, IrInv i [] (irsol_core (irsol_new i)).
Proof.
  intro i. constructor.
  - exists (s_core (sol_new (irproj i))). split; [apply core_inv_new|].
    constructor; try reflexivity; cbn; rewrite map_length; reflexivity.
  - unfold qsum; reflexivity.
  - unfold qsum; reflexivity.
Qed.

Lemma irfull_new : forall i cb, IrFull i cb (irsol_new i).
Proof.
  intros i cb. constructor.
  - apply irinv_new.
  - reflexivity.
  - unfold irsol_new, irview. cbn [irsol_feasible irsol_core irc_bins map irsol_callback_ok].
    rewrite (count_fold _ (fun it => 0 <? ii_copies_min it)), Z.add_0_l, Z.eqb_eq.
    assert (Hz : Z.of_nat (length (filter (fun it => 0 <? ii_copies_min it) (ir_items i))) = 0
      <-> forall x, (x < length (ir_items i))%nat -> ii_copies_min (iritem i x) <= 0).
    { split.
      - intros H x Hx. destruct (Z.ltb_spec 0 (ii_copies_min (iritem i x))) as [Hlt|]; [|assumption]. exfalso.
        assert (Hin : In (iritem i x) (filter (fun it => 0 <? ii_copies_min it) (ir_items i)))
          by (apply filter_In; split; [apply nth_In; assumption|apply Z.ltb_lt; assumption]).
        destruct (filter _ _); [destruct Hin|simpl length in H; lia].
      - intro H. destruct (filter _ _) as [|it l'] eqn:E; [reflexivity|]. exfalso.
        assert (Hin : In it (it :: l')) by (left; reflexivity). rewrite <- E in Hin. apply filter_In in Hin.
        destruct Hin as [H1 H2]. apply Z.ltb_lt in H2. destruct (In_nth _ _ dummy_iritem H1) as (x & Hx & Ex).
        specialize (H x Hx). unfold iritem in H. rewrite Ex in H. lia. }
    rewrite Hz. split; [intro H; right; auto|]. intros [(H & _)|[_ H]]; [|assumption].
    intros x Hx. specialize (H x Hx). unfold irpacked in H. rewrite zsum_nil in H. lia.
  - cbn. auto.
  - intros b [].
Qed.

Section Hist.

Variable i : IrInstance.
Variable cb : IrCallback.
Hypothesis Hwf : irwf_resources i.

Lemma irfeasible_iff : forall s', IrInv i (irview s') (irsol_core s') -> irview s' <> [] ->
  (irsol_feasible s' = true <->
     (forall x, (x < length (ir_items i))%nat ->
        ii_copies_min (iritem i x) <= nth x (irc_item_copies (irsol_core s')) 0 <= ii_copies (iritem i x)) /\
     irc_resource_ok (irsol_core s') = true /\ irsol_callback_ok s' = true) ->
  (irsol_feasible s' = true <->
    ircopies_ok i (irview s') /\ (forall d, In d (irview s') -> irresources_ok i d) /\ irsol_callback_ok s' = true
    \/ irview s' = [] /\ forall x, (x < length (ir_items i))%nat -> ii_copies_min (iritem i x) <= 0).
Proof.
  intros s' HI Hne H. rewrite H, (irinv_resources _ _ _ HI).
  pose proof (iri_item_copies _ _ _ (irinv_indicators _ _ _ HI)) as IC.
  split.
  - intros (A & B & C). left. split; [|split; assumption]. intros x Hx. rewrite <- (IC x Hx). apply A. assumption.
  - intros [(A & B & C)|[A _]]; [|congruence]. split; [|split; assumption]. intros x Hx. rewrite (IC x Hx). apply A. assumption.
Qed.

Lemma irinv_rebins : forall ds rc bins, IrInv i ds rc -> IrInv i ds (irwith_bins rc bins).
Proof.
  intros ds rc bins [(c & HC & [M1 M2 M5 M6 M7 M8 M9]) HW HA]. constructor; try assumption.
  exists c. split; [exact HC|]. constructor; assumption.
Qed.

Lemma irpush_full : forall s b, IrFull i cb s -> (forall d, In d (irview s) -> irdesc_ok i d) ->
  irdesc_ok i (irview_bin b) -> irfresh b ->
  IrFull i cb (irpush_bin i cb s b) /\ irview (irpush_bin i cb s b) = irview s ++ [irview_bin b].
Proof.
  intros s b [F1 F2 F3 F4 F5] Hds Hd Hf. unfold irpush_bin.
  set (s1 := mkIrS (irwith_bins (irsol_core s) (irc_bins (irsol_core s) ++ [b])) (irsol_callback_ok s) (irsol_feasible s)).
  assert (Hb : nth_error (irc_bins (irsol_core s1)) (length (irc_bins (irsol_core s))) = Some b) by apply nth_error_snoc.
  assert (HI1 : IrInv i (irview s) (irsol_core s1)) by (apply irinv_rebins; assumption).
  pose proof (irupdate_inv i cb (irview s) s1 _ b Hwf HI1 Hds Hb Hd) as U.
  destruct (irupdate_flags i cb s1 _ b Hb Hf) as (G1 & G2 & (b' & G3 & G4 & G5 & G6) & G7 & _).
  specialize (G7 ltac:(cbn [s1 irsol_core irwith_bins irc_bins]; rewrite app_length; simpl; lia)).
  set (s' := irupdate i cb (length (irc_bins (irsol_core s))) s1) in *.
  assert (Hbins : irc_bins (irsol_core s') = irc_bins (irsol_core s) ++ [b']).
  { rewrite G3. cbn [s1 irsol_core irwith_bins irc_bins]. apply upd_snoc. }
  assert (Hv : irview s' = irview s ++ [irview_bin b]).
  { unfold irview. rewrite Hbins, map_app. cbn [map]. rewrite G4. reflexivity. }
  split; [|exact Hv]. rewrite <- Hv in U. constructor.
  - exact U.
  - rewrite G1, Hbins. destruct (irc_bins (irsol_core s)); reflexivity.
  - apply irfeasible_iff; [exact U| |exact G2]. rewrite Hv. destruct (irview s); discriminate.
  - rewrite Hv, rev_app_distr. cbn [rev app]. exact G7.
  - intros c Hc. rewrite Hbins in Hc. apply in_snoc in Hc. destruct Hc as [Hc| ->]; [apply F5; assumption|].
    unfold irview_bin in G4. injection G4 as _ _ G4. rewrite G4. split; assumption.
Qed.

Record IrBuild (bins : list IrSBin) (k : nat) (s : IrSolution) : Prop := {
  irbi_len : length (irc_bins (irsol_core s)) = length bins;
  irbi_view : irview s = map irview_bin bins;
  irbi_inv : IrInv i (firstn k (map irview_bin bins)) (irsol_core s);
  irbi_each : forall j b, nth_error (irc_bins (irsol_core s)) j = Some b ->
    if Nat.ltb j k then (irs_area b == irarea i (irs_items b))%Q /\ ExtOf i (irs_items b) (irs_ext b)
    else irfresh b
}.

Lemma map_irview_upd : forall bins pos b b', nth_error bins pos = Some b -> irview_bin b' = irview_bin b ->
  map irview_bin (upd pos (fun _ => b') bins) = map irview_bin bins.
Proof.
  induction bins as [|c bins IH]; intros [|pos] b b' H E; cbn [nth_error] in H; try discriminate; cbn [upd map].
  - injection H as ->. rewrite E. reflexivity.
  - rewrite (IH pos b b' H E). reflexivity.
Qed.

Lemma ir_nth_error_last : forall A (l : list A) k x, nth_error l k = Some x -> S k = length l -> exists r, rev l = x :: r.
Proof.
  intros A l k x H E. destruct (exists_last_or_nil _ l) as [->|(pre & y & ->)]; [simpl in E; lia|].
  rewrite app_length in E. simpl in E. rewrite nth_error_app2 in H by lia.
  replace (k - length pre)%nat with 0%nat in H by lia. injection H as <-. rewrite rev_app_distr. cbn [rev app]. eauto.
Qed.

Lemma irbuild_inv : forall bins, (forall b, In b bins -> irdesc_ok i (irview_bin b)) ->
  forall k s0, (k <= length bins)%nat -> IrBuild bins 0 s0 ->
  IrBuild bins k (fold_left (fun s pos => irupdate i cb pos s) (seq 0 k) s0).
Proof.
  intros bins Hbins k s0 Hk H0. induction k as [|k IH]; [exact H0|].
  rewrite seq_S, fold_left_app. cbn [fold_left Nat.add]. specialize (IH ltac:(lia)).
  set (s := fold_left _ (seq 0 k) s0) in *. destruct IH as [B1 B2 B3 B4].
  destruct (nth_error (irc_bins (irsol_core s)) k) as [b|] eqn:Eb; [|apply nth_error_None in Eb; lia].
  assert (Hvb : nth_error (map irview_bin bins) k = Some (irview_bin b)).
  { rewrite <- B2. unfold irview. rewrite nth_error_map, Eb. reflexivity. }
  assert (Hd : irdesc_ok i (irview_bin b)).
  { apply nth_error_In in Hvb. apply in_map_iff in Hvb. destruct Hvb as (b0 & <- & Hb0). apply Hbins. assumption. }
  assert (Hds : forall d, In d (firstn k (map irview_bin bins)) -> irdesc_ok i d).
  { intros d Hin. apply in_firstn in Hin. apply in_map_iff in Hin. destruct Hin as (b0 & <- & Hb0). apply Hbins. assumption. }
  pose proof (irupdate_inv i cb _ s k b Hwf B3 Hds Eb Hd) as U.
  pose proof (B4 k b Eb) as Hfr. rewrite Nat.ltb_irrefl in Hfr.
  destruct (irupdate_flags i cb s k b Eb Hfr) as (G1 & G2 & (b' & G3 & G4 & G5 & G6) & G7 & G8).
  constructor.
  - rewrite G3, upd_length. exact B1.
  - unfold irview in *. rewrite G3, (map_irview_upd _ k b b' Eb G4). exact B2.
  - rewrite (firstn_succ_snoc _ _ k _ Hvb). exact U.
  - intros j c Hj. rewrite G3 in Hj. destruct (Nat.eq_dec j k) as [->|Hn].
    + rewrite (nth_error_upd_eq _ _ k b _ Eb) in Hj. injection Hj as <-.
      replace (Nat.ltb k (S k)) with true by (symmetry; apply Nat.ltb_lt; lia).
      unfold irview_bin in G4. injection G4 as _ _ G4. rewrite G4. split; assumption.
    + rewrite nth_error_upd_neq in Hj by congruence. specialize (B4 j c Hj).
      replace (Nat.ltb j (S k)) with (Nat.ltb j k); [exact B4|].
      destruct (Nat.ltb_spec j k), (Nat.ltb_spec j (S k)); try reflexivity; lia.
Qed.

Lemma irbuild_full : forall bins, (forall b, In b bins -> irdesc_ok i (irview_bin b)) -> (forall b, In b bins -> irfresh b) ->
  IrFull i cb (irb_build i cb bins) /\ irview (irb_build i cb bins) = map irview_bin bins.
Proof.
  intros bins Hbins Hfresh. unfold irb_build.
  set (s0 := mkIrS (irwith_bins (irsol_core (irsol_new i)) bins) (irsol_callback_ok (irsol_new i)) (irsol_feasible (irsol_new i))).
  assert (H0 : IrBuild bins 0 s0).
  { constructor; [reflexivity|reflexivity| |].
    - cbn [firstn]. apply irinv_rebins, irinv_new.
    - intros j b Hj. apply nth_error_In in Hj. cbn [Nat.ltb Nat.leb]. apply Hfresh. exact Hj. }
  destruct (exists_last_or_nil _ bins) as [E|(pre & bl & E)].
  - subst bins. split; [exact (irfull_new i cb)|reflexivity].
  - assert (Hlen : length bins = S (length pre)) by (rewrite E, app_length; simpl; lia).
    rewrite Hlen, seq_S, fold_left_app. cbn [fold_left Nat.add].
    pose proof (irbuild_inv bins Hbins (length pre) s0 ltac:(lia) H0) as [B1 B2 B3 B4].
    pose proof (irbuild_inv bins Hbins (S (length pre)) s0 ltac:(lia) H0) as [C1 C2 C3 C4].
    rewrite seq_S, fold_left_app in C1, C2, C3, C4. cbn [fold_left Nat.add] in C1, C2, C3, C4.
    set (s := fold_left _ (seq 0 (length pre)) s0) in *.
    destruct (nth_error (irc_bins (irsol_core s)) (length pre)) as [b|] eqn:Eb; [|apply nth_error_None in Eb; lia].
    assert (Hfr : irfresh b) by (pose proof (B4 _ b Eb) as Hf; rewrite Nat.ltb_irrefl in Hf; exact Hf).
    destruct (irupdate_flags i cb s _ b Eb Hfr) as (G1 & G2 & _ & G5 & _). specialize (G5 ltac:(lia)).
    set (s' := irupdate i cb (length pre) s) in *.
    rewrite firstn_all2 in C3 by (rewrite map_length; lia). rewrite <- C2 in C3.
    split; [|exact C2]. constructor.
    + exact C3.
    + rewrite G1. destruct (irc_bins (irsol_core s')) eqn:Ec; [|reflexivity]. simpl in C1. lia.
    + apply irfeasible_iff; [exact C3| |exact G2]. rewrite C2, E, map_app. destruct (map irview_bin pre); discriminate.
    + assert (Ev : irview_bin bl = irview_bin b).
      { assert (Hn : nth_error (irview s) (length pre) = Some (irview_bin b)) by (unfold irview; rewrite nth_error_map, Eb; reflexivity).
        rewrite B2, E, map_app in Hn. rewrite nth_error_app2 in Hn by (rewrite map_length; lia).
        rewrite map_length, Nat.sub_diag in Hn. cbn [nth_error map] in Hn. congruence. }
      rewrite C2, E, map_app, rev_app_distr. cbn [map rev app]. rewrite Ev. exact G5.
    + intros c Hc. destruct (In_nth_error _ _ Hc) as (j & Hj). specialize (C4 j c Hj).
      assert (Hlt : (j < length (irc_bins (irsol_core s')))%nat) by (apply nth_error_Some; congruence).
      replace (Nat.ltb j (S (length pre))) with true in C4 by (symmetry; apply Nat.ltb_lt; lia). exact C4.
Qed.

Definition irraw_ok (b : IrSBin) : Prop :=
  (irs_type b < length (ir_bins i))%nat /\ (forall p, In p (irs_items b) -> (ip_type p < length (ir_items i))%nat
    /\ is_rotation_allowed (iritem i (ip_type p)) (ip_angle p) (ip_mirror p) = true) /\ irfresh b.

Lemma rotation_allowed : forall it a m, is_rotation_allowed it a m = true <->
  exists r, In r (ii_rotations it) /\ irr_mirror r = m /\ (irr_start r <= a /\ a <= irr_end r)%Q.
Proof.
  intros it a m. unfold is_rotation_allowed. rewrite existsb_exists. split.
  - intros (r & H & E). apply andb_true_iff in E. destruct E as [E E3]. apply andb_true_iff in E. destruct E as [E1 E2].
    apply eqb_prop in E1. apply Qle_bool_iff in E2, E3. eauto.
  - intros (r & H & <- & E2 & E3). exists r. split; [exact H|]. rewrite eqb_reflx. cbn [andb].
    apply andb_true_iff. split; apply Qle_bool_iff; assumption.
Qed.

Lemma irb_run_spec : forall calls bins bins', irb_run i bins calls = Some bins' ->
  (forall b, In b bins -> irraw_ok b) ->
  map irview_bin bins' = irdesc_run (map irview_bin bins) calls /\ (forall b, In b bins' -> irraw_ok b).
Proof.
  induction calls as [|call calls IH]; intros bins bins' H Hraw; cbn [irb_run] in H.
  - injection H as <-. auto.
  - destruct (irb_call i bins call) as [bins1|] eqn:E; [|discriminate]. destruct call as [t n|pos p]; cbn [irb_call] in E.
    + unfold irb_add_bin in E. destruct (irin_range i t []) eqn:Er; [|discriminate]. injection E as <-.
      destruct (IH _ _ H) as [H1 H2].
      * intros b Hb. apply in_snoc in Hb. destruct Hb as [Hb| ->]; [auto|].
        unfold irin_range in Er. apply andb_true_iff in Er. destruct Er as [Er _]. apply Nat.ltb_lt in Er. split; [exact Er|]. split; [intros p []|split; reflexivity].
      * rewrite map_app in H1. auto.
    + unfold irb_add_item in E. destruct (_ && _) eqn:Er; [|discriminate]. injection E as <-.
      apply andb_true_iff in Er. destruct Er as [Er Er3]. apply andb_true_iff in Er. destruct Er as [Er1 Er2]. apply Nat.ltb_lt in Er2.
      destruct (IH _ _ H) as [H1 H2].
      * intros b Hb. apply in_upd in Hb. destruct Hb as [Hb|(c & Hc & ->)]; [auto|].
        destruct (Hraw c Hc) as (R1 & R2 & R3). split; [exact R1|]. split; [|exact R3]. cbn [irs_items].
        intros q Hq. apply in_snoc in Hq. destruct Hq as [Hq| ->]; [auto|]. split; [exact Er2|exact Er3].
      * split; [|assumption]. rewrite H1. cbn [irdesc_run]. f_equal. apply map_upd. intro b. reflexivity.
Qed.

Lemma irmap_id_mapped : forall ids id r, map_id ids id = Some r -> r = irmapped ids id.
Proof.
  intros [|a ids] id r H; cbn [map_id irmapped] in *; [congruence|]. symmetry. apply nth_error_nth. exact H.
Qed.

Lemma irmap_ids_mapped : forall ids l r, irmap_ids ids l = Some r ->
  r = map (fun p => mkIrP (irmapped ids (ip_type p)) (ip_x p) (ip_y p) (ip_angle p) (ip_mirror p) (ip_fixed p)) l.
Proof.
  intros ids l. induction l as [|p l IH]; intros r H; cbn [irmap_ids] in H; [injection H as <-; reflexivity|].
  destruct (map_id ids (ip_type p)) eqn:E1; [|discriminate]. destruct (irmap_ids ids l) eqn:E2; [|discriminate].
  injection H as <-. cbn [map]. rewrite (irmap_id_mapped _ _ _ E1), (IH _ eq_refl). reflexivity.
Qed.

Lemma irin_range_ok : forall t ps, irin_range i t ps = true -> (t < length (ir_bins i))%nat /\
  forall p, In p ps -> (ip_type p < length (ir_items i))%nat.
Proof.
  intros t ps H. unfold irin_range in H. apply andb_true_iff in H. destruct H as [H1 H2]. apply Nat.ltb_lt in H1.
  split; [exact H1|]. intros p Hp. rewrite forallb_forall in H2. apply Nat.ltb_lt, H2, Hp.
Qed.

Definition IrGood (s : IrSolution) : Prop := IrFull i cb s /\ forall d, In d (irview s) -> irdesc_ok i d.

Lemma irappend_bin_spec : forall s source pos copies bids iids s',
  IrGood s -> irappend_bin i cb s source pos copies bids iids = Some s' ->
  0 <= copies -> exists d, nth_error (irview source) pos = Some d /\ IrGood s' /\
    irview s' = irview s ++ [irmapped_desc bids iids copies d].
Proof.
  intros s source pos copies bids iids s' [F D] H Hc. unfold irappend_bin in H.
  destruct (nth_error (irc_bins (irsol_core source)) pos) as [b|] eqn:Eb; [|discriminate].
  destruct (map_id bids (irs_type b)) as [t|] eqn:Et; [|discriminate].
  destruct (irmap_ids iids (irs_items b)) as [items|] eqn:Ei; [|discriminate].
  destruct (irin_range i t items) eqn:Er; [|discriminate]. injection H as <-.
  destruct (irin_range_ok _ _ Er) as [R1 R2].
  assert (Hd : irdesc_ok i (irview_bin (irraw_bin t copies items))) by (split; [exact R1|split; [exact R2|exact Hc]]).
  destruct (irpush_full s _ F D Hd (conj (Qeq_refl 0) eq_refl)) as [F' V].
  exists (irview_bin b). split; [unfold irview; rewrite nth_error_map, Eb; reflexivity|].
  split; [split; [exact F'|]|].
  - intros d Hin. rewrite V in Hin. apply in_snoc in Hin. destruct Hin as [Hin| ->]; [apply D; assumption|exact Hd].
  - rewrite V. f_equal. f_equal. unfold irmapped_desc, irview_bin, irraw_bin. cbn [irs_type irs_copies irs_items ird_type ird_items].
    rewrite (irmap_id_mapped _ _ _ Et), (irmap_ids_mapped _ _ _ Ei). reflexivity.
Qed.

Lemma irappend_from_spec : forall source bids iids positions s s',
  (forall d, In d (irview source) -> 0 <= ird_copies d) -> IrGood s ->
  irappend_from i cb s source bids iids positions = Some s' ->
  exists ds, map (nth_error (irview source)) positions = map Some ds /\ IrGood s' /\
    irview s' = irview s ++ map (fun d => irmapped_desc bids iids (ird_copies d) d) ds.
Proof.
  intros source bids iids positions. induction positions as [|pos rest IH]; intros s s' Hc G H; cbn [irappend_from] in H.
  - injection H as <-. exists []. split; [reflexivity|]. split; [exact G|]. rewrite app_nil_r. reflexivity.
  - destruct (nth_error (irc_bins (irsol_core source)) pos) as [b|] eqn:Eb; [|discriminate].
    destruct (irappend_bin i cb s source pos (irs_copies b) bids iids) as [s1|] eqn:E1; [|discriminate].
    assert (Hv : nth_error (irview source) pos = Some (irview_bin b)) by (unfold irview; rewrite nth_error_map, Eb; reflexivity).
    assert (Hcb : 0 <= irs_copies b) by (apply (Hc (irview_bin b)); eapply nth_error_In; exact Hv).
    destruct (irappend_bin_spec _ _ _ _ _ _ _ G E1 Hcb) as (d & A1 & A2 & A3).
    rewrite Hv in A1. injection A1 as <-.
    destruct (IH s1 s' Hc A2 H) as (ds & B1 & B2 & B3). exists (irview_bin b :: ds). split; [|split; [exact B2|]].
    + cbn [map]. rewrite Hv, B1. reflexivity.
    + rewrite B3, A3, <- app_assoc. reflexivity.
Qed.

Lemma irsol_run_spec : forall calls s s', IrGood s -> (forall d, In d (flat_map ircall_bins calls) -> 0 <= ird_copies d) ->
  irsol_run i cb s calls = Some s' -> IrGood s' /\ irview s' = irview s ++ flat_map ircall_bins calls.
Proof.
  induction calls as [|c calls IH]; intros s s' G Hc H; cbn [irsol_run] in H.
  - injection H as <-. split; [exact G|]. cbn [flat_map]. rewrite app_nil_r. reflexivity.
  - destruct (irsol_call i cb s c) as [s1|] eqn:E; [|discriminate]. cbn [flat_map] in Hc.
    assert (A : IrGood s1 /\ irview s1 = irview s ++ ircall_bins c).
    { assert (Hc1 : forall d, In d (ircall_bins c) -> 0 <= ird_copies d) by (intros d Hd; apply Hc, in_or_app; left; exact Hd).
      destruct c as [source pos copies bids iids|source bids iids|t copies]; cbn [irsol_call ircall_bins] in *.
      - assert (E0 : exists d, nth_error (irview source) pos = Some d).
        { unfold irappend_bin in E. destruct (nth_error (irc_bins (irsol_core source)) pos) as [b|] eqn:Eb; [|discriminate].
          exists (irview_bin b). unfold irview. rewrite nth_error_map, Eb. reflexivity. }
        destruct E0 as (d0 & E0). rewrite E0 in Hc1. specialize (Hc1 _ (or_introl eq_refl)). cbn [ird_copies irmapped_desc] in Hc1.
        destruct (irappend_bin_spec _ _ _ _ _ _ _ G E Hc1) as (d & A1 & A2 & A3). rewrite E0 in A1. injection A1 as <-.
        rewrite E0. auto.
      - assert (Hs : forall d, In d (irview source) -> 0 <= ird_copies d).
        { intros d Hd. apply (Hc1 (irmapped_desc bids iids (ird_copies d) d)).
          apply (in_map (fun d => irmapped_desc bids iids (ird_copies d) d)). exact Hd. }
        destruct (irappend_from_spec _ _ _ _ _ _ Hs G E) as (ds & A1 & A2 & A3). split; [exact A2|].
        rewrite A3. f_equal. f_equal. apply map_nth_error_seq. rewrite <- A1. unfold irview. rewrite map_length. reflexivity.
      - unfold irappend_empty in E. destruct (irin_range i t []) eqn:Er; [|discriminate]. injection E as <-.
        destruct G as [F D]. destruct (irin_range_ok _ _ Er) as [R1 _].
        assert (Hd : irdesc_ok i (irview_bin (irraw_bin t copies []))).
        { split; [exact R1|]. split; [intros p []|]. apply (Hc1 (mkIrD t copies [])). left. reflexivity. }
        destruct (irpush_full s _ F D Hd (conj (Qeq_refl 0) eq_refl)) as [F' V]. split; [split; [exact F'|]|exact V].
        intros d Hin. rewrite V in Hin. apply in_snoc in Hin. destruct Hin as [Hin| ->]; [apply D; assumption|exact Hd]. }
    destruct A as [A1 A2].
    destruct (IH s1 s' A1) as [B1 B2]; [intros d Hd; apply Hc, in_or_app; right; exact Hd|exact H|].
    split; [exact B1|]. rewrite B2, A2, <- app_assoc. reflexivity.
Qed.

End Hist.

Lemma irhistory_spec : forall i cb, irwf_resources i -> forall calls1 calls2 s, irhistory i cb calls1 calls2 = Some s -> ircopies_nonneg calls1 calls2 ->
  IrGood i cb s /\ irview s = irdesc_run [] calls1 ++ flat_map ircall_bins calls2.
Proof.
  intros i cb Hwf calls1 calls2 s H Hc. unfold irhistory in H. destruct (irb_run i [] calls1) as [bins|] eqn:E; [|discriminate].
  destruct (irb_run_spec i calls1 [] bins E) as [V1 V2]; [intros b []|]. cbn [map] in V1.
  assert (Hb : forall b, In b bins -> irdesc_ok i (irview_bin b)).
  { intros b Hb. destruct (V2 b Hb) as (R1 & R2 & _). split; [exact R1|]. split; [intros p Hp; apply (R2 p Hp)|]. apply Hc, in_or_app. left.
    rewrite <- V1. apply in_map. assumption. }
  destruct (irbuild_full i cb Hwf bins Hb (fun b H => proj2 (proj2 (V2 b H)))) as [F V].
  destruct (irsol_run_spec i cb Hwf calls2 (irb_build i cb bins) s) as [G1 G2].
  - split; [exact F|]. rewrite V. intros d Hd. apply in_map_iff in Hd. destruct Hd as (b & <- & Hin). apply Hb, Hin.
  - intros d Hd. apply Hc, in_or_app. right. exact Hd.
  - exact H.
  - split; [exact G1|]. rewrite G2, V, V1. reflexivity.
Qed.

Lemma irresources_whole : forall i d, irsane_resources i -> irdesc_ok i d -> (irresources_ok i d <-> irresources_ok_end i d).
Proof.
  intros i d Hs (Hd & _). unfold irresources_ok, irresources_ok_end. split.
  - intros H r Hr Hp. specialize (H r Hr Hp). destruct (Hs (irbin i (ird_type d)) r (nth_In _ _ Hd) Hr) as [Hcap Hq].
    induction (ird_items d) as [|p l IH] using rev_ind.
    + rewrite <- irproj_consumption. cbn [map]. rewrite consumption_nil. exact Hcap.
    + apply prefall_snoc in H. destruct H as [H1 H2].
      destruct (nth (ip_type p) (res_item_consumptions r) []) as [|q0 s0] eqn:Es; [|apply H2; congruence].
      assert (Heq : (irconsumption i r (l ++ [p]) == irconsumption i r l)%Q).
      { unfold irconsumption. apply qsum_ext. intros y _. unfold ircount. rewrite filter_app, app_length. cbn [filter].
        destruct (Nat.eqb_spec (ip_type p) y) as [<-|Hn].
        - rewrite Es. assert (Hz : forall n, (schedule_total [] n == 0)%Q).
          { induction n as [|n IHn]; simpl; [reflexivity|]. rewrite IHn. destruct n; reflexivity. }
          rewrite !Hz. reflexivity.
        - cbn [length]. rewrite Nat.add_0_r. reflexivity. }
      rewrite Heq. apply IH. exact H1.
  - intros H r Hr Hp before p after E _. eapply Qle_trans; [|apply (H r Hr Hp)]. rewrite E.
    destruct (Hs (irbin i (ird_type d)) r (nth_In _ _ Hd) Hr) as [_ Hq].
    unfold irconsumption. apply qsum_le. intros x _. apply schedule_total_mono.
    + intros q Hin. destruct (nth_in_or_default x (res_item_consumptions r) []) as [Hi|Hi]; [apply (Hq _ q Hi Hin)|].
      rewrite Hi in Hin. destruct Hin.
    + unfold ircount. rewrite !filter_app, !app_length. cbn [filter]. destruct (Nat.eqb (ip_type p) x); cbn [length]; lia.
Qed.

(** ** Leftover *)

Lemma leftover_spec : forall i m b ps e, ps <> [] -> ExtOf i ps e -> box_proper b ->
  (forall p, In p ps -> box_in (place_box i p) b /\ box_proper (place_box i p)) ->
  LeftoverOf m b (map (place_box i) ps) (leftover_of m b e) /\
  (0 <= leftover_of m b e <= box_area b)%Q.
Proof.
  intros i m b ps [[x0|] [x1|] [y0|] [y1|]] Hne (A & B & C & D) [P1 P2] Hin; cbn [ie_xmin ie_xmax ie_ymin ie_ymax LeastOf LargestOf] in *;
    try congruence.
  destruct A as [(pa & A1 & A2) A3]. destruct B as [(pb & B1 & B2) B3]. destruct C as [(pc & C1 & C2) C3]. destruct D as [(pd & D1 & D2) D3].
  destruct (Hin pa A1) as [(a1 & a2 & a3 & a4) [a5 a6]]. destruct (Hin pb B1) as [(b1 & b2 & b3 & b4) [b5 b6]].
  destruct (Hin pc C1) as [(c1 & c2 & c3 & c4) [c5 c6]]. destruct (Hin pd D1) as [(d1 & d2 & d3 & d4) [d5 d6]].
  assert (E1 : (ix_min b <= x0)%Q) by lra. assert (E2 : (x1 <= ix_max b)%Q) by lra.
  assert (E3 : (iy_min b <= y0)%Q) by lra. assert (E4 : (y1 <= iy_max b)%Q) by lra.
  assert (E5 : (x0 <= x1)%Q) by (pose proof (A3 pb B1); lra).
  assert (E6 : (y0 <= y1)%Q) by (pose proof (C3 pd D1); lra).
  set (r := match m with
    | LBottomLeft => mkIrBox (ix_min b) x1 (iy_min b) y1 | LBottomRight => mkIrBox x0 (ix_max b) (iy_min b) y1
    | LTopLeft => mkIrBox (ix_min b) x1 y0 (iy_max b) | LTopRight => mkIrBox x0 (ix_max b) y0 (iy_max b)
    | LLeft => mkIrBox (ix_min b) x1 (iy_min b) (iy_max b) | LRight => mkIrBox x0 (ix_max b) (iy_min b) (iy_max b)
    | LBottom => mkIrBox (ix_min b) (ix_max b) (iy_min b) y1 | LTop => mkIrBox (ix_min b) (ix_max b) y0 (iy_max b) end).
  assert (R0 : box_in r b) by (unfold r; destruct m; unfold box_in; cbn [ix_min ix_max iy_min iy_max]; repeat split; lra).
  assert (Rp : (0 <= ix_max r - ix_min r /\ 0 <= iy_max r - iy_min r)%Q)
    by (unfold r; destruct m; cbn [ix_min ix_max iy_min iy_max]; split; lra).
  assert (RA : (leftover_of m b (mkIrE (Some x0) (Some x1) (Some y0) (Some y1)) == box_area b - box_area r)%Q)
    by (unfold r, leftover_of, box_area; destruct m; cbn [ext_q ie_xmin ie_xmax ie_ymin ie_ymax ix_min ix_max iy_min iy_max]; ring).
  assert (Rin : forall c, In c (map (place_box i) ps) -> box_in c r).
  { intros c Hc. apply in_map_iff in Hc. destruct Hc as (p & <- & Hp).
    pose proof (A3 p Hp). pose proof (B3 p Hp). pose proof (C3 p Hp). pose proof (D3 p Hp).
    destruct (Hin p Hp) as [(k1 & k2 & k3 & k4) _].
    unfold r; destruct m; unfold box_in; cbn [ix_min ix_max iy_min iy_max]; repeat split; lra. }
  assert (mono : forall w h w' h', (0 <= w -> w <= w' -> 0 <= h -> h <= h' -> w * h <= w' * h')%Q) by (intros; nra).
  split; [split|].
  - exists r. split; [unfold r; destruct m; cbn; repeat split; reflexivity|]. split; [exact R0|]. split; [exact Rin|exact RA].
  - intros r' HA (I1 & I2 & I3 & I4) Hc. rewrite RA.
    destruct (Hc _ (in_map _ _ _ A1)) as (q1 & _ & _ & _). destruct (Hc _ (in_map _ _ _ B1)) as (_ & q2 & _ & _).
    destruct (Hc _ (in_map _ _ _ C1)) as (_ & _ & q3 & _). destruct (Hc _ (in_map _ _ _ D1)) as (_ & _ & _ & q4).
    assert (K : (box_area r <= box_area r')%Q).
    { unfold box_area. destruct Rp as [Rp1 Rp2].
      apply mono; [exact Rp1| |exact Rp2|]; unfold r in *; destruct m; cbn [anchored ix_min ix_max iy_min iy_max] in *; lra. }
    lra.
  - rewrite RA. destruct R0 as (I1 & I2 & I3 & I4). destruct Rp as [Rp1 Rp2].
    assert (K : (box_area r <= box_area b)%Q) by (unfold box_area; apply mono; lra).
    assert (K0 : (0 <= box_area r)%Q) by (unfold box_area; nra). lra.
Qed.

(** ** Comparison of square roots *)

Lemma sqrt_greater_above : forall e a b c, (0 <= e -> 0 <= a -> 0 <= b -> 0 <= c -> b <= c * c -> (c + e) * (c + e) < a ->
  sqrt_greater e a b = true)%Q.
Proof.
  intros e a b c He Ha Hb Hc H1 H2. unfold sqrt_greater.
  rewrite (proj2 (Qltb_ge _ _) Ha), (proj2 (Qltb_ge _ _) Hb). cbn [orb].
  assert (Hec : (0 <= e * c)%Q) by (apply Qmult_le_0_compat; assumption).
  assert (Hd : (2 * (e * c) < a - b - e * e)%Q) by nra.
  apply andb_true_iff. split; apply Qltb_lt; [lra|].
  assert (L1 : (4 * e * e * b <= (2 * (e * c)) * (2 * (e * c)))%Q).
  { assert (He2 : (0 <= e * e)%Q) by (apply Qmult_le_0_compat; assumption).
    assert (K : (0 <= (e * e) * (c * c - b))%Q) by (apply Qmult_le_0_compat; lra).
    assert (X : ((2 * (e * c)) * (2 * (e * c)) - 4 * e * e * b == 4 * ((e * e) * (c * c - b)))%Q) by ring. lra. }
  set (u := (2 * (e * c))%Q) in *. set (v := (a - b - e * e)%Q) in *.
  assert (Hu : (0 <= u)%Q) by (unfold u; lra).
  assert (L2 : (u * u < v * v)%Q) by nra. lra.
Qed.

Lemma sqrt_greater_below : forall e a b c, (0 <= e -> 0 <= c -> c * c <= b -> a <= (c + e) * (c + e) ->
  sqrt_greater e a b = false)%Q.
Proof.
  intros e a b c He Hc H1 H2. unfold sqrt_greater. destruct (Qltb a 0 || Qltb b 0); [reflexivity|].
  assert (Hec : (0 <= e * c)%Q) by (apply Qmult_le_0_compat; assumption).
  assert (Hd : (a - b - e * e <= 2 * (e * c))%Q) by nra.
  destruct (Qltb 0 (a - b - e * e)) eqn:E; [|reflexivity]. apply Qltb_lt in E. cbn [andb]. apply Qltb_ge.
  assert (He2 : (0 <= e * e)%Q) by (apply Qmult_le_0_compat; assumption).
  assert (K : (0 <= (e * e) * (b - c * c))%Q) by (apply Qmult_le_0_compat; lra).
  assert (X : (4 * e * e * b - (2 * (e * c)) * (2 * (e * c)) == 4 * ((e * e) * (b - c * c)))%Q) by ring.
  set (u := (2 * (e * c))%Q) in *. set (v := (a - b - e * e)%Q) in *.
  assert (L2 : (v * v <= u * u)%Q) by nra. lra.
Qed.

Lemma sqrt_greater_lt : forall e a b, sqrt_greater e a b = true -> (b < a)%Q.
Proof.
  intros e a b H. unfold sqrt_greater in H. destruct (Qltb a 0 || Qltb b 0); [discriminate|].
  apply andb_true_iff in H. destruct H as [H _]. apply Qltb_lt in H.
  assert (0 <= e * e)%Q by nra. lra.
Qed.
