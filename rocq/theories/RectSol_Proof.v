(** * Proofs about the rectangle solution

    The counters shared with the onedimensional solution are obtained from it:
    the loop does the same thing on the instance whose lengths are the areas. *)

From Coq Require Import List ZArith QArith Bool Lia Arith Lqa.
From Verif Require Import Util Common_Model Common_Spec OneDim_Model OneDim_Spec OneDim_Proof.
From Verif Require Import Rect_Model Rect_Spec RectSol_Model RectSol_Spec.
Import ListNotations.
Open Scope Z_scope.

Definition proj_item (it : RItem) : ItemType :=
  mkIT (ri_area it) (ri_profit it) (ri_copies it) (ri_copies_min it) (ri_weight it) 0 0 None (-1) (ri_resource_ids it).
Definition proj_bin (bt : RBin) : BinType :=
  mkBT (rb_area bt) (rb_cost bt) (rb_copies bt) (rb_copies_min bt) None [] (rb_resources bt) [].
Definition proj (i : RInstance) : Instance :=
  mkInst (rin_objective i) (map proj_item (rin_items i)) (map proj_bin (rin_bins i))
    [] [] 0 0 0 0 0 0 None 0 false.
Definition pdesc (d : RDesc) : BinDesc := mkBD (rd_type d) (rd_copies d) (map pl_type (rd_items d)).

Lemma proj_item_type : forall i x, item_type (proj i) x = proj_item (ritem i x).
Proof. intros i x. unfold item_type, ritem. cbn [in_item_types proj]. change dummy_item with (proj_item dummy_ritem). apply map_nth. Qed.
Lemma proj_bin_type : forall i t, bin_type (proj i) t = proj_bin (rbin i t).
Proof. intros i t. unfold bin_type, rbin. cbn [in_bin_types proj]. change dummy_bin with (proj_bin dummy_rbin). apply map_nth. Qed.
Lemma proj_items_length : forall i, length (in_item_types (proj i)) = length (rin_items i).
Proof. intro i. apply map_length. Qed.
Lemma proj_bins_length : forall i, length (in_bin_types (proj i)) = length (rin_bins i).
Proof. intro i. apply map_length. Qed.

(** The resource loop does not look at the profit. *)
Lemma resource_fold_shift : forall bt x copy ids u p ok u' p' ok' q a,
  fold_left (resource_step bt x copy) ids (u, p, ok) = (u', p', ok') -> (q == p + a)%Q ->
  exists q', fold_left (resource_step bt x copy) ids (u, q, ok) = (u', q', ok') /\ (q' == p' + a)%Q.
Proof.
  intros bt x copy ids. induction ids as [|r ids IH]; intros u p ok u' p' ok' q a H E.
  - cbn [fold_left] in *. injection H as -> -> ->. exists q. split; [reflexivity|assumption].
  - cbn [fold_left] in *. unfold resource_step at 2 in H. unfold resource_step at 2.
    destruct (Qltb _ _); [|eapply IH; eassumption].
    destruct (res_penalize _); [|eapply IH; eassumption].
    destruct (Qle_bool _ _); [|eapply IH; eassumption].
    eapply IH; [eassumption|]. rewrite E. ring.
Qed.

Record SimLoop (rl : RLoop) (lo : Loop) : Prop := {
  sl_res : rl_resources rl = lo_resources lo;
  sl_cib : rl_copies_in_bin rl = lo_copies_in_bin lo;
  sl_nit : rl_number_of_items rl = lo_number_of_items lo;
  sl_area : rl_item_area rl = lo_item_length lo;
  sl_profit : (rl_item_profit rl == lo_item_profit lo)%Q;
  sl_ic : rl_item_copies rl = lo_item_copies lo;
  sl_rok : rl_resource_ok rl = lo_resource_ok lo
}.

Lemma sim_step : forall i t n last area rl lo p,
  SimLoop rl lo -> SimLoop (ritem_step i t n last area rl p) (item_step (proj i) t n lo (mkSI (pl_type p) 0)).
Proof.
  intros i t n last area rl lo p [H1 H2 H3 H4 H5 H6 H7].
  unfold ritem_step, item_step. cbn [si_type]. rewrite proj_item_type, proj_bin_type. cbn [it_resource_ids proj_item].
  destruct (fold_left (resource_step (proj_bin (rbin i t)) _ _) _ _) as [[u' p'] ok'] eqn:E.
  destruct (resource_fold_shift _ _ _ _ _ _ _ _ _ _ (rl_item_profit rl + inject_Z n * ri_profit (ritem i (pl_type p)))%Q
    (inject_Z n * ri_profit (ritem i (pl_type p)))%Q E) as (q' & E' & Eq).
  { rewrite H5. reflexivity. }
  change (rresource_step (rbin i t)) with (resource_step (proj_bin (rbin i t))).
  rewrite H1, H2, H7. rewrite E'.
  destruct (fold_left (group_step _ _ _) _ _) as [[[ws ms] middle] rear].
  constructor; cbn [rl_resources rl_copies_in_bin rl_number_of_items rl_item_area rl_item_profit rl_item_copies
    rl_resource_ok lo_resources lo_copies_in_bin lo_number_of_items lo_item_length lo_item_profit lo_item_copies
    lo_resource_ok it_length it_profit proj_item]; try congruence.
Qed.

Lemma sim_fold : forall i t n last area ps rl lo,
  SimLoop rl lo -> SimLoop (fold_left (ritem_step i t n last area) ps rl)
    (fold_left (item_step (proj i) t n) (map (fun p => mkSI (pl_type p) 0) ps) lo).
Proof. intros i t n last area ps. induction ps as [|p ps IH]; intros rl lo H; [exact H|]. cbn [fold_left map]. apply IH, sim_step, H. Qed.

(** ** The rest of the loop *)

Record LoopRest (i : RInstance) (t : nat) (n : Z) (last : bool) (area : Z) (ps : list Place) (lo0 lo : RLoop) : Prop := {
  lr_weight : (rl_item_weight lo == rl_item_weight lo0
    + inject_Z n * qsum (fun p => ri_weight (ritem i (pl_type p))) ps)%Q;
  lr_xy : if last then rl_x_max lo = Z.max (rl_x_max lo0) (rightmost i ps) /\ rl_y_max lo = Z.max (rl_y_max lo0) (topmost i ps)
          else rl_x_max lo = rl_x_max lo0 /\ rl_y_max lo = rl_y_max lo0;
  lr_area : last = true -> ps <> [] -> rl_area lo = area - rb_area (rbin i t) + rl_x_max lo * rl_y_max lo
    /\ rl_leftover lo = match rp_leftover (rin_params i) with
      | LArea => area - rl_area lo | LX => rb_x (rbin i t) - rl_x_max lo | LY => rb_y (rbin i t) - rl_y_max lo end
}.

Lemma fold_max_app : forall l1 l2, fold_right Z.max 0 (l1 ++ l2) = Z.max (fold_right Z.max 0 l1) (fold_right Z.max 0 l2).
Proof. intros l1 l2. induction l1 as [|x l1 IH]; simpl; [|rewrite IH; lia].
  assert (0 <= fold_right Z.max 0 l2) by (clear; induction l2; simpl; lia). lia. Qed.
Lemma rightmost_nonneg : forall i ps, 0 <= rightmost i ps /\ 0 <= topmost i ps.
Proof. intros i ps. unfold rightmost, topmost. induction ps as [|p ps IH]; simpl; lia. Qed.
Lemma rightmost_snoc : forall i ps p, rightmost i (ps ++ [p]) = Z.max (rightmost i ps) (pl_xe i p)
  \/ pl_xe i p < 0.
Proof. intros. unfold rightmost. rewrite map_app, fold_max_app. simpl. pose proof (rightmost_nonneg i ps) as [H _]. unfold rightmost in H. lia. Qed.

Lemma loop_rest : forall i t n last area lo0 ps, 0 <= rl_x_max lo0 -> 0 <= rl_y_max lo0 ->
  LoopRest i t n last area ps lo0 (fold_left (ritem_step i t n last area) ps lo0).
Proof.
  intros i t n last area lo0 ps Hx Hy. induction ps as [|p ps IH] using rev_ind.
  - constructor; cbn [fold_left].
    + unfold qsum; simpl. ring.
    + destruct last; unfold rightmost, topmost; simpl; lia.
    + congruence.
  - rewrite fold_left_app. cbn [fold_left]. set (lo := fold_left _ ps lo0) in *.
    destruct IH as [I1 I2 I3]. unfold ritem_step.
    destruct (fold_left (rresource_step _ _ _) _ _) as [[u' p'] ok'].
    destruct (fold_left (group_step _ _ _) _ _) as [[[ws ms] middle] rear].
    assert (EX : pl_x p + ri_width (ritem i (pl_type p)) (pl_rot p) = pl_xe i p) by reflexivity.
    assert (EY : pl_y p + ri_height (ritem i (pl_type p)) (pl_rot p) = pl_ye i p) by reflexivity.
    rewrite EX, EY.
    constructor; cbn [rl_item_weight rl_x_max rl_y_max rl_area rl_leftover].
    + rewrite qsum_snoc, I1. ring.
    + destruct last; [|exact I2]. destruct I2 as [-> ->]. unfold rightmost, topmost.
      rewrite !map_app, !fold_max_app. simpl. pose proof (rightmost_nonneg i ps) as [R1 R2]. unfold rightmost, topmost in R1, R2. lia.
    + intros -> _. split; reflexivity.
Qed.

(** ** One update *)

Definition rdesc_ok (i : RInstance) (d : RDesc) : Prop :=
  (rd_type d < length (rin_bins i))%nat /\
  (forall p, In p (rd_items d) -> (pl_type p < length (rin_items i))%nat) /\ 0 <= rd_copies d.

Record Match (rc : RCore) (c : Core) : Prop := {
  ma_nb : rc_number_of_bins rc = c_number_of_bins c;
  ma_ni : rc_number_of_items rc = c_number_of_items c;
  ma_ba : rc_bin_area rc = c_bin_length c;
  ma_ia : rc_item_area rc = c_item_length c;
  ma_pr : (rc_item_profit rc == c_item_profit c)%Q;
  ma_co : rc_bin_cost rc = c_bin_cost c;
  ma_bc : rc_bin_copies rc = c_bin_copies c;
  ma_ic : rc_item_copies rc = c_item_copies c;
  ma_ro : rc_resource_ok rc = c_resource_ok c
}.

Record RInv (i : RInstance) (ds : list RDesc) (rc : RCore) : Prop := {
  rv_core : exists c, CoreInv (proj i) (map pdesc ds) c /\ Match rc c;
  rv_weight : (rc_item_weight rc
    == qsum (fun d => inject_Z (rd_copies d) * qsum (fun p => ri_weight (ritem i (pl_type p))) (rd_items d)) ds)%Q;
  rv_max_weight : match rc_bin_weight rc with
    | Some w => (forall d, In d ds -> rb_max_weight (rbin i (rd_type d)) <> None) /\
        (w == qsum (fun d => inject_Z (rd_copies d) * match rb_max_weight (rbin i (rd_type d)) with Some m => m | None => 0 end) ds)%Q
    | None => exists d, In d ds /\ rb_max_weight (rbin i (rd_type d)) = None
    end
}.

Lemma wf_proj : forall i, rwf_resources i -> wf_resource_ids (proj i).
Proof.
  intros i H x t Hx Ht. rewrite proj_items_length in Hx. rewrite proj_bins_length in Ht.
  rewrite proj_item_type, proj_bin_type. exact (H x t Hx Ht).
Qed.

Lemma pdesc_ok : forall i d, rdesc_ok i d -> desc_ok (proj i) (pdesc d).
Proof.
  intros i d (H1 & H2 & H3). split; [rewrite proj_bins_length; exact H1|]. split; [|exact H3].
  intros x Hx. cbn [bd_items pdesc] in Hx. apply in_map_iff in Hx. destruct Hx as (p & <- & Hp). rewrite proj_items_length. apply H2. assumption.
Qed.

Definition accept_all : Callback := fun _ => true.

Lemma core_inv_rebins : forall i ds s bins, CoreInv i ds (s_core s) -> CoreInv i ds (s_core (with_bins s bins)).
Proof.
  intros i ds s bins [[A1 A2 A3 A4 A5 A6 A7 A8 A9] B1 B2 B3 B4 B5 B6 B7 B8 B9].
  constructor; try assumption. constructor; assumption.
Qed.

Lemma rupdate_inv : forall i cb ds s pos b, rwf_resources i -> RInv i ds (rs_core s) ->
  (forall d, In d ds -> rdesc_ok i d) -> nth_error (rc_bins (rs_core s)) pos = Some b -> rdesc_ok i (rview_bin b) ->
  RInv i (ds ++ [rview_bin b]) (rs_core (rupdate i cb pos s)).
Proof.
  intros i cb ds s pos b Hwf [(c & HC & HM) HW HMW] Hds Hb Hd.
  set (b0 := raw_bin (rs_type b) (rs_copies b) (map (fun p => mkSI (pl_type p) 0) (rs_items b))).
  set (s0 := with_bins (mkSol c true true) [b0]).
  assert (Hv : view_bin b0 = pdesc (rview_bin b)).
  { unfold view_bin, b0, pdesc, rview_bin. cbn. rewrite map_map. reflexivity. }
  assert (Hd' : desc_ok (proj i) (view_bin b0)) by (rewrite Hv; apply pdesc_ok; assumption).
  assert (Hds' : forall d, In d (map pdesc ds) -> desc_ok (proj i) d).
  { intros d Hin. apply in_map_iff in Hin. destruct Hin as (d0 & <- & Hin). apply pdesc_ok, Hds, Hin. }
  destruct (update_core (proj i) accept_all (wf_proj i Hwf) (map pdesc ds) s0 0 b0
    (core_inv_rebins _ _ (mkSol c true true) [b0] HC) Hds' eq_refl Hd' (Qeq_refl _)) as (U & _).
  unfold rupdate. rewrite Hb.
  match goal with |- context [fold_left (ritem_step i (rs_type b) (rs_copies b) ?l ?a) (rs_items b) ?x] =>
    set (lb := l); set (ar := a); set (lo0 := x) end.
  pose proof (loop_rest i (rs_type b) (rs_copies b) lb ar lo0 (rs_items b) (Z.le_refl 0) (Z.le_refl 0)) as [R1 _ _].
  cbn [rs_core]. constructor.
  - exists (s_core (update_indicators (proj i) accept_all 0 s0)). split.
    + rewrite map_app. cbn [map]. rewrite <- Hv. exact U.
    + destruct HM as [M1 M2 M3 M4 M5 M6 M7 M8 M9].
      unfold update_indicators. cbn [s0 with_bins s_core c_bins nth_error].
      match goal with |- context [fold_left (item_step (proj i) _ _) _ ?x] => set (l0 := x) end.
      assert (S0 : SimLoop lo0 l0).
      { unfold lo0, l0. constructor; cbn [rl_resources rl_copies_in_bin rl_number_of_items rl_item_area rl_item_profit rl_item_copies
          rl_resource_ok lo_resources lo_copies_in_bin lo_number_of_items lo_item_length lo_item_profit lo_item_copies lo_resource_ok
          c_number_of_items c_item_length c_item_profit c_item_copies c_resource_ok]; try assumption.
        - unfold b0. cbn [sb_type raw_bin]. rewrite proj_bin_type. reflexivity.
        - rewrite proj_items_length. reflexivity. }
      pose proof (sim_fold i (rs_type b) (rs_copies b) lb ar (rs_items b) lo0 l0 S0) as [S1 S2 S3 S4 S5 S6 S7].
      change (sb_type b0) with (rs_type b). change (sb_copies b0) with (rs_copies b).
      change (sb_items b0) with (map (fun p => mkSI (pl_type p) 0) (rs_items b)).
      constructor; cbn [s_core rc_number_of_bins rc_number_of_items rc_bin_area rc_item_area rc_item_profit rc_bin_cost
        rc_bin_copies rc_item_copies rc_resource_ok c_number_of_bins c_number_of_items c_bin_length c_item_length
        c_item_profit c_bin_cost c_bin_copies c_item_copies c_resource_ok]; try assumption.
      * rewrite M1. reflexivity.
      * rewrite proj_bin_type. cbn [bt_length proj_bin]. unfold ar. rewrite M3. reflexivity.
      * rewrite proj_bin_type. cbn [bt_cost proj_bin]. rewrite M6. reflexivity.
      * rewrite M7. reflexivity.
  - cbn [rc_item_weight]. rewrite qsum_snoc, R1. unfold lo0. cbn [rl_item_weight]. rewrite HW. reflexivity.
  - cbn [rc_bin_weight]. destruct (rc_bin_weight (rs_core s)) as [w|]; cbn [add_bin_weight].
    + destruct HMW as [W1 W2]. destruct (rb_max_weight (rbin i (rs_type b))) as [m|] eqn:Em.
      * split.
        -- intros d Hin. apply in_app_or in Hin. destruct Hin as [Hin|[<-|[]]]; [auto|]. cbn [rd_type rview_bin]. congruence.
        -- rewrite qsum_snoc, W2. cbn [rd_type rd_copies rview_bin]. rewrite Em. reflexivity.
      * exists (rview_bin b). split; [apply in_or_app; right; left; reflexivity|exact Em].
    + destruct HMW as (d & D1 & D2). exists d. split; [apply in_or_app; left; exact D1|exact D2].
Qed.

(** ** Back to the rectangle vocabulary *)

Lemma count_pl : forall x ps, count_occ Nat.eq_dec (map pl_type ps) x = Z.to_nat (rcount x ps).
Proof.
  intros x ps. unfold rcount. rewrite Nat2Z.id. induction ps as [|p ps IH]; [reflexivity|]. cbn [map count_occ filter].
  destruct (Nat.eq_dec (pl_type p) x) as [E|E].
  - rewrite E, Nat.eqb_refl. cbn [length]. rewrite IH. reflexivity.
  - apply Nat.eqb_neq in E. rewrite E. exact IH.
Qed.
Lemma rcount_nonneg : forall x ps, 0 <= rcount x ps.
Proof. intros. unfold rcount. lia. Qed.

Lemma proj_consumption : forall i r ps, consumption (proj i) r (map pl_type ps) = rconsumption i r ps.
Proof.
  intros i r ps. unfold consumption, rconsumption. rewrite proj_items_length.
  induction (seq 0 (length (rin_items i))) as [|x l IH]; [reflexivity|]. cbn [qsum fold_right]. unfold qsum in IH. rewrite IH.
  rewrite count_pl. reflexivity.
Qed.
Lemma zsum_map' : forall A B (g : A -> B) (f : B -> Z) l, zsum f (map g l) = zsum (fun x => f (g x)) l.
Proof. intros A B g f l. induction l as [|x l IH]; [reflexivity|]. cbn [map]. rewrite !zsum_cons, IH. reflexivity. Qed.
Lemma qsum_map' : forall A B (g : A -> B) (f : B -> Q) l, qsum f (map g l) = qsum (fun x => f (g x)) l.
Proof. intros A B g f l. induction l as [|x l IH]; [reflexivity|]. cbn [map qsum fold_right]. unfold qsum in IH. rewrite IH. reflexivity. Qed.

Lemma proj_packed : forall x ds, packed x (map pdesc ds) = rpacked x ds.
Proof.
  intros x ds. unfold packed, rpacked. rewrite zsum_map'. apply zsum_ext. intros d _. cbn [bd_copies bd_items pdesc].
  rewrite count_pl, Z2Nat.id by apply rcount_nonneg. reflexivity.
Qed.
Lemma proj_used : forall t ds, used_bins t (map pdesc ds) = rused_bins t ds.
Proof. intros t ds. unfold used_bins, rused_bins. rewrite zsum_map'. reflexivity. Qed.

Lemma sane_proj : forall i, rsane_resources i -> sane_resources (proj i).
Proof.
  intros i H bt r Hbt Hr. cbn [in_bin_types proj] in Hbt. apply in_map_iff in Hbt. destruct Hbt as (bt0 & <- & Hbt).
  exact (H bt0 r Hbt Hr).
Qed.

Lemma rinv_indicators : forall i ds rc, RInv i ds rc -> RIndicators i ds rc.
Proof.
  intros i ds rc [(c & [[I1 I2 I3 I4 I5 I6 I7 I8 I9] _ _ _ _ _ _ _ _ _] & [M1 M2 M3 M4 M5 M6 M7 M8 M9]) HW HMW]. constructor.
  - rewrite M1, I1, zsum_map'. reflexivity.
  - rewrite M2, I2, zsum_map'. apply zsum_ext. intros d _. cbn [bd_copies bd_items pdesc]. rewrite map_length. reflexivity.
  - rewrite M3, I3, zsum_map'. apply zsum_ext. intros d _. cbn [bd_copies bd_type pdesc]. rewrite proj_bin_type. reflexivity.
  - rewrite M4, I4, zsum_map'. apply zsum_ext. intros d _. cbn [bd_copies bd_items pdesc]. rewrite zsum_map'.
    f_equal. apply zsum_ext. intros p _. rewrite proj_item_type. reflexivity.
  - rewrite M6, I5, qsum_map'. apply qsum_ext. intros d _. cbn [bd_copies bd_type pdesc]. rewrite proj_bin_type. reflexivity.
  - exact HW.
  - exact HMW.
  - intro Hs. rewrite M5, (I6 (sane_proj i Hs)), qsum_map'. unfold rnet_profit, rprofit.
    rewrite (qsum_ext _ _ (fun d => (inject_Z (rd_copies d) * qsum (fun p => ri_profit (ritem i (pl_type p))) (rd_items d)
      + (- rpenalties i d))%Q)).
    + rewrite qsum_plus.
      assert (E : (qsum (fun d => - rpenalties i d) ds == - qsum (rpenalties i) ds)%Q).
      { clear. induction ds as [|d ds IH]; [reflexivity|]. cbn [qsum fold_right]. unfold qsum in IH. rewrite IH. ring. }
      rewrite E. ring.
    + intros d _. cbn [bd_copies bd_items pdesc]. rewrite qsum_map'.
      assert (E1 : (qsum (fun x => it_profit (item_type (proj i) (pl_type x))) (rd_items d)
        == qsum (fun p => ri_profit (ritem i (pl_type p))) (rd_items d))%Q).
      { apply qsum_ext. intros p _. rewrite proj_item_type. reflexivity. }
      rewrite E1. assert (E2 : (penalties (proj i) (pdesc d) == rpenalties i d)%Q).
      { unfold penalties, rpenalties. cbn [bd_type bd_items pdesc]. rewrite proj_bin_type. cbn [bt_resources proj_bin].
        apply qsum_ext. intros r _. rewrite proj_consumption. reflexivity. }
      rewrite E2. ring.
  - intros t Ht. rewrite M7, I7 by (rewrite proj_bins_length; assumption). apply proj_used.
  - intros x Hx. rewrite M8, I8 by (rewrite proj_items_length; assumption). apply proj_packed.
Qed.

Lemma prefall_map : forall A B (g : A -> B) (P : list B -> B -> Prop) l,
  PrefAll P (map g l) <-> PrefAll (fun p x => P (map g p) (g x)) l.
Proof.
  intros A B g P l. split.
  - intros H p x q E. apply (H (map g p) (g x) (map g q)). rewrite E, map_app. reflexivity.
  - intros H p x q E. assert (G : exists p' x' q', l = p' ++ x' :: q' /\ map g p' = p /\ g x' = x).
    { clear H. revert p E. induction l as [|y l IH]; intros p E; [destruct p; discriminate|].
      destruct p as [|z p]; cbn [map app] in E; injection E as E1 E2.
      - exists [], y, l. auto.
      - destruct (IH p E2) as (p' & x' & q' & -> & <- & <-). exists (y :: p'), x', q'. subst z. auto. }
    destruct G as (p' & x' & q' & -> & <- & <-). apply (H p' x' q'). reflexivity.
Qed.

Lemma rinv_resources : forall i ds rc, RInv i ds rc ->
  (rc_resource_ok rc = true <-> forall d, In d ds -> resources_ok i d).
Proof.
  intros i ds rc [(c & HC & HM) _ _]. rewrite (ma_ro _ _ HM), (ci_res _ _ _ HC). unfold resources_ok. split.
  - intros H d Hd r Hr Hp. specialize (H (pdesc d) (in_map _ _ _ Hd) r). cbn [bd_type bd_items pdesc] in H.
    rewrite proj_bin_type in H. specialize (H Hr Hp). apply prefall_map in H.
    intros p x q E Hs. rewrite <- proj_consumption, map_app. exact (H p x q E Hs).
  - intros H d Hd r Hr Hp. apply in_map_iff in Hd. destruct Hd as (d0 & <- & Hd). cbn [bd_type bd_items pdesc] in *.
    rewrite proj_bin_type in Hr. apply prefall_map. intros p x q E Hs.
    change [pl_type x] with (map pl_type [x]). rewrite <- map_app, proj_consumption. exact (H d0 Hd r Hr Hp p x q E Hs).
Qed.

Lemma rmissing_zero : forall i l, rcount_missing i l = 0 <->
  forall x, (x < length (rin_items i))%nat -> ri_copies_min (ritem i x) <= nth x l 0.
Proof.
  intros i l. unfold rcount_missing. rewrite (count_fold _ (fun x => nth x l 0 <? ri_copies_min (ritem i x))), Z.add_0_l. split.
  - intros H x Hx. destruct (Z.ltb_spec (nth x l 0) (ri_copies_min (ritem i x))) as [Hlt|]; [|assumption]. exfalso.
    assert (Hin : In x (filter (fun x => nth x l 0 <? ri_copies_min (ritem i x)) (seq 0 (length (rin_items i)))))
      by (apply filter_In; split; [apply in_seq; lia|apply Z.ltb_lt; assumption]).
    destruct (filter _ _); [destruct Hin|simpl length in H; lia].
  - intro H. destruct (filter _ _) as [|x l'] eqn:E; [reflexivity|]. exfalso.
    assert (Hin : In x (x :: l')) by (left; reflexivity). rewrite <- E in Hin. apply filter_In in Hin.
    destruct Hin as [H1 H2]. apply in_seq in H1. apply Z.ltb_lt in H2. specialize (H x ltac:(lia)). lia.
Qed.

Lemma rcopies_ok_iff : forall i l, ritem_copies_ok i l = true <->
  forall x, (x < length (rin_items i))%nat -> nth x l 0 <= ri_copies (ritem i x).
Proof.
  intros i l. unfold ritem_copies_ok. rewrite forallb_forall. split.
  - intros H x Hx. apply Z.leb_le, H, in_seq. lia.
  - intros H x Hx. apply in_seq in Hx. apply Z.leb_le, H. lia.
Qed.

(** ** Flags, bins and extent after an update *)

Definition LastOK (i : RInstance) (s : RSolution) (d : RDesc) : Prop :=
  let c := rs_core s in
  rc_x_max c = rightmost i (rd_items d) /\ rc_y_max c = topmost i (rd_items d) /\
  (rd_items d <> [] ->
   rc_area c = rc_bin_area c - rb_area (rbin i (rd_type d)) + rc_x_max c * rc_y_max c /\
   rc_leftover c = match rp_leftover (rin_params i) with
     | LArea => rc_bin_area c - rc_area c
     | LX => rb_x (rbin i (rd_type d)) - rc_x_max c
     | LY => rb_y (rbin i (rd_type d)) - rc_y_max c end).

Lemma rupdate_flags : forall i cb s pos b, nth_error (rc_bins (rs_core s)) pos = Some b ->
  let s' := rupdate i cb pos s in
  rs_callback_ok s' = cb (rs_core s') /\
  (rs_feasible s' = true <->
     (forall x, (x < length (rin_items i))%nat ->
        ri_copies_min (ritem i x) <= nth x (rc_item_copies (rs_core s')) 0 <= ri_copies (ritem i x)) /\
     rc_resource_ok (rs_core s') = true /\ rs_callback_ok s' = true) /\
  (exists b', rc_bins (rs_core s') = upd pos (fun _ => b') (rc_bins (rs_core s)) /\ rview_bin b' = rview_bin b) /\
  (S pos = length (rc_bins (rs_core s)) -> LastOK i s' (rview_bin b)).
Proof.
  intros i cb s pos b Hb s'. unfold s', rupdate. rewrite Hb.
  match goal with |- context [fold_left (ritem_step i (rs_type b) (rs_copies b) ?l ?a) (rs_items b) ?x] =>
    set (lb := l); set (ar := a); set (lo0 := x) end.
  pose proof (loop_rest i (rs_type b) (rs_copies b) lb ar lo0 (rs_items b) (Z.le_refl 0) (Z.le_refl 0)) as [_ R2 R3].
  set (lo := fold_left _ _ lo0) in *.
  split; [reflexivity|]. split; [|split].
  - cbn [rs_feasible rs_core rc_item_copies rc_resource_ok rs_callback_ok]. rewrite !andb_true_iff, Z.eqb_eq, rmissing_zero, rcopies_ok_iff.
    split.
    + intros (((A & B) & C) & D). split; [|split; assumption]. intros x Hx. split; [apply D; assumption|apply A; assumption].
    + intros (A & B & C). split; [split; [split|]|]; try assumption; intros x Hx; apply (A x Hx).
  - eexists. split; [reflexivity|reflexivity].
  - intro Hlast. assert (El : lb = true) by (unfold lb; apply Nat.eqb_eq; lia). rewrite El in *.
    destruct R2 as [R2 R2']. unfold lo0 in R2, R2'. cbn [rl_x_max rl_y_max] in R2, R2'.
    pose proof (rightmost_nonneg i (rs_items b)) as [N1 N2].
    unfold LastOK, rview_bin. cbn [rs_core rc_x_max rc_y_max rc_area rc_leftover rc_bin_area rd_items rd_type].
    split; [lia|]. split; [lia|]. intro Hne. destruct (R3 eq_refl Hne) as [R4 R5]. split; [exact R4|exact R5].
Qed.

(** ** Whole histories *)

Record RFull (i : RInstance) (cb : RCallback) (s : RSolution) : Prop := {
  rf_inv : RInv i (rview s) (rs_core s);
  rf_cb : rs_callback_ok s = match rc_bins (rs_core s) with [] => true | _ => cb (rs_core s) end;
  rf_feasible : rs_feasible s = true <->
    copies_ok i (rview s) /\ (forall d, In d (rview s) -> resources_ok i d) /\ rs_callback_ok s = true
    \/ rview s = [] /\ forall x, (x < length (rin_items i))%nat -> ri_copies_min (ritem i x) <= 0;
  rf_last : match rev (rview s) with
    | [] => rc_x_max (rs_core s) = 0 /\ rc_y_max (rs_core s) = 0 /\ rc_area (rs_core s) = 0 /\ rc_leftover (rs_core s) = 0
    | d :: _ => LastOK i s d end
}.

Lemma rinv_new : forall i, RInv i [] (rs_core (rsol_new i)).
Proof.
  intro i. constructor.
  - exists (s_core (sol_new (proj i))). split; [apply core_inv_new|].
    constructor; try reflexivity; cbn; rewrite map_length; reflexivity.
  - unfold qsum; reflexivity.
  - split; [intros d []|unfold qsum; reflexivity].
Qed.

Lemma rfull_new : forall i cb, RFull i cb (rsol_new i).
Proof.
  intros i cb. constructor.
  - apply rinv_new.
  - reflexivity.
  - unfold rsol_new, rview. cbn [rs_feasible rs_core rc_bins map rs_callback_ok].
    rewrite (count_fold _ (fun it => 0 <? ri_copies_min it)), Z.add_0_l, Z.eqb_eq.
    assert (Hz : Z.of_nat (length (filter (fun it => 0 <? ri_copies_min it) (rin_items i))) = 0
      <-> forall x, (x < length (rin_items i))%nat -> ri_copies_min (ritem i x) <= 0).
    { split.
      - intros H x Hx. destruct (Z.ltb_spec 0 (ri_copies_min (ritem i x))) as [Hlt|]; [|assumption]. exfalso.
        assert (Hin : In (ritem i x) (filter (fun it => 0 <? ri_copies_min it) (rin_items i)))
          by (apply filter_In; split; [apply nth_In; assumption|apply Z.ltb_lt; assumption]).
        destruct (filter _ _); [destruct Hin|simpl length in H; lia].
      - intro H. destruct (filter _ _) as [|it l'] eqn:E; [reflexivity|]. exfalso.
        assert (Hin : In it (it :: l')) by (left; reflexivity). rewrite <- E in Hin. apply filter_In in Hin.
        destruct Hin as [H1 H2]. apply Z.ltb_lt in H2. destruct (In_nth _ _ dummy_ritem H1) as (x & Hx & Ex).
        specialize (H x Hx). unfold ritem in H. rewrite Ex in H. lia. }
    rewrite Hz. split; [intro H; right; auto|]. intros [(H & _)|[_ H]]; [|assumption].
    intros x Hx. specialize (H x Hx). unfold rpacked in H. rewrite zsum_nil in H. lia.
  - cbn. auto.
Qed.

Section Hist.

Variable i : RInstance.
Variable cb : RCallback.
Hypothesis Hwf : rwf_resources i.

Lemma rfeasible_iff : forall s', RInv i (rview s') (rs_core s') -> rview s' <> [] ->
  (rs_feasible s' = true <->
     (forall x, (x < length (rin_items i))%nat ->
        ri_copies_min (ritem i x) <= nth x (rc_item_copies (rs_core s')) 0 <= ri_copies (ritem i x)) /\
     rc_resource_ok (rs_core s') = true /\ rs_callback_ok s' = true) ->
  (rs_feasible s' = true <->
    copies_ok i (rview s') /\ (forall d, In d (rview s') -> resources_ok i d) /\ rs_callback_ok s' = true
    \/ rview s' = [] /\ forall x, (x < length (rin_items i))%nat -> ri_copies_min (ritem i x) <= 0).
Proof.
  intros s' HI Hne H. rewrite H, (rinv_resources _ _ _ HI).
  pose proof (ri_item_copies _ _ _ (rinv_indicators _ _ _ HI)) as IC.
  split.
  - intros (A & B & C). left. split; [|split; assumption]. intros x Hx. rewrite <- (IC x Hx). apply A. assumption.
  - intros [(A & B & C)|[A _]]; [|congruence]. split; [|split; assumption]. intros x Hx. rewrite (IC x Hx). apply A. assumption.
Qed.

Lemma rinv_rebins : forall ds rc bins, RInv i ds rc -> RInv i ds (rwith_bins rc bins).
Proof.
  intros ds rc bins [(c & HC & [M1 M2 M3 M4 M5 M6 M7 M8 M9]) HW HMW]. constructor; [|exact HW|exact HMW].
  exists c. split; [exact HC|]. constructor; assumption.
Qed.

Lemma rpush_full : forall s b, RFull i cb s -> (forall d, In d (rview s) -> rdesc_ok i d) -> rdesc_ok i (rview_bin b) ->
  RFull i cb (rpush_bin i cb s b) /\ rview (rpush_bin i cb s b) = rview s ++ [rview_bin b].
Proof.
  intros s b [F1 F2 F3 F4] Hds Hd. unfold rpush_bin.
  set (s1 := mkRS (rwith_bins (rs_core s) (rc_bins (rs_core s) ++ [b])) (rs_callback_ok s) (rs_feasible s)).
  assert (Hb : nth_error (rc_bins (rs_core s1)) (length (rc_bins (rs_core s))) = Some b) by apply nth_error_snoc.
  assert (HI1 : RInv i (rview s) (rs_core s1)) by (apply rinv_rebins; assumption).
  pose proof (rupdate_inv i cb (rview s) s1 _ b Hwf HI1 Hds Hb Hd) as U.
  destruct (rupdate_flags i cb s1 _ b Hb) as (G1 & G2 & (b' & G3 & G4) & G5).
  set (s' := rupdate i cb (length (rc_bins (rs_core s))) s1) in *.
  assert (Hbins : rc_bins (rs_core s') = rc_bins (rs_core s) ++ [b']).
  { rewrite G3. cbn [s1 rs_core rwith_bins rc_bins]. apply upd_snoc. }
  assert (Hv : rview s' = rview s ++ [rview_bin b]).
  { unfold rview. rewrite Hbins, map_app. cbn [map]. rewrite G4. reflexivity. }
  split; [|exact Hv]. rewrite <- Hv in U. constructor.
  - exact U.
  - rewrite G1, Hbins. destruct (rc_bins (rs_core s)); reflexivity.
  - apply rfeasible_iff; [exact U| |exact G2]. rewrite Hv. destruct (rview s); discriminate.
  - rewrite Hv, rev_app_distr. cbn [rev app]. apply G5. cbn [s1 rs_core rwith_bins rc_bins]. rewrite app_length. simpl. lia.
Qed.

Record RBuild (bins : list RSBin) (k : nat) (s : RSolution) : Prop := {
  rbi_len : length (rc_bins (rs_core s)) = length bins;
  rbi_view : rview s = map rview_bin bins;
  rbi_inv : RInv i (firstn k (map rview_bin bins)) (rs_core s)
}.

Lemma map_rview_upd : forall bins pos b b', nth_error bins pos = Some b -> rview_bin b' = rview_bin b ->
  map rview_bin (upd pos (fun _ => b') bins) = map rview_bin bins.
Proof.
  induction bins as [|c bins IH]; intros [|pos] b b' H E; cbn [nth_error] in H; try discriminate; cbn [upd map].
  - injection H as ->. rewrite E. reflexivity.
  - rewrite (IH pos b b' H E). reflexivity.
Qed.

Lemma rbuild_inv : forall bins, (forall b, In b bins -> rdesc_ok i (rview_bin b)) ->
  forall k s0, (k <= length bins)%nat -> RBuild bins 0 s0 ->
  RBuild bins k (fold_left (fun s pos => rupdate i cb pos s) (seq 0 k) s0).
Proof.
  intros bins Hbins k s0 Hk H0. induction k as [|k IH]; [exact H0|].
  rewrite seq_S, fold_left_app. cbn [fold_left Nat.add]. specialize (IH ltac:(lia)).
  set (s := fold_left _ (seq 0 k) s0) in *. destruct IH as [B1 B2 B3].
  destruct (nth_error (rc_bins (rs_core s)) k) as [b|] eqn:Eb; [|apply nth_error_None in Eb; lia].
  assert (Hvb : nth_error (map rview_bin bins) k = Some (rview_bin b)).
  { rewrite <- B2. unfold rview. rewrite nth_error_map, Eb. reflexivity. }
  assert (Hd : rdesc_ok i (rview_bin b)).
  { apply nth_error_In in Hvb. apply in_map_iff in Hvb. destruct Hvb as (b0 & <- & Hb0). apply Hbins. assumption. }
  assert (Hds : forall d, In d (firstn k (map rview_bin bins)) -> rdesc_ok i d).
  { intros d Hin. apply in_firstn in Hin. apply in_map_iff in Hin. destruct Hin as (b0 & <- & Hb0). apply Hbins. assumption. }
  pose proof (rupdate_inv i cb _ s k b Hwf B3 Hds Eb Hd) as U.
  destruct (rupdate_flags i cb s k b Eb) as (G1 & G2 & (b' & G3 & G4) & G5).
  constructor.
  - rewrite G3, upd_length. exact B1.
  - unfold rview in *. rewrite G3, (map_rview_upd _ k b b' Eb G4). exact B2.
  - rewrite (firstn_succ_snoc _ _ k _ Hvb). exact U.
Qed.

Lemma rbuild_full : forall bins, (forall b, In b bins -> rdesc_ok i (rview_bin b)) ->
  RFull i cb (rb_build i cb bins) /\ rview (rb_build i cb bins) = map rview_bin bins.
Proof.
  intros bins Hbins. unfold rb_build.
  set (s0 := mkRS (rwith_bins (rs_core (rsol_new i)) bins) (rs_callback_ok (rsol_new i)) (rs_feasible (rsol_new i))).
  assert (H0 : RBuild bins 0 s0).
  { constructor; [reflexivity|reflexivity|]. cbn [firstn]. apply rinv_rebins, rinv_new. }
  destruct (exists_last_or_nil _ bins) as [E|(pre & bl & E)].
  - subst bins. split; [exact (rfull_new i cb)|reflexivity].
  - assert (Hlen : length bins = S (length pre)) by (rewrite E, app_length; simpl; lia).
    rewrite Hlen, seq_S, fold_left_app. cbn [fold_left Nat.add].
    pose proof (rbuild_inv bins Hbins (length pre) s0 ltac:(lia) H0) as [B1 B2 B3].
    pose proof (rbuild_inv bins Hbins (S (length pre)) s0 ltac:(lia) H0) as [C1 C2 C3].
    rewrite seq_S, fold_left_app in C1, C2, C3. cbn [fold_left Nat.add] in C1, C2, C3.
    set (s := fold_left _ (seq 0 (length pre)) s0) in *.
    destruct (nth_error (rc_bins (rs_core s)) (length pre)) as [b|] eqn:Eb; [|apply nth_error_None in Eb; lia].
    destruct (rupdate_flags i cb s _ b Eb) as (G1 & G2 & _ & G5).
    set (s' := rupdate i cb (length pre) s) in *.
    rewrite firstn_all2 in C3 by (rewrite map_length; lia). rewrite <- C2 in C3.
    split; [|exact C2]. constructor.
    + exact C3.
    + rewrite G1. destruct (rc_bins (rs_core s')) eqn:Ec; [|reflexivity]. simpl in C1. lia.
    + apply rfeasible_iff; [exact C3| |exact G2]. rewrite C2, E, map_app. destruct (map rview_bin pre); discriminate.
    + assert (Ev : rview_bin bl = rview_bin b).
      { assert (Hn : nth_error (rview s) (length pre) = Some (rview_bin b)) by (unfold rview; rewrite nth_error_map, Eb; reflexivity).
        rewrite B2, E, map_app in Hn. rewrite nth_error_app2 in Hn by (rewrite map_length; lia).
        rewrite map_length, Nat.sub_diag in Hn. cbn [nth_error map] in Hn. congruence. }
      rewrite C2, E, map_app, rev_app_distr. cbn [map rev app]. rewrite Ev. apply G5. lia.
Qed.

Definition rraw_ok (b : RSBin) : Prop :=
  (rs_type b < length (rin_bins i))%nat /\ (forall p, In p (rs_items b) -> (pl_type p < length (rin_items i))%nat).

Lemma rb_run_spec : forall calls bins bins', rb_run i bins calls = Some bins' ->
  (forall b, In b bins -> rraw_ok b) ->
  map rview_bin bins' = rdesc_run (map rview_bin bins) calls /\ (forall b, In b bins' -> rraw_ok b).
Proof.
  induction calls as [|call calls IH]; intros bins bins' H Hraw; cbn [rb_run] in H.
  - injection H as <-. auto.
  - destruct (rb_call i bins call) as [bins1|] eqn:E; [|discriminate]. destruct call as [t n|pos p]; cbn [rb_call] in E.
    + unfold rb_add_bin in E. destruct (rin_range i t []) eqn:Er; [|discriminate]. injection E as <-.
      destruct (IH _ _ H) as [H1 H2].
      * intros b Hb. apply in_snoc in Hb. destruct Hb as [Hb| ->]; [auto|].
        unfold rin_range in Er. apply andb_true_iff in Er. destruct Er as [Er _]. apply Nat.ltb_lt in Er. split; [exact Er|intros p []].
      * rewrite map_app in H1. auto.
    + unfold rb_add_item in E. destruct (_ && _) eqn:Er; [|discriminate]. injection E as <-.
      apply andb_true_iff in Er. destruct Er as [Er Er3]. apply andb_true_iff in Er. destruct Er as [Er1 Er2]. apply Nat.ltb_lt in Er2.
      destruct (IH _ _ H) as [H1 H2].
      * intros b Hb. apply in_upd in Hb. destruct Hb as [Hb|(c & Hc & ->)]; [auto|].
        destruct (Hraw c Hc) as (R1 & R2). split; [exact R1|]. cbn [rs_items]. intros q Hq. apply in_snoc in Hq. destruct Hq as [Hq| ->]; auto.
      * split; [|assumption]. rewrite H1. cbn [rdesc_run]. f_equal. apply map_upd. intro b. reflexivity.
Qed.

Lemma rmap_id_mapped : forall ids id r, map_id ids id = Some r -> r = rmapped ids id.
Proof.
  intros [|a ids] id r H; cbn [map_id rmapped] in *; [congruence|]. symmetry. apply nth_error_nth. exact H.
Qed.

Lemma rmap_ids_mapped : forall ids l r, rmap_ids ids l = Some r ->
  r = map (fun p => mkPl (rmapped ids (pl_type p)) (pl_x p) (pl_y p) (pl_rot p)) l.
Proof.
  intros ids l. induction l as [|p l IH]; intros r H; cbn [rmap_ids] in H; [injection H as <-; reflexivity|].
  destruct (map_id ids (pl_type p)) eqn:E1; [|discriminate]. destruct (rmap_ids ids l) eqn:E2; [|discriminate].
  injection H as <-. cbn [map]. rewrite (rmap_id_mapped _ _ _ E1), (IH _ eq_refl). reflexivity.
Qed.

Lemma rin_range_ok : forall t ps, rin_range i t ps = true -> (t < length (rin_bins i))%nat /\
  forall p, In p ps -> (pl_type p < length (rin_items i))%nat.
Proof.
  intros t ps H. unfold rin_range in H. apply andb_true_iff in H. destruct H as [H1 H2]. apply Nat.ltb_lt in H1.
  split; [exact H1|]. intros p Hp. rewrite forallb_forall in H2. apply Nat.ltb_lt, H2, Hp.
Qed.

Definition Good (s : RSolution) : Prop := RFull i cb s /\ forall d, In d (rview s) -> rdesc_ok i d.

Lemma rappend_bin_spec : forall s source pos copies bids iids s',
  Good s -> rappend_bin i cb s source pos copies bids iids = Some s' ->
  0 <= copies -> exists d, nth_error (rview source) pos = Some d /\ Good s' /\
    rview s' = rview s ++ [rmapped_desc bids iids copies d].
Proof.
  intros s source pos copies bids iids s' [F D] H Hc. unfold rappend_bin in H.
  destruct (nth_error (rc_bins (rs_core source)) pos) as [b|] eqn:Eb; [|discriminate].
  destruct (map_id bids (rs_type b)) as [t|] eqn:Et; [|discriminate].
  destruct (rmap_ids iids (rs_items b)) as [items|] eqn:Ei; [|discriminate].
  destruct (rin_range i t items) eqn:Er; [|discriminate]. injection H as <-.
  destruct (rin_range_ok _ _ Er) as [R1 R2].
  assert (Hd : rdesc_ok i (rview_bin (rraw_bin t copies items))) by (split; [exact R1|split; [exact R2|exact Hc]]).
  destruct (rpush_full s _ F D Hd) as [F' V].
  exists (rview_bin b). split; [unfold rview; rewrite nth_error_map, Eb; reflexivity|].
  split; [split; [exact F'|]|].
  - intros d Hin. rewrite V in Hin. apply in_snoc in Hin. destruct Hin as [Hin| ->]; [apply D; assumption|exact Hd].
  - rewrite V. f_equal. f_equal. unfold rmapped_desc, rview_bin, rraw_bin. cbn [rs_type rs_copies rs_items rd_type rd_items].
    rewrite (rmap_id_mapped _ _ _ Et), (rmap_ids_mapped _ _ _ Ei). reflexivity.
Qed.

Lemma rappend_from_spec : forall source bids iids positions s s',
  (forall d, In d (rview source) -> 0 <= rd_copies d) -> Good s ->
  rappend_from i cb s source bids iids positions = Some s' ->
  exists ds, map (nth_error (rview source)) positions = map Some ds /\ Good s' /\
    rview s' = rview s ++ map (fun d => rmapped_desc bids iids (rd_copies d) d) ds.
Proof.
  intros source bids iids positions. induction positions as [|pos rest IH]; intros s s' Hc G H; cbn [rappend_from] in H.
  - injection H as <-. exists []. split; [reflexivity|]. split; [exact G|]. rewrite app_nil_r. reflexivity.
  - destruct (nth_error (rc_bins (rs_core source)) pos) as [b|] eqn:Eb; [|discriminate].
    destruct (rappend_bin i cb s source pos (rs_copies b) bids iids) as [s1|] eqn:E1; [|discriminate].
    assert (Hv : nth_error (rview source) pos = Some (rview_bin b)) by (unfold rview; rewrite nth_error_map, Eb; reflexivity).
    assert (Hcb : 0 <= rs_copies b) by (apply (Hc (rview_bin b)); eapply nth_error_In; exact Hv).
    destruct (rappend_bin_spec _ _ _ _ _ _ _ G E1 Hcb) as (d & A1 & A2 & A3).
    rewrite Hv in A1. injection A1 as <-.
    destruct (IH s1 s' Hc A2 H) as (ds & B1 & B2 & B3). exists (rview_bin b :: ds). split; [|split; [exact B2|]].
    + cbn [map]. rewrite Hv, B1. reflexivity.
    + rewrite B3, A3, <- app_assoc. reflexivity.
Qed.

Lemma rsol_run_spec : forall calls s s', Good s -> (forall d, In d (flat_map rcall_bins calls) -> 0 <= rd_copies d) ->
  rsol_run i cb s calls = Some s' -> Good s' /\ rview s' = rview s ++ flat_map rcall_bins calls.
Proof.
  induction calls as [|c calls IH]; intros s s' G Hc H; cbn [rsol_run] in H.
  - injection H as <-. split; [exact G|]. cbn [flat_map]. rewrite app_nil_r. reflexivity.
  - destruct (rsol_call i cb s c) as [s1|] eqn:E; [|discriminate]. cbn [flat_map] in Hc.
    assert (A : Good s1 /\ rview s1 = rview s ++ rcall_bins c).
    { assert (Hc1 : forall d, In d (rcall_bins c) -> 0 <= rd_copies d) by (intros d Hd; apply Hc, in_or_app; left; exact Hd).
      destruct c as [source pos copies bids iids|source bids iids|t copies]; cbn [rsol_call rcall_bins] in *.
      - assert (E0 : exists d, nth_error (rview source) pos = Some d).
        { unfold rappend_bin in E. destruct (nth_error (rc_bins (rs_core source)) pos) as [b|] eqn:Eb; [|discriminate].
          exists (rview_bin b). unfold rview. rewrite nth_error_map, Eb. reflexivity. }
        destruct E0 as (d0 & E0). rewrite E0 in Hc1. specialize (Hc1 _ (or_introl eq_refl)). cbn [rd_copies rmapped_desc] in Hc1.
        destruct (rappend_bin_spec _ _ _ _ _ _ _ G E Hc1) as (d & A1 & A2 & A3). rewrite E0 in A1. injection A1 as <-.
        rewrite E0. auto.
      - assert (Hs : forall d, In d (rview source) -> 0 <= rd_copies d).
        { intros d Hd. apply (Hc1 (rmapped_desc bids iids (rd_copies d) d)).
          apply (in_map (fun d => rmapped_desc bids iids (rd_copies d) d)). exact Hd. }
        destruct (rappend_from_spec _ _ _ _ _ _ Hs G E) as (ds & A1 & A2 & A3). split; [exact A2|].
        rewrite A3. f_equal. f_equal. apply map_nth_error_seq. rewrite <- A1. unfold rview. rewrite map_length. reflexivity.
      - unfold rappend_empty in E. destruct (rin_range i t []) eqn:Er; [|discriminate]. injection E as <-.
        destruct G as [F D]. destruct (rin_range_ok _ _ Er) as [R1 _].
        assert (Hd : rdesc_ok i (rview_bin (rraw_bin t copies []))).
        { split; [exact R1|]. split; [intros p []|]. apply (Hc1 (mkRD t copies [])). left. reflexivity. }
        destruct (rpush_full s _ F D Hd) as [F' V]. split; [split; [exact F'|]|exact V].
        intros d Hin. rewrite V in Hin. apply in_snoc in Hin. destruct Hin as [Hin| ->]; [apply D; assumption|exact Hd]. }
    destruct A as [A1 A2].
    destruct (IH s1 s' A1) as [B1 B2]; [intros d Hd; apply Hc, in_or_app; right; exact Hd|exact H|].
    split; [exact B1|]. rewrite B2, A2, <- app_assoc. reflexivity.
Qed.

Lemma rhistory_spec : forall calls1 calls2 s, rhistory i cb calls1 calls2 = Some s -> rcopies_nonneg calls1 calls2 ->
  Good s /\ rview s = rdesc_run [] calls1 ++ flat_map rcall_bins calls2.
Proof.
  intros calls1 calls2 s H Hc. unfold rhistory in H. destruct (rb_run i [] calls1) as [bins|] eqn:E; [|discriminate].
  destruct (rb_run_spec calls1 [] bins E) as [V1 V2]; [intros b []|]. cbn [map] in V1.
  assert (Hb : forall b, In b bins -> rdesc_ok i (rview_bin b)).
  { intros b Hb. destruct (V2 b Hb) as (R1 & R2). split; [exact R1|]. split; [exact R2|]. apply Hc, in_or_app. left.
    rewrite <- V1. apply in_map. assumption. }
  destruct (rbuild_full bins Hb) as [F V].
  destruct (rsol_run_spec calls2 (rb_build i cb bins) s) as [G1 G2].
  - split; [exact F|]. rewrite V. intros d Hd. apply in_map_iff in Hd. destruct Hd as (b & <- & Hin). apply Hb, Hin.
  - intros d Hd. apply Hc, in_or_app. right. exact Hd.
  - exact H.
  - split; [exact G1|]. rewrite G2, V, V1. reflexivity.
Qed.

End Hist.
