(** * Proofs about the indicators of a guillotine solution: whole histories

    The counters shared with the onedimensional solution are obtained from it:
    the loop does the same thing on the instance whose lengths are the areas. *)

From Coq Require Import List ZArith QArith Bool Lia Arith Lqa.
From Verif Require Import Util Common_Model Common_Spec OneDim_Model OneDim_Spec OneDim_Proof.
From Verif Require Import RectSol_Proof Guil_Model Guil_Spec Guil_Proof GuilPlan_Proof GuilSol_Model GuilSol_Spec GuilSol_Proof.
Import ListNotations.
Open Scope Z_scope.

Definition gproj_item (it : GItem) : ItemType :=
  mkIT (gi_area it) (gi_profit it) (gi_copies it) (gi_copies_min it) 0 0 0 None (-1) (gi_resource_ids it).
Definition gproj_bin (bt : GBinType) : BinType :=
  mkBT (gb_area bt) (gb_cost bt) (gb_copies bt) (gb_copies_min bt) None [] (gb_resources bt) [].
Definition gproj (i : GInstance) : Instance :=
  mkInst (gin_objective i) (map gproj_item (gin_items i)) (map gproj_bin (gin_bins i))
    [] [] 0 0 0 0 0 0 None 0 false.
Definition gpd (v : GView) : BinDesc := mkBD (gv_type v) (gv_copies v) (gv_items v).

Lemma gproj_item_type : forall i x, item_type (gproj i) x = gproj_item (gitem i x).
Proof. intros i x. unfold item_type, gitem. cbn [in_item_types gproj]. change dummy_item with (gproj_item gdummy_item). apply map_nth. Qed.
Lemma gproj_bin_type : forall i t, bin_type (gproj i) t = gproj_bin (gbin i t).
Proof. intros i t. unfold bin_type, gbin. cbn [in_bin_types gproj]. change dummy_bin with (gproj_bin gdummy_bin). apply map_nth. Qed.
Lemma gproj_items_length : forall i, length (in_item_types (gproj i)) = length (gin_items i).
Proof. intro i. apply map_length. Qed.
Lemma gproj_bins_length : forall i, length (in_bin_types (gproj i)) = length (gin_bins i).
Proof. intro i. apply map_length. Qed.

Record GSim (a : GItemsAcc) (lo : Loop) : Prop := {
  sm_res : ga_resources a = lo_resources lo;
  sm_cib : ga_copies_in_bin a = lo_copies_in_bin lo;
  sm_nit : ga_number_of_items a = lo_number_of_items lo;
  sm_area : ga_item_area a = lo_item_length lo;
  sm_profit : (ga_profit a == lo_item_profit lo)%Q;
  sm_ic : ga_item_copies a = lo_item_copies lo;
  sm_cok : ga_item_copies_ok a = lo_item_copies_ok lo;
  sm_rok : ga_resource_ok a = lo_resource_ok lo
}.

Lemma gsim_stack : forall i a lo n, GSim a lo -> GSim (gstack_check i a n) lo.
Proof.
  intros i a lo n H. unfold gstack_check. destruct (_ && _); [|exact H]. cbv zeta.
  destruct (Nat.ltb _ _); [|exact H]. destruct (_ =? _); [exact H|]. destruct H. constructor; assumption.
Qed.

Lemma gsim_step : forall i t k a lo n, GSim a lo ->
  GSim (gitems_step i t k a n)
    (if gholds n then item_step (gproj i) t k lo (mkSI (Z.to_nat (gn_item n)) 0) else lo).
Proof.
  intros i t k a lo n H. unfold gitems_step. apply gsim_stack. unfold gitem_add. destruct (gholds n); [|exact H].
  destruct H as [H1 H2 H3 H4 H5 H6 H8 H7]. cbv zeta.
  set (x := Z.to_nat (gn_item n)).
  unfold item_step. cbn [si_type]. rewrite gproj_item_type, gproj_bin_type. cbn [it_resource_ids gproj_item].
  destruct (fold_left (resource_step (gproj_bin (gbin i t)) _ _) _ _) as [[u' p'] ok'] eqn:E.
  destruct (resource_fold_shift _ _ _ _ _ _ _ _ _ _ (ga_profit a + inject_Z k * gi_profit (gitem i x))%Q
    (inject_Z k * gi_profit (gitem i x))%Q E) as (q' & E' & Eq).
  { rewrite H5. reflexivity. }
  change (gresource_step (gbin i t)) with (resource_step (gproj_bin (gbin i t))).
  rewrite H1, H2, H7. rewrite E'.
  constructor; cbn [ga_resources ga_copies_in_bin ga_number_of_items ga_item_area ga_profit ga_item_copies ga_item_copies_ok
    ga_resource_ok lo_resources lo_copies_in_bin lo_number_of_items lo_item_length lo_item_profit lo_item_copies
    lo_item_copies_ok lo_resource_ok it_length it_profit it_copies gproj_item]; try congruence.
  rewrite H6, H8, Z.ltb_antisym. destruct (_ <=? _); cbn [negb]; [apply andb_true_r|apply andb_false_r].
Qed.

Lemma gsim_fold : forall i t k ns a lo, GSim a lo ->
  GSim (fold_left (gitems_step i t k) ns a) (fold_left (item_step (gproj i) t k) (map (fun x => mkSI x 0) (gitems_of ns)) lo).
Proof.
  intros i t k ns. unfold gitems_of, item_nodes. induction ns as [|n ns IH]; intros a lo H; [exact H|].
  cbn [fold_left filter]. pose proof (gsim_step i t k a lo n H) as S. change (gis_item n) with (gholds n).
  destruct (gholds n); [cbn [map fold_left]|]; apply IH; exact S.
Qed.

(** ** Stacks *)

Definition gseq_bin (k : Z) (ns : list GNode) : list (Z * Z * nat) :=
  map (fun n => (k, gn_d n, Z.to_nat (gn_item n))) (item_nodes ns).
Definition gstack_prop (i : GInstance) (before : list (Z * Z * nat)) (e : Z * Z * nat) : Prop :=
  let '(_, d, x) := e in
    1 <= d -> (0 < gi_stack_pos (gitem i x))%nat ->
    gamount (gstack_item i (gi_stack_id (gitem i x)) (gi_stack_pos (gitem i x) - 1)) (before ++ [e])
    = gi_copies (gitem i (gstack_item i (gi_stack_id (gitem i x)) (gi_stack_pos (gitem i x) - 1))).

Lemma gamount_snoc : forall x l k d y, gamount x (l ++ [(k, d, y)]) = gamount x l + (if Nat.eqb y x then k else 0).
Proof. intros. unfold gamount. rewrite zsum_snoc. reflexivity. Qed.

Lemma gstack_check_copies : forall i a n, ga_item_copies (gstack_check i a n) = ga_item_copies a.
Proof.
  intros i a n. unfold gstack_check. destruct (_ && _); [|reflexivity]. cbv zeta. destruct (Nat.ltb _ _); [|reflexivity].
  destruct (_ =? _); reflexivity.
Qed.

Lemma gstacks_fold : forall i t k before a0, forall ns,
  (forall n, In n ns -> 1 <= gn_d n -> gholds n = (0 <=? gn_item n)) ->
  (forall x, In x (gitems_of ns) -> (x < length (gin_items i))%nat) ->
  length (ga_item_copies a0) = length (gin_items i) ->
  (forall x, nth x (ga_item_copies a0) 0 = gamount x before) ->
  (ga_stacks_ok a0 = true <-> PrefAll (gstack_prop i) before) ->
  let a := fold_left (gitems_step i t k) ns a0 in
  length (ga_item_copies a) = length (gin_items i)
  /\ (forall x, nth x (ga_item_copies a) 0 = gamount x (before ++ gseq_bin k ns))
  /\ (ga_stacks_ok a = true <-> PrefAll (gstack_prop i) (before ++ gseq_bin k ns)).
Proof.
  intros i t k before a0 ns. induction ns as [|n ns IH] using rev_ind; intros HH HR HL HA HS.
  - cbn. rewrite app_nil_r. auto.
  - cbv zeta in *. rewrite fold_left_app. cbn [fold_left]. set (a := fold_left _ ns a0) in *.
    assert (Hsplit : gseq_bin k (ns ++ [n]) = gseq_bin k ns ++ gseq_bin k [n]).
    { unfold gseq_bin, item_nodes. rewrite filter_app, map_app. reflexivity. }
    assert (HI : gitems_of (ns ++ [n]) = gitems_of ns ++ gitems_of [n]).
    { unfold gitems_of, item_nodes. rewrite filter_app, map_app. reflexivity. }
    destruct IH as (I1 & I2 & I3).
    { intros m Hm. apply HH. apply in_or_app. left. exact Hm. }
    { intros x Hx. apply HR. rewrite HI. apply in_or_app. left. exact Hx. }
    { exact HL. } { exact HA. } { exact HS. }
    assert (Hn : 1 <= gn_d n -> gholds n = (0 <=? gn_item n)) by (apply HH, in_or_app; right; left; reflexivity).
    rewrite Hsplit, app_assoc. set (bf := before ++ gseq_bin k ns) in *.
    unfold gitems_step. rewrite gstack_check_copies.
    destruct (gholds n) eqn:Eh.
    + set (x := Z.to_nat (gn_item n)).
      assert (Es : gseq_bin k [n] = [(k, gn_d n, x)]).
      { unfold gseq_bin, item_nodes. cbn [filter]. change (gis_item n) with (gholds n). rewrite Eh. reflexivity. }
      assert (Hx : (x < length (gin_items i))%nat).
      { apply HR. rewrite HI. apply in_or_app. right. unfold gitems_of, item_nodes. cbn [filter].
        change (gis_item n) with (gholds n). rewrite Eh. left. reflexivity. }
      rewrite Es.
      assert (Ha : ga_item_copies (gitem_add i t k a n) = upd x (fun c => c + k) (ga_item_copies a)
        /\ ga_stacks_ok (gitem_add i t k a n) = ga_stacks_ok a).
      { unfold gitem_add. rewrite Eh. cbv zeta. destruct (fold_left (gresource_step _ _ _) _ _) as [[u p] ok]. split; reflexivity. }
      destruct Ha as [Ha1 Ha2]. rewrite Ha1.
      assert (HN : forall y, nth y (upd x (fun c => c + k) (ga_item_copies a)) 0 = gamount y (bf ++ [(k, gn_d n, x)])).
      { intros y. rewrite nth_upd by lia. rewrite gamount_snoc, I2. destruct (Nat.eqb x y); lia. }
      split; [rewrite upd_length; exact I1|]. split; [exact HN|].
      rewrite prefall_snoc, <- I3. unfold gstack_prop at 1. unfold gstack_check. fold x.
      assert (Hh : (0 <=? gn_item n) = true) by (unfold gholds in Eh; destruct (gn_f n); [exact Eh|discriminate]).
      rewrite Hh. cbv zeta.
      destruct (Z.leb_spec 1 (gn_d n)) as [Hd|Hd]; cbn [andb].
      2: { rewrite Ha2. split; [intros H; split; [exact H|intros; lia]|tauto]. }
      destruct (Nat.ltb_spec 0 (gi_stack_pos (gitem i x))) as [Hp|Hp].
      2: { rewrite Ha2. split; [intros H; split; [exact H|intros; lia]|tauto]. }
      rewrite Ha1, HN. set (pr := gstack_item i _ _) in *. destruct (Z.eqb_spec (gamount pr (bf ++ [(k, gn_d n, x)])) (gi_copies (gitem i pr))) as [Ee|Ee].
      * rewrite Ha2. split; [intros H; split; [exact H|intros; exact Ee]|tauto].
      * cbn [ga_stacks_ok]. split; [discriminate|]. intros [_ H]. exfalso. apply Ee. exact (H Hd Hp).
    + assert (Es : gseq_bin k [n] = []).
      { unfold gseq_bin, item_nodes. cbn [filter]. change (gis_item n) with (gholds n). rewrite Eh. reflexivity. }
      rewrite Es, app_nil_r.
      assert (Ea : gitem_add i t k a n = a) by (unfold gitem_add; rewrite Eh; reflexivity).
      rewrite Ea. split; [exact I1|]. split; [exact I2|].
      assert (Ec : gstack_check i a n = a).
      { unfold gstack_check. destruct (Z.leb_spec 1 (gn_d n)) as [Hd|Hd]; [|reflexivity]. rewrite <- (Hn Hd). reflexivity. }
      rewrite Ec. exact I3.
Qed.

(** ** One update *)

Definition gview_ok (i : GInstance) (v : GView) : Prop :=
  (gv_type v < length (gin_bins i))%nat /\ 0 <= gv_copies v /\ plan_ok i v.

Lemma gview_items : forall i v x, gview_ok i v -> In x (gv_items v) -> (x < length (gin_items i))%nat.
Proof. intros i v x (_ & _ & base & HP & _) Hx. eapply plan_items; eassumption. Qed.

Record GMatch (gc : GCore) (c : Core) : Prop := {
  gm_nb : gc_number_of_bins gc = c_number_of_bins c;
  gm_ni : gc_number_of_items gc = c_number_of_items c;
  gm_fa : gc_full_area gc = c_bin_length c;
  gm_ia : gc_item_area gc = c_item_length c;
  gm_pr : (gc_profit gc == c_item_profit c)%Q;
  gm_co : gc_cost gc = c_bin_cost c;
  gm_bc : gc_bin_copies gc = c_bin_copies c;
  gm_ic : gc_item_copies gc = c_item_copies c;
  gm_ok : gc_item_copies_ok gc = c_item_copies_ok c;
  gm_ro : gc_resource_ok gc = c_resource_ok c
}.

(** What the members say about the bins processed so far, [vs]. *)
Record GInv (i : GInstance) (vs : list GView) (c : GCore) : Prop := {
  gv_core : exists k, CoreInv (gproj i) (map gpd vs) k /\ GMatch c k;
  gv_length : length (gc_item_copies c) = length (gin_items i);
  gv_amount : forall x, nth x (gc_item_copies c) 0 = gamount x (gsequence vs);
  gv_stacks : gc_stacks_ok c = true <-> gstacks_respected i vs;
  gv_missing : gc_missing c = gcount_missing i (gc_item_copies c);
  gv_stages : (gc_stages c = 0 \/ exists v, In v vs /\ gc_stages c = geff i v)
    /\ (gc_stages_ok c = true <-> forall v, In v vs -> gstages_ok i v);
  gv_waste : gc_waste_ok c = true <-> forall v, In v vs -> gwastes_large i v;
  gv_min1 : gc_min1_ok c = true <-> forall v, In v vs -> gmin_distance 1 (gp_min1 (gin_params i)) v;
  gv_max1 : gc_max1_ok c = true <-> forall v, In v vs -> gmax_distance 1 (gp_max1 (gin_params i)) v;
  gv_min2 : gc_min2_ok c = true <-> forall v, In v vs -> gmin_distance 2 (gp_min2 (gin_params i)) v;
  gv_max2 : gc_max2_ok c = true <-> forall v, In v vs -> gmax_distance 2 (gp_max2 (gin_params i)) v;
  gv_number1 : gc_number1_ok c = true <-> forall v, In v vs -> gfirst_cuts_ok i v;
  gv_number2 : gc_number2_ok c = true <-> forall v, In v vs -> gsecond_cuts_ok i v;
  gv_defects : gc_defects_ok c = true <-> forall v, In v vs -> gdefects_avoided i v;
  gv_through : gc_through_ok c = true <-> forall v, In v vs -> gcuts_avoid_defects i v
}.

(** What they say about the last of them. *)
Record GLast (v : GView) (c : GCore) : Prop := {
  gla_area : gc_area c = gc_full_area c - gresidual_area (gv_nodes v);
  gla_width : gc_width c = fold_right Z.max 0 (map gn_r (gcut_parts (gv_nodes v)));
  gla_height : gc_height c = fold_right Z.max 0 (map gn_t (gcut_parts (gv_nodes v)));
  gla_second : gc_second c = gsecond_of (gv_nodes v)
}.

Definition gsane_ends (i : GInstance) : Prop := forall t, (t < length (gin_bins i))%nat -> gsane_end (gbin i t).

Lemma gwf_proj : forall i, gwf_resources i -> wf_resource_ids (gproj i).
Proof.
  intros i H x t Hx Ht. rewrite gproj_items_length in Hx. rewrite gproj_bins_length in Ht.
  rewrite gproj_item_type, gproj_bin_type. exact (H x t Hx Ht).
Qed.

Lemma gpd_ok : forall i v, gview_ok i v -> desc_ok (gproj i) (gpd v).
Proof.
  intros i v H. assert (H' := H). destruct H' as (H1 & H2 & H3). split; [rewrite gproj_bins_length; exact H1|]. split; [|exact H2].
  intros x Hx. rewrite gproj_items_length. exact (gview_items i v x H Hx).
Qed.

Lemma forall_last : forall (A : Type) (P : A -> Prop) l x, (forall y, In y (l ++ [x]) -> P y) <-> (forall y, In y l -> P y) /\ P x.
Proof.
  intros A P l x. split.
  - intros H. split; [intros y Hy; apply H, in_or_app; left; exact Hy|apply H, in_or_app; right; left; reflexivity].
  - intros [H1 H2] y Hy. apply in_app_or in Hy. destruct Hy as [Hy|[<-|[]]]; [apply H1; exact Hy|exact H2].
Qed.

(** A bin that has not been processed. *)
Definition gfresh (b : GBin) : Prop := gs_stages_real b = 0 /\ gs_non_exact b = false /\ gs_roadef b = false.

Lemma fresh_stages : forall i b res, gfresh b -> gs_stages (gstage_bin i b res) = geff i (gview_bin b).
Proof.
  intros i b res (E1 & E2 & E3). unfold geff, gstage_bin, gview_bin.
  cbn [gs_nodes gs_stages_real gs_non_exact gs_roadef gv_nodes gv_type gv_copies gv_orient]. rewrite E1, E2, E3.
  destruct (if 0 <? gstages_real (gs_nodes b) 0 then _ else _). reflexivity.
Qed.

Lemma stage_view : forall i b res, gview_bin (gstage_bin i b res) = gview_bin b.
Proof. intros i b res. unfold gstage_bin. destruct (if 0 <? _ then _ else _). reflexivity. Qed.

Lemma gsequence_snoc : forall vs v, gsequence (vs ++ [v]) = gsequence vs ++ gseq_bin (gv_copies v) (gv_nodes v).
Proof. intros vs v. unfold gsequence. rewrite flat_map_app. cbn [flat_map]. rewrite app_nil_r. reflexivity. Qed.

Lemma gupdate_inv : forall i vs c pos b, gwf_resources i -> gsane_ends i -> GInv i vs c ->
  (forall v, In v vs -> gview_ok i v) -> gview_ok i (gview_bin b) -> gfresh b ->
  GInv i (vs ++ [gview_bin b]) (gcore_after i c pos b) /\ GLast (gview_bin b) (gcore_after i c pos b).
Proof.
  intros i vs c pos b Hwf Hends HI Hvs Hv Hf.
  destruct HI as [(k & HC & HM) ILen IAm ISt IMiss [IStg IStgOk] IW Imin1 Imax1 Imin2 Imax2 In1 In2 Idef Ithr].
  assert (Hplan : plan_ok i (gview_bin b)) by (destruct Hv as (_ & _ & H); exact H).
  assert (Ht : (gs_type b < length (gin_bins i))%nat) by (destruct Hv as (H & _); exact H).
  set (b0 := raw_bin (gs_type b) (gs_copies b) (map (fun x => mkSI x 0) (gitems_of (gs_nodes b)))).
  set (s0 := with_bins (mkSol k true true) [b0]).
  assert (Hvb : view_bin b0 = gpd (gview_bin b)).
  { unfold view_bin, b0, gpd, gview_bin, gv_items. cbn. rewrite map_map. cbn [si_type]. rewrite List.map_id. reflexivity. }
  assert (Hd' : desc_ok (gproj i) (view_bin b0)) by (rewrite Hvb; apply gpd_ok; exact Hv).
  assert (Hds' : forall d, In d (map gpd vs) -> desc_ok (gproj i) d).
  { intros d Hin. apply in_map_iff in Hin. destruct Hin as (v0 & <- & Hin). apply gpd_ok, Hvs, Hin. }
  destruct (update_core (gproj i) accept_all (gwf_proj i Hwf) (map gpd vs) s0 0 b0
    (core_inv_rebins _ _ (mkSol k true true) [b0] HC) Hds' eq_refl Hd' (Qeq_refl _)) as (U & _).
  set (c' := gcore_after i c pos b).
  assert (ITEMS : gl_items (gloop i c b) = fold_left (gitems_step i (gs_type b) (gs_copies b)) (gs_nodes b) (gl_items (gloop0 i c b)))
    by apply loop_items.
  assert (ST : let a := gl_items (gloop i c b) in
    length (ga_item_copies a) = length (gin_items i)
    /\ (forall x, nth x (ga_item_copies a) 0 = gamount x (gsequence (vs ++ [gview_bin b])))
    /\ (ga_stacks_ok a = true <-> PrefAll (gstack_prop i) (gsequence (vs ++ [gview_bin b])))).
  { cbv zeta. rewrite gsequence_snoc, ITEMS.
    destruct Hplan as (base & HP & HD). cbn [gview_bin gv_nodes gv_type gv_orient gv_copies] in *.
    apply (gstacks_fold i (gs_type b) (gs_copies b) (gsequence vs) (gl_items (gloop0 i c b)) (gs_nodes b)).
    - intros n Hn Hd. eapply plan_holds; eassumption.
    - intros x Hx. eapply plan_items; eassumption.
    - exact ILen.
    - exact IAm.
    - exact ISt. }
  destruct ST as (ST1 & ST2 & ST3).
  split; [constructor|].
  - (* shared counters *)
    exists (s_core (update_indicators (gproj i) accept_all 0 s0)). split.
    + rewrite map_app. cbn [map]. rewrite <- Hvb. exact U.
    + destruct HM as [M1 M2 M3 M4 M5 M6 M7 M8 M9 M10].
      unfold update_indicators. cbn [s0 with_bins s_core c_bins nth_error].
      match goal with |- context [fold_left (item_step (gproj i) _ _) _ ?x] => set (l0 := x) end.
      assert (S0 : GSim (gl_items (gloop0 i c b)) l0).
      { unfold gloop0, l0. constructor; cbn [gl_items ga_resources ga_copies_in_bin ga_number_of_items ga_item_area ga_profit
          ga_item_copies ga_item_copies_ok ga_resource_ok lo_resources lo_copies_in_bin lo_number_of_items lo_item_length
          lo_item_profit lo_item_copies lo_item_copies_ok lo_resource_ok
          c_number_of_items c_item_length c_item_profit c_item_copies c_item_copies_ok c_resource_ok]; try assumption.
        - unfold b0. cbn [sb_type raw_bin]. rewrite gproj_bin_type. reflexivity.
        - rewrite gproj_items_length. reflexivity. }
      pose proof (gsim_fold i (gs_type b) (gs_copies b) (gs_nodes b) (gl_items (gloop0 i c b)) l0 S0) as [S1 S2 S3 S4 S5 S6 S7 S8].
      change (sb_type b0) with (gs_type b). change (sb_copies b0) with (gs_copies b).
      change (sb_items b0) with (map (fun x => mkSI x 0) (gitems_of (gs_nodes b))).
      rewrite <- ITEMS in *.
      unfold c', gcore_after.
      constructor; cbn [s_core gc_number_of_bins gc_number_of_items gc_full_area gc_item_area gc_profit gc_cost
        gc_bin_copies gc_item_copies gc_item_copies_ok gc_resource_ok c_number_of_bins c_number_of_items c_bin_length c_item_length
        c_item_profit c_bin_cost c_bin_copies c_item_copies c_item_copies_ok c_resource_ok]; try assumption.
      * rewrite M1. reflexivity.
      * rewrite gproj_bin_type. cbn [bt_length gproj_bin]. rewrite M3. reflexivity.
      * rewrite gproj_bin_type. cbn [bt_cost gproj_bin]. rewrite M6. reflexivity.
      * rewrite M7. reflexivity.
  - exact ST1.
  - exact ST2.
  - exact ST3.
  - reflexivity.
  - unfold c', gcore_after. cbn [gc_stages gc_stages_ok]. rewrite (fresh_stages i b _ Hf).
    destruct (eff_spec i (gview_bin b)) as [Hpos Hok]. split.
    + destruct (Z_le_gt_dec (geff i (gview_bin b)) (gc_stages c)) as [Hle|Hgt].
      * rewrite Z.max_l by lia. destruct IStg as [E|(v & V1 & V2)]; [left; exact E|right].
        exists v. split; [apply in_or_app; left; exact V1|exact V2].
      * right. exists (gview_bin b). split; [apply in_or_app; right; left; reflexivity|lia].
    + rewrite andb_true_iff, Z.leb_le, IStgOk, forall_last, <- Hok. split.
      * intros [H1 H2]. split; [exact H1|lia].
      * intros [H1 H2]. split; [exact H1|]. destruct IStg as [E|(v & V1 & V2)]; [lia|].
        destruct (eff_spec i v) as [_ Hv']. apply (proj2 Hv') in H1; [lia|exact V1].
  - unfold c', gcore_after. cbn [gc_waste_ok]. rewrite loop_waste, (waste_fold i (gview_bin b)), IW, forall_last. reflexivity.
  - unfold c', gcore_after. cbn [gc_min1_ok]. rewrite loop_min1, (min1_fold i (gview_bin b)), Imin1, forall_last. reflexivity.
  - unfold c', gcore_after. cbn [gc_max1_ok]. rewrite loop_max1, (max1_fold i (gview_bin b)), Imax1, forall_last. reflexivity.
  - unfold c', gcore_after. cbn [gc_min2_ok]. rewrite loop_min2, (min2_fold i (gview_bin b)), Imin2, forall_last. reflexivity.
  - unfold c', gcore_after. cbn [gc_max2_ok]. rewrite loop_max2, (max2_fold i (gview_bin b)), Imax2, forall_last. reflexivity.
  - unfold c', gcore_after. cbn [gc_number1_ok]. rewrite loop_number1, (number1_fold i (gview_bin b)), In1, forall_last; [reflexivity|exact Hplan|].
    apply Hends. exact Ht.
  - unfold c', gcore_after. cbn [gc_number2_ok]. rewrite loop_number2, (number2_fold i (gview_bin b)), In2, forall_last; [reflexivity|exact Hplan].
  - unfold c', gcore_after. cbn [gc_defects_ok]. rewrite loop_defects, (defects_fold i (gview_bin b)), Idef, forall_last; [reflexivity|exact Hplan].
  - unfold c', gcore_after. cbn [gc_through_ok]. rewrite loop_through, (through_fold i (gview_bin b)), Ithr, forall_last. reflexivity.
  - unfold c', gcore_after. constructor; cbn [gc_area gc_full_area gc_width gc_height gc_second gview_bin gv_nodes].
    + rewrite loop_area, residual_fold. reflexivity.
    + rewrite loop_width, width_fold. reflexivity.
    + rewrite loop_height, height_fold. reflexivity.
    + rewrite loop_second, second_fold. reflexivity.
Qed.

(** ** Back to the guillotine vocabulary *)

Lemma gproj_consumption : forall i r ids, consumption (gproj i) r ids = gconsumption i r ids.
Proof. intros i r ids. unfold consumption, gconsumption, schedule. rewrite gproj_items_length. reflexivity. Qed.

Lemma gproj_packed : forall x vs, packed x (map gpd vs) = gpacked x vs.
Proof. intros x vs. unfold packed, gpacked. rewrite zsum_map'. reflexivity. Qed.
Lemma gproj_used : forall t vs, used_bins t (map gpd vs) = gused t vs.
Proof. intros t vs. unfold used_bins, gused. rewrite zsum_map'. reflexivity. Qed.

Lemma gsane_proj : forall i, gsane_resources i -> sane_resources (gproj i).
Proof.
  intros i H bt r Hbt Hr. cbn [in_bin_types gproj] in Hbt. apply in_map_iff in Hbt. destruct Hbt as (bt0 & <- & Hbt).
  exact (H bt0 r Hbt Hr).
Qed.

Definition glast_ok (vs : list GView) (c : GCore) : Prop :=
  match rev vs with
  | [] => gc_area c = gc_full_area c /\ gc_width c = 0 /\ gc_height c = 0 /\ gc_second c = 0
  | v :: _ => GLast v c
  end.

Lemma ginv_indicators : forall i vs c, GInv i vs c -> glast_ok vs c -> GIndicators i vs c.
Proof.
  intros i vs c HI HL.
  destruct HI as [(k & [[I1 I2 I3 I4 I5 I6 I7 I8 I9] _ _ _ _ _ _ _ _ _] & [M1 M2 M3 M4 M5 M6 M7 M8 M9 M10]) _ _ _ _ _ _ _ _ _ _ _ _ _ _].
  unfold glast_ok in HL. constructor.
  - rewrite M1, I1, zsum_map'. reflexivity.
  - rewrite M2, I2, zsum_map'. reflexivity.
  - rewrite M3, I3, zsum_map'. apply zsum_ext. intros v _. cbn [bd_copies bd_type gpd]. rewrite gproj_bin_type. reflexivity.
  - rewrite M4, I4, zsum_map'. apply zsum_ext. intros v _. cbn [bd_copies bd_items gpd].
    f_equal. apply zsum_ext. intros x _. rewrite gproj_item_type. reflexivity.
  - destruct (rev vs); [destruct HL as (-> & _); lia|exact (gla_area _ _ HL)].
  - rewrite M6, I5, qsum_map'. apply qsum_ext. intros v _. cbn [bd_copies bd_type gpd]. rewrite gproj_bin_type. reflexivity.
  - intro Hs. rewrite M5, (I6 (gsane_proj i Hs)), qsum_map'. apply qsum_ext. intros v _. cbn [bd_copies bd_items gpd].
    assert (E1 : (qsum (fun x => it_profit (item_type (gproj i) x)) (gv_items v) == qsum (fun x => gi_profit (gitem i x)) (gv_items v))%Q).
    { apply qsum_ext. intros x _. rewrite gproj_item_type. reflexivity. }
    rewrite E1.
    assert (E2 : (penalties (gproj i) (gpd v) == gpenalties i v)%Q).
    { unfold penalties, gpenalties. cbn [bd_type bd_items gpd]. rewrite gproj_bin_type. cbn [bt_resources gproj_bin].
      apply qsum_ext. intros r _. rewrite gproj_consumption. reflexivity. }
    rewrite E2. reflexivity.
  - intros t Ht. rewrite M7, I7 by (rewrite gproj_bins_length; assumption). apply gproj_used.
  - intros x Hx. rewrite M8, I8 by (rewrite gproj_items_length; assumption). apply gproj_packed.
  - destruct (rev vs); [apply HL|exact (gla_width _ _ HL)].
  - destruct (rev vs); [apply HL|exact (gla_second _ _ HL)].
  - destruct (rev vs); [apply HL|exact (gla_height _ _ HL)].
Qed.

Lemma ginv_flags : forall i vs c, GInv i vs c -> GFlags i vs c.
Proof.
  intros i vs c HI. destruct HI as [(k & HC & HM) ILen IAm ISt IMiss [IStg IStgOk] IW Imin1 Imax1 Imin2 Imax2 In1 In2 Idef Ithr].
  constructor; try assumption.
  - rewrite (gm_ok _ _ HM), (ci_copies _ _ _ HC). split.
    + intros H v x Hv Hx. specialize (H (gpd v) (in_map _ _ _ Hv) x Hx). rewrite gproj_packed, gproj_item_type in H. exact H.
    + intros H d Hd x Hx. apply in_map_iff in Hd. destruct Hd as (v & <- & Hv). rewrite gproj_packed, gproj_item_type. exact (H v x Hv Hx).
  - rewrite (gm_ro _ _ HM), (ci_res _ _ _ HC). unfold gresources_ok. split.
    + intros H v Hv r Hr Hp. specialize (H (gpd v) (in_map _ _ _ Hv) r). cbn [bd_type bd_items gpd] in H.
      rewrite gproj_bin_type in H. specialize (H Hr Hp).
      intros p x q E Hs. rewrite <- gproj_consumption. exact (H p x q E Hs).
    + intros H d Hd r Hr Hp. apply in_map_iff in Hd. destruct Hd as (v & <- & Hv). cbn [bd_type bd_items gpd] in *.
      rewrite gproj_bin_type in Hr. intros p x q E Hs. rewrite gproj_consumption. exact (H v Hv r Hr Hp p x q E Hs).
Qed.

Lemma gmissing_zero : forall i l, gcount_missing i l = 0 <->
  forall x, (x < length (gin_items i))%nat -> gi_copies_min (gitem i x) <= nth x l 0.
Proof.
  intros i l. unfold gcount_missing. rewrite (count_fold _ (fun x => nth x l 0 <? gi_copies_min (gitem i x))), Z.add_0_l. split.
  - intros H x Hx. destruct (Z.ltb_spec (nth x l 0) (gi_copies_min (gitem i x))) as [Hlt|]; [|assumption]. exfalso.
    assert (Hin : In x (filter (fun x => nth x l 0 <? gi_copies_min (gitem i x)) (seq 0 (length (gin_items i)))))
      by (apply filter_In; split; [apply in_seq; lia|apply Z.ltb_lt; assumption]).
    destruct (filter _ _); [destruct Hin|simpl length in H; lia].
  - intro H. destruct (filter _ _) as [|x l'] eqn:E; [reflexivity|]. exfalso.
    assert (Hin : In x (x :: l')) by (left; reflexivity). rewrite <- E in Hin. apply filter_In in Hin.
    destruct Hin as [H1 H2]. apply in_seq in H1. apply Z.ltb_lt in H2. specialize (H x ltac:(lia)). lia.
Qed.

(** ** The empty solution *)

Lemma fold_seq_nth : forall (A : Type) (f : Z -> A -> Z) (g : Z -> nat -> Z) (d : A) l a,
  (forall n x, (x < length l)%nat -> g n x = f n (nth x l d)) ->
  fold_left g (seq 0 (length l)) a = fold_left f l a.
Proof.
  intros A f g d l. induction l as [|y l IH] using rev_ind; intros a H; [reflexivity|].
  rewrite app_length. cbn [length]. rewrite seq_app, !fold_left_app. cbn [seq fold_left Nat.add].
  rewrite IH.
  - rewrite H by (rewrite app_length; cbn [length]; lia). rewrite app_nth2 by lia. rewrite Nat.sub_diag. reflexivity.
  - intros n x Hx. rewrite H by (rewrite app_length; cbn [length]; lia). rewrite app_nth1 by lia. reflexivity.
Qed.

Lemma ginv_new : forall i bins, GInv i [] (gwith_bins (gs_core (gsol_new i)) bins).
Proof.
  intros i bins. unfold gsol_new.
  assert (V : forall P : GView -> Prop, true = true <-> forall v, In v [] -> P v) by (intros P; split; [intros _ v []|reflexivity]).
  constructor; cbn [gwith_bins gs_core gc_number_of_bins gc_item_copies gc_stacks_ok gc_missing gc_stages gc_stages_ok gc_waste_ok
    gc_min1_ok gc_max1_ok gc_min2_ok gc_max2_ok gc_number1_ok gc_number2_ok gc_defects_ok gc_through_ok]; try apply V.
  - exists (s_core (sol_new (gproj i))). split; [apply core_inv_new|].
    constructor; try reflexivity; cbn; rewrite map_length; reflexivity.
  - apply repeat_length.
  - intros x. rewrite nth_repeat. reflexivity.
  - split; [intros _; apply prefall_nil|reflexivity].
  - unfold gcount_missing. symmetry. apply (fold_seq_nth GItem _ _ gdummy_item).
    intros n x Hx. rewrite nth_repeat. reflexivity.
  - split; [left; reflexivity|apply V].
Qed.

(** ** feasible() *)

Definition gcopies_min_ok (i : GInstance) (vs : list GView) : Prop :=
  forall x, (x < length (gin_items i))%nat -> gi_copies_min (gitem i x) <= gpacked x vs.

Lemma ginv_missing : forall i vs c, GInv i vs c -> (gc_missing c = 0 <-> gcopies_min_ok i vs).
Proof.
  intros i vs c HI. rewrite (gv_missing _ _ _ HI), gmissing_zero. unfold gcopies_min_ok.
  destruct (gv_core _ _ _ HI) as (k & HC & HM).
  assert (E : forall x, (x < length (gin_items i))%nat -> nth x (gc_item_copies c) 0 = gpacked x vs).
  { intros x Hx. rewrite (gm_ic _ _ HM). destruct (ci_ind _ _ _ HC) as [_ _ _ _ _ _ _ I8 _].
    rewrite I8 by (rewrite gproj_items_length; exact Hx). apply gproj_packed. }
  split; intros H x Hx; specialize (H x Hx); rewrite E in * by exact Hx; exact H.
Qed.

Lemma ginv_feasible : forall i vs c ok, GInv i vs c -> gc_waste_ok c = true ->
  (gall_ok c ok = true <-> GPackingOK i vs /\ ok = true).
Proof.
  intros i vs c ok HI HW. pose proof (ginv_flags _ _ _ HI) as [F1 F2 F3 F4 F5 F6 F7 F8 F9 F10 F11 F12].
  pose proof (proj1 (gv_waste _ _ _ HI) HW) as FW. pose proof (ginv_missing _ _ _ HI) as FM. unfold gcopies_min_ok in FM.
  unfold gall_ok. rewrite !andb_true_iff, Z.eqb_eq, F1, F2, F3, F4, F5, F6, F7, F8, F9, F10, F11, F12, FM. split.
  - intros ((((((((((((((A1 & A2) & A3) & A4) & A5) & A6) & A7) & A8) & A9) & A10) & A11) & A12) & A13) & A14) & A15).
    split; [|exact A14]. constructor; try assumption.
    intros v Hv. exact (conj (A1 v Hv) (conj (FW v Hv) (conj (A3 v Hv) (conj (A4 v Hv) (conj (A5 v Hv) (conj (A6 v Hv)
      (conj (A7 v Hv) (conj (A8 v Hv) (conj (A10 v Hv) (conj (A11 v Hv) (A13 v Hv))))))))))).
  - intros [[B1 B2 B3 B4] Hok].
    refine (conj (conj (conj (conj (conj (conj (conj (conj (conj (conj (conj (conj (conj (conj _ HW) _) _) _) _) _) _) B2) _) _) B3) _) Hok) B4);
      intros v Hv; destruct (B1 v Hv) as (X1 & X2 & X3 & X4 & X5 & X6 & X7 & X8 & X9 & X10 & X11); assumption.
Qed.

(** ** build() *)

Definition gcost_ok (i : GInstance) (vs : list GView) (c : GCore) : Prop :=
  (gin_objective i = OBinPackingCuttingCost -> (forall v, In v vs -> gv_orient v <> GAny) ->
    gc_cutting_cost c = zsum (fun v => gv_copies v * gbin_cut_cost i v) vs + gp_waste_cost (gin_params i) * gc_waste c)
  /\ (gin_objective i <> OBinPackingCuttingCost -> gc_cutting_cost c = gp_waste_cost (gin_params i) * gc_waste c).

Definition gcosts_given (i : GInstance) : Prop := gin_objective i = OBinPackingCuttingCost -> gp_costs (gin_params i) <> [].

Lemma gupdate_cost : forall i vs c pos b, gcosts_given i -> plan_ok i (gview_bin b) -> gcost_ok i vs c ->
  gcost_ok i (vs ++ [gview_bin b]) (gcore_after i c pos b).
Proof.
  intros i vs c pos b HG HP [H1 H2]. unfold gcost_ok, gcore_after. unfold gc_waste in *. cbn [gc_cutting_cost gc_area gc_item_area]. split.
  - intros Hobj Hor. rewrite forall_last in Hor. destruct Hor as [Hor1 Hor2]. specialize (H1 Hobj Hor1).
    rewrite loop_cutting.
    pose proof (cutting_fold i (gview_bin b) (gs_copies b) (gl_cutting (gloop0 i c b)) HP Hor2 Hobj) as E.
    cbn [gview_bin gv_orient gv_nodes] in E. rewrite E. rewrite zsum_snoc.
    change (gbin_cut_cost i (gview_bin b)) with (gcc_fixed (nth 0 (gp_costs (gin_params i)) (mkGCC 0 0))
      + gcc_variable (nth 0 (gp_costs (gin_params i)) (mkGCC 0 0)) * gb_area (gbin i (gs_type b))
      + zsum (gcut_cost i (gs_orient b) (gs_nodes b)) (gs_nodes b)).
    unfold gloop0 at 1. cbn [gl_cutting]. rewrite Hobj. specialize (HG Hobj).
    destruct (gp_costs (gin_params i)) as [|c0 cs] eqn:Ec; [contradiction|]. cbn [nth].
    rewrite H1. cbn [gview_bin gv_copies gv_type gv_orient gv_nodes]. ring.
  - intros Hobj. specialize (H2 Hobj). rewrite loop_cutting, cutting_other by exact Hobj.
    unfold gloop0 at 1. cbn [gl_cutting].
    destruct (gin_objective i) eqn:EO; try (rewrite H2; ring). congruence.
Qed.

(** One update: what it returns. *)
Lemma gupdate_out : forall i cb c pos b, gcosts_given i -> nth_error (gc_bins c) pos = Some b ->
  gupdate i cb pos c =
    let c' := gcore_after i c pos b in
    if gc_waste_ok c' then GDone (mkGS c' (cb c') (gall_ok c' (cb c'))) else GExit.
Proof.
  intros i cb c pos b HG Hb. unfold gupdate. rewrite Hb. unfold gcosts_given in HG.
  destruct (gin_objective i); try reflexivity. destruct (gp_costs (gin_params i)); [contradiction (HG eq_refl); reflexivity|reflexivity].
Qed.

Lemma upd_middle : forall (A : Type) (l : list A) x r f, upd (length l) f (l ++ x :: r) = l ++ f x :: r.
Proof. intros A l. induction l as [|y l IH]; intros x r f; [reflexivity|]. cbn [length app upd]. rewrite IH. reflexivity. Qed.

Lemma after_bins : forall i c pos b, exists b', gc_bins (gcore_after i c pos b) = upd pos (fun _ => b') (gc_bins c) /\ gview_bin b' = gview_bin b.
Proof. intros i c pos b. eexists. split; [reflexivity|]. apply stage_view. Qed.

Record GState (i : GInstance) (cb : GCallback) (vs : list GView) (s : GSolution) : Prop := {
  gst_inv : GInv i vs (gs_core s);
  gst_last : glast_ok vs (gs_core s);
  gst_cost : gcost_ok i vs (gs_core s);
  gst_waste : gc_waste_ok (gs_core s) = true;
  gst_cb : gs_callback_ok s = match vs with [] => true | _ => cb (gs_core s) end;
  gst_feasible : gs_feasible s = true <-> GPackingOK i vs /\ gs_callback_ok s = true
}.

Lemma glast_snoc : forall vs v c, GLast v c -> glast_ok (vs ++ [v]) c.
Proof. intros vs v c H. unfold glast_ok. rewrite rev_unit. exact H. Qed.

Lemma snoc_match : forall (A B : Type) (l : list A) x (a b : B), match l ++ [x] with [] => a | _ => b end = b.
Proof. intros A B [|y l] x a b; reflexivity. Qed.

Lemma gstate_new : forall i cb bins,
  GState i cb [] (mkGS (gwith_bins (gs_core (gsol_new i)) bins) (gs_callback_ok (gsol_new i)) (gs_feasible (gsol_new i))).
Proof.
  intros i cb bins. pose proof (ginv_new i bins) as HI. constructor; cbn [gs_core gs_callback_ok gs_feasible].
  - exact HI.
  - unfold glast_ok. cbn. auto.
  - unfold gcost_ok, gc_waste. cbn. split; intros; lia.
  - reflexivity.
  - reflexivity.
  - pose proof (ginv_missing _ _ _ HI) as M. unfold gcopies_min_ok in M.
    unfold gsol_new in *. cbn [gs_core gs_feasible gs_callback_ok gwith_bins gc_missing] in *. rewrite Z.eqb_eq, M. split.
    + intros H. split; [|reflexivity]. constructor; [intros v []|apply prefall_nil|intros v x []|exact H].
    + intros [[_ _ _ H] _]. exact H.
Qed.

Section Build.

Variable i : GInstance.
Variable cb : GCallback.
Hypothesis Hwf : gwf_resources i.
Hypothesis Hends : gsane_ends i.
Hypothesis Hcosts : gcosts_given i.

(** One update of a bin not processed yet. *)
Lemma gupdate_state : forall vs s pos b, GInv i vs (gs_core s) -> gcost_ok i vs (gs_core s) -> (forall v, In v vs -> gview_ok i v) ->
  nth_error (gc_bins (gs_core s)) pos = Some b -> gview_ok i (gview_bin b) -> gfresh b ->
  match gupdate i cb pos (gs_core s) with
  | GDone s' => GState i cb (vs ++ [gview_bin b]) s'
      /\ exists b', gc_bins (gs_core s') = upd pos (fun _ => b') (gc_bins (gs_core s)) /\ gview_bin b' = gview_bin b
  | GExit => ~ (forall v, In v (vs ++ [gview_bin b]) -> gwastes_large i v)
  | GBad => False
  end.
Proof.
  intros vs s pos b HI HC Hvs Hb Hv Hf.
  destruct (gupdate_inv i vs (gs_core s) pos b Hwf Hends HI Hvs Hv Hf) as [HI' HL'].
  rewrite (gupdate_out i cb _ _ _ Hcosts Hb). cbv zeta.
  pose proof (gupdate_cost i vs (gs_core s) pos b Hcosts ltac:(destruct Hv as (_ & _ & H); exact H) HC) as HC'.
  pose proof (after_bins i (gs_core s) pos b) as HB.
  set (c' := gcore_after i (gs_core s) pos b) in *.
  destruct (gc_waste_ok c') eqn:EW.
  - split; [|exact HB]. constructor; cbn [gs_core gs_callback_ok gs_feasible]; try assumption.
    + apply glast_snoc. exact HL'.
    + rewrite snoc_match. reflexivity.
    + apply ginv_feasible; assumption.
  - intros H. apply (gv_waste _ _ _ HI') in H. congruence.
Qed.

Lemma gupdate_all : forall rest done s, GState i cb (map gview_bin done) s ->
  gc_bins (gs_core s) = done ++ rest ->
  (forall b, In b done -> gview_ok i (gview_bin b)) -> (forall b, In b rest -> gview_ok i (gview_bin b) /\ gfresh b) ->
  match gupdate_from i cb (seq (length done) (length rest)) s with
  | GDone s' => GState i cb (map gview_bin (done ++ rest)) s' /\ gview (gs_core s') = map gview_bin (done ++ rest)
      /\ forall b, In b (done ++ rest) -> gwastes_large i (gview_bin b)
  | GExit => ~ (forall b, In b (done ++ rest) -> gwastes_large i (gview_bin b))
  | GBad => False
  end.
Proof.
  induction rest as [|b rest IH]; intros done s HS HB Hd Hr; cbn [length seq gupdate_from].
  - rewrite app_nil_r in *. split; [exact HS|]. split; [unfold gview; rewrite HB; reflexivity|].
    intros b Hb. apply (proj1 (gv_waste _ _ _ (gst_inv _ _ _ _ HS)) (gst_waste _ _ _ _ HS)). apply in_map. exact Hb.
  - assert (Hb : nth_error (gc_bins (gs_core s)) (length done) = Some b).
    { rewrite HB, nth_error_app2 by lia. rewrite Nat.sub_diag. reflexivity. }
    destruct (Hr b (or_introl eq_refl)) as [Hv Hf].
    pose proof (gupdate_state (map gview_bin done) s (length done) b (gst_inv _ _ _ _ HS) (gst_cost _ _ _ _ HS)
      ltac:(intros v Hin; apply in_map_iff in Hin; destruct Hin as (b0 & <- & Hin); apply Hd; exact Hin) Hb Hv Hf) as U.
    destruct (gupdate i cb (length done) (gs_core s)) as [s'| |]; [| |exact U].
    + destruct U as [U (b' & UB & UV)]. rewrite HB, upd_middle in UB.
      specialize (IH (done ++ [b']) s'). rewrite app_length in IH. cbn [length] in IH. rewrite Nat.add_comm in IH. cbn [Nat.add] in IH.
      rewrite map_app in IH. cbn [map] in IH. rewrite UV in IH. specialize (IH U). rewrite <- app_assoc in IH. cbn [app] in IH.
      specialize (IH UB).
      assert (EV : map gview_bin (done ++ b' :: rest) = map gview_bin (done ++ b :: rest)).
      { rewrite !map_app. cbn [map]. rewrite UV. reflexivity. }
      rewrite EV in IH.
      assert (EX : (forall b0, In b0 (done ++ b' :: rest) -> gwastes_large i (gview_bin b0))
                   <-> (forall b0, In b0 (done ++ b :: rest) -> gwastes_large i (gview_bin b0))).
      { split; intros H b0 Hin; apply in_app_or in Hin; destruct Hin as [Hin|[<-|Hin]].
        - apply H, in_or_app. left. exact Hin.
        - rewrite <- UV. apply H, in_or_app. right. left. reflexivity.
        - apply H, in_or_app. right. right. exact Hin.
        - apply H, in_or_app. left. exact Hin.
        - rewrite UV. apply H, in_or_app. right. left. reflexivity.
        - apply H, in_or_app. right. right. exact Hin. }
      assert (Hd' : forall b0, In b0 (done ++ [b']) -> gview_ok i (gview_bin b0)).
      { intros b0 Hin. apply in_app_or in Hin. destruct Hin as [Hin|[<-|[]]]; [apply Hd; exact Hin|rewrite UV; exact Hv]. }
      assert (Hr' : forall b0, In b0 rest -> gview_ok i (gview_bin b0) /\ gfresh b0) by (intros b0 Hin; apply Hr; right; exact Hin).
      specialize (IH Hd' Hr').
      destruct (gupdate_from i cb (seq (S (length done)) (length rest)) s'); [|rewrite <- EX; exact IH|exact IH].
      rewrite <- EX. exact IH.
    + intros H. apply U. intros v Hin. apply in_app_or in Hin. destruct Hin as [Hin|[<-|[]]].
      * apply in_map_iff in Hin. destruct Hin as (b0 & <- & Hin). apply H, in_or_app. left. exact Hin.
      * apply H, in_or_app. right. left. reflexivity.
Qed.

End Build.

(** The bins of the builder have not been processed. *)
Lemma fresh_call : forall i bins c, Forall gfresh bins ->
  match gcall i bins c with GOk bins' | GThrow bins' => Forall gfresh bins' | GUndef => True end.
Proof.
  intros i bins c H.
  assert (W : forall front b ns, bins = front ++ [b] -> Forall gfresh (front ++ [gwith_nodes b ns])).
  { intros front b ns E. rewrite E in H. apply Forall_app in H. destruct H as [H1 H2]. inversion H2. subst.
    apply Forall_app. split; [exact H1|]. constructor; [|constructor]. exact H3. }
  destruct c as [t copies o|depth cut|x]; simpl.
  - unfold gadd_bin. destruct (Nat.ltb _ _); [|exact H]. apply Forall_app. split; [exact H|]. constructor; [|constructor].
    repeat split.
  - unfold gadd_node. destruct (gback bins) as [[front b]|] eqn:E; [|exact H]. apply gback_some in E.
    destruct (_ <? _); [exact H|]. destruct (gadd_node_in _ _ _ _ _) as [[ns [|]]|]; [apply W; exact E|apply W; exact E|exact I].
  - unfold gset_item. destruct (gback bins) as [[front b]|] eqn:E; [|exact H]. apply gback_some in E.
    destruct (Nat.ltb _ _); [|exact H]. cbv zeta. destruct (_ || _); [apply W; exact E|exact H].
Qed.

Lemma fresh_run : forall i calls bins bins', Forall gfresh bins -> grun i bins calls = Some bins' -> Forall gfresh bins'.
Proof.
  intros i calls. induction calls as [|c calls IH]; intros bins bins' H E; cbn [grun] in E; [injection E as <-; exact H|].
  pose proof (fresh_call i bins c H) as F. destruct (gcall i bins c); [eapply IH; eassumption|eapply IH; eassumption|discriminate].
Qed.

Lemma fresh_finish : forall i bins bins', Forall gfresh bins -> gfinish_bins i bins = Some bins' ->
  Forall gfresh bins' /\ map gs_copies bins' = map gs_copies bins.
Proof.
  intros i bins bins' H E. unfold gfinish_bins in E.
  destruct (gmapo (gclose_bin (gp_ct (gin_params i))) bins) as [bs|] eqn:Em; [|discriminate]. injection E as <-.
  assert (G : Forall gfresh bs /\ map gs_copies bs = map gs_copies bins).
  { clear - H Em. revert bs Em. induction H as [|b bins Hb H IH]; intros bs Em; cbn [gmapo] in Em; [injection Em as <-; auto|].
    destruct (gclose_bin _ b) as [b'|] eqn:Eb; [|discriminate]. destruct (gmapo _ bins) as [r|]; [|discriminate]. injection Em as <-.
    destruct (IH r eq_refl) as [I1 I2]. unfold gclose_bin in Eb. destruct (gclose _ _ _ _) as [ns|]; [|discriminate]. injection Eb as <-.
    split; [constructor; [exact Hb|exact I1]|]. cbn [map]. rewrite I2. reflexivity. }
  destruct G as [G1 G2]. unfold gresidual. destruct (gback bs) as [[front b]|] eqn:Eb; [|auto]. apply gback_some in Eb. subst bs.
  apply Forall_app in G1. destruct G1 as [G3 G4]. inversion G4. subst. rewrite map_app in *. cbn [map] in *. rewrite <- G2.
  unfold gresidual_bin. cbv zeta. destruct (_ && _); (split; [apply Forall_app; split; [exact G3|constructor; [assumption|constructor]]|reflexivity]).
Qed.

Lemma copies_call : forall m i bins c, Forall (fun b => m <= gs_copies b) bins ->
  (match c with GAddBin _ k _ => m <= k | _ => True end) ->
  match gcall i bins c with GOk bins' | GThrow bins' => Forall (fun b => m <= gs_copies b) bins' | GUndef => True end.
Proof.
  intros m i bins c H Hk.
  assert (W : forall front b ns, bins = front ++ [b] -> Forall (fun b => m <= gs_copies b) (front ++ [gwith_nodes b ns])).
  { intros front b ns E. rewrite E in H. apply Forall_app in H. destruct H as [H1 H2]. inversion H2. subst.
    apply Forall_app. split; [exact H1|]. constructor; [|constructor]. assumption. }
  destruct c as [t copies o|depth cut|x]; simpl.
  - unfold gadd_bin. destruct (Nat.ltb _ _); [|exact H]. apply Forall_app. split; [exact H|]. constructor; [|constructor]. exact Hk.
  - unfold gadd_node. destruct (gback bins) as [[front b]|] eqn:E; [|exact H]. apply gback_some in E.
    destruct (_ <? _); [exact H|]. destruct (gadd_node_in _ _ _ _ _) as [[ns [|]]|]; [apply W; exact E|apply W; exact E|exact I].
  - unfold gset_item. destruct (gback bins) as [[front b]|] eqn:E; [|exact H]. apply gback_some in E.
    destruct (Nat.ltb _ _); [|exact H]. cbv zeta. destruct (_ || _); [apply W; exact E|exact H].
Qed.

(** Number of copies given to [add_bin]. *)
Definition gcopies_above (m : Z) (calls : list GCall) : Prop :=
  forall t k o, In (GAddBin t k o) calls -> m <= k.
Definition gcopies_given : list GCall -> Prop := gcopies_above 0.

Lemma copies_run : forall m i calls bins bins', gcopies_above m calls -> Forall (fun b => m <= gs_copies b) bins ->
  grun i bins calls = Some bins' -> Forall (fun b => m <= gs_copies b) bins'.
Proof.
  intros m i calls. induction calls as [|c calls IH]; intros bins bins' HK H E; cbn [grun] in E; [injection E as <-; exact H|].
  assert (HK' : gcopies_above m calls) by (intros t k o Hin; apply (HK t k o); right; exact Hin).
  pose proof (copies_call m i bins c H ltac:(destruct c as [t k o| |]; try exact I; apply (HK t k o); left; reflexivity)) as F.
  destruct (gcall i bins c); [eapply IH; eassumption|eapply IH; eassumption|discriminate].
Qed.

(** The bins [build] processes. *)
Lemma built_ok : forall i calls bins bins', 0 <= gp_ct (gin_params i) -> gcopies_given calls ->
  grun i [] calls = Some bins -> gfinish_bins i bins = Some bins' ->
  forall b, In b bins' -> gview_ok i (gview_bin b) /\ gfresh b.
Proof.
  intros i calls bins bins' Hct HK E EF b Hb.
  destruct (run_good i Hct calls [] (Forall_nil _)) as (bins0 & E0 & H). rewrite E in E0. injection E0 as <-.
  destruct (finish_done i Hct bins H) as (bins1 & E1 & H1 & _). rewrite EF in E1. injection E1 as <-.
  pose proof (fresh_run i calls [] bins (Forall_nil _) E) as F.
  pose proof (copies_run 0 i calls [] bins HK (Forall_nil _) E) as K.
  destruct (fresh_finish i bins bins' F EF) as [F' C'].
  rewrite Forall_forall in H1, F'. destruct (H1 b Hb) as [Ht [HI _]]. split; [|apply F'; exact Hb].
  split; [exact Ht|]. split.
  - assert (Hin : In (gs_copies b) (map gs_copies bins)) by (rewrite <- C'; apply in_map; exact Hb).
    apply in_map_iff in Hin. destruct Hin as (b0 & E0 & Hb0). rewrite Forall_forall in K. specialize (K b0 Hb0).
    cbn [gview_bin gv_copies]. lia.
  - exists (gbase (gbin i (gs_type b))). split; [apply inv_plan; [exact Hct|exact HI]|]. exact (iv_order _ _ _ _ _ _ HI).
Qed.
