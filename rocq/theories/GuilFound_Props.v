(** * C75, continued: the cuttable placements are those found *)

From Coq Require Import List ZArith QArith Bool Lia Arith Permutation Sorted.
From Verif Require Import Util Common_Model OneDim_Model Guil_Model GuilSol_Model GuilBuild_Model GuilBuild_Spec GuilBuild_Proof
  GuilBuild_Props GuilFound_Proof.
Import ListNotations.
Open Scope Z_scope.

(** Items with the sizes of their types, that straight cuts separate, without
    item too near for a cut after a side of the plate or another item: the call
    returns after at most two nested calls per item, with one solution for each
    orientation of the first stage allowed (unless the process ends while the
    indicators of the solution are computed). *)
Theorem C75_found : forall srt i cb t items, Sorts srt -> (t < length (gin_bins i))%nat -> TrimsNonneg (gbin i t) ->
  0 <= gp_ct (gin_params i) -> InPlate (gbin i t) items -> Sized i items -> Cuttable (gp_ct (gin_params i)) items ->
  (forall v, Clear (gp_ct (gin_params i)) v items) ->
  ClearOf (gp_ct (gin_params i)) (use_l (gbin i t)) true items -> ClearOf (gp_ct (gin_params i)) (use_b (gbin i t)) false items ->
  forall fuel, (2 * length items <= fuel)%nat ->
  build_guillotine_solutions srt i cb fuel t items <> GBFuel
  /\ forall sols, build_guillotine_solutions srt i cb fuel t items = GBList sols ->
       length sols = match gp_first (gin_params i) with GAny => 2%nat | _ => 1%nat end.
Proof.
  intros srt i cb t items Hs Ht Htr Hct Hin Hsz Hcut Hclear Hl Hb fuel Hf.
  assert (T : forall o, o <> GAny -> try_orientation srt i cb fuel t items o <> GBFuel
    /\ forall sols, try_orientation srt i cb fuel t items o = GBList sols -> length sols = 1%nat).
  { intros o Ho. destruct (try_found srt Hs i o Hct fuel t items Ho Ht Htr Hin Hcut Hclear Hl Hb Hsz Hf) as (bins & E).
    unfold try_orientation. rewrite E. destruct (gbuild i cb bins); split; try discriminate.
    intros sols H. inversion H. reflexivity. }
  unfold build_guillotine_solutions.
  destruct (T GVertical ltac:(discriminate)) as [V1 V2]. destruct (T GHorizontal ltac:(discriminate)) as [H1 H2].
  destruct (gp_first (gin_params i)); try (split; assumption).
  destruct (try_orientation srt i cb fuel t items GVertical) as [| | |l1]; try (split; [assumption || discriminate|discriminate]).
  destruct (try_orientation srt i cb fuel t items GHorizontal) as [| | |l2]; try (split; [assumption || discriminate|discriminate]).
  split; [discriminate|]. intros sols H. inversion H. rewrite app_length, (V2 _ eq_refl), (H2 _ eq_refl). reflexivity.
Qed.
Print Assumptions C75_found.

(** A solution is only returned for items that straight cuts separate. *)
Theorem C75_only_cuttable : forall srt i cb fuel t items sols s, Sorts srt -> TrimsNonneg (gbin i t) ->
  0 <= gp_ct (gin_params i) -> InPlate (gbin i t) items ->
  build_guillotine_solutions srt i cb fuel t items = GBList sols -> In s sols -> Cuttable (gp_ct (gin_params i)) items.
Proof.
  intros srt i cb fuel t items sols s Hs Htr Hct Hin H Hsol.
  assert (Hsizes : Sizes items).
  { intros v p Hp. specialize (Hin p Hp). destruct Htr as (T1 & _ & T3 & _). unfold use_l, use_b in Hin.
    unfold pl_start, pl_end. destruct v, (gt_hard (gb_left (gbin i t))), (gt_hard (gb_bottom (gbin i t))); lia. }
  assert (T : forall o l, try_orientation srt i cb fuel t items o = GBList l -> In s l -> Cuttable (gp_ct (gin_params i)) items).
  { intros o l E Hl. unfold try_orientation, try_region in E. destruct (Nat.ltb t (length (gin_bins i))) eqn:El; [|discriminate].
    unfold gadd_bin in E. rewrite El in E. cbn [app] in E.
    destruct (build_region srt i o fuel _ _ _ _ items 1 _) as [| | |bins] eqn:Er; try discriminate.
    - inversion E; subst l. destruct Hl.
    - eapply region_cuttable; eassumption. }
  unfold build_guillotine_solutions in H. destruct (gp_first (gin_params i)); try (eapply T; eassumption).
  destruct (try_orientation srt i cb fuel t items GVertical) as [| | |l1] eqn:E1; try discriminate.
  destruct (try_orientation srt i cb fuel t items GHorizontal) as [| | |l2] eqn:E2; try discriminate.
  inversion H; subst sols. apply in_app_or in Hsol. destruct Hsol as [Hx|Hx]; [exact (T _ _ E1 Hx)|exact (T _ _ E2 Hx)].
Qed.
Print Assumptions C75_only_cuttable.

(** With cuts without thickness, the placements of items of the right sizes that
    are found are the cuttable ones, as soon as the indicators are computed. *)
Theorem C75_thin_cuts : forall srt i cb t items, Sorts srt -> (t < length (gin_bins i))%nat -> TrimsNonneg (gbin i t) ->
  gp_ct (gin_params i) = 0 -> InPlate (gbin i t) items -> Sized i items ->
  forall fuel sols, (2 * length items <= fuel)%nat -> build_guillotine_solutions srt i cb fuel t items = GBList sols ->
  (sols <> [] <-> Cuttable 0 items).
Proof.
  intros srt i cb t items Hs Ht Htr Hct Hin Hsz fuel sols Hf H. split; intros HC.
  - destruct sols as [|s l]; [congruence|]. rewrite <- Hct.
    eapply C75_only_cuttable; try eassumption; [lia|left; reflexivity].
  - assert (Hcl : forall lo v, ClearOf 0 lo v items) by (intros lo v q _; lia).
    destruct (C75_found srt i cb t items Hs Ht Htr) with (fuel := fuel) as [_ L]; rewrite ?Hct; try assumption; try lia; auto.
    + intros v p _. split; apply Hcl.
    + specialize (L _ H). intros ->. destruct (gp_first (gin_params i)); discriminate.
Qed.
Print Assumptions C75_thin_cuts.

(** The items of the example, found after at most six nested calls. *)
Example C75_found_nonvacuous :
  (length b75_items = 3%nat /\ length (match build_guillotine_solutions sort_pl (b75_in GAny) b75_cb 6 0 b75_items with GBList l => l | _ => [] end) = 2%nat)
  /\ InPlate (gbin (b75_in GAny) 0) b75_items /\ Sized (b75_in GAny) b75_items /\ Cuttable 1 b75_items
  /\ (forall v, Clear 1 v b75_items) /\ ClearOf 1 1 true b75_items /\ ClearOf 1 0 false b75_items.
Proof.
  assert (HI : InPlate (gbin (b75_in GAny) 0) b75_items)
    by (intros p [<-|[<-|[<-|[]]]]; vm_compute; repeat split; discriminate || reflexivity).
  split; [vm_compute; split; reflexivity|]. split; [exact HI|].
  split; [intros p [<-|[<-|[<-|[]]]]; cbn; (split; [lia|]); auto|].
  split.
  { destruct (build_guillotine_solutions sort_pl (b75_in GAny) b75_cb 6 0 b75_items) as [| | |[|s l]] eqn:E; try (vm_compute in E; discriminate).
    change 1 with (gp_ct (gin_params (b75_in GAny))).
    eapply (C75_only_cuttable sort_pl (b75_in GAny) b75_cb 6 0); [exact sort_pl_sorts| | |exact HI|exact E|left; reflexivity].
    - repeat split; vm_compute; discriminate.
    - vm_compute. discriminate. }
  split.
  { intros v p Hp. split; intros q Hq; cbn [b75_items In] in Hp, Hq;
      destruct Hp as [<-|[<-|[<-|[]]]]; destruct Hq as [<-|[<-|[<-|[]]]]; destruct v; cbn; lia. }
  split; intros q Hq; cbn [b75_items In] in Hq; destruct Hq as [<-|[<-|[<-|[]]]]; cbn; lia.
Qed.
