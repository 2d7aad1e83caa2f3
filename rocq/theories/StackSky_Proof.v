(** * The skyline kept by the nodes of the boxstacks branching scheme *)

From Coq Require Import List ZArith QArith Qminmax Bool Lia Lqa Arith.
From Verif Require Import Util Common_Model Common_Proof OneDim_Model OneDim_Proof Rect_Model RectSky_Proof Box_Model Stack_Model Stack_Spec Stack_Proof RectTree_Model StackTree_Model StackTree_Spec.
Import ListNotations.
Open Scope Z_scope.

(** The pieces follow each other from [a] to [b]. *)
Fixpoint vtiles (a b : Z) (l : list VPiece) : Prop :=
  match l with
  | [] => a = b
  | u :: r => vp_ys u = a /\ a < vp_ye u /\ vtiles (vp_ye u) b r
  end.

Definition vbelow_clip (ys : Z) (u : VPiece) : list VPiece :=
  if vp_ye u <=? ys then [u] else if vp_ys u <? ys then [vset_ye u ys] else [].
Definition vabove_clip (ye : Z) (u : VPiece) : list VPiece :=
  if ye <=? vp_ys u then [u] else if ye <? vp_ye u then [vset_ys u ye] else [].

Lemma vtiles_le : forall l a b, vtiles a b l -> a <= b.
Proof. induction l as [|u r IH]; intros a b H; cbn in H; [lia|]. destruct H as (_ & H1 & H2). apply IH in H2. lia. Qed.

Lemma vtiles_app : forall l1 l2 a b c, vtiles a b l1 -> vtiles b c l2 -> vtiles a c (l1 ++ l2).
Proof. induction l1 as [|u r IH]; intros l2 a b c H1 H2; cbn in *; [subst; exact H2|]. destruct H1 as (E1 & E2 & E3). split; [exact E1|]. split; [exact E2|]. eapply IH; eassumption. Qed.

Lemma vtiles_in : forall l a b u, vtiles a b l -> In u l -> a <= vp_ys u /\ vp_ys u < vp_ye u /\ vp_ye u <= b.
Proof.
  induction l as [|v r IH]; intros a b u H Hin; [destruct Hin|]. cbn in H. destruct H as (E1 & E2 & E3). pose proof (vtiles_le _ _ _ E3). destruct Hin as [<-|Hin]; [lia|].
  destruct (IH _ _ _ E3 Hin). lia.
Qed.

Lemma vtiles_at : forall l a b y, vtiles a b l -> a <= y < b -> exists u, In u l /\ vp_ys u <= y < vp_ye u.
Proof.
  induction l as [|v r IH]; intros a b y H Hy; cbn in H; [lia|]. destruct H as (E1 & E2 & E3). destruct (Z.lt_ge_cases y (vp_ye v)).
  - exists v. split; [left; reflexivity|]. lia.
  - destruct (IH _ _ y E3) as (u & Hu & Hy'); [lia|]. exists u. split; [right; exact Hu|exact Hy'].
Qed.

Lemma vtiles_apart : forall l a b j k u v, vtiles a b l -> nth_error l j = Some u -> nth_error l k = Some v -> j <> k -> vp_ye u <= vp_ys v \/ vp_ye v <= vp_ys u.
Proof.
  induction l as [|w r IH]; intros a b j k u v H Hj Hk Hne; [destruct j; discriminate|]. cbn in H. destruct H as (E1 & E2 & E3). destruct j as [|j], k as [|k]; cbn in Hj, Hk.
  - lia.
  - injection Hj as ->. apply nth_error_In in Hk. destruct (vtiles_in _ _ _ _ E3 Hk). left. lia.
  - injection Hk as ->. apply nth_error_In in Hj. destruct (vtiles_in _ _ _ _ E3 Hj). right. lia.
  - apply (IH _ _ j k u v E3 Hj Hk). lia.
Qed.

Lemma vtiles_upd : forall f l a b k, (forall u, vp_ys (f u) = vp_ys u /\ vp_ye (f u) = vp_ye u) -> vtiles a b l -> vtiles a b (upd k f l).
Proof.
  intros f. induction l as [|u r IH]; intros a b k Hf H; [destruct k; exact H|]. cbn in H. destruct H as (E1 & E2 & E3). destruct (Hf u) as [F1 F2]. destruct k as [|k]; cbn.
  - rewrite F1, F2. auto.
  - split; [exact E1|]. split; [exact E2|]. apply IH; assumption.
Qed.

Lemma vbelow_none : forall l a b ys, vtiles a b l -> ys <= a -> flat_map (vbelow_clip ys) l = [].
Proof.
  intros l. induction l as [|u r IH]; intros a b ys H Ha; [reflexivity|]. cbn in H. destruct H as (E1 & E2 & E3). cbn [flat_map]. rewrite (IH _ _ ys E3) by lia.
  unfold vbelow_clip. zb; try lia; reflexivity.
Qed.

Lemma vtiles_below : forall l a b ys, vtiles a b l -> a <= ys <= b -> vtiles a ys (flat_map (vbelow_clip ys) l).
Proof.
  induction l as [|u r IH]; intros a b ys H Hy; cbn in H; [cbn; lia|]. destruct H as (E1 & E2 & E3). cbn [flat_map]. destruct (Z.le_gt_cases (vp_ye u) ys) as [C|C].
  - unfold vbelow_clip at 1. destruct (Z.leb_spec (vp_ye u) ys); [|lia]. cbn. split; [exact E1|]. split; [exact E2|]. apply (IH _ b); [exact E3|lia].
  - rewrite (vbelow_none r _ b ys E3) by lia. rewrite app_nil_r. unfold vbelow_clip. zb; try lia; cbn; lia.
Qed.

Lemma vtiles_above : forall l a b ye, vtiles a b l -> a <= ye <= b -> vtiles ye b (flat_map (vabove_clip ye) l).
Proof.
  induction l as [|u r IH]; intros a b ye H Hy; cbn in H; [cbn; lia|]. destruct H as (E1 & E2 & E3). cbn [flat_map]. destruct (Z.le_gt_cases (vp_ye u) ye) as [C|C].
  - unfold vabove_clip at 1. destruct (Z.leb_spec ye (vp_ys u)); [lia|]. destruct (Z.ltb_spec ye (vp_ye u)); [lia|]. cbn [app]. apply (IH (vp_ye u)); [exact E3|lia].
  - assert (G : flat_map (vabove_clip ye) r = r).
    { clear -C E3. revert E3. generalize (vp_ye u) C. clear. intros a Ha. revert a Ha. induction r as [|v r IH]; intros a Ha E; [reflexivity|]. cbn in E. destruct E as (E1 & E2 & E3). cbn [flat_map]. rewrite (IH (vp_ye v)); [|lia|exact E3].
      unfold vabove_clip. zb; try lia; reflexivity. }
    rewrite G. unfold vabove_clip. destruct (Z.leb_spec ye (vp_ys u)); cbn; [split; [lia|split; [lia|exact E3]]|]. destruct (Z.ltb_spec ye (vp_ye u)); [|lia]. cbn. split; [lia|]. split; [lia|exact E3].
Qed.

Lemma vcover_after : forall p l a b, vtiles a b l -> vp_ys p < a -> flat_map (vcover p) l = flat_map (vabove_clip (vp_ye p)) l.
Proof.
  intros p. induction l as [|u r IH]; intros a b H Ha; cbn in H; [reflexivity|]. destruct H as (E1 & E2 & E3). cbn [flat_map]. rewrite (IH (vp_ye u) b E3) by lia. f_equal. unfold vcover, vabove_clip.
  destruct (Z.leb_spec (vp_ye u) (vp_ys p)); [lia|]. destruct (Z.leb_spec (vp_ys u) (vp_ys p)); [lia|]. reflexivity.
Qed.

Lemma vcover_eq : forall p l a b, vtiles a b l -> a <= vp_ys p -> vp_ys p < vp_ye p -> vp_ye p <= b ->
  flat_map (vcover p) l = flat_map (vbelow_clip (vp_ys p)) l ++ [p] ++ flat_map (vabove_clip (vp_ye p)) l.
Proof.
  intros p. induction l as [|u r IH]; intros a b H Ha Hp Hb; cbn in H; [lia|]. destruct H as (E1 & E2 & E3). cbn [flat_map]. unfold vcover at 1, vbelow_clip at 1, vabove_clip at 1.
  destruct (Z.leb_spec (vp_ye u) (vp_ys p)).
  - destruct (Z.leb_spec (vp_ye p) (vp_ys u)); [lia|]. destruct (Z.ltb_spec (vp_ye p) (vp_ye u)); [lia|]. rewrite (IH (vp_ye u) b) by (try exact E3; lia). reflexivity.
  - destruct (Z.leb_spec (vp_ys u) (vp_ys p)); [|lia]. rewrite (vcover_after p r (vp_ye u) b) by (try exact E3; lia). rewrite (vbelow_none r _ b (vp_ys p) E3) by lia. rewrite !app_nil_r.
    destruct (Z.leb_spec (vp_ye p) (vp_ys u)); [lia|]. cbn [app]. rewrite <- !app_assoc. reflexivity.
Qed.

Lemma vnew_pieces_eq : forall p yi, 0 <= vp_ys p -> vp_ys p < vp_ye p -> vp_ye p <= yi ->
  vnew_pieces p yi = flat_map (vbelow_clip (vp_ys p)) [vfree 0 yi] ++ [p] ++ flat_map (vabove_clip (vp_ye p)) [vfree 0 yi].
Proof.
  intros p yi H1 H2 H3. unfold vnew_pieces. cbn [flat_map]. rewrite !app_nil_r. unfold vbelow_clip, vabove_clip. cbn [vp_ye vp_ys vfree].
  destruct (Z.leb_spec yi (vp_ys p)); [lia|]. destruct (Z.leb_spec (vp_ye p) 0); [lia|]. reflexivity.
Qed.

(** Same piece up to its rows. *)
Definition same_piece (u' u : VPiece) : Prop :=
  vp_items u' = vp_items u /\ vp_weight u' = vp_weight u /\ vp_max u' = vp_max u /\ vp_rem u' = vp_rem u /\ vp_xs u' = vp_xs u /\ vp_xe u' = vp_xe u /\ vp_ze u' = vp_ze u.

(** Clipped pieces come from pieces. *)
Lemma vclip_in : forall l ys ye u', ys < ye -> In u' (flat_map (vbelow_clip ys) l ++ flat_map (vabove_clip ye) l) ->
  (forall u, In u l -> vp_ys u < vp_ye u) ->
  exists u, In u l /\ same_piece u' u /\ vp_ys u <= vp_ys u' /\ vp_ye u' <= vp_ye u /\ vp_ys u' < vp_ye u'
    /\ (vp_ye u' <= ys \/ ye <= vp_ys u').
Proof.
  intros l ys ye u' Hy H Hl. apply in_app_or in H. destruct H as [H|H]; apply in_flat_map in H; destruct H as (u & Hu & H); exists u; (split; [exact Hu|]); specialize (Hl u Hu).
  - unfold vbelow_clip in H. destruct (Z.leb_spec (vp_ye u) ys).
    + destruct H as [<-|[]]. split; [repeat (split; [reflexivity|]); reflexivity|]. repeat (split; [lia|]). left. lia.
    + destruct (Z.ltb_spec (vp_ys u) ys); [|destruct H]. destruct H as [<-|[]]. split; [repeat (split; [reflexivity|]); reflexivity|]. cbn. repeat (split; [lia|]). left. lia.
  - unfold vabove_clip in H. destruct (Z.leb_spec ye (vp_ys u)).
    + destruct H as [<-|[]]. split; [repeat (split; [reflexivity|]); reflexivity|]. repeat (split; [lia|]). right. lia.
    + destruct (Z.ltb_spec ye (vp_ye u)); [|destruct H]. destruct H as [<-|[]]. split; [repeat (split; [reflexivity|]); reflexivity|]. cbn. repeat (split; [lia|]). right. lia.
Qed.

(** Volume above one row of a piece. *)
Definition vrow (zi : Z) (u : VPiece) : Z := vp_xs u * zi + (vp_xe u - vp_xs u) * vp_ze u.

Lemma vpieces_rows : forall zi l, vpieces_volume zi l = zsum (fun u => vrow zi u * (vp_ye u - vp_ys u)) l.
Proof. intros zi l. unfold vpieces_volume. apply zsum_ext. intros u _. unfold vrow. ring. Qed.

(** Volume lost by clipping. *)
Lemma vclip_volume : forall zi l a b ys ye v, vtiles a b l -> ys < ye -> 0 <= v ->
  (forall u, In u l -> vp_ys u < ye -> ys < vp_ye u -> vrow zi u <= v) ->
  vpieces_volume zi l <= vpieces_volume zi (flat_map (vbelow_clip ys) l) + vpieces_volume zi (flat_map (vabove_clip ye) l) + v * Z.max 0 (Z.min b ye - Z.max a ys).
Proof.
  intros zi l. induction l as [|u r IH]; intros a b ys ye v H Hy Hx Ho; cbn in H.
  - cbn. nia.
  - destruct H as (E1 & E2 & E3). pose proof (vtiles_le _ _ _ E3) as Hb. specialize (IH _ _ ys ye v E3 Hy Hx (fun w Hw => Ho w (or_intror Hw))).
    cbn [flat_map]. rewrite !vpieces_rows in *. rewrite !zsum_app, zsum_cons. pose proof (Ho u (or_introl eq_refl)) as Ho0.
    assert (W : Z.max 0 (Z.min b ye - Z.max a ys) = Z.max 0 (Z.min (vp_ye u) ye - Z.max a ys) + Z.max 0 (Z.min b ye - Z.max (vp_ye u) ys)) by lia.
    rewrite W, Z.mul_add_distr_l. clear W.
    assert (P : vrow zi u * (vp_ye u - vp_ys u) <= zsum (fun u => vrow zi u * (vp_ye u - vp_ys u)) (vbelow_clip ys u) + zsum (fun u => vrow zi u * (vp_ye u - vp_ys u)) (vabove_clip ye u)
      + v * Z.max 0 (Z.min (vp_ye u) ye - Z.max a ys)).
    { unfold vbelow_clip, vabove_clip. rewrite E1 in *.
      assert (R1 : vrow zi (vset_ye u ys) = vrow zi u) by reflexivity. assert (R2 : vrow zi (vset_ys u ye) = vrow zi u) by reflexivity.
      destruct (Z.leb_spec (vp_ye u) ys).
      - destruct (Z.leb_spec ye a); [lia|]. destruct (Z.ltb_spec ye (vp_ye u)); [lia|]. rewrite zsum_cons, !zsum_nil, E1. replace (Z.max 0 (Z.min (vp_ye u) ye - Z.max a ys)) with 0 by lia. lia.
      - destruct (Z.leb_spec ye a).
        + destruct (Z.ltb_spec a ys); [lia|]. rewrite zsum_cons, !zsum_nil, E1. replace (Z.max 0 (Z.min (vp_ye u) ye - Z.max a ys)) with 0 by lia. lia.
        + specialize (Ho0 ltac:(lia) ltac:(lia)).
          assert (M : vrow zi u * (Z.min (vp_ye u) ye - Z.max a ys) <= v * Z.max 0 (Z.min (vp_ye u) ye - Z.max a ys)) by nia.
          destruct (Z.ltb_spec a ys); destruct (Z.ltb_spec ye (vp_ye u)); rewrite ?zsum_cons, ?zsum_nil, ?R1, ?R2; cbn [vset_ye vset_ys vp_ys vp_ye]; rewrite ?E1.
          * replace (Z.min (vp_ye u) ye - Z.max a ys) with (ye - ys) in M at 1 by lia. nia.
          * replace (Z.min (vp_ye u) ye - Z.max a ys) with (vp_ye u - ys) in M at 1 by lia. nia.
          * replace (Z.min (vp_ye u) ye - Z.max a ys) with (ye - a) in M at 1 by lia. nia.
          * replace (Z.min (vp_ye u) ye - Z.max a ys) with (vp_ye u - a) in M at 1 by lia. nia. }
    lia.
Qed.

Lemma vpieces_volume_le : forall zi l a b m, vtiles a b l -> (forall u, In u l -> vrow zi u <= m) -> vpieces_volume zi l <= m * (b - a).
Proof.
  intros zi. induction l as [|u l IH]; intros a b m H Hm; cbn in H; [subst; cbn; lia|]. destruct H as (E1 & E2 & E3). specialize (IH _ _ m E3 (fun v Hv => Hm v (or_intror Hv))).
  specialize (Hm u (or_introl eq_refl)). rewrite !vpieces_rows in *. rewrite zsum_cons. rewrite E1. nia.
Qed.

(** ** Stacks and pieces *)

Section Sky.
Variable i : KInstance.

Lemma stack_height_snoc : forall ps p, stack_height i (ps ++ [p]) = stack_height i ps + (kheight i p - match ps with [] => 0 | _ => ki_nesting (kitem i (fst p)) end).
Proof.
  intros ps p. unfold stack_height. destruct ps as [|q ps]; cbn [app tl]; [rewrite zsum_cons, !zsum_nil; lia|]. rewrite !zsum_cons, !zsum_snoc. lia.
Qed.

(** The piece shows the top of the stack. *)
Record Shows (u : VPiece) (s : KSDesc) : Prop := {
  sh_items : vp_items u = map fst (sd_items s);
  sh_xs : vp_xs u = sd_x s;
  sh_xe : vp_xe u = sd_xe s;
  sh_rows : sd_y s <= vp_ys u /\ vp_ye u <= sd_ye s;
  sh_ze : vp_ze u = stack_height i (sd_items s);
  sh_weight : (vp_weight u == qsum (kweight i) (sd_items s))%Q;
  sh_max : forall p, In p (sd_items s) -> vp_max u <= ki_max_stackability (kitem i (fst p));
  sh_rem : forall below p above w, sd_items s = below ++ p :: above -> ki_max_above (kitem i (fst p)) = Some w ->
    exists r, vp_rem u = Some r /\ (r + qsum (kweight i) above <= w)%Q
}.

(** The group of a stack. *)
Definition sgroup (s : KSDesc) : nat := item_group i (hd (0%nat, XYZ) (sd_items s)).

Record VSky (un : Unloading) (xi yi zi : Z) (l : list VPiece) (st : list KSDesc) : Prop := {
  vy_tiles : vtiles 0 yi l;
  vy_xe : forall u, In u l -> 0 <= vp_xs u <= vp_xe u /\ vp_xe u <= xi /\ vp_ze u <= zi;
  vy_cover : forall u s, In u l -> In s st -> sd_y s < vp_ye u -> vp_ys u < sd_ye s -> sd_xe s <= vp_xe u;
  vy_some : forall u, In u l -> vp_items u <> [] -> exists k s, nth_error st k = Some s /\ Shows u s;
  vy_none : forall u, In u l -> vp_items u = [] -> vp_xe u = 0;
  vy_group : un = UOnlyX -> forall u s, In u l -> vp_items u <> [] -> In s st -> sd_y s < vp_ye u -> vp_ys u < sd_ye s ->
    (ki_group (kitem i (last (vp_items u) 0%nat)) <= sgroup s)%nat
}.

Lemma vsky_empty : forall un xi yi zi, 0 < yi -> 0 <= xi -> 0 <= zi -> VSky un xi yi zi [vfree 0 yi] [].
Proof.
  intros un xi yi zi H1 H2 H3. constructor.
  - cbn. lia.
  - intros u [<-|[]]. cbn. lia.
  - intros u s _ [].
  - intros u [<-|[]] E. cbn in E. contradiction.
  - intros u [<-|[]] _. reflexivity.
  - intros _ u s _ _ [].
Qed.

(** A new stack against the skyline. *)
Record VFits (un : Unloading) (xi yi zi : Z) (l : list VPiece) (s : KSDesc) : Prop := {
  vf_x : 0 <= sd_x s < sd_xe s /\ sd_xe s <= xi;
  vf_y : 0 <= sd_y s < sd_ye s /\ sd_ye s <= yi;
  vf_z : 0 <= stack_height i (sd_items s) <= zi;
  vf_after : forall u, In u l -> sd_y s < vp_ye u -> vp_ys u < sd_ye s -> vp_xe u <= sd_x s;
  vf_group : un = UOnlyX -> forall u, In u l -> vp_items u <> [] -> sd_y s < vp_ye u -> vp_ys u < sd_ye s ->
    (sgroup s <= ki_group (kitem i (last (vp_items u) 0%nat)))%nat
}.

Definition inside (yi : Z) (s : KSDesc) : Prop := 0 <= sd_x s < sd_xe s /\ 0 <= sd_y s < sd_ye s /\ sd_ye s <= yi.

Lemma vfits_left : forall un xi yi zi l st s q, VSky un xi yi zi l st -> VFits un xi yi zi l s -> In q st -> inside yi q -> rows_meet q s ->
  exists u, In u l /\ sd_y s < vp_ye u /\ vp_ys u < sd_ye s /\ sd_y q < vp_ye u /\ vp_ys u < sd_ye q /\ sd_xe q <= vp_xe u /\ vp_xe u <= sd_x s.
Proof.
  intros un xi yi zi l st s q K F Hq (I1 & I2 & I3) [R1 R2]. destruct (vtiles_at l 0 yi (Z.max (sd_y s) (sd_y q)) (vy_tiles _ _ _ _ _ _ K)) as (u & Hu & Hr).
  { pose proof (vf_y _ _ _ _ _ _ F). lia. }
  pose proof (vf_y _ _ _ _ _ _ F). exists u. assert (A : sd_y s < vp_ye u /\ vp_ys u < sd_ye s /\ sd_y q < vp_ye u /\ vp_ys u < sd_ye q) by lia. destruct A as (A1 & A2 & A3 & A4).
  repeat (split; [assumption|]). split; [apply (vy_cover _ _ _ _ _ _ K u q Hu Hq); assumption|]. apply (vf_after _ _ _ _ _ _ F); assumption.
Qed.

Lemma vsky_new : forall un xi yi zi l st s p, VSky un xi yi zi l st -> (forall q, In q st -> inside yi q) -> VFits un xi yi zi l s ->
  Shows p s -> vp_ys p = sd_y s -> vp_ye p = sd_ye s -> last (vp_items p) 0%nat = fst (hd (0%nat, XYZ) (sd_items s)) -> vp_items p <> [] ->
  VSky un xi yi zi (flat_map (vbelow_clip (vp_ys p)) l ++ [p] ++ flat_map (vabove_clip (vp_ye p)) l) (st ++ [s]).
Proof.
  intros un xi yi zi l st s p K Hst F Sp Eys Eye Elast Hne. pose proof F as F0. pose proof K as K0. destruct K as [K1 K2 K3 K4 K5 K6]. destruct F as [F1 F2 F3 F4 F5]. rewrite Eys, Eye.
  assert (Hye : sd_y s < sd_ye s) by lia.
  assert (Hl : forall u, In u l -> vp_ys u < vp_ye u) by (intros u Hu; destruct (vtiles_in _ _ _ _ K1 Hu); lia).
  assert (C : forall u', In u' (flat_map (vbelow_clip (sd_y s)) l ++ [p] ++ flat_map (vabove_clip (sd_ye s)) l) ->
    u' = p \/ exists u, In u l /\ same_piece u' u /\ vp_ys u <= vp_ys u' /\ vp_ye u' <= vp_ye u /\ vp_ys u' < vp_ye u'
      /\ (vp_ye u' <= sd_y s \/ sd_ye s <= vp_ys u')).
  { intros u' H. apply in_app_or in H. destruct H as [H|H]; [right|destruct H as [H|H]; [left; auto|right]]; apply (vclip_in l _ _ u' Hye); try exact Hl; apply in_or_app; [left|right]; exact H. }
  constructor.
  - apply vtiles_app with (b := sd_y s); [apply vtiles_below with (b := yi); [exact K1|lia]|]. split; [exact Eys|]. rewrite Eye. split; [exact Hye|]. apply vtiles_above with (a := 0); [exact K1|]. lia.
  - intros u' H. destruct (C u' H) as [->|(u & Hu & (A1 & A2 & A3 & A4 & A5 & A6 & A7) & _)]; [rewrite (sh_xs _ _ Sp), (sh_xe _ _ Sp), (sh_ze _ _ Sp); lia|]. rewrite A5, A6, A7. apply K2, Hu.
  - intros u' q H Hq R1 R2. apply in_app_or in Hq. destruct (C u' H) as [->|(u & Hu & (A1 & A2 & A3 & A4 & A5 & A6 & A7) & E4 & E5 & E6 & E7)].
    + rewrite Eye in R1. rewrite Eys in R2. rewrite (sh_xe _ _ Sp). destruct Hq as [Hq|[<-|[]]]; [|lia].
      destruct (vfits_left un xi yi zi l st s q K0 F0 Hq (Hst q Hq)) as (u & _ & _ & _ & _ & _ & A & B); [split; assumption|]. lia.
    + destruct Hq as [Hq|[<-|[]]]; [|exfalso; lia]. rewrite A6. apply (K3 u q Hu Hq); lia.
  - intros u' H Et. destruct (C u' H) as [->|(u & Hu & (A1 & A2 & A3 & A4 & A5 & A6 & A7) & E4 & E5 & E6 & E7)].
    + exists (length st), s. split; [|exact Sp]. rewrite nth_error_app2 by lia. rewrite Nat.sub_diag. reflexivity.
    + rewrite A1 in Et. destruct (K4 u Hu Et) as (k & q & Q1 & Q2). exists k, q. split; [rewrite nth_error_app1; [exact Q1|apply nth_error_Some; congruence]|]. destruct Q2 as [S1 S2 S3 S4 S5 S6 S7 S8].
      constructor; rewrite ?A1, ?A2, ?A3, ?A4, ?A5, ?A6, ?A7; try assumption. lia.
  - intros u' H Et. destruct (C u' H) as [->|(u & Hu & (A1 & A2 & A3 & A4 & A5 & A6 & A7) & _)]; [contradiction|]. rewrite A6. apply K5; [exact Hu|congruence].
  - intros Hun u' q H Et Hq R1 R2. apply in_app_or in Hq. destruct (C u' H) as [->|(u & Hu & (A1 & A2 & A3 & A4 & A5 & A6 & A7) & E4 & E5 & E6 & E7)].
    + rewrite Eye in R1. rewrite Eys in R2. rewrite Elast. change (ki_group (kitem i (fst (hd (0%nat, XYZ) (sd_items s))))) with (sgroup s). destruct Hq as [Hq|[<-|[]]]; [|lia].
      destruct (vfits_left un xi yi zi l st s q K0 F0 Hq (Hst q Hq)) as (u & Hu & B1 & B2 & B3 & B4 & A & B); [split; assumption|].
      assert (Hu0 : vp_items u <> []). { intro E. specialize (K5 u Hu E). destruct (Hst q Hq). lia. }
      pose proof (F5 Hun u Hu Hu0 B1 B2). pose proof (K6 Hun u q Hu Hu0 Hq B3 B4). lia.
    + destruct Hq as [Hq|[<-|[]]]; [|exfalso; lia]. rewrite A1 in *. apply (K6 Hun u q Hu Et Hq); lia.
Qed.

(** An item above the stack that piece [j] shows. *)
Definition spush (p : nat * Rotation) (s : KSDesc) : KSDesc := mkKSD (sd_x s) (sd_xe s) (sd_y s) (sd_ye s) (sd_items s ++ [p]).

Lemma last_snoc : forall (A : Type) (l : list A) x d, last (l ++ [x]) d = x.
Proof. intros. apply last_last. Qed.

Lemma qmin_opt_le : forall a b w, b = Some w -> exists r, qmin_opt a b = Some r /\ (r <= w)%Q.
Proof.
  intros a b w ->. destruct a as [a|]; cbn; [|exists w; split; [reflexivity|apply Qle_refl]]. eexists. split; [reflexivity|].
  apply Q.le_min_r.
Qed.

Lemma qmin_opt_le2 : forall a b w, a = Some w -> exists r, qmin_opt a b = Some r /\ (r <= w)%Q.
Proof.
  intros a b w ->. destruct b as [b|]; cbn; [|exists w; split; [reflexivity|apply Qle_refl]]. eexists. split; [reflexivity|].
  apply Q.le_min_l.
Qed.

Lemma snoc_split : forall (A : Type) (l : list A) x below p above, l ++ [x] = below ++ p :: above ->
  (above = [] /\ x = p /\ l = below) \/ exists above', above = above' ++ [x] /\ l = below ++ p :: above'.
Proof.
  intros A l x below p above H. destruct (exists_last_or_nil _ above) as [->|(a' & y & ->)].
  - left. apply app_inj_tail in H. destruct H as [-> ->]. auto.
  - right. exists a'. change (below ++ p :: a' ++ [y]) with (below ++ (p :: a') ++ [y]) in H. rewrite app_assoc in H. apply app_inj_tail in H. destruct H as [-> ->]. auto.
Qed.

Lemma shows_push : forall u s x r, Shows u s -> sd_items s <> [] ->
  Shows (vstack_on x (kitem i x) (kheight i (x, r) - ki_nesting (kitem i x)) u) (spush (x, r) s).
Proof.
  intros u s x r [S1 S2 S3 S4 S5 S6 S7 S8] Hne. constructor; cbn [vstack_on spush vp_items vp_xs vp_xe vp_ys vp_ye vp_ze vp_weight vp_max vp_rem sd_items sd_x sd_xe sd_y sd_ye]; try assumption.
  - rewrite map_app, S1. reflexivity.
  - rewrite stack_height_snoc, S5. destruct (sd_items s); [contradiction|]. reflexivity.
  - rewrite qsum_snoc, S6. reflexivity.
  - intros p Hp. apply in_app_or in Hp. destruct Hp as [Hp|[<-|[]]]; [specialize (S7 p Hp); lia|cbn [fst]; lia].
  - intros below p above w E Ew. destruct (snoc_split _ _ _ _ _ _ E) as [(-> & <- & _)|(above' & -> & E')].
    + cbn [fst] in Ew. destruct (qmin_opt_le (option_map (fun r => r - ki_weight (kitem i x))%Q (vp_rem u)) _ w Ew) as (q & Eq & Hq). exists q. split; [exact Eq|]. change (qsum (kweight i) []) with 0%Q. lra.
    + destruct (S8 below p above' w E' Ew) as (q & Eq & Hq). rewrite Eq. cbn [option_map]. destruct (qmin_opt_le2 (Some (q - ki_weight (kitem i x))%Q) (ki_max_above (kitem i x)) _ eq_refl) as (q' & Eq' & Hq').
      exists q'. split; [exact Eq'|]. rewrite qsum_snoc. change (kweight i (x, r)) with (ki_weight (kitem i x)). lra.
Qed.

Lemma nth_error_upd_f : forall (A : Type) (f : A -> A) l k j, nth_error (upd k f l) j = if Nat.eqb k j then option_map f (nth_error l j) else nth_error l j.
Proof.
  intros A f. induction l as [|a l IH]; intros k j; [destruct k, j; cbn; try reflexivity; destruct (Nat.eqb _ _); reflexivity|]. destruct k as [|k], j as [|j]; cbn; try reflexivity. apply IH.
Qed.

Lemma in_upd_cases : forall (A : Type) (f : A -> A) k l a, In a (upd k f l) -> (exists b, nth_error l k = Some b /\ a = f b) \/ exists j, j <> k /\ nth_error l j = Some a.
Proof.
  intros A f k l a H. apply In_nth_error in H. destruct H as (j & H). rewrite nth_error_upd_f in H. destruct (Nat.eq_dec j k) as [->|N].
  - left. rewrite Nat.eqb_refl in H. destruct (nth_error l k) as [b|]; [|discriminate]. cbn in H. injection H as <-. eauto.
  - right. exists j. split; [exact N|]. destruct (Nat.eqb_spec k j); [congruence|]. destruct (Nat.eqb_spec j k); [congruence|]. exact H.
Qed.

Lemma vsky_above : forall un xi yi zi l st j k u s x r, VSky un xi yi zi l st ->
  nth_error l j = Some u -> nth_error st k = Some s -> Shows u s -> sd_items s <> [] -> vp_ys u = sd_y s -> vp_ye u = sd_ye s ->
  stack_height i (sd_items s ++ [(x, r)]) <= zi -> ki_group (kitem i x) = ki_group (kitem i (last (vp_items u) 0%nat)) ->
  VSky un xi yi zi (upd j (vstack_on x (kitem i x) (kheight i (x, r) - ki_nesting (kitem i x))) l) (upd k (spush (x, r)) st).
Proof.
  intros un xi yi zi l st j k u s x r K Hj Hk Su Hne Eys Eye Hz Hg. pose proof (shows_push u s x r Su Hne) as Sp. destruct K as [K1 K2 K3 K4 K5 K6].
  set (F := vstack_on x (kitem i x) (kheight i (x, r) - ki_nesting (kitem i x))) in *.
  assert (Cu : forall u', In u' (upd j F l) -> u' = F u \/ exists j', j' <> j /\ nth_error l j' = Some u').
  { intros u' H. destruct (in_upd_cases _ _ _ _ _ H) as [(b & Eb & ->)|H']; [left; congruence|right; exact H']. }
  assert (Cs : forall s', In s' (upd k (spush (x, r)) st) -> exists s0, In s0 st /\ sd_x s' = sd_x s0 /\ sd_xe s' = sd_xe s0 /\ sd_y s' = sd_y s0 /\ sd_ye s' = sd_ye s0 /\ sgroup s' = sgroup s0).
  { intros s' H. destruct (in_upd_cases _ _ _ _ _ H) as [(b & Eb & ->)|(k' & _ & H')].
    - assert (b = s) by congruence. subst b. exists s. split; [eapply nth_error_In; exact Hk|]. repeat (split; [reflexivity|]). unfold sgroup. cbn [spush sd_items]. destruct (sd_items s); [contradiction|reflexivity].
    - exists s'. split; [eapply nth_error_In; exact H'|]. auto. }
  assert (Hin : In u l) by (eapply nth_error_In; exact Hj).
  assert (Hnu : vp_items u <> []) by (rewrite (sh_items _ _ Su); destruct (sd_items s); [contradiction|discriminate]).
  assert (Lift : forall j' u', j' <> j -> nth_error l j' = Some u' -> In u' l) by (intros; eapply nth_error_In; eassumption).
  constructor.
  - apply vtiles_upd; [intros; split; reflexivity|exact K1].
  - intros u' H. destruct (Cu u' H) as [->|(j' & N & H')]; [|apply K2; eapply Lift; eassumption]. destruct (K2 u Hin) as (A & B & C). cbn [F vstack_on vp_xs vp_xe vp_ze]. split; [exact A|]. split; [exact B|].
    pose proof (sh_ze _ _ Sp) as E. cbn [F vstack_on vp_ze spush sd_items] in E. rewrite E. exact Hz.
  - intros u' s' H Hs'. destruct (Cs s' Hs') as (s0 & S0 & E1 & E2 & E3 & E4 & E5). rewrite E2, E3, E4. destruct (Cu u' H) as [->|(j' & N & H')]; [exact (K3 u s0 Hin S0)|]. apply K3; [eapply Lift; eassumption|exact S0].
  - intros u' H Et. destruct (Cu u' H) as [->|(j' & N & H')].
    + exists k, (spush (x, r) s). split; [|exact Sp]. rewrite nth_error_upd_f, Nat.eqb_refl, Hk. reflexivity.
    + destruct (K4 u' (Lift _ _ N H') Et) as (k' & s' & Hk' & Su'). exists k', s'. split; [|exact Su']. rewrite nth_error_upd_f. destruct (Nat.eq_dec k' k) as [->|Nk].
      * exfalso. assert (s' = s) by congruence. subst s'. destruct (vtiles_in _ _ _ _ K1 (Lift _ _ N H')) as (_ & T & _). pose proof (sh_rows _ _ Su'). destruct (vtiles_apart _ _ _ _ _ _ _ K1 H' Hj N); lia.
      * destruct (Nat.eqb_spec k k'); [congruence|]. destruct (Nat.eqb_spec k' k); [congruence|]. exact Hk'.
  - intros u' H Et. destruct (Cu u' H) as [->|(j' & N & H')]; [cbn in Et; destruct (vp_items u); discriminate|]. apply K5; [eapply Lift; eassumption|exact Et].
  - intros Hun u' s' H Et Hs' R1 R2. destruct (Cs s' Hs') as (s0 & S0 & E1 & E2 & E3 & E4 & E5). rewrite E3 in R1. rewrite E4 in R2. rewrite E5. destruct (Cu u' H) as [->|(j' & N & H')].
    + cbn [F vstack_on vp_items] in *. rewrite last_snoc, Hg. apply (K6 Hun u s0 Hin Hnu S0); assumption.
    + apply (K6 Hun u' s0); try assumption. eapply Lift; eassumption.
Qed.

(** ** What the node reads off the skyline *)

Lemma vxe_max_fold : forall l m, let f := fold_left (fun m u => if m <? vp_xe u then vp_xe u else m) l m in
  (forall u, In u l -> vp_xe u <= f) /\ m <= f /\ (f = m \/ exists u, In u l /\ f = vp_xe u).
Proof.
  induction l as [|v r IH]; intros m; cbn [fold_left]; cbv zeta; [split; [intros u []|]; split; [lia|left; reflexivity]|]. cbv zeta in IH. destruct (IH (if m <? vp_xe v then vp_xe v else m)) as (A & B & C).
  split; [|split].
  - intros u [<-|Hu]; [destruct (Z.ltb_spec m (vp_xe v)); lia|apply A, Hu].
  - destruct (Z.ltb_spec m (vp_xe v)); lia.
  - destruct C as [C|(u & Hu & C)]; [|right; exists u; split; [right; exact Hu|exact C]]. destruct (Z.ltb_spec m (vp_xe v)); [right; exists v; split; [left; reflexivity|exact C]|left; exact C].
Qed.

Lemma vsky_xe_max : forall un xi yi zi l st t, VSky un xi yi zi l st -> (forall q, In q st -> inside yi q) -> vpieces_xe_max l = far sd_xe (mkKD t 1 st).
Proof.
  intros un xi yi zi l st t [K1 K2 K3 K4 K5 K6] Hst. unfold far, vpieces_xe_max. cbn [kd_stacks]. destruct (vxe_max_fold l 0) as (A & B & C). cbv zeta in A, B, C. apply Z.le_antisymm.
  - destruct C as [->|(u & Hu & ->)]; [apply fold_max_cases|]. destruct (list_eq_dec Nat.eq_dec (vp_items u) []) as [E|E].
    + rewrite (K5 u Hu E). apply fold_max_cases.
    + destruct (K4 u Hu E) as (k & s & Hk & Sh). rewrite (sh_xe _ _ Sh). apply fold_max_in. apply in_map. eapply nth_error_In. exact Hk.
  - destruct (fold_max_cases (map sd_xe st)) as (_ & [->|D]); [exact B|]. apply in_map_iff in D. destruct D as (q & <- & Hq). destruct (Hst q Hq) as (P1 & P2 & P3). destruct (vtiles_at l 0 yi (sd_y q) K1) as (u & Hu & Hy); [lia|].
    pose proof (K3 u q Hu Hq ltac:(lia) ltac:(lia)). specialize (A u Hu). lia.
Qed.

(** Volume of the skyline. *)
Lemma vsky_row : forall un xi yi zi l st u, VSky un xi yi zi l st -> 0 <= zi -> In u l -> vrow zi u <= vp_xe u * zi /\ vp_xe u * zi <= xi * zi.
Proof. intros un xi yi zi l st u K Hz Hu. destruct (vy_xe _ _ _ _ _ _ K u Hu) as (A & B & C). unfold vrow. split; nia. Qed.

Lemma vsky_volume_le : forall un xi yi zi l st, VSky un xi yi zi l st -> 0 <= zi -> vpieces_volume zi l <= xi * yi * zi.
Proof.
  intros un xi yi zi l st K Hz. pose proof (vpieces_volume_le zi l 0 yi (xi * zi) (vy_tiles _ _ _ _ _ _ K)) as A. rewrite Z.sub_0_r in A. transitivity (xi * zi * yi); [apply A|lia].
  intros u Hu. destruct (vsky_row _ _ _ _ _ _ u K Hz Hu). lia.
Qed.

Lemma vsky_volume_new : forall un xi yi zi l st s p, VSky un xi yi zi l st -> VFits un xi yi zi l s -> 0 <= zi ->
  Shows p s -> vp_ys p = sd_y s -> vp_ye p = sd_ye s ->
  vpieces_volume zi l + base s * stack_height i (sd_items s)
  <= vpieces_volume zi (flat_map (vbelow_clip (vp_ys p)) l ++ [p] ++ flat_map (vabove_clip (vp_ye p)) l).
Proof.
  intros un xi yi zi l st s p K F Hz Sp Eys Eye. rewrite Eys, Eye. pose proof (vf_x _ _ _ _ _ _ F). pose proof (vf_y _ _ _ _ _ _ F).
  pose proof (vclip_volume zi l 0 yi (sd_y s) (sd_ye s) (sd_x s * zi) (vy_tiles _ _ _ _ _ _ K) ltac:(lia) ltac:(nia)) as A.
  assert (B : forall u, In u l -> vp_ys u < sd_ye s -> sd_y s < vp_ye u -> vrow zi u <= sd_x s * zi).
  { intros u Hu H1 H2. destruct (vsky_row _ _ _ _ _ _ u K Hz Hu) as [C _]. pose proof (vf_after _ _ _ _ _ _ F u Hu H2 H1). nia. }
  specialize (A B). rewrite Z.min_r, Z.max_r, Z.max_r in A by lia. rewrite !vpieces_rows in A. rewrite !vpieces_rows. rewrite !zsum_app, zsum_cons, zsum_nil.
  unfold vrow at 3. rewrite (sh_xs _ _ Sp), (sh_xe _ _ Sp), (sh_ze _ _ Sp), Eys, Eye. unfold base. nia.
Qed.

Lemma zsum_upd : forall (A : Type) (f : A -> Z) (g : A -> A) l k a, nth_error l k = Some a -> zsum f (upd k g l) = zsum f l - f a + f (g a).
Proof.
  intros A f g. induction l as [|b l IH]; intros k a H; [destruct k; discriminate|]. destruct k as [|k]; cbn in H.
  - injection H as ->. cbn [upd]. rewrite !zsum_cons. lia.
  - cbn [upd]. rewrite !zsum_cons, (IH k a H). lia.
Qed.

Lemma qsum_upd : forall (A : Type) (f : A -> Q) (g : A -> A) l k a, nth_error l k = Some a -> (qsum f (upd k g l) == qsum f l - f a + f (g a))%Q.
Proof.
  intros A f g. induction l as [|b l IH]; intros k a H; [destruct k; discriminate|]. destruct k as [|k]; cbn in H.
  - injection H as ->. cbn [upd]. rewrite !qsum_cons. ring.
  - cbn [upd]. rewrite !qsum_cons, (IH k a H). ring.
Qed.

Lemma vvolume_above : forall zi l j u x it zj, nth_error l j = Some u ->
  vpieces_volume zi (upd j (vstack_on x it zj) l) = vpieces_volume zi l + (vp_xe u - vp_xs u) * (vp_ye u - vp_ys u) * zj.
Proof. intros zi l j u x it zj H. unfold vpieces_volume. rewrite (zsum_upd _ _ _ _ _ _ H). cbn [vstack_on vp_xs vp_xe vp_ys vp_ye vp_ze]. ring. Qed.

End Sky.
