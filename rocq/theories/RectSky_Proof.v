(** * The skyline kept by the nodes of the rectangle branching scheme *)

From Coq Require Import List ZArith QArith Bool Lia Arith.
From Verif Require Import Util Common_Model OneDim_Model Rect_Model Rect_Spec RectSol_Spec RectSol_Proof RectTree_Model RectTree_Spec.
Import ListNotations.
Open Scope Z_scope.

(** The pieces follow each other from [a] to [b]. *)
Fixpoint tiles (a b : Z) (l : list Piece) : Prop :=
  match l with
  | [] => a = b
  | u :: r => pc_ys u = a /\ a < pc_ye u /\ tiles (pc_ye u) b r
  end.

(** What remains below [ys] and above [ye]. *)
Definition clip_below (ys : Z) (u : Piece) : list Piece :=
  if pc_ye u <=? ys then [u] else if pc_ys u <? ys then [set_ye u ys] else [].
Definition clip_above (ye : Z) (u : Piece) : list Piece :=
  if ye <=? pc_ys u then [u] else if ye <? pc_ye u then [set_ys u ye] else [].

Ltac zb := repeat match goal with
  | |- context [?a <=? ?b] => destruct (Z.leb_spec a b)
  | |- context [?a <? ?b] => destruct (Z.ltb_spec a b)
  | H : context [?a <=? ?b] |- _ => destruct (Z.leb_spec a b)
  | H : context [?a <? ?b] |- _ => destruct (Z.ltb_spec a b)
  end.

Lemma tiles_le : forall l a b, tiles a b l -> a <= b.
Proof. induction l as [|u r IH]; intros a b H; cbn in H; [lia|]. destruct H as (_ & H1 & H2). apply IH in H2. lia. Qed.

Lemma tiles_app : forall l1 l2 a b c, tiles a b l1 -> tiles b c l2 -> tiles a c (l1 ++ l2).
Proof. induction l1 as [|u r IH]; intros l2 a b c H1 H2; cbn in *; [subst; exact H2|]. destruct H1 as (E1 & E2 & E3). split; [exact E1|]. split; [exact E2|]. eapply IH; eassumption. Qed.

Lemma tiles_in : forall l a b u, tiles a b l -> In u l -> a <= pc_ys u /\ pc_ys u < pc_ye u /\ pc_ye u <= b.
Proof.
  induction l as [|v r IH]; intros a b u H Hin; [destruct Hin|]. cbn in H. destruct H as (E1 & E2 & E3). pose proof (tiles_le _ _ _ E3). destruct Hin as [<-|Hin]; [lia|].
  destruct (IH _ _ _ E3 Hin). lia.
Qed.

Lemma tiles_at : forall l a b y, tiles a b l -> a <= y < b -> exists u, In u l /\ pc_ys u <= y < pc_ye u.
Proof.
  induction l as [|v r IH]; intros a b y H Hy; cbn in H; [lia|]. destruct H as (E1 & E2 & E3). destruct (Z.lt_ge_cases y (pc_ye v)).
  - exists v. split; [left; reflexivity|]. lia.
  - destruct (IH _ _ y E3) as (u & Hu & Hy'); [lia|]. exists u. split; [right; exact Hu|exact Hy'].
Qed.

Lemma clip_above_none : forall l a b ye, tiles a b l -> b <= ye -> flat_map (clip_above ye) l = [].
Proof.
  intros l a b ye H Hb. induction l as [|u r IH] in a, H |- *; [reflexivity|]. cbn in H. destruct H as (E1 & E2 & E3). pose proof (tiles_le _ _ _ E3). cbn [flat_map]. rewrite (IH _ E3).
  unfold clip_above. zb; try lia; reflexivity.
Qed.

Lemma clip_below_none : forall l a b ys, tiles a b l -> ys <= a -> flat_map (clip_below ys) l = [].
Proof.
  intros l. induction l as [|u r IH]; intros a b ys H Ha; [reflexivity|]. cbn in H. destruct H as (E1 & E2 & E3). cbn [flat_map]. rewrite (IH _ _ ys E3) by lia.
  unfold clip_below. zb; try lia; reflexivity.
Qed.

Lemma clip_below_all : forall l a b ys, tiles a b l -> b <= ys -> flat_map (clip_below ys) l = l.
Proof.
  intros l. induction l as [|u r IH]; intros a b ys H Ha; [reflexivity|]. cbn in H. destruct H as (E1 & E2 & E3). pose proof (tiles_le _ _ _ E3). cbn [flat_map]. rewrite (IH _ _ ys E3) by lia.
  unfold clip_below. zb; try lia; reflexivity.
Qed.

Lemma tiles_below : forall l a b ys, tiles a b l -> a <= ys <= b -> tiles a ys (flat_map (clip_below ys) l).
Proof.
  induction l as [|u r IH]; intros a b ys H Hy; cbn in H; [cbn; lia|]. destruct H as (E1 & E2 & E3). cbn [flat_map]. destruct (Z.le_gt_cases (pc_ye u) ys) as [C|C].
  - unfold clip_below at 1. destruct (Z.leb_spec (pc_ye u) ys); [|lia]. cbn. split; [exact E1|]. split; [exact E2|]. apply (IH _ b); [exact E3|lia].
  - rewrite (clip_below_none r _ b ys E3) by lia. rewrite app_nil_r. unfold clip_below. zb; try lia; cbn; lia.
Qed.

Lemma tiles_above : forall l a b ye, tiles a b l -> a <= ye <= b -> tiles ye b (flat_map (clip_above ye) l).
Proof.
  induction l as [|u r IH]; intros a b ye H Hy; cbn in H; [cbn; lia|]. destruct H as (E1 & E2 & E3). cbn [flat_map]. destruct (Z.le_gt_cases (pc_ye u) ye) as [C|C].
  - unfold clip_above at 1. destruct (Z.leb_spec ye (pc_ys u)); [lia|]. destruct (Z.ltb_spec ye (pc_ye u)); [lia|]. cbn [app]. apply (IH (pc_ye u)); [exact E3|lia].
  - assert (G : flat_map (clip_above ye) r = r).
    { clear -C E3. revert E3. generalize (pc_ye u) C. clear. intros a Ha. revert a Ha. induction r as [|v r IH]; intros a Ha E; [reflexivity|]. cbn in E. destruct E as (E1 & E2 & E3). cbn [flat_map]. rewrite (IH (pc_ye v)); [|lia|exact E3].
      unfold clip_above. zb; try lia; reflexivity. }
    rewrite G. unfold clip_above. destruct (Z.leb_spec ye (pc_ys u)); cbn; [split; [lia|split; [lia|exact E3]]|]. destruct (Z.ltb_spec ye (pc_ye u)); [|lia]. cbn. split; [lia|]. split; [lia|exact E3].
Qed.

Lemma cover_after : forall p l a b out k, tiles a b l -> pc_ys p < a ->
  fold_left (cover_step p) l (out, Some k) = (out ++ flat_map (clip_above (pc_ye p)) l, Some k).
Proof.
  intros p. induction l as [|u r IH]; intros a b out k H Ha; cbn in H; [cbn; rewrite app_nil_r; reflexivity|]. destruct H as (E1 & E2 & E3). cbn [fold_left flat_map]. unfold cover_step at 2, clip_above at 1.
  destruct (Z.leb_spec (pc_ye u) (pc_ys p)); [lia|]. destruct (Z.leb_spec (pc_ys u) (pc_ys p)); [lia|]. destruct (Z.leb_spec (pc_ye p) (pc_ys u)).
  - rewrite (IH (pc_ye u) b) by (try exact E3; lia). rewrite <- app_assoc. reflexivity.
  - rewrite (IH (pc_ye u) b) by (try exact E3; lia). rewrite <- app_assoc. reflexivity.
Qed.

Lemma cover_eq : forall p l a b out, tiles a b l -> a <= pc_ys p -> pc_ys p < pc_ye p -> pc_ye p <= b ->
  fold_left (cover_step p) l (out, None)
  = (out ++ flat_map (clip_below (pc_ys p)) l ++ [p] ++ flat_map (clip_above (pc_ye p)) l, Some (length (out ++ flat_map (clip_below (pc_ys p)) l))).
Proof.
  intros p. induction l as [|u r IH]; intros a b out H Ha Hp Hb; cbn in H; [lia|]. destruct H as (E1 & E2 & E3). cbn [fold_left flat_map]. unfold cover_step at 2, clip_below at 1 3, clip_above at 1.
  destruct (Z.leb_spec (pc_ye u) (pc_ys p)).
  - destruct (Z.leb_spec (pc_ye p) (pc_ys u)); [lia|]. destruct (Z.ltb_spec (pc_ye p) (pc_ye u)); [lia|]. rewrite (IH (pc_ye u) b) by (try exact E3; lia). cbn [app]. rewrite <- !app_assoc. reflexivity.
  - destruct (Z.leb_spec (pc_ys u) (pc_ys p)); [|lia]. rewrite (cover_after p r (pc_ye u) b) by (try exact E3; lia). rewrite (clip_below_none r _ b (pc_ys p) E3) by lia. rewrite !app_nil_r.
    destruct (Z.leb_spec (pc_ye p) (pc_ys u)); [lia|]. cbn [app]. rewrite <- !app_assoc. reflexivity.
Qed.

Lemma new_pieces_eq : forall p yi, 0 <= pc_ys p -> pc_ys p < pc_ye p -> pc_ye p <= yi ->
  new_pieces p yi = (flat_map (clip_below (pc_ys p)) [free_piece 0 yi] ++ [p] ++ flat_map (clip_above (pc_ye p)) [free_piece 0 yi],
                     Some (length (flat_map (clip_below (pc_ys p)) [free_piece 0 yi]))).
Proof.
  intros p yi H1 H2 H3. unfold new_pieces. cbn [flat_map]. rewrite !app_nil_r. unfold clip_below, clip_above. cbn [pc_ye pc_ys free_piece].
  destruct (Z.leb_spec yi (pc_ys p)); [lia|]. destruct (Z.leb_spec (pc_ye p) 0); [lia|]. reflexivity.
Qed.

(** Clipped pieces come from pieces. *)
Lemma clip_in : forall l ys ye u', ys < ye -> In u' (flat_map (clip_below ys) l ++ flat_map (clip_above ye) l) ->
  (forall u, In u l -> pc_ys u < pc_ye u) ->
  exists u, In u l /\ pc_type u' = pc_type u /\ pc_xs u' = pc_xs u /\ pc_xe u' = pc_xe u /\ pc_ys u <= pc_ys u' /\ pc_ye u' <= pc_ye u /\ pc_ys u' < pc_ye u'
    /\ (pc_ye u' <= ys \/ ye <= pc_ys u').
Proof.
  intros l ys ye u' Hy H Hl. apply in_app_or in H. destruct H as [H|H]; apply in_flat_map in H; destruct H as (u & Hu & H); exists u; (split; [exact Hu|]); specialize (Hl u Hu).
  - unfold clip_below in H. destruct (Z.leb_spec (pc_ye u) ys).
    + destruct H as [<-|[]]. repeat (split; [try reflexivity; lia|]). left. lia.
    + destruct (Z.ltb_spec (pc_ys u) ys); [|destruct H]. destruct H as [<-|[]]. cbn. repeat (split; [try reflexivity; lia|]). left. lia.
  - unfold clip_above in H. destruct (Z.leb_spec ye (pc_ys u)).
    + destruct H as [<-|[]]. repeat (split; [try reflexivity; lia|]). right. lia.
    + destruct (Z.ltb_spec ye (pc_ye u)); [|destruct H]. destruct H as [<-|[]]. cbn. repeat (split; [try reflexivity; lia|]). right. lia.
Qed.

(** Area lost by clipping. *)
Lemma clip_area : forall l a b ys ye xs, tiles a b l -> ys < ye -> 0 <= xs ->
  (forall u, In u l -> pc_ys u < ye -> ys < pc_ye u -> pc_xe u <= xs) -> (forall u, In u l -> 0 <= pc_xe u) ->
  pieces_area l <= pieces_area (flat_map (clip_below ys) l) + pieces_area (flat_map (clip_above ye) l) + xs * Z.max 0 (Z.min b ye - Z.max a ys).
Proof.
  intros l. induction l as [|u r IH]; intros a b ys ye xs H Hy Hx Ho Hn; cbn in H.
  - cbn. nia.
  - destruct H as (E1 & E2 & E3). pose proof (tiles_le _ _ _ E3) as Hb. specialize (IH _ _ ys ye xs E3 Hy Hx (fun v Hv => Ho v (or_intror Hv)) (fun v Hv => Hn v (or_intror Hv))).
    cbn [flat_map]. unfold pieces_area in *. rewrite !zsum_app, zsum_cons. pose proof (Hn u (or_introl eq_refl)) as Hn0. pose proof (Ho u (or_introl eq_refl)) as Ho0.
    assert (S : Z.max 0 (Z.min b ye - Z.max a ys) = Z.max 0 (Z.min (pc_ye u) ye - Z.max a ys) + Z.max 0 (Z.min b ye - Z.max (pc_ye u) ys)) by lia.
    rewrite S, Z.mul_add_distr_l. clear S.
    assert (P : pc_xe u * (pc_ye u - pc_ys u) <= zsum (fun u => pc_xe u * (pc_ye u - pc_ys u)) (clip_below ys u) + zsum (fun u => pc_xe u * (pc_ye u - pc_ys u)) (clip_above ye u)
      + xs * Z.max 0 (Z.min (pc_ye u) ye - Z.max a ys)).
    { unfold clip_below, clip_above. rewrite E1 in *. destruct (Z.leb_spec (pc_ye u) ys).
      - destruct (Z.leb_spec ye a); [lia|]. destruct (Z.ltb_spec ye (pc_ye u)); [lia|]. rewrite zsum_cons, !zsum_nil, E1. replace (Z.max 0 (Z.min (pc_ye u) ye - Z.max a ys)) with 0 by lia. lia.
      - destruct (Z.leb_spec ye a).
        + destruct (Z.ltb_spec a ys); [lia|]. rewrite zsum_cons, !zsum_nil, E1. replace (Z.max 0 (Z.min (pc_ye u) ye - Z.max a ys)) with 0 by lia. lia.
        + specialize (Ho0 ltac:(lia) ltac:(lia)).
          assert (M : pc_xe u * (Z.min (pc_ye u) ye - Z.max a ys) <= xs * Z.max 0 (Z.min (pc_ye u) ye - Z.max a ys)) by nia.
          destruct (Z.ltb_spec a ys); destruct (Z.ltb_spec ye (pc_ye u)); rewrite ?zsum_cons, ?zsum_nil; cbn [set_ye set_ys pc_xe pc_ys pc_ye]; rewrite ?E1.
          * replace (Z.min (pc_ye u) ye - Z.max a ys) with (ye - ys) in M at 1 by lia. nia.
          * replace (Z.min (pc_ye u) ye - Z.max a ys) with (pc_ye u - ys) in M at 1 by lia. nia.
          * replace (Z.min (pc_ye u) ye - Z.max a ys) with (ye - a) in M at 1 by lia. nia.
          * replace (Z.min (pc_ye u) ye - Z.max a ys) with (pc_ye u - a) in M at 1 by lia. nia. }
    lia.
Qed.

(** ** The skyline of a list of placed items *)

Section Sky.
Variable i : RInstance.

Record Sky (xi yi : Z) (l : list Piece) (ps : list Place) : Prop := {
  sk_tiles : tiles 0 yi l;
  sk_xe : forall u, In u l -> 0 <= pc_xe u <= xi;
  sk_cover : forall u p, In u l -> In p ps -> pl_y p < pc_ye u -> pc_ys u < pl_ye i p -> pl_xe i p <= pc_xe u;
  sk_some : forall u t, In u l -> pc_type u = Some t ->
    exists p, In p ps /\ pl_type p = t /\ pl_x p = pc_xs u /\ pl_xe i p = pc_xe u /\ pl_y p <= pc_ys u /\ pc_ye u <= pl_ye i p;
  sk_none : forall u, In u l -> pc_type u = None -> pc_xe u = 0;
  sk_group : rp_unloading (rin_params i) = UOnlyX -> forall u t p, In u l -> pc_type u = Some t -> In p ps -> pl_y p < pc_ye u -> pc_ys u < pl_ye i p ->
    (ri_group (ritem i t) <= pl_group i p)%nat;
  sk_area : items_area i ps <= pieces_area l
}.

Lemma sky_empty : forall xi yi, 0 < yi -> 0 <= xi -> Sky xi yi [free_piece 0 yi] [].
Proof.
  intros xi yi H1 H2. constructor.
  - cbn. lia.
  - intros u [<-|[]]. cbn. lia.
  - intros u p _ [].
  - intros u t [<-|[]]. discriminate.
  - intros u [<-|[]]. reflexivity.
  - intros _ u t p _ _ [].
  - cbn. lia.
Qed.

(** The same skyline up to [xe_dominance]. *)
Definition erase (u : Piece) : Piece := mkPc (pc_type u) (pc_xs u) (pc_xe u) 0 (pc_ys u) (pc_ye u).

Lemma erase_in : forall l l' u', map erase l = map erase l' -> In u' l' -> exists u, In u l /\ pc_type u = pc_type u' /\ pc_xs u = pc_xs u' /\ pc_xe u = pc_xe u' /\ pc_ys u = pc_ys u' /\ pc_ye u = pc_ye u'.
Proof.
  intros l l' u' E Hin. apply (in_map erase) in Hin. rewrite <- E in Hin. apply in_map_iff in Hin. destruct Hin as (u & Eu & Hu). exists u. split; [exact Hu|]. injection Eu as -> -> -> -> ->. auto.
Qed.

Lemma tiles_erase : forall l a b, tiles a b (map erase l) <-> tiles a b l.
Proof. induction l as [|u r IH]; intros a b; [reflexivity|]. cbn. rewrite IH. reflexivity. Qed.

Lemma area_erase : forall l, pieces_area (map erase l) = pieces_area l.
Proof. intros l. unfold pieces_area. rewrite zsum_map. reflexivity. Qed.

Lemma sky_like : forall xi yi l l' ps, map erase l = map erase l' -> Sky xi yi l ps -> Sky xi yi l' ps.
Proof.
  intros xi yi l l' ps E [K1 K2 K3 K4 K5 K6 K7].
  assert (F : forall u', In u' l' -> exists u, In u l /\ pc_type u = pc_type u' /\ pc_xs u = pc_xs u' /\ pc_xe u = pc_xe u' /\ pc_ys u = pc_ys u' /\ pc_ye u = pc_ye u') by (intros u' H; exact (erase_in l l' u' E H)).
  constructor.
  - rewrite <- tiles_erase, <- E, tiles_erase. exact K1.
  - intros u' H. destruct (F u' H) as (u & Hu & A1 & A2 & A3 & A4 & A5). rewrite <- A3. apply K2, Hu.
  - intros u' p H. destruct (F u' H) as (u & Hu & A1 & A2 & A3 & A4 & A5). rewrite <- A3, <- A4, <- A5. apply K3, Hu.
  - intros u' t H. destruct (F u' H) as (u & Hu & A1 & A2 & A3 & A4 & A5). rewrite <- A1, <- A2, <- A3, <- A4, <- A5. apply K4, Hu.
  - intros u' H. destruct (F u' H) as (u & Hu & A1 & A2 & A3 & A4 & A5). rewrite <- A1, <- A3. apply K5, Hu.
  - intros Hx u' t p H. destruct (F u' H) as (u & Hu & A1 & A2 & A3 & A4 & A5). rewrite <- A1, <- A4, <- A5. apply (K6 Hx), Hu.
  - rewrite <- area_erase, <- E, area_erase. exact K7.
Qed.

Lemma erase_raise : forall v l, map erase (map (raise v) l) = map erase l.
Proof. intros v l. rewrite map_map. apply map_ext. reflexivity. Qed.

Lemma raise_after_like : forall k v l, map erase (raise_after k v l) = map erase l.
Proof. intros k v l. unfold raise_after. rewrite map_app, erase_raise, <- map_app, firstn_skipn. reflexivity. Qed.

Lemma raise_before_like : forall k v l, map erase (raise_before k v l) = map erase l.
Proof. intros k v l. unfold raise_before. rewrite map_app, erase_raise, <- map_app, firstn_skipn. reflexivity. Qed.

(** A new item against the skyline. *)
Record Fits (xi yi : Z) (l : list Piece) (p : Place) : Prop := {
  fi_x : 0 <= pl_x p /\ pl_xe i p <= xi;
  fi_y : 0 <= pl_y p /\ pl_ye i p <= yi;
  fi_w : 0 < pl_w i p;
  fi_h : 0 < pl_h i p;
  fi_after : forall u, In u l -> pl_y p < pc_ye u -> pc_ys u < pl_ye i p -> pc_xe u <= pl_x p;
  fi_group : rp_unloading (rin_params i) = UOnlyX -> forall u t, In u l -> pc_type u = Some t -> pl_y p < pc_ye u -> pc_ys u < pl_ye i p ->
    (pl_group i p <= ri_group (ritem i t))%nat
}.

Definition piece_of (p : Place) : Piece := mkPc (Some (pl_type p)) (pl_x p) (pl_xe i p) (pl_xe i p) (pl_y p) (pl_ye i p).

Lemma items_area_snoc : forall ps p, items_area i (ps ++ [p]) = items_area i ps + pl_w i p * pl_h i p.
Proof. intros ps p. unfold items_area. rewrite zsum_snoc. unfold pl_w, pl_h. destruct (pl_rot p); lia. Qed.

(** An item placed earlier that shares a row with the new one is on its left. *)
Lemma fits_left : forall xi yi l ps p q, Sky xi yi l ps -> Fits xi yi l p -> In q ps -> 0 < pl_h i q -> 0 <= pl_y q -> pl_ye i q <= yi -> same_rows i q p ->
  exists u, In u l /\ pl_y p < pc_ye u /\ pc_ys u < pl_ye i p /\ pl_y q < pc_ye u /\ pc_ys u < pl_ye i q /\ pl_xe i q <= pc_xe u /\ pc_xe u <= pl_x p.
Proof.
  intros xi yi l ps p q K F Hq Hh Hy1 Hy2 [R1 R2]. destruct F as [F1 F2 F3 F4 F5 F6]. destruct (tiles_at l 0 yi (Z.max (pl_y p) (pl_y q)) (sk_tiles _ _ _ _ K)) as (u & Hu & Hr).
  { unfold pl_ye in *. destruct (Z.max_spec (pl_y p) (pl_y q)) as [[_ ->]|[_ ->]]; lia. }
  exists u. unfold pl_ye in *. assert (A : pl_y p < pc_ye u /\ pc_ys u < pl_y p + pl_h i p /\ pl_y q < pc_ye u /\ pc_ys u < pl_y q + pl_h i q) by lia. destruct A as (A1 & A2 & A3 & A4).
  repeat (split; [assumption|]). split; [apply (sk_cover _ _ _ _ K u q Hu Hq); [assumption|exact A4]|]. apply F5; assumption.
Qed.

Lemma sky_step : forall xi yi l ps p, Sky xi yi l ps -> (forall q, In q ps -> 0 <= pl_x q /\ 0 < pl_w i q /\ 0 < pl_h i q /\ 0 <= pl_y q /\ pl_ye i q <= yi) -> Fits xi yi l p ->
  Sky xi yi (flat_map (clip_below (pl_y p)) l ++ [piece_of p] ++ flat_map (clip_above (pl_ye i p)) l) (ps ++ [p]).
Proof.
  intros xi yi l ps p K Hps F. pose proof F as F0. destruct F as [F1 F2 F3 F4 F5 F6]. pose proof K as K0. destruct K as [K1 K2 K3 K4 K5 K6 K7].
  assert (Hye : pl_y p < pl_ye i p) by (unfold pl_ye; lia). assert (Hxe : pl_x p < pl_xe i p) by (unfold pl_xe; lia).
  assert (Hl : forall u, In u l -> pc_ys u < pc_ye u) by (intros u Hu; destruct (tiles_in _ _ _ _ K1 Hu); lia).
  assert (C : forall u', In u' (flat_map (clip_below (pl_y p)) l ++ [piece_of p] ++ flat_map (clip_above (pl_ye i p)) l) ->
    u' = piece_of p \/ exists u, In u l /\ pc_type u' = pc_type u /\ pc_xs u' = pc_xs u /\ pc_xe u' = pc_xe u /\ pc_ys u <= pc_ys u' /\ pc_ye u' <= pc_ye u /\ pc_ys u' < pc_ye u'
      /\ (pc_ye u' <= pl_y p \/ pl_ye i p <= pc_ys u')).
  { intros u' H. apply in_app_or in H. destruct H as [H|H]; [right|destruct H as [H|H]; [left; auto|right]]; apply (clip_in l _ _ u' Hye); try exact Hl; apply in_or_app; [left|right]; exact H. }
  constructor.
  - apply tiles_app with (b := pl_y p); [apply tiles_below with (b := yi); [exact K1|lia]|]. split; [reflexivity|]. split; [exact Hye|]. apply tiles_above with (a := 0); [exact K1|]. cbn [piece_of pc_ye]. lia.
  - intros u' H. destruct (C u' H) as [->|(u & Hu & _ & _ & E & _)]; [cbn; lia|]. rewrite E. apply K2, Hu.
  - intros u' q H Hq R1 R2. apply in_app_or in Hq. destruct (C u' H) as [->|(u & Hu & E1 & E2 & E3 & E4 & E5 & E6 & E7)].
    + cbn [piece_of pc_ye pc_ys pc_xe] in *. destruct Hq as [Hq|[<-|[]]]; [|lia]. destruct (Hps q Hq) as (P1 & P2 & P5 & P3 & P4).
      destruct (fits_left xi yi l ps p q K0 F0 Hq P5 P3 P4) as (u & _ & _ & _ & _ & _ & A & B); [split; assumption|]. lia.
    + destruct Hq as [Hq|[<-|[]]]; [|exfalso; lia]. rewrite E3. apply (K3 u q Hu Hq); lia.
  - intros u' t H Et. destruct (C u' H) as [->|(u & Hu & E1 & E2 & E3 & E4 & E5 & E6 & E7)].
    + cbn in Et. injection Et as <-. exists p. split; [apply in_or_app; right; left; reflexivity|]. cbn. repeat (split; [reflexivity|]). lia.
    + rewrite E1 in Et. destruct (K4 u t Hu Et) as (q & Q1 & Q2 & Q3 & Q4 & Q5 & Q6). exists q. split; [apply in_or_app; left; exact Q1|]. split; [exact Q2|]. rewrite E2, E3. repeat (split; [assumption|]). lia.
  - intros u' H Et. destruct (C u' H) as [->|(u & Hu & E1 & E2 & E3 & E4 & E5 & E6 & E7)]; [discriminate|]. rewrite E3. apply K5; [exact Hu|congruence].
  - intros Hun u' t q H Et Hq R1 R2. apply in_app_or in Hq. destruct (C u' H) as [->|(u & Hu & E1 & E2 & E3 & E4 & E5 & E6 & E7)].
    + cbn [piece_of pc_ye pc_ys pc_xe pc_type] in *. injection Et as <-. change (ri_group (ritem i (pl_type p))) with (pl_group i p). destruct Hq as [Hq|[<-|[]]]; [|lia]. destruct (Hps q Hq) as (P1 & P2 & P5 & P3 & P4).
      destruct (fits_left xi yi l ps p q K0 F0 Hq P5 P3 P4) as (u & Hu & A1 & A2 & A3 & A4 & A & B); [split; assumption|].
      destruct (pc_type u) as [t'|] eqn:Et'; [|specialize (K5 u Hu Et'); unfold pl_xe in *; lia].
      pose proof (F6 Hun u t' Hu Et' A1 A2). pose proof (K6 Hun u t' q Hu Et' Hq A3 A4). lia.
    + destruct Hq as [Hq|[<-|[]]]; [|exfalso; lia]. apply (K6 Hun u t q Hu); [congruence|exact Hq|lia|lia].
  - rewrite items_area_snoc. unfold pieces_area. rewrite zsum_app. change ([piece_of p] ++ flat_map (clip_above (pl_ye i p)) l) with (piece_of p :: flat_map (clip_above (pl_ye i p)) l). rewrite zsum_cons. cbn [piece_of pc_xe pc_ys pc_ye].
    pose proof (clip_area l 0 yi (pl_y p) (pl_ye i p) (pl_x p) K1 Hye ltac:(lia) (fun u Hu A B => F5 u Hu B A) (fun u Hu => proj1 (K2 u Hu))) as A.
    rewrite Z.min_r, Z.max_r, Z.max_r in A by lia. unfold pieces_area in *. unfold pl_xe at 1. replace (pl_ye i p - pl_y p) with (pl_h i p) in * by (unfold pl_ye; lia). nia.
Qed.

(** ** What the node reads off the skyline *)

Lemma xe_max_fold : forall l m, (forall u, In u l -> pc_xe u <= fold_left (fun m u => if m <? pc_xe u then pc_xe u else m) l m) /\ m <= fold_left (fun m u => if m <? pc_xe u then pc_xe u else m) l m
  /\ (fold_left (fun m u => if m <? pc_xe u then pc_xe u else m) l m = m \/ exists u, In u l /\ fold_left (fun m u => if m <? pc_xe u then pc_xe u else m) l m = pc_xe u).
Proof.
  induction l as [|v r IH]; intros m; cbn [fold_left]; [split; [intros u []|]; split; [lia|left; reflexivity]|]. destruct (IH (if m <? pc_xe v then pc_xe v else m)) as (A & B & C).
  split; [|split].
  - intros u [<-|Hu]; [destruct (Z.ltb_spec m (pc_xe v)); lia|apply A, Hu].
  - destruct (Z.ltb_spec m (pc_xe v)); lia.
  - destruct C as [C|(u & Hu & C)]; [|right; exists u; split; [right; exact Hu|exact C]]. destruct (Z.ltb_spec m (pc_xe v)); [right; exists v; split; [left; reflexivity|exact C]|left; exact C].
Qed.

Lemma xe_max_in : forall l u, In u l -> pc_xe u <= pieces_xe_max l.
Proof. intros l u H. unfold pieces_xe_max. apply (xe_max_fold (rev l) 0). rewrite <- in_rev. exact H. Qed.

Lemma xe_max_cases : forall l, 0 <= pieces_xe_max l /\ (pieces_xe_max l = 0 \/ exists u, In u l /\ pieces_xe_max l = pc_xe u).
Proof.
  intros l. unfold pieces_xe_max. destruct (xe_max_fold (rev l) 0) as (_ & B & [C|(u & Hu & C)]); split; try exact B; [left; exact C|right; exists u; split; [rewrite in_rev; exact Hu|exact C]].
Qed.

Lemma ye_max_fold : forall l m, let f := fold_left (fun m u => if 0 <? pc_xe u then (if m <? pc_ye u then pc_ye u else m) else m) l m in
  (forall u, In u l -> 0 < pc_xe u -> pc_ye u <= f) /\ m <= f /\ (f = m \/ exists u, In u l /\ 0 < pc_xe u /\ f = pc_ye u).
Proof.
  induction l as [|v r IH]; intros m; cbn [fold_left]; cbv zeta; [split; [intros u []|]; split; [lia|left; reflexivity]|]. cbv zeta in IH. destruct (IH (if 0 <? pc_xe v then (if m <? pc_ye v then pc_ye v else m) else m)) as (A & B & C).
  split; [|split].
  - intros u [<-|Hu] Hp; [|apply A; assumption]. destruct (Z.ltb_spec 0 (pc_xe v)); [|lia]. destruct (Z.ltb_spec m (pc_ye v)); lia.
  - destruct (Z.ltb_spec 0 (pc_xe v)); [|lia]. destruct (Z.ltb_spec m (pc_ye v)); lia.
  - destruct C as [C|(u & Hu & Hp & C)]; [|right; exists u; split; [right; exact Hu|split; assumption]].
    destruct (Z.ltb_spec 0 (pc_xe v)); [|left; exact C]. destruct (Z.ltb_spec m (pc_ye v)); [|left; exact C]. right. exists v. split; [left; reflexivity|]. split; assumption.
Qed.

Lemma fold_max_in : forall (l : list Z) x, In x l -> x <= fold_right Z.max 0 l.
Proof. induction l as [|y r IH]; intros x [].  { subst. cbn. lia. } cbn. specialize (IH x H). lia. Qed.

Lemma fold_max_cases : forall (l : list Z), 0 <= fold_right Z.max 0 l /\ (fold_right Z.max 0 l = 0 \/ In (fold_right Z.max 0 l) l).
Proof.
  induction l as [|y r [IH1 IH2]]; [cbn; lia|]. cbn [fold_right]. split; [lia|]. destruct (Z.max_spec y (fold_right Z.max 0 r)) as [[_ ->]|[_ ->]]; [|right; left; reflexivity].
  destruct IH2 as [IH2|IH2]; [left; exact IH2|right; right; exact IH2].
Qed.

Lemma sky_xe_max : forall xi yi l ps, Sky xi yi l ps -> (forall q, In q ps -> 0 < pl_h i q /\ 0 <= pl_y q /\ pl_ye i q <= yi) -> pieces_xe_max l = rightmost i ps.
Proof.
  intros xi yi l ps [K1 K2 K3 K4 K5 K6 K7] Hps. unfold rightmost. apply Z.le_antisymm.
  - destruct (xe_max_cases l) as (A & [B|(u & Hu & B)]); [rewrite B; apply fold_max_cases|]. rewrite B. destruct (pc_type u) as [t|] eqn:Et.
    + destruct (K4 u t Hu Et) as (q & Q1 & _ & _ & Q4 & _). rewrite <- Q4. apply fold_max_in. apply in_map. exact Q1.
    + rewrite (K5 u Hu Et). apply fold_max_cases.
  - destruct (fold_max_cases (map (pl_xe i) ps)) as (_ & [->|B]); [apply xe_max_cases|]. apply in_map_iff in B. destruct B as (q & E & Hq). rewrite <- E.
    destruct (Hps q Hq) as (P1 & P2 & P3). unfold pl_ye in *. destruct (tiles_at l 0 yi (pl_y q) K1) as (u & Hu & Hy); [lia|].
    pose proof (K3 u q Hu Hq ltac:(lia) ltac:(unfold pl_ye; lia)). pose proof (xe_max_in l u Hu). lia.
Qed.

Lemma fold_max_snoc : forall (l : list Z) x, fold_right Z.max 0 (l ++ [x]) = Z.max (fold_right Z.max 0 l) x.
Proof. induction l as [|y r IH]; intros x; cbn; [lia|]. rewrite IH. lia. Qed.

Lemma right_snoc : forall ps p, rightmost i (ps ++ [p]) = Z.max (rightmost i ps) (pl_xe i p).
Proof. intros ps p. unfold rightmost. rewrite map_app. apply fold_max_snoc. Qed.
Lemma top_snoc : forall ps p, topmost i (ps ++ [p]) = Z.max (topmost i ps) (pl_ye i p).
Proof. intros ps p. unfold topmost. rewrite map_app. apply fold_max_snoc. Qed.

Lemma sky_ye_max : forall xi yi l ps p m, Sky xi yi l (ps ++ [p]) -> (exists u, In u l /\ pc_xe u = pl_xe i p /\ pc_ye u = pl_ye i p) -> 0 < pl_xe i p -> m = topmost i ps ->
  pieces_ye_max m l = topmost i (ps ++ [p]).
Proof.
  intros xi yi l ps p m [K1 K2 K3 K4 K5 K6 K7] (u0 & H0 & E1 & E2) Hx ->. unfold pieces_ye_max. destruct (ye_max_fold (rev l) (topmost i ps)) as (A & B & C). cbv zeta in A, B, C.
  apply Z.le_antisymm.
  - destruct C as [->|(u & Hu & Hpos & ->)]; [rewrite top_snoc; lia|]. apply in_rev in Hu. destruct (pc_type u) as [t|] eqn:Et; [|specialize (K5 u Hu Et); lia].
    destruct (K4 u t Hu Et) as (q & Q1 & _ & _ & _ & _ & Q6). transitivity (pl_ye i q); [exact Q6|]. apply fold_max_in. apply in_map. exact Q1.
  - rewrite top_snoc. specialize (A u0 ltac:(rewrite <- in_rev; exact H0) ltac:(lia)). lia.
Qed.

(** ** The area of the skyline, row by row *)

Lemma rows_nil : forall a, rows a a = [].
Proof. intros a. unfold rows. rewrite Z.sub_diag. reflexivity. Qed.

Lemma rows_in : forall a b y, In y (rows a b) -> a <= y < b.
Proof. intros a b y H. unfold rows in H. apply in_map_iff in H. destruct H as (k & <- & Hk). apply in_seq in Hk. lia. Qed.

Lemma rows_length : forall a b, a <= b -> Z.of_nat (length (rows a b)) = b - a.
Proof. intros a b H. unfold rows. rewrite map_length, seq_length. lia. Qed.

Lemma rows_split : forall a b c, a <= b <= c -> rows a c = rows a b ++ rows b c.
Proof.
  intros a b c H. unfold rows. replace (Z.to_nat (c - a)) with (Z.to_nat (b - a) + Z.to_nat (c - b))%nat by lia. rewrite seq_app, map_app. f_equal. cbn [plus].
  replace (seq (Z.to_nat (b - a)) (Z.to_nat (c - b))) with (map (fun k => (Z.to_nat (b - a) + k)%nat) (seq 0 (Z.to_nat (c - b)))).
  - rewrite map_map. apply map_ext. intros k. lia.
  - generalize (Z.to_nat (b - a)) (Z.to_nat (c - b)). clear. intros m k. induction k as [|k IH]; [reflexivity|]. rewrite !seq_S, map_app, IH. reflexivity.
Qed.

Lemma rows_sum : forall (f : Z -> Z) l a b, tiles a b l -> (forall u y, In u l -> pc_ys u <= y < pc_ye u -> f y = pc_xe u) -> zsum f (rows a b) = pieces_area l.
Proof.
  intros f l. induction l as [|u r IH]; intros a b H Hf; cbn in H; [subst; rewrite rows_nil; reflexivity|]. destruct H as (E1 & E2 & E3). pose proof (tiles_le _ _ _ E3).
  rewrite (rows_split a (pc_ye u) b) by lia. rewrite zsum_app, (IH _ _ E3) by (intros v y Hv; apply Hf; right; exact Hv). unfold pieces_area. rewrite zsum_cons. f_equal.
  rewrite (zsum_ext _ f (fun _ => pc_xe u)) by (intros y Hy; apply rows_in in Hy; apply Hf; [left; reflexivity|lia]).
  rewrite E1. rewrite <- (rows_length a (pc_ye u)) by lia. generalize (rows a (pc_ye u)). intros l0. induction l0 as [|y l0 IHl]; [cbn; lia|]. rewrite zsum_cons, IHl. cbn [length]. lia.
Qed.

Lemma sky_shadow : forall xi bt l ps, Sky xi (rb_y bt) l ps -> (forall q, In q ps -> 0 <= pl_xe i q) -> pieces_area l = shadow i bt ps.
Proof.
  intros xi bt l ps [K1 K2 K3 K4 K5 K6 K7] Hps. unfold shadow. symmetry. apply (rows_sum _ l); [exact K1|]. intros u y Hu Hy. unfold row_end. apply Z.le_antisymm.
  - destruct (fold_max_cases (map (fun p => if (pl_y p <=? y) && (y <? pl_ye i p) then pl_xe i p else 0) ps)) as (_ & [->|B]); [apply K2, Hu|].
    apply in_map_iff in B. destruct B as (q & E & Hq). rewrite <- E. destruct ((pl_y q <=? y) && (y <? pl_ye i q)) eqn:C; [|apply K2, Hu]. apply andb_true_iff in C. destruct C as [C1 C2]. apply Z.leb_le in C1. apply Z.ltb_lt in C2.
    apply (K3 u q Hu Hq); lia.
  - destruct (pc_type u) as [t|] eqn:Et; [|rewrite (K5 u Hu Et); apply fold_max_cases]. destruct (K4 u t Hu Et) as (q & Q1 & _ & _ & Q4 & Q5 & Q6). rewrite <- Q4. apply fold_max_in. apply in_map_iff. exists q. split; [|exact Q1].
    destruct (Z.leb_spec (pl_y q) y); [|lia]. destruct (Z.ltb_spec y (pl_ye i q)); [reflexivity|lia].
Qed.
End Sky.
