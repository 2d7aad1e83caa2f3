(** * The skyline kept by the nodes of the box branching scheme *)

From Coq Require Import List ZArith QArith Bool Lia Arith.
From Verif Require Import Util Common_Model OneDim_Model Box_Model Box_Spec BoxSol_Spec BoxTree_Model BoxTree_Spec.
Import ListNotations.
Open Scope Z_scope.

Definition b2z (b : bool) : Z := if b then 1 else 0.

Lemma covers_iff : forall u y z, covers u y z = true <-> zp_ys u <= y < zp_ye u /\ zp_zs u <= z < zp_ze u.
Proof. intros u y z. unfold covers. rewrite !andb_true_iff, !Z.leb_le, !Z.ltb_lt. tauto. Qed.

(** ** Rows *)

Lemma zrows_in : forall a b y, In y (zrows a b) <-> a <= y < b.
Proof.
  intros a b y. unfold zrows. rewrite in_map_iff. split.
  - intros (k & <- & Hk). apply in_seq in Hk. lia.
  - intros H. exists (Z.to_nat (y - a)). split; [lia|]. apply in_seq. lia.
Qed.

Lemma zrows_split : forall a c b, a <= c <= b -> zrows a b = zrows a c ++ zrows c b.
Proof.
  intros a c b H. unfold zrows. replace (Z.to_nat (b - a)) with (Z.to_nat (c - a) + Z.to_nat (b - c))%nat by lia. rewrite seq_app, map_app. f_equal. cbn [Nat.add].
  generalize (Z.to_nat (b - c)). intros m.
  assert (G : forall k, map (fun j => a + Z.of_nat j) (seq (Z.to_nat (c - a) + k) m) = map (fun j => c + Z.of_nat j) (seq k m)).
  { induction m as [|m IH]; intros k; [reflexivity|]. cbn [seq map]. f_equal; [lia|]. rewrite <- IH. f_equal. f_equal. lia. }
  rewrite <- (G 0%nat), Nat.add_0_r. reflexivity.
Qed.

Lemma zrows_sum_const : forall a b c, a <= b -> zsum (fun _ => c) (zrows a b) = c * (b - a).
Proof.
  intros a b c H. unfold zrows. rewrite zsum_map. replace (b - a) with (Z.of_nat (Z.to_nat (b - a))) at 2 by lia. generalize (Z.to_nat (b - a)). intros m. generalize 0%nat. induction m as [|m IH]; intros k; cbn [seq]; [rewrite zsum_nil; lia|]. rewrite zsum_cons, IH. lia.
Qed.

Lemma zrows_indicator : forall a b ys ye c, a <= ys -> ys <= ye -> ye <= b -> zsum (fun y => if (ys <=? y) && (y <? ye) then c else 0) (zrows a b) = c * (ye - ys).
Proof.
  intros a b ys ye c H1 H2 H3. rewrite (zrows_split a ys b), (zrows_split ys ye b) by lia. rewrite !zsum_app.
  rewrite (zsum_ext _ _ (fun _ => 0) (zrows a ys)), (zsum_ext _ _ (fun _ => c) (zrows ys ye)), (zsum_ext _ _ (fun _ => 0) (zrows ye b)).
  - rewrite !zrows_sum_const by lia. lia.
  - intros y Hy. apply zrows_in in Hy. destruct (Z.leb_spec ys y), (Z.ltb_spec y ye); cbn [andb]; try reflexivity; lia.
  - intros y Hy. apply zrows_in in Hy. destruct (Z.leb_spec ys y), (Z.ltb_spec y ye); cbn [andb]; try reflexivity; lia.
  - intros y Hy. apply zrows_in in Hy. destruct (Z.leb_spec ys y), (Z.ltb_spec y ye); cbn [andb]; try reflexivity; lia.
Qed.

Lemma zsum_swap : forall (A B : Type) (f : A -> B -> Z) l1 l2, zsum (fun a => zsum (f a) l2) l1 = zsum (fun b => zsum (fun a => f a b) l1) l2.
Proof.
  intros A B f l1 l2. induction l1 as [|a l1 IH].
  - rewrite zsum_nil. induction l2 as [|b l2 IH]; [reflexivity|]. rewrite zsum_cons, <- IH. reflexivity.
  - rewrite zsum_cons, IH, <- zsum_plus. apply zsum_ext. intros b _. rewrite zsum_cons. reflexivity.
Qed.

(** ** Clipping *)

Lemma clip_count : forall ys ye zs ze u y z, ys < ye -> zs < ze -> zp_ys u < zp_ye u -> zp_zs u < zp_ze u ->
  zsum (fun v => b2z (covers v y z)) (zclip ys ye zs ze u)
  = if (ys <=? y) && (y <? ye) && (zs <=? z) && (z <? ze) then 0 else b2z (covers u y z).
Proof.
  intros ys ye zs ze [x xd a b c d] y z H1 H2 H3 H4. cbn [zp_ys zp_ye zp_zs zp_ze] in *. unfold zclip, covers, zset_y, zset_z. cbn [zp_x zp_xd zp_ys zp_ye zp_zs zp_ze].
  destruct (Z.leb_spec b ys); destruct (Z.leb_spec ye a); destruct (Z.leb_spec d zs); destruct (Z.leb_spec ze c); cbn [orb]; try lia;
  repeat match goal with |- context [if ?e then _ else _] => lazymatch e with context [if _ then _ else _] => fail | context [covers] => fail | (?p <? ?q) => destruct (Z.ltb_spec p q) end end;
  cbn [app zp_x zp_xd zp_ys zp_ye zp_zs zp_ze]; rewrite ?zsum_cons, ?zsum_nil; cbn [zp_x zp_xd zp_ys zp_ye zp_zs zp_ze]; unfold b2z;
  repeat match goal with
  | |- context [?p <=? ?q] => destruct (Z.leb_spec p q); cbn [andb]; try lia
  | |- context [?p <? ?q] => destruct (Z.ltb_spec p q); cbn [andb]; try lia
  end.
Qed.

Lemma clip_in : forall ys ye zs ze u v, ys < ye -> zs < ze -> zp_ys u < zp_ye u -> zp_zs u < zp_ze u -> In v (zclip ys ye zs ze u) ->
  zp_x v = zp_x u /\ zp_xd v = zp_xd u /\ zp_ys u <= zp_ys v < zp_ye v /\ zp_ye v <= zp_ye u /\ zp_zs u <= zp_zs v < zp_ze v /\ zp_ze v <= zp_ze u
  /\ (zp_ye v <= ys \/ ye <= zp_ys v \/ zp_ze v <= zs \/ ze <= zp_zs v).
Proof.
  intros ys ye zs ze [x xd a b c d] v H1 H2 H3 H4 H. cbn [zp_x zp_xd zp_ys zp_ye zp_zs zp_ze] in *. unfold zclip, zset_y, zset_z in H. cbn [zp_x zp_xd zp_ys zp_ye zp_zs zp_ze] in H.
  destruct (Z.leb_spec b ys); destruct (Z.leb_spec ye a); destruct (Z.leb_spec d zs); destruct (Z.leb_spec ze c); cbn [orb] in H;
  try (destruct H as [<-|[]]; cbn [zp_x zp_xd zp_ys zp_ye zp_zs zp_ze]; repeat split; lia).
  destruct (Z.ltb_spec a ys); destruct (Z.ltb_spec ye b); destruct (Z.ltb_spec c zs); destruct (Z.ltb_spec ze d); cbn [app In] in H;
  repeat (destruct H as [<-|H]; [cbn [zp_x zp_xd zp_ys zp_ye zp_zs zp_ze]; repeat split; lia|]); destruct H.
Qed.

(** ** The skyline of a list of placed items *)

Section Sky.
Variable i : BInstance.

Lemma over_iff : forall p y z, over i p y z = true <-> v_y (bp_pos p) <= y < bp_end i p AY /\ v_z (bp_pos p) <= z < bp_end i p AZ.
Proof. intros p y z. unfold over. rewrite !andb_true_iff, !Z.leb_le, !Z.ltb_lt. tauto. Qed.

Lemma fold_max_snoc : forall l a, fold_right Z.max 0 (l ++ [a]) = Z.max (fold_right Z.max 0 l) (Z.max a 0).
Proof. induction l as [|b l IH]; intros a; cbn [app fold_right]; [lia|]. rewrite IH. lia. Qed.

Lemma cell_end_snoc : forall ps p y z, cell_end i (ps ++ [p]) y z = Z.max (cell_end i ps y z) (if over i p y z then Z.max (bp_end i p AX) 0 else 0).
Proof. intros ps p y z. unfold cell_end. rewrite map_app. cbn [map]. rewrite fold_max_snoc. destruct (over i p y z); lia. Qed.

Lemma cell_end_nonneg : forall ps y z, 0 <= cell_end i ps y z.
Proof. intros ps y z. unfold cell_end. induction ps as [|p ps IH]; cbn [map fold_right]; lia. Qed.

Lemma cell_end_ge : forall ps p y z, In p ps -> over i p y z = true -> bp_end i p AX <= cell_end i ps y z.
Proof. intros ps p y z. unfold cell_end. induction ps as [|q ps IH]; intros Hin H; cbn [map fold_right]; [destruct Hin|]. destruct Hin as [->|Hin]; [rewrite H; lia|]. specialize (IH Hin H). lia. Qed.

Lemma cell_end_cases : forall ps y z, cell_end i ps y z = 0 \/ exists p, In p ps /\ over i p y z = true /\ cell_end i ps y z = bp_end i p AX.
Proof.
  intros ps y z. unfold cell_end. induction ps as [|q ps IH]; cbn [map fold_right]; [left; reflexivity|].
  destruct (Z.max_spec (if over i q y z then bp_end i q AX else 0) (fold_right Z.max 0 (map (fun p => if over i p y z then bp_end i p AX else 0) ps))) as [[_ ->]|[_ ->]].
  - destruct IH as [E|(p & Hp & Ho & E)]; [left; exact E|right; exists p; split; [right; exact Hp|auto]].
  - destruct (over i q y z) eqn:E; [right; exists q; split; [left; reflexivity|auto]|left; reflexivity].
Qed.

Record ZSky (yi zi : Z) (l : list ZPiece) (ps : list BPlace) : Prop := {
  sk_range : forall u, In u l -> 0 <= zp_ys u < zp_ye u /\ zp_ye u <= yi /\ 0 <= zp_zs u < zp_ze u /\ zp_ze u <= zi;
  sk_once : forall y z, 0 <= y < yi -> 0 <= z < zi -> zsum (fun u => b2z (covers u y z)) l = 1;
  sk_height : forall u y z, In u l -> covers u y z = true -> zp_x u = cell_end i ps y z;
  sk_raised : forall u, In u l -> zp_x u <= zp_xd u
}.

Lemma sky_at : forall yi zi l ps y z, ZSky yi zi l ps -> 0 <= y < yi -> 0 <= z < zi -> exists u, In u l /\ covers u y z = true.
Proof.
  intros yi zi l ps y z K Hy Hz. pose proof (sk_once _ _ _ _ K y z Hy Hz) as S. clear - S. induction l as [|u l IH]; [discriminate|]. rewrite zsum_cons in S. destruct (covers u y z) eqn:E.
  - exists u. split; [left; reflexivity|exact E].
  - cbn [b2z] in S. destruct (IH ltac:(lia)) as (v & Hv & Ev). exists v. split; [right; exact Hv|exact Ev].
Qed.

Lemma sky_free : forall bt, 0 < v_y (bn_box bt) -> 0 < v_z (bn_box bt) -> ZSky (v_y (bn_box bt)) (v_z (bn_box bt)) [zfree bt] [].
Proof.
  intros bt Hy Hz. constructor.
  - intros u [<-|[]]. cbn. lia.
  - intros y z Y Z0. rewrite zsum_cons, zsum_nil. assert (E : covers (zfree bt) y z = true) by (apply covers_iff; cbn; lia). rewrite E. reflexivity.
  - intros u y z [<-|[]] _. reflexivity.
  - intros u [<-|[]]. cbn. lia.
Qed.

(** The pieces after the insertion of [p]. *)
Definition cover_with (p : BPlace) (l : list ZPiece) : list ZPiece :=
  flat_map (zclip (v_y (bp_pos p)) (bp_end i p AY) (v_z (bp_pos p)) (bp_end i p AZ)) l
  ++ [mkZP (bp_end i p AX) (bp_end i p AX) (v_y (bp_pos p)) (bp_end i p AY) (v_z (bp_pos p)) (bp_end i p AZ)].

(** The item is inside the face, in front of the pieces it meets. *)
Record ZFits (yi zi : Z) (l : list ZPiece) (p : BPlace) : Prop := {
  ft_x : 0 <= v_x (bp_pos p);
  ft_y : 0 <= v_y (bp_pos p) /\ bp_end i p AY <= yi;
  ft_z : 0 <= v_z (bp_pos p) /\ bp_end i p AZ <= zi;
  ft_size : forall a, 0 < bp_size i p a;
  ft_front : forall u, In u l -> v_y (bp_pos p) < zp_ye u -> zp_ys u < bp_end i p AY -> v_z (bp_pos p) < zp_ze u -> zp_zs u < bp_end i p AZ -> zp_x u <= v_x (bp_pos p)
}.

Lemma fits_cell : forall yi zi l ps p y z, ZSky yi zi l ps -> ZFits yi zi l p -> over i p y z = true -> cell_end i ps y z <= v_x (bp_pos p).
Proof.
  intros yi zi l ps p y z K F H. apply over_iff in H. destruct (ft_y _ _ _ _ F), (ft_z _ _ _ _ F). destruct (sky_at yi zi l ps y z K) as (u & Hu & Cu); [lia|lia|].
  rewrite <- (sk_height _ _ _ _ K u y z Hu Cu). apply covers_iff in Cu. apply (ft_front _ _ _ _ F u Hu); lia.
Qed.

Lemma sky_insert : forall yi zi l ps p, ZSky yi zi l ps -> ZFits yi zi l p -> ZSky yi zi (cover_with p l) (ps ++ [p]).
Proof.
  intros yi zi l ps p K F. pose proof (ft_size _ _ _ _ F AX) as SX. pose proof (ft_size _ _ _ _ F AY) as SY. pose proof (ft_size _ _ _ _ F AZ) as SZ.
  assert (EX : bp_end i p AX = v_x (bp_pos p) + bp_size i p AX) by reflexivity. assert (EY : bp_end i p AY = v_y (bp_pos p) + bp_size i p AY) by reflexivity. assert (EZ : bp_end i p AZ = v_z (bp_pos p) + bp_size i p AZ) by reflexivity.
  destruct (ft_y _ _ _ _ F) as [Y1 Y2]. destruct (ft_z _ _ _ _ F) as [Z1 Z2]. pose proof (ft_x _ _ _ _ F) as X1.
  set (R := zclip (v_y (bp_pos p)) (bp_end i p AY) (v_z (bp_pos p)) (bp_end i p AZ)).
  set (np := mkZP (bp_end i p AX) (bp_end i p AX) (v_y (bp_pos p)) (bp_end i p AY) (v_z (bp_pos p)) (bp_end i p AZ)).
  assert (I : forall v, In v (cover_with p l) -> v = np \/ exists u, In u l /\ zp_x v = zp_x u /\ zp_xd v = zp_xd u /\ zp_ys u <= zp_ys v < zp_ye v /\ zp_ye v <= zp_ye u /\ zp_zs u <= zp_zs v < zp_ze v /\ zp_ze v <= zp_ze u
    /\ (zp_ye v <= v_y (bp_pos p) \/ bp_end i p AY <= zp_ys v \/ zp_ze v <= v_z (bp_pos p) \/ bp_end i p AZ <= zp_zs v)).
  { intros v Hv. unfold cover_with in Hv. apply in_app_or in Hv. destruct Hv as [Hv|[<-|[]]]; [right|left; reflexivity]. apply in_flat_map in Hv. destruct Hv as (u & Hu & Hv). exists u. split; [exact Hu|].
    destruct (sk_range _ _ _ _ K u Hu) as (A & _ & B & _). apply clip_in in Hv; [|lia|lia|lia|lia]. exact Hv. }
  constructor.
  - intros v Hv. destruct (I v Hv) as [->|(u & Hu & _ & _ & A & B & C & D & _)]; [cbn; lia|]. destruct (sk_range _ _ _ _ K u Hu). lia.
  - intros y z Hy Hz. unfold cover_with. rewrite zsum_snoc. fold np.
    assert (E : forall l', (forall u, In u l' -> In u l) -> zsum (fun u => b2z (covers u y z)) (flat_map R l') = if over i p y z then 0 else zsum (fun u => b2z (covers u y z)) l').
    { induction l' as [|u l' IH]; intros Hl; cbn [flat_map]; [destruct (over i p y z); reflexivity|]. rewrite zsum_app, IH by (intros v Hv; apply Hl; right; exact Hv). destruct (sk_range _ _ _ _ K u (Hl u (or_introl eq_refl))) as (A & _ & B & _).
      unfold R at 1. rewrite clip_count by lia. unfold over. destruct (_ && _ && _ && _); [lia|]. rewrite zsum_cons. lia. }
    unfold R in E. rewrite (E l (fun u Hu => Hu)). rewrite (sk_once _ _ _ _ K y z Hy Hz). assert (En : covers np y z = over i p y z) by reflexivity. rewrite En. destruct (over i p y z); reflexivity.
  - intros v y z Hv Cv. rewrite cell_end_snoc. destruct (I v Hv) as [->|(u & Hu & E1 & _ & A & B & C & D & G)].
    + change (covers np y z) with (over i p y z) in Cv. rewrite Cv. pose proof (fits_cell _ _ _ _ _ y z K F Cv). cbn [zp_x np]. lia.
    + apply covers_iff in Cv. assert (O : over i p y z = false). { destruct (over i p y z) eqn:O; [|reflexivity]. apply over_iff in O. lia. }
      rewrite O. rewrite E1, (sk_height _ _ _ _ K u y z Hu) by (apply covers_iff; lia). pose proof (cell_end_nonneg ps y z). lia.
  - intros v Hv. destruct (I v Hv) as [->|(u & Hu & -> & -> & _)]; [cbn; lia|apply (sk_raised _ _ _ _ K u Hu)].
Qed.

(** Raising only changes [x_dominance]. *)
Lemma sky_raise : forall yi zi l ps v f, ZSky yi zi l ps -> ZSky yi zi (zraise v f l) ps.
Proof.
  intros yi zi l ps v f [K1 K2 K3 K4]. unfold zraise. constructor.
  - intros u Hu. apply in_map_iff in Hu. destruct Hu as (w & <- & Hw). destruct (f w); cbn; apply (K1 w Hw).
  - intros y z Hy Hz. rewrite zsum_map, <- (K2 y z Hy Hz). apply zsum_ext. intros u _. destruct (f u); reflexivity.
  - intros u y z Hu C. apply in_map_iff in Hu. destruct Hu as (w & <- & Hw). destruct (f w); cbn [zp_x] in *; apply (K3 w y z Hw); exact C.
  - intros u Hu. apply in_map_iff in Hu. destruct Hu as (w & <- & Hw). specialize (K4 w Hw). destruct (f w); cbn; lia.
Qed.

Lemma sky_raise_all : forall d yi zi l ps yi' zi' q, ZSky yi zi l ps -> ZSky yi zi (zraise_all d yi' zi' q l) ps.
Proof. intros d yi zi l ps yi' zi' q K. unfold zraise_all. cbv zeta. destruct (_ <? _); destruct (_ <? _); destruct (_ <? _); destruct (_ <? _); repeat apply sky_raise; exact K. Qed.

(** The new item and the others. *)
Lemma sky_disjoint : forall yi zi l ps p q, ZSky yi zi l ps -> ZFits yi zi l p -> In q ps -> (forall a, 0 < bp_size i q a) -> bdisjoint i q p.
Proof.
  intros yi zi l ps p q K F Hq Sq. pose proof (ft_size _ _ _ _ F AY) as SY. pose proof (ft_size _ _ _ _ F AZ) as SZ. pose proof (Sq AY) as QY. pose proof (Sq AZ) as QZ.
  assert (EY : bp_end i p AY = v_y (bp_pos p) + bp_size i p AY) by reflexivity. assert (EZ : bp_end i p AZ = v_z (bp_pos p) + bp_size i p AZ) by reflexivity.
  assert (FY : bp_end i q AY = v_y (bp_pos q) + bp_size i q AY) by reflexivity. assert (FZ : bp_end i q AZ = v_z (bp_pos q) + bp_size i q AZ) by reflexivity.
  destruct (Z.le_gt_cases (bp_end i q AY) (v_y (bp_pos p))); [exists AY; left; assumption|]. destruct (Z.le_gt_cases (bp_end i p AY) (v_y (bp_pos q))); [exists AY; right; assumption|].
  destruct (Z.le_gt_cases (bp_end i q AZ) (v_z (bp_pos p))); [exists AZ; left; assumption|]. destruct (Z.le_gt_cases (bp_end i p AZ) (v_z (bp_pos q))); [exists AZ; right; assumption|].
  exists AX. left. cbn [vat]. set (y := Z.max (v_y (bp_pos p)) (v_y (bp_pos q))). set (z := Z.max (v_z (bp_pos p)) (v_z (bp_pos q))).
  assert (O : over i p y z = true) by (apply over_iff; unfold y, z; lia). assert (Oq : over i q y z = true) by (apply over_iff; unfold y, z; lia).
  pose proof (fits_cell _ _ _ _ _ y z K F O). pose proof (cell_end_ge ps q y z Hq Oq). lia.
Qed.

(** ** Volumes *)

Definition pieces_x_volume (l : list ZPiece) : Z := zsum (fun u => zp_x u * (zp_ye u - zp_ys u) * (zp_ze u - zp_zs u)) l.

Lemma piece_cells : forall yi zi u c, 0 <= zp_ys u < zp_ye u /\ zp_ye u <= yi /\ 0 <= zp_zs u < zp_ze u /\ zp_ze u <= zi ->
  zsum (fun y => zsum (fun z => b2z (covers u y z) * c) (zrows 0 zi)) (zrows 0 yi) = c * (zp_ye u - zp_ys u) * (zp_ze u - zp_zs u).
Proof.
  intros yi zi u c (A & B & C & D). rewrite (zsum_ext _ _ (fun y => if (zp_ys u <=? y) && (y <? zp_ye u) then c * (zp_ze u - zp_zs u) else 0)).
  - rewrite zrows_indicator by lia. nia.
  - intros y _. unfold covers. destruct ((zp_ys u <=? y) && (y <? zp_ye u)) eqn:E.
    + rewrite (zsum_ext _ _ (fun z => if (zp_zs u <=? z) && (z <? zp_ze u) then c else 0)) by (intros z _; cbn [andb]; destruct ((zp_zs u <=? z) && (z <? zp_ze u)) eqn:E2; cbn [b2z]; lia). apply zrows_indicator; lia.
    + rewrite (zsum_ext _ _ (fun _ => 0 * 0)) by (intros z _; reflexivity). rewrite zsum_mult. lia.
Qed.

Lemma sky_shadow : forall bt l ps, ZSky (v_y (bn_box bt)) (v_z (bn_box bt)) l ps -> pieces_x_volume l = bshadow i bt ps.
Proof.
  intros bt l ps K. unfold pieces_x_volume, bshadow. rewrite (zsum_ext _ _ (fun u => zsum (fun y => zsum (fun z => b2z (covers u y z) * zp_x u) (zrows 0 (v_z (bn_box bt)))) (zrows 0 (v_y (bn_box bt)))) l).
  - rewrite zsum_swap. apply zsum_ext. intros y Hy. rewrite zsum_swap. apply zsum_ext. intros z Hz. apply zrows_in in Hy, Hz.
    rewrite (zsum_ext _ _ (fun u => cell_end i ps y z * b2z (covers u y z))).
    + rewrite zsum_mult, (sk_once _ _ _ _ K y z Hy Hz). lia.
    + intros u Hu. destruct (covers u y z) eqn:C; cbn [b2z]; [|lia]. rewrite (sk_height _ _ _ _ K u y z Hu C). lia.
  - intros u Hu. symmetry. apply piece_cells. apply (sk_range _ _ _ _ K u Hu).
Qed.

Lemma sky_volume : forall bt l ps, ZSky (v_y (bn_box bt)) (v_z (bn_box bt)) l ps -> bshadow i bt ps <= zpieces_volume l /\ ((forall u, In u l -> zp_xd u = zp_x u) -> zpieces_volume l = bshadow i bt ps).
Proof.
  intros bt l ps K. rewrite <- (sky_shadow bt l ps K). unfold zpieces_volume, pieces_x_volume. split.
  - apply zsum_le. intros u Hu. destruct (sk_range _ _ _ _ K u Hu) as (A & _ & B & _). pose proof (sk_raised _ _ _ _ K u Hu) as R.
    assert (0 <= (zp_ye u - zp_ys u) * (zp_ze u - zp_zs u)) by nia. nia.
  - intros H. apply zsum_ext. intros u Hu. rewrite (H u Hu). reflexivity.
Qed.

Lemma shadow_snoc : forall bt l ps p, ZSky (v_y (bn_box bt)) (v_z (bn_box bt)) l ps -> ZFits (v_y (bn_box bt)) (v_z (bn_box bt)) l p ->
  bshadow i bt ps + bp_size i p AX * bp_size i p AY * bp_size i p AZ <= bshadow i bt (ps ++ [p]).
Proof.
  intros bt l ps p K F. pose proof (ft_size _ _ _ _ F AX) as SX. pose proof (ft_size _ _ _ _ F AY) as SY. pose proof (ft_size _ _ _ _ F AZ) as SZ. destruct (ft_y _ _ _ _ F) as [Y1 Y2]. destruct (ft_z _ _ _ _ F) as [Z1 Z2]. pose proof (ft_x _ _ _ _ F) as X1.
  assert (EX : bp_end i p AX = v_x (bp_pos p) + bp_size i p AX) by reflexivity. assert (EY : bp_end i p AY = v_y (bp_pos p) + bp_size i p AY) by reflexivity. assert (EZ : bp_end i p AZ = v_z (bp_pos p) + bp_size i p AZ) by reflexivity.
  set (u := mkZP (bp_size i p AX) 0 (v_y (bp_pos p)) (bp_end i p AY) (v_z (bp_pos p)) (bp_end i p AZ)).
  assert (E : bp_size i p AX * bp_size i p AY * bp_size i p AZ = zsum (fun y => zsum (fun z => b2z (covers u y z) * bp_size i p AX) (zrows 0 (v_z (bn_box bt)))) (zrows 0 (v_y (bn_box bt)))).
  { rewrite piece_cells by (cbn; lia). cbn. rewrite EY, EZ. lia. }
  rewrite E. unfold bshadow. rewrite <- zsum_plus. apply zsum_le. intros y Hy. rewrite <- zsum_plus. apply zsum_le. intros z Hz.
  change (covers u y z) with (over i p y z). rewrite cell_end_snoc. destruct (over i p y z) eqn:O; cbn [b2z]; [|lia]. pose proof (fits_cell _ _ _ _ _ y z K F O). lia.
Qed.

Lemma bshadow_nil : forall bt, bshadow i bt [] = 0.
Proof.
  intros bt. unfold bshadow. rewrite (zsum_ext _ _ (fun _ => 0 * 0)) by (intros y _; rewrite (zsum_ext _ _ (fun _ => 0 * 0)) by reflexivity; rewrite zsum_mult; reflexivity). rewrite zsum_mult. reflexivity.
Qed.

Lemma cell_end_le : forall ps y z, cell_end i ps y z <= extent i AX ps.
Proof. intros ps y z. unfold cell_end, extent. induction ps as [|p ps IH]; cbn [map fold_right]; [lia|]. assert (0 <= fold_right Z.max 0 (map (fun q => bp_end i q AX) ps)) by (clear; induction ps; cbn [map fold_right]; lia). destruct (over i p y z); lia. Qed.

Lemma bshadow_le : forall bt ps, 0 <= v_y (bn_box bt) -> 0 <= v_z (bn_box bt) -> bshadow i bt ps <= extent i AX ps * v_y (bn_box bt) * v_z (bn_box bt).
Proof.
  intros bt ps Hy Hz. unfold bshadow. etransitivity.
  - apply zsum_le. intros y _. apply zsum_le. intros z _. apply cell_end_le.
  - rewrite (zsum_ext _ _ (fun _ => extent i AX ps * v_z (bn_box bt))) by (intros y _; rewrite zrows_sum_const by lia; lia). rewrite zrows_sum_const by lia. nia.
Qed.

(** Highest piece. *)
Lemma xe_max_spec : forall l m0, let m := fold_left (fun m u => if m <? zp_x u then zp_x u else m) l m0 in m0 <= m /\ (forall u, In u l -> zp_x u <= m) /\ (m = m0 \/ exists u, In u l /\ m = zp_x u).
Proof.
  induction l as [|v l IH]; intros m0; cbn [fold_left]; cbv zeta; [split; [lia|]; split; [intros u []|left; reflexivity]|].
  specialize (IH (if m0 <? zp_x v then zp_x v else m0)). cbv zeta in IH. destruct IH as (A & B & C). set (m := fold_left _ l _) in *. destruct (Z.ltb_spec m0 (zp_x v)).
  - split; [lia|]. split; [intros u [<-|Hu]; [exact A|apply B, Hu]|]. right. destruct C as [C|(u & Hu & C)]; [exists v; split; [left; reflexivity|exact C]|exists u; split; [right; exact Hu|exact C]].
  - split; [exact A|]. split; [intros u [<-|Hu]; [lia|apply B, Hu]|]. destruct C as [C|(u & Hu & C)]; [left; exact C|right; exists u; split; [right; exact Hu|exact C]].
Qed.

Lemma sky_xe_max : forall yi zi l ps, ZSky yi zi l ps -> (forall p, In p ps -> (forall a, 0 < bp_size i p a) /\ 0 <= v_y (bp_pos p) /\ bp_end i p AY <= yi /\ 0 <= v_z (bp_pos p) /\ bp_end i p AZ <= zi) ->
  zpieces_xe_max l = extent i AX ps.
Proof.
  intros yi zi l ps K H. unfold zpieces_xe_max. destruct (xe_max_spec l 0) as (A & B & C). set (m := fold_left _ l 0) in *. apply Z.le_antisymm.
  - destruct C as [C|(u & Hu & C)].
    + rewrite C. unfold extent. clear. induction ps; cbn [map fold_right]; lia.
    + destruct (sk_range _ _ _ _ K u Hu) as (R1 & _ & R2 & _). rewrite C, (sk_height _ _ _ _ K u (zp_ys u) (zp_zs u) Hu) by (apply covers_iff; lia). apply cell_end_le.
  - assert (G : forall qs, (forall q, In q qs -> bp_end i q AX <= m) -> extent i AX qs <= m). { unfold extent. induction qs as [|q qs IH]; intros Hq; cbn [map fold_right]; [exact A|]. specialize (IH (fun x Hx => Hq x (or_intror Hx))). specialize (Hq q (or_introl eq_refl)). lia. }
    apply G. intros q Hq. destruct (H q Hq) as (S & Y1 & Y2 & Z1 & Z2). pose proof (S AY). pose proof (S AZ). assert (EY : bp_end i q AY = v_y (bp_pos q) + bp_size i q AY) by reflexivity. assert (EZ : bp_end i q AZ = v_z (bp_pos q) + bp_size i q AZ) by reflexivity.
    destruct (sky_at yi zi l ps (v_y (bp_pos q)) (v_z (bp_pos q)) K) as (u & Hu & Cu); [lia|lia|].
    transitivity (zp_x u); [|apply B, Hu]. rewrite (sk_height _ _ _ _ K u _ _ Hu Cu). apply (cell_end_ge ps q); [exact Hq|]. apply over_iff. lia.
Qed.
End Sky.
