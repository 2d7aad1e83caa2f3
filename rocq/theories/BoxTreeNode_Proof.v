(** * Nodes of the box branching scheme *)

From Coq Require Import List ZArith QArith Bool Lia Lqa Arith Permutation.
From Verif Require Import Util Common_Model Common_Spec Common_Proof OneDim_Model OneDim_Spec OneDim_Proof OneDimBuilder_Spec Tree1D_Model Tree1D_Spec Tree1D_Proof Tree1DNode_Proof Tree1DBound_Proof
  Box_Model Box_Spec BoxSol_Model BoxSol_Spec BoxSol_Proof BoxBuilder_Model BoxBuilder_Spec BoxFlip_Model BoxFlip_Spec BoxFlip_Proof
  BoxDff_Proof
  BoxTree_Model BoxTree_Spec BoxSky_Proof BoxTreeRes_Proof BoxTree_Proof.
Import ListNotations.
Open Scope Z_scope.

(** What a node says of its last bin, of type [t], in the axes of [inst]. *)
Record ZBinState (inst : BInstance) (t : nat) (n : ZNode) (ps : list BPlace) : Prop := {
  zb_ne : ps <> [];
  zb_geometry : bgeometry_ok inst (bxbin inst t) ps;
  zb_sky : ZSky inst (v_y (bn_box (bxbin inst t))) (v_z (bn_box (bxbin inst t))) (zn_pieces n) ps;
  zb_weight : (zn_weight n == bweight inst ps)%Q;
  zb_weight_ok : within_tol (bweight inst ps) (bn_max_weight (bxbin inst t));
  zb_res : ZResState inst t (zn_resources n) (zn_last_copies n) ps;
  zb_hard : forall r, In r (bn_resources (bxbin inst t)) -> res_penalize r = false -> (bconsumption inst r ps <= res_capacity r * PSTOL)%Q;
  zb_xe : zn_xe_max n = extent inst AX ps;
  zb_fill : bitems_volume inst ps <= bshadow inst (bxbin inst t) ps
}.

Lemma within_tol_comp : forall a b m, (a == b)%Q -> within_tol a m -> within_tol b m.
Proof. intros a b [m|] E H; cbn in *; [|exact I]. lra. Qed.

Lemma bweight_snoc : forall inst ps p, (bweight inst (ps ++ [p]) == bweight inst ps + bi_weight (bxitem inst (bp_type p)))%Q.
Proof. intros inst ps p. unfold bweight. rewrite qsum_snoc. reflexivity. Qed.

Lemma fop_snoc : forall (A : Type) (R : A -> A -> Prop) l a, ForallOrdPairs R l -> (forall b, In b l -> R b a) -> ForallOrdPairs R (l ++ [a]).
Proof.
  intros A R l a H. induction H as [|b l Hb Hl IH]; intros Ha; cbn [app]; [constructor; constructor|]. constructor.
  - apply Forall_app. split; [exact Hb|]. constructor; [apply Ha; left; reflexivity|constructor].
  - apply IH. intros c Hc. apply Ha. right. exact Hc.
Qed.

Section Step.
Variable s : ZScheme.
Hypothesis Hd : ztree_domain s.

(** The fields of a child. *)
Record ZChild (n : ZNode) (x : nat) (p : BPlace) (k : nat) (dir : Axis) (ps : list BPlace) (n' : ZNode) : Prop := {
  ch_path : zn_path n' = zn_path n ++ [(S k, dir, p)];
  ch_dir : zn_dir n' = dir;
  ch_copies : zn_copies n' = upd x (fun c => c + 1) (zn_copies n);
  ch_bins : zn_bins n' = S k;
  ch_items : zn_items n' = zn_items n + 1;
  ch_volume : zn_volume n' = zn_volume n + bi_vol (bxitem (zinst s dir) x);
  ch_profit : let t := nth k (zts_bins (zs_i s)) 0%nat in
    (zn_profit n' == zn_profit n + bi_profit (bxitem (zinst s dir) x) - (zpen (zinst s dir) t (ps ++ [p]) - zpen (zinst s dir) t ps))%Q;
  ch_current : zn_current n' = zts_previous (zs_i s) k + zpieces_volume (zn_pieces n');
  ch_waste : zn_waste n' = zn_current n' - zn_volume n'
}.

Lemma zchild_step : forall n x rot new ins ps, ZInsCase s n x rot new ins ->
  let k := zins_pos n new in let dir := zins_dir n new in let t := nth k (zts_bins (zs_i s)) 0%nat in let inst := zinst s dir in let p := mkBP x (zi_pos ins) rot in
  (k < length (zts_bins (zs_i s)))%nat ->
  match new with Some _ => ps = [] | None => ZBinState inst t n ps end ->
  exists n', zchild s n ins = Some n' /\ ZBinState inst t n' (ps ++ [p]) /\ ZChild n x p k dir ps n'
    /\ bshadow inst (bxbin inst t) ps + bi_vol (bxitem (zs_i s) x) <= bshadow inst (bxbin inst t) (ps ++ [p]).
Proof.
  intros n x rot new ins ps IC k dir t inst p Hk Hps. pose proof (zts_bins_nth (zs_i s) k Hk) as Ht. fold t in Ht.
  pose proof (zic_item _ _ _ _ _ _ IC) as Hx0. fold dir inst in Hx0. pose proof Hx0 as Hx. unfold inst in Hx. rewrite (proj1 (zdom_lengths s Hd dir)) in Hx.
  pose proof (zic_facts _ _ _ _ _ _ IC) as F. cbv zeta in F. fold dir k in F. fold inst t p in F. destruct F as (F1 & (py & pz & Hpy & Hpz & F2 & F3) & F4 & F5 & F6 & F7).
  destruct (zdom_bin s Hd dir t Ht) as (Bp & _). fold inst in Bp. pose proof (Bp AY) as By. pose proof (Bp AZ) as Bz. cbn [vat] in By, Bz.
  assert (Ht' : (t < length (bx_bins inst))%nat) by (unfold inst; rewrite (proj2 (zdom_lengths s Hd dir)); exact Ht).
  set (l0 := match new with Some _ => [zfree (bxbin inst t)] | None => zn_pieces n end).
  assert (K : ZSky inst (v_y (bn_box (bxbin inst t))) (v_z (bn_box (bxbin inst t))) l0 ps).
  { unfold l0. destruct new as [pd|]; [subst ps; apply sky_free; assumption|apply (zb_sky _ _ _ _ Hps)]. }
  assert (Hsz : forall a, 0 < bp_size inst p a) by (apply (zdom_sizes s Hd dir p); exact Hx).
  destruct (zleft_spec n new (v_y (zi_pos ins)) (bp_end inst p AY) (v_z (zi_pos ins)) (bp_end inst p AZ)) as [L1 L2]. rewrite <- F4 in L1, L2.
  assert (PY : 0 <= v_y (zi_pos ins)).
  { rewrite F2. destruct py as [j|]; [|lia]. destruct new as [pd|]; [destruct Hpy as [Hpy|[]]; discriminate|]. unfold zpositions in Hpy. destruct Hpy as [Hpy|Hpy]; [discriminate|]. apply in_map_iff in Hpy. destruct Hpy as (j' & Ej & Hj). injection Ej as ->. apply in_seq in Hj.
    destruct (sk_range _ _ _ _ _ K (nth j (zn_pieces n) dummy_zpiece)) as (A & _); [unfold l0; apply nth_In; lia|]. lia. }
  assert (PZ : 0 <= v_z (zi_pos ins)).
  { rewrite F3. destruct pz as [j|]; [|lia]. destruct new as [pd|]; [destruct Hpz as [Hpz|[]]; discriminate|]. unfold zpositions in Hpz. destruct Hpz as [Hpz|Hpz]; [discriminate|]. apply in_map_iff in Hpz. destruct Hpz as (j' & Ej & Hj). injection Ej as ->. apply in_seq in Hj.
    destruct (sk_range _ _ _ _ _ K (nth j (zn_pieces n) dummy_zpiece)) as (_ & _ & A & _); [unfold l0; apply nth_In; lia|]. lia. }
  assert (FI : ZFits inst (v_y (bn_box (bxbin inst t))) (v_z (bn_box (bxbin inst t))) l0 p).
  { constructor; cbn [bp_pos p].
    - exact L1.
    - split; [exact PY|exact (F5 AY)].
    - split; [exact PZ|exact (F5 AZ)].
    - exact Hsz.
    - intros u Hu H1 H2 H3 H4. unfold l0 in Hu. destruct new as [pd|]; [destruct Hu as [<-|[]]; cbn; exact L1|]. apply (L2 eq_refl u Hu H1 H2 H3 H4). }
  pose proof (sky_insert inst _ _ _ _ _ K FI) as K'.
  pose proof (shadow_snoc inst _ _ _ _ K FI) as SH.
  (* the child *)
  assert (EY : v_y (zi_pos ins) + v_y (rotate (bi_box (bxitem inst x)) rot) = bp_end inst p AY) by (unfold bp_end; rewrite bp_size_rotate; reflexivity).
  assert (EZ : v_z (zi_pos ins) + v_z (rotate (bi_box (bxitem inst x)) rot) = bp_end inst p AZ) by (unfold bp_end; rewrite bp_size_rotate; reflexivity).
  assert (EX : v_x (zi_pos ins) + v_x (rotate (bi_box (bxitem inst x)) rot) = bp_end inst p AX) by (unfold bp_end; rewrite bp_size_rotate; reflexivity).
  assert (EV : vol (rotate (bi_box (bxitem inst x)) rot) = bi_vol (bxitem inst x)) by (unfold vol, bi_vol; destruct rot; cbn [rotate v_x v_y v_z]; lia).
  assert (EB : match new with Some (q, _) => S q | None => zn_bins n end = S k).
  { pose proof (zic_new _ _ _ _ _ _ IC) as C. unfold k. destruct new as [[q e]|]; cbn [zins_pos]; [reflexivity|lia]. }
  pose proof (zchild_resources_spec inst (zder s dir) (proj1 (proj2 (zdom_flip s Hd dir))) (zdom_sane s Hd dir) n new t ps p (zn_profit n + bi_profit (bxitem inst x))%Q Ht' Hx0) as R.
  assert (HR : match new with Some _ => ps = [] | None => ZResState inst t (zn_resources n) (zn_last_copies n) ps end) by (destruct new as [pd|]; [exact Hps|apply (zb_res _ _ _ _ Hps)]). specialize (R HR). cbn [bp_type p] in R.
  unfold zchild. cbv zeta. rewrite F1. cbn [zi_type zi_rot zi_new zi_pos]. rewrite EB. fold dir. fold inst. replace (S k - 1)%nat with k by lia. fold t. rewrite EY, EZ, EX, EV.
  destruct (Z.ltb_spec (v_z (bn_box (bxbin inst t))) (bp_end inst p AZ)) as [Hbad|_]; [specialize (F5 AZ); cbn [vat] in F5; lia|].
  fold l0. change (flat_map (zclip (v_y (zi_pos ins)) (bp_end inst p AY) (v_z (zi_pos ins)) (bp_end inst p AZ)) l0 ++ [mkZP (bp_end inst p AX) (bp_end inst p AX) (v_y (zi_pos ins)) (bp_end inst p AY) (v_z (zi_pos ins)) (bp_end inst p AZ)]) with (cover_with inst p l0).
  set (piece := mkZP (bp_end inst p AX) (bp_end inst p AX) (v_y (zi_pos ins)) (bp_end inst p AY) (v_z (zi_pos ins)) (bp_end inst p AZ)).
  set (l := zraise_all (zder s dir) (v_y (bn_box (bxbin inst t))) (v_z (bn_box (bxbin inst t))) piece (cover_with inst p l0)).
  destruct (zchild_resources n new inst t x (zn_profit n + bi_profit (bxitem inst x))%Q) as [[res lc] prof]. destruct R as [R1 R2].
  assert (KL : ZSky inst (v_y (bn_box (bxbin inst t))) (v_z (bn_box (bxbin inst t))) l (ps ++ [p])) by (apply sky_raise_all; exact K').
  assert (Gps : bgeometry_ok inst (bxbin inst t) ps) by (destruct new as [pd|]; [subst ps; constructor; [intros q []|constructor]|apply (zb_geometry _ _ _ _ Hps)]).
  assert (Tps : forall q, In q ps -> (bp_type q < length (bx_items (zs_i s)))%nat) by (intros q Hq; rewrite <- (proj1 (zdom_lengths s Hd dir)); apply (bk_type _ _ _ (bg_places _ _ _ Gps q Hq))).
  assert (G' : bgeometry_ok inst (bxbin inst t) (ps ++ [p])).
  { constructor.
    - intros q Hq. apply in_snoc in Hq. destruct Hq as [Hq| ->]; [apply (bg_places _ _ _ Gps q Hq)|]. constructor; [exact Hx0| |exact (zic_rot _ _ _ _ _ _ IC)]. intros a. split; [|apply F5]. destruct a; cbn [vat bp_pos p]; assumption.
    - apply fop_snoc; [apply (bg_disjoint _ _ _ Gps)|]. intros q Hq. apply (sky_disjoint inst _ _ _ _ p q K FI Hq). apply (zdom_sizes s Hd dir q), Tps, Hq. }
  assert (Wps : (match new with Some _ => bi_weight (bxitem inst x) | None => zn_weight n + bi_weight (bxitem inst x) end == bweight inst (ps ++ [p]))%Q).
  { rewrite bweight_snoc. cbn [bp_type p]. destruct new as [pd|]; [subst ps; change (bweight inst []) with 0%Q; lra|]. pose proof (zb_weight _ _ _ _ Hps). lra. }
  eexists. split; [reflexivity|]. split; [|split].
  - constructor; cbn [zn_pieces zn_weight zn_resources zn_last_copies zn_xe_max].
    + destruct ps; discriminate.
    + exact G'.
    + exact KL.
    + exact Wps.
    + apply (within_tol_comp _ _ _ Wps F6).
    + exact R1.
    + assert (Hps0 : forall r, In r (bn_resources (bxbin inst t)) -> res_penalize r = false -> (bconsumption inst r ps <= res_capacity r * PSTOL)%Q).
      { destruct new as [pd|]; [subst ps; apply (zhard_nil inst (zdom_sane s Hd dir) t Ht')|apply (zb_hard _ _ _ _ Hps)]. }
      intros r Hr Hpen. apply (zhard_step inst (zder s dir) (proj1 (proj2 (zdom_flip s Hd dir))) n new t ps p Ht' Hx0 HR Hps0); [|exact Hr|exact Hpen].
      intros r' Hr' Hp'. apply F7; [|exact Hr'|exact Hp']. destruct (bn_resources (bxbin inst t)); [destruct Hr|discriminate].
    + apply (sky_xe_max inst _ _ _ _ KL). intros q Hq. split; [apply (zdom_sizes s Hd dir q); apply in_snoc in Hq; destruct Hq as [Hq| ->]; [apply Tps, Hq|exact Hx]|]. pose proof (bk_inside _ _ _ (bg_places _ _ _ G' q Hq)) as B. pose proof (B AY) as B1. pose proof (B AZ) as B2. cbn [vat] in B1, B2. tauto.
    + unfold bitems_volume. rewrite zsum_snoc. fold (bitems_volume inst ps). assert (V0 : bitems_volume inst ps <= bshadow inst (bxbin inst t) ps) by (destruct new as [pd|]; [subst ps; rewrite bshadow_nil; cbn; lia|apply (zb_fill _ _ _ _ Hps)]).
      pose proof (zdom_volume s Hd dir p Hx) as VP. fold inst in VP. rewrite VP in SH. cbn [bp_type p] in SH |- *. destruct (zdom_item s Hd dir x Hx) as (E & _). fold inst in E. unfold bi_vol in *. rewrite E. lia.
  - constructor; cbn [zn_path zn_dir zn_copies zn_bins zn_items zn_volume zn_profit zn_current zn_waste zn_pieces]; try reflexivity. cbv zeta. fold t inst. exact R2.
  - change (bi_vol (bxitem (zs_i s) x)) with (bi_vol (bxitem (zs_i s) (bp_type p))). rewrite <- (zdom_volume s Hd dir p Hx). exact SH.
Qed.

(** ** The invariant *)

Record ZNodeInv (n : ZNode) (ds : list XDesc) : Prop := {
  ni_ds : xdesc_run [] (zpath_calls s 0 (zn_path n)) = ds;
  ni_bins_of : zbins_of 0 (zn_path n) = zn_bins n;
  ni_len : length ds = zn_bins n;
  ni_le : (zn_bins n <= length (zts_bins (zs_i s)))%nat;
  ni_types : map xd_type ds = firstn (zn_bins n) (zts_bins (zs_i s));
  ni_one : forall d, In d ds -> xd_copies d = 1;
  ni_ok : forall d, In d ds -> zbin_ok (zs_i s) d;
  ni_hard : zsees_resources s -> forall d, In d ds -> zcapacities_ok (zs_i s) d;
  ni_fill : forall d, In d ds -> bitems_volume (zs_i s) (xd_items d) <= bn_vol (bxbin (zs_i s) (xd_type d));
  ni_last : (zn_bins n = 0%nat /\ ds = [] /\ n = zroot s) \/
    exists pre ps, let t := nth (zn_bins n - 1) (zts_bins (zs_i s)) 0%nat in
      zn_bins n <> 0%nat /\ ds = pre ++ [mkXD t 1 (map (bswap_place (zn_dir n)) ps)] /\ ZBinState (zinst s (zn_dir n)) t n ps
      /\ zn_current n = zts_previous (zs_i s) (zn_bins n - 1) + zpieces_volume (zn_pieces n);
  ni_copies_len : length (zn_copies n) = length (bx_items (zs_i s));
  ni_copies : forall x, (x < length (bx_items (zs_i s)))%nat -> nth x (zn_copies n) 0 = bpacked x ds /\ bpacked x ds <= bi_copies (bxitem (zs_i s) x);
  ni_items : zn_items n = zsum (fun d => Z.of_nat (length (xd_items d))) ds;
  ni_depth : zn_items n = Z.of_nat (length (zn_path n));
  ni_volume : zn_volume n = zsum (fun d => bitems_volume (zs_i s) (xd_items d)) ds;
  ni_profit : zsees_resources s -> (zn_profit n == qsum (fun d => qsum (fun p => bi_profit (bxitem (zs_i s) (bp_type p))) (xd_items d) - bpenalties (zs_i s) d) ds)%Q;
  ni_waste : zn_waste n = zn_current n - zn_volume n;
  ni_calls : forall e, In e (zn_path n) -> (1 <= fst (fst e) <= length (zts_bins (zs_i s)))%nat /\ (bp_type (snd e) < length (bx_items (zs_i s)))%nat
    /\ In (exchange_rot (snd (fst e)) (bp_rot (snd e))) (bi_rotations (bxitem (zs_i s) (bp_type (snd e))));
  ni_dir : forall a, zs_direction s = Some a -> zn_bins n <> 0%nat -> zn_dir n = a
}.

Lemma zroot_inv : ZNodeInv (zroot s) [].
Proof.
  constructor; try reflexivity; try (intros; contradiction); cbn [zroot zn_bins zn_copies zn_path zn_items].
  - lia.
  - left. auto.
  - apply repeat_length.
  - intros x Hx. rewrite nth_repeat. split; [reflexivity|]. change (bpacked x []) with 0. destruct (bf_items _ (zd_flippable s Hd) (bxitem (zs_i s) x)) as (_ & P & _); [apply nth_In; exact Hx|lia].
Qed.

Lemma zbin_vol_nonneg : forall t, (t < length (bx_bins (zs_i s)))%nat -> 0 <= bn_vol (bxbin (zs_i s) t).
Proof. intros t Ht. destruct (zdom_bin s Hd AX t Ht) as (A & _). pose proof (A AX). pose proof (A AY). pose proof (A AZ). cbn [zinst vat] in *. unfold bn_vol. nia. Qed.

Lemma bpacked_snoc : forall x ds d, bpacked x (ds ++ [d]) = bpacked x ds + xd_copies d * bcount x (xd_items d).
Proof. intros x ds d. unfold bpacked. rewrite zsum_snoc. reflexivity. Qed.

Lemma ninv_types : forall n ds, ZNodeInv n ds -> forall d, In d ds -> forall p, In p (xd_items d) -> (bp_type p < length (bx_items (zs_i s)))%nat.
Proof. intros n ds NI d Hdd p Hp. apply (bk_type _ _ _ (bg_places _ _ _ (zk_geometry _ _ (ni_ok n ds NI d Hdd)) p Hp)). Qed.

Lemma ninv_sum : forall n ds (c : nat -> Z), ZNodeInv n ds -> zsum (fun x => bpacked x ds * c x) (seq 0 (length (bx_items (zs_i s)))) = zsum (fun d => zsum (fun p => c (bp_type p)) (xd_items d)) ds.
Proof. intros n ds c NI. rewrite (xpacked_sum _ _ c (ninv_types n ds NI)). apply zsum_ext. intros d Hdd. rewrite (ni_one n ds NI d Hdd). lia. Qed.

Lemma zsum_bitems : forall (f : BItem -> Z), zsum f (bx_items (zs_i s)) = zsum (fun x => f (bxitem (zs_i s) x)) (seq 0 (length (bx_items (zs_i s)))).
Proof. intros f. rewrite <- (List.map_id (bx_items (zs_i s))) at 1. rewrite <- (list_nth_map _ _ (fun a => a) (bx_items (zs_i s)) dummy_bitem). rewrite zsum_map. reflexivity. Qed.

Lemma sum_le_each : forall (f g : nat -> Z) l, (forall x, In x l -> f x <= g x) -> zsum f l = zsum g l -> forall x, In x l -> f x = g x.
Proof.
  intros f g. induction l as [|a l IH]; intros Hl He x []; rewrite !zsum_cons in He; pose proof (Hl a (or_introl eq_refl)); assert (zsum f l <= zsum g l) by (apply zsum_le; intros y Hy; apply Hl; right; exact Hy).
  - subst a. lia.
  - apply IH; [intros y Hy; apply Hl; right; exact Hy|lia|assumption].
Qed.

Lemma ninv_items_le : forall n ds, ZNodeInv n ds -> zn_items n <= db_number_of_items (zs_d s) /\ (zn_items n = db_number_of_items (zs_d s) <-> ball_packed (zs_i s) ds).
Proof.
  intros n ds NI. rewrite (wc_number_of_items _ _ (zd_consistent s Hd)), zsum_bitems, (ni_items n ds NI).
  assert (E : zsum (fun d => Z.of_nat (length (xd_items d))) ds = zsum (fun x => bpacked x ds) (seq 0 (length (bx_items (zs_i s))))).
  { rewrite <- (zsum_ext _ (fun x => bpacked x ds * 1)) by (intros; lia). rewrite (ninv_sum n ds (fun _ => 1) NI). apply zsum_ext. intros d _. generalize (xd_items d). clear. induction l as [|a l IH]; [reflexivity|]. rewrite zsum_cons, <- IH. cbn [length]. lia. }
  rewrite E. assert (L : forall x, In x (seq 0 (length (bx_items (zs_i s)))) -> bpacked x ds <= bi_copies (bxitem (zs_i s) x)) by (intros x Hx; apply in_seq in Hx; apply (ni_copies n ds NI); lia).
  split; [apply zsum_le, L|]. unfold ball_packed. split.
  - intros H x Hx. apply (sum_le_each _ _ _ L H). apply in_seq. lia.
  - intros H. apply zsum_ext. intros x Hx. apply in_seq in Hx. apply H. lia.
Qed.

Lemma ninv_volume_le : forall n ds, ZNodeInv n ds -> zn_volume n <= db_item_volume (zs_d s) /\ (zn_items n = db_number_of_items (zs_d s) -> zn_volume n = db_item_volume (zs_d s)).
Proof.
  intros n ds NI. rewrite (ni_volume n ds NI), (wc_item_volume _ _ (zd_consistent s Hd)), zsum_bitems. unfold bitems_volume. rewrite <- (ninv_sum n ds (fun x => bi_vol (bxitem (zs_i s) x)) NI). split.
  - apply zsum_le. intros x Hx. apply in_seq in Hx. destruct (ni_copies n ds NI x ltac:(lia)) as [_ C]. destruct (zdom_item s Hd AX x ltac:(lia)) as (_ & _ & _ & _ & _ & P & _). pose proof (P AX). pose proof (P AY). pose proof (P AZ). cbn [zinst vat] in *.
    apply Z.mul_le_mono_nonneg_r; [unfold bi_vol; nia|exact C].
  - intros H. apply (ninv_items_le n ds NI) in H. apply zsum_ext. intros x Hx. apply in_seq in Hx. rewrite H by lia. reflexivity.
Qed.

(** Volume up to the skyline, without the raises. *)
Definition zreal (n : ZNode) : Z := if (zn_bins n =? 0)%nat then 0 else zts_previous (zs_i s) (zn_bins n - 1) + pieces_x_volume (zn_pieces n).

Lemma bitems_volume_snoc : forall i ps p, bitems_volume i (ps ++ [p]) = bitems_volume i ps + bi_vol (bxitem i (bp_type p)).
Proof. intros i ps p. unfold bitems_volume. apply zsum_snoc. Qed.

Lemma bitems_volume_swap : forall i dir ps, bitems_volume i (map (bswap_place dir) ps) = bitems_volume i ps.
Proof. intros i dir ps. unfold bitems_volume. rewrite zsum_map. reflexivity. Qed.

(** In a bin, the items fit below the skyline and the skyline in the bin. *)
Lemma zbin_volumes : forall dir t n ps, (t < length (bx_bins (zs_i s)))%nat -> ZBinState (zinst s dir) t n ps ->
  bshadow (zinst s dir) (bxbin (zinst s dir) t) ps <= bn_vol (bxbin (zs_i s) t)
  /\ (bshadow (zinst s dir) (bxbin (zinst s dir) t) ps <= zn_xe_max n * v_y (bn_box (bxbin (zinst s dir) t)) * v_z (bn_box (bxbin (zinst s dir) t)))
  /\ 0 <= zn_xe_max n <= v_x (bn_box (bxbin (zinst s dir) t)).
Proof.
  intros dir t n ps Ht BS. destruct (zdom_bin s Hd dir t Ht) as (B & _ & EV & _). pose proof (B AX) as Bx. pose proof (B AY) as By. pose proof (B AZ) as Bz. cbn [vat] in Bx, By, Bz.
  assert (X : 0 <= extent (zinst s dir) AX ps <= v_x (bn_box (bxbin (zinst s dir) t))).
  { split; [apply extent_nonneg|]. pose proof (bg_places _ _ _ (zb_geometry _ _ _ _ BS)) as P. revert P. generalize ps. clear - Bx. induction ps as [|p ps IH]; intros P; [cbn; lia|]. change (extent (zinst s dir) AX (p :: ps)) with (Z.max (bp_end (zinst s dir) p AX) (extent (zinst s dir) AX ps)).
    specialize (IH (fun q Hq => P q (or_intror Hq))). pose proof (proj2 (bk_inside _ _ _ (P p (or_introl eq_refl)) AX)) as Q. cbn [vat] in Q. lia. }
  rewrite (zb_xe _ _ _ _ BS). pose proof (bshadow_le (zinst s dir) (bxbin (zinst s dir) t) ps ltac:(lia) ltac:(lia)) as S. split; [|split; assumption].
  rewrite <- EV. unfold bn_vol. etransitivity; [exact S|]. apply Z.mul_le_mono_nonneg_r; [lia|]. apply Z.mul_le_mono_nonneg_r; lia.
Qed.

Lemma bitems_volume_dir : forall dir qs, (forall q, In q qs -> (bp_type q < length (bx_items (zs_i s)))%nat) -> bitems_volume (zinst s dir) qs = bitems_volume (zs_i s) qs.
Proof. intros dir qs H. unfold bitems_volume. apply zsum_ext. intros q Hq. destruct (zdom_item s Hd dir _ (H q Hq)) as (E & _). unfold bi_vol. rewrite E. reflexivity. Qed.

(** What never decreases from a node to a child. *)
Record ZStep (n n' : ZNode) : Prop := {
  zt_items : zn_items n' = zn_items n + 1;
  zt_bins : (zn_bins n <= zn_bins n')%nat;
  zt_same : zn_bins n' = zn_bins n -> zn_dir n' = zn_dir n /\ zn_xe_max n <= zn_xe_max n';
  zt_real : zreal n - zn_volume n <= zreal n' - zn_volume n'
}.

Lemma zreal_spec : forall n ds, ZNodeInv n ds -> zreal n <= zn_current n /\ 0 <= zreal n <= zts_previous (zs_i s) (zn_bins n) /\ (znot_raised n -> zn_current n = zreal n)
  /\ (zn_bins n <> 0%nat -> zreal n <= zts_previous (zs_i s) (zn_bins n - 1) + zn_xe_max n * v_y (bn_box (bxbin (zinst s (zn_dir n)) (nth (zn_bins n - 1) (zts_bins (zs_i s)) 0%nat))) * v_z (bn_box (bxbin (zinst s (zn_dir n)) (nth (zn_bins n - 1) (zts_bins (zs_i s)) 0%nat))) /\ 0 <= zn_xe_max n).
Proof.
  intros n ds NI. unfold zreal. destruct (ni_last n ds NI) as [(E0 & _ & ->)|(pre & ps & Hb & Eds & BS & Cur)].
  - cbn. split; [lia|]. split; [unfold zts_previous; cbn; lia|]. split; [reflexivity|]. intros H. contradiction.
  - destruct (Nat.eqb_spec (zn_bins n) 0) as [|_]; [contradiction|]. set (k := (zn_bins n - 1)%nat) in *. set (t := nth k (zts_bins (zs_i s)) 0%nat) in *. pose proof (ni_le n ds NI) as Hle. assert (Hk : (k < length (zts_bins (zs_i s)))%nat) by (unfold k; lia).
    pose proof (zts_bins_nth (zs_i s) k Hk) as Ht. fold t in Ht. destruct (zbin_volumes (zn_dir n) t n ps Ht BS) as (V1 & V2 & V3). pose proof (zb_sky _ _ _ _ BS) as K. rewrite (sky_shadow _ _ _ _ K). destruct (sky_volume _ _ _ _ K) as [V4 V5].
    assert (P0 : 0 <= zts_previous (zs_i s) k) by (apply (zts_previous_mono (zs_i s) 0 k); [apply zbin_vol_nonneg|lia|lia]).
    assert (S0 : 0 <= bshadow (zinst s (zn_dir n)) (bxbin (zinst s (zn_dir n)) t) ps) by (unfold bshadow; apply zsum_nonneg; intros y _; apply zsum_nonneg; intros z _; apply cell_end_nonneg).
    split; [lia|]. split.
    + split; [lia|]. assert (E : zts_previous (zs_i s) (zn_bins n) = zts_previous (zs_i s) k + bn_vol (bxbin (zs_i s) t)) by (replace (zn_bins n) with (S k) by (unfold k; lia); apply zts_previous_S; exact Hk). lia.
    + split; [intros R; rewrite Cur, (V5 R); reflexivity|]. intros _. split; [lia|]. lia.
Qed.

Lemma znode_step : forall n ds ins, ZNodeInv n ds -> In ins (zinsertions s n) -> exists n' ds', zchild s n ins = Some n' /\ ZNodeInv n' ds' /\ ZStep n n'.
Proof.
  intros n ds ins NI Hin. pose proof NI as NI0. destruct (zinsertion_cases s n ins Hin) as (x & rot & new & IC). destruct NI as [N1 N2 N3 N4 N5 N6 N7 N8 N9 N10 N11 N12 N13 N14 N15 N16 N17 N18 N19].
  pose proof (zic_new _ _ _ _ _ _ IC) as C1. rewrite <- (zts_bins_length _ _ (zd_consistent s Hd)) in C1.
  assert (Hpos : (zins_pos n new < length (zts_bins (zs_i s)))%nat) by (destruct new as [[q d]|]; cbn [zins_pos]; lia).
  pose proof (zts_bins_nth (zs_i s) _ Hpos) as Ht.
  assert (P : exists pre ps, match new with Some _ => ps = [] | None => ZBinState (zinst s (zins_dir n new)) (nth (zins_pos n new) (zts_bins (zs_i s)) 0%nat) n ps end
    /\ match new with Some (q, _) => pre = ds ++ zempty_bins (zs_i s) (zn_bins n) (q - zn_bins n) | None => ds = pre ++ [mkXD (nth (zins_pos n new) (zts_bins (zs_i s)) 0%nat) 1 (map (bswap_place (zins_dir n new)) ps)] end).
  { destruct new as [[q d]|]; [eexists _, []; split; reflexivity|]. destruct N10 as [[E _]|(pre & ps & _ & E & BS & _)]; [contradiction|]. exists pre, ps. split; [exact BS|exact E]. }
  destruct P as (pre & ps & Hps & Hpre). destruct (zchild_step n x rot new ins ps IC Hpos Hps) as (n' & E & BS & CS & SH).
  set (k := zins_pos n new) in *. set (dir := zins_dir n new) in *. set (t := nth k (zts_bins (zs_i s)) 0%nat) in *. set (inst := zinst s dir) in *. set (p := mkBP x (zi_pos ins) rot) in *.
  assert (Hx : (x < length (bx_items (zs_i s)))%nat) by (rewrite <- (proj1 (zdom_lengths s Hd dir)); exact (zic_item _ _ _ _ _ _ IC)).
  destruct (zdom_item s Hd dir x Hx) as (X1 & X2 & X3 & X4 & X5 & X6 & _). fold inst in X1, X2, X3, X4, X5, X6.
  assert (C3 : nth x (zn_copies n) 0 <> bi_copies (bxitem (zs_i s) x)) by (rewrite <- X3; exact (zic_copies _ _ _ _ _ _ IC)).
  assert (Hr' : forall q, In q (ps ++ [p]) -> (bp_type q < length (bx_items (zs_i s)))%nat) by (intros q Hq; rewrite <- (proj1 (zdom_lengths s Hd dir)); apply (bk_type _ _ _ (bg_places _ _ _ (zb_geometry _ _ _ _ BS) q Hq))).
  assert (Epre : map xd_type pre = firstn k (zts_bins (zs_i s)) /\ length pre = k).
  { destruct new as [[q d]|]; cbn [zins_pos] in k.
    - subst pre. rewrite map_app, app_length, zempty_length, N3, N5. unfold zempty_bins. rewrite map_map. cbn [xd_type]. split; [|unfold k; lia]. unfold k. replace q with (zn_bins n + (q - zn_bins n))%nat at 2 by lia. rewrite firstn_seq_nth by lia. reflexivity.
    - rewrite Hpre in N3, N5. rewrite app_length in N3. cbn [length] in N3. rewrite map_app in N5. cbn [map xd_type] in N5. assert (Eb : zn_bins n = S k) by (unfold k; lia). rewrite Eb in N5.
      assert (En : nth_error (zts_bins (zs_i s)) k = Some t) by (apply nth_error_nth'; exact Hpos). rewrite (firstn_succ_snoc _ _ _ _ En) in N5. apply app_inj_tail in N5. split; [apply N5|lia]. }
  destruct Epre as [Epre Elen].
  assert (Pin : forall d, In d pre -> In d ds \/ exists q, (q < length (zts_bins (zs_i s)))%nat /\ d = mkXD (nth q (zts_bins (zs_i s)) 0%nat) 1 []).
  { intros d Hdd. destruct new as [[q e]|].
    - subst pre. apply in_app_or in Hdd. destruct Hdd as [Hdd|Hdd]; [left; exact Hdd|]. right. apply zempty_in in Hdd. destruct Hdd as (q' & Hq' & ->). exists q'. split; [cbn [zins_pos] in *; lia|reflexivity].
    - left. rewrite Hpre. apply in_or_app. left. exact Hdd. }
  destruct CS as [S1 S2 S3 S4 S5 S6 S7 S8 S9]. fold t in S7. cbv zeta in S7. fold inst in S6, S7. fold t in S7.
  assert (Hpk : forall y, bpacked y ds = bpacked y pre + bcount y ps).
  { intros y. destruct new as [[q e]|].
    - subst pre ps. unfold bpacked. rewrite zsum_app, zempty_zsum by reflexivity. change (bcount y []) with 0. lia.
    - rewrite Hpre, bpacked_snoc. cbn [xd_copies xd_items]. rewrite bswap_count. lia. }
  assert (Bpos : (zn_bins n' - 1)%nat = k) by (rewrite S4; lia).
  assert (EVx : bi_vol (bxitem inst x) = bi_vol (bxitem (zs_i s) x)) by (unfold bi_vol; rewrite X1; reflexivity).
  assert (Pm : forall q, (q <= k)%nat -> zts_previous (zs_i s) q <= zts_previous (zs_i s) k) by (intros q Hq; apply zts_previous_mono; [apply zbin_vol_nonneg|exact Hq|lia]).
  assert (Real' : zreal n' = zts_previous (zs_i s) k + bshadow inst (bxbin inst t) (ps ++ [p])).
  { unfold zreal. rewrite S4. cbn [Nat.eqb]. replace (S k - 1)%nat with k by lia. rewrite (sky_shadow _ _ _ _ (zb_sky _ _ _ _ BS)). reflexivity. }
  assert (Hcap : zsees_resources s -> dir = AX \/ bn_resources (bxbin (zs_i s) t) = []).
  { intros [Hdir|Hno]; [left|right; apply Hno; apply nth_In; exact Ht]. unfold dir. destruct new as [[q e]|]; cbn [zins_dir]; [|apply N19; assumption]. destruct C1 as [_ ->]. unfold znew_direction. rewrite Hdir. reflexivity. }
  assert (ST : ZStep n n').
  { constructor.
    - exact S5.
    - rewrite S4. destruct new as [[q e]|]; cbn [zins_pos] in k; unfold k; lia.
    - intros Eb. destruct new as [[q e]|]; [exfalso; rewrite S4 in Eb; cbn [zins_pos] in k; unfold k in Eb; lia|]. split; [rewrite S2; reflexivity|].
      rewrite (zb_xe _ _ _ _ BS), (zb_xe _ _ _ _ Hps), extent_snoc. lia.
    - rewrite Real', S6, EVx. destruct (zreal_spec n ds NI0) as (_ & R2 & _ & _). destruct new as [[q e]|].
      + subst ps. cbn [app] in *. rewrite bshadow_nil in SH. pose proof (Pm (zn_bins n) ltac:(cbn [zins_pos] in k; unfold k; lia)). lia.
      + assert (Rn : zreal n = zts_previous (zs_i s) k + bshadow inst (bxbin inst t) ps). { unfold zreal. destruct (Nat.eqb_spec (zn_bins n) 0); [contradiction|]. rewrite (sky_shadow _ _ _ _ (zb_sky _ _ _ _ Hps)). reflexivity. } lia. }
  exists n', (pre ++ [mkXD t 1 (map (bswap_place dir) (ps ++ [p]))]). split; [exact E|]. split; [|exact ST].
  constructor.
  - rewrite S1, zpath_calls_snoc, N2, !xdesc_run_app, N1. rewrite xdesc_run_add. rewrite map_app. cbn [map]. rewrite zplace_swap.
    replace (Nat.max (zn_bins n) (S k) - 1)%nat with k by (destruct new as [[q e]|]; cbn [zins_pos] in k; unfold k; lia).
    destruct new as [[q e]|]; cbn [zins_pos] in k.
    + assert (Ee : zempty_bins (zs_i s) (zn_bins n) (S k - zn_bins n) = zempty_bins (zs_i s) (zn_bins n) (q - zn_bins n) ++ [mkXD t 1 []]).
      { unfold k. replace (S q - zn_bins n)%nat with (S (q - zn_bins n)) by lia. unfold zempty_bins. rewrite seq_S, map_app. cbn [map]. replace (zn_bins n + (q - zn_bins n))%nat with q by lia. reflexivity. }
      rewrite Ee, app_assoc, <- Hpre. replace k with (length (pre ++ [mkXD t 1 []]) - 1)%nat at 1 by (rewrite app_length; cbn [length]; lia). rewrite xdesc_run_item. subst ps. reflexivity.
    + replace (S k - zn_bins n)%nat with 0%nat by (unfold k; lia). unfold zempty_bins. cbn [seq map]. rewrite app_nil_r, Hpre. replace k with (length (pre ++ [mkXD t 1 (map (bswap_place dir) ps)]) - 1)%nat at 1 by (rewrite app_length; cbn [length]; lia). rewrite xdesc_run_item. reflexivity.
  - rewrite S1, zbins_of_snoc, N2, S4. cbn [fst]. destruct new as [[q e]|]; cbn [zins_pos] in k; unfold k; lia.
  - rewrite app_length, S4. cbn [length]. lia.
  - rewrite S4. lia.
  - rewrite map_app, Epre, S4. cbn [map xd_type]. assert (En : nth_error (zts_bins (zs_i s)) k = Some t) by (apply nth_error_nth'; exact Hpos). rewrite (firstn_succ_snoc _ _ _ _ En). reflexivity.
  - intros d Hdd. apply in_snoc in Hdd. destruct Hdd as [Hdd| ->]; [|reflexivity]. destruct (Pin d Hdd) as [Hds|(q & Hq & ->)]; [apply N6, Hds|reflexivity].
  - intros d Hdd. apply in_snoc in Hdd. destruct Hdd as [Hdd| ->].
    + destruct (Pin d Hdd) as [Hds|(q & Hq & ->)]; [apply N7, Hds|]. constructor; cbn [xd_items]; [constructor; [intros ? []|constructor]|congruence].
    + constructor; cbn [xd_items xd_type]; [apply (zdir_geometry s Hd dir t _ Ht (zb_geometry _ _ _ _ BS))|]. intros _. destruct (zdom_bin s Hd dir t Ht) as (_ & _ & _ & <- & _). apply (within_tol_comp (bweight inst (ps ++ [p]))); [|exact (zb_weight_ok _ _ _ _ BS)]. symmetry. apply (zdir_weight s Hd dir _ Hr').
  - intros Hsee d Hdd. apply in_snoc in Hdd. destruct Hdd as [Hdd| ->].
    + destruct (Pin d Hdd) as [Hds|(q & Hq & ->)]; [apply (N8 Hsee), Hds|]. intros r Hr Hpen. cbn [xd_type xd_items] in *. apply (zhard_nil (zs_i s) (zd_resources s Hd) (nth q (zts_bins (zs_i s)) 0%nat)); [apply zts_bins_nth; exact Hq|exact Hr|exact Hpen].
    + intros r Hr Hpen. cbn [xd_type xd_items] in *. destruct (Hcap Hsee) as [Ed|Eno]; [|rewrite Eno in Hr; destruct Hr]. rewrite Ed, zswap_map_AX. pose proof (zb_hard _ _ _ _ BS) as Hh. unfold inst in Hh. rewrite Ed in Hh. apply Hh; assumption.
  - intros d Hdd. apply in_snoc in Hdd. destruct Hdd as [Hdd| ->].
    + destruct (Pin d Hdd) as [Hds|(q & Hq & ->)]; [apply N9, Hds|]. cbn [xd_items xd_type]. change (bitems_volume (zs_i s) []) with 0. apply zbin_vol_nonneg, zts_bins_nth, Hq.
    + cbn [xd_items xd_type]. rewrite bitems_volume_swap, bitems_volume_snoc. cbn [bp_type p]. destruct (zbin_volumes dir t n' _ Ht BS) as (V1 & _). fold inst in V1.
      pose proof (zb_fill _ _ _ _ BS) as V2. unfold inst in V2 at 1. rewrite (bitems_volume_dir dir _ Hr'), bitems_volume_snoc in V2. cbn [bp_type p] in V2. lia.
  - right. exists pre, (ps ++ [p]). cbv zeta. rewrite Bpos, S2. split; [lia|]. split; [reflexivity|]. split; [exact BS|exact S8].
  - rewrite S3, upd_length. exact N11.
  - intros y Hy. rewrite S3, nth_upd by (rewrite N11; exact Hx). destruct (N12 y Hy) as [A B]. rewrite Hpk in A, B. rewrite bpacked_snoc. cbn [xd_copies xd_items]. rewrite bswap_count, bcount_snoc. cbn [bp_type p].
    destruct (Nat.eqb_spec x y) as [<-|]; [|split; lia]. rewrite A in C3. split; lia.
  - rewrite S5, N13, zsum_snoc. cbn [xd_items]. rewrite map_length, app_length. cbn [length]. destruct new as [[q e]|].
    + subst pre ps. rewrite zsum_app, zempty_zsum by reflexivity. cbn [length]. lia.
    + rewrite Hpre, zsum_snoc. cbn [xd_items]. rewrite map_length. lia.
  - rewrite S5, S1, N14, app_length. cbn [length]. lia.
  - rewrite S6, EVx, N15, zsum_snoc. cbn [xd_items]. rewrite bitems_volume_swap, bitems_volume_snoc. cbn [bp_type p]. destruct new as [[q e]|].
    + subst pre ps. rewrite zsum_app, zempty_zsum by reflexivity. change (bitems_volume (zs_i s) []) with 0. lia.
    + rewrite Hpre, zsum_snoc. cbn [xd_items]. rewrite bitems_volume_swap. lia.
  - intros Hsee. rewrite S7, (N16 Hsee), qsum_snoc. cbn [xd_items]. rewrite X2. change (bpenalties (zs_i s) (mkXD t 1 (map (bswap_place dir) (ps ++ [p])))) with (zpen (zs_i s) t (map (bswap_place dir) (ps ++ [p]))). rewrite (zdir_pen s Hd dir t _ Ht (Hcap Hsee)). fold inst.
    assert (Ep : (qsum (fun p0 => bi_profit (bxitem (zs_i s) (bp_type p0))) (map (bswap_place dir) (ps ++ [p])) == qsum (fun p0 => bi_profit (bxitem (zs_i s) (bp_type p0))) (map (bswap_place dir) ps) + bi_profit (bxitem (zs_i s) x))%Q).
    { rewrite map_app. cbn [map]. rewrite qsum_snoc. reflexivity. }
    rewrite Ep. destruct new as [[q e]|].
    + subst pre ps. rewrite qsum_app. rewrite (qsum_zero _ _ (zempty_bins (zs_i s) (zn_bins n) (q - zn_bins n))).
      * cbn [map app]. assert (E0 : (zpen inst t [] == 0)%Q) by (apply zpen_nil; [apply (zdom_sane s Hd dir)|unfold inst; destruct (zdom_lengths s Hd dir) as [_ ->]; exact Ht]). rewrite E0. cbn [qsum fold_right]. ring.
      * intros d Hdd. apply zempty_in in Hdd. destruct Hdd as (q' & Hq' & ->). change (bpenalties (zs_i s) (mkXD (nth q' (zts_bins (zs_i s)) 0%nat) 1 [])) with (zpen (zs_i s) (nth q' (zts_bins (zs_i s)) 0%nat) []).
        assert (E0 : (zpen (zs_i s) (nth q' (zts_bins (zs_i s)) 0%nat) [] == 0)%Q) by (apply zpen_nil; [apply (zd_resources s Hd)|apply zts_bins_nth; cbn [zins_pos] in *; lia]). rewrite E0. cbn. ring.
    + rewrite Hpre, qsum_snoc. cbn [xd_items]. change (bpenalties (zs_i s) (mkXD t 1 (map (bswap_place dir) ps))) with (zpen (zs_i s) t (map (bswap_place dir) ps)). rewrite (zdir_pen s Hd dir t _ Ht (Hcap Hsee)). fold inst. ring.
  - exact S9.
  - rewrite S1. intros e He. apply in_snoc in He. destruct He as [He| ->]; [apply N18, He|]. cbn [fst snd p bp_type bp_rot]. split; [lia|]. split; [exact Hx|].
    pose proof (zic_rot _ _ _ _ _ _ IC) as Hrot. fold dir inst in Hrot. rewrite X5 in Hrot. apply in_map_iff in Hrot. destruct Hrot as (r0 & Er & Hr0). rewrite <- Er, exchange_rot_twice. exact Hr0.
  - intros a Ha _. rewrite S2. unfold dir. destruct new as [[q e]|]; cbn [zins_dir]; [|apply N19; assumption]. destruct C1 as [_ ->]. unfold znew_direction. rewrite Ha. reflexivity.
Qed.

Theorem znode_inv : forall n, zreachable s n -> exists ds, ZNodeInv n ds.
Proof.
  intros n H. induction H as [|m ins m' H [ds IH] Hin Hc].
  - exists []. apply zroot_inv.
  - destruct (znode_step m ds ins IH Hin) as (n' & ds' & E & I' & _). rewrite Hc in E. injection E as <-. exists ds'. exact I'.
Qed.
End Step.
