(** * The maximal-space search on rectangles: placed blocks make packings *)

From Coq Require Import List ZArith QArith Bool Lia Arith Sorted.
From Verif Require Import Util Common_Model Box_Model Box_Spec BoxSol_Model BoxSol_Spec BoxSol_Proof Block_Model Block_Proof
  BoxBlock_Model BoxBlock_Spec BoxBlock_Proof BoxBlock_Props Space_Model Space_Spec Space_Proof SpaceNode_Proof BoxSpaces_Model BoxSpaces_Spec.
Import ListNotations.
Open Scope Z_scope.

Section Rect.
Variable i : BInstance.
Variable t : nat.
Hypothesis Ht : (t < length (bx_bins i))%nat.
Variable out : list XBlock.
Hypothesis Hpos : forall it, In it (bx_items i) -> (forall a, 0 < vat (bi_box it) a) /\ 0 <= bi_copies it.
Hypothesis Hout : forall b, In b out -> xblock_ok i (bxbin i t) b.
Let d := xsp_data i t out.

Lemma xsp_nonneg : bnonneg_items i.
Proof. intros it Hit. destruct (Hpos it Hit) as (A & C). split; [intro a; specialize (A a); lia|assumption]. Qed.

Definition clip (a : Axis) : Z := nth (Z.to_nat (vat (bn_box (bxbin i t)) a)) (xmax_reachable i a) 0.

Lemma clip_spec : forall a, 0 <= vat (bn_box (bxbin i t)) a ->
  clip a <= vat (bn_box (bxbin i t)) a /\ (forall u, xstackable i a u -> u <= vat (bn_box (bxbin i t)) a -> u <= clip a).
Proof.
  intros a H. destruct (C35_box_max_reachable_lengths i a xsp_nonneg) as (A1 & A2).
  assert (Hin : In (bxbin i t) (bx_bins i)) by (apply nth_In; assumption).
  destruct (A2 _ (A1 _ Hin)) as (_ & A3 & A4). rewrite Z2Nat.id in * by assumption. unfold clip. auto.
Qed.

(** One copy of an item. *)
Lemma stackable_one : forall a p, (bp_type p < length (bx_items i))%nat -> 1 <= bi_copies (bxitem i (bp_type p)) ->
  In (bp_rot p) (bi_rotations (bxitem i (bp_type p))) -> xstackable i a (bp_size i p a).
Proof.
  intros a p Hx Hc Hr. exists [p]. split; [intros q [<-|[]]; auto|]. split.
  - intros y Hy. rewrite bcount_cons. change (bcount y []) with 0. destruct (Nat.eqb_spec (bp_type p) y) as [<-|]; [lia|].
    destruct (Hpos (bxitem i y)) as (_ & C); [apply nth_In; assumption|]. lia.
  - rewrite zsum_cons, zsum_nil. lia.
Qed.

Lemma width_pos : forall p a, (bp_type p < length (bx_items i))%nat -> 0 < bp_size i p a.
Proof.
  intros p a Hp. destruct (Hpos (bxitem i (bp_type p))) as (A & _); [apply nth_In; assumption|].
  pose proof (A AX). pose proof (A AY). pose proof (A AZ). unfold vat in *. unfold bp_size. destruct (bp_rot p), a; assumption.
Qed.

Lemma content_count : forall b, In b out -> forall x, content (xsp_sblock b) x = bcount x (xk_items b).
Proof. intros b Hb x. apply (xcopies_lookup i (bxbin i t) b (Hout b Hb)). Qed.

Lemma count_available : forall b x, In b out -> (x < length (bx_items i))%nat -> bcount x (xk_items b) <= bi_copies (bxitem i x).
Proof.
  intros b x Hb Hx. pose proof (xo_available _ _ _ (Hout b Hb) x Hx) as H.
  destruct (Hpos (bxitem i x)) as (_ & C); [apply nth_In; assumption|]. lia.
Qed.

Lemma nth_copies : forall x, nth x (map bi_copies (bx_items i)) 0 = if Nat.ltb x (length (bx_items i)) then bi_copies (bxitem i x) else 0.
Proof.
  intro x. destruct (Nat.ltb_spec x (length (bx_items i))).
  - unfold bxitem. rewrite nth_indep with (d' := bi_copies dummy_bitem) by (rewrite map_length; assumption). apply map_nth.
  - apply nth_overflow. rewrite map_length. assumption.
Qed.

Lemma nodup_sorted : forall l, StronglySorted lt l -> NoDup l.
Proof.
  induction l as [|x l IH]; intro H; [constructor|]. apply StronglySorted_inv in H. destruct H as [H1 H2]. constructor; [|auto].
  intro Hin. rewrite Forall_forall in H2. specialize (H2 x Hin). lia.
Qed.

Lemma count_total : forall (ps : list BPlace), (forall p, In p ps -> (bp_type p < length (bx_items i))%nat) ->
  zsum (fun x => bcount x ps) (seq 0 (length (bx_items i))) = Z.of_nat (length ps).
Proof.
  intros ps H. rewrite (zsum_ext _ (fun x => bcount x ps) (fun x => zsum (fun e => if Nat.eqb (fst e) x then snd e else 0) (map (fun p => (bp_type p, 1)) ps))).
  - rewrite <- zsum_by_type.
    + clear H. induction ps as [|p ps IH]; [reflexivity|]. cbn [map length]. rewrite zsum_cons, IH. cbn [snd]. lia.
    + intros e He. apply in_map_iff in He. destruct He as (p & <- & Hp). apply (H p Hp).
  - intros x _. clear H. induction ps as [|p ps IH]; [reflexivity|]. rewrite bcount_cons, IH. cbn [map]. rewrite zsum_cons. cbn [fst snd]. destruct (Nat.eqb (bp_type p) x); lia.
Qed.

Lemma count_in : forall p ps, In p ps -> 0 < bcount (bp_type p) ps.
Proof.
  intros p ps. induction ps as [|q ps IH]; intros [].
  - subst q. rewrite bcount_cons, Nat.eqb_refl. pose proof (bcount_nonneg (bp_type p) ps). lia.
  - rewrite bcount_cons. specialize (IH H). destruct (Nat.eqb (bp_type q) (bp_type p)); lia.
Qed.

Lemma xsp_ok : sdata_ok d.
Proof.
  constructor.
  - intros o [].
  - intros b Hb. cbn in Hb. apply in_map_iff in Hb. destruct Hb as (b' & <- & Hb). split; [reflexivity|].
    pose proof (xo_box _ _ _ (Hout _ Hb)) as X. pose proof (X AX). pose proof (X AY). pose proof (X AZ). cbn [vat] in *. repeat constructor; lia.
  - intros b x c Hb Hc. cbn in Hb. apply in_map_iff in Hb. destruct Hb as (b' & <- & Hb). cbn in Hc.
    apply (xo_copies _ _ _ (Hout _ Hb)) in Hc. destruct Hc as [Hc ->].
    assert (Hx : (x < length (bx_items i))%nat).
    { destruct (lt_dec x (length (bx_items i))) as [|Hx]; [assumption|]. exfalso. assert (bcount x (xk_items b') = 0); [|lia].
      apply bcount_none. intros p Hp E. destruct (xo_items _ _ _ (Hout _ Hb) p Hp) as (A & _). lia. }
    cbn [d xsp_data sd_copies]. rewrite map_length, nth_copies. destruct (Nat.ltb_spec x (length (bx_items i))); [|lia].
    split; [assumption|]. split; [assumption|]. apply count_available; assumption.
  - intros b Hb. cbn in Hb. apply in_map_iff in Hb. destruct Hb as (b' & <- & Hb). cbn.
    pose proof (Hout _ Hb) as B. split; [apply nodup_sorted, (xo_sorted _ _ _ B)|].
    destruct (xo_tight _ _ _ B AX) as ((p & Hp & _) & _). intro E.
    assert (In (bp_type p, bcount (bp_type p) (xk_items b')) (xk_copies b')).
    { apply (xo_copies _ _ _ B). split; [|reflexivity]. apply count_in; assumption. }
    rewrite E in H. destruct H.
  - intros b Hb. cbn in Hb. apply in_map_iff in Hb. destruct Hb as (b' & <- & Hb). cbn [xsp_sblock sb_number sb_copies].
    rewrite (zsum_by_type (length (bx_items i))).
    + rewrite (zsum_ext _ _ (fun x => bcount x (xk_items b'))) by (intros; apply (content_count b' Hb)).
      symmetry. apply count_total. intros p Hp. apply (xo_items _ _ _ (Hout _ Hb) p Hp).
    + intros [x c] Hc. apply (xo_copies _ _ _ (Hout _ Hb)) in Hc. destruct Hc as [Hc ->]. cbn [fst].
      destruct (lt_dec x (length (bx_items i))) as [|Hx]; [assumption|]. exfalso. assert (bcount x (xk_items b') = 0); [|lia].
      apply bcount_none. intros p Hp E. destruct (xo_items _ _ _ (Hout _ Hb) p Hp) as (A & _). lia.
  - assert (D : out = [] \/ exists b, In b out) by (destruct out as [|b l]; [left; reflexivity|right; exists b; left; reflexivity]).
    destruct D as [D|[b Hb]]; [right; unfold d, xsp_data; rewrite D; reflexivity|left]. pose proof (Hout b Hb) as B.
    destruct (xo_tight _ _ _ B AX) as ((p & Hp & _) & _). destruct (xo_items _ _ _ B p Hp) as (A1 & A2 & A3).
    assert (Hc : 1 <= bi_copies (bxitem i (bp_type p))).
    { pose proof (xo_available _ _ _ B _ A1). assert (0 < bcount (bp_type p) (xk_items b)) by (apply count_in; assumption).
      lia. }
    assert (C : forall a, 0 < clip a).
    { intro a. pose proof (xo_box _ _ _ B a) as X. destruct (clip_spec a) as (_ & C1); [lia|].
      specialize (C1 _ (stackable_one a p A1 Hc A2)). pose proof (width_pos p a A1) as W. destruct (A3 a) as [A4 A5]. unfold bp_end in A5. lia. }
    pose proof (C AX). pose proof (C AY). pose proof (C AZ). cbn [xsp_data sd_bin]. repeat constructor; assumption.
  - intros c Hc. cbn in Hc. apply in_map_iff in Hc. destruct Hc as (it & <- & Hit). apply (Hpos it Hit).
Qed.

Local Notation xsp_items := (xsp_items out).

Lemma xsp_sblock_nth : forall id, (id < length out)%nat -> sblock d id = xsp_sblock (nth id out dummy_xblock).
Proof.
  intros id H. unfold sblock, d, xsp_data. cbn [sd_blocks].
  rewrite nth_indep with (d' := xsp_sblock dummy_xblock) by (rewrite map_length; assumption). apply map_nth.
Qed.

Lemma apart3 : forall (p s q u : Vec), apart [(v_x p, v_x s); (v_y p, v_y s); (v_z p, v_z s)] [(v_x q, v_x u); (v_y q, v_y u); (v_z q, v_z u)] ->
  exists a, vat p a + vat s a <= vat q a \/ vat q a + vat u a <= vat p a.
Proof.
  intros p s q u H. inversion H as [? ? ? ? K|? ? ? ? K]; subst; cbn in K; [exists AX; cbn [vat]; lia|].
  inversion K as [? ? ? ? L|? ? ? ? L]; subst; cbn in L; [exists AY; cbn [vat]; lia|].
  inversion L as [? ? ? ? M|? ? ? ? M]; subst; cbn in M; [exists AZ; cbn [vat]; lia|inversion M].
Qed.

Lemma placed_three : forall n p, node_ok d n -> In p (sn_placed n) ->
  let b := nth (fst p) out dummy_xblock in let v := vec_of (snd p) in
  In b out /\ occupied d p = [(v_x v, v_x (xk_box b)); (v_y v, v_y (xk_box b)); (v_z v, v_z (xk_box b))]
    /\ forall a, 0 <= vat v a /\ vat v a + vat (xk_box b) a <= clip a.
Proof.
  intros n p K Hp b v. destruct (nk_inside d n K p Hp) as [Hid W]. unfold d, xsp_data in Hid. cbn [sd_blocks] in Hid. rewrite map_length in Hid.
  split; [apply nth_In; assumption|]. unfold occupied in *. rewrite xsp_sblock_nth in * by assumption. fold b in W |- *. unfold b in W.
  destruct p as [id pos]. cbn [fst snd] in *. fold b in W. unfold xsp_sblock in *. cbn [sb_dims] in *. unfold bin_space, d, xsp_data in W. cbn [sd_bin map] in W.
  change (nth (Z.to_nat (v_x (bn_box (bxbin i t)))) (xmax_reachable i AX) 0) with (clip AX) in W.
  change (nth (Z.to_nat (v_y (bn_box (bxbin i t)))) (xmax_reachable i AY) 0) with (clip AY) in W.
  change (nth (Z.to_nat (v_z (bn_box (bxbin i t)))) (xmax_reachable i AZ) 0) with (clip AZ) in W.
  destruct pos as [|x0 [|y0 [|z0 rest]]]; cbn [combine] in W.
  - inversion W.
  - inversion W as [|? ? ? ? _ W2]. inversion W2.
  - inversion W as [|? ? ? ? _ W2]. inversion W2 as [|? ? ? ? _ W3]. inversion W3.
  - inversion W as [|? ? ? ? W1 W2]; subst. inversion W2 as [|? ? ? ? W3 W4]; subst. inversion W4 as [|? ? ? ? W5 _]; subst. cbn [fst snd] in W1, W3, W5.
    unfold v, vec_of. cbn [nth v_x v_y v_z].
    split; [destruct rest; reflexivity|]. intros []; cbn [vat v_x v_y v_z]; lia.
Qed.

Lemma place_geometry : forall l n, node_ok d n -> (exists r, sn_placed n = l ++ r) ->
  bgeometry_ok i (bxbin i t) (flat_map (fun pb => xput (nth (fst pb) out dummy_xblock) (vec_of (snd pb))) l).
Proof.
  intros l n K. induction l as [|pb l IH] using rev_ind; intros [r E].
  - constructor; [intros p []|constructor].
  - rewrite flat_map_app. cbn [flat_map]. rewrite app_nil_r.
    assert (Hpb : In pb (sn_placed n)) by (rewrite E; apply in_or_app; left; apply in_or_app; right; left; reflexivity).
    destruct (placed_three n pb K Hpb) as (B1 & B2 & B3). cbv zeta in *.
    pose proof (Hout _ B1) as B.
    apply (xput_geometry i (bxbin i t) (bxbin i t)); try assumption.
    + apply IH. exists (pb :: r). rewrite E, <- app_assoc. reflexivity.
    + intro a. pose proof (xo_box _ _ _ B a) as X. destruct (clip_spec a) as (C1 & _); [lia|]. specialize (B3 a). lia.
    + intros p Hp. apply in_flat_map in Hp. destruct Hp as (qb & Hqb & Hp).
      assert (Hq : In qb (sn_placed n)) by (rewrite E; apply in_or_app; left; apply in_or_app; left; assumption).
      destruct (placed_three n qb K Hq) as (D1 & D2 & _). cbv zeta in *.
      pose proof (xput_inside i (bxbin i t) _ _ _ (Hout _ D1) Hp) as I.
      assert (A : apart (occupied d qb) (occupied d pb)).
      { pose proof (nk_apart d n K) as F. rewrite E, <- app_assoc in F. clear - F Hqb. induction l as [|a l IHl]; [destruct Hqb|].
        inversion F as [|? ? F1 F2]; subst. destruct Hqb as [->|Hqb]; [|auto]. rewrite Forall_forall in F1. apply F1.
        apply in_or_app. right. left. reflexivity. }
      rewrite B2, D2 in A. apply apart3 in A. destruct A as [a A]. exists a. specialize (I a). lia.
Qed.

Lemma xsp_geometry : forall n, node_ok d n -> bgeometry_ok i (bxbin i t) (xsp_items n).
Proof. intros n K. apply (place_geometry (sn_placed n) n K). exists []. rewrite app_nil_r. reflexivity. Qed.

Lemma xsp_count : forall n x, node_ok d n -> bcount x (xsp_items n) = placed_copies d n x.
Proof.
  intros n x K. unfold xsp_items, placed_copies. assert (H : forall p, In p (sn_placed n) -> In p (sn_placed n)) by auto.
  revert H. generalize (sn_placed n) at 1 3 4. intro l. induction l as [|p l IH]; intro H; [rewrite zsum_nil; reflexivity|].
  cbn [flat_map]. rewrite bcount_app, zsum_cons, IH by (intros; apply H; right; assumption). f_equal.
  assert (Hp : In p (sn_placed n)) by (apply H; left; reflexivity).
  unfold xput. rewrite bcount_map by reflexivity. destruct (nk_inside d n K p Hp) as [Hid _]. unfold d, xsp_data in Hid. cbn [sd_blocks] in Hid.
  rewrite map_length in Hid. rewrite xsp_sblock_nth by assumption. symmetry. apply content_count. apply nth_In. assumption.
Qed.

Lemma xsp_packing : forall n, node_ok d n -> bpacking_ok i [mkXD t 1 (xsp_items n)].
Proof.
  intros n K. constructor.
  - intros e [<-|[]]. cbn [xd_type xd_copies xd_items]. split; [assumption|]. split; [lia|]. apply xsp_geometry. assumption.
  - intros x Hx. unfold bpacked. rewrite zsum_cons, zsum_nil. cbn [xd_copies xd_items]. rewrite xsp_count by assumption.
    pose proof (nk_copies d n K x) as H. unfold d, xsp_data in H. cbn [sd_copies] in H. rewrite map_length, nth_copies in H.
    specialize (H Hx). destruct (Nat.ltb_spec x (length (bx_items i))); [|lia]. unfold d, xsp_data in *. lia.
Qed.

(** Sum over the items of the placed blocks, block by block. *)
Lemma xsp_sum : forall (f : BItem -> Q) (g : SBlock -> Q),
  (forall b, In b out -> (g (xsp_sblock b) == qsum (fun p => f (bxitem i (bp_type p))) (xk_items b))%Q) ->
  forall n, node_ok d n -> (qsum (fun p => f (bxitem i (bp_type p))) (xsp_items n) == qsum (fun p => g (sblock d (fst p))) (sn_placed n))%Q.
Proof.
  intros f g Hg n K. unfold xsp_items. assert (H : forall p, In p (sn_placed n) -> In p (sn_placed n)) by auto.
  revert H. generalize (sn_placed n) at 1 3 4. intro l. induction l as [|p l IH]; intro H; [reflexivity|].
  cbn [flat_map]. rewrite qsum_app, qsum_cons, IH by (intros; apply H; right; assumption). apply Qplus_comp; [|reflexivity].
  assert (Hp : In p (sn_placed n)) by (apply H; left; reflexivity).
  destruct (nk_inside d n K p Hp) as [Hid _]. unfold d, xsp_data in Hid. cbn [sd_blocks] in Hid.
  rewrite map_length in Hid. rewrite xsp_sblock_nth by assumption. rewrite Hg by (apply nth_In; assumption).
  unfold xput. generalize (xk_items (nth (fst p) out dummy_xblock)). intro ps. clear. induction ps as [|q ps IH]; [reflexivity|].
  cbn [map]. rewrite !qsum_cons. cbn [bp_type]. rewrite IH. reflexivity.
Qed.

Lemma xsp_weight : forall n, node_ok d n -> (sn_weight n == qsum (fun p => bi_weight (bxitem i (bp_type p))) (xsp_items n))%Q.
Proof.
  intros n K. rewrite (nk_weight d n K). symmetry. apply (xsp_sum bi_weight sb_weight); [|assumption].
  intros b Hb. apply (xo_weight _ _ _ (Hout b Hb)).
Qed.

Lemma nth_profits : forall x, (x < length (bx_items i))%nat -> nth x (map bi_profit (bx_items i)) 0%Q = bi_profit (bxitem i x).
Proof.
  intros x H. unfold bxitem. rewrite nth_indep with (d' := bi_profit dummy_bitem) by (rewrite map_length; assumption). apply map_nth.
Qed.

Lemma profit_by_type : forall f (ps : list BPlace) (cs : list (nat * Z)), StronglySorted lt (map fst cs) ->
  (forall x c, In (x, c) cs <-> 0 < c /\ c = bcount x ps) ->
  (qsum (fun e => f (fst e) * inject_Z (snd e)) cs == qsum (fun p => f (bp_type p)) ps)%Q.
Proof.
  intros f ps cs. revert ps. induction cs as [|[x c] cs IH]; intros ps S H.
  - destruct ps as [|p ps]; [reflexivity|]. exfalso. apply (H (bp_type p) (bcount (bp_type p) (p :: ps))).
    split; [apply count_in; left; reflexivity|reflexivity].
  - cbn [map fst] in S. apply StronglySorted_inv in S. destruct S as [S1 S2]. rewrite Forall_forall in S2.
    rewrite qsum_cons. cbn [fst snd].
    assert (P : (qsum (fun p => f (bp_type p)) ps == f x * inject_Z (bcount x ps) + qsum (fun p => f (bp_type p)) (filter (fun p => negb (Nat.eqb (bp_type p) x)) ps))%Q).
    { clear. induction ps as [|p ps IH]; [unfold qsum, bcount; cbn [filter length fold_left fold_right]; change (inject_Z (Z.of_nat 0)) with 0%Q; ring|]. rewrite qsum_cons, IH, bcount_cons. cbn [filter].
      destruct (Nat.eqb_spec (bp_type p) x) as [E|E]; cbn [negb]; rewrite ?qsum_cons.
      - rewrite E, inject_Z_plus. ring.
      - rewrite Z.add_0_l. ring. }
    assert (F : forall y, bcount y (filter (fun p => negb (Nat.eqb (bp_type p) x)) ps) = if Nat.eqb y x then 0 else bcount y ps).
    { clear. intro y. induction ps as [|p ps IH]; [destruct (Nat.eqb y x); reflexivity|]. cbn [filter]. rewrite bcount_cons.
      destruct (Nat.eqb_spec (bp_type p) x); cbn [negb]; rewrite ?bcount_cons, IH; destruct (Nat.eqb_spec y x), (Nat.eqb_spec (bp_type p) y); try lia; congruence. }
    destruct (proj1 (H x c)) as [_ Ec]; [left; reflexivity|]. rewrite P, <- Ec, (IH (filter (fun p => negb (Nat.eqb (bp_type p) x)) ps)).
    + reflexivity.
    + assumption.
    + intros y c'. rewrite F. split.
      * intro Hin. assert (x < y)%nat by (apply S2, (in_map fst _ _ Hin)). destruct (Nat.eqb_spec y x); [lia|]. apply H. right. assumption.
      * intros [Hc Ec']. destruct (Nat.eqb_spec y x); [lia|]. destruct (proj2 (H y c') (conj Hc Ec')) as [E|Hin]; [|assumption].
        congruence.
Qed.

Lemma xsp_profit : forall n, node_ok d n -> (sn_profit n == qsum (fun p => bi_profit (bxitem i (bp_type p))) (xsp_items n))%Q.
Proof.
  intros n K. rewrite (nk_profit d n K). symmetry.
  apply (xsp_sum bi_profit (fun b => qsum (fun e => nth (fst e) (sd_profits d) 0 * inject_Z (snd e)) (sb_copies b)))%Q; [|assumption].
  intros b Hb. pose proof (Hout b Hb) as B. cbn [xsp_sblock sb_copies].
  rewrite (profit_by_type (fun x => nth x (sd_profits d) 0%Q) (xk_items b)); [|apply (xo_sorted _ _ _ B)|apply (xo_copies _ _ _ B)].
  apply qsum_ext. intros p Hp. unfold d, xsp_data. cbn [sd_profits]. rewrite nth_profits; [reflexivity|apply (xo_items _ _ _ B p Hp)].
Qed.

Lemma xsp_number : forall n, node_ok d n -> sn_items n = Z.of_nat (length (xsp_items n)).
Proof.
  intros n K. rewrite (nk_items d n K). unfold xsp_items. assert (H : forall p, In p (sn_placed n) -> In p (sn_placed n)) by auto.
  revert H. generalize (sn_placed n) at 1 3 4. intro l. induction l as [|p l IH]; intro H; [rewrite zsum_nil; reflexivity|].
  cbn [flat_map]. rewrite app_length, zsum_cons, IH by (intros; apply H; right; assumption).
  assert (Hp : In p (sn_placed n)) by (apply H; left; reflexivity).
  destruct (nk_inside d n K p Hp) as [Hid _]. unfold d, xsp_data in Hid. cbn [sd_blocks] in Hid. rewrite map_length in Hid.
  rewrite xsp_sblock_nth by assumption. unfold xput, xsp_sblock. cbn [sb_number]. rewrite map_length. lia.
Qed.

(** The calls to the solution builder. *)
Lemma xsp_calls_desc : forall n, xdesc_run [] (xsp_calls t out n) = [mkXD t 1 (xsp_items n)].
Proof.
  intro n. unfold xsp_calls, xsp_items. cbn [xdesc_run app].
  assert (G : forall (l : list BPlace) ps rest, xdesc_run [mkXD t 1 ps] (map (XAddItem 0) l ++ rest) = xdesc_run [mkXD t 1 (ps ++ l)] rest).
  { induction l as [|p l IH]; intros ps rest; [rewrite app_nil_r; reflexivity|]. cbn [map app xdesc_run upd xd_type xd_copies xd_items].
    rewrite IH, <- app_assoc. reflexivity. }
  assert (M : forall l, flat_map (fun pb : nat * list Z => map (fun p => XAddItem 0 (mkBP (bp_type p) (mkV (nth 0 (snd pb) 0 + v_x (bp_pos p)) (nth 1 (snd pb) 0 + v_y (bp_pos p)) (nth 2 (snd pb) 0 + v_z (bp_pos p))) (bp_rot p)))
      (xk_items (nth (fst pb) out dummy_xblock))) l
    = map (XAddItem 0) (flat_map (fun pb => xput (nth (fst pb) out dummy_xblock) (vec_of (snd pb))) l)).
  { induction l as [|pb l IH]; [reflexivity|]. cbn [flat_map]. rewrite map_app, IH. unfold xput. rewrite map_map. reflexivity. }
  rewrite M. specialize (G (flat_map (fun pb => xput (nth (fst pb) out dummy_xblock) (vec_of (snd pb))) (sn_placed n)) [] []).
  rewrite app_nil_r in G. exact G.
Qed.

Lemma xsp_calls_run : forall n, node_ok d n -> exists bins, xb_run i [] (xsp_calls t out n) = Some bins.
Proof.
  intros n K. unfold xsp_calls. cbn [xb_run xb_call]. unfold xb_add_bin, xin_range. rewrite (proj2 (Nat.ltb_lt _ _) Ht). cbn [andb forallb app].
  assert (G : forall l b, (forall p, In p l -> (bp_type p < length (bx_items i))%nat /\ In (bp_rot p) (bi_rotations (bxitem i (bp_type p)))) ->
    exists bins, xb_run i [b] (map (XAddItem 0) l) = Some bins).
  { induction l as [|p l IH]; intros b H; [eexists; reflexivity|]. cbn [map xb_run xb_call]. unfold xb_add_item.
    destruct (H p (or_introl eq_refl)) as [H1 H2]. rewrite (proj2 (Nat.ltb_lt _ _) H1). cbn [length].
    rewrite (proj2 (can_rotate_in _ _) H2). cbn [Nat.ltb Nat.leb andb upd]. apply IH. intros; apply H; right; assumption. }
  assert (M : forall l, flat_map (fun pb : nat * list Z => map (fun p => XAddItem 0 (mkBP (bp_type p) (mkV (nth 0 (snd pb) 0 + v_x (bp_pos p)) (nth 1 (snd pb) 0 + v_y (bp_pos p)) (nth 2 (snd pb) 0 + v_z (bp_pos p))) (bp_rot p)))
      (xk_items (nth (fst pb) out dummy_xblock))) l
    = map (XAddItem 0) (flat_map (fun pb => xput (nth (fst pb) out dummy_xblock) (vec_of (snd pb))) l)).
  { induction l as [|pb l IH]; [reflexivity|]. cbn [flat_map]. rewrite map_app, IH. unfold xput. rewrite map_map. reflexivity. }
  rewrite M. apply G. intros p Hp. destruct (bg_places _ _ _ (xsp_geometry n K) p Hp) as [A _ B]. auto.
Qed.

Lemma xsp_history : xwf_resources i -> forall cb n, node_ok d n -> exists s, xhistory i cb (xsp_calls t out n) [] = Some s
  /\ xview s = [mkXD t 1 (xsp_items n)].
Proof.
  intros Hw cb n K. destruct (xsp_calls_run n K) as [bins E].
  assert (Hs : exists s, xhistory i cb (xsp_calls t out n) [] = Some s) by (unfold xhistory; rewrite E; eexists; reflexivity).
  destruct Hs as [s Hs]. exists s. split; [assumption|].
  destruct (xhistory_spec i cb Hw (xsp_calls t out n) [] s Hs) as [_ V].
  - intros e He. rewrite xsp_calls_desc in He. cbn in He. destruct He as [<-|[]]. cbn. lia.
  - rewrite V, xsp_calls_desc. reflexivity.
Qed.

End Rect.
