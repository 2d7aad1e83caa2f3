(** * The maximal-space search on rectangles: placed blocks make packings *)

From Coq Require Import List ZArith QArith Bool Lia Arith Sorted.
From Verif Require Import Util Common_Model Rect_Model Rect_Spec RectSol_Model RectSol_Spec RectSol_Proof Block_Model Block_Proof
  RectBlock_Model RectBlock_Spec RectBlock_Proof RectBlock_Props Space_Model Space_Spec Space_Proof SpaceNode_Proof RectSpaces_Model RectSpaces_Spec.
Import ListNotations.
Open Scope Z_scope.

Section Rect.
Variable i : RInstance.
Variable t : nat.
Hypothesis Ht : (t < length (rin_bins i))%nat.
Variable out : list RBlock.
Hypothesis Hpos : forall it, In it (rin_items i) -> 0 < ri_x it /\ 0 < ri_y it /\ 0 <= ri_copies it.
Hypothesis Hout : forall b, In b out -> block_ok i (rbin i t) b.
Let d := rs_data i t out.

Lemma rs_nonneg : nonneg_items i.
Proof. intros it Hit. destruct (Hpos it Hit) as (A & B & C). lia. Qed.

Definition clip_x : Z := nth (Z.to_nat (rb_x (rbin i t))) (max_reachable_x i) 0.
Definition clip_y : Z := nth (Z.to_nat (rb_y (rbin i t))) (max_reachable_y i) 0.

Lemma clip_spec : 0 <= rb_x (rbin i t) -> 0 <= rb_y (rbin i t) ->
  clip_x <= rb_x (rbin i t) /\ clip_y <= rb_y (rbin i t) /\
  (forall u, stackable i (fun x rot => pl_w i (mkPl x 0 0 rot)) u -> u <= rb_x (rbin i t) -> u <= clip_x) /\
  (forall u, stackable i (fun x rot => pl_h i (mkPl x 0 0 rot)) u -> u <= rb_y (rbin i t) -> u <= clip_y).
Proof.
  intros H1 H2. destruct (C35_max_reachable_lengths i rs_nonneg) as ((A1 & A2) & (B1 & B2)).
  assert (Hin : In (rbin i t) (rin_bins i)) by (apply nth_In; assumption).
  destruct (A2 _ (A1 _ Hin)) as (_ & A3 & A4). destruct (B2 _ (B1 _ Hin)) as (_ & B3 & B4).
  rewrite Z2Nat.id in * by assumption. unfold clip_x, clip_y. auto.
Qed.

(** One copy of an item. *)
Lemma stackable_one : forall side x rot, (x < length (rin_items i))%nat -> 1 <= ri_copies (ritem i x) ->
  (rot = true -> ri_oriented (ritem i x) = false) -> stackable i side (side x rot).
Proof.
  intros side x rot Hx Hc Hr.
  exists (fun y => if Nat.eqb x y then if rot then 0 else 1 else 0), (fun y => if Nat.eqb x y then if rot then 1 else 0 else 0).
  split.
  - intros y Hy. assert (0 <= ri_copies (ritem i y)) by (destruct (Hpos (ritem i y)); [apply nth_In; assumption|lia]).
    destruct (Nat.eqb_spec x y); [subst y|lia]. destruct rot; repeat split; try lia.
    intro E. rewrite Hr in E by reflexivity. discriminate.
  - assert (T : forall k s, zsum (fun y => (if Nat.eqb x y then if rot then 0 else 1 else 0) * side y false + (if Nat.eqb x y then if rot then 1 else 0 else 0) * side y true) (seq s k)
      = if (Nat.leb s x && Nat.ltb x (s + k))%bool then side x rot else 0).
    { induction k as [|k IHk]; intro s; cbn [seq].
      - rewrite zsum_nil. destruct (Nat.leb_spec s x), (Nat.ltb_spec x (s + 0)); simpl; try reflexivity; lia.
      - rewrite zsum_cons, IHk. destruct (Nat.eqb_spec x s), (Nat.leb_spec s x), (Nat.leb_spec (S s) x), (Nat.ltb_spec x (s + S k)), (Nat.ltb_spec x (S s + k)); simpl; try lia; subst; destruct rot; lia. }
    rewrite T. destruct (Nat.ltb_spec x (0 + length (rin_items i))); [reflexivity|lia].
Qed.

Lemma width_pos : forall p, (pl_type p < length (rin_items i))%nat -> 0 < pl_w i p /\ 0 < pl_h i p.
Proof.
  intros p Hp. destruct (Hpos (ritem i (pl_type p))) as (A & B & _); [apply nth_In; assumption|]. unfold pl_w, pl_h.
  destruct (pl_rot p); lia.
Qed.

Lemma content_count : forall b, In b out -> forall x, content (rs_sblock b) x = rcount x (bk_items b).
Proof. intros b Hb x. apply (copies_lookup i (rbin i t) b (Hout b Hb)). Qed.

Lemma count_available : forall b x, In b out -> (x < length (rin_items i))%nat -> rcount x (bk_items b) <= ri_copies (ritem i x).
Proof.
  intros b x Hb Hx. pose proof (bo_available _ _ _ (Hout b Hb) x Hx) as H.
  destruct (Hpos (ritem i x)) as (_ & _ & C); [apply nth_In; assumption|]. lia.
Qed.

Lemma nth_copies : forall x, nth x (map ri_copies (rin_items i)) 0 = if Nat.ltb x (length (rin_items i)) then ri_copies (ritem i x) else 0.
Proof.
  intro x. destruct (Nat.ltb_spec x (length (rin_items i))).
  - unfold ritem. rewrite nth_indep with (d' := ri_copies dummy_ritem) by (rewrite map_length; assumption). apply map_nth.
  - apply nth_overflow. rewrite map_length. assumption.
Qed.

Lemma nodup_sorted : forall l, StronglySorted lt l -> NoDup l.
Proof.
  induction l as [|x l IH]; intro H; [constructor|]. apply StronglySorted_inv in H. destruct H as [H1 H2]. constructor; [|auto].
  intro Hin. rewrite Forall_forall in H2. specialize (H2 x Hin). lia.
Qed.

Lemma count_total : forall (ps : list Place), (forall p, In p ps -> (pl_type p < length (rin_items i))%nat) ->
  zsum (fun x => rcount x ps) (seq 0 (length (rin_items i))) = Z.of_nat (length ps).
Proof.
  intros ps H. rewrite (zsum_ext _ (fun x => rcount x ps) (fun x => zsum (fun e => if Nat.eqb (fst e) x then snd e else 0) (map (fun p => (pl_type p, 1)) ps))).
  - rewrite <- zsum_by_type.
    + clear H. induction ps as [|p ps IH]; [reflexivity|]. cbn [map length]. rewrite zsum_cons, IH. cbn [snd]. lia.
    + intros e He. apply in_map_iff in He. destruct He as (p & <- & Hp). apply (H p Hp).
  - intros x _. clear H. induction ps as [|p ps IH]; [reflexivity|]. rewrite rcount_cons, IH. cbn [map]. rewrite zsum_cons. cbn [fst snd]. destruct (Nat.eqb (pl_type p) x); lia.
Qed.

Lemma count_in : forall p ps, In p ps -> 0 < rcount (pl_type p) ps.
Proof.
  intros p ps. induction ps as [|q ps IH]; intros [].
  - subst q. rewrite rcount_cons, Nat.eqb_refl. pose proof (rcount_nonneg (pl_type p) ps). lia.
  - rewrite rcount_cons. specialize (IH H). destruct (Nat.eqb (pl_type q) (pl_type p)); lia.
Qed.

Lemma rs_ok : sdata_ok d.
Proof.
  constructor.
  - intros o Ho. cbn in Ho. apply in_map_iff in Ho. destruct Ho as (f & <- & _). reflexivity.
  - intros b Hb. cbn in Hb. apply in_map_iff in Hb. destruct Hb as (b' & <- & Hb). split; [reflexivity|].
    pose proof (bo_x _ _ _ (Hout _ Hb)). pose proof (bo_y _ _ _ (Hout _ Hb)). repeat constructor; lia.
  - intros b x c Hb Hc. cbn in Hb. apply in_map_iff in Hb. destruct Hb as (b' & <- & Hb). cbn in Hc.
    apply (bo_copies _ _ _ (Hout _ Hb)) in Hc. destruct Hc as [Hc ->].
    assert (Hx : (x < length (rin_items i))%nat).
    { destruct (lt_dec x (length (rin_items i))) as [|Hx]; [assumption|]. exfalso. assert (rcount x (bk_items b') = 0); [|lia].
      apply rcount_none. intros p Hp E. destruct (bo_items _ _ _ (Hout _ Hb) p Hp) as (A & _). lia. }
    cbn [d rs_data sd_copies]. rewrite map_length, nth_copies. destruct (Nat.ltb_spec x (length (rin_items i))); [|lia].
    split; [assumption|]. split; [assumption|]. apply count_available; assumption.
  - intros b Hb. cbn in Hb. apply in_map_iff in Hb. destruct Hb as (b' & <- & Hb). cbn.
    pose proof (Hout _ Hb) as B. split; [apply nodup_sorted, (bo_sorted _ _ _ B)|].
    destruct (bo_tight _ _ _ B) as ((p & Hp & _) & _). intro E.
    assert (In (pl_type p, rcount (pl_type p) (bk_items b')) (bk_copies b')).
    { apply (bo_copies _ _ _ B). split; [|reflexivity]. apply count_in; assumption. }
    rewrite E in H. destruct H.
  - intros b Hb. cbn in Hb. apply in_map_iff in Hb. destruct Hb as (b' & <- & Hb). cbn [rs_sblock sb_number sb_copies].
    rewrite (zsum_by_type (length (rin_items i))).
    + rewrite (zsum_ext _ _ (fun x => rcount x (bk_items b'))) by (intros; apply (content_count b' Hb)).
      symmetry. apply count_total. intros p Hp. apply (bo_items _ _ _ (Hout _ Hb) p Hp).
    + intros [x c] Hc. apply (bo_copies _ _ _ (Hout _ Hb)) in Hc. destruct Hc as [Hc ->]. cbn [fst].
      destruct (lt_dec x (length (rin_items i))) as [|Hx]; [assumption|]. exfalso. assert (rcount x (bk_items b') = 0); [|lia].
      apply rcount_none. intros p Hp E. destruct (bo_items _ _ _ (Hout _ Hb) p Hp) as (A & _). lia.
  - assert (D : out = [] \/ exists b, In b out) by (destruct out as [|b l]; [left; reflexivity|right; exists b; left; reflexivity]).
    destruct D as [D|[b Hb]]; [right; unfold d, rs_data; rewrite D; reflexivity|left]. pose proof (Hout b Hb) as B.
    destruct (bo_tight _ _ _ B) as ((p & Hp & _) & _). destruct (bo_items _ _ _ B p Hp) as (A1 & A2 & A3 & A4 & A5 & A6).
    destruct (width_pos p A1) as [W1 W2]. pose proof (bo_x _ _ _ B). pose proof (bo_y _ _ _ B). unfold pl_xe, pl_ye in *.
    assert (Hc : 1 <= ri_copies (ritem i (pl_type p))).
    { pose proof (bo_available _ _ _ B _ A1). assert (0 < rcount (pl_type p) (bk_items b)) by (apply count_in; assumption).
      lia. }
    destruct clip_spec as (_ & _ & C1 & C2); [lia|lia|].
    specialize (C1 _ (stackable_one (fun x rot => pl_w i (mkPl x 0 0 rot)) _ _ A1 Hc A2)).
    specialize (C2 _ (stackable_one (fun x rot => pl_h i (mkPl x 0 0 rot)) _ _ A1 Hc A2)).
    unfold pl_w, pl_h in *. cbn [pl_type pl_rot] in *. unfold clip_x, clip_y in *.
    cbn [rs_data sd_bin]. repeat constructor; lia.
  - intros c Hc. cbn in Hc. apply in_map_iff in Hc. destruct Hc as (it & <- & Hit). apply (Hpos it Hit).
Qed.

Local Notation rs_items := (rs_items out).

Lemma rs_sblock_nth : forall id, (id < length out)%nat -> sblock d id = rs_sblock (nth id out dummy_rblock).
Proof.
  intros id H. unfold sblock, d, rs_data. cbn [sd_blocks].
  rewrite nth_indep with (d' := rs_sblock dummy_rblock) by (rewrite map_length; assumption). apply map_nth.
Qed.

Lemma apart2 : forall x y w h x' y' w' h', apart [(x, w); (y, h)] [(x', w'); (y', h')] ->
  x + w <= x' \/ x' + w' <= x \/ y + h <= y' \/ y' + h' <= y.
Proof.
  intros. inversion H as [? ? ? ? K|? ? ? ? K]; subst; cbn in K; [lia|].
  inversion K as [? ? ? ? L|? ? ? ? L]; subst; cbn in L; [lia|inversion L].
Qed.

Lemma placed_two : forall n p, node_ok d n -> In p (sn_placed n) ->
  let b := nth (fst p) out dummy_rblock in let x := nth 0 (snd p) 0 in let y := nth 1 (snd p) 0 in
  In b out /\ occupied d p = [(x, bk_x b); (y, bk_y b)]
    /\ 0 <= x /\ x + bk_x b <= clip_x /\ 0 <= y /\ y + bk_y b <= clip_y.
Proof.
  intros n p K Hp b x y. destruct (nk_inside d n K p Hp) as [Hid W]. unfold d, rs_data in Hid. cbn [sd_blocks] in Hid. rewrite map_length in Hid.
  split; [apply nth_In; assumption|]. unfold occupied in *. rewrite rs_sblock_nth in * by assumption. fold b in W |- *. unfold b in W.
  destruct p as [id pos]. cbn [fst snd] in *. fold b in W. unfold rs_sblock in *. cbn [sb_dims] in *. unfold bin_space, d, rs_data in W. cbn [sd_bin map] in W. fold clip_x clip_y in W.
  destruct pos as [|x0 [|y0 rest]]; cbn [combine] in W.
  - inversion W.
  - inversion W as [|? ? ? ? _ W2]. inversion W2.
  - inversion W as [|? ? ? ? W1 W2]; subst. inversion W2 as [|? ? ? ? W3 _]; subst. cbn [fst snd] in W1, W3. unfold x, y. cbn [nth].
    split; [destruct rest; reflexivity|]. lia.
Qed.

Lemma place_geometry : forall l n, node_ok d n -> (exists r, sn_placed n = l ++ r) ->
  geometry_ok i (rbin i t) (flat_map (fun pb => put (nth (fst pb) out dummy_rblock) (nth 0 (snd pb) 0) (nth 1 (snd pb) 0)) l).
Proof.
  intros l n K. induction l as [|pb l IH] using rev_ind; intros [r E].
  - constructor; [intros p []|constructor|intros p f []].
  - rewrite flat_map_app. cbn [flat_map]. rewrite app_nil_r.
    assert (Hpb : In pb (sn_placed n)) by (rewrite E; apply in_or_app; left; apply in_or_app; right; left; reflexivity).
    destruct (placed_two n pb K Hpb) as (B1 & B2 & B3 & B4 & B5 & B6). cbv zeta in *.
    pose proof (Hout _ B1) as B. pose proof (bo_x _ _ _ B) as Bx. pose proof (bo_y _ _ _ B) as By.
    destruct clip_spec as (C1 & C2 & _); [lia|lia|].
    apply (put_geometry i (rbin i t) (rbin i t)); try assumption; try lia.
    + apply IH. exists (pb :: r). rewrite E, <- app_assoc. reflexivity.
    + intros p Hp. apply in_flat_map in Hp. destruct Hp as (qb & Hqb & Hp).
      assert (Hq : In qb (sn_placed n)) by (rewrite E; apply in_or_app; left; apply in_or_app; left; assumption).
      destruct (placed_two n qb K Hq) as (D1 & D2 & _). cbv zeta in *.
      pose proof (put_inside i (rbin i t) _ _ _ _ (Hout _ D1) Hp) as I.
      assert (A : apart (occupied d qb) (occupied d pb)).
      { pose proof (nk_apart d n K) as F. rewrite E, <- app_assoc in F. clear - F Hqb. induction l as [|a l IHl]; [destruct Hqb|].
        inversion F as [|? ? F1 F2]; subst. destruct Hqb as [->|Hqb]; [|auto]. rewrite Forall_forall in F1. apply F1.
        apply in_or_app. right. left. reflexivity. }
      rewrite B2, D2 in A. apply apart2 in A. lia.
    + intros f Hf. pose proof (nk_defects d n K pb (rs_defect f) Hpb) as A. rewrite B2 in A. unfold rs_defect in A.
      assert (A' := A (in_map rs_defect _ _ Hf)). apply apart2 in A'. lia.
Qed.

Lemma rs_geometry : forall n, node_ok d n -> geometry_ok i (rbin i t) (rs_items n).
Proof. intros n K. apply (place_geometry (sn_placed n) n K). exists []. rewrite app_nil_r. reflexivity. Qed.

Lemma rs_count : forall n x, node_ok d n -> rcount x (rs_items n) = placed_copies d n x.
Proof.
  intros n x K. unfold rs_items, placed_copies. assert (H : forall p, In p (sn_placed n) -> In p (sn_placed n)) by auto.
  revert H. generalize (sn_placed n) at 1 3 4. intro l. induction l as [|p l IH]; intro H; [rewrite zsum_nil; reflexivity|].
  cbn [flat_map]. rewrite rcount_app, zsum_cons, IH by (intros; apply H; right; assumption). f_equal.
  assert (Hp : In p (sn_placed n)) by (apply H; left; reflexivity).
  unfold put. rewrite rcount_map by reflexivity. destruct (nk_inside d n K p Hp) as [Hid _]. unfold d, rs_data in Hid. cbn [sd_blocks] in Hid.
  rewrite map_length in Hid. rewrite rs_sblock_nth by assumption. symmetry. apply content_count. apply nth_In. assumption.
Qed.

Lemma rs_packing : forall n, node_ok d n -> packing_ok i [mkRD t 1 (rs_items n)].
Proof.
  intros n K. constructor.
  - intros e [<-|[]]. cbn [rd_type rd_copies rd_items]. split; [assumption|]. split; [lia|]. apply rs_geometry. assumption.
  - intros x Hx. unfold rpacked. rewrite zsum_cons, zsum_nil. cbn [rd_copies rd_items]. rewrite rs_count by assumption.
    pose proof (nk_copies d n K x) as H. unfold d, rs_data in H. cbn [sd_copies] in H. rewrite map_length, nth_copies in H.
    specialize (H Hx). destruct (Nat.ltb_spec x (length (rin_items i))); [|lia]. unfold d, rs_data in *. lia.
Qed.

(** Sum over the items of the placed blocks, block by block. *)
Lemma rs_sum : forall (f : RItem -> Q) (g : SBlock -> Q),
  (forall b, In b out -> (g (rs_sblock b) == qsum (fun p => f (ritem i (pl_type p))) (bk_items b))%Q) ->
  forall n, node_ok d n -> (qsum (fun p => f (ritem i (pl_type p))) (rs_items n) == qsum (fun p => g (sblock d (fst p))) (sn_placed n))%Q.
Proof.
  intros f g Hg n K. unfold rs_items. assert (H : forall p, In p (sn_placed n) -> In p (sn_placed n)) by auto.
  revert H. generalize (sn_placed n) at 1 3 4. intro l. induction l as [|p l IH]; intro H; [reflexivity|].
  cbn [flat_map]. rewrite qsum_app, qsum_cons, IH by (intros; apply H; right; assumption). apply Qplus_comp; [|reflexivity].
  assert (Hp : In p (sn_placed n)) by (apply H; left; reflexivity).
  destruct (nk_inside d n K p Hp) as [Hid _]. unfold d, rs_data in Hid. cbn [sd_blocks] in Hid.
  rewrite map_length in Hid. rewrite rs_sblock_nth by assumption. rewrite Hg by (apply nth_In; assumption).
  unfold put. generalize (bk_items (nth (fst p) out dummy_rblock)). intro ps. clear. induction ps as [|q ps IH]; [reflexivity|].
  cbn [map]. rewrite !qsum_cons. cbn [pl_type]. rewrite IH. reflexivity.
Qed.

Lemma rs_weight : forall n, node_ok d n -> (sn_weight n == qsum (fun p => ri_weight (ritem i (pl_type p))) (rs_items n))%Q.
Proof.
  intros n K. rewrite (nk_weight d n K). symmetry. apply (rs_sum ri_weight sb_weight); [|assumption].
  intros b Hb. apply (bo_weight _ _ _ (Hout b Hb)).
Qed.

Lemma nth_profits : forall x, (x < length (rin_items i))%nat -> nth x (map ri_profit (rin_items i)) 0%Q = ri_profit (ritem i x).
Proof.
  intros x H. unfold ritem. rewrite nth_indep with (d' := ri_profit dummy_ritem) by (rewrite map_length; assumption). apply map_nth.
Qed.

Lemma profit_by_type : forall f (ps : list Place) (cs : list (nat * Z)), StronglySorted lt (map fst cs) ->
  (forall x c, In (x, c) cs <-> 0 < c /\ c = rcount x ps) ->
  (qsum (fun e => f (fst e) * inject_Z (snd e)) cs == qsum (fun p => f (pl_type p)) ps)%Q.
Proof.
  intros f ps cs. revert ps. induction cs as [|[x c] cs IH]; intros ps S H.
  - destruct ps as [|p ps]; [reflexivity|]. exfalso. apply (H (pl_type p) (rcount (pl_type p) (p :: ps))).
    split; [apply count_in; left; reflexivity|reflexivity].
  - cbn [map fst] in S. apply StronglySorted_inv in S. destruct S as [S1 S2]. rewrite Forall_forall in S2.
    rewrite qsum_cons. cbn [fst snd].
    assert (P : (qsum (fun p => f (pl_type p)) ps == f x * inject_Z (rcount x ps) + qsum (fun p => f (pl_type p)) (filter (fun p => negb (Nat.eqb (pl_type p) x)) ps))%Q).
    { clear. induction ps as [|p ps IH]; [unfold qsum, rcount; cbn [filter length fold_left fold_right]; change (inject_Z (Z.of_nat 0)) with 0%Q; ring|]. rewrite qsum_cons, IH, rcount_cons. cbn [filter].
      destruct (Nat.eqb_spec (pl_type p) x) as [E|E]; cbn [negb]; rewrite ?qsum_cons.
      - rewrite E, inject_Z_plus. ring.
      - rewrite Z.add_0_l. ring. }
    assert (F : forall y, rcount y (filter (fun p => negb (Nat.eqb (pl_type p) x)) ps) = if Nat.eqb y x then 0 else rcount y ps).
    { clear. intro y. induction ps as [|p ps IH]; [destruct (Nat.eqb y x); reflexivity|]. cbn [filter]. rewrite rcount_cons.
      destruct (Nat.eqb_spec (pl_type p) x); cbn [negb]; rewrite ?rcount_cons, IH; destruct (Nat.eqb_spec y x), (Nat.eqb_spec (pl_type p) y); try lia; congruence. }
    destruct (proj1 (H x c)) as [_ Ec]; [left; reflexivity|]. rewrite P, <- Ec, (IH (filter (fun p => negb (Nat.eqb (pl_type p) x)) ps)).
    + reflexivity.
    + assumption.
    + intros y c'. rewrite F. split.
      * intro Hin. assert (x < y)%nat by (apply S2, (in_map fst _ _ Hin)). destruct (Nat.eqb_spec y x); [lia|]. apply H. right. assumption.
      * intros [Hc Ec']. destruct (Nat.eqb_spec y x); [lia|]. destruct (proj2 (H y c') (conj Hc Ec')) as [E|Hin]; [|assumption].
        congruence.
Qed.

Lemma rs_profit : forall n, node_ok d n -> (sn_profit n == qsum (fun p => ri_profit (ritem i (pl_type p))) (rs_items n))%Q.
Proof.
  intros n K. rewrite (nk_profit d n K). symmetry.
  apply (rs_sum ri_profit (fun b => qsum (fun e => nth (fst e) (sd_profits d) 0 * inject_Z (snd e)) (sb_copies b)))%Q; [|assumption].
  intros b Hb. pose proof (Hout b Hb) as B. cbn [rs_sblock sb_copies].
  rewrite (profit_by_type (fun x => nth x (sd_profits d) 0%Q) (bk_items b)); [|apply (bo_sorted _ _ _ B)|apply (bo_copies _ _ _ B)].
  apply qsum_ext. intros p Hp. unfold d, rs_data. cbn [sd_profits]. rewrite nth_profits; [reflexivity|apply (bo_items _ _ _ B p Hp)].
Qed.

Lemma rs_number : forall n, node_ok d n -> sn_items n = Z.of_nat (length (rs_items n)).
Proof.
  intros n K. rewrite (nk_items d n K). unfold rs_items. assert (H : forall p, In p (sn_placed n) -> In p (sn_placed n)) by auto.
  revert H. generalize (sn_placed n) at 1 3 4. intro l. induction l as [|p l IH]; intro H; [rewrite zsum_nil; reflexivity|].
  cbn [flat_map]. rewrite app_length, zsum_cons, IH by (intros; apply H; right; assumption).
  assert (Hp : In p (sn_placed n)) by (apply H; left; reflexivity).
  destruct (nk_inside d n K p Hp) as [Hid _]. unfold d, rs_data in Hid. cbn [sd_blocks] in Hid. rewrite map_length in Hid.
  rewrite rs_sblock_nth by assumption. unfold put, rs_sblock. cbn [sb_number]. rewrite map_length. lia.
Qed.

(** The calls to the solution builder. *)
Lemma rs_calls_desc : forall n, rdesc_run [] (rs_calls t out n) = [mkRD t 1 (rs_items n)].
Proof.
  intro n. unfold rs_calls, rs_items. cbn [rdesc_run app].
  assert (G : forall (l : list Place) ps rest, rdesc_run [mkRD t 1 ps] (map (RAddItem 0) l ++ rest) = rdesc_run [mkRD t 1 (ps ++ l)] rest).
  { induction l as [|p l IH]; intros ps rest; [rewrite app_nil_r; reflexivity|]. cbn [map app rdesc_run upd rd_type rd_copies rd_items].
    rewrite IH, <- app_assoc. reflexivity. }
  assert (M : forall l, flat_map (fun pb : nat * list Z => map (fun p => RAddItem 0 (mkPl (pl_type p) (nth 0 (snd pb) 0 + pl_x p) (nth 1 (snd pb) 0 + pl_y p) (pl_rot p)))
      (bk_items (nth (fst pb) out dummy_rblock))) l
    = map (RAddItem 0) (flat_map (fun pb => put (nth (fst pb) out dummy_rblock) (nth 0 (snd pb) 0) (nth 1 (snd pb) 0)) l)).
  { induction l as [|pb l IH]; [reflexivity|]. cbn [flat_map]. rewrite map_app, IH. unfold put. rewrite map_map. reflexivity. }
  rewrite M. specialize (G (flat_map (fun pb => put (nth (fst pb) out dummy_rblock) (nth 0 (snd pb) 0) (nth 1 (snd pb) 0)) (sn_placed n)) [] []).
  rewrite app_nil_r in G. exact G.
Qed.

Lemma rs_calls_run : forall n, node_ok d n -> exists bins, rb_run i [] (rs_calls t out n) = Some bins.
Proof.
  intros n K. unfold rs_calls. cbn [rb_run rb_call]. unfold rb_add_bin, rin_range. rewrite (proj2 (Nat.ltb_lt _ _) Ht). cbn [andb forallb app].
  assert (G : forall l b, (forall p, In p l -> (pl_type p < length (rin_items i))%nat /\ (pl_rot p = true -> ri_oriented (ritem i (pl_type p)) = false)) ->
    exists bins, rb_run i [b] (map (RAddItem 0) l) = Some bins).
  { induction l as [|p l IH]; intros b H; [eexists; reflexivity|]. cbn [map rb_run rb_call]. unfold rb_add_item.
    destruct (H p (or_introl eq_refl)) as [H1 H2]. rewrite (proj2 (Nat.ltb_lt _ _) H1). cbn [length].
    assert (E : negb (pl_rot p && ri_oriented (ritem i (pl_type p))) = true) by (destruct (pl_rot p); [rewrite H2; reflexivity|reflexivity]).
    rewrite E. cbn [Nat.ltb Nat.leb andb upd]. apply IH. intros; apply H; right; assumption. }
  assert (M : forall l, flat_map (fun pb : nat * list Z => map (fun p => RAddItem 0 (mkPl (pl_type p) (nth 0 (snd pb) 0 + pl_x p) (nth 1 (snd pb) 0 + pl_y p) (pl_rot p)))
      (bk_items (nth (fst pb) out dummy_rblock))) l
    = map (RAddItem 0) (flat_map (fun pb => put (nth (fst pb) out dummy_rblock) (nth 0 (snd pb) 0) (nth 1 (snd pb) 0)) l)).
  { induction l as [|pb l IH]; [reflexivity|]. cbn [flat_map]. rewrite map_app, IH. unfold put. rewrite map_map. reflexivity. }
  rewrite M. apply G. intros p Hp. destruct (ge_places _ _ _ (rs_geometry n K) p Hp) as [A _ _ B]. auto.
Qed.

Lemma rs_history : rwf_resources i -> forall cb n, node_ok d n -> exists s, rhistory i cb (rs_calls t out n) [] = Some s
  /\ rview s = [mkRD t 1 (rs_items n)].
Proof.
  intros Hw cb n K. destruct (rs_calls_run n K) as [bins E].
  assert (Hs : exists s, rhistory i cb (rs_calls t out n) [] = Some s) by (unfold rhistory; rewrite E; eexists; reflexivity).
  destruct Hs as [s Hs]. exists s. split; [assumption|].
  destruct (rhistory_spec i cb Hw (rs_calls t out n) [] s Hs) as [_ V].
  - intros e He. rewrite rs_calls_desc in He. cbn in He. destruct He as [<-|[]]. cbn. lia.
  - rewrite V, rs_calls_desc. reflexivity.
Qed.

End Rect.
