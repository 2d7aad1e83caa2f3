(** * Proofs about the cheap bounds of the rectangle optimize function *)

From Coq Require Import List ZArith QArith Bool Lia Lqa Arith Permutation Sorted.
From Verif Require Import Util Common_Model Common_Spec Common_Proof OneDim_Model OneDim_Spec OneDim_Proof OneDimBuilder_Model OneDimBuilder_Spec
  OneDimBuilder_Proof OneDimSub_Proof OneDimDff_Model OneDimDff_Spec OneDimDff_Proof OneDimBounds_Model OneDimBounds_Spec OneDimBounds_Proof
  Dff_Model Dff_Spec Dff_Axis Dff_Proof
  Rect_Model Rect_Spec RectDff_Proof RectSol_Model RectSol_Spec RectSol_Proof RectSol_Props Bar_Model Bar_Spec Bar_Proof BarPack_Proof
  RectBounds_Model RectBounds_Spec.
Import ListNotations.
Open Scope Z_scope.

Lemma end_snoc1 : forall i l x, bin_end i (l ++ [x]) = start_of i l x + it_length (item_type i x).
Proof.
  intros i [|y l] x; unfold bin_end, start_of, bin_end; simpl tl; simpl app; rewrite ?zsum_cons, ?zsum_nil, ?zsum_app, ?zsum_cons, ?zsum_nil; lia.
Qed.

(** ** What the builder of the relaxation holds *)

Definition rbt1 (bt : RBin) : BinType := mkBT (rb_area bt) (rb_cost bt) (rb_copies bt) (rb_copies_min bt) None [] [] [].
Definition rit1 (it : RItem) : ItemType := mkIT (ri_area it) (ri_profit it) (ri_copies it) (-1) 0 0 max_item_pos None (-1) [].

Lemma relax_bin_ok : forall o its l bt, 0 < rb_area bt -> 1 <= rb_copies bt -> 0 <= rb_copies_min bt <= rb_copies bt -> (0 < rb_cost bt)%Q ->
  calls_from (mkB o its l []) (relax_bin_calls (length l) bt) = BOk (mkB o its (l ++ [rbt1 bt]) []).
Proof.
  intros o its l bt Ha Hc Hm Hp. unfold calls_from, relax_bin_calls. cbn [fold_left bthen bstep].
  unfold b_add_bin. destruct (Z.leb_spec (rb_area bt) 0); [lia|]. cbn [bthen]. unfold set_bins at 1. cbn [b_objective b_items b_bins b_orig_bins].
  unfold b_set_bin_cost. cbn [b_bins]. rewrite last_ok.
  assert (E1 : Qle_bool (rb_cost bt) 0 = false).
  { destruct (Qle_bool (rb_cost bt) 0) eqn:E; [|reflexivity]. apply Qle_bool_iff in E. lra. }
  assert (E2 : Qeq_bool (rb_cost bt) (-1) = false).
  { destruct (Qeq_bool (rb_cost bt) (-1)) eqn:E; [|reflexivity]. apply Qeq_bool_iff in E. lra. }
  rewrite E1, E2. cbn [andb]. rewrite on_last_bin. cbn [bthen bt_length bt_cost bt_copies bt_copies_min bt_max_weight bt_eligibility_ids bt_resources bt_item_type_ids].
  unfold b_set_bin_copies. cbn [b_bins]. rewrite last_ok, last_nth. cbn [bt_copies_min].
  replace ((rb_copies bt <=? 0) || (rb_copies bt <? 0)) with false by (symmetry; apply orb_false_iff; split; [apply Z.leb_gt|apply Z.ltb_ge]; lia).
  rewrite andb_false_r. rewrite on_last_bin. cbn [bthen bt_length bt_cost bt_copies bt_copies_min bt_max_weight bt_eligibility_ids bt_resources bt_item_type_ids].
  unfold b_set_bin_copies_min. cbn [b_bins]. rewrite last_ok, last_nth. cbn [bt_copies].
  destruct (Z.ltb_spec (rb_copies_min bt) 0); [lia|]. destruct (Z.ltb_spec (rb_copies bt) (rb_copies_min bt)); [lia|].
  rewrite andb_false_r. rewrite on_last_bin. reflexivity.
Qed.

Lemma relax_item_ok : forall o l bs it, 1 <= ri_copies it ->
  calls_from (mkB o l bs []) (relax_item_calls (length l) it) = BOk (mkB o (l ++ [rit1 it]) bs []).
Proof.
  intros o l bs it Hc. unfold calls_from, relax_item_calls. cbn [fold_left bthen bstep].
  unfold b_add_item. cbn [bthen]. unfold set_items at 1. cbn [b_objective b_items b_bins b_orig_bins].
  unfold b_set_item_profit. rewrite on_last_item. cbn [bthen it_length it_profit it_copies it_copies_min it_weight it_nesting it_stackability it_max_weight_after it_eligibility it_resource_ids].
  unfold b_set_item_copies. cbn [b_items]. rewrite last_ok.
  replace (ri_copies it <=? 0) with false by (symmetry; apply Z.leb_gt; lia). rewrite andb_false_r, on_last_item. reflexivity.
Qed.

Lemma relax_bins_ok : forall o its suf pre,
  (forall bt, In bt suf -> 0 < rb_area bt /\ 1 <= rb_copies bt /\ 0 <= rb_copies_min bt <= rb_copies bt /\ (0 < rb_cost bt)%Q) ->
  calls_from (mkB o its (map rbt1 pre) []) (flat_map (fun p => relax_bin_calls (fst p) (snd p)) (combine (seq (length pre) (length suf)) suf))
  = BOk (mkB o its (map rbt1 (pre ++ suf)) []).
Proof.
  intros o its suf. induction suf as [|bt suf IH]; intros pre H.
  - rewrite app_nil_r. reflexivity.
  - cbn [length seq combine flat_map fst snd]. rewrite calls_app. destruct (H bt (or_introl eq_refl)) as (A & B & C & D).
    rewrite <- (map_length rbt1 pre) at 1. rewrite relax_bin_ok by assumption. cbn [bthen].
    specialize (IH (pre ++ [bt])). rewrite app_length, map_app in IH. cbn [length map] in IH. rewrite Nat.add_1_r in IH.
    rewrite IH by (intros b Hb; apply H; right; exact Hb). rewrite <- app_assoc. reflexivity.
Qed.

Lemma relax_items_ok : forall o bs suf pre, (forall it, In it suf -> 1 <= ri_copies it) ->
  calls_from (mkB o (map rit1 pre) bs []) (flat_map (fun p => relax_item_calls (fst p) (snd p)) (combine (seq (length pre) (length suf)) suf))
  = BOk (mkB o (map rit1 (pre ++ suf)) bs []).
Proof.
  intros o bs suf. induction suf as [|it suf IH]; intros pre H.
  - rewrite app_nil_r. reflexivity.
  - cbn [length seq combine flat_map fst snd]. rewrite calls_app. specialize (H it (or_introl eq_refl)) as Hc.
    rewrite <- (map_length rit1 pre) at 1. rewrite relax_item_ok by assumption. cbn [bthen].
    specialize (IH (pre ++ [it])). rewrite app_length, map_app in IH. cbn [length map] in IH. rewrite Nat.add_1_r in IH.
    rewrite IH by (intros b Hb; apply H; right; exact Hb). rewrite <- app_assoc. reflexivity.
Qed.

Section Relax.
Variable i : RInstance.
Hypothesis Hr : relaxable i.

Let n := length (rin_items i).
Let m := length (rin_bins i).

Lemma item_pos : forall it, In it (rin_items i) -> 0 < ri_area it /\ 1 <= ri_copies it.
Proof. intros it H. destruct (re_items i Hr it H) as (A & B & C). unfold ri_area. split; [apply Z.mul_pos_pos; assumption|exact C]. Qed.

Lemma bin_pos : forall bt, In bt (rin_bins i) -> 0 < rb_area bt.
Proof. intros bt H. destruct (re_bins i Hr bt H) as (A & B & _). unfold rb_area. apply Z.mul_pos_pos; lia. Qed.

Lemma relaxed_all : relaxed_items i = rin_items i.
Proof.
  unfold relaxed_items. assert (H : forall it, In it (rin_items i) -> negb (ri_area it <=? 0) = true).
  { intros it Hit. apply negb_true_iff, Z.leb_gt. apply item_pos. exact Hit. }
  revert H. generalize (rin_items i). intro l. induction l as [|x l IH]; intro H; [reflexivity|].
  cbn [filter]. rewrite (H x (or_introl eq_refl)), IH; [reflexivity|]. intros it Hit. apply H. right. exact Hit.
Qed.

Definition builder1 : Builder := mkB (Some (rin_objective i)) (map rit1 (rin_items i)) (map rbt1 (rin_bins i)) [].

Lemma relax_builder : calls_from b_new (relax_calls i) = BOk builder1.
Proof.
  unfold relax_calls. rewrite relaxed_all.
  change (calls_from (mkB (Some (rin_objective i)) (map rit1 []) (map rbt1 []) [])
    (flat_map (fun p => relax_bin_calls (fst p) (snd p)) (combine (seq (length (@nil RBin)) (length (rin_bins i))) (rin_bins i))
     ++ flat_map (fun p => relax_item_calls (fst p) (snd p)) (combine (seq (length (@nil RItem)) (length (rin_items i))) (rin_items i))) = BOk builder1).
  rewrite calls_app, relax_bins_ok.
  - cbn [bthen app]. rewrite relax_items_ok; [reflexivity|]. intros it Hit. apply item_pos. exact Hit.
  - intros bt Hbt. destruct (re_bins i Hr bt Hbt) as (_ & _ & C & D & E). pose proof (bin_pos bt Hbt). repeat split; try assumption; lia.
Qed.

Lemma relax_builds : (rin_objective i = OBinPacking -> forall bt, In bt (rin_bins i) -> rb_copies_min bt = 0) ->
  exists i1, b_build builder1 = Built i1.
Proof.
  intro Hmin. unfold b_build, builder1. cbn [b_objective b_items b_bins].
  assert (F : find (fun t => (it_copies t <? it_copies_min t) || (it_length t =? 0)) (map (resolve_min (rin_objective i)) (map rit1 (rin_items i))) = None).
  { rewrite map_map. assert (G : forall it, In it (rin_items i) -> 0 < ri_area it /\ 1 <= ri_copies it) by exact item_pos. revert G.
    generalize (rin_items i). intro l. induction l as [|it l IH]; intro G; [reflexivity|]. cbn [map find].
    destruct (G it (or_introl eq_refl)) as [G1 G2].
    assert (E : (it_copies (resolve_min (rin_objective i) (rit1 it)) <? it_copies_min (resolve_min (rin_objective i) (rit1 it)))
      || (it_length (resolve_min (rin_objective i) (rit1 it)) =? 0) = false).
    { cbn [resolve_min rit1 it_copies it_copies_min it_length Z.eqb]. apply orb_false_iff. split; [|apply Z.eqb_neq; lia].
      apply Z.ltb_ge. destruct (rin_objective i); cbn; lia. }
    rewrite E. apply IH. intros x Hx. apply G. right. exact Hx. }
  rewrite F.
  assert (E1 : existsb (fun t => match rin_objective i with OBinPacking => 0 <? bt_copies_min t | _ => false end) (map rbt1 (rin_bins i)) = false).
  { destruct (existsb _ _) eqn:E; [|reflexivity]. apply existsb_exists in E. destruct E as (t & Ht & E).
    apply in_map_iff in Ht. destruct Ht as (bt & <- & Hbt). destruct (rin_objective i); try discriminate.
    cbn [rbt1 bt_copies_min] in E. rewrite (Hmin eq_refl bt Hbt) in E. discriminate. }
  rewrite E1.
  assert (E2 : forall f : Resource -> bool, existsb (fun t => existsb f (bt_resources t)) (map rbt1 (rin_bins i)) = false).
  { intro f. generalize (rin_bins i). clear. intro l. induction l as [|bt l IH]; [reflexivity|]. exact IH. }
  rewrite E2. destruct (expand_bins _) as [[ids prev] tot]. eexists. reflexivity.
Qed.

(** ** Packings of the relaxation *)

Variable i1 : Instance.
Hypothesis Hb1 : b_build builder1 = Built i1.

Let HD : holds_data builder1 i1 := build_holds builder1 i1 Hb1.

Lemma objective1 : in_objective i1 = rin_objective i.
Proof. pose proof (hd_objective _ _ HD) as H. cbn in H. congruence. Qed.

Lemma items1 : length (in_item_types i1) = n /\ forall x, (x < n)%nat ->
  it_length (item_type i1 x) = ri_area (ritem i x) /\ it_profit (item_type i1 x) = ri_profit (ritem i x) /\ it_copies (item_type i1 x) = ri_copies (ritem i x)
  /\ it_nesting (item_type i1 x) = 0 /\ it_stackability (item_type i1 x) = max_item_pos /\ it_max_weight_after (item_type i1 x) = None
  /\ it_eligibility (item_type i1 x) = -1
  /\ it_copies_min (item_type i1 x) = match rin_objective i with OKnapsack => 0 | _ => ri_copies (ritem i x) end.
Proof.
  destruct (hd_items _ _ HD) as [H1 H2]. cbn [builder1 b_items] in H1, H2. rewrite map_length in H1, H2. split; [exact H1|].
  intros x Hx. specialize (H2 x Hx). cbv zeta in H2.
  assert (E : nth x (map rit1 (rin_items i)) dummy_item = rit1 (ritem i x)).
  { rewrite (nth_indep _ dummy_item (rit1 dummy_ritem)) by (rewrite map_length; exact Hx). apply map_nth. }
  rewrite E in H2. cbn [rit1 it_length it_profit it_copies it_copies_min it_weight it_nesting it_stackability it_max_weight_after it_eligibility Z.eqb] in H2.
  rewrite objective1 in H2. tauto.
Qed.

Lemma bins1 : length (in_bin_types i1) = m /\ forall t, (t < m)%nat ->
  bt_length (bin_type i1 t) = rb_area (rbin i t) /\ bt_cost (bin_type i1 t) = rb_cost (rbin i t) /\ bt_copies (bin_type i1 t) = rb_copies (rbin i t)
  /\ bt_copies_min (bin_type i1 t) = rb_copies_min (rbin i t) /\ bt_max_weight (bin_type i1 t) = None /\ bt_resources (bin_type i1 t) = [].
Proof.
  destruct (hd_bins _ _ HD) as [H1 H2]. cbn [builder1 b_bins] in H1, H2. rewrite map_length in H1, H2. split; [exact H1|].
  intros t Ht. specialize (H2 t Ht). cbv zeta in H2.
  assert (E : nth t (map rbt1 (rin_bins i)) dummy_bin = rbt1 (rbin i t)).
  { rewrite (nth_indep _ dummy_bin (rbt1 dummy_rbin)) by (rewrite map_length; exact Ht). apply map_nth. }
  rewrite E in H2. cbn [rbt1 bt_length bt_cost bt_copies bt_copies_min bt_max_weight bt_eligibility_ids bt_resources] in H2.
  assert (C : rb_copies (rbin i t) =? -1 = false).
  { apply Z.eqb_neq. destruct (re_bins i Hr (rbin i t)) as (_ & _ & C & _); [apply nth_In; exact Ht|]. lia. }
  rewrite C in H2. tauto.
Qed.

Section Packing.
Variable ds : list RDesc.
Hypothesis Hp : packing_ok i ds.

Let ds1 := map relax_desc ds.

Lemma types_ok : forall d, In d ds -> forall p, In p (rd_items d) -> (pl_type p < n)%nat.
Proof. intros d Hd p Hq. destruct (pa_bins i ds Hp d Hd) as (_ & _ & G). apply (pk_type _ _ _ (ge_places _ _ _ G p Hq)). Qed.

Lemma count_relax : forall ps x, Z.of_nat (count_occ Nat.eq_dec (map pl_type ps) x) = rcount x ps.
Proof.
  intros ps x. unfold rcount. f_equal. induction ps as [|p ps IH]; [reflexivity|]. cbn [map count_occ filter].
  destruct (Nat.eq_dec (pl_type p) x) as [E|E]; destruct (Nat.eqb_spec (pl_type p) x); try contradiction; cbn [length]; rewrite IH; reflexivity.
Qed.

Lemma packed_relax : forall x, packed x ds1 = rpacked x ds.
Proof.
  intro x. unfold packed, rpacked, ds1. rewrite zsum_map. apply zsum_ext. intros d _. cbn [relax_desc bd_copies bd_items]. rewrite count_relax. reflexivity.
Qed.

Lemma used_relax : forall t, used_bins t ds1 = rused_bins t ds.
Proof. intro t. unfold used_bins, rused_bins, ds1. rewrite zsum_map. reflexivity. Qed.

Lemma area_fits : forall d, In d ds -> zsum (fun p => ri_area (ritem i (pl_type p))) (rd_items d) <= rb_area (rbin i (rd_type d)).
Proof.
  intros d Hd. destruct (pa_bins i ds Hp d Hd) as (Ht & _ & [G1 G2 _]).
  destruct (re_bins i Hr (rbin i (rd_type d))) as (X & Y & _); [apply nth_In; exact Ht|].
  apply area_bound; try lia; [|exact G2]. intros p Hq. destruct (G1 p Hq) as [T [X1 X2] [Y1 Y2] _].
  destruct (re_items i Hr (ritem i (pl_type p)) (nth_In _ _ T)) as (S1 & S2 & _). unfold pl_w, pl_h. destruct (pl_rot p); lia.
Qed.

Lemma bin_end_plain : forall l, (forall x, In x l -> (x < n)%nat) -> bin_end i1 l = zsum (fun x => ri_area (ritem i x)) l.
Proof.
  intros l H. unfold bin_end.
  rewrite (zsum_ext _ (fun x => it_length (item_type i1 x)) (fun x => ri_area (ritem i x))) by (intros x Hx; destruct items1 as [_ I]; apply (I x (H x Hx))).
  rewrite (zsum_zero _ (fun x => it_nesting (item_type i1 x))); [lia|].
  intros x Hx. destruct items1 as [_ I]. apply (I x). apply H. destruct l; [destruct Hx|right; exact Hx].
Qed.

Lemma small_bins : forall d, In d ds -> Z.of_nat (length (rd_items d)) <= rnumber_of_items i.
Proof.
  intros d Hd. pose proof (rpacked_sum n ds (fun _ => 1) types_ok) as E. cbv beta in E.
  assert (A : zsum (fun j => rpacked j ds * 1) (seq 0 n) <= rnumber_of_items i).
  { unfold rnumber_of_items. rewrite (zsum_seq_nth _ _ dummy_ritem (rin_items i)). fold n. apply zsum_le. intros x Hx. apply in_seq in Hx.
    pose proof (pa_copies i ds Hp x ltac:(fold n; lia)). unfold ritem in *. lia. }
  assert (B : Z.of_nat (length (rd_items d)) <= zsum (fun d => rd_copies d * zsum (fun p : Place => 1) (rd_items d)) ds).
  { assert (L : forall ps : list Place, zsum (fun _ => 1) ps = Z.of_nat (length ps)).
    { induction ps as [|p ps IH]; [reflexivity|]. rewrite zsum_cons, IH. cbn [length]. lia. }
    apply in_split in Hd. destruct Hd as (l1 & l2 & E2).
    assert (P : forall e, In e ds -> 0 <= rd_copies e * zsum (fun p : Place => 1) (rd_items e)).
    { intros e He. destruct (pa_bins i ds Hp e He) as (_ & C & _). rewrite L. apply Z.mul_nonneg_nonneg; lia. }
    assert (C1 : 1 <= rd_copies d) by (apply (pa_bins i ds Hp d); rewrite E2; apply in_elt).
    rewrite E2 in P |- *. rewrite zsum_app, zsum_cons.
    assert (0 <= zsum (fun d0 => rd_copies d0 * zsum (fun _ : Place => 1) (rd_items d0)) l1) by (apply zsum_nonneg; intros e He; apply P; apply in_or_app; left; exact He).
    assert (0 <= zsum (fun d0 => rd_copies d0 * zsum (fun _ : Place => 1) (rd_items d0)) l2) by (apply zsum_nonneg; intros e He; apply P; apply in_or_app; right; right; exact He).
    rewrite L in *. nia. }
  lia.
Qed.

Lemma relax_packing : (rin_objective i <> OKnapsack -> rall_packed i ds) -> PackingOK i1 ds1.
Proof.
  intro Hall. destruct items1 as [L1 I1]. destruct bins1 as [M1 B1]. constructor.
  - intros d1 Hd1. apply in_map_iff in Hd1. destruct Hd1 as (d & <- & Hd).
    destruct (pa_bins i ds Hp d Hd) as (Ht & _ & _). destruct (B1 (rd_type d) Ht) as (E1 & _ & _ & _ & E5 & E6).
    assert (Hin : forall x, In x (map pl_type (rd_items d)) -> (x < n)%nat).
    { intros x Hx. apply in_map_iff in Hx. destruct Hx as (p & <- & Hq). apply (types_ok d Hd p Hq). }
    pose proof (area_fits d Hd) as Hf. rewrite <- (zsum_map _ _ pl_type (fun x => ri_area (ritem i x))) in Hf.
    constructor; cbn [relax_desc bd_type bd_items]; rewrite ?E1, ?E5, ?E6.
    + intros p x q E. rewrite <- end_snoc1.
      assert (Hpx : forall y, In y (p ++ [x]) -> (y < n)%nat) by (intros y Hy; apply Hin; rewrite E; apply in_app_iff; apply in_app_iff in Hy; destruct Hy as [Hy|[Hy|[]]]; [left; exact Hy|right; left; exact Hy]).
      rewrite bin_end_plain by exact Hpx. rewrite E in Hf. replace (p ++ x :: q) with ((p ++ [x]) ++ q) in Hf by (rewrite <- app_assoc; reflexivity).
      rewrite zsum_app in Hf. assert (0 <= zsum (fun x0 => ri_area (ritem i x0)) q); [|lia].
      apply zsum_nonneg. intros y Hy. assert (Hy' : (y < n)%nat) by (apply Hin; rewrite E; apply in_or_app; right; right; exact Hy).
      destruct (item_pos (ritem i y) (nth_In _ _ Hy')). lia.
    + intros p x q _. exact Logic.I.
    + intros x Hx. destruct (I1 x (Hin x Hx)) as (_ & _ & _ & _ & E & _). rewrite E, map_length.
      pose proof (small_bins d Hd). pose proof (re_size i Hr). lia.
    + intros a x mm b E. destruct (I1 x) as (_ & _ & _ & _ & _ & E' & _); [apply Hin; rewrite E; apply in_elt|]. rewrite E'. exact Logic.I.
    + intros x Hx. left. apply (I1 x (Hin x Hx)).
    + intros r [].
  - intros d1 x Hd1 Hx. apply in_map_iff in Hd1. destruct Hd1 as (d & <- & Hd). cbn [relax_desc bd_items] in Hx.
    apply in_map_iff in Hx. destruct Hx as (p & <- & Hq). pose proof (types_ok d Hd p Hq) as T. rewrite packed_relax.
    destruct (I1 _ T) as (_ & _ & E & _). rewrite E. apply (pa_copies i ds Hp). exact T.
  - intros x Hx. rewrite L1 in Hx. rewrite packed_relax. destruct (I1 x Hx) as (_ & _ & _ & _ & _ & _ & _ & E). rewrite E.
    assert (N : 0 <= rpacked x ds).
    { apply zsum_nonneg. intros d Hd. destruct (pa_bins i ds Hp d Hd) as (_ & C & _). apply Z.mul_nonneg_nonneg; unfold rcount; lia. }
    destruct (rin_objective i) eqn:EO; try exact N; rewrite (Hall ltac:(discriminate) x Hx); apply Z.le_refl.
Qed.

Lemma relax_available : (forall t, (t < m)%nat -> rused_bins t ds <= rb_copies (rbin i t)) -> available_bins i1 ds1.
Proof.
  intro H. destruct bins1 as [M1 B1]. split.
  - intros d1 Hd1. apply in_map_iff in Hd1. destruct Hd1 as (d & <- & Hd). cbn [relax_desc bd_type bd_copies].
    destruct (pa_bins i ds Hp d Hd) as (Ht & C & _). rewrite M1. split; assumption.
  - intros t Ht. rewrite M1 in Ht. rewrite used_relax. destruct (B1 t Ht) as (_ & _ & E & _). rewrite E. apply H. exact Ht.
Qed.

Lemma relax_all : rall_packed i ds -> all_packed i1 ds1.
Proof.
  intros H x Hx. destruct items1 as [L1 I1]. rewrite L1 in Hx. rewrite packed_relax. destruct (I1 x Hx) as (_ & _ & E & _). rewrite E. apply H. exact Hx.
Qed.

Lemma relax_order : rin_order i ds -> OrderOK i1 ds1.
Proof.
  intros H t u Htu Hu. destruct bins1 as [M1 B1]. rewrite M1 in Htu. rewrite used_relax in *.
  destruct (B1 t ltac:(lia)) as (_ & _ & E & _). rewrite E. apply (H t u); assumption.
Qed.

Lemma relax_profit : (profit_of i1 ds1 == rprofit i ds)%Q.
Proof.
  unfold profit_of, rprofit, ds1. rewrite qsum_map. apply qsum_ext. intros d Hd. cbn [relax_desc bd_copies bd_items].
  destruct bins1 as [M1 B1]. destruct (pa_bins i ds Hp d Hd) as (Ht & _ & _). destruct (B1 (rd_type d) Ht) as (_ & _ & _ & _ & _ & E6).
  unfold penalties. cbn [relax_desc bd_type]. rewrite E6. change (qsum _ (@nil Resource)) with 0%Q.
  rewrite qsum_map, (qsum_ext _ (fun p => it_profit (item_type i1 (pl_type p))) (fun p => ri_profit (ritem i (pl_type p)))); [ring|].
  intros p Hq. destruct items1 as [_ I1]. destruct (I1 _ (types_ok d Hd p Hq)) as (_ & E & _). rewrite E. reflexivity.
Qed.

Lemma relax_cost : (cost_of i1 ds1 == packing_cost i ds)%Q.
Proof.
  unfold cost_of, packing_cost, ds1. rewrite qsum_map. apply qsum_ext. intros d Hd. cbn [relax_desc bd_copies bd_type].
  destruct bins1 as [M1 B1]. destruct (pa_bins i ds Hp d Hd) as (Ht & _ & _). destruct (B1 (rd_type d) Ht) as (_ & E & _). rewrite E. reflexivity.
Qed.

Lemma relax_count : zsum bd_copies ds1 = rbins_used ds.
Proof. unfold rbins_used, ds1. rewrite zsum_map. reflexivity. Qed.

End Packing.
End Relax.

(** ** The claims of the relaxation *)

Theorem onedimensional_right : forall i solve, relaxable i ->
  rin_objective i = OBinPacking \/ rin_objective i = OKnapsack \/ rin_objective i = OVariableSizedBinPacking ->
  (rin_objective i = OBinPacking -> forall bt, In bt (rin_bins i) -> rb_copies_min bt = 0) ->
  (forall i1, bounds1_right i1 (solve i1)) ->
  rclaim_right i (optimize_onedimensional_bound solve i).
Proof.
  intros i solve Hr Ho Hmin Hs. unfold optimize_onedimensional_bound. rewrite (relax_builder i Hr).
  destruct (relax_builds i Hr Hmin) as (i1 & Hb1). rewrite Hb1. specialize (Hs i1).
  destruct Ho as [E|[E|E]]; rewrite E; cbn [rclaim_right].
  - intros ds BP Hall Hord. pose proof (bp_packing _ _ BP) as Hp. rewrite <- relax_count. apply (br_bins _ _ Hs).
    + apply (relax_packing i Hr i1 Hb1 ds Hp). intros _. exact Hall.
    + apply (relax_available i Hr i1 Hb1 ds Hp). intros t Ht. apply (bp_bins _ _ BP t Ht).
    + apply (relax_all i i1 Hb1 ds Hall).
    + apply (relax_order i Hr i1 Hb1 ds Hord).
  - intros ds BP. pose proof (bp_packing _ _ BP) as Hp. pose proof (net_profit_bound i ds BP) as N.
    assert (P : (profit_of i1 (map relax_desc ds) <= b1_profit (solve i1))%Q).
    { apply (br_profit _ _ Hs).
      - rewrite (objective1 i i1 Hb1). exact E.
      - apply (relax_packing i Hr i1 Hb1 ds Hp). intro N'. contradiction.
      - apply (relax_available i Hr i1 Hb1 ds Hp). intros t Ht. apply (bp_bins _ _ BP t Ht). }
    rewrite (relax_profit i Hr i1 Hb1 ds Hp) in P. lra.
  - intros ds BP Hall. pose proof (bp_packing _ _ BP) as Hp. rewrite <- (relax_cost i Hr i1 Hb1 ds Hp). apply (br_cost _ _ Hs).
    + apply (relax_packing i Hr i1 Hb1 ds Hp). intros _. exact Hall.
    + apply (relax_available i Hr i1 Hb1 ds Hp). intros t Ht. apply (bp_bins _ _ BP t Ht).
    + apply (relax_all i i1 Hb1 ds Hall).
    + intros t Ht. destruct (bins1 i Hr i1 Hb1) as [M1 B1]. rewrite M1 in Ht. rewrite used_relax. destruct (B1 t Ht) as (_ & _ & _ & E4 & _). rewrite E4.
      apply (bp_bins _ _ BP t Ht).
Qed.

(** ** Trivial bounds *)

Section Trivial.
Variable i : RInstance.
Hypothesis Hr : relaxable i.
Variable ds : list RDesc.
Hypothesis BP : bar_packing i ds.

Let n := length (rin_items i).
Let m := length (rin_bins i).
Let Hp : packing_ok i ds := bp_packing i ds BP.
Let area j := ri_area (ritem i j).

Lemma tarea_gt0 : forall j, (j < n)%nat -> 0 < area j.
Proof. intros j Hj. apply (item_pos i Hr). apply nth_In. exact Hj. Qed.

Lemma tpacked_ge0 : forall j, 0 <= rpacked j ds.
Proof. intro j. apply zsum_nonneg. intros d Hd. destruct (pa_bins i ds Hp d Hd) as (_ & C & _). apply Z.mul_nonneg_nonneg; unfold rcount; lia. Qed.

Lemma tused_ge0 : forall t, 0 <= rused_bins t ds.
Proof. intro t. apply zsum_nonneg. intros d Hd. destruct (pa_bins i ds Hp d Hd) as (_ & C & _). destruct (Nat.eqb (rd_type d) t); lia. Qed.

Lemma tby_type : forall g : nat -> Z, zsum (fun d => rd_copies d * g (rd_type d)) ds = zsum (fun t => rused_bins t ds * g t) (seq 0 m).
Proof.
  intro g. rewrite <- (zsum_group _ rd_type _ m ds) by (intros d Hd; apply (pa_bins i ds Hp d Hd)).
  apply zsum_ext. intros t _. unfold rused_bins. clear. induction ds as [|d l IH]; [reflexivity|].
  cbn [filter]. rewrite zsum_cons. destruct (Nat.eqb_spec (rd_type d) t); [rewrite zsum_cons, IH; subst; lia|rewrite IH; lia].
Qed.

Lemma tpacked_area : zsum (fun j => rpacked j ds * area j) (seq 0 n) <= zsum (fun t => rused_bins t ds * rb_area (rbin i t)) (seq 0 m).
Proof.
  rewrite (rpacked_sum n ds area (types_ok i ds Hp)), <- tby_type. apply zsum_le. intros d Hd.
  pose proof (area_fits i Hr ds Hp d Hd). destruct (pa_bins i ds Hp d Hd) as (_ & C & _). unfold area. apply Z.mul_le_mono_nonneg_l; lia.
Qed.

Lemma tcapacity : rtotal_capacity i = zsum (fun t => rb_copies (rbin i t) * rb_area (rbin i t)) (seq 0 m).
Proof.
  unfold rtotal_capacity. rewrite fold_sum, (zsum_seq_nth _ _ dummy_rbin). simpl. apply zsum_ext. intros t _. unfold rbin. lia.
Qed.

Lemma titem_area : ritem_area i = zsum (fun j => ri_copies (ritem i j) * area j) (seq 0 n).
Proof.
  unfold ritem_area. rewrite fold_sum, (zsum_seq_nth _ _ dummy_ritem). simpl. apply zsum_ext. intros t _. unfold area, ritem. lia.
Qed.

Lemma tused_area : zsum (fun t => rused_bins t ds * rb_area (rbin i t)) (seq 0 m) <= rtotal_capacity i.
Proof.
  rewrite tcapacity. apply zsum_le. intros t Ht. apply in_seq in Ht.
  pose proof (bin_pos i Hr (rbin i t) (nth_In _ _ (proj2 Ht))). pose proof (bp_bins _ _ BP t ltac:(fold m; lia)). apply Z.mul_le_mono_nonneg_r; lia.
Qed.

(** A packed item type fits some bin type. *)
Lemma tpacked_fits : forall x, rpacked x ds <> 0 -> rfits_some_bin i x = true.
Proof.
  intros x Hx. assert (H : exists d p, In d ds /\ In p (rd_items d) /\ pl_type p = x).
  { unfold rpacked in Hx. clear BP Hp. induction ds as [|d l IH]; [contradiction Hx; reflexivity|]. rewrite zsum_cons in Hx.
    destruct (Z.eq_dec (rcount x (rd_items d)) 0) as [E|E].
    - rewrite E, Z.mul_0_r in Hx. destruct (IH Hx) as (e & p & A & B). exists e, p. split; [right; exact A|exact B].
    - unfold rcount in E. destruct (filter (fun p => Nat.eqb (pl_type p) x) (rd_items d)) as [|p r] eqn:F; [contradiction E; reflexivity|].
      assert (G : In p (filter (fun p => Nat.eqb (pl_type p) x) (rd_items d))) by (rewrite F; left; reflexivity).
      apply filter_In in G. destruct G as [G1 G2]. exists d, p. split; [left; reflexivity|]. split; [exact G1|apply Nat.eqb_eq; exact G2]. }
  destruct H as (d & p & Hd & Hq & <-). destruct (pa_bins i ds Hp d Hd) as (Ht & _ & [G1 _ _]). destruct (G1 p Hq) as [T [X1 X2] [Y1 Y2] R].
  unfold rfits_some_bin. apply existsb_exists. exists (rbin i (rd_type d)). split; [apply nth_In; exact Ht|].
  unfold ritem_fits. apply andb_true_iff. split.
  - unfold pl_xe, pl_w, pl_ye, pl_h in *. destruct (pl_rot p).
    + rewrite (R eq_refl). apply orb_true_iff. right. cbn [negb andb]. apply andb_true_iff. split; apply Z.leb_le; lia.
    + apply orb_true_iff. left. apply andb_true_iff. split; apply Z.leb_le; lia.
  - unfold religible. apply orb_true_iff. destruct (bp_eligible _ _ BP d p Hd Hq) as [E|E]; [left; apply Z.eqb_eq; exact E|right].
    apply existsb_exists. exists (ri_eligibility (ritem i (pl_type p))). split; [exact E|apply Z.eqb_refl].
Qed.

Definition rditem (j : nat) : DItem := mkDI (ri_profit (ritem i j)) (area j) (ri_copies (ritem i j)).

Lemma rfill_dantzig : forall order remaining bound, (forall j, In j order -> (j < n)%nat) ->
  (rtrivial_fill i order remaining bound == dantzig_fill (map rditem order) (inject_Z remaining) bound)%Q.
Proof.
  assert (DE : forall l r r' b b', (r == r' -> b == b' -> dantzig_fill l r b == dantzig_fill l r' b')%Q).
  { induction l as [|it l IH]; intros r r' b b' Er Eb; simpl; [assumption|].
    assert (E1 : Qle_bool r 0 = Qle_bool r' 0) by (rewrite Er; reflexivity). rewrite E1.
    destruct (Qle_bool r' 0); [assumption|].
    assert (E2 : Qle_bool (inject_Z (di_volume it * di_copies it)) r = Qle_bool (inject_Z (di_volume it * di_copies it)) r')
      by (rewrite Er; reflexivity). rewrite E2.
    destruct (Qle_bool _ r'); apply IH; rewrite ?Er, ?Eb; reflexivity. }
  induction order as [|j order IH]; intros remaining bound H; [reflexivity|].
  cbn [rtrivial_fill map dantzig_fill].
  assert (E0 : Qle_bool (inject_Z remaining) 0 = (remaining <=? 0)).
  { change 0%Q with (inject_Z 0). apply eq_true_iff_eq. rewrite Qle_bool_iff, <- Zle_Qle, Z.leb_le. reflexivity. }
  rewrite E0. destruct (Z.leb_spec remaining 0); [reflexivity|].
  pose proof (tarea_gt0 j (H j (or_introl eq_refl))) as Ha. cbn [rditem di_volume di_copies di_profit]. fold (area j).
  destruct (Z.leb_spec (area j) 0); [lia|].
  assert (E1 : Qle_bool (inject_Z (area j * ri_copies (ritem i j))) (inject_Z remaining) = (area j * ri_copies (ritem i j) <=? remaining)).
  { apply eq_true_iff_eq. rewrite Qle_bool_iff, <- Zle_Qle, Z.leb_le. reflexivity. }
  rewrite E1. destruct (Z.leb_spec (area j * ri_copies (ritem i j)) remaining).
  - rewrite IH by (intros k Hk; apply H; right; assumption). apply DE; [|reflexivity].
    unfold Zminus. rewrite inject_Z_plus, inject_Z_opp. reflexivity.
  - rewrite IH by (intros k Hk; apply H; right; assumption). apply DE; reflexivity.
Qed.

Lemma rtrivial_knapsack_valid : forall order,
  (forall it, In it (rin_items i) -> (0 <= ri_profit it)%Q) ->
  sorted_by (rtrivial_before i) (rtrivial_items i) order ->
  (rnet_profit i ds <= rtrivial_knapsack i order)%Q.
Proof.
  intros order Hprofit [Hperm Hsort]. pose proof (net_profit_bound i ds BP) as HN. unfold rtrivial_knapsack.
  assert (HS : (rprofit i ds == qsum (fun j => inject_Z (rpacked j ds) * ri_profit (ritem i j)) (seq 0 n))%Q).
  { unfold rprofit. rewrite (rqpacked_sum n ds _ (types_ok i ds Hp)). reflexivity. }
  assert (Hin : forall j, In j order -> (j < n)%nat /\ rfits_some_bin i j = true).
  { intros j Hj. apply (Permutation_in j (Permutation_sym Hperm)) in Hj. apply filter_In in Hj.
    destruct Hj as [Hj ?]. apply in_seq in Hj. fold n in Hj. split; [lia|assumption]. }
  rewrite rfill_dantzig by (intros j Hj; apply Hin; assumption).
  set (counts := map (fun j => rpacked j ds) order).
  assert (Ep : (qsum (fun j => inject_Z (rpacked j ds) * ri_profit (ritem i j)) (seq 0 n) == choice_profit (map rditem order) counts)%Q).
  { transitivity (qsum (fun j => inject_Z (rpacked j ds) * ri_profit (ritem i j)) order)%Q.
    - rewrite <- (qsum_perm _ _ _ _ Hperm). unfold rtrivial_items. fold n. generalize (seq 0 n). intro l.
      induction l as [|x l IH]; [reflexivity|]. cbn [filter]. rewrite qsum_cons.
      destruct (rfits_some_bin i x) eqn:E; [rewrite qsum_cons, IH; reflexivity|].
      assert (E0 : rpacked x ds = 0).
      { destruct (Z.eq_dec (rpacked x ds) 0) as [|N]; [assumption|]. apply tpacked_fits in N. congruence. }
      rewrite E0, IH. change (inject_Z 0) with 0%Q. ring.
    - unfold choice_profit, counts. clear. induction order as [|j l IH]; [reflexivity|].
      cbn [map combine]. rewrite !qsum_cons, IH. cbn [fst snd rditem di_profit]. ring. }
  assert (Ev : choice_volume (map rditem order) counts = zsum (fun j => rpacked j ds * area j) order).
  { unfold choice_volume, counts. clear. induction order as [|j l IH]; [reflexivity|].
    cbn [map combine]. rewrite !zsum_cons, IH. cbn [fst snd rditem di_volume]. lia. }
  assert (Hv : choice_volume (map rditem order) counts <= rtotal_capacity i).
  { rewrite Ev. pose proof tpacked_area as H1. pose proof tused_area as H2.
    assert (zsum (fun j => rpacked j ds * area j) order <= zsum (fun j => rpacked j ds * area j) (seq 0 n)); [|lia].
    rewrite <- (zsum_perm _ _ _ _ Hperm). unfold rtrivial_items. fold n.
    assert (G : forall l, (forall j, In j l -> (j < n)%nat) ->
      zsum (fun j => rpacked j ds * area j) (filter (rfits_some_bin i) l) <= zsum (fun j => rpacked j ds * area j) l).
    { induction l as [|x l IH]; intro Hl; [simpl; lia|]. cbn [filter]. rewrite zsum_cons.
      specialize (IH (fun j Hj => Hl j (or_intror Hj))).
      pose proof (tpacked_ge0 x). pose proof (tarea_gt0 x (Hl x (or_introl eq_refl))).
      destruct (rfits_some_bin i x); [rewrite zsum_cons; lia|nia]. }
    apply G. intros j Hj. apply in_seq in Hj. lia. }
  assert (Hg : good_items (map rditem order)).
  { apply Forall_forall. intros it Hit. apply in_map_iff in Hit. destruct Hit as (j & <- & Hj).
    destruct (Hin j Hj) as [Hj' _]. cbn [rditem di_profit di_volume di_copies]. split; [apply Hprofit; apply nth_In; assumption|].
    split; [apply tarea_gt0; assumption|]. destruct (item_pos i Hr (ritem i j) (nth_In _ _ Hj')). lia. }
  assert (Hc : choice (map rditem order) counts).
  { unfold choice, counts. revert Hin. generalize order. intro o. induction o as [|j l IH]; intro Hin; simpl; constructor; [|apply IH; intros k Hk; apply Hin; right; exact Hk].
    cbn [rditem di_copies]. pose proof (tpacked_ge0 j). destruct (Hin j (or_introl eq_refl)) as [Hj _]. pose proof (pa_copies i ds Hp j Hj). lia. }
  assert (Hs : ratio_sorted (map rditem order)).
  { unfold ratio_sorted. clear -Hsort. induction Hsort as [|x l Hl IH Hx]; simpl; constructor; [assumption|].
    apply Forall_forall. intros b Hb. apply in_map_iff in Hb. destruct Hb as (y & <- & Hy).
    rewrite Forall_forall in Hx. specialize (Hx y Hy). unfold rtrivial_before in Hx.
    unfold Qltb in Hx. apply negb_false_iff in Hx. apply Qle_bool_iff in Hx. exact Hx. }
  assert (HR : exists rho, (0 <= rho)%Q /\ forall it, In it (map rditem order) -> (di_profit it <= rho * inject_Z (di_volume it))%Q).
  { clear -Hg. induction Hg as [|it l Hit Hg IH].
    - exists 0%Q. split; [lra|]. intros it [].
    - destruct IH as (rho & R1 & R2). destruct Hit as (G1 & G2 & _).
      exists (rho + di_profit it)%Q. split; [lra|].
      assert (V1 : (1 <= inject_Z (di_volume it))%Q) by (change 1%Q with (inject_Z 1); rewrite <- Zle_Qle; lia).
      intros y [<-|Hy]; [nra|]. specialize (R2 y Hy).
      unfold good_items in Hg. rewrite Forall_forall in Hg. destruct (Hg y Hy) as (_ & G3 & _).
      assert (0 < inject_Z (di_volume y))%Q by (change 0%Q with (inject_Z 0); rewrite <- Zlt_Qlt; assumption). nra. }
  destruct HR as (rho & R1 & R2).
  pose proof (choice_volume_nonneg _ _ Hc Hg) as Hv0. rewrite Zle_Qle in Hv.
  assert (HU : (choice_profit (map rditem order) counts
    <= dantzig_fill (map rditem order) (inject_Z (rtotal_capacity i)) 0 + rho * 0)%Q).
  { apply dantzig_fill_upper; try assumption; lra. }
  rewrite HS in HN. lra.
Qed.

(** ** Bin packing *)

Lemma rtrivial_bins_relax : forall bts remaining bound, rtrivial_bins bts remaining bound = trivial_bins (map rbt1 bts) remaining bound.
Proof.
  induction bts as [|bt bts IH]; intros remaining bound; [reflexivity|]. cbn [rtrivial_bins map trivial_bins rbt1 bt_length bt_copies].
  destruct (remaining <=? 0); [reflexivity|]. destruct (rb_area bt <=? 0); apply IH.
Qed.

Lemma rordered : rin_order i ds -> forall bts s, (forall k, (k < length bts)%nat -> nth k bts dummy_rbin = rbin i (s + k)) ->
  (s + length bts = m)%nat -> ordered_use (map rbt1 bts) (map (fun t => rused_bins t ds) (seq s (length bts))).
Proof.
  intros Ho bts. induction bts as [|bt bts IH]; intros s Hn Hl; [exact Logic.I|].
  cbn [map length seq ordered_use]. cbn [length] in Hl. assert (Eb : bt = rbin i s).
  { specialize (Hn 0%nat ltac:(cbn [length]; lia)). cbn [nth] in Hn. rewrite Nat.add_0_r in Hn. assumption. }
  split; [|split].
  - rewrite Eb. cbn [rbt1 bt_copies]. split; [apply tused_ge0|]. apply (bp_bins _ _ BP s). fold m. lia.
  - destruct (Z.eq_dec (rused_bins s ds) (rb_copies bt)) as [|N]; [left; assumption|right].
    apply Forall_forall. intros v Hv. apply in_map_iff in Hv. destruct Hv as (t & <- & Ht). apply in_seq in Ht.
    destruct (Z.eq_dec (rused_bins t ds) 0) as [|N0]; [assumption|exfalso]. apply N. rewrite Eb.
    apply (Ho s t); [fold m; lia|]. pose proof (tused_ge0 t). lia.
  - apply IH; [|lia]. intros k Hk. specialize (Hn (Datatypes.S k) ltac:(cbn [length]; lia)). cbn [nth] in Hn.
    rewrite Hn. f_equal. lia.
Qed.

Lemma rtrivial_bins_valid : rall_packed i ds -> rin_order i ds -> rtrivial_bins (rin_bins i) (ritem_area i) 0 <= rbins_used ds.
Proof.
  intros Hall Ho. rewrite rtrivial_bins_relax.
  set (us := map (fun t => rused_bins t ds) (seq 0 m)).
  assert (HU : ordered_use (map rbt1 (rin_bins i)) us) by (apply (rordered Ho (rin_bins i) 0%nat); [intros k Hk|]; reflexivity).
  assert (Es : zsum (fun u => u) us = rbins_used ds).
  { unfold us. rewrite zsum_map. rewrite (zsum_ext _ _ (fun t => rused_bins t ds * 1)) by (intros; lia).
    rewrite <- (tby_type (fun _ => 1)). unfold rbins_used. apply zsum_ext. intros; lia. }
  rewrite <- Es. change (zsum (fun u => u) us) with (0 + zsum (fun u => u) us) at 1.
  apply trivial_bins_le; [assumption| |].
  - intros bt Hb. apply in_map_iff in Hb. destruct Hb as (b & <- & Hb). cbn [rbt1 bt_length]. pose proof (bin_pos i Hr b Hb). lia.
  - rewrite titem_area. pose proof tpacked_area as HL.
    assert (E1 : zsum (fun j => ri_copies (ritem i j) * area j) (seq 0 n) = zsum (fun j => rpacked j ds * area j) (seq 0 n)).
    { apply zsum_ext. intros j Hj. apply in_seq in Hj. rewrite (Hall j) by (fold n; lia). reflexivity. }
    rewrite E1. etransitivity; [exact HL|]. apply Z.eq_le_incl. unfold us.
    rewrite (zsum_seq_nth _ _ (rbt1 dummy_rbin, rused_bins 0 ds) (combine _ _)).
    rewrite combine_length, !map_length, seq_length. fold m. rewrite Nat.min_id. apply zsum_ext. intros t Ht. apply in_seq in Ht.
    rewrite combine_nth by (rewrite !map_length, seq_length; reflexivity). cbn [fst snd].
    rewrite (map_nth (fun t => rused_bins t ds) _ 0%nat), seq_nth by lia. rewrite (map_nth rbt1). reflexivity.
Qed.

End Trivial.

(** ** Open dimension *)

Lemma fold_max_ge : forall (A : Type) (f : A -> Z) l b, b <= fold_left (fun b it => Z.max b (f it)) l b
  /\ (forall it, In it l -> f it <= fold_left (fun b it => Z.max b (f it)) l b).
Proof.
  intros A f l. induction l as [|x l IH]; intro b; cbn [fold_left]; [split; [lia|intros it []]|].
  destruct (IH (Z.max b (f x))) as [H1 H2]. split; [lia|]. intros it [<-|H]; [lia|apply H2; exact H].
Qed.
Lemma fold_max_le : forall (A : Type) (f : A -> Z) l b c, b <= c -> (forall it, In it l -> f it <= c) ->
  fold_left (fun b it => Z.max b (f it)) l b <= c.
Proof.
  intros A f l. induction l as [|x l IH]; intros b c Hb H; cbn [fold_left]; [exact Hb|]. apply IH.
  - specialize (H x (or_introl eq_refl)). lia.
  - intros it Hit. apply H. right. exact Hit.
Qed.

Lemma rtrivial_open_valid : forall i horizontal items, relaxable i -> bar_packing i [mkRD 0 1 items] -> rall_packed i [mkRD 0 1 items] ->
  rtrivial_open i horizontal <= (if horizontal then rightmost i items else topmost i items).
Proof.
  intros i horizontal items Hr BP Hall. pose proof (bp_packing _ _ BP) as Hp.
  destruct (pa_bins i _ Hp _ (or_introl eq_refl)) as (Ht & _ & [G1 G2 _]). cbn [rd_type rd_items] in *.
  destruct (re_bins i Hr (rbin i 0)) as (X & Y & _); [apply nth_In; exact Ht|].
  assert (Hpos : forall p, In p items -> 0 < pl_w i p /\ 0 < pl_h i p).
  { intros p Hq. destruct (G1 p Hq) as [T _ _ _]. destruct (re_items i Hr (ritem i (pl_type p)) (nth_In _ _ T)) as (S1 & S2 & _). unfold pl_w, pl_h. destruct (pl_rot p); lia. }
  pose proof (rightmost_nonneg i items) as [N1 N2].
  set (R := rightmost i items) in *. set (T := topmost i items) in *.
  assert (HR : forall p, In p items -> pl_xe i p <= R) by (intros p Hq; apply max_in, in_map; exact Hq).
  assert (HT : forall p, In p items -> pl_ye i p <= T) by (intros p Hq; apply max_in, in_map; exact Hq).
  assert (A : ritem_area i = zsum (fun p => ri_area (ritem i (pl_type p))) items).
  { rewrite titem_area. set (area := fun j => ri_area (ritem i j)).
    assert (E : zsum (fun j => ri_copies (ritem i j) * ri_area (ritem i j)) (seq 0 (length (rin_items i)))
      = zsum (fun j => rpacked j [mkRD 0 1 items] * area j) (seq 0 (length (rin_items i)))).
    { apply zsum_ext. intros j Hj. apply in_seq in Hj. rewrite (Hall j) by lia. reflexivity. }
    rewrite E, (rpacked_sum _ _ area (types_ok i _ Hp)). rewrite zsum_cons, zsum_nil. cbn [rd_copies rd_items]. unfold area. lia. }
  assert (AX : ritem_area i <= R * rb_y (rbin i 0)).
  { rewrite A. apply area_bound; try lia; [|exact G2]. intros p Hq. destruct (G1 p Hq) as [_ [X1 X2] [Y1 Y2] _]. destruct (Hpos p Hq). pose proof (HR p Hq). lia. }
  assert (AY : ritem_area i <= rb_x (rbin i 0) * T).
  { rewrite A. apply area_bound; try lia; [|exact G2]. intros p Hq. destruct (G1 p Hq) as [_ [X1 X2] [Y1 Y2] _]. destruct (Hpos p Hq). pose proof (HT p Hq). lia. }
  assert (A0 : 0 <= ritem_area i).
  { rewrite A. apply zsum_nonneg. intros p Hq. destruct (G1 p Hq) as [Tp _ _ _]. destruct (item_pos i Hr (ritem i (pl_type p)) (nth_In _ _ Tp)). lia. }
  unfold rtrivial_open. apply fold_max_le.
  - destruct horizontal.
    + destruct (Z.ltb_spec 0 (rb_y (rbin i 0))); [|lia]. rewrite Z.quot_div_nonneg by lia.
      apply Z.lt_succ_r. apply Z.div_lt_upper_bound; nia.
    + destruct (Z.ltb_spec 0 (rb_x (rbin i 0))); [|lia]. rewrite Z.quot_div_nonneg by lia.
      apply Z.lt_succ_r. apply Z.div_lt_upper_bound; nia.
  - intros it Hit. apply In_nth with (d := dummy_ritem) in Hit. destruct Hit as (x & Hx & <-). fold (ritem i x).
    destruct (re_items i Hr (ritem i x) (nth_In _ _ Hx)) as (_ & _ & C).
    assert (E : exists p, In p items /\ pl_type p = x).
    { specialize (Hall x Hx). unfold rpacked in Hall. rewrite zsum_cons, zsum_nil in Hall. cbn [rd_copies rd_items] in Hall. unfold rcount in Hall.
      destruct (filter (fun p => Nat.eqb (pl_type p) x) items) as [|p r] eqn:F; [cbn [length] in Hall; lia|].
      assert (G : In p (filter (fun p => Nat.eqb (pl_type p) x) items)) by (rewrite F; left; reflexivity).
      apply filter_In in G. destruct G as [H1 H2]. exists p. split; [exact H1|apply Nat.eqb_eq; exact H2]. }
    destruct E as (p & Hq & <-). destruct (G1 p Hq) as [_ [X1 X2] [Y1 Y2] Rot]. pose proof (HR p Hq) as B1. pose proof (HT p Hq) as B2.
    unfold min_extent, pl_xe, pl_ye, pl_w, pl_h in *. destruct (pl_rot p).
    + rewrite (Rot eq_refl). destruct horizontal; lia.
    + destruct (ri_oriented _), horizontal; lia.
Qed.

Theorem trivial_right : forall i order, relaxable i ->
  (rin_objective i = OKnapsack -> (forall it, In it (rin_items i) -> (0 <= ri_profit it)%Q) /\ sorted_by (rtrivial_before i) (rtrivial_items i) order) ->
  rclaim_right i (optimize_trivial_bound i order).
Proof.
  intros i order Hr Hk. unfold optimize_trivial_bound. destruct (rin_objective i) eqn:E; try exact Logic.I; cbn [rclaim_right].
  - intros ds BP Hall Ho. apply rtrivial_bins_valid; assumption.
  - intros items BP Hall. apply (rtrivial_open_valid i true items Hr BP Hall).
  - intros items BP Hall. apply (rtrivial_open_valid i false items Hr BP Hall).
  - intros ds BP. destruct (Hk eq_refl) as [H1 H2]. apply rtrivial_knapsack_valid; assumption.
Qed.

(** ** Second solve of the last bin *)

Lemma mapped_same : forall d, rmapped_desc [] [] (rd_copies d) d = d.
Proof.
  intros [t c ps]. unfold rmapped_desc. cbn [rd_type rd_copies rd_items rmapped]. f_equal.
  induction ps as [|p ps IH]; [reflexivity|]. cbn [map]. rewrite IH. destruct p. reflexivity.
Qed.

Lemma firstn_calls : forall best last k, (k <= length (rc_bins (rs_core best)))%nat ->
  flat_map rcall_bins (map (fun pos => RAppendBin best pos (rs_copies (nth pos (rc_bins (rs_core best)) last)) [] []) (seq 0 k)) = firstn k (rview best).
Proof.
  intros best last k. induction k as [|k IH]; intro Hk; [reflexivity|].
  rewrite seq_S, map_app, flat_map_app, IH by lia. cbn [map flat_map rcall_bins Nat.add]. rewrite app_nil_r.
  assert (Hl : (k < length (rview best))%nat) by (unfold rview; rewrite map_length; lia).
  assert (E : nth_error (rview best) k = Some (rview_bin (nth k (rc_bins (rs_core best)) last))).
  { unfold rview. apply map_nth_error. apply nth_error_nth'. lia. }
  rewrite E. change (rs_copies (nth k (rc_bins (rs_core best)) last)) with (rd_copies (rview_bin (nth k (rc_bins (rs_core best)) last))).
  rewrite mapped_same. revert E. generalize (rview_bin (nth k (rc_bins (rs_core best)) last)). clear. intros b E. revert k E. induction (rview best) as [|d l IH]; intros [|k] E; cbn in *; try discriminate.
  - injection E as ->. reflexivity.
  - f_equal. apply IH. exact E.
Qed.

Lemma post_view : forall i cb best sub d d1 rest ds s, rwf_resources i -> post_process i cb best sub = Some (Some s) ->
  rview best = ds ++ [d] -> (forall e, In e ds -> 0 <= rd_copies e) -> rview sub = d1 :: rest ->
  rd_copies d = 1 /\ rc_number_of_items (rs_core sub) = Z.of_nat (length (rd_items d)) /\
  let kept := firstn (length ds - 1) ds in
  exists iids, rview s = kept ++ [rmapped_desc [rd_type d] iids 1 d1] /\ rhistory i cb [] (rebuild_calls i best sub (last (rc_bins (rs_core best)) (rraw_bin 0 0 []))) = Some s
    /\ rcopies_nonneg [] (rebuild_calls i best sub (last (rc_bins (rs_core best)) (rraw_bin 0 0 []))).
Proof.
  intros i cb best sub d d1 rest ds s Hwf H V Hn Vs. unfold post_process in H. destruct (rin_objective i); try discriminate.
  destruct (rev (rc_bins (rs_core best))) as [|lst tl] eqn:R; [discriminate|].
  assert (EB : rc_bins (rs_core best) = rev tl ++ [lst]).
  { rewrite <- (rev_involutive (rc_bins (rs_core best))), R. reflexivity. }
  assert (EL : last (rc_bins (rs_core best)) (rraw_bin 0 0 []) = lst) by (rewrite EB; apply last_last).
  assert (VV : ds = map rview_bin (rev tl) /\ d = rview_bin lst).
  { unfold rview in V. rewrite EB, map_app in V. cbn [map] in V. apply app_inj_tail in V. destruct V as [V1 V2]. auto. }
  destruct VV as [V1 V2].
  destruct (negb (0 <? rc_number_of_bins (rs_core best))); [discriminate|].
  destruct (rs_copies lst =? 1) eqn:C; cbn [negb] in H; [|discriminate]. apply Z.eqb_eq in C.
  destruct (rc_number_of_items (rs_core sub) =? Z.of_nat (length (rs_items lst))) eqn:NI; [|discriminate]. apply Z.eqb_eq in NI.
  injection H as H. split; [rewrite V2; exact C|]. split; [rewrite V2; exact NI|]. cbv zeta.
  exists (last_item_types i lst). rewrite EL.
  assert (HH : rhistory i cb [] (rebuild_calls i best sub lst) = Some s) by exact H.
  assert (EC : flat_map rcall_bins (rebuild_calls i best sub lst) = firstn (length ds - 1) ds ++ [rmapped_desc [rd_type d] (last_item_types i lst) 1 d1]).
  { unfold rebuild_calls. rewrite flat_map_app. rewrite firstn_calls by (rewrite EB, app_length; cbn [length]; lia).
    f_equal.
    - rewrite V. assert (L : (Z.to_nat (Z.of_nat (length (rc_bins (rs_core best))) - 2) = length ds - 1)%nat).
      { rewrite EB, app_length, V1, map_length. cbn [length]. lia. }
      rewrite L, firstn_app. replace (length ds - 1 - length ds)%nat with 0%nat by lia. cbn [firstn]. apply app_nil_r.
    - cbn [flat_map rcall_bins]. rewrite Vs. cbn [nth_error app]. rewrite C, V2. reflexivity. }
  assert (HC : rcopies_nonneg [] (rebuild_calls i best sub lst)).
  { intros e He. cbn [rdesc_run app] in He. rewrite EC in He. apply in_app_iff in He. destruct He as [He|[<-|[]]]; [|cbn; lia].
    apply Hn. revert He. generalize (length ds - 1)%nat. intro k. clear. revert k. induction ds as [|x l IH]; intros [|k] He; cbn in He; try destruct He as [<-|He]; try contradiction; [left; reflexivity|right; apply (IH k); exact He]. }
  split; [|split; [exact HH|exact HC]].
  destruct (C42_indicators i cb [] _ s Hwf HC HH) as [E _]. rewrite E. cbn [rdesc_run app]. exact EC.
Qed.

Lemma number_packed : forall i ds, packing_ok i ds -> zsum (fun x => rpacked x ds) (seq 0 (length (rin_items i))) = zsum (fun d => rd_copies d * Z.of_nat (length (rd_items d))) ds.
Proof.
  intros i ds Hp. pose proof (rpacked_sum _ ds (fun _ => 1) (types_ok i ds Hp)) as E. cbv beta in E.
  rewrite (zsum_ext _ _ (fun j => rpacked j ds * 1)) by (intros; lia). rewrite E. apply zsum_ext. intros d _. f_equal.
  induction (rd_items d) as [|p l IH]; [reflexivity|]. rewrite zsum_cons, IH. cbn [length]. lia.
Qed.

Theorem last_bin_lost : forall i cb calls1 calls2 best sub ds e d d1 s, rwf_resources i -> rsane_resources i ->
  rcopies_nonneg calls1 calls2 -> rhistory i cb calls1 calls2 = Some best ->
  rview best = ds ++ [e; d] -> packing_ok i (rview best) -> rall_packed i (rview best) -> rd_items e <> [] ->
  rview sub = [d1] -> rd_copies d1 = 1 -> rc_number_of_items (rs_core sub) = Z.of_nat (length (rd_items d1)) ->
  post_process i cb best sub = Some (Some s) ->
  rc_number_of_items (rs_core s) = rnumber_of_items i - rd_copies e * Z.of_nat (length (rd_items e)) /\
  rc_number_of_items (rs_core s) < rnumber_of_items i /\
  ((forall x, (x < length (rin_items i))%nat -> ri_copies_min (ritem i x) = ri_copies (ritem i x)) ->
   rs_feasible s = false /\ rsol_lt i best s = Some false).
Proof.
  intros i cb calls1 calls2 best sub ds e d d1 s Hwf Hsane Hc Hh V Hp Hall Hne Vs C1 N1 H.
  assert (V' : rview best = (ds ++ [e]) ++ [d]) by (rewrite <- app_assoc; exact V).
  assert (Hn : forall x, In x (ds ++ [e]) -> 0 <= rd_copies x).
  { intros x Hx. destruct (pa_bins i _ Hp x) as (_ & C & _); [rewrite V'; apply in_or_app; left; exact Hx|lia]. }
  destruct (post_view i cb best sub d d1 [] (ds ++ [e]) s Hwf H V' Hn Vs) as (Cd & Nd & iids & Vv & HH & HC).
  rewrite app_length in Vv. cbn [length] in Vv. rewrite Nat.add_1_r in Vv. cbn [Nat.sub] in Vv. rewrite Nat.sub_0_r in Vv.
  rewrite firstn_app, Nat.sub_diag, firstn_all in Vv. cbn [firstn] in Vv. rewrite app_nil_r in Vv.
  destruct (C42_indicators i cb [] _ s Hwf HC HH) as [_ I].
  assert (T : rnumber_of_items i = zsum (fun d => rd_copies d * Z.of_nat (length (rd_items d))) (rview best)).
  { rewrite <- (number_packed i _ Hp). unfold rnumber_of_items. rewrite (zsum_seq_nth _ _ dummy_ritem (rin_items i)).
    apply zsum_ext. intros x Hx. apply in_seq in Hx. rewrite (Hall x) by lia. reflexivity. }
  assert (K : rc_number_of_items (rs_core s) = rnumber_of_items i - rd_copies e * Z.of_nat (length (rd_items e))).
  { rewrite (ri_nitems _ _ _ I), T, Vv, V, !zsum_app, !zsum_cons, !zsum_nil. cbn [rmapped_desc rd_copies rd_items]. rewrite map_length, Cd. lia. }
  assert (P : 0 < rd_copies e * Z.of_nat (length (rd_items e))).
  { destruct (pa_bins i _ Hp e) as (_ & C & _); [rewrite V; apply in_or_app; right; left; reflexivity|]. destruct (rd_items e); [contradiction Hne; reflexivity|]. cbn [length]. nia. }
  split; [exact K|]. split; [lia|]. intro Hmin.
  assert (F : rs_feasible s = false).
  { destruct (rs_feasible s) eqn:F; [exfalso|reflexivity].
    apply (C42_feasible i cb [] _ s Hwf Hsane HC HH) in F. destruct F as [(F & _)|(F & _)]; [|rewrite Vv in F; destruct ds; discriminate].
    assert (TT : zsum (fun x => rpacked x (rview s)) (seq 0 (length (rin_items i))) = rnumber_of_items i).
    { unfold rnumber_of_items. rewrite (zsum_seq_nth _ _ dummy_ritem (rin_items i)). apply zsum_ext. intros x Hx. apply in_seq in Hx.
      specialize (F x ltac:(lia)). specialize (Hmin x ltac:(lia)). unfold ritem in *. lia. }
    assert (Ht : forall d0, In d0 (rview s) -> forall p, In p (rd_items d0) -> (pl_type p < length (rin_items i))%nat).
    { destruct (rhistory_spec i cb Hwf [] _ s HH HC) as [[GF GD] _]. intros d0 Hd0 p Hq. destruct (GD d0 Hd0) as (_ & R2 & _). apply R2. exact Hq. }
    pose proof (rpacked_sum _ (rview s) (fun _ => 1) Ht) as E. cbv beta in E.
    rewrite (zsum_ext _ _ (fun j => rpacked j (rview s) * 1)) in TT by (intros; lia). rewrite E in TT.
    assert (E2 : zsum (fun d => rd_copies d * zsum (fun _ : Place => 1) (rd_items d)) (rview s) = zsum (fun d => rd_copies d * Z.of_nat (length (rd_items d))) (rview s)).
    { apply zsum_ext. intros d0 _. f_equal. induction (rd_items d0) as [|p l IH]; [reflexivity|]. rewrite zsum_cons, IH. cbn [length]. lia. }
    rewrite E2, <- (ri_nitems _ _ _ I) in TT. lia. }
  split; [exact F|]. unfold rsol_lt. rewrite F. reflexivity.
Qed.
