(** * From the original instance to the reduced one and back *)

From Coq Require Import List ZArith QArith Bool Arith Lia Permutation.
From Verif Require Import Util Common_Model Rect_Model Rect_Spec Geom RectBlock_Spec RectSpaces_Spec RectNormal_Proof
  Reduc_Model Reduc_Spec Reduc_Proof ReducInv_Proof ReducGroup_Proof ReducDed_Proof ReducBoth_Proof ReducOpt_Proof ReducLoop_Proof.
Import ListNotations.
Import Reduc_Proof.
Open Scope Z_scope.

(** ** The lengths that the subset-sum solver sees *)

Lemma picks_app : forall g1 g2 v w, picks g1 v -> picks g2 w -> picks (g1 ++ g2) (v + w).
Proof.
  intros g1 g2 v w P. revert w. induction P as [|g gs v P IH|g gs v u Hu P IH]; intros w Q; cbn [app].
  - exact Q.
  - apply picks_skip. apply IH. exact Q.
  - replace (u + v + w) with (u + (v + w)) by lia. apply picks_take; [exact Hu|]. apply IH. exact Q.
Qed.
Lemma picks_skips : forall gs, picks gs 0.
Proof. induction gs; constructor; assumption. Qed.
Lemma picks_repeat : forall g v w a r k, (a = O \/ In v g) -> (r = O \/ In w g) -> (a + r <= k)%nat -> picks (repeat g k) (Z.of_nat a * v + Z.of_nat r * w).
Proof.
  intros g v w a. induction a as [|a IH]; intros r k Ha Hr L.
  - clear Ha. revert k L. induction r as [|r IH]; intros k L; [apply picks_skips|]. destruct Hr as [Hr|Hr]; [discriminate Hr|]. destruct k as [|k]; [lia|]. cbn [repeat].
    replace (Z.of_nat 0 * v + Z.of_nat (S r) * w) with (w + (Z.of_nat 0 * v + Z.of_nat r * w)) by lia. apply picks_take; [exact Hr|]. apply IH; [right; exact Hr|lia].
  - destruct Ha as [Ha|Ha]; [discriminate Ha|]. destruct k as [|k]; [lia|]. cbn [repeat]. replace (Z.of_nat (S a) * v + Z.of_nat r * w) with (v + (Z.of_nat a * v + Z.of_nat r * w)) by lia.
    apply picks_take; [exact Ha|]. apply IH; [right; exact Ha|exact Hr|lia].
Qed.

Lemma stackable_picks : forall (i : RInstance) width v,
  stackable i (if (width : bool) then fun x rot => pl_w i (mkPl x 0 0 rot) else fun x rot => pl_h i (mkPl x 0 0 rot)) v -> picks (dimension_groups width i) v.
Proof.
  intros i width v (a & r & B & ->). unfold dimension_groups.
  set (side := if width then fun x rot => pl_w i (mkPl x 0 0 rot) else fun x rot => pl_h i (mkPl x 0 0 rot)).
  assert (Es : forall x rot, side x rot = if xorb width rot then ri_x (ritem i x) else ri_y (ritem i x)) by (intros x rot; unfold side; destruct width; destruct rot; reflexivity).
  assert (G : forall l k, (forall x, (x < length l)%nat -> ritem i (k + x) = nth x l dummy_ritem) -> (k + length l <= length (rin_items i))%nat ->
     picks (flat_map (fun it => let value := if width then ri_x it else ri_y it in let rotated := if width then ri_y it else ri_x it in
        repeat (value :: (if negb (ri_oriented it) && negb (rotated =? value) then [rotated] else [])) (Z.to_nat (ri_copies it))) l)
       (zsum (fun x => a x * side x false + r x * side x true) (seq k (length l)))).
  { intros l. induction l as [|it l IH]; intros k E L; [constructor|]. cbn [flat_map length seq]. rewrite zsum_cons. apply picks_app.
    - pose proof (E O ltac:(cbn; lia)) as E0. rewrite Nat.add_0_r in E0. cbn [nth] in E0. cbn [length] in L. destruct (B k ltac:(lia)) as (B1 & B2 & B3 & B4). rewrite E0 in B3, B4.
      replace (a k * side k false + r k * side k true) with (Z.of_nat (Z.to_nat (a k)) * side k false + Z.of_nat (Z.to_nat (r k)) * side k true) by (rewrite !Z2Nat.id by assumption; reflexivity).
      apply picks_repeat; [right| |lia].
      + rewrite Es, E0. destruct width; left; reflexivity.
      + rewrite Es, E0. destruct (ri_oriented it); [left; rewrite B4 by reflexivity; reflexivity|right]. cbn [negb andb].
        destruct (Z.eqb_spec (if width then ri_y it else ri_x it) (if width then ri_x it else ri_y it)) as [Eq|_]; cbn [negb].
        * left. destruct width; cbn; congruence.
        * right. left. destruct width; reflexivity.
    - apply IH; [|cbn [length] in L; lia]. intros x Hx. specialize (E (S x) ltac:(cbn; lia)). cbn [nth] in E. rewrite <- E. f_equal. lia. }
  apply (G (rin_items i) O); [reflexivity|lia].
Qed.

(** ** Counting *)

Lemma same_items_count : forall ps ps' x, same_items ps ps' -> rcount x ps' = rcount x ps.
Proof. intros ps ps' x F. induction F as [|p q l l' [E _] F IH]; [reflexivity|]. rewrite !rcount_cons, E, IH. reflexivity. Qed.

Definition to_head (f : nat -> nat) (p : Place) : Comp := mkComp (f (pl_type p)) (pl_x p) (pl_y p) (pl_rot p) [].
Lemma occ_to_head : forall x ps, Z.of_nat (occ x (map (to_head (fun t => t)) ps)) = rcount x ps.
Proof. intros x ps. induction ps as [|p ps IH]; [reflexivity|]. cbn [map]. rewrite occ_cons, rcount_cons, <- IH. cbn [to_head co_type]. destruct (Nat.eqb (pl_type p) x); lia. Qed.

Lemma rcount_le : forall ps ds d x, In d ds -> (forall d, In d ds -> 1 <= rd_copies d) -> ps = rd_items d -> rcount x ps <= rpacked x ds.
Proof.
  intros ps ds d x Hd Hc ->. unfold rpacked. apply in_split in Hd. destruct Hd as (a & b & ->). rewrite zsum_app, zsum_cons.
  assert (N : forall l, (forall e, In e l -> 1 <= rd_copies e) -> 0 <= zsum (fun d0 => rd_copies d0 * rcount x (rd_items d0)) l).
  { intros l Hl. apply zsum_nonneg. intros e He. specialize (Hl e He). pose proof (rcount_nonneg x (rd_items e)). nia. }
  assert (Ha : 0 <= zsum (fun d0 => rd_copies d0 * rcount x (rd_items d0)) a) by (apply N; intros e He; apply Hc, in_or_app; left; exact He).
  assert (Hb : 0 <= zsum (fun d0 => rd_copies d0 * rcount x (rd_items d0)) b) by (apply N; intros e He; apply Hc, in_or_app; right; right; exact He).
  assert (Hd : 1 <= rd_copies d) by (apply Hc, in_or_app; right; left; reflexivity). pose proof (rcount_nonneg x (rd_items d)). nia.
Qed.

Fixpoint index (x : nat) (l : list nat) : nat := match l with [] => O | y :: l' => if Nat.eqb x y then O else S (index x l') end.
Lemma index_in : forall x l, In x l -> (index x l < length l)%nat /\ nth (index x l) l O = x.
Proof.
  intros x l. induction l as [|y l IH]; intros Hx; [destruct Hx|]. cbn [index]. destruct (Nat.eqb_spec x y) as [->|Ne]; [split; [cbn; lia|reflexivity]|].
  destruct Hx as [->|Hx]; [contradiction|]. destruct (IH Hx) as [A B]. split; [cbn; lia|exact B].
Qed.

Lemma rused_one : forall (i : RInstance) ds, length (rin_bins i) = 1%nat -> packing_ok i ds -> rused_bins 0 ds = rbins_used ds.
Proof.
  intros i ds E Pk. unfold rused_bins, rbins_used. apply zsum_ext. intros d Hd. destruct (pa_bins _ _ Pk d Hd) as (T & _ & _). rewrite E in T. assert (rd_type d = O) as -> by lia. reflexivity.
Qed.

Section Final.
Variable o : ROracle.
Variable i : RInstance.
Notation n := (n_types i) (only parsing).
Hypothesis Hitems : positive_items i.
Hypothesis Hone : length (rin_bins i) = 1%nat.
Hypothesis Hdef : rb_defects (rbin i 0) = [].
Hypothesis Hsub : subset_sum_honest (ro_subset_sum o).
Hypothesis Hdim : 0 <= rb_x (rbin i 0) /\ 0 <= rb_y (rbin i 0).
Let W := fst (shrunk o i).
Let H := snd (shrunk o i).

Lemma item_ok : forall x, (x < n)%nat -> 0 < ri_x (ritem i x) /\ 0 < ri_y (ritem i x) /\ 1 <= ri_copies (ritem i x).
Proof. intros x Hx. apply Hitems. apply nth_In. exact Hx. Qed.

Lemma shrunk_eq : W = ro_subset_sum o (rb_x (rbin i 0)) (dimension_groups true i) /\ H = ro_subset_sum o (rb_y (rbin i 0)) (dimension_groups false i).
Proof.
  unfold W, H, shrunk. destruct (existsb (fun it => ri_copies it <? 0) (rin_items i)) eqn:E; [|split; reflexivity].
  exfalso. apply existsb_exists in E. destruct E as (it & Hit & E). destruct (Hitems it Hit) as (_ & _ & C). lia.
Qed.
Lemma shrunk_bounds : 0 <= W <= rb_x (rbin i 0) /\ 0 <= H <= rb_y (rbin i 0).
Proof.
  destruct shrunk_eq as [-> ->]. destruct (Hsub (rb_x (rbin i 0)) (dimension_groups true i)) as [A1 A2]. destruct (Hsub (rb_y (rbin i 0)) (dimension_groups false i)) as [B1 B2].
  pose proof (A2 0 (picks_skips _) (proj1 Hdim)). pose proof (B2 0 (picks_skips _) (proj2 Hdim)). lia.
Qed.

Lemma red0_type : forall x, (x < n)%nat -> rtype (red0 i) x = mkRT (ri_x (ritem i x)) (ri_y (ritem i x)) (ri_copies (ritem i x)) false [].
Proof.
  intros x Hx. unfold rtype, red0. cbn [re_types]. rewrite (nth_indep _ dummy_rt ((fun it => mkRT (ri_x it) (ri_y it) (ri_copies it) false []) dummy_ritem)) by (rewrite map_length; exact Hx).
  rewrite (map_nth (fun it => mkRT (ri_x it) (ri_y it) (ri_copies it) false [])). reflexivity.
Qed.
Lemma red0_inv : forall w h, Inv i w h (red0 i).
Proof.
  intros w h. split.
  - unfold red0. cbn [re_types]. apply map_length.
  - intros x Hx _. rewrite (red0_type x Hx). destruct (item_ok x Hx) as (A & B & C). split; cbn [rt_copies rt_x rt_y rt_comps].
    + lia.
    + lia.
    + left. reflexivity.
    + intros _. repeat split.
    + intros k _. unfold entryt, entry. cbn [rt_comps]. split.
      * intros p [<-|[]]. cbn [pl_type pl_rot pl_x pl_y]. split; [exact Hx|]. split; [|discriminate]. unfold within, pl_xe, pl_ye, pl_w, pl_h. cbn. lia.
      * cbn. repeat constructor.
  - exists [], []. split; [reflexivity|]. split; [reflexivity|]. split; [reflexivity|]. split; [reflexivity|]. split; [intros cs []|]. intros z Hz. cbn [app re_groups red0]. rewrite zsum_nil, Z.add_0_r.
    unfold content. rewrite (zsum_ext _ _ (fun x => if Nat.eqb z x then ri_copies (ritem i x) else 0)); [apply zsum_pick_seq; exact Hz|].
    intros x Hx. apply in_seq in Hx. rewrite red0_type by lia. cbn [rt_removed]. unfold tcontent. cbn [rt_copies].
    rewrite (zsum_ext _ _ (fun _ => if Nat.eqb x z then 1 else 0)) by (intros k _; unfold unitc, entryt, entry; cbn [rt_comps]; rewrite lcount_nil; lia).
    destruct (item_ok x ltac:(lia)) as (_ & _ & C). destruct (Nat.eqb_spec x z) as [->|Ne].
    + rewrite Nat.eqb_refl, zsum_length, seq_length. lia.
    + destruct (Nat.eqb_spec z x); [congruence|]. apply zsum_const0.
  - intros Hc. unfold dedicated, red0. cbn. lia.
Qed.

(** ** A complete packing of the original instance packs the first state, within
    the shrunk bin *)
Lemma packs_red0 : forall ds, packing_ok i ds -> rall_packed i ds -> packs i W H (red0 i) (rbins_used ds).
Proof.
  intros ds Pk Full. assert (Cp : forall d, In d ds -> 1 <= rd_copies d) by (intros d Hd; apply (pa_bins _ _ Pk d Hd)).
  assert (Hbin : forall b, In b (single_bins ds) -> exists ps', same_items (snd b) ps' /\ okbin i W H (red0 i) (map (to_head (fun t => t)) ps')).
  { intros b Hb. apply single_bins_in in Hb. destruct Hb as (d & Hd & ->). cbn [snd]. destruct (pa_bins _ _ Pk d Hd) as (T & C & G). rewrite Hone in T. assert (rd_type d = O) as E0 by lia. rewrite E0 in G.
    destruct (push_packing i (rd_items d) (rbin i 0)) as (ps' & S & G' & St).
    - intros it Hit. destruct (Hitems it Hit) as (A & B & C'). lia.
    - exact Hdef.
    - exact G.
    - intros x Hx. etransitivity; [apply (rcount_le _ ds d x Hd Cp eq_refl)|]. apply (pa_copies _ _ Pk x Hx).
    - exists ps'. split; [exact S|]. destruct G' as [G1 G2 _].
      assert (Ebox : forall p, In p ps' -> cbox (red0 i) (to_head (fun t => t) p) = mkBox (pl_x p) (pl_y p) (pl_xe i p) (pl_ye i p)).
      { intros p Hp. destruct (G1 p Hp) as [Tp _ _ _]. unfold cbox, to_head, pl_xe, pl_ye, pl_w, pl_h. cbn [co_dx co_dy co_rot co_type]. rewrite (red0_type _ Tp). cbn [rt_x rt_y]. reflexivity. }
      split.
      + intros c Hc. apply in_map_iff in Hc. destruct Hc as (p & <- & Hp). destruct (G1 p Hp) as [Tp X Y R]. cbn [to_head co_type co_rot]. split; [exact Tp|]. split; [exact R|].
        fold (to_head (fun t => t) p). rewrite (Ebox p Hp). destruct (St p Hp) as [S1 S2]. destruct shrunk_eq as [EW EH].
        pose proof (proj2 (Hsub (rb_x (rbin i 0)) (dimension_groups true i)) _ (stackable_picks i true _ S1) ltac:(lia)) as LW.
        pose proof (proj2 (Hsub (rb_y (rbin i 0)) (dimension_groups false i)) _ (stackable_picks i false _ S2) ltac:(lia)) as LH.
        unfold within. cbn [bx0 bx1 by0 by1]. rewrite EW, EH. lia.
      + eapply ord_pairs_map; [exact G2|]. intros p q Hp Hq D. rewrite (Ebox p Hp), (Ebox q Hq). unfold disjoint in D. unfold apart. cbn [bx0 bx1 by0 by1]. lia. }
  assert (Hall : exists bins, length bins = length (single_bins ds) /\ (forall l, In l bins -> okbin i W H (red0 i) l) /\ forall x, zsum (fun l => Z.of_nat (occ x l)) bins = zsum (fun b => rcount x (snd b)) (single_bins ds)).
  { revert Hbin. generalize (single_bins ds) as bs. induction bs as [|b bs IH]; intros Hbin.
    - exists []. split; [reflexivity|]. split; [intros l []|reflexivity].
    - destruct IH as (bins & L & A & B); [intros c Hc; apply Hbin; right; exact Hc|]. destruct (Hbin b (or_introl eq_refl)) as (ps' & S & Ok). exists (map (to_head (fun t => t)) ps' :: bins). split; [cbn [length]; lia|]. split.
      + intros l [<-|Hl]; [exact Ok|apply A; exact Hl].
      + intros x. rewrite !zsum_cons, B, occ_to_head, (same_items_count _ _ x S). reflexivity. }
  destruct Hall as (bins & L & A & B). exists bins. split.
  - rewrite L, <- zsum_length, single_bins_sum by exact Cp. unfold rbins_used. apply zsum_ext. intros d _. lia.
  - split; [exact A|]. intros x Hx. rewrite B. unfold vcopies. rewrite (red0_type x Hx). cbn [rt_removed rt_copies]. rewrite <- (Full x Hx). unfold rpacked.
    exact (single_bins_sum (fun b => rcount x (snd b)) ds Cp).
Qed.

(** ** A packing of the last state is a packing of the reduced instance *)

Definition red_instance (s : Red) : RInstance := rr_instance (to_instance i s).

Lemma remaining_in : forall s x, length (re_types s) = n -> In x (remaining_ids s) <-> (x < n)%nat /\ live s x.
Proof.
  intros s x L. unfold remaining_ids. rewrite filter_In, in_seq, L, negb_true_iff. unfold live. split; intros [A B]; split; try assumption; lia.
Qed.
Lemma red_item : forall s j, (j < length (remaining_ids s))%nat -> ritem (red_instance s) j = reduced_item i s (nth j (remaining_ids s) O).
Proof.
  intros s j Hj. unfold ritem, red_instance, to_instance. cbn [rr_instance rin_items]. rewrite (nth_indep _ _ (reduced_item i s O)) by (rewrite map_length; exact Hj). apply map_nth.
Qed.
Lemma red_items_length : forall s, length (rin_items (red_instance s)) = length (remaining_ids s).
Proof. intros s. unfold red_instance, to_instance. cbn [rr_instance rin_items]. apply map_length. Qed.
Lemma red_bin : forall s, rbin (red_instance s) 0 = reduced_bin i s (rbin i 0) /\ length (rin_bins (red_instance s)) = 1%nat.
Proof.
  intros s. unfold rbin, red_instance, to_instance. cbn [rr_instance rin_bins]. destruct (rin_bins i) as [|b [|c l]]; [discriminate Hone| |discriminate Hone]. split; reflexivity.
Qed.
Lemma red_bin_same : forall s, rb_x (reduced_bin i s (rbin i 0)) = rb_x (rbin i 0) /\ rb_y (reduced_bin i s (rbin i 0)) = rb_y (rbin i 0) /\ rb_defects (reduced_bin i s (rbin i 0)) = [].
Proof. intros s. unfold reduced_bin. destruct (dedicated s <=? 0); cbn [rb_x rb_y rb_defects]; repeat split; exact Hdef. Qed.

Lemma packs_reduced : forall s K, Inv i W H s -> packs i W H s K ->
  exists ds, packing_ok (red_instance s) ds /\ rall_packed (red_instance s) ds /\ rbins_used ds = K /\ rused_bins 0 ds = K.
Proof.
  intros s K I (bins & L & P). pose proof P as [P1 P2]. set (ids := remaining_ids s).
  set (plc := fun c => mkPl (index (co_type c) ids) (co_dx c) (co_dy c) (co_rot c)).
  assert (Hid : forall l c, In l bins -> In c l -> In (co_type c) ids).
  { intros l c Hl Hc. apply remaining_in; [apply I|]. apply (packs_live i W H s bins l c P Hl Hc). }
  set (red := red_instance s).
  assert (Hsz : forall l c, In l bins -> In c l -> (pl_type (plc c) < length (rin_items red))%nat /\ mkBox (pl_x (plc c)) (pl_y (plc c)) (pl_xe red (plc c)) (pl_ye red (plc c)) = cbox s c).
  { intros l c Hl Hc. destruct (index_in _ _ (Hid l c Hl Hc)) as [A B]. unfold red. rewrite red_items_length. split; [exact A|].
    unfold pl_xe, pl_ye, pl_w, pl_h, plc. cbn [pl_x pl_y pl_rot pl_type]. fold red. unfold red. rewrite (red_item s _ A). fold ids. rewrite B. unfold cbox, reduced_item. cbn [ri_x ri_y]. reflexivity. }
  destruct (red_bin s) as [Eb Lb]. destruct (red_bin_same s) as (Bx & By & Bd). destruct shrunk_bounds as [BW BH].
  set (ds := map (fun l => mkRD 0 1 (map plc l)) bins).
  assert (Erp : forall x, rpacked x ds = zsum (fun l => rcount x (map plc l)) bins).
  { intros x. unfold rpacked, ds. rewrite zsum_map. apply zsum_ext. intros l _. cbn [rd_copies rd_items]. lia. }
  assert (Hfull : rall_packed red ds).
  { intros x Hx. rewrite Erp. unfold red in Hx. rewrite red_items_length in Hx. fold ids in Hx. unfold red. rewrite (red_item s x Hx). fold ids. set (y := nth x ids O). unfold reduced_item. cbn [ri_copies].
    assert (Hy : In y ids) by (apply nth_In; exact Hx). apply remaining_in in Hy as Hy'; [|apply I]. destruct Hy' as [Hyn Hyl].
    unfold live in Hyl. transitivity (vcopies s y); [|unfold vcopies; rewrite Hyl; reflexivity]. rewrite <- (P2 y Hyn). apply zsum_ext. intros l Hl.
    assert (Hall : forall c, In c l -> In (co_type c) ids) by (intros c Hc; apply (Hid l c Hl Hc)). clear - Hall Hx. assert (NDi : NoDup ids) by (apply NoDup_filter, seq_NoDup).
    induction l as [|c l IH]; [reflexivity|]. cbn [map]. rewrite rcount_cons, occ_cons, (IH (fun d Hd => Hall d (or_intror Hd))). cbn [plc pl_type].
    destruct (index_in _ _ (Hall c (or_introl eq_refl))) as [A B]. destruct (Nat.eqb_spec (index (co_type c) ids) x) as [E|E].
    - assert (co_type c = y) as Ec by (rewrite <- B, E; reflexivity). rewrite Ec, Nat.eqb_refl. lia.
    - destruct (Nat.eqb_spec (co_type c) y) as [Ec|_]; [|lia]. exfalso. apply E. apply (proj1 (NoDup_nth ids O) NDi); [exact A|exact Hx|]. rewrite B. exact Ec. }
  exists ds. split; [split|split; [exact Hfull|split]].
  - intros d Hd. unfold ds in Hd. apply in_map_iff in Hd. destruct Hd as (l & <- & Hl). cbn [rd_type rd_copies rd_items]. unfold red. rewrite Lb. split; [lia|]. split; [lia|]. rewrite Eb.
    destruct (P1 l Hl) as [A B]. split.
    + intros p Hp. apply in_map_iff in Hp. destruct Hp as (c & <- & Hc). destruct (Hsz l c Hl Hc) as [S1 S2]. destruct (A c Hc) as (_ & R & Wn). rewrite <- S2 in Wn. unfold within in Wn. cbn [bx0 bx1 by0 by1] in Wn.
      split; [exact S1|rewrite Bx; fold red; lia|rewrite By; fold red; lia|]. intros Hr. unfold plc in Hr. cbn [pl_rot] in Hr. specialize (R Hr). unfold plc. cbn [pl_type].
      destruct (index_in _ _ (Hid l c Hl Hc)) as [A0 B0]. rewrite (red_item s _ A0). fold ids. rewrite B0. exact R.
    + eapply ord_pairs_map; [exact B|]. intros c e Hc He Ap. cbn beta in Ap. destruct (Hsz l c Hl Hc) as [_ S2]. destruct (Hsz l e Hl He) as [_ S3]. rewrite <- S2, <- S3 in Ap. unfold apart in Ap. cbn [bx0 bx1 by0 by1] in Ap.
      unfold disjoint. fold red. lia.
    + rewrite Bd. intros p q _ [].
  - intros x Hx. rewrite (Hfull x Hx). lia.
  - unfold rbins_used, ds. rewrite zsum_map. cbn [rd_copies]. rewrite zsum_length. exact L.
  - unfold rused_bins, ds. rewrite zsum_map. cbn [rd_copies rd_type Nat.eqb]. rewrite zsum_length. exact L.
Qed.

(** ** Completing a packing of the reduced instance *)

Lemma opt_all_some : forall (A : Type) (l : list A), opt_all (map Some l) = Some l.
Proof. intros A l. induction l as [|a l IH]; [reflexivity|]. cbn [map opt_all]. rewrite IH. reflexivity. Qed.

Lemma map_fst_combine : forall (A B : Type) (l : list A) (m : list B), length l = length m -> map fst (combine l m) = l.
Proof. intros A B l. induction l as [|a l IH]; intros [|b m] E; try discriminate E; [reflexivity|]. cbn [combine map fst]. rewrite IH by (injection E as E; exact E). reflexivity. Qed.
Lemma map_snd_combine : forall (A B : Type) (l : list A) (m : list B), length l = length m -> map snd (combine l m) = m.
Proof. intros A B l. induction l as [|a l IH]; intros [|b m] E; try discriminate E; [reflexivity|]. cbn [combine map snd]. rewrite IH by (injection E as E; exact E). reflexivity. Qed.

Theorem unreduce_ok : forall s ds, Inv i W H s -> packing_ok (red_instance s) ds ->
  exists ds', unreduce (to_instance i s) ds = Some ds' /\ packing_ok i ds' /\ rbins_used ds' = rbins_used ds + dedicated s /\ rused_bins 0 ds' = rused_bins 0 ds + dedicated s
    /\ (rall_packed (red_instance s) ds -> rall_packed i ds').
Proof.
  intros s ds I Pk. pose proof I as [I1 I2 _ _]. assert (Cp : forall d, In d ds -> 1 <= rd_copies d) by (intros d Hd; apply (pa_bins _ _ Pk d Hd)). set (ids := remaining_ids s).
  destruct (red_bin s) as [Eb Lb]. destruct (red_bin_same s) as (Bx & By & Bd). destruct shrunk_bounds as [BW BH]. set (red := red_instance s) in *.
  assert (NDi : NoDup ids) by (apply NoDup_filter, seq_NoDup).
  assert (Hids : forall x, In x ids -> (x < n)%nat /\ live s x) by (intros x Hx; apply remaining_in; [exact I1|exact Hx]).
  set (bins := single_bins ds).
  assert (Hbin : forall b, In b bins -> fst b = O /\ geometry_ok red (rbin i 0) (snd b)).
  { intros b Hb. apply single_bins_in in Hb. destruct Hb as (d & Hd & ->). cbn [fst snd]. destruct (pa_bins _ _ Pk d Hd) as (T & _ & G). rewrite Lb in T. assert (rd_type d = O) as E0 by lia. split; [exact E0|]. rewrite E0, Eb in G.
    destruct G as [G1 G2 _]. split; [|exact G2|rewrite Hdef; intros p q _ []]. intros p Hp. destruct (G1 p Hp) as [T1 X Y R]. rewrite Bx in X. rewrite By in Y. split; assumption. }
  set (heads := fun b : nat * list Place => map (head_of ids 0 0) (snd b)).
  assert (Hty : forall b p, In b bins -> In p (snd b) -> (pl_type p < length ids)%nat).
  { intros b p Hb Hp. destruct (Hbin b Hb) as [_ G]. pose proof (pk_type _ _ _ (ge_places _ _ _ G p Hp)) as T. unfold red in T. rewrite red_items_length in T. exact T. }
  assert (Hheads : forall b, In b bins -> (forall c, In c (heads b) -> In (co_type c) ids /\ head_ok i s c /\ within (cbox s c) (mkBox 0 0 (rb_x (rbin i 0)) (rb_y (rbin i 0)))) /\ ForallOrdPairs (fun a b => apart (cbox s a) (cbox s b)) (heads b)).
  { intros b Hb. destruct (Hbin b Hb) as [_ G].
    assert (G' : geometry_ok (mkRInst OFeasibility (rin_params i) (map (check_item i s) ids) [rbin i 0]) (rbin i 0) (snd b)).
    { destruct G as [G1 G2 _]. set (chk := mkRInst OFeasibility (rin_params i) (map (check_item i s) ids) [rbin i 0]).
      assert (Es : forall p, In p (snd b) -> pl_xe chk p = pl_xe red p /\ pl_ye chk p = pl_ye red p).
      { intros p Hp. unfold pl_xe, pl_ye, pl_w, pl_h. unfold red. rewrite (red_item s _ (Hty b p Hb Hp)). unfold chk. rewrite (ritem_chk i s ids [rbin i 0] OFeasibility _ (Hty b p Hb Hp)).
        unfold check_item, reduced_item. cbn [ri_x ri_y]. fold ids. split; reflexivity. }
      split.
      - intros p Hp. destruct (G1 p Hp) as [T X Y R]. destruct (Es p Hp) as [E1 E2]. split.
        + unfold chk. cbn [rin_items]. rewrite map_length. apply (Hty b p Hb Hp).
        + rewrite E1. exact X.
        + rewrite E2. exact Y.
        + intros Hr. specialize (R Hr). unfold red in R. rewrite (red_item s _ (Hty b p Hb Hp)) in R. unfold chk. rewrite (ritem_chk i s ids [rbin i 0] OFeasibility _ (Hty b p Hb Hp)). exact R.
      - rewrite <- (map_id (snd b)). eapply ord_pairs_map; [exact G2|]. intros p q Hp Hq D. destruct (Es p Hp) as [E1 E2]. destruct (Es q Hq) as [E3 E4]. unfold disjoint in *. rewrite E1, E2, E3, E4. exact D.
      - rewrite Hdef. intros p q _ []. }
    exact (answer_heads i s ids [rbin i 0] OFeasibility Hids _ _ 0 0 G'). }
  assert (Hcnt : forall x, In x ids -> Z.of_nat (occ x (concat (map heads bins))) <= rt_copies (rtype s x) /\ (rall_packed red ds -> Z.of_nat (occ x (concat (map heads bins))) = rt_copies (rtype s x))).
  { intros x Hx. destruct (In_nth ids x O Hx) as (q & Hq & Eq). assert (Eo : Z.of_nat (occ x (concat (map heads bins))) = rpacked q ds).
    { rewrite occ_concat, zsum_map. unfold rpacked. etransitivity; [|exact (single_bins_sum (fun b => rcount q (snd b)) ds Cp)]. fold bins. apply zsum_ext. intros b Hb.
      apply (occ_heads ids); [exact NDi|intros p Hp; apply (Hty b p Hb Hp)|exact Hq|exact Eq]. }
    assert (Ec : ri_copies (ritem red q) = rt_copies (rtype s x)) by (unfold red; rewrite (red_item s q Hq); fold ids; rewrite Eq; reflexivity).
    rewrite Eo, <- Ec. split; [apply (pa_copies _ _ Pk)|intros F; apply F]; unfold red; rewrite red_items_length; exact Hq. }
  assert (Hin : forall c, In c (concat (map heads bins)) -> In (co_type c) ids).
  { intros c Hc. apply in_concat in Hc. destruct Hc as (l & Hl & Hc). apply in_map_iff in Hl. destruct Hl as (b & <- & Hb). apply (Hheads b Hb). exact Hc. }
  assert (Hout : forall x, ~ In x ids -> occ x (concat (map heads bins)) = O) by (intros x Hx; apply occ_out; intros c Hc <-; apply Hx, Hin, Hc).
  set (ent := fun x k => entry (rtype s x) k).
  assert (Hent : forall x k, In x ids -> (k < occ x (concat (map heads bins)))%nat -> (k < Z.to_nat (rt_copies (rtype s x)))%nat /\ ent x k = Some (entryt (rtype s x) k)).
  { intros x k Hx Hk. destruct (Hcnt x Hx) as [C _]. assert (Hk' : (k < Z.to_nat (rt_copies (rtype s x)))%nat) by lia. split; [exact Hk'|]. destruct (Hids x Hx) as [A B]. apply entry_some; [apply (I2 x A B)|exact Hk']. }
  destruct (hand_out_all_ok ent n (map heads bins) (fun _ => O)) as (filled & cnt & E1 & _ & E3 & E4).
  { intros c Hc. apply Hids, Hin, Hc. }
  { intros c k Hc Hk. destruct (Hent (co_type c) k (Hin c Hc)) as [_ E]; [lia|]. rewrite E. discriminate. }
  destruct (inv_ded i W H s I) as (D & DR & DB & DV).
  assert (Ed : dedicated_bins s = Some D).
  { destruct DR as (F & P & X1 & X2 & X3 & X4 & X5). unfold dedicated_bins. rewrite X1, X3. rewrite <- !map_app, opt_all_some. rewrite X5. reflexivity. }
  assert (Ld : Z.of_nat (length D) = dedicated s) by (apply ded_length; exact DR).
  assert (Lfl : length filled = length bins) by (rewrite <- (Forall2_len _ _ _ _ _ E3); apply map_length).
  set (new := map (fun tc => mkRD (fst tc) 1 (flat_map (place_comp 0 0) (snd tc))) (combine (map fst bins) filled)).
  set (ded := map (fun cs => mkRD 0 1 (flat_map (place_comp 0 0) cs)) D).
  assert (Eun : unreduce (to_instance i s) ds = Some (new ++ ded)).
  { unfold unreduce, unreduced_bins. cbn [rr_state rr_ids to_instance]. fold ids bins. change (fun x k => entry (rtype s x) k) with ent.
    change (map (fun bin => map (fun p => mkComp (nth (pl_type p) ids O) (pl_x p) (pl_y p) (pl_rot p) []) (snd bin)) bins) with (map heads bins). rewrite E1, Ed. reflexivity. }
  assert (Hcount : forall z, (z < n)%nat -> rpacked z (new ++ ded) = zsum (lcount z) filled + zsum (lcount z) D).
  { intros z Hz. unfold rpacked. rewrite zsum_app. f_equal.
    - unfold new. rewrite zsum_map. cbn [rd_copies rd_items]. rewrite <- (map_snd_combine _ _ (map fst bins) filled) at 2 by (rewrite map_length; lia). rewrite zsum_map. apply zsum_ext. intros tc _. rewrite lcount_flat. lia.
    - unfold ded. rewrite zsum_map. cbn [rd_copies rd_items]. apply zsum_ext. intros cs _. rewrite lcount_flat. lia. }
  assert (Hval : forall z, (z < n)%nat -> zsum (lcount z) filled <= content i s z /\ (rall_packed red ds -> zsum (lcount z) filled = content i s z)).
  { intros z Hz. rewrite E4. unfold content.
    assert (Hx : forall x, In x (seq 0 n) -> zsum (fun k => unitc z x (entd ent x k)) (seq 0 (occ x (concat (map heads bins)))) <= (if rt_removed (rtype s x) then 0 else tcontent z x (rtype s x))
       /\ (rall_packed red ds -> zsum (fun k => unitc z x (entd ent x k)) (seq 0 (occ x (concat (map heads bins)))) = (if rt_removed (rtype s x) then 0 else tcontent z x (rtype s x)))).
    { intros x Hx. apply in_seq in Hx. destruct (in_dec Nat.eq_dec x ids) as [Hi|Hi].
      - destruct (Hids x Hi) as [_ Lx]. unfold live in Lx. rewrite Lx. destruct (Hcnt x Hi) as [C1 C2].
        rewrite (zsum_ext _ _ (fun k => unitc z x (entryt (rtype s x) k))) by (intros k Hk; apply in_seq in Hk; unfold entd; destruct (Hent x k Hi) as [_ E]; [lia|]; rewrite E; reflexivity).
        unfold tcontent. replace (Z.to_nat (rt_copies (rtype s x))) with (occ x (concat (map heads bins)) + (Z.to_nat (rt_copies (rtype s x)) - occ x (concat (map heads bins))))%nat by lia.
        rewrite seq_app, zsum_app. split.
        + assert (0 <= zsum (fun k => unitc z x (entryt (rtype s x) k)) (seq (0 + occ x (concat (map heads bins))) (Z.to_nat (rt_copies (rtype s x)) - occ x (concat (map heads bins))))) by (apply zsum_nonneg; intros; apply unitc_nonneg). lia.
        + intros F. specialize (C2 F). replace (Z.to_nat (rt_copies (rtype s x)) - occ x (concat (map heads bins)))%nat with O by lia. cbn [seq]. rewrite zsum_nil. lia.
      - rewrite (Hout x Hi). cbn [seq]. rewrite zsum_nil. assert (rt_removed (rtype s x) = true) as ->; [|split; [lia|reflexivity]].
        destruct (rt_removed (rtype s x)) eqn:E; [reflexivity|]. exfalso. apply Hi. apply remaining_in; [exact I1|]. split; [lia|exact E]. }
    split; [apply zsum_le; intros x Hxx; apply (Hx x Hxx)|]. intros F. apply zsum_ext. intros x Hxx. apply (Hx x Hxx). exact F. }
  assert (PkN : packing_ok i (new ++ ded)).
  { split.
    + intros d Hd. apply in_app_or in Hd. rewrite Hone. destruct Hd as [Hd|Hd].
      * unfold new in Hd. apply in_map_iff in Hd. destruct Hd as ([t cs] & <- & Hc). cbn [fst snd rd_type rd_copies rd_items]. pose proof (in_combine_l _ _ _ _ Hc) as H1. pose proof (in_combine_r _ _ _ _ Hc) as H2.
        apply in_map_iff in H1. destruct H1 as (b & Et & Hb). destruct (Hbin b Hb) as [Eb0 _]. assert (t = O) as -> by congruence. split; [lia|]. split; [lia|].
        destruct (Forall2_in_r _ _ _ _ _ _ E3 H2) as (l & Hl & Fl). apply in_map_iff in Hl. destruct Hl as (b' & <- & Hb'). destruct (Hheads b' Hb') as [HA HP].
        apply (boxed_geometry i (rbin i 0) (rb_x (rbin i 0)) (rb_y (rbin i 0))); [lia|lia|exact Hdef|]. apply (fill_boxed i W H s _ (heads b') cs I).
        -- eapply given_takes; [|exact Fl]. intros c Hcc k Hk. apply Hent; [apply (HA c Hcc)|]. cbn in Hk. exact Hk.
        -- intros c Hcc. apply (HA c Hcc).
        -- exact HP.
      * unfold ded in Hd. apply in_map_iff in Hd. destruct Hd as (cs & <- & Hc). cbn [rd_type rd_copies rd_items]. split; [lia|]. split; [lia|].
        apply (boxed_geometry i (rbin i 0) W H); [lia|lia|exact Hdef|]. apply DB. exact Hc.
    + intros x Hx. rewrite (Hcount x Hx), <- (DV x Hx). destruct (Hval x Hx) as [V _]. apply Z.add_le_mono_r. exact V. }
  assert (RB : rbins_used (new ++ ded) = rbins_used ds + dedicated s).
  { unfold rbins_used. rewrite zsum_app. unfold new, ded. rewrite !zsum_map. cbn [rd_copies]. rewrite !zsum_length, combine_length, map_length, Lfl, Nat.min_id, Ld. f_equal.
    rewrite <- zsum_length. unfold bins. rewrite single_bins_sum by exact Cp. apply zsum_ext. intros d _. lia. }
  exists (new ++ ded). split; [exact Eun|]. split; [exact PkN|]. split; [exact RB|]. split; [rewrite (rused_one i _ Hone PkN), (rused_one red _ Lb Pk); exact RB|].
  intros F x Hx. rewrite (Hcount x Hx), <- (DV x Hx). destruct (Hval x Hx) as [_ V]. rewrite (V F). reflexivity.
Qed.

End Final.
