(** * Proofs about the rectangle blocks *)

From Coq Require Import List ZArith QArith Qfield Bool Lia Lqa Arith Sorted Permutation.
From Verif Require Import Util Common_Model Common_Proof Rect_Model Rect_Spec Block_Model Block_Proof RectBlock_Model RectBlock_Spec Geom.
Import ListNotations.
Open Scope Z_scope.

Lemma ord_pairs_app : forall (A : Type) (R : A -> A -> Prop) l m, ForallOrdPairs R l -> ForallOrdPairs R m ->
  (forall a b, In a l -> In b m -> R a b) -> ForallOrdPairs R (l ++ m).
Proof.
  intros A R l m Hl Hm Hc. induction Hl as [|a l Ha Hl IH]; [assumption|]. simpl. constructor.
  - apply Forall_app. split; [assumption|]. apply Forall_forall. intros b Hb. apply Hc; [left; reflexivity|assumption].
  - apply IH. intros x b Hx Hb. apply Hc; [right; assumption|assumption].
Qed.

Lemma one_to_in : forall n k, In k (one_to n) <-> 1 <= k <= n.
Proof.
  intros n k. unfold one_to. rewrite in_map_iff. split.
  - intros (m & <- & Hm). apply in_seq in Hm. lia.
  - intro H. exists (Z.to_nat (k - 1)). split; [lia|]. apply in_seq. lia.
Qed.

Lemma rcount_nonneg : forall x ps, 0 <= rcount x ps.
Proof. intros. unfold rcount. lia. Qed.
Lemma rcount_app : forall x l m, rcount x (l ++ m) = rcount x l + rcount x m.
Proof. intros. unfold rcount. rewrite filter_app, app_length. lia. Qed.
Lemma rcount_cons : forall x p l, rcount x (p :: l) = (if Nat.eqb (pl_type p) x then 1 else 0) + rcount x l.
Proof. intros. unfold rcount. simpl. destruct (Nat.eqb (pl_type p) x); [|lia]. simpl length. lia. Qed.
Lemma rcount_map : forall x (f : Place -> Place) l, (forall p, pl_type (f p) = pl_type p) -> rcount x (map f l) = rcount x l.
Proof. intros x f l H. induction l as [|p l IH]; [reflexivity|]. cbn [map]. rewrite !rcount_cons, H, IH. reflexivity. Qed.
Lemma rcount_all : forall x l, (forall p, In p l -> pl_type p = x) -> rcount x l = Z.of_nat (length l).
Proof.
  intros x l. induction l as [|p l IH]; intro H; [reflexivity|]. rewrite rcount_cons, IH by (intros; apply H; right; assumption).
  rewrite (H p (or_introl eq_refl)), Nat.eqb_refl. simpl length. lia.
Qed.
Lemma rcount_none : forall x l, (forall p, In p l -> pl_type p <> x) -> rcount x l = 0.
Proof.
  intros x l. induction l as [|p l IH]; intro H; [reflexivity|]. rewrite rcount_cons, IH by (intros; apply H; right; assumption).
  destruct (Nat.eqb_spec (pl_type p) x); [|reflexivity]. exfalso. apply (H p (or_introl eq_refl)). assumption.
Qed.
Lemma rcount_pos : forall x l, 0 < rcount x l -> exists p, In p l /\ pl_type p = x.
Proof.
  intros x l. induction l as [|p l IH]; intro H; [unfold rcount in H; simpl in H; lia|]. rewrite rcount_cons in H.
  destruct (Nat.eqb_spec (pl_type p) x); [exists p; split; [left; reflexivity|assumption]|].
  destruct IH as (q & Hq & Eq); [lia|]. exists q. split; [right; assumption|assumption].
Qed.

Section Rect.

Variable i : RInstance.

Lemma guillotine_disjoint : forall l, guillotine i l -> ForallOrdPairs (disjoint i) l.
Proof.
  intros l H. induction H as [p|c l r Hl IHl Hr IHr H1 H2|c l r Hl IHl Hr IHr H1 H2].
  - constructor; [constructor|constructor].
  - apply ord_pairs_app; auto. intros p q Hp Hq. left. specialize (H1 p Hp). specialize (H2 q Hq). lia.
  - apply ord_pairs_app; auto. intros p q Hp Hq. right. right. left. specialize (H1 p Hp). specialize (H2 q Hq). lia.
Qed.

Lemma shift_ends : forall dx dy p, pl_xe i (shift dx dy p) = pl_xe i p + dx /\ pl_ye i (shift dx dy p) = pl_ye i p + dy.
Proof. intros dx dy [t x y r]. unfold pl_xe, pl_ye, pl_w, pl_h, shift. cbn [pl_type pl_x pl_y pl_rot]. split; lia. Qed.

Lemma guillotine_shift : forall dx dy l, guillotine i l -> guillotine i (map (shift dx dy) l).
Proof.
  intros dx dy l H. induction H as [p|c l r Hl IHl Hr IHr H1 H2|c l r Hl IHl Hr IHr H1 H2].
  - constructor.
  - rewrite map_app. apply (gu_vertical i (c + dx)); auto; intros q Hq; apply in_map_iff in Hq; destruct Hq as (p & <- & Hp).
    + rewrite (proj1 (shift_ends dx dy p)). specialize (H1 p Hp). lia.
    + simpl. specialize (H2 p Hp). lia.
  - rewrite map_app. apply (gu_horizontal i (c + dy)); auto; intros q Hq; apply in_map_iff in Hq; destruct Hq as (p & <- & Hp).
    + rewrite (proj2 (shift_ends dx dy p)). specialize (H1 p Hp). lia.
    + simpl. specialize (H2 p Hp). lia.
Qed.

(** ** Grids *)

Section Grid.
Variable x : nat.
Variable rot : bool.
Hypothesis Hx : 0 <= side_x i x rot.
Hypothesis Hy : 0 <= side_y i x rot.

Let w := side_x i x rot.
Let h := side_y i x rot.

Definition gplace (cx cy : Z) : Place := mkPl x (cx * w) (cy * h) rot.

Lemma gplace_ends : forall a b, pl_xe i (gplace a b) = (a + 1) * w /\ pl_ye i (gplace a b) = (b + 1) * h.
Proof.
  intros a b. unfold pl_xe, pl_ye, pl_w, pl_h, gplace, w, h, side_x, side_y. cbn [pl_type pl_x pl_y pl_rot].
  destruct rot; split; ring.
Qed.

Lemma column_guillotine : forall a n, guillotine i (map (fun k => gplace a (Z.of_nat k)) (seq 0 (S n))).
Proof.
  intros a n. induction n as [|n IH]; [constructor|]. rewrite seq_S, map_app. cbn [map].
  apply (gu_horizontal i (Z.of_nat (S n) * h)); auto.
  - constructor.
  - intros p Hp. apply in_map_iff in Hp. destruct Hp as (k & <- & Hk). apply in_seq in Hk. rewrite (proj2 (gplace_ends _ _)).
    apply Z.mul_le_mono_nonneg_r; [assumption|lia].
  - intros p [<-|[]]. cbn [gplace pl_y]. simpl Nat.add. lia.
Qed.

Lemma grid_guillotine : forall m n,
  guillotine i (flat_map (fun a => map (fun k => gplace (Z.of_nat a) (Z.of_nat k)) (seq 0 (S n))) (seq 0 (S m))).
Proof.
  intros m n. induction m as [|m IH].
  - cbn [seq flat_map]. rewrite app_nil_r. apply column_guillotine.
  - rewrite (seq_S (S m)), flat_map_app. cbn [flat_map]. rewrite app_nil_r.
    apply (gu_vertical i (Z.of_nat (S m) * w)); [assumption|apply column_guillotine| |].
    + intros p Hp. apply in_flat_map in Hp. destruct Hp as (a & Ha & Hp). apply in_map_iff in Hp. destruct Hp as (k & <- & Hk).
      apply in_seq in Ha. rewrite (proj1 (gplace_ends _ _)). apply Z.mul_le_mono_nonneg_r; [assumption|lia].
    + intros p Hp. apply in_map_iff in Hp. destruct Hp as (k & <- & Hk). cbn [gplace pl_x]. lia.
Qed.

Lemma grid_items : forall cx cy, bk_items (grid_block i x rot cx cy) =
  flat_map (fun a => map (fun k => gplace (Z.of_nat a) (Z.of_nat k)) (seq 0 (Z.to_nat cy))) (seq 0 (Z.to_nat cx)).
Proof.
  intros cx cy. cbn [grid_block bk_items]. unfold below. rewrite !flat_map_concat_map, map_map. f_equal. apply map_ext. intro a.
  rewrite map_map. reflexivity.
Qed.

Lemma grid_length : forall (f : nat -> nat -> Place) n l,
  length (flat_map (fun a => map (f a) (seq 0 n)) l) = (length l * n)%nat.
Proof. intros f n l. induction l as [|a l IH]; [reflexivity|]. cbn [flat_map]. rewrite app_length, map_length, seq_length, IH. simpl. lia. Qed.

Lemma grid_in : forall cx cy p, In p (bk_items (grid_block i x rot cx cy)) <->
  exists a b, 0 <= a < cx /\ 0 <= b < cy /\ p = gplace a b.
Proof.
  intros cx cy p. rewrite grid_items. rewrite in_flat_map. split.
  - intros (a & Ha & Hp). apply in_map_iff in Hp. destruct Hp as (k & <- & Hk). apply in_seq in Ha. apply in_seq in Hk.
    exists (Z.of_nat a), (Z.of_nat k). repeat split; lia.
  - intros (a & b & Ha & Hb & ->). exists (Z.to_nat a). split; [apply in_seq; lia|]. apply in_map_iff. exists (Z.to_nat b).
    rewrite !Z2Nat.id by lia. split; [reflexivity|apply in_seq; lia].
Qed.

Lemma qsum_all : forall (v : Place -> Q) q l, (forall p, In p l -> v p = q) -> (qsum v l == inject_Z (Z.of_nat (length l)) * q)%Q.
Proof.
  intros v q l. induction l as [|p l IH]; intro H.
  - unfold qsum. simpl. ring.
  - rewrite qsum_cons, IH by (intros; apply H; right; assumption). rewrite (H p (or_introl eq_refl)).
    replace (Z.of_nat (length (p :: l))) with (Z.of_nat (length l) + 1) by (simpl length; lia). rewrite inject_Z_plus. ring.
Qed.
Lemma zsum_all : forall (v : Place -> Z) q l, (forall p, In p l -> v p = q) -> zsum v l = Z.of_nat (length l) * q.
Proof.
  intros v q l. induction l as [|p l IH]; intro H; [rewrite zsum_nil; simpl; lia|].
  rewrite zsum_cons, IH by (intros; apply H; right; assumption). rewrite (H p (or_introl eq_refl)). simpl length. lia.
Qed.

Hypothesis Hid : (x < length (rin_items i))%nat.
Hypothesis Hrot : rot = true -> ri_oriented (ritem i x) = false.

Lemma grid_ok : forall bt cx cy, 1 <= cx -> 1 <= cy -> 0 < w -> 0 < h -> cx * w <= rb_x bt -> cy * h <= rb_y bt ->
  cx * cy <= ri_copies (ritem i x) -> block_ok i bt (grid_block i x rot cx cy).
Proof.
  intros bt cx cy Hcx Hcy Hw Hh Hfx Hfy Hcop.
  assert (Hlen : Z.of_nat (length (bk_items (grid_block i x rot cx cy))) = cx * cy).
  { rewrite grid_items, grid_length, seq_length, Nat2Z.inj_mul, !Z2Nat.id by lia. reflexivity. }
  assert (Hty : forall p, In p (bk_items (grid_block i x rot cx cy)) -> pl_type p = x).
  { intros p Hp. apply grid_in in Hp. destruct Hp as (a & b & _ & _ & ->). reflexivity. }
  assert (Hpos : 0 < cx * cy) by nia.
  constructor.
  - cbn [grid_block bk_x]. fold w. nia.
  - cbn [grid_block bk_y]. fold h. nia.
  - intros p Hp. apply grid_in in Hp. destruct Hp as (a & b & Ha & Hb & ->). destruct (gplace_ends a b) as [E1 E2]. rewrite E1, E2.
    cbn [gplace pl_type pl_x pl_y pl_rot grid_block bk_x bk_y]. fold w. fold h.
    split; [assumption|]. split; [assumption|]. repeat split; nia.
  - rewrite grid_items. destruct (Z.to_nat cx) as [|m] eqn:Em; [lia|]. destruct (Z.to_nat cy) as [|n] eqn:En; [lia|]. apply grid_guillotine.
  - repeat split.
    + exists (gplace 0 0). split; [apply grid_in; exists 0, 0; repeat split; lia|reflexivity].
    + exists (gplace (cx - 1) 0). split; [apply grid_in; exists (cx - 1), 0; repeat split; lia|].
      rewrite (proj1 (gplace_ends _ _)). cbn [grid_block bk_x]. fold w. ring.
    + exists (gplace 0 0). split; [apply grid_in; exists 0, 0; repeat split; lia|reflexivity].
    + exists (gplace 0 (cy - 1)). split; [apply grid_in; exists 0, (cy - 1); repeat split; lia|].
      rewrite (proj2 (gplace_ends _ _)). cbn [grid_block bk_y]. fold h. ring.
  - cbn [grid_block bk_copies map fst]. constructor; [constructor|constructor].
  - intros y c. cbn [grid_block bk_copies]. split.
    + intros [E|[]]. injection E as <- <-. split; [assumption|]. rewrite (rcount_all x _ Hty). symmetry. assumption.
    + intros [Hc E]. left. destruct (Nat.eq_dec y x) as [->|Hn].
      * rewrite (rcount_all x _ Hty), Hlen in E. congruence.
      * exfalso. rewrite (rcount_none y) in E; [lia|]. intros p Hp. rewrite (Hty p Hp). congruence.
  - intros y Hy'. destruct (Nat.eq_dec y x) as [->|Hn].
    + rewrite (rcount_all x _ Hty), Hlen. lia.
    + rewrite (rcount_none y); [lia|]. intros p Hp. rewrite (Hty p Hp). congruence.
  - symmetry. assumption.
  - rewrite (zsum_all _ (ri_x (ritem i x) * ri_y (ritem i x))).
    + rewrite Hlen. reflexivity.
    + intros p Hp. rewrite (Hty p Hp). reflexivity.
  - rewrite (qsum_all _ (ri_profit (ritem i x))).
    + rewrite Hlen. reflexivity.
    + intros p Hp. rewrite (Hty p Hp). reflexivity.
  - rewrite (qsum_all _ (ri_weight (ritem i x))).
    + rewrite Hlen. reflexivity.
    + intros p Hp. rewrite (Hty p Hp). reflexivity.
Qed.

End Grid.

Lemma concat_all_in : forall (A : Type) (l : list (option (list A))) g, concat_all l = Some g ->
  (forall b, In b g <-> exists s, In (Some s) l /\ In b s) /\ (forall o, In o l -> o <> None).
Proof.
  intros A. induction l as [|o l IH]; intros g H.
  - injection H as <-. split; [intro b; split; [intros []|intros (s & [] & _)]|intros o []].
  - cbn [concat_all] in H. destruct o as [a|]; [|discriminate]. destruct (concat_all l) as [c|]; [|discriminate]. injection H as <-.
    destruct (IH c eq_refl) as [H1 H2]. split.
    + intro b. rewrite in_app_iff, H1. split.
      * intros [Hb|(s & Hs & Hb)]; [exists a; split; [left; reflexivity|assumption]|exists s; split; [right; assumption|assumption]].
      * intros (s & [E|Hs] & Hb); [injection E as <-; auto|right; exists s; auto].
    + intros o [<-|Ho]; [discriminate|auto].
Qed.

Hypothesis Hnonneg : nonneg_items i.

Lemma sides_nonneg : forall x rot, (x < length (rin_items i))%nat -> 0 <= side_x i x rot /\ 0 <= side_y i x rot.
Proof.
  intros x rot H. assert (Hin : In (ritem i x) (rin_items i)) by (apply nth_In; assumption).
  destruct (Hnonneg _ Hin) as (A & B & _). unfold side_x, side_y. destruct rot; split; assumption.
Qed.

Lemma quot_bound : forall a b k, 0 < b -> 1 <= k <= Z.quot a b -> k * b <= a.
Proof.
  intros a b k Hb H. assert (0 <= a).
  { destruct (Z_le_gt_dec 0 a); [assumption|]. exfalso. assert (Z.quot a b <= 0) by (apply Z.quot_le_upper_bound; lia). lia. }
  rewrite Z.quot_div_nonneg in H by lia. pose proof (Z.mul_div_le a b Hb). nia.
Qed.

(** Every item type and rotation whose grids are made. *)
Lemma grids_spec : forall bt g, grids i bt = Some g -> forall b, In b g <->
  exists x rot cx cy, (x < length (rin_items i))%nat /\ (rot = true -> ri_oriented (ritem i x) = false) /\
    0 < side_x i x rot /\ 0 < side_y i x rot /\ 1 <= cx /\ 1 <= cy /\ cx * cy <= ri_copies (ritem i x) /\
    cx * side_x i x rot <= rb_x bt /\ cy * side_y i x rot <= rb_y bt /\ b = grid_block i x rot cx cy.
Proof.
  intros bt g H b. apply concat_all_in in H. destruct H as [H1 H2]. rewrite H1. clear H1.
  assert (Hrot : forall x rot s, (x < length (rin_items i))%nat -> grids_rot i bt x rot = Some s -> (In b s <->
    exists cx cy, 0 < side_x i x rot /\ 0 < side_y i x rot /\ 1 <= cx /\ 1 <= cy /\ cx * cy <= ri_copies (ritem i x) /\
    cx * side_x i x rot <= rb_x bt /\ cy * side_y i x rot <= rb_y bt /\ b = grid_block i x rot cx cy)).
  { intros x rot s Hx E. destruct (sides_nonneg x rot Hx) as [Nx Ny]. unfold grids_rot in E. cbv zeta in E.
    destruct (Z.eqb_spec (side_x i x rot) 0) as [Ex|Ex]; [discriminate|].
    destruct (Z.eqb_spec (side_y i x rot) 0) as [Ey|Ey].
    - destruct (1 <=? _); [discriminate|]. injection E as <-. split; [intros []|]. intros (cx & cy & _ & Hy & _). lia.
    - injection E as <-. rewrite in_flat_map. split.
      + intros (cx & Hcx & Hb). apply in_map_iff in Hb. destruct Hb as (cy & <- & Hcy). apply one_to_in in Hcx. apply one_to_in in Hcy.
        exists cx, cy. repeat split; try lia.
        * assert (K : cy * cx <= ri_copies (ritem i x)) by (apply quot_bound; lia). lia.
        * apply quot_bound; lia.
        * apply quot_bound; lia.
      + intros (cx & cy & Px & Py & Pcx & Pcy & Pc & Pfx & Pfy & ->). exists cx. split.
        * apply one_to_in. split; [assumption|]. apply Z.min_glb; [nia|]. apply Z.quot_le_lower_bound; lia.
        * apply in_map_iff. exists cy. split; [reflexivity|]. apply one_to_in. split; [assumption|].
          apply Z.min_glb; apply Z.quot_le_lower_bound; lia. }
  split.
  - intros (s & Hs & Hb). apply in_flat_map in Hs. destruct Hs as (x & Hx & Hs). apply in_seq in Hx.
    destruct (ri_copies (ritem i x) <? 1); [destruct Hs|].
    destruct (ri_oriented (ritem i x)) eqn:Eo.
    + destruct Hs as [E|[]]. apply (Hrot x false s) in Hb; [|lia|assumption]. destruct Hb as (cx & cy & Hb).
      exists x, false, cx, cy. split; [lia|]. split; [discriminate|assumption].
    + destruct Hs as [E|[E|[]]].
      * apply (Hrot x false s) in Hb; [|lia|assumption]. destruct Hb as (cx & cy & Hb).
        exists x, false, cx, cy. split; [lia|]. split; [discriminate|assumption].
      * apply (Hrot x true s) in Hb; [|lia|assumption]. destruct Hb as (cx & cy & Hb).
        exists x, true, cx, cy. split; [lia|]. split; [intros _; assumption|assumption].
  - intros (x & rot & cx & cy & Hx & Ho & Hb).
    assert (Hin : In (grids_rot i bt x rot) (flat_map (fun x =>
      if ri_copies (ritem i x) <? 1 then []
      else if ri_oriented (ritem i x) then [grids_rot i bt x false]
      else [grids_rot i bt x false; grids_rot i bt x true]) (seq 0 (length (rin_items i))))).
    { apply in_flat_map. exists x. split; [apply in_seq; lia|].
      assert (1 <= ri_copies (ritem i x)) by (destruct Hb as (_ & _ & A1 & A2 & A3 & _); nia).
      destruct (Z.ltb_spec (ri_copies (ritem i x)) 1); [lia|].
      destruct (ri_oriented (ritem i x)); destruct rot; simpl; auto. specialize (Ho eq_refl). discriminate. }
    destruct (grids_rot i bt x rot) as [s|] eqn:E; [|exfalso; apply (H2 None); [assumption|reflexivity]].
    exists s. split; [assumption|]. apply (Hrot x rot s Hx E). exists cx, cy. assumption.
Qed.

Lemma grids_ok : forall bt g, grids i bt = Some g -> forall b, In b g -> block_ok i bt b.
Proof.
  intros bt g H b Hb. apply (proj1 (grids_spec bt g H b)) in Hb.
  destruct Hb as (x & rot & cx & cy & Hx & Ho & A1 & A2 & A3 & A4 & A5 & A6 & A7 & ->).
  destruct (sides_nonneg x rot Hx). apply grid_ok; assumption.
Qed.

(** ** Combined blocks *)

Lemma copies_lookup : forall bt b, block_ok i bt b -> forall x, lookup x (bk_copies b) = rcount x (bk_items b).
Proof.
  intros bt b H x. destruct (in_dec Nat.eq_dec x (map fst (bk_copies b))) as [Hin|Hin].
  - apply in_map_iff in Hin. destruct Hin as ([y c] & E & Hin). simpl in E. subst y.
    rewrite (lookup_in x c); [|apply (bo_sorted _ _ _ H)|assumption]. apply (bo_copies _ _ _ H) in Hin. apply Hin.
  - rewrite lookup_not_in by assumption. pose proof (rcount_nonneg x (bk_items b)).
    destruct (Z.eq_dec (rcount x (bk_items b)) 0) as [E|E]; [lia|]. exfalso. apply Hin.
    assert (K : In (x, rcount x (bk_items b)) (bk_copies b)) by (apply (bo_copies _ _ _ H); split; [lia|reflexivity]).
    apply (in_map fst) in K. exact K.
Qed.

Lemma combined_ok : forall bt b e dir, block_ok i bt b -> block_ok i bt e ->
  bk_x (combined b e dir) <= rb_x bt -> bk_y (combined b e dir) <= rb_y bt ->
  valid_copies (fun x => ri_copies (ritem i x)) (bk_copies b) (bk_copies e) = true ->
  block_ok i bt (combined b e dir).
Proof.
  intros bt b e dir Hb He Hx Hy Hv.
  set (sh := if dir then shift (bk_x b) 0 else shift 0 (bk_y b)).
  assert (Hsh : forall p, pl_type (sh p) = pl_type p /\ pl_rot (sh p) = pl_rot p) by (intro p; unfold sh; destruct dir; split; reflexivity).
  assert (Hcnt : forall x, rcount x (bk_items (combined b e dir)) = rcount x (bk_items b) + rcount x (bk_items e)).
  { intro x. cbn [combined bk_items]. fold sh. rewrite rcount_app, rcount_map; [reflexivity|]. intro p. apply Hsh. }
  assert (Hin : forall p, In p (bk_items (combined b e dir)) <-> In p (bk_items b) \/ exists q, In q (bk_items e) /\ p = sh q).
  { intro p. cbn [combined bk_items]. fold sh. rewrite in_app_iff, in_map_iff. split; intros [K|(q & K1 & K2)]; eauto. }
  assert (Hsort : sorted_ids (merge_copies (bk_copies b) (bk_copies e))).
  { apply merge_sorted; [apply (bo_sorted _ _ _ Hb)|apply (bo_sorted _ _ _ He)]. }
  assert (Hlook : forall x, lookup x (merge_copies (bk_copies b) (bk_copies e)) = rcount x (bk_items (combined b e dir))).
  { intro x. rewrite (proj1 (merge_spec _ _)), (copies_lookup bt b Hb), (copies_lookup bt e He), Hcnt. reflexivity. }
  assert (Hcop : forall x c, In (x, c) (merge_copies (bk_copies b) (bk_copies e)) <-> 0 < c /\ c = rcount x (bk_items (combined b e dir))).
  { intros x c. split.
    - intro K. pose proof (lookup_in x c _ Hsort K) as L. rewrite Hlook in L. split; [|congruence].
      apply (in_map fst) in K. simpl in K. apply (proj2 (merge_spec _ _)) in K. rewrite <- L, Hcnt.
      pose proof (rcount_nonneg x (bk_items b)). pose proof (rcount_nonneg x (bk_items e)).
      destruct K as [K|K]; apply in_map_iff in K; destruct K as ([y d] & E & K); simpl in E; subst y.
      + apply (bo_copies _ _ _ Hb) in K. lia.
      + apply (bo_copies _ _ _ He) in K. lia.
    - intros [Hc E]. assert (K : In x (map fst (merge_copies (bk_copies b) (bk_copies e)))).
      { destruct (in_dec Nat.eq_dec x (map fst (merge_copies (bk_copies b) (bk_copies e)))) as [K|K]; [assumption|].
        apply lookup_not_in in K. rewrite Hlook in K. lia. }
      apply in_map_iff in K. destruct K as ([y d] & E2 & K). simpl in E2. subst y.
      pose proof (lookup_in x d _ Hsort K) as L. rewrite Hlook in L. replace c with d by congruence. assumption. }
  destruct (bo_x _ _ _ Hb), (bo_y _ _ _ Hb), (bo_x _ _ _ He), (bo_y _ _ _ He).
  constructor.
  - split; [|assumption]. cbn [combined bk_x]. destruct dir; lia.
  - split; [|assumption]. cbn [combined bk_y]. destruct dir; lia.
  - intros p Hp. apply Hin in Hp. destruct Hp as [Hp|(q & Hq & ->)].
    + destruct (bo_items _ _ _ Hb p Hp) as (A1 & A2 & A3 & A4 & A5 & A6). split; [assumption|]. split; [assumption|].
      cbn [combined bk_x bk_y]. destruct dir; lia.
    + destruct (bo_items _ _ _ He q Hq) as (A1 & A2 & A3 & A4 & A5 & A6). destruct (Hsh q) as [E1 E2]. rewrite E1, E2.
      split; [assumption|]. split; [assumption|]. cbn [combined bk_x bk_y]. unfold sh.
      destruct dir; destruct (shift_ends (bk_x b) 0 q) as [F1 F2]; destruct (shift_ends 0 (bk_y b) q) as [F3 F4];
        rewrite ?F1, ?F2, ?F3, ?F4; cbn [shift pl_x pl_y]; lia.
  - cbn [combined bk_items]. destruct dir.
    + apply (gu_vertical i (bk_x b)); [apply (bo_guillotine _ _ _ Hb)|apply guillotine_shift; apply (bo_guillotine _ _ _ He)| |].
      * intros p Hp. destruct (bo_items _ _ _ Hb p Hp) as (_ & _ & _ & A4 & _). assumption.
      * intros p Hp. apply in_map_iff in Hp. destruct Hp as (q & <- & Hq). destruct (bo_items _ _ _ He q Hq) as (_ & _ & A3 & _). simpl. lia.
    + apply (gu_horizontal i (bk_y b)); [apply (bo_guillotine _ _ _ Hb)|apply guillotine_shift; apply (bo_guillotine _ _ _ He)| |].
      * intros p Hp. destruct (bo_items _ _ _ Hb p Hp) as (_ & _ & _ & _ & _ & A6). assumption.
      * intros p Hp. apply in_map_iff in Hp. destruct Hp as (q & <- & Hq). destruct (bo_items _ _ _ He q Hq) as (_ & _ & _ & _ & A5 & _). simpl. lia.
  - destruct (bo_tight _ _ _ Hb) as ((p1 & B1 & B1') & (p2 & B2 & B2') & (p3 & B3 & B3') & (p4 & B4 & B4')).
    destruct (bo_tight _ _ _ He) as ((q1 & C1 & C1') & (q2 & C2 & C2') & (q3 & C3 & C3') & (q4 & C4 & C4')).
    assert (Hinb : forall p, In p (bk_items b) -> In p (bk_items (combined b e dir))) by (intros; apply Hin; auto).
    assert (Hine : forall q, In q (bk_items e) -> In (sh q) (bk_items (combined b e dir))) by (intros q Hq; apply Hin; right; exists q; auto).
    split; [exists p1; auto|]. split; [|split; [exists p3; auto|]]; cbn [combined bk_x bk_y].
    + destruct dir.
      * exists (sh q2). split; [auto|]. unfold sh. rewrite (proj1 (shift_ends _ _ _)). lia.
      * destruct (Z.max_spec (bk_x b) (bk_x e)) as [[_ E]|[_ E]]; rewrite E.
        -- exists (sh q2). split; [auto|]. unfold sh. rewrite (proj1 (shift_ends _ _ _)). lia.
        -- exists p2. auto.
    + destruct dir.
      * destruct (Z.max_spec (bk_y b) (bk_y e)) as [[_ E]|[_ E]]; rewrite E.
        -- exists (sh q4). split; [auto|]. unfold sh. rewrite (proj2 (shift_ends _ _ _)). lia.
        -- exists p4. auto.
      * exists (sh q4). split; [auto|]. unfold sh. rewrite (proj2 (shift_ends _ _ _)). lia.
  - exact Hsort.
  - intros x c. cbn [combined bk_copies]. apply Hcop.
  - intros x Hxl. destruct (Z_le_gt_dec (rcount x (bk_items (combined b e dir))) 0) as [L|L]; [lia|].
    assert (K : In (x, rcount x (bk_items (combined b e dir))) (merge_copies (bk_copies b) (bk_copies e))) by (apply Hcop; split; [lia|reflexivity]).
    apply (proj1 (valid_spec _ _ _) Hv) in K. lia.
  - cbn [combined bk_number bk_items]. rewrite app_length, map_length, (bo_number _ _ _ Hb), (bo_number _ _ _ He). lia.
  - cbn [combined bk_area bk_items]. fold sh. rewrite zsum_app, zsum_map, (bo_area _ _ _ Hb), (bo_area _ _ _ He). f_equal.
    apply zsum_ext. intros p _. rewrite (proj1 (Hsh p)). reflexivity.
  - cbn [combined bk_profit bk_items]. fold sh. rewrite qsum_app, qsum_map, (bo_profit _ _ _ Hb), (bo_profit _ _ _ He).
    apply Qplus_comp; [reflexivity|]. apply qsum_ext. intros p _. rewrite (proj1 (Hsh p)). reflexivity.
  - cbn [combined bk_weight bk_items]. fold sh. rewrite qsum_app, qsum_map, (bo_weight _ _ _ Hb), (bo_weight _ _ _ He).
    apply Qplus_comp; [reflexivity|]. apply qsum_ext. intros p _. rewrite (proj1 (Hsh p)). reflexivity.
Qed.

Lemma combine_in : forall bt cur b idx e c, In c (bk_combine i bt cur b idx e) ->
  exists dir, c = combined b e dir /\ bk_x c <= rb_x bt /\ bk_y c <= rb_y bt /\
    valid_copies (fun x => ri_copies (ritem i x)) (bk_copies b) (bk_copies e) = true.
Proof.
  intros bt cur b idx e c H. unfold bk_combine in H. destruct (_ && _); [destruct H|].
  apply in_flat_map in H. destruct H as (dir & _ & H). cbv zeta in H. exists dir.
  destruct (Z.ltb_spec (rb_x bt) (bk_x (combined b e dir))); [destruct H|].
  destruct (Z.ltb_spec (rb_y bt) (bk_y (combined b e dir))); [destruct H|]. cbn [orb] in H.
  destruct (valid_copies _ _ _) eqn:E; [|destruct H]. destruct H as [<-|[]]. auto.
Qed.

(** ** The engine *)

Lemma bk_key_eq : forall a b, bk_key_eqb a b = true <-> a = b.
Proof.
  intros [[x1 y1] c1] [[x2 y2] c2]. unfold bk_key_eqb. cbn [fst snd]. rewrite !andb_true_iff, !Z.eqb_eq, copies_eqb_eq.
  split; [intros [[-> ->] ->]; reflexivity|intro E; injection E as -> -> ->; auto].
Qed.

Section Bin.
Variable bt : RBin.

Let Good := fun (_ : list RBlock) b => block_ok i bt b.

Lemma good_mono : forall l m b, Good l b -> Good (l ++ m) b.
Proof. auto. Qed.

Lemma good_comb : forall ret b idx e c, nth_error ret idx = Some e -> Good ret b -> Good (firstn idx ret) e ->
  In c (bk_combine i bt (length ret) b idx e) -> Good (ret ++ [b]) c.
Proof.
  intros ret b idx e c _ Hb He Hc. apply combine_in in Hc. destruct Hc as (dir & -> & H1 & H2 & H3). apply combined_ok; assumption.
Qed.

Theorem blocks_ok : forall maximum fuel out, compute_blocks_for_bin i bt maximum fuel = Blocks out ->
  (forall b, In b out -> block_ok i bt b) /\ NoDup (map bk_key out) /\ (forall b, In b out -> bk_skip i b = false) /\
  (maximum <> -1 -> 0 <= maximum -> Z.of_nat (length out) <= maximum).
Proof.
  intros maximum fuel out H. unfold compute_blocks_for_bin in H. destruct (grids i bt) as [g|] eqn:Eg; [|discriminate].
  destruct (blocks_run _ _ _ _ _ _ _ _) as [l|] eqn:Er; [|discriminate]. injection H as <-.
  destruct (run_good bk_key bk_key_eqb bk_less (bk_skip i) (bk_combine i bt) maximum bk_key_eq Good good_mono good_comb fuel g l (grids_ok bt g Eg) Er)
    as (A1 & A2 & A3 & A4).
  split; [|auto]. intros b Hb. apply In_nth_error in Hb. destruct Hb as (n & Hn). apply (A1 n b Hn).
Qed.

Lemma finite_keys : exists U, forall (l : list RBlock) b, Good l b -> In (bk_key b) U.
Proof.
  destruct (finitely_many_copies (fun x => Z.max 0 (ri_copies (ritem i x))) (length (rin_items i))) as (U & HU).
  exists (flat_map (fun x => flat_map (fun y => map (fun c => (x, y, c)) U) (one_to (rb_y bt))) (one_to (rb_x bt))).
  intros l b Hb. unfold Good in Hb. apply in_flat_map. exists (bk_x b). split; [apply one_to_in; destruct (bo_x _ _ _ Hb); lia|].
  apply in_flat_map. exists (bk_y b). split; [apply one_to_in; destruct (bo_y _ _ _ Hb); lia|].
  apply in_map_iff. exists (bk_copies b). split; [reflexivity|]. apply HU; [apply (bo_sorted _ _ _ Hb)|].
  intros x c Hin. apply (bo_copies _ _ _ Hb) in Hin. destruct Hin as [Hc E].
  assert (Hx : (x < length (rin_items i))%nat).
  { destruct (rcount_pos x (bk_items b)) as (p & Hp & Et); [lia|]. rewrite <- Et. apply (bo_items _ _ _ Hb p Hp). }
  split; [assumption|]. pose proof (bo_available _ _ _ Hb x Hx). lia.
Qed.

Theorem blocks_terminate : forall maximum, grids i bt <> None ->
  exists n out, forall fuel, (n <= fuel)%nat -> compute_blocks_for_bin i bt maximum fuel = Blocks out.
Proof.
  intros maximum H. destruct (grids i bt) as [g|] eqn:Eg; [|congruence].
  destruct (run_terminates bk_key bk_key_eqb bk_less (bk_skip i) (bk_combine i bt) maximum bk_key_eq Good good_mono good_comb (or_intror finite_keys) g (grids_ok bt g Eg))
    as (n & out & E).
  exists n, out. intros fuel Hf. unfold compute_blocks_for_bin. rewrite Eg. unfold blocks_run in *.
  rewrite (loop_fuel bk_key bk_key_eqb bk_less (bk_skip i) (bk_combine i bt) maximum n fuel _ _ _ Hf E). reflexivity.
Qed.

(** *** Single items *)

Lemma number_one : forall b, block_ok i bt b -> bk_number b = 1 ->
  exists p, bk_items b = [p] /\ pl_x p = 0 /\ pl_y p = 0 /\ pl_w i p = bk_x b /\ pl_h i p = bk_y b /\ bk_copies b = [(pl_type p, 1)].
Proof.
  intros b H E. rewrite (bo_number _ _ _ H) in E. destruct (bk_items b) as [|p [|q l]] eqn:Ei; [discriminate| |simpl length in E; lia].
  exists p. split; [reflexivity|]. destruct (bo_tight _ _ _ H) as ((p1 & B1 & B1') & (p2 & B2 & B2') & (p3 & B3 & B3') & (p4 & B4 & B4')).
  rewrite Ei in *. destruct B1 as [<-|[]]. destruct B2 as [<-|[]]. destruct B3 as [<-|[]]. destruct B4 as [<-|[]].
  split; [assumption|]. split; [assumption|]. split; [unfold pl_xe in B2'; lia|]. split; [unfold pl_ye in B4'; lia|].
  assert (Hall : forall x c, In (x, c) (bk_copies b) <-> x = pl_type p /\ c = 1).
  { intros x c. rewrite (bo_copies _ _ _ H), Ei, rcount_cons. replace (rcount x []) with 0 by reflexivity.
    destruct (Nat.eqb_spec (pl_type p) x) as [Ex|Ex]; split; intros [K1 K2]; split; try lia; congruence. }
  pose proof (bo_sorted _ _ _ H) as S. destruct (bk_copies b) as [|[x c] l].
  - exfalso. apply (proj2 (Hall (pl_type p) 1)). auto.
  - destruct (proj1 (Hall x c) (or_introl eq_refl)) as [-> ->]. f_equal. destruct l as [|[y d] l]; [reflexivity|]. exfalso.
    destruct (proj1 (Hall y d) (or_intror (or_introl eq_refl))) as [-> ->]. cbn [map fst] in S. apply StronglySorted_inv in S.
    destruct S as [_ S]. inversion S. lia.
Qed.

Lemma copies_one : forall b x, block_ok i bt b -> bk_copies b = [(x, 1)] -> bk_number b = 1.
Proof.
  intros b x H E. rewrite (bo_number _ _ _ H). rewrite <- (rcount_all x).
  - symmetry. apply (bo_copies _ _ _ H x 1). rewrite E. left. reflexivity.
  - intros p Hp. assert (K : In (pl_type p, rcount (pl_type p) (bk_items b)) (bk_copies b)).
    { apply (bo_copies _ _ _ H). split; [|reflexivity]. apply in_split in Hp. destruct Hp as (l1 & l2 & ->).
      rewrite rcount_app, rcount_cons, Nat.eqb_refl. pose proof (rcount_nonneg (pl_type p) l1). pose proof (rcount_nonneg (pl_type p) l2). lia. }
    rewrite E in K. destruct K as [K|[]]. congruence.
Qed.

Lemma number_pos : forall b, block_ok i bt b -> 1 <= bk_number b.
Proof.
  intros b H. rewrite (bo_number _ _ _ H). destruct (bo_tight _ _ _ H) as ((p & Hp & _) & _). destruct (bk_items b); [destruct Hp|]. simpl length. lia.
Qed.

Definition bsingle (b : RBlock) : bool := bk_number b =? 1.

Lemma single_less : forall a b, block_ok i bt a -> block_ok i bt b -> bsingle a = true -> bsingle b = false -> bk_less b a = true.
Proof.
  intros a b _ _ Ha Hb. unfold bsingle in *. unfold bk_less, rate_less. rewrite Ha, Hb. reflexivity.
Qed.

Lemma single_key : forall a b, block_ok i bt a -> block_ok i bt b -> bk_key a = bk_key b -> bsingle a = bsingle b.
Proof.
  assert (H : forall a b, block_ok i bt a -> block_ok i bt b -> bk_key a = bk_key b -> bsingle a = true -> bsingle b = true).
  { intros a b Ha Hb E Hs. unfold bsingle in *. apply Z.eqb_eq in Hs. apply Z.eqb_eq. destruct (number_one a Ha Hs) as (p & _ & _ & _ & _ & _ & Hc).
    apply (copies_one b (pl_type p) Hb). unfold bk_key in E. congruence. }
  intros a b Ha Hb E. destruct (bsingle a) eqn:E1, (bsingle b) eqn:E2; try reflexivity.
  - rewrite (H a b Ha Hb E E1) in E2. discriminate.
  - rewrite (H b a Hb Ha (eq_sym E) E2) in E1. discriminate.
Qed.

Lemma single_full : forall b, block_ok i bt b -> bk_number b = 1 -> bk_area b = bk_x b * bk_y b.
Proof.
  intros b H E. destruct (number_one b H E) as (p & Hi & _ & _ & Hw & Hh & _). rewrite (bo_area _ _ _ H), Hi, zsum_cons, zsum_nil, <- Hw, <- Hh.
  unfold pl_w, pl_h. destruct (pl_rot p); ring.
Qed.

Lemma skip_spec : forall b, block_ok i bt b -> bk_skip i b = false <-> ((length (rin_items i) <= 3)%nat -> bk_area b = bk_x b * bk_y b).
Proof.
  intros b H. unfold bk_skip. destruct (bo_x _ _ _ H), (bo_y _ _ _ H).
  assert (Ef : Qeq_bool (bk_fill b) 1 = true <-> bk_area b = bk_x b * bk_y b).
  { rewrite Qeq_bool_iff. unfold bk_fill. assert (P : 0 < bk_x b * bk_y b) by nia.
    assert (P' : ~ (inject_Z (bk_x b * bk_y b) == 0)%Q) by (intro K; change 0%Q with (inject_Z 0) in K; rewrite inject_Z_injective in K; lia).
    split.
    - intro K. rewrite <- inject_Z_injective.
      transitivity (inject_Z (bk_area b) / inject_Z (bk_x b * bk_y b) * inject_Z (bk_x b * bk_y b))%Q; [field; assumption|]. rewrite K. ring.
    - intro K. rewrite K. field. assumption. }
  destruct (Nat.leb_spec (length (rin_items i)) 3) as [L|L]; cbn [andb].
  - rewrite negb_false_iff, Ef. split; auto.
  - split; [intros _ K; lia|reflexivity].
Qed.

Lemma single_skip : forall b, block_ok i bt b -> bsingle b = true -> bk_skip i b = false.
Proof. intros b H Hs. apply Z.eqb_eq in Hs. apply skip_spec; [assumption|]. intros _. apply single_full; assumption. Qed.

Lemma single_comb : forall cur b idx e c, block_ok i bt b -> block_ok i bt e -> In c (bk_combine i bt cur b idx e) ->
  block_ok i bt c /\ bsingle c = false.
Proof.
  intros cur b idx e c Hb He Hc. apply combine_in in Hc. destruct Hc as (dir & -> & H1 & H2 & H3). split; [apply combined_ok; assumption|].
  unfold bsingle. cbn [combined bk_number]. pose proof (number_pos b Hb). pose proof (number_pos e He). apply Z.eqb_neq. lia.
Qed.

Lemma bk_less_asym : forall a b, bk_less a b = true -> bk_less b a = false.
Proof. intros a b. apply rate_less_asym. Qed.
Lemma bk_less_trans : forall a b c, bk_less a b = true -> bk_less b c = true -> bk_less a c = true.
Proof. intros a b c. apply rate_less_trans. Qed.

Definition single_keys : list (Z * Z * Copies) :=
  flat_map (fun x => [(side_x i x false, side_y i x false, [(x, 1)]); (side_x i x true, side_y i x true, [(x, 1)])]) (seq 0 (length (rin_items i))).

Lemma single_keys_length : length single_keys = (2 * length (rin_items i))%nat.
Proof.
  unfold single_keys. rewrite <- (seq_length (length (rin_items i)) 0) at 2. generalize (seq 0 (length (rin_items i))) as l.
  induction l as [|x l IH]; [reflexivity|]. cbn [flat_map app length]. rewrite IH. lia.
Qed.

Lemma grids_single_keys : forall g, grids i bt = Some g -> forall b, In b g -> bsingle b = true -> In (bk_key b) single_keys.
Proof.
  intros g Eg b Hb Hs. apply (proj1 (grids_spec bt g Eg b)) in Hb.
  destruct Hb as (x & rot & cx & cy & Hx & Ho & A1 & A2 & A3 & A4 & A5 & A6 & A7 & ->).
  apply Z.eqb_eq in Hs. cbn [grid_block bk_number] in Hs. assert (cx = 1) by nia. assert (cy = 1) by nia. subst cx cy.
  apply in_flat_map. exists x. split; [apply in_seq; lia|]. unfold bk_key. cbn [grid_block bk_x bk_y bk_copies]. rewrite !Z.mul_1_l.
  destruct rot; [right; left; reflexivity|left; reflexivity].
Qed.

Theorem blocks_singles : forall maximum fuel out, compute_blocks_for_bin i bt maximum fuel = Blocks out ->
  maximum = -1 \/ 2 * Z.of_nat (length (rin_items i)) <= maximum ->
  forall x rot, (x < length (rin_items i))%nat -> (rot = true -> ri_oriented (ritem i x) = false) -> 1 <= ri_copies (ritem i x) ->
    0 < side_x i x rot <= rb_x bt -> 0 < side_y i x rot <= rb_y bt ->
  exists b p, In b out /\ bk_items b = [p] /\ pl_type p = x /\ pl_x p = 0 /\ pl_y p = 0 /\
    pl_w i p = side_x i x rot /\ pl_h i p = side_y i x rot.
Proof.
  intros maximum fuel out H Hm x rot Hx Ho Hc Hfx Hfy. pose proof H as H'. unfold compute_blocks_for_bin in H. destruct (grids i bt) as [g|] eqn:Eg; [|discriminate].
  destruct (blocks_run _ _ _ _ _ _ _ _) as [l|] eqn:Er; [|discriminate]. injection H as <-.
  assert (Hg : In (grid_block i x rot 1 1) g).
  { apply (proj2 (grids_spec bt g Eg _)). exists x, rot, 1, 1. repeat split; try lia. assumption. }
  assert (Hroom : maximum = -1 \/ Z.of_nat (length single_keys) <= maximum) by (rewrite single_keys_length; lia).
  destruct (run_singles bk_key bk_key_eqb bk_less (bk_skip i) (bk_combine i bt) maximum bk_key_eq bk_less_asym bk_less_trans bsingle (block_ok i bt)
    single_less single_key single_skip single_comb g (grids_ok bt g Eg) single_keys (grids_single_keys g Eg) Hroom fuel l Er (grid_block i x rot 1 1) Hg eq_refl)
    as (b & Hb & Ek).
  assert (Hok : block_ok i bt b) by (apply (blocks_ok maximum fuel l H'); assumption).
  unfold bk_key in Ek. cbn [grid_block bk_x bk_y bk_copies] in Ek. rewrite !Z.mul_1_l in Ek. injection Ek as Ex Ey Ec.
  destruct (number_one b Hok (copies_one b x Hok Ec)) as (p & Hi & P1 & P2 & P3 & P4 & P5). exists b, p. repeat split; congruence.
Qed.

End Bin.

(** ** Putting a block in a bin *)

Lemma put_in : forall b px py q, In q (put b px py) <-> exists p, In p (bk_items b) /\ q = mkPl (pl_type p) (px + pl_x p) (py + pl_y p) (pl_rot p).
Proof. intros. unfold put. rewrite in_map_iff. split; intros (p & A & B); exists p; auto. Qed.

Lemma put_shift : forall b px py, put b px py = map (shift px py) (bk_items b).
Proof. intros. unfold put. apply map_ext. intros [t x y r]. unfold shift. cbn [pl_type pl_x pl_y pl_rot]. f_equal; lia. Qed.

Lemma put_inside : forall bt b px py q, block_ok i bt b -> In q (put b px py) ->
  px <= pl_x q /\ pl_xe i q <= px + bk_x b /\ py <= pl_y q /\ pl_ye i q <= py + bk_y b.
Proof.
  intros bt b px py q H Hq. rewrite put_shift in Hq. apply in_map_iff in Hq. destruct Hq as (p & <- & Hp).
  destruct (shift_ends px py p) as [E1 E2]. rewrite E1, E2. destruct (bo_items _ _ _ H p Hp) as (_ & _ & A3 & A4 & A5 & A6). cbn [shift pl_x pl_y]. lia.
Qed.

Theorem put_geometry : forall bt bt' ps b px py, block_ok i bt' b -> geometry_ok i bt ps ->
  0 <= px -> px + bk_x b <= rb_x bt -> 0 <= py -> py + bk_y b <= rb_y bt ->
  (forall p, In p ps -> pl_xe i p <= px \/ px + bk_x b <= pl_x p \/ pl_ye i p <= py \/ py + bk_y b <= pl_y p) ->
  (forall d, In d (rb_defects bt) -> px + bk_x b <= df_x d \/ df_x d + df_lx d <= px \/ py + bk_y b <= df_y d \/ df_y d + df_ly d <= py) ->
  geometry_ok i bt (ps ++ put b px py).
Proof.
  intros bt bt' ps b px py Hb [G1 G2 G3] Hx1 Hx2 Hy1 Hy2 Hps Hd. constructor.
  - intros q Hq. apply in_app_or in Hq. destruct Hq as [Hq|Hq]; [auto|]. pose proof (put_inside bt' b px py q Hb Hq) as K.
    apply put_in in Hq. destruct Hq as (p & Hp & Eq). destruct (bo_items _ _ _ Hb p Hp) as (A1 & A2 & _).
    subst q. constructor; cbn [pl_type pl_rot]; auto; lia.
  - apply ord_pairs_app; [assumption| |].
    + apply guillotine_disjoint. rewrite put_shift. apply guillotine_shift. apply (bo_guillotine _ _ _ Hb).
    + intros p q Hp Hq. pose proof (put_inside bt' b px py q Hb Hq) as K. specialize (Hps p Hp). unfold disjoint. lia.
  - intros q d Hq Hdd. apply in_app_or in Hq. destruct Hq as [Hq|Hq]; [auto|]. pose proof (put_inside bt' b px py q Hb Hq) as K.
    specialize (Hd d Hdd). unfold avoids. lia.
Qed.

(** ** Reachable lengths *)

Section Reach.
Variable side : nat -> bool -> Z.
Hypothesis Hside : forall x rot, (x < length (rin_items i))%nat -> 0 <= side x rot.
Variable m : Z.
Hypothesis Hm : 0 <= m.

(** Lengths reachable with the first [k] item types. *)
Definition reach (k : nat) (v : Z) : Prop :=
  exists a r : nat -> Z,
    (forall x, (x < k)%nat -> 0 <= a x /\ 0 <= r x /\ a x + r x <= ri_copies (ritem i x)
      /\ (ri_oriented (ritem i x) = true -> r x = 0))
    /\ v = zsum (fun x => a x * side x false + r x * side x true) (seq 0 k).

(** ... and at most [j] copies of item type [k]. *)
Definition reach_plus (k : nat) (j : nat) (v : Z) : Prop :=
  exists a r, 0 <= a /\ 0 <= r /\ a + r <= Z.of_nat j /\ (ri_oriented (ritem i k) = true -> r = 0) /\
    reach k (v - (a * side k false + r * side k true)).

Lemma reach_nonneg : forall k v, (k <= length (rin_items i))%nat -> reach k v -> 0 <= v.
Proof.
  intros k v Hk (a & r & H1 & ->). apply zsum_nonneg. intros x Hx. apply in_seq in Hx. destruct (H1 x) as (A1 & A2 & _); [lia|].
  pose proof (Hside x false). pose proof (Hside x true). assert (0 <= side x false) by (apply H; lia). assert (0 <= side x true) by (apply H0; lia). nia.
Qed.

Definition table (P : Z -> Prop) (l : list bool) : Prop :=
  length l = S (Z.to_nat m) /\ forall v, (v <= Z.to_nat m)%nat -> (nth v l false = true <-> P (Z.of_nat v)).

Lemma reach_rot_table : forall (P T : Z -> Prop) reachable temp s, 0 <= s -> table P reachable -> table T temp ->
  table (fun v => T v \/ (s <= v /\ P (v - s))) (reach_rot reachable temp s).
Proof.
  intros P T reachable temp s Hs [L1 H1] [L2 H2]. unfold reach_rot. cbv zeta. rewrite L2.
  destruct (Z.leb_spec s (Z.of_nat (S (Z.to_nat m)) - 1)) as [Hle|Hgt].
  - split; [rewrite map_length, seq_length; reflexivity|]. intros v Hv.
    rewrite (nth_indep _ false ((fun v0 => nth v0 temp false || (s <=? Z.of_nat v0) && nth (Z.to_nat (Z.of_nat v0 - s)) reachable false) 0%nat)) by (rewrite map_length, seq_length; lia).
    rewrite (map_nth (fun v0 => nth v0 temp false || (s <=? Z.of_nat v0) && nth (Z.to_nat (Z.of_nat v0 - s)) reachable false)), seq_nth by lia.
    cbn [Nat.add]. rewrite orb_true_iff, andb_true_iff, (H2 v Hv). destruct (Z.leb_spec s (Z.of_nat v)) as [K|K].
    + rewrite (H1 (Z.to_nat (Z.of_nat v - s))) by lia. rewrite Z2Nat.id by lia. split; intros [A|A]; auto; [right|right]; tauto.
    + split; intros [A|[A B]]; auto; [discriminate|lia].
  - split; [assumption|]. intros v Hv. rewrite (H2 v Hv). split; [auto|]. intros [A|[A B]]; [assumption|lia].
Qed.

Lemma table_ext : forall (P T : Z -> Prop) l, (forall v, 0 <= v -> (P v <-> T v)) -> table P l -> table T l.
Proof. intros P T l H [L1 H1]. split; [assumption|]. intros v Hv. rewrite (H1 v Hv). apply H. lia. Qed.

Lemma reach_copy_table : forall k j l, (k < length (rin_items i))%nat -> table (reach_plus k j) l ->
  table (reach_plus k (S j)) (reach_copy (if ri_oriented (ritem i k) then [side k false] else [side k false; side k true]) l).
Proof.
  intros k j l Hk T. pose proof (Hside k false Hk) as S0. pose proof (Hside k true Hk) as S1. unfold reach_copy.
  assert (Hnn : forall v, reach_plus k j v -> 0 <= v).
  { intros v (a & r & A1 & A2 & A3 & A4 & A5). apply reach_nonneg in A5; [|lia]. nia. }
  destruct (ri_oriented (ritem i k)) eqn:Eo; cbn [fold_left].
  - eapply table_ext; [|apply (reach_rot_table _ _ l l (side k false) S0 T T)]. intros v Hv. split.
    + intros [(a & r & A1 & A2 & A3 & A4 & A5)|[Hs (a & r & A1 & A2 & A3 & A4 & A5)]].
      * exists a, r. repeat split; auto; lia.
      * exists (a + 1), r. repeat split; auto; try lia. replace (v - ((a + 1) * side k false + r * side k true)) with (v - side k false - (a * side k false + r * side k true)) by ring. assumption.
    + intros (a & r & A1 & A2 & A3 & A4 & A5). pose proof (A4 Eo) as Er. subst r.
      destruct (Z.eq_dec a 0) as [->|Ha]; [left; exists 0, 0; repeat split; auto; lia|].
      right. assert (K : reach_plus k j (v - side k false)).
      { exists (a - 1), 0. repeat split; auto; try lia. replace (v - side k false - ((a - 1) * side k false + 0 * side k true)) with (v - (a * side k false + 0 * side k true)) by ring. assumption. }
      split; [apply Hnn in K; lia|assumption].
  - eapply table_ext; [|apply (reach_rot_table _ _ l _ (side k true) S1 T (reach_rot_table _ _ l l (side k false) S0 T T))]. intros v Hv. split.
    + intros [[(a & r & A1 & A2 & A3 & A4 & A5)|[Hs (a & r & A1 & A2 & A3 & A4 & A5)]]|[Hs (a & r & A1 & A2 & A3 & A4 & A5)]].
      * exists a, r. repeat split; auto; lia.
      * exists (a + 1), r. repeat split; auto; try lia. replace (v - ((a + 1) * side k false + r * side k true)) with (v - side k false - (a * side k false + r * side k true)) by ring. assumption.
      * exists a, (r + 1). repeat split; auto; try lia; [congruence|]. replace (v - (a * side k false + (r + 1) * side k true)) with (v - side k true - (a * side k false + r * side k true)) by ring. assumption.
    + intros (a & r & A1 & A2 & A3 & A4 & A5).
      destruct (Z.eq_dec a 0) as [Ha|Ha].
      * destruct (Z.eq_dec r 0) as [Hr|Hr].
        -- left. left. exists a, r. repeat split; auto; lia.
        -- right. assert (K : reach_plus k j (v - side k true)).
           { exists a, (r - 1). repeat split; auto; try lia; [congruence|]. replace (v - side k true - (a * side k false + (r - 1) * side k true)) with (v - (a * side k false + r * side k true)) by ring. assumption. }
           split; [apply Hnn in K; lia|assumption].
      * left. right. assert (K : reach_plus k j (v - side k false)).
        { exists (a - 1), r. repeat split; auto; try lia. replace (v - side k false - ((a - 1) * side k false + r * side k true)) with (v - (a * side k false + r * side k true)) by ring. assumption. }
        split; [apply Hnn in K; lia|assumption].
Qed.

Lemma reach_plus_zero : forall k v, reach_plus k 0 v <-> reach k v.
Proof.
  intros k v. split.
  - intros (a & r & A1 & A2 & A3 & A4 & A5). assert (a = 0) by lia. assert (r = 0) by lia. subst. replace (v - (0 * side k false + 0 * side k true)) with v in A5 by ring. assumption.
  - intro H. exists 0, 0. repeat split; try lia. replace (v - (0 * side k false + 0 * side k true)) with v by ring. assumption.
Qed.

Lemma reach_plus_succ : forall k v, 0 <= ri_copies (ritem i k) -> reach_plus k (Z.to_nat (ri_copies (ritem i k))) v <-> reach (S k) v.
Proof.
  intros k v Hc. split.
  - intros (a & r & A1 & A2 & A3 & A4 & (a' & r' & H1 & H2)).
    exists (fun x => if Nat.eqb x k then a else a' x), (fun x => if Nat.eqb x k then r else r' x). split.
    + intros x Hx. destruct (Nat.eqb_spec x k) as [->|Hn]; [repeat split; auto; lia|apply H1; lia].
    + rewrite seq_S, zsum_app, zsum_cons, zsum_nil. cbn [Nat.add]. rewrite Nat.eqb_refl.
      rewrite (zsum_ext _ _ (fun x => a' x * side x false + r' x * side x true)); [lia|].
      intros x Hx. apply in_seq in Hx. destruct (Nat.eqb_spec x k); [lia|reflexivity].
  - intros (a & r & H1 & H2). destruct (H1 k) as (A1 & A2 & A3 & A4); [lia|]. exists (a k), (r k). repeat split; auto; [lia|].
    exists a, r. split; [intros x Hx; apply H1; lia|]. rewrite H2, seq_S, zsum_app, zsum_cons, zsum_nil. cbn [Nat.add]. lia.
Qed.

Hypothesis Hcop : forall x, (x < length (rin_items i))%nat -> 0 <= ri_copies (ritem i x).

Lemma reach_all_table : table (stackable i side) (reach_all i side m).
Proof.
  unfold reach_all.
  assert (H : forall k l, (k <= length (rin_items i))%nat -> table (reach 0) l ->
    table (reach k) (fold_left (fun reachable x =>
      Nat.iter (Z.to_nat (ri_copies (ritem i x))) (reach_copy (if ri_oriented (ritem i x) then [side x false] else [side x false; side x true])) reachable)
      (seq 0 k) l)).
  { induction k as [|k IH]; intros l Hk T; [assumption|]. rewrite seq_S, fold_left_app. cbn [fold_left Nat.add].
    specialize (IH l (Nat.lt_le_incl _ _ Hk) T). eapply table_ext; [intros v _; apply reach_plus_succ; apply Hcop; lia|].
    generalize (Z.to_nat (ri_copies (ritem i k))) as j. induction j as [|j IHj].
    - cbn [Nat.iter nat_rect]. eapply table_ext; [intros v _; symmetry; apply reach_plus_zero|assumption].
    - cbn [Nat.iter nat_rect]. apply reach_copy_table; [lia|assumption]. }
  apply H; [lia|]. split; [simpl; rewrite repeat_length; reflexivity|]. intros v Hv. split.
  - intro E. destruct v as [|v]; [|cbn [nth] in E; rewrite nth_repeat in E; discriminate]. exists (fun _ => 0), (fun _ => 0).
    split; [intros x Hx; lia|reflexivity].
  - intros (a & r & _ & E). cbn [seq] in E. rewrite zsum_nil in E. destruct v; [reflexivity|lia].
Qed.

Lemma last_reachable_spec : forall l, table (stackable i side) l -> forall v, (v <= Z.to_nat m)%nat ->
  stackable i side (last_reachable l v) /\ last_reachable l v <= Z.of_nat v /\
  (forall u, stackable i side u -> u <= Z.of_nat v -> u <= last_reachable l v).
Proof.
  intros l [L H] v. induction v as [|v IH]; intro Hv.
  - cbn [last_reachable]. split; [|split; [lia|intros; lia]].
    exists (fun _ => 0), (fun _ => 0). split; [intros x Hx; specialize (Hcop x Hx); repeat split; lia|].
    rewrite (zsum_ext _ _ (fun _ => 0)) by (intros; lia). symmetry. generalize (seq 0 (length (rin_items i))) as s. induction s as [|x s IHs]; [reflexivity|]. rewrite zsum_cons, IHs. reflexivity.
  - cbn [last_reachable]. destruct (nth (S v) l false) eqn:E.
    + apply (H (S v)) in E; [|assumption]. split; [assumption|]. split; [lia|auto].
    + destruct IH as (A1 & A2 & A3); [lia|]. split; [assumption|]. split; [lia|]. intros u Hu Hle.
      destruct (Z.eq_dec u (Z.of_nat (S v))) as [->|Hn]; [|apply A3; [assumption|lia]].
      apply (H (S v)) in Hu; [congruence|assumption].
Qed.

End Reach.

Lemma max_side_spec : forall f, 0 <= max_side i f /\ (forall bt, In bt (rin_bins i) -> f bt <= max_side i f) /\
  (max_side i f = 0 \/ exists bt, In bt (rin_bins i) /\ max_side i f = f bt).
Proof.
  intro f. unfold max_side.
  assert (G : forall l a, let r := fold_left (fun m bt => Z.max m (f bt)) l a in
    a <= r /\ (forall bt, In bt l -> f bt <= r) /\ (r = a \/ exists bt, In bt l /\ r = f bt)).
  { induction l as [|b l IH]; intro a; cbv zeta; cbn [fold_left].
    - split; [lia|]. split; [intros bt []|left; reflexivity].
    - destruct (IH (Z.max a (f b))) as (A1 & A2 & A3). cbv zeta in *. split; [lia|]. split.
      + intros bt [<-|Hb]; [lia|auto].
      + destruct A3 as [A3|(bt & Hb & A3)]; [|right; exists bt; split; [right; assumption|assumption]].
        rewrite A3. destruct (Z.max_spec a (f b)) as [[_ ->]|[_ ->]]; [right; exists b; split; [left; reflexivity|reflexivity]|left; reflexivity]. }
  specialize (G (rin_bins i) 0). cbv zeta in G. exact G.
Qed.

Theorem max_reachable_spec : forall side f, (forall x rot, (x < length (rin_items i))%nat -> 0 <= side x rot) ->
  let m := max_side i f in let res := max_reachable i side f in
  length res = S (Z.to_nat m) /\
  forall v, 0 <= v <= m -> let r := nth (Z.to_nat v) res 0 in
    stackable i side r /\ r <= v /\ (forall u, stackable i side u -> u <= v -> u <= r).
Proof.
  intros side f Hside. cbv zeta. destruct (max_side_spec f) as (M0 & _ & _).
  assert (Hcop : forall x, (x < length (rin_items i))%nat -> 0 <= ri_copies (ritem i x)).
  { intros x Hx. destruct (Hnonneg (ritem i x)) as (_ & _ & A); [apply nth_In; assumption|assumption]. }
  unfold max_reachable. split; [rewrite map_length, seq_length; reflexivity|]. intros v Hv.
  rewrite (nth_indep _ 0 (last_reachable (reach_all i side (max_side i f)) 0)) by (rewrite map_length, seq_length; lia).
  rewrite map_nth, seq_nth by lia. cbn [Nat.add].
  destruct (last_reachable_spec side (max_side i f) Hcop _ (reach_all_table side Hside (max_side i f) Hcop) (Z.to_nat v)) as (A1 & A2 & A3); [lia|].
  rewrite Z2Nat.id in * by lia. auto.
Qed.

End Rect.
