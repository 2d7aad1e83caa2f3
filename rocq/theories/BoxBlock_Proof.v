(** * Proofs about the box blocks *)

From Coq Require Import List ZArith QArith Qfield Bool Lia Lqa Arith Sorted Permutation.
From Verif Require Import Util Common_Model Common_Proof Block_Model Block_Proof RectBlock_Model RectBlock_Proof Box_Model Box_Spec BoxSol_Proof BoxBlock_Model BoxBlock_Spec.
Import ListNotations.
Open Scope Z_scope.

Lemma bcount_nonneg : forall x ps, 0 <= bcount x ps.
Proof. intros. unfold bcount. lia. Qed.
Lemma bcount_app : forall x l m, bcount x (l ++ m) = bcount x l + bcount x m.
Proof. intros. unfold bcount. rewrite filter_app, app_length. lia. Qed.
Lemma bcount_cons : forall x p l, bcount x (p :: l) = (if Nat.eqb (bp_type p) x then 1 else 0) + bcount x l.
Proof. intros. unfold bcount. simpl. destruct (Nat.eqb (bp_type p) x); [|lia]. simpl length. lia. Qed.
Lemma bcount_map : forall x (f : BPlace -> BPlace) l, (forall p, bp_type (f p) = bp_type p) -> bcount x (map f l) = bcount x l.
Proof. intros x f l H. induction l as [|p l IH]; [reflexivity|]. cbn [map]. rewrite !bcount_cons, H, IH. reflexivity. Qed.
Lemma bcount_all : forall x l, (forall p, In p l -> bp_type p = x) -> bcount x l = Z.of_nat (length l).
Proof.
  intros x l. induction l as [|p l IH]; intro H; [reflexivity|]. rewrite bcount_cons, IH by (intros; apply H; right; assumption).
  rewrite (H p (or_introl eq_refl)), Nat.eqb_refl. simpl length. lia.
Qed.
Lemma bcount_none : forall x l, (forall p, In p l -> bp_type p <> x) -> bcount x l = 0.
Proof.
  intros x l. induction l as [|p l IH]; intro H; [reflexivity|]. rewrite bcount_cons, IH by (intros; apply H; right; assumption).
  destruct (Nat.eqb_spec (bp_type p) x); [|reflexivity]. exfalso. apply (H p (or_introl eq_refl)). assumption.
Qed.
Lemma bcount_pos : forall x l, 0 < bcount x l -> exists p, In p l /\ bp_type p = x.
Proof.
  intros x l. induction l as [|p l IH]; intro H; [unfold bcount in H; simpl in H; lia|]. rewrite bcount_cons in H.
  destruct (Nat.eqb_spec (bp_type p) x); [exists p; split; [left; reflexivity|assumption]|].
  destruct IH as (q & Hq & Eq); [lia|]. exists q. split; [right; assumption|assumption].
Qed.

Lemma zsum_same : forall (A : Type) (v : A -> Z) q l, (forall p, In p l -> v p = q) -> zsum v l = Z.of_nat (length l) * q.
Proof.
  intros A v q l. induction l as [|p l IH]; intro H; [rewrite zsum_nil; simpl; lia|].
  rewrite zsum_cons, IH by (intros; apply H; right; assumption). rewrite (H p (or_introl eq_refl)). simpl length. lia.
Qed.
Lemma qsum_same : forall (A : Type) (v : A -> Q) q l, (forall p, In p l -> v p = q) -> (qsum v l == inject_Z (Z.of_nat (length l)) * q)%Q.
Proof.
  intros A v q l. induction l as [|p l IH]; intro H.
  - unfold qsum. simpl. ring.
  - rewrite qsum_cons, IH by (intros; apply H; right; assumption). rewrite (H p (or_introl eq_refl)).
    replace (Z.of_nat (length (p :: l))) with (Z.of_nat (length l) + 1) by (simpl length; lia). rewrite inject_Z_plus. ring.
Qed.

Lemma vec_ext : forall u v, (forall a, vat u a = vat v a) -> u = v.
Proof. intros [x y z] [x' y' z'] H. pose proof (H AX). pose proof (H AY). pose proof (H AZ). simpl in *. congruence. Qed.
Lemma veqb_eq : forall u v, veqb u v = true <-> u = v.
Proof.
  intros [x y z] [x' y' z']. unfold veqb. cbn [v_x v_y v_z]. rewrite !andb_true_iff, !Z.eqb_eq.
  split; [intros [[-> ->] ->]; reflexivity|intro E; injection E as -> -> ->; auto].
Qed.
Lemma rot_eqb_eq : forall r s, rot_eqb r s = true <-> r = s.
Proof. intros [] []; simpl; split; intro H; congruence. Qed.
Lemma vat_along : forall a d b, vat (along a d) b = if axis_eqb a b then d else 0.
Proof. intros [] d []; reflexivity. Qed.
Lemma axis_eqb_eq : forall a b, axis_eqb a b = true <-> a = b.
Proof. intros [] []; simpl; split; intro H; congruence. Qed.

Section Box.

Variable i : BInstance.

Lemma bguillotine_disjoint : forall l, bguillotine i l -> ForallOrdPairs (bdisjoint i) l.
Proof.
  intros l H. induction H as [p|a c l r Hl IHl Hr IHr H1 H2].
  - constructor; [constructor|constructor].
  - apply ord_pairs_app; auto. intros p q Hp Hq. exists a. left. specialize (H1 p Hp). specialize (H2 q Hq). lia.
Qed.

Lemma vshift_pos : forall d p a, vat (bp_pos (vshift d p)) a = vat (bp_pos p) a + vat d a.
Proof. intros d p []; reflexivity. Qed.
Lemma vshift_size : forall d p a, bp_size i (vshift d p) a = bp_size i p a.
Proof. reflexivity. Qed.
Lemma vshift_end : forall d p a, bp_end i (vshift d p) a = bp_end i p a + vat d a.
Proof. intros d p a. unfold bp_end. rewrite vshift_pos, vshift_size. lia. Qed.

Lemma bguillotine_shift : forall d l, bguillotine i l -> bguillotine i (map (vshift d) l).
Proof.
  intros d l H. induction H as [p|a c l r Hl IHl Hr IHr H1 H2].
  - constructor.
  - rewrite map_app. apply (bgu_cut i a (c + vat d a)); auto; intros q Hq; apply in_map_iff in Hq; destruct Hq as (p & <- & Hp).
    + rewrite vshift_end. specialize (H1 p Hp). lia.
    + rewrite vshift_pos. specialize (H2 p Hp). lia.
Qed.

(** Stacking patterns along an axis. *)
Lemma bguillotine_stack : forall a w (f : nat -> list BPlace) n, 0 <= w ->
  (forall k, bguillotine i (f k)) ->
  (forall k p, In p (f k) -> Z.of_nat k * w <= vat (bp_pos p) a /\ bp_end i p a <= (Z.of_nat k + 1) * w) ->
  bguillotine i (flat_map f (seq 0 (S n))).
Proof.
  intros a w f n Hw Hg Hf. induction n as [|n IH].
  - cbn [seq flat_map]. rewrite app_nil_r. apply Hg.
  - rewrite (seq_S (S n)), flat_map_app. cbn [flat_map Nat.add]. rewrite app_nil_r.
    apply (bgu_cut i a (Z.of_nat (S n) * w)); [assumption|apply Hg| |].
    + intros p Hp. apply in_flat_map in Hp. destruct Hp as (k & Hk & Hp). apply in_seq in Hk. destruct (Hf k p Hp) as [_ K].
      assert ((Z.of_nat k + 1) * w <= Z.of_nat (S n) * w) by (apply Z.mul_le_mono_nonneg_r; lia). lia.
    + intros p Hp. apply (Hf (S n) p Hp).
Qed.

(** ** Grids *)

Section Grid.
Variable x : nat.
Variable r : Rotation.
Let rb := rbox i x r.
Hypothesis Hnn : forall a, 0 <= vat rb a.

Definition xgplace (a b c : Z) : BPlace := mkBP x (mkV (a * v_x (rbox i x r)) (b * v_y (rbox i x r)) (c * v_z (rbox i x r))) r.

Definition coord (a : Axis) (cx cy cz : Z) : Z := match a with AX => cx | AY => cy | AZ => cz end.

Lemma xgplace_pos : forall cx cy cz a, vat (bp_pos (xgplace cx cy cz)) a = coord a cx cy cz * vat rb a.
Proof. intros cx cy cz []; reflexivity. Qed.
Lemma xgplace_end : forall cx cy cz a, bp_end i (xgplace cx cy cz) a = (coord a cx cy cz + 1) * vat rb a.
Proof.
  intros cx cy cz a. unfold bp_end. rewrite xgplace_pos, <- rotate_at. cbn [xgplace bp_type bp_rot]. fold (rbox i x r). fold rb. ring.
Qed.

Lemma xgrid_items : forall cx cy cz, xk_items (xgrid_block i x r cx cy cz) =
  flat_map (fun a => flat_map (fun b => flat_map (fun c => [xgplace (Z.of_nat a) (Z.of_nat b) (Z.of_nat c)]) (seq 0 (Z.to_nat cz)))
    (seq 0 (Z.to_nat cy))) (seq 0 (Z.to_nat cx)).
Proof.
  intros cx cy cz. cbn [xgrid_block xk_items]. unfold below. rewrite !flat_map_concat_map, map_map. f_equal. apply map_ext. intro a.
  rewrite !flat_map_concat_map, map_map. f_equal. apply map_ext. intro b. rewrite map_map.
  generalize (seq 0 (Z.to_nat cz)) as l. induction l as [|c l IH]; [reflexivity|]. cbn [map flat_map app]. rewrite IH. reflexivity.
Qed.

Lemma xgrid_in : forall cx cy cz p, In p (xk_items (xgrid_block i x r cx cy cz)) <->
  exists a b c, 0 <= a < cx /\ 0 <= b < cy /\ 0 <= c < cz /\ p = xgplace a b c.
Proof.
  intros cx cy cz p. rewrite xgrid_items, in_flat_map. split.
  - intros (a & Ha & Hp). apply in_flat_map in Hp. destruct Hp as (b & Hb & Hp). apply in_flat_map in Hp. destruct Hp as (c & Hc & [<-|[]]).
    apply in_seq in Ha. apply in_seq in Hb. apply in_seq in Hc.
    exists (Z.of_nat a), (Z.of_nat b), (Z.of_nat c). repeat split; lia.
  - intros (a & b & c & Ha & Hb & Hc & ->). exists (Z.to_nat a). split; [apply in_seq; lia|].
    apply in_flat_map. exists (Z.to_nat b). split; [apply in_seq; lia|]. apply in_flat_map. exists (Z.to_nat c). split; [apply in_seq; lia|].
    rewrite !Z2Nat.id by lia. left. reflexivity.
Qed.

Lemma length_flat_map : forall (A B : Type) (f : A -> list B) n l, (forall a, length (f a) = n) -> length (flat_map f l) = (length l * n)%nat.
Proof. intros A B f n l H. induction l as [|a l IH]; [reflexivity|]. cbn [flat_map]. rewrite app_length, H, IH. simpl. lia. Qed.

Lemma xgrid_length : forall cx cy cz, 0 <= cx -> 0 <= cy -> 0 <= cz ->
  Z.of_nat (length (xk_items (xgrid_block i x r cx cy cz))) = cx * cy * cz.
Proof.
  intros cx cy cz Hx Hy Hz. rewrite xgrid_items.
  rewrite (length_flat_map _ _ _ (Z.to_nat cy * Z.to_nat cz)%nat).
  - rewrite seq_length. lia.
  - intro a. rewrite (length_flat_map _ _ _ (Z.to_nat cz)); [rewrite seq_length; reflexivity|].
    intro b. rewrite (length_flat_map _ _ _ 1%nat) by reflexivity. rewrite seq_length. lia.
Qed.

Lemma xgrid_guillotine : forall cx cy cz, 1 <= cx -> 1 <= cy -> 1 <= cz -> bguillotine i (xk_items (xgrid_block i x r cx cy cz)).
Proof.
  intros cx cy cz Hx Hy Hz. rewrite xgrid_items.
  destruct (Z.to_nat cx) as [|m] eqn:Em; [lia|]. destruct (Z.to_nat cy) as [|n] eqn:En; [lia|]. destruct (Z.to_nat cz) as [|o] eqn:Eo; [lia|].
  apply (bguillotine_stack AX (vat rb AX)); [apply Hnn| |].
  - intro a. apply (bguillotine_stack AY (vat rb AY)); [apply Hnn| |].
    + intro b. apply (bguillotine_stack AZ (vat rb AZ)); [apply Hnn|intro; constructor|].
      intros c p [<-|[]]. rewrite xgplace_pos, xgplace_end. cbn [coord]. lia.
    + intros b p Hp. apply in_flat_map in Hp. destruct Hp as (c & _ & [<-|[]]). rewrite xgplace_pos, xgplace_end. cbn [coord]. lia.
  - intros a p Hp. apply in_flat_map in Hp. destruct Hp as (b & _ & Hp). apply in_flat_map in Hp. destruct Hp as (c & _ & [<-|[]]).
    rewrite xgplace_pos, xgplace_end. cbn [coord]. lia.
Qed.

Hypothesis Hid : (x < length (bx_items i))%nat.
Hypothesis Hrot : In r (bi_rotations (bxitem i x)).

Lemma xgrid_box : forall cx cy cz a, vat (xk_box (xgrid_block i x r cx cy cz)) a = coord a cx cy cz * vat rb a.
Proof. intros cx cy cz []; reflexivity. Qed.

Lemma xgrid_ok : forall bt cx cy cz, 1 <= cx -> 1 <= cy -> 1 <= cz -> (forall a, 0 < vat rb a) ->
  (forall a, coord a cx cy cz * vat rb a <= vat (bn_box bt) a) ->
  cx * cy * cz <= bi_copies (bxitem i x) -> xblock_ok i bt (xgrid_block i x r cx cy cz).
Proof.
  intros bt cx cy cz Hcx Hcy Hcz Hpos Hfit Hcop.
  assert (Hlen := xgrid_length cx cy cz ltac:(lia) ltac:(lia) ltac:(lia)).
  assert (Hty : forall p, In p (xk_items (xgrid_block i x r cx cy cz)) -> bp_type p = x).
  { intros p Hp. apply xgrid_in in Hp. destruct Hp as (a & b & c & _ & _ & _ & ->). reflexivity. }
  assert (Hp : 0 < cx * cy * cz) by (apply Z.mul_pos_pos; [apply Z.mul_pos_pos; lia|lia]).
  assert (Hc1 : forall a, 1 <= coord a cx cy cz) by (intros []; assumption).
  constructor.
  - intro a. rewrite xgrid_box. specialize (Hpos a). specialize (Hfit a). specialize (Hc1 a). nia.
  - intros p Hpi. apply xgrid_in in Hpi. destruct Hpi as (a & b & c & Ha & Hb & Hc & ->).
    split; [assumption|]. split; [assumption|]. intro ax. rewrite xgplace_pos, xgplace_end, xgrid_box. specialize (Hnn ax).
    assert (0 <= coord ax a b c < coord ax cx cy cz) by (destruct ax; cbn [coord]; lia). nia.
  - apply xgrid_guillotine; assumption.
  - intro ax. split.
    + exists (xgplace 0 0 0). split; [apply xgrid_in; exists 0, 0, 0; repeat split; lia|]. rewrite xgplace_pos. destruct ax; reflexivity.
    + exists (xgplace (cx - 1) (cy - 1) (cz - 1)). split; [apply xgrid_in; exists (cx - 1), (cy - 1), (cz - 1); repeat split; lia|].
      rewrite xgplace_end, xgrid_box. destruct ax; cbn [coord]; ring.
  - cbn [xgrid_block xk_copies map fst]. constructor; [constructor|constructor].
  - intros y c. cbn [xgrid_block xk_copies]. split.
    + intros [E|[]]. injection E as <- <-. split; [assumption|]. rewrite (bcount_all x _ Hty). symmetry. assumption.
    + intros [Hc E]. left. destruct (Nat.eq_dec y x) as [->|Hn].
      * rewrite (bcount_all x _ Hty), Hlen in E. congruence.
      * exfalso. rewrite (bcount_none y) in E; [lia|]. intros p Hpi. rewrite (Hty p Hpi). congruence.
  - intros y Hy'. destruct (Nat.eq_dec y x) as [->|Hn].
    + rewrite (bcount_all x _ Hty), Hlen. lia.
    + rewrite (bcount_none y); [lia|]. intros p Hpi. rewrite (Hty p Hpi). congruence.
  - symmetry. assumption.
  - rewrite (zsum_same _ _ (bi_vol (bxitem i x))).
    + rewrite Hlen. reflexivity.
    + intros p Hpi. rewrite (Hty p Hpi). reflexivity.
  - rewrite (qsum_same _ _ (bi_profit (bxitem i x))).
    + rewrite Hlen. reflexivity.
    + intros p Hpi. rewrite (Hty p Hpi). reflexivity.
  - rewrite (qsum_same _ _ (bi_weight (bxitem i x))).
    + rewrite Hlen. reflexivity.
    + intros p Hpi. rewrite (Hty p Hpi). reflexivity.
Qed.

End Grid.

Hypothesis Hnonneg : bnonneg_items i.

Lemma rbox_nonneg : forall x r, (x < length (bx_items i))%nat -> forall a, 0 <= vat (rbox i x r) a.
Proof.
  intros x r H a. assert (Hin : In (bxitem i x) (bx_items i)) by (apply nth_In; assumption).
  destruct (Hnonneg _ Hin) as [A _]. pose proof (A AX). pose proof (A AY). pose proof (A AZ). unfold rbox.
  destruct r, a; assumption.
Qed.

(** Every item type and rotation whose grids are made. *)
Lemma xgrids_spec : forall bt g, xgrids i bt = Some g -> forall b, In b g <->
  exists x r cx cy cz, (x < length (bx_items i))%nat /\ In r (bi_rotations (bxitem i x)) /\
    (forall a, 0 < vat (rbox i x r) a) /\ 1 <= cx /\ 1 <= cy /\ 1 <= cz /\ cx * cy * cz <= bi_copies (bxitem i x) /\
    (forall a, coord a cx cy cz * vat (rbox i x r) a <= vat (bn_box bt) a) /\ b = xgrid_block i x r cx cy cz.
Proof.
  intros bt g H b. apply concat_all_in in H. destruct H as [H1 H2]. rewrite H1. clear H1.
  assert (Hrot : forall x r s, (x < length (bx_items i))%nat -> 1 <= bi_copies (bxitem i x) -> xgrids_rot i bt x r = Some s -> (In b s <->
    exists cx cy cz, (forall a, 0 < vat (rbox i x r) a) /\ 1 <= cx /\ 1 <= cy /\ 1 <= cz /\ cx * cy * cz <= bi_copies (bxitem i x) /\
    (forall a, coord a cx cy cz * vat (rbox i x r) a <= vat (bn_box bt) a) /\ b = xgrid_block i x r cx cy cz)).
  { intros x r s Hx Hc E. pose proof (rbox_nonneg x r Hx AX) as Nx. pose proof (rbox_nonneg x r Hx AY) as Ny. pose proof (rbox_nonneg x r Hx AZ) as Nz.
    cbn [vat] in Nx, Ny, Nz.
    unfold xgrids_rot in E. cbv zeta in E. set (c := bi_copies (bxitem i x)) in *. set (rb := rbox i x r) in *.
    destruct (Z.eqb_spec (v_x rb) 0) as [Ex|Ex]; [discriminate|].
    assert (Hmx : forall cx cy cz, 1 <= cx -> 1 <= cy -> 1 <= cz -> cx * cy * cz <= c -> cx * v_x rb <= v_x (bn_box bt) ->
      cx <= Z.min c (Z.quot (v_x (bn_box bt)) (v_x rb))).
    { intros cx cy cz P1 P2 P3 P4 P5. apply Z.min_glb; [|apply Z.quot_le_lower_bound; lia]. assert (1 <= cy * cz) by nia. nia. }
    destruct (Z.ltb_spec (Z.min c (Z.quot (v_x (bn_box bt)) (v_x rb))) 1) as [L|L].
    { injection E as <-. split; [intros []|]. intros (cx & cy & cz & P0 & P1 & P2 & P3 & P4 & P5 & _).
      specialize (Hmx cx cy cz P1 P2 P3 P4 (P5 AX)). lia. }
    destruct (Z.eqb_spec (v_y rb) 0) as [Ey|Ey]; [discriminate|]. rewrite Z.quot_1_r in E.
    destruct (Z.ltb_spec (Z.min c (Z.quot (v_y (bn_box bt)) (v_y rb))) 1) as [L2|L2].
    { injection E as <-. split; [intros []|]. intros (cx & cy & cz & P0 & P1 & P2 & P3 & P4 & P5 & _).
      assert (cy <= Z.quot (v_y (bn_box bt)) (v_y rb)) by (specialize (P5 AY); cbn [coord vat] in P5; apply Z.quot_le_lower_bound; lia). lia. }
    destruct (Z.eqb_spec (v_z rb) 0) as [Ez|Ez]; [discriminate|]. injection E as <-. rewrite in_flat_map. split.
    - intros (cx & Hcx & Hb). apply in_flat_map in Hb. destruct Hb as (cy & Hcy & Hb). apply in_map_iff in Hb. destruct Hb as (cz & <- & Hcz).
      apply one_to_in in Hcx. apply one_to_in in Hcy. apply one_to_in in Hcz. exists cx, cy, cz.
      assert (Q1 : cx * v_x rb <= v_x (bn_box bt)) by (apply quot_bound; lia).
      assert (Q2 : cy * v_y rb <= v_y (bn_box bt)) by (apply quot_bound; lia).
      assert (Q3 : cz * v_z rb <= v_z (bn_box bt)) by (apply quot_bound; lia).
      assert (Q4 : 0 < cx * cy) by nia.
      assert (Q5 : cz * (cx * cy) <= c) by (apply quot_bound; lia).
      split; [intros []; cbn [vat]; lia|]. split; [lia|]. split; [lia|]. split; [lia|]. split; [lia|]. split; [intros []; assumption|reflexivity].
    - intros (cx & cy & cz & P0 & P1 & P2 & P3 & P4 & P5 & ->). exists cx. pose proof (P5 AX) as F1. pose proof (P5 AY) as F2. pose proof (P5 AZ) as F3.
      cbn [coord vat] in F1, F2, F3. split; [apply one_to_in; split; [assumption|]; apply (Hmx cx cy cz); assumption|].
      apply in_flat_map. exists cy. split.
      + apply one_to_in. split; [assumption|]. apply Z.min_glb; [|apply Z.quot_le_lower_bound; lia].
        apply Z.quot_le_lower_bound; [lia|]. assert (0 < cx * cy) by nia. nia.
      + apply in_map_iff. exists cz. split; [reflexivity|]. apply one_to_in. split; [assumption|].
        assert (0 < cx * cy) by nia. apply Z.min_glb; apply Z.quot_le_lower_bound; lia. }
  split.
  - intros (s & Hs & Hb). apply in_flat_map in Hs. destruct Hs as (x & Hx & Hs). apply in_seq in Hx.
    destruct (Z.ltb_spec (bi_copies (bxitem i x)) 1) as [L|L]; [destruct Hs|].
    apply in_map_iff in Hs. destruct Hs as (r & E & Hr). apply (Hrot x r s) in Hb; [|lia|lia|assumption]. destruct Hb as (cx & cy & cz & Hb).
    exists x, r, cx, cy, cz. split; [lia|]. split; assumption.
  - intros (x & r & cx & cy & cz & Hx & Hr & Hb).
    assert (Hc : 1 <= bi_copies (bxitem i x)).
    { destruct Hb as (_ & A1 & A2 & A3 & A4 & _). assert (0 < cx * cy * cz) by (apply Z.mul_pos_pos; [apply Z.mul_pos_pos; lia|lia]). lia. }
    assert (Hin : In (xgrids_rot i bt x r) (flat_map (fun x =>
      if bi_copies (bxitem i x) <? 1 then [] else map (xgrids_rot i bt x) (bi_rotations (bxitem i x))) (seq 0 (length (bx_items i))))).
    { apply in_flat_map. exists x. split; [apply in_seq; lia|]. destruct (Z.ltb_spec (bi_copies (bxitem i x)) 1); [lia|]. apply in_map. assumption. }
    destruct (xgrids_rot i bt x r) as [s|] eqn:E; [|exfalso; apply (H2 None); [assumption|reflexivity]].
    exists s. split; [assumption|]. apply (Hrot x r s Hx Hc E). exists cx, cy, cz. assumption.
Qed.

Lemma xgrids_ok : forall bt g, xgrids i bt = Some g -> forall b, In b g -> xblock_ok i bt b.
Proof.
  intros bt g H b Hb. apply (proj1 (xgrids_spec bt g H b)) in Hb.
  destruct Hb as (x & r & cx & cy & cz & Hx & Hr & A1 & A2 & A3 & A4 & A5 & A6 & ->).
  apply xgrid_ok; try assumption. apply rbox_nonneg. assumption.
Qed.

(** ** Combined blocks *)

Lemma xcopies_lookup : forall bt b, xblock_ok i bt b -> forall x, lookup x (xk_copies b) = bcount x (xk_items b).
Proof.
  intros bt b H x. destruct (in_dec Nat.eq_dec x (map fst (xk_copies b))) as [Hin|Hin].
  - apply in_map_iff in Hin. destruct Hin as ([y c] & E & Hin). simpl in E. subst y.
    rewrite (lookup_in x c); [|apply (xo_sorted _ _ _ H)|assumption]. apply (xo_copies _ _ _ H) in Hin. apply Hin.
  - rewrite lookup_not_in by assumption. pose proof (bcount_nonneg x (xk_items b)).
    destruct (Z.eq_dec (bcount x (xk_items b)) 0) as [E|E]; [lia|]. exfalso. apply Hin.
    assert (K : In (x, bcount x (xk_items b)) (xk_copies b)) by (apply (xo_copies _ _ _ H); split; [lia|reflexivity]).
    apply (in_map fst) in K. exact K.
Qed.

Lemma xcombined_box : forall b e d a, vat (xk_box (xcombined b e d)) a =
  if axis_eqb d a then vat (xk_box b) a + vat (xk_box e) a else Z.max (vat (xk_box b) a) (vat (xk_box e) a).
Proof. intros b e [] []; reflexivity. Qed.

Lemma xcombined_ok : forall bt b e d, xblock_ok i bt b -> xblock_ok i bt e ->
  (forall a, vat (xk_box (xcombined b e d)) a <= vat (bn_box bt) a) ->
  valid_copies (fun x => bi_copies (bxitem i x)) (xk_copies b) (xk_copies e) = true ->
  xblock_ok i bt (xcombined b e d).
Proof.
  intros bt b e d Hb He Hfit Hv.
  set (sh := vshift (along d (vat (xk_box b) d))).
  assert (Hsh : forall p, bp_type (sh p) = bp_type p /\ bp_rot (sh p) = bp_rot p) by (intro p; split; reflexivity).
  assert (Hcnt : forall x, bcount x (xk_items (xcombined b e d)) = bcount x (xk_items b) + bcount x (xk_items e)).
  { intro x. cbn [xcombined xk_items]. fold sh. rewrite bcount_app, bcount_map; [reflexivity|]. intro p. apply Hsh. }
  assert (Hin : forall p, In p (xk_items (xcombined b e d)) <-> In p (xk_items b) \/ exists q, In q (xk_items e) /\ p = sh q).
  { intro p. cbn [xcombined xk_items]. fold sh. rewrite in_app_iff, in_map_iff. split; intros [K|(q & K1 & K2)]; eauto. }
  assert (Hsort : sorted_ids (merge_copies (xk_copies b) (xk_copies e))).
  { apply merge_sorted; [apply (xo_sorted _ _ _ Hb)|apply (xo_sorted _ _ _ He)]. }
  assert (Hlook : forall x, lookup x (merge_copies (xk_copies b) (xk_copies e)) = bcount x (xk_items (xcombined b e d))).
  { intro x. rewrite (proj1 (merge_spec _ _)), (xcopies_lookup bt b Hb), (xcopies_lookup bt e He), Hcnt. reflexivity. }
  assert (Hcop : forall x c, In (x, c) (merge_copies (xk_copies b) (xk_copies e)) <-> 0 < c /\ c = bcount x (xk_items (xcombined b e d))).
  { intros x c. split.
    - intro K. pose proof (lookup_in x c _ Hsort K) as L. rewrite Hlook in L. split; [|congruence].
      apply (in_map fst) in K. simpl in K. apply (proj2 (merge_spec _ _)) in K. rewrite <- L, Hcnt.
      pose proof (bcount_nonneg x (xk_items b)). pose proof (bcount_nonneg x (xk_items e)).
      destruct K as [K|K]; apply in_map_iff in K; destruct K as ([y c'] & E & K); simpl in E; subst y.
      + apply (xo_copies _ _ _ Hb) in K. lia.
      + apply (xo_copies _ _ _ He) in K. lia.
    - intros [Hc E]. assert (K : In x (map fst (merge_copies (xk_copies b) (xk_copies e)))).
      { destruct (in_dec Nat.eq_dec x (map fst (merge_copies (xk_copies b) (xk_copies e)))) as [K|K]; [assumption|].
        apply lookup_not_in in K. rewrite Hlook in K. lia. }
      apply in_map_iff in K. destruct K as ([y c'] & E2 & K). simpl in E2. subst y.
      pose proof (lookup_in x c' _ Hsort K) as L. rewrite Hlook in L. replace c with c' by congruence. assumption. }
  assert (Bb := xo_box _ _ _ Hb). assert (Be := xo_box _ _ _ He).
  assert (Hshe : forall q a, bp_end i (sh q) a = bp_end i q a + (if axis_eqb d a then vat (xk_box b) d else 0)).
  { intros q a. unfold sh. rewrite vshift_end, vat_along. reflexivity. }
  assert (Hshp : forall q a, vat (bp_pos (sh q)) a = vat (bp_pos q) a + (if axis_eqb d a then vat (xk_box b) d else 0)).
  { intros q a. unfold sh. rewrite vshift_pos, vat_along. reflexivity. }
  constructor.
  - intro a. split; [|apply Hfit]. rewrite xcombined_box. specialize (Bb a). specialize (Be a). destruct (axis_eqb d a); lia.
  - intros p Hp. apply Hin in Hp. destruct Hp as [Hp|(q & Hq & ->)].
    + destruct (xo_items _ _ _ Hb p Hp) as (A1 & A2 & A3). split; [assumption|]. split; [assumption|].
      intro a. rewrite xcombined_box. specialize (A3 a). specialize (Be a). destruct (axis_eqb d a); lia.
    + destruct (xo_items _ _ _ He q Hq) as (A1 & A2 & A3). split; [assumption|]. split; [assumption|].
      intro a. rewrite Hshe, Hshp, xcombined_box. specialize (A3 a). pose proof (Bb a). destruct (axis_eqb d a) eqn:E; [|lia].
      apply axis_eqb_eq in E. subst d. lia.
  - cbn [xcombined xk_items].
    apply (bgu_cut i d (vat (xk_box b) d)); [apply (xo_guillotine _ _ _ Hb)|apply bguillotine_shift; apply (xo_guillotine _ _ _ He)| |].
    + intros p Hp. destruct (xo_items _ _ _ Hb p Hp) as (_ & _ & A3). apply A3.
    + intros p Hp. apply in_map_iff in Hp. destruct Hp as (q & <- & Hq). fold (sh q). destruct (xo_items _ _ _ He q Hq) as (_ & _ & A3). specialize (A3 d).
      rewrite Hshp. replace (axis_eqb d d) with true by (destruct d; reflexivity). lia.
  - intro a. destruct (xo_tight _ _ _ Hb a) as ((p1 & B1 & B1') & (p2 & B2 & B2')).
    destruct (xo_tight _ _ _ He a) as ((q1 & C1 & C1') & (q2 & C2 & C2')).
    assert (Hinb : forall p, In p (xk_items b) -> In p (xk_items (xcombined b e d))) by (intros; apply Hin; auto).
    assert (Hine : forall q, In q (xk_items e) -> In (sh q) (xk_items (xcombined b e d))) by (intros q Hq; apply Hin; right; exists q; auto).
    split; [exists p1; auto|]. rewrite xcombined_box. destruct (axis_eqb d a) eqn:E.
    + exists (sh q2). split; [auto|]. rewrite Hshe, E. apply axis_eqb_eq in E. subst d. lia.
    + destruct (Z.max_spec (vat (xk_box b) a) (vat (xk_box e) a)) as [[_ Em]|[_ Em]]; rewrite Em.
      * exists (sh q2). split; [auto|]. rewrite Hshe, E. lia.
      * exists p2. auto.
  - exact Hsort.
  - intros x c. cbn [xcombined xk_copies]. apply Hcop.
  - intros x Hxl. destruct (Z_le_gt_dec (bcount x (xk_items (xcombined b e d))) 0) as [L|L]; [lia|].
    assert (K : In (x, bcount x (xk_items (xcombined b e d))) (merge_copies (xk_copies b) (xk_copies e))) by (apply Hcop; split; [lia|reflexivity]).
    apply (proj1 (valid_spec _ _ _) Hv) in K. lia.
  - cbn [xcombined xk_number xk_items]. rewrite app_length, map_length, (xo_number _ _ _ Hb), (xo_number _ _ _ He). lia.
  - cbn [xcombined xk_volume xk_items]. fold sh. rewrite zsum_app, zsum_map, (xo_volume _ _ _ Hb), (xo_volume _ _ _ He). reflexivity.
  - cbn [xcombined xk_profit xk_items]. fold sh. rewrite qsum_app, qsum_map, (xo_profit _ _ _ Hb), (xo_profit _ _ _ He). reflexivity.
  - cbn [xcombined xk_weight xk_items]. fold sh. rewrite qsum_app, qsum_map, (xo_weight _ _ _ Hb), (xo_weight _ _ _ He). reflexivity.
Qed.

Lemma xcombine_in : forall bt cur b idx e c, In c (xk_combine i bt cur b idx e) ->
  exists d, c = xcombined b e d /\ (forall a, vat (xk_box c) a <= vat (bn_box bt) a) /\
    valid_copies (fun x => bi_copies (bxitem i x)) (xk_copies b) (xk_copies e) = true.
Proof.
  intros bt cur b idx e c H. unfold xk_combine in H. destruct (_ && _ && _ && _); [destruct H|].
  apply in_flat_map in H. destruct H as (d & _ & H). cbv zeta in H. exists d.
  destruct (Z.ltb_spec (v_x (bn_box bt)) (v_x (xk_box (xcombined b e d)))); [destruct H|].
  destruct (Z.ltb_spec (v_y (bn_box bt)) (v_y (xk_box (xcombined b e d)))); [destruct H|].
  destruct (Z.ltb_spec (v_z (bn_box bt)) (v_z (xk_box (xcombined b e d)))); [destruct H|]. cbn [orb] in H.
  destruct (valid_copies _ _ _) eqn:E; [|destruct H]. destruct H as [<-|[]]. split; [reflexivity|]. split; [intros []; assumption|reflexivity].
Qed.

(** ** The engine *)

Lemma xk_key_eq : forall a b, xk_key_eqb a b = true <-> a = b.
Proof.
  intros [v1 c1] [v2 c2]. unfold xk_key_eqb. cbn [fst snd]. rewrite andb_true_iff, veqb_eq, copies_eqb_eq.
  split; [intros [-> ->]; reflexivity|intro E; injection E as -> ->; auto].
Qed.

Section Bin.
Variable bt : BBin.

Let Good := fun (_ : list XBlock) b => xblock_ok i bt b.

Lemma xgood_mono : forall l m b, Good l b -> Good (l ++ m) b.
Proof. auto. Qed.

Lemma xgood_comb : forall ret b idx e c, nth_error ret idx = Some e -> Good ret b -> Good (firstn idx ret) e ->
  In c (xk_combine i bt (length ret) b idx e) -> Good (ret ++ [b]) c.
Proof.
  intros ret b idx e c _ Hb He Hc. apply xcombine_in in Hc. destruct Hc as (d & -> & H1 & H2). apply xcombined_ok; assumption.
Qed.

Theorem xblocks_ok : forall maximum fuel out, xcompute_blocks_for_bin i bt maximum fuel = XBlocks out ->
  (forall b, In b out -> xblock_ok i bt b) /\ NoDup (map xk_key out) /\ (forall b, In b out -> xk_skip i b = false) /\
  (maximum <> -1 -> 0 <= maximum -> Z.of_nat (length out) <= maximum).
Proof.
  intros maximum fuel out H. unfold xcompute_blocks_for_bin in H. destruct (xgrids i bt) as [g|] eqn:Eg; [|discriminate].
  destruct (blocks_run _ _ _ _ _ _ _ _) as [l|] eqn:Er; [|discriminate]. injection H as <-.
  destruct (run_good xk_key xk_key_eqb xk_less (xk_skip i) (xk_combine i bt) maximum xk_key_eq Good xgood_mono xgood_comb fuel g l (xgrids_ok bt g Eg) Er)
    as (A1 & A2 & A3 & A4).
  split; [|auto]. intros b Hb. apply In_nth_error in Hb. destruct Hb as (n & Hn). apply (A1 n b Hn).
Qed.

Lemma xfinite_keys : exists U, forall (l : list XBlock) b, Good l b -> In (xk_key b) U.
Proof.
  destruct (finitely_many_copies (fun x => Z.max 0 (bi_copies (bxitem i x))) (length (bx_items i))) as (U & HU).
  exists (flat_map (fun x => flat_map (fun y => flat_map (fun z => map (fun c => (mkV x y z, c)) U) (one_to (v_z (bn_box bt))))
    (one_to (v_y (bn_box bt)))) (one_to (v_x (bn_box bt)))).
  intros l b Hb. unfold Good in Hb. pose proof (xo_box _ _ _ Hb AX) as B1. pose proof (xo_box _ _ _ Hb AY) as B2. pose proof (xo_box _ _ _ Hb AZ) as B3.
  cbn [vat] in B1, B2, B3. apply in_flat_map. exists (v_x (xk_box b)). split; [apply one_to_in; lia|].
  apply in_flat_map. exists (v_y (xk_box b)). split; [apply one_to_in; lia|].
  apply in_flat_map. exists (v_z (xk_box b)). split; [apply one_to_in; lia|].
  apply in_map_iff. exists (xk_copies b). split; [unfold xk_key; destruct (xk_box b); reflexivity|]. apply HU; [apply (xo_sorted _ _ _ Hb)|].
  intros x c Hin. apply (xo_copies _ _ _ Hb) in Hin. destruct Hin as [Hc E].
  assert (Hx : (x < length (bx_items i))%nat).
  { destruct (bcount_pos x (xk_items b)) as (p & Hp & Et); [lia|]. rewrite <- Et. apply (xo_items _ _ _ Hb p Hp). }
  split; [assumption|]. pose proof (xo_available _ _ _ Hb x Hx). lia.
Qed.

Theorem xblocks_terminate : forall maximum, xgrids i bt <> None ->
  exists n out, forall fuel, (n <= fuel)%nat -> xcompute_blocks_for_bin i bt maximum fuel = XBlocks out.
Proof.
  intros maximum H. destruct (xgrids i bt) as [g|] eqn:Eg; [|congruence].
  destruct (run_terminates xk_key xk_key_eqb xk_less (xk_skip i) (xk_combine i bt) maximum xk_key_eq Good xgood_mono xgood_comb (or_intror xfinite_keys) g (xgrids_ok bt g Eg))
    as (n & out & E).
  exists n, out. intros fuel Hf. unfold xcompute_blocks_for_bin. rewrite Eg. unfold blocks_run in *.
  rewrite (loop_fuel xk_key xk_key_eqb xk_less (xk_skip i) (xk_combine i bt) maximum n fuel _ _ _ Hf E). reflexivity.
Qed.

(** *** Single items *)

Lemma xnumber_one : forall b, xblock_ok i bt b -> xk_number b = 1 ->
  exists p, xk_items b = [p] /\ (forall a, vat (bp_pos p) a = 0 /\ bp_size i p a = vat (xk_box b) a) /\ xk_copies b = [(bp_type p, 1)].
Proof.
  intros b H E. rewrite (xo_number _ _ _ H) in E. destruct (xk_items b) as [|p [|q l]] eqn:Ei; [discriminate| |simpl length in E; lia].
  exists p. split; [reflexivity|]. split.
  - intro a. destruct (xo_tight _ _ _ H a) as ((p1 & B1 & B1') & (p2 & B2 & B2')).
    rewrite Ei in *. destruct B1 as [<-|[]]. destruct B2 as [<-|[]]. split; [assumption|]. unfold bp_end in B2'. lia.
  - assert (Hall : forall x c, In (x, c) (xk_copies b) <-> x = bp_type p /\ c = 1).
    { intros x c. rewrite (xo_copies _ _ _ H), Ei, bcount_cons. replace (bcount x []) with 0 by reflexivity.
      destruct (Nat.eqb_spec (bp_type p) x) as [Ex|Ex]; split; intros [K1 K2]; split; try lia; congruence. }
    pose proof (xo_sorted _ _ _ H) as S. destruct (xk_copies b) as [|[x c] l].
    + exfalso. apply (proj2 (Hall (bp_type p) 1)). auto.
    + destruct (proj1 (Hall x c) (or_introl eq_refl)) as [-> ->]. f_equal. destruct l as [|[y d] l]; [reflexivity|]. exfalso.
      destruct (proj1 (Hall y d) (or_intror (or_introl eq_refl))) as [-> ->]. cbn [map fst] in S. apply StronglySorted_inv in S.
      destruct S as [_ S]. inversion S. lia.
Qed.

Lemma xcopies_one : forall b x, xblock_ok i bt b -> xk_copies b = [(x, 1)] -> xk_number b = 1.
Proof.
  intros b x H E. rewrite (xo_number _ _ _ H). rewrite <- (bcount_all x).
  - symmetry. apply (xo_copies _ _ _ H x 1). rewrite E. left. reflexivity.
  - intros p Hp. assert (K : In (bp_type p, bcount (bp_type p) (xk_items b)) (xk_copies b)).
    { apply (xo_copies _ _ _ H). split; [|reflexivity]. apply in_split in Hp. destruct Hp as (l1 & l2 & ->).
      rewrite bcount_app, bcount_cons, Nat.eqb_refl. pose proof (bcount_nonneg (bp_type p) l1). pose proof (bcount_nonneg (bp_type p) l2). lia. }
    rewrite E in K. destruct K as [K|[]]. congruence.
Qed.

Lemma xnumber_pos : forall b, xblock_ok i bt b -> 1 <= xk_number b.
Proof.
  intros b H. rewrite (xo_number _ _ _ H). destruct (xo_tight _ _ _ H AX) as ((p & Hp & _) & _). destruct (xk_items b); [destruct Hp|]. simpl length. lia.
Qed.

Definition xsingle (b : XBlock) : bool := xk_number b =? 1.

Lemma xsingle_less : forall a b, xblock_ok i bt a -> xblock_ok i bt b -> xsingle a = true -> xsingle b = false -> xk_less b a = true.
Proof.
  intros a b _ _ Ha Hb. unfold xsingle in *. unfold xk_less, rate_less. rewrite Ha, Hb. reflexivity.
Qed.

Lemma xsingle_key : forall a b, xblock_ok i bt a -> xblock_ok i bt b -> xk_key a = xk_key b -> xsingle a = xsingle b.
Proof.
  assert (H : forall a b, xblock_ok i bt a -> xblock_ok i bt b -> xk_key a = xk_key b -> xsingle a = true -> xsingle b = true).
  { intros a b Ha Hb E Hs. unfold xsingle in *. apply Z.eqb_eq in Hs. apply Z.eqb_eq. destruct (xnumber_one a Ha Hs) as (p & _ & _ & Hc).
    apply (xcopies_one b (bp_type p) Hb). unfold xk_key in E. congruence. }
  intros a b Ha Hb E. destruct (xsingle a) eqn:E1, (xsingle b) eqn:E2; try reflexivity.
  - rewrite (H a b Ha Hb E E1) in E2. discriminate.
  - rewrite (H b a Hb Ha (eq_sym E) E2) in E1. discriminate.
Qed.

Lemma size_volume : forall p, bp_size i p AX * bp_size i p AY * bp_size i p AZ = bi_vol (bxitem i (bp_type p)).
Proof. intros [t v []]; unfold bp_size, bi_vol; cbn [bp_type bp_rot]; ring. Qed.

Lemma xsingle_full : forall b, xblock_ok i bt b -> xk_number b = 1 -> xk_volume b = vol (xk_box b).
Proof.
  intros b H E. destruct (xnumber_one b H E) as (p & Hi & Hs & _). rewrite (xo_volume _ _ _ H), Hi, zsum_cons, zsum_nil, <- size_volume.
  unfold vol. rewrite (proj2 (Hs AX)), (proj2 (Hs AY)), (proj2 (Hs AZ)). cbn [vat]. ring.
Qed.

Lemma xskip_spec : forall b, xblock_ok i bt b -> xk_skip i b = false <-> ((length (bx_items i) <= 3)%nat -> xk_volume b = vol (xk_box b)).
Proof.
  intros b H. unfold xk_skip.
  assert (Ef : Qeq_bool (xk_fill b) 1 = true <-> xk_volume b = vol (xk_box b)).
  { rewrite Qeq_bool_iff. unfold xk_fill.
    assert (P : 0 < vol (xk_box b)).
    { pose proof (xo_box _ _ _ H AX). pose proof (xo_box _ _ _ H AY). pose proof (xo_box _ _ _ H AZ). cbn [vat] in *.
      unfold vol. apply Z.mul_pos_pos; [apply Z.mul_pos_pos; lia|lia]. }
    assert (P' : ~ (inject_Z (vol (xk_box b)) == 0)%Q) by (intro K; change 0%Q with (inject_Z 0) in K; rewrite inject_Z_injective in K; lia).
    split.
    - intro K. rewrite <- inject_Z_injective.
      transitivity (inject_Z (xk_volume b) / inject_Z (vol (xk_box b)) * inject_Z (vol (xk_box b)))%Q; [field; assumption|]. rewrite K. ring.
    - intro K. rewrite K. field. assumption. }
  destruct (Nat.leb_spec (length (bx_items i)) 3) as [L|L]; cbn [andb].
  - rewrite negb_false_iff, Ef. split; auto.
  - split; [intros _ K; lia|reflexivity].
Qed.

Lemma xsingle_skip : forall b, xblock_ok i bt b -> xsingle b = true -> xk_skip i b = false.
Proof. intros b H Hs. apply Z.eqb_eq in Hs. apply xskip_spec; [assumption|]. intros _. apply xsingle_full; assumption. Qed.

Lemma xsingle_comb : forall cur b idx e c, xblock_ok i bt b -> xblock_ok i bt e -> In c (xk_combine i bt cur b idx e) ->
  xblock_ok i bt c /\ xsingle c = false.
Proof.
  intros cur b idx e c Hb He Hc. apply xcombine_in in Hc. destruct Hc as (d & -> & H1 & H2). split; [apply xcombined_ok; assumption|].
  unfold xsingle. cbn [xcombined xk_number]. pose proof (xnumber_pos b Hb). pose proof (xnumber_pos e He). apply Z.eqb_neq. lia.
Qed.

Lemma xk_less_asym : forall a b, xk_less a b = true -> xk_less b a = false.
Proof. intros a b. apply rate_less_asym. Qed.
Lemma xk_less_trans : forall a b c, xk_less a b = true -> xk_less b c = true -> xk_less a c = true.
Proof. intros a b c. apply rate_less_trans. Qed.

Definition rotations6 : list Rotation := [XYZ; YXZ; ZYX; YZX; XZY; ZXY].
Definition xsingle_keys : list (Vec * Copies) :=
  flat_map (fun x => map (fun r => (rbox i x r, [(x, 1)])) rotations6) (seq 0 (length (bx_items i))).

Lemma xsingle_keys_length : length xsingle_keys = (6 * length (bx_items i))%nat.
Proof.
  unfold xsingle_keys. rewrite (length_flat_map _ _ _ 6%nat) by reflexivity. rewrite seq_length. lia.
Qed.

Lemma rotations6_in : forall r, In r rotations6.
Proof. intros []; simpl; tauto. Qed.

Lemma xgrids_single_keys : forall g, xgrids i bt = Some g -> forall b, In b g -> xsingle b = true -> In (xk_key b) xsingle_keys.
Proof.
  intros g Eg b Hb Hs. apply (proj1 (xgrids_spec bt g Eg b)) in Hb.
  destruct Hb as (x & r & cx & cy & cz & Hx & Hr & A1 & A2 & A3 & A4 & A5 & A6 & ->).
  apply Z.eqb_eq in Hs. cbn [xgrid_block xk_number] in Hs.
  assert (1 <= cx * cy) by nia. assert (cz = 1) by nia. assert (cx = 1) by nia. assert (cy = 1) by nia. subst cx cy cz.
  apply in_flat_map. exists x. split; [apply in_seq; lia|]. apply in_map_iff. exists r. split; [|apply rotations6_in].
  unfold xk_key. cbn [xgrid_block xk_box xk_copies]. rewrite !Z.mul_1_l. destruct (rbox i x r); reflexivity.
Qed.

Theorem xblocks_singles : forall maximum fuel out, xcompute_blocks_for_bin i bt maximum fuel = XBlocks out ->
  maximum = -1 \/ 6 * Z.of_nat (length (bx_items i)) <= maximum ->
  forall x r, (x < length (bx_items i))%nat -> In r (bi_rotations (bxitem i x)) -> 1 <= bi_copies (bxitem i x) ->
    (forall a, 0 < vat (rbox i x r) a <= vat (bn_box bt) a) ->
  exists b p, In b out /\ xk_items b = [p] /\ bp_type p = x /\ forall a, vat (bp_pos p) a = 0 /\ bp_size i p a = vat (rbox i x r) a.
Proof.
  intros maximum fuel out H Hm x r Hx Hr Hc Hf. pose proof H as H'. unfold xcompute_blocks_for_bin in H. destruct (xgrids i bt) as [g|] eqn:Eg; [|discriminate].
  destruct (blocks_run _ _ _ _ _ _ _ _) as [l|] eqn:Er; [|discriminate]. injection H as <-.
  assert (Hg : In (xgrid_block i x r 1 1 1) g).
  { apply (proj2 (xgrids_spec bt g Eg _)). exists x, r, 1, 1, 1. split; [assumption|]. split; [assumption|]. split; [intro a; apply Hf|].
    split; [lia|]. split; [lia|]. split; [lia|]. split; [lia|]. split; [intro a; specialize (Hf a); destruct a; cbn [coord]; lia|reflexivity]. }
  assert (Hroom : maximum = -1 \/ Z.of_nat (length xsingle_keys) <= maximum) by (rewrite xsingle_keys_length; lia).
  destruct (run_singles xk_key xk_key_eqb xk_less (xk_skip i) (xk_combine i bt) maximum xk_key_eq xk_less_asym xk_less_trans xsingle (xblock_ok i bt)
    xsingle_less xsingle_key xsingle_skip xsingle_comb g (xgrids_ok bt g Eg) xsingle_keys (xgrids_single_keys g Eg) Hroom fuel l Er (xgrid_block i x r 1 1 1) Hg eq_refl)
    as (b & Hb & Ek).
  assert (Hok : xblock_ok i bt b) by (apply (xblocks_ok maximum fuel l H'); assumption).
  unfold xk_key in Ek. cbn [xgrid_block xk_box xk_copies] in Ek. rewrite !Z.mul_1_l in Ek. injection Ek as Ex Ec.
  destruct (xnumber_one b Hok (xcopies_one b x Hok Ec)) as (p & Hi & Hs & P5). exists b, p. split; [assumption|]. split; [assumption|].
  split; [congruence|]. intro a. split; [apply Hs|]. rewrite (proj2 (Hs a)), Ex. destruct a; reflexivity.
Qed.

End Bin.

(** ** Putting a block in a bin *)

Lemma xput_shift : forall b v, xput b v = map (vshift v) (xk_items b).
Proof. intros. unfold xput. apply map_ext. intros [t [x y z] r]. unfold vshift. cbn [bp_type bp_pos bp_rot v_x v_y v_z]. f_equal. f_equal; lia. Qed.

Lemma xput_inside : forall bt b v q, xblock_ok i bt b -> In q (xput b v) ->
  forall a, vat v a <= vat (bp_pos q) a /\ bp_end i q a <= vat v a + vat (xk_box b) a.
Proof.
  intros bt b v q H Hq a. rewrite xput_shift in Hq. apply in_map_iff in Hq. destruct Hq as (p & <- & Hp).
  rewrite vshift_pos, vshift_end. destruct (xo_items _ _ _ H p Hp) as (_ & _ & A3). specialize (A3 a). lia.
Qed.

Theorem xput_geometry : forall bt bt' ps b v, xblock_ok i bt' b -> bgeometry_ok i bt ps ->
  (forall a, 0 <= vat v a /\ vat v a + vat (xk_box b) a <= vat (bn_box bt) a) ->
  (forall p, In p ps -> exists a, bp_end i p a <= vat v a \/ vat v a + vat (xk_box b) a <= vat (bp_pos p) a) ->
  bgeometry_ok i bt (ps ++ xput b v).
Proof.
  intros bt bt' ps b v Hb [G1 G2] Hin Hps. constructor.
  - intros q Hq. apply in_app_or in Hq. destruct Hq as [Hq|Hq]; [auto|]. pose proof (xput_inside bt' b v q Hb Hq) as K.
    rewrite xput_shift in Hq. apply in_map_iff in Hq. destruct Hq as (p & <- & Hp). destruct (xo_items _ _ _ Hb p Hp) as (A1 & A2 & _).
    constructor; [assumption| |assumption]. intro a. specialize (K a). specialize (Hin a). lia.
  - apply ord_pairs_app; [assumption| |].
    + apply bguillotine_disjoint. rewrite xput_shift. apply bguillotine_shift. apply (xo_guillotine _ _ _ Hb).
    + intros p q Hp Hq. pose proof (xput_inside bt' b v q Hb Hq) as K. destruct (Hps p Hp) as (a & Ha). specialize (K a). exists a. lia.
Qed.

(** ** Reachable lengths *)

Section Reach.
Variable a : Axis.

Let size (p : BPlace) : Z := bp_size i p a.

Lemma size_nonneg : forall p, (bp_type p < length (bx_items i))%nat -> 0 <= bp_size i p a.
Proof. intros p Hp. rewrite <- rotate_at. apply (rbox_nonneg (bp_type p) (bp_rot p) Hp a). Qed.

(** Lengths reachable with the first [k] item types and at most [j] copies of item
    type [k]. *)
Definition xreach (k j : nat) (v : Z) : Prop :=
  exists ps : list BPlace,
    (forall p, In p ps -> (bp_type p <= k)%nat /\ In (bp_rot p) (bi_rotations (bxitem i (bp_type p))))
    /\ (forall x, (x < k)%nat -> bcount x ps <= bi_copies (bxitem i x))
    /\ bcount k ps <= Z.of_nat j
    /\ v = zsum size ps.

Lemma xreach_nonneg : forall k j v, (k < length (bx_items i))%nat -> xreach k j v -> 0 <= v.
Proof.
  intros k j v Hk (ps & H1 & _ & _ & ->). apply zsum_nonneg. intros p Hp. apply size_nonneg. specialize (H1 p Hp). lia.
Qed.

Lemma reach_sides_table : forall m (P : Z -> Prop) sides reachable, (forall s, In s sides -> 0 <= s) -> table m P reachable ->
  table m (fun v => P v \/ exists s, In s sides /\ s <= v /\ P (v - s)) (reach_copy sides reachable).
Proof.
  intros m P sides reachable Hs T. unfold reach_copy.
  assert (G : forall l done temp, (forall s, In s l -> 0 <= s) ->
    table m (fun v => P v \/ exists s, In s done /\ s <= v /\ P (v - s)) temp ->
    table m (fun v => P v \/ exists s, In s (done ++ l) /\ s <= v /\ P (v - s)) (fold_left (fun temp r => reach_rot reachable temp r) l temp)).
  { induction l as [|s l IH]; intros done temp Hl Ht; cbn [fold_left]; [rewrite app_nil_r; assumption|].
    replace (done ++ s :: l) with ((done ++ [s]) ++ l) by (rewrite <- app_assoc; reflexivity).
    apply IH; [intros; apply Hl; right; assumption|].
    eapply table_ext; [|apply (reach_rot_table m P _ reachable temp s (Hl s (or_introl eq_refl)) T Ht)]. intros v _. split.
    - intros [[K|(s' & K1 & K2)]|K]; [left; assumption|right; exists s'; split; [apply in_or_app; left; assumption|assumption]|].
      right. exists s. split; [apply in_or_app; right; left; reflexivity|assumption].
    - intros [K|(s' & K1 & K2)]; [left; left; assumption|]. apply in_app_or in K1. destruct K1 as [K1|[<-|[]]]; [left; right; exists s'; auto|right; assumption]. }
  apply (G sides [] reachable Hs). eapply table_ext; [|exact T]. intros v _. split; [auto|]. intros [K|(s & [] & _)]. assumption.
Qed.

Lemma xreach_copy_table : forall m k j l, (k < length (bx_items i))%nat -> table m (xreach k j) l ->
  table m (xreach k (S j)) (reach_copy (map (fun r => vat (rbox i k r) a) (bi_rotations (bxitem i k))) l).
Proof.
  intros m k j l Hk T. eapply table_ext; [|apply (reach_sides_table m (xreach k j)); [|exact T]].
  - intros v Hv. split.
    + intros [(ps & H1 & H2 & H3 & H4)|(s & Hs & Hle & (ps & H1 & H2 & H3 & H4))].
      * exists ps. repeat split; auto; try (apply H1; assumption). lia.
      * apply in_map_iff in Hs. destruct Hs as (r & <- & Hr). exists (mkBP k (mkV 0 0 0) r :: ps). split; [|split; [|split]].
        -- intros p [<-|Hp]; [cbn [bp_type bp_rot]; split; [lia|assumption]|apply H1; assumption].
        -- intros x Hx. rewrite bcount_cons. cbn [bp_type]. destruct (Nat.eqb_spec k x); [lia|]. specialize (H2 x Hx). lia.
        -- rewrite bcount_cons. cbn [bp_type]. rewrite Nat.eqb_refl. lia.
        -- rewrite zsum_cons, <- H4. unfold size. rewrite <- rotate_at. cbn [bp_type bp_rot]. fold (rbox i k r). lia.
    + intros (ps & H1 & H2 & H3 & H4). destruct (Z_le_gt_dec (bcount k ps) (Z.of_nat j)) as [L|L]; [left; exists ps; auto|].
      right. destruct (bcount_pos k ps) as (p & Hp & Ep); [lia|]. pose proof (H1 p Hp) as [_ Hr]. apply in_split in Hp. destruct Hp as (l1 & l2 & ->).
      rewrite Ep in Hr. assert (Es : vat (rbox i k (bp_rot p)) a = size p) by (unfold size; rewrite <- rotate_at, Ep; reflexivity).
      assert (K : xreach k j (v - vat (rbox i k (bp_rot p)) a)).
      { exists (l1 ++ l2). split; [|split; [|split]].
        - intros q Hq. apply H1. apply in_app_or in Hq. apply in_or_app. destruct Hq; [left|right; right]; assumption.
        - intros x Hx. specialize (H2 x Hx). rewrite bcount_app, bcount_cons in H2. rewrite bcount_app. destruct (Nat.eqb (bp_type p) x); lia.
        - rewrite bcount_app, bcount_cons, Ep, Nat.eqb_refl in H3. rewrite bcount_app. lia.
        - rewrite H4, !zsum_app, zsum_cons. rewrite Es. lia. }
      exists (vat (rbox i k (bp_rot p)) a). split; [apply in_map_iff; exists (bp_rot p); auto|]. split; [|assumption].
      apply xreach_nonneg in K; [lia|assumption].
  - intros s Hs. apply in_map_iff in Hs. destruct Hs as (r & <- & _). apply rbox_nonneg. assumption.
Qed.

Lemma xcopies_ge : forall x, (x < length (bx_items i))%nat -> 0 <= bi_copies (bxitem i x).
Proof. intros x Hx. destruct (Hnonneg (bxitem i x)) as [_ A]; [apply nth_In; assumption|assumption]. Qed.

Lemma xreach_succ : forall k v, (k < length (bx_items i))%nat -> xreach k (Z.to_nat (bi_copies (bxitem i k))) v <-> xreach (S k) 0 v.
Proof.
  intros k v Hk. pose proof (xcopies_ge k Hk) as Hc. split; intros (ps & H1 & H2 & H3 & H4); exists ps; split.
  - intros p Hp. specialize (H1 p Hp). split; [lia|apply H1].
  - split; [|split; [|assumption]].
    + intros x Hx. destruct (Nat.eq_dec x k) as [->|Hn]; [lia|apply H2; lia].
    + rewrite bcount_none; [lia|]. intros p Hp. specialize (H1 p Hp). lia.
  - intros p Hp. specialize (H1 p Hp). split; [|apply H1]. destruct (Nat.eq_dec (bp_type p) (S k)) as [E|E]; [|lia]. exfalso.
    apply in_split in Hp. destruct Hp as (l1 & l2 & ->). rewrite bcount_app, bcount_cons, E, Nat.eqb_refl in H3.
    pose proof (bcount_nonneg (S k) l1). pose proof (bcount_nonneg (S k) l2). lia.
  - split; [|split; [|assumption]].
    + intros x Hx. apply H2. lia.
    + rewrite Z2Nat.id by assumption. apply H2. lia.
Qed.

Lemma xreach_all_table : table (xmax_side i a) (xstackable i a) (xreach_all i a).
Proof.
  unfold xreach_all. set (m := xmax_side i a).
  assert (H : forall k l, (k <= length (bx_items i))%nat -> table m (xreach 0 0) l ->
    table m (xreach k 0) (fold_left (fun reachable x =>
      Nat.iter (Z.to_nat (bi_copies (bxitem i x))) (reach_copy (map (fun r => vat (rbox i x r) a) (bi_rotations (bxitem i x)))) reachable)
      (seq 0 k) l)).
  { induction k as [|k IH]; intros l Hk T; [assumption|]. rewrite seq_S, fold_left_app. cbn [fold_left Nat.add].
    specialize (IH l (Nat.lt_le_incl _ _ Hk) T). eapply table_ext; [intros v _; apply xreach_succ; lia|].
    generalize (Z.to_nat (bi_copies (bxitem i k))) as j. induction j as [|j IHj].
    - cbn [Nat.iter nat_rect]. assumption.
    - cbn [Nat.iter nat_rect]. apply xreach_copy_table; [lia|assumption]. }
  eapply table_ext; [|apply H; [lia|]].
  - intros v _. split; intros (ps & H1 & H2 & H3); exists ps.
    + destruct H3 as [H3 H4]. split; [|split; assumption]. intros p Hp. specialize (H1 p Hp). split; [|apply H1].
      destruct (Nat.eq_dec (bp_type p) (length (bx_items i))) as [E|E]; [|lia]. exfalso.
      apply in_split in Hp. destruct Hp as (l1 & l2 & ->). rewrite bcount_app, bcount_cons, E, Nat.eqb_refl in H3.
      pose proof (bcount_nonneg (length (bx_items i)) l1). pose proof (bcount_nonneg (length (bx_items i)) l2). lia.
    + split; [|split; [assumption|split; [|assumption]]].
      * intros p Hp. specialize (H1 p Hp). split; [lia|apply H1].
      * rewrite bcount_none; [lia|]. intros p Hp. specialize (H1 p Hp). lia.
  - split; [simpl; rewrite repeat_length; reflexivity|]. intros v Hv. split.
    + intro E. destruct v as [|v]; [|cbn [nth] in E; rewrite nth_repeat in E; discriminate]. exists [].
      split; [intros p []|]. split; [intros x Hx; lia|]. split; [unfold bcount; simpl; lia|reflexivity].
    + intros (ps & H1 & _ & H3 & E). destruct ps as [|p ps]; [rewrite zsum_nil in E; destruct v; [reflexivity|lia]|]. exfalso.
      destruct (H1 p (or_introl eq_refl)) as [Ht _]. rewrite bcount_cons in H3. replace (bp_type p) with 0%nat in H3 by lia. cbn [Nat.eqb] in H3.
      pose proof (bcount_nonneg 0 ps). lia.
Qed.

Lemma xmax_side_spec : 0 <= xmax_side i a /\ (forall bt, In bt (bx_bins i) -> vat (bn_box bt) a <= xmax_side i a) /\
  (xmax_side i a = 0 \/ exists bt, In bt (bx_bins i) /\ xmax_side i a = vat (bn_box bt) a).
Proof.
  unfold xmax_side.
  assert (G : forall l z, let r := fold_left (fun m bt => Z.max m (vat (bn_box bt) a)) l z in
    z <= r /\ (forall bt, In bt l -> vat (bn_box bt) a <= r) /\ (r = z \/ exists bt, In bt l /\ r = vat (bn_box bt) a)).
  { induction l as [|b l IH]; intro z; cbv zeta; cbn [fold_left].
    - split; [lia|]. split; [intros bt []|left; reflexivity].
    - destruct (IH (Z.max z (vat (bn_box b) a))) as (A1 & A2 & A3). cbv zeta in *. split; [lia|]. split.
      + intros bt [<-|Hb]; [lia|auto].
      + destruct A3 as [A3|(bt & Hb & A3)]; [|right; exists bt; split; [right; assumption|assumption]].
        rewrite A3. destruct (Z.max_spec z (vat (bn_box b) a)) as [[_ ->]|[_ ->]]; [right; exists b; split; [left; reflexivity|reflexivity]|left; reflexivity]. }
  specialize (G (bx_bins i) 0). cbv zeta in G. exact G.
Qed.

Lemma xstackable_zero : xstackable i a 0.
Proof. exists []. split; [intros p []|]. split; [|reflexivity]. intros x Hx. unfold bcount. simpl. apply xcopies_ge. assumption. Qed.

Theorem xmax_reachable_spec :
  length (xmax_reachable i a) = S (Z.to_nat (xmax_side i a)) /\
  forall v, (v <= Z.to_nat (xmax_side i a))%nat -> let r := nth v (xmax_reachable i a) 0 in
    xstackable i a r /\ r <= Z.of_nat v /\ (forall u, xstackable i a u -> u <= Z.of_nat v -> u <= r).
Proof.
  unfold xmax_reachable. split; [rewrite map_length, seq_length; reflexivity|]. intros v Hv. cbv zeta.
  rewrite (nth_indep _ 0 (last_reachable (xreach_all i a) 0)) by (rewrite map_length, seq_length; lia).
  rewrite map_nth, seq_nth by lia. cbn [Nat.add]. destruct xreach_all_table as [L H].
  induction v as [|v IH].
  - cbn [last_reachable]. split; [apply xstackable_zero|]. split; [lia|]. intros; lia.
  - cbn [last_reachable]. destruct (nth (S v) (xreach_all i a) false) eqn:E.
    + apply (H (S v)) in E; [|assumption]. split; [assumption|]. split; [lia|auto].
    + destruct IH as (A1 & A2 & A3); [lia|]. split; [assumption|]. split; [lia|]. intros u Hu Hle.
      destruct (Z.eq_dec u (Z.of_nat (S v))) as [->|Hn]; [|apply A3; [assumption|lia]].
      apply (H (S v)) in Hu; [congruence|assumption].
Qed.

End Reach.

End Box.
