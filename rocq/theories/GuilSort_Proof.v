(** * Proofs about the sort of the subplates *)

From Coq Require Import List ZArith QArith Bool Lia Arith Permutation Sorted Zquot.
From Verif Require Import Util Common_Model OneDim_Model Guil_Model GuilSol_Model GuilBuild_Model GuilBuild_Spec GuilBuild_Proof GuilBuild_Props GuilFound_Proof
  GuilSort_Model GuilSort_Spec GuilWalk_Proof.
Import ListNotations.
Open Scope Z_scope.

Lemma lo32_mod : forall x, lo32 x = x mod 2 ^ 32.
Proof. intros x. unfold lo32. change 4294967295 with (Z.ones 32). apply Z.land_ones. lia. Qed.

Lemma hi32_div : forall x, hi32 x = x / 2 ^ 32.
Proof. intros x. unfold hi32. apply Z.shiftr_div_pow2. lia. Qed.

Lemma lor_add : forall a b, 0 <= a < 2 ^ 32 -> Z.lor a (b * 2 ^ 32) = a + b * 2 ^ 32.
Proof.
  intros a b Ha.
  assert (H : Z.land a (b * 2 ^ 32) = 0).
  { apply Z.bits_inj'. intros n Hn. rewrite Z.land_spec, Z.bits_0. destruct (Z_lt_ge_dec n 32) as [H|H].
    - rewrite Z.mul_pow2_bits_low by lia. apply andb_false_r.
    - rewrite <- (Z.mod_small a (2 ^ 32)) by exact Ha. rewrite Z.mod_pow2_bits_high by lia. reflexivity. }
  rewrite Z.add_nocarry_lxor by exact H. symmetry. apply Z.lxor_lor. exact H.
Qed.

Lemma wrap_small : forall x, 0 <= x < two64 -> wrap64 x = x.
Proof. intros x H. unfold wrap64. apply Z.mod_small. exact H. Qed.

Lemma words : forall B x0 x1 y0 y1, 3 < B -> 0 <= x0 < B -> 0 <= x1 < B -> 0 <= y0 < B -> 0 <= y1 < B ->
  let mid := (x0 * y0) / B + (x0 * y1) mod B + (x1 * y0) mod B in
  let hi := x1 * y1 + (x0 * y1) / B + (x1 * y0) / B + mid / B in
  let lo := (x0 * y0) mod B + mid mod B * B in
  0 <= x0 * y0 < B * B /\ 0 <= x0 * y1 < B * B /\ 0 <= x1 * y0 < B * B /\ 0 <= x1 * y1 < B * B
  /\ 0 <= (x0 * y0) / B < B /\ 0 <= (x0 * y1) mod B < B /\ 0 <= (x1 * y0) mod B < B
  /\ 0 <= (x0 * y1) / B /\ 0 <= (x1 * y0) / B /\ 0 <= mid / B
  /\ 0 <= (x0 * y0) mod B < B /\ 0 <= mid mod B < B /\ 0 <= lo < B * B /\ 0 <= hi < B * B
  /\ hi * (B * B) + lo = (B * x1 + x0) * (B * y1 + y0).
Proof.
  intros B x0 x1 y0 y1 HB Hx0 Hx1 Hy0 Hy1.
  assert (Small : forall u w, 0 <= u < B -> 0 <= w < B -> 0 <= u * w < B * B).
  { intros u w Hu Hw. split; [apply Z.mul_nonneg_nonneg; lia|apply Z.mul_lt_mono_nonneg; lia]. }
  pose proof (Small x0 y0 Hx0 Hy0) as S00. pose proof (Small x0 y1 Hx0 Hy1) as S01.
  pose proof (Small x1 y0 Hx1 Hy0) as S10. pose proof (Small x1 y1 Hx1 Hy1) as S11.
  set (p00 := x0 * y0) in *. set (p01 := x0 * y1) in *. set (p10 := x1 * y0) in *. set (p11 := x1 * y1) in *. cbv zeta.
  assert (Dv : forall q, 0 <= q < B * B -> q = B * (q / B) + q mod B /\ 0 <= q mod B < B /\ 0 <= q / B < B).
  { intros q Hq. split; [apply Z.div_mod; lia|]. split; [apply Z.mod_pos_bound; lia|].
    split; [apply Z.div_pos; lia|apply Z.div_lt_upper_bound; lia]. }
  destruct (Dv p00 S00) as (E0 & R0 & Q0). destruct (Dv p01 S01) as (E1 & R1 & Q1). destruct (Dv p10 S10) as (E2 & R2 & Q2).
  set (mid := p00 / B + p01 mod B + p10 mod B).
  assert (Hmid : 0 <= mid) by (unfold mid; lia).
  assert (Em : mid = B * (mid / B) + mid mod B) by (apply Z.div_mod; lia).
  assert (Rm : 0 <= mid mod B < B) by (apply Z.mod_pos_bound; lia).
  assert (Qm : 0 <= mid / B) by (apply Z.div_pos; lia).
  assert (Hlo : 0 <= p00 mod B + mid mod B * B < B * B).
  { split; [assert (0 <= mid mod B * B) by (apply Z.mul_nonneg_nonneg; lia); lia|].
    assert (mid mod B * B <= (B - 1) * B) by (apply Z.mul_le_mono_nonneg_r; lia). lia. }
  assert (E : (p11 + p01 / B + p10 / B + mid / B) * (B * B) + (p00 mod B + mid mod B * B) = (B * x1 + x0) * (B * y1 + y0)).
  { transitivity (p11 * (B * B) + B * (B * (p01 / B)) + B * (B * (p10 / B)) + B * (B * (mid / B) + mid mod B) + p00 mod B); [ring|].
    rewrite <- Em. unfold mid.
    transitivity (p11 * (B * B) + B * (B * (p01 / B) + p01 mod B) + B * (B * (p10 / B) + p10 mod B) + (B * (p00 / B) + p00 mod B)); [ring|].
    rewrite <- E0, <- E1, <- E2. unfold p00, p01, p10, p11. ring. }
  assert (X : 0 <= (B * x1 + x0) * (B * y1 + y0) < (B * B) * (B * B)).
  { assert (A : forall u w, 0 <= u < B -> 0 <= w < B -> 0 <= B * u + w < B * B).
    { intros u w Hu Hw. assert (0 <= B * u) by (apply Z.mul_nonneg_nonneg; lia).
      assert (B * u <= B * (B - 1)) by (apply Z.mul_le_mono_nonneg_l; lia). lia. }
    pose proof (A x1 x0 Hx1 Hx0). pose proof (A y1 y0 Hy1 Hy0).
    split; [apply Z.mul_nonneg_nonneg; lia|apply Z.mul_lt_mono_nonneg; lia]. }
  set (hi := p11 + p01 / B + p10 / B + mid / B) in *.
  assert (Hhi : 0 <= hi < B * B).
  { split; [unfold hi; lia|]. apply (Z.mul_lt_mono_pos_r (B * B)); [apply Z.mul_pos_pos; lia|lia]. }
  repeat (split; [first [assumption|lia]|]). exact E.
Qed.

(** The product on two words is exact. *)
Lemma mul128_exact : forall x y, 0 <= x < two64 -> 0 <= y < two64 ->
  0 <= fst (mul128 x y) < two64 /\ 0 <= snd (mul128 x y) < two64 /\ fst (mul128 x y) * two64 + snd (mul128 x y) = x * y.
Proof.
  intros x y Hx Hy. unfold mul128. rewrite !hi32_div, !lo32_mod.
  assert (HB : two64 = 2 ^ 32 * 2 ^ 32) by reflexivity. assert (B0 : 3 < 2 ^ 32) by reflexivity.
  assert (B64 : 3 * 2 ^ 32 < two64) by reflexivity.
  assert (Elo : forall mid, wrap64 (Z.shiftl mid 32) = (mid mod 2 ^ 32) * 2 ^ 32).
  { intros mid. rewrite Z.shiftl_mul_pow2 by lia. unfold wrap64. rewrite HB. apply Z.mul_mod_distr_r; discriminate. }
  rewrite Elo. pose proof lor_add as LA. remember (2 ^ 32) as B eqn:EB. clear EB.
  remember two64 as W eqn:EW. assert (WS : forall z, 0 <= z < W -> wrap64 z = z) by (subst W; exact wrap_small). clear EW Elo.
  pose proof (Z.div_mod x B ltac:(lia)) as Dx. pose proof (Z.div_mod y B ltac:(lia)) as Dy.
  pose proof (Z.mod_pos_bound x B ltac:(lia)) as Mx. pose proof (Z.mod_pos_bound y B ltac:(lia)) as My.
  assert (Qx : 0 <= x / B < B) by (split; [apply Z.div_pos; lia|apply Z.div_lt_upper_bound; lia]).
  assert (Qy : 0 <= y / B < B) by (split; [apply Z.div_pos; lia|apply Z.div_lt_upper_bound; lia]).
  destruct (words B (x mod B) (x / B) (y mod B) (y / B) B0 Mx Qx My Qy)
    as (A1 & A2 & A3 & A4 & A5 & A6 & A7 & A8 & A9 & A10 & A11 & A12 & A13 & A14 & A15).
  rewrite <- Dx, <- Dy in A15. rewrite HB in *.
  rewrite (WS (x mod B * (y mod B))), (WS (x mod B * (y / B))), (WS (x / B * (y mod B))), (WS (x / B * (y / B))) by assumption.
  rewrite (WS (x mod B * (y mod B) / B + (x mod B * (y / B)) mod B)) by lia.
  rewrite (WS (x mod B * (y mod B) / B + (x mod B * (y / B)) mod B + (x / B * (y mod B)) mod B)) by lia.
  rewrite LA by assumption.
  rewrite (WS (x / B * (y / B) + x mod B * (y / B) / B)) by lia.
  rewrite (WS (x / B * (y / B) + x mod B * (y / B) / B + x / B * (y mod B) / B)) by lia.
  rewrite WS by assumption. cbn [fst snd]. auto.
Qed.

Lemma mul_less_exact : forall a b c d, 0 <= a < two64 -> 0 <= b < two64 -> 0 <= c < two64 -> 0 <= d < two64 ->
  mul_less a b c d = (a * b <? c * d).
Proof.
  intros a b c d Ha Hb Hc Hd. unfold mul_less. rewrite !wrap_small by assumption.
  pose proof (mul128_exact a b Ha Hb) as (L1 & L2 & L3). pose proof (mul128_exact c d Hc Hd) as (R1 & R2 & R3).
  destruct (mul128 a b) as [lh ll]. destruct (mul128 c d) as [rh rl]. cbn [fst snd] in *.
  rewrite <- L3, <- R3. clear L3 R3. generalize dependent two64. intros two64 Ha Hb Hc Hd L1 L2 R1 R2.
  destruct (lh <? rh) eqn:E1; cbn [orb].
  - apply Z.ltb_lt in E1. symmetry. apply Z.ltb_lt.
    assert ((lh + 1) * two64 <= rh * two64) by (apply Z.mul_le_mono_nonneg_r; lia). lia.
  - apply Z.ltb_ge in E1. destruct (lh =? rh) eqn:E2; cbn [andb].
    + apply Z.eqb_eq in E2. subst rh. destruct (ll <? rl) eqn:E3; symmetry; [apply Z.ltb_lt in E3; apply Z.ltb_lt; lia|apply Z.ltb_ge in E3; apply Z.ltb_ge; lia].
    + apply Z.eqb_neq in E2. symmetry. apply Z.ltb_ge.
      assert ((rh + 1) * two64 <= lh * two64) by (apply Z.mul_le_mono_nonneg_r; lia). lia.
Qed.

(** ** The order *)

Lemma less_asym : forall cs a b, Fits64 a -> Fits64 b -> subplate_less cs a b = true -> subplate_less cs b a = false.
Proof.
  induction cs as [|c cs IH]; intros a b Ha Hb H; [reflexivity|]. destruct Ha as [A1 A2]. destruct Hb as [B1 B2].
  destruct c; cbn [subplate_less] in *.
  1,2,3: rewrite Z.eqb_sym; match type of H with (if ?x =? ?y then _ else _) = _ => destruct (x =? y) end;
    [apply IH; [split; assumption|split; assumption|exact H]|apply Z.ltb_lt in H; apply Z.ltb_ge; lia].
  rewrite !mul_less_exact in * by (change two64 with (2 ^ 64); lia).
  destruct (le_waste a * le_area b <? le_waste b * le_area a) eqn:E1.
  - replace (le_waste b * le_area a <? le_waste a * le_area b) with false
      by (symmetry; apply Z.ltb_ge; apply Z.ltb_lt in E1; lia). reflexivity.
  - destruct (le_waste b * le_area a <? le_waste a * le_area b); [discriminate|]. apply IH; [split; assumption|split; assumption|exact H].
Qed.

Lemma density_neg_trans : forall wa aa wb ab wc ac, 0 < aa -> 0 < ab -> 0 < ac ->
  wb * aa <= wa * ab -> wc * ab <= wb * ac -> wc * aa <= wa * ac.
Proof.
  intros wa aa wb ab wc ac Ha Hb Hc H1 H2. apply (Z.mul_le_mono_pos_r _ _ ab Hb).
  assert (X : wc * ab * aa <= wb * ac * aa) by (apply Z.mul_le_mono_nonneg_r; lia).
  assert (Y : wb * aa * ac <= wa * ab * ac) by (apply Z.mul_le_mono_nonneg_r; lia). lia.
Qed.

Lemma less_neg_trans : forall cs a b c, Fits64 a -> Fits64 b -> Fits64 c -> subplate_less cs a b = false ->
  subplate_less cs b c = false -> subplate_less cs a c = false.
Proof.
  induction cs as [|k cs IH]; intros a b c Ha Hb Hc H1 H2; [reflexivity|].
  pose proof Ha as [A1 A2]. pose proof Hb as [B1 B2]. pose proof Hc as [C1 C2].
  destruct k; cbn [subplate_less] in *.
  1,2,3: repeat match goal with H : (if ?x =? ?y then _ else _) = false |- _ => destruct (Z.eqb_spec x y) end;
    match goal with |- (if ?x =? ?y then _ else _) = false => destruct (Z.eqb_spec x y) end;
    rewrite ?Z.ltb_ge in *; try lia; apply (IH a b c); assumption.
  rewrite !mul_less_exact in * by (change two64 with (2 ^ 64); lia).
  destruct (le_waste a * le_area b <? le_waste b * le_area a) eqn:E1; [discriminate|].
  destruct (le_waste b * le_area c <? le_waste c * le_area b) eqn:E2; [discriminate|]. apply Z.ltb_ge in E1, E2.
  pose proof (density_neg_trans _ (le_area a) _ (le_area b) _ (le_area c) ltac:(lia) ltac:(lia) ltac:(lia) E1 E2) as E3.
  replace (le_waste a * le_area c <? le_waste c * le_area a) with false by (symmetry; apply Z.ltb_ge; exact E3).
  destruct (le_waste c * le_area a <? le_waste a * le_area c) eqn:E4; [reflexivity|]. apply Z.ltb_ge in E4.
  destruct (le_waste b * le_area a <? le_waste a * le_area b) eqn:E5.
  - apply Z.ltb_lt in E5.
    pose proof (density_neg_trans (le_waste b) (le_area b) (le_waste c) (le_area c) (le_waste a) (le_area a) ltac:(lia) ltac:(lia) ltac:(lia) E2 E4). lia.
  - apply Z.ltb_ge in E5. destruct (le_waste c * le_area b <? le_waste b * le_area c) eqn:E6.
    + apply Z.ltb_lt in E6.
      pose proof (density_neg_trans (le_waste c) (le_area c) (le_waste a) (le_area a) (le_waste b) (le_area b) ltac:(lia) ltac:(lia) ltac:(lia) E4 E1). lia.
    + apply (IH a b c); assumption.
Qed.

Lemma stable_insert_perm : forall {A} (less : A -> A -> bool) x l, Permutation (stable_insert less x l) (x :: l).
Proof.
  intros A less x. induction l as [|y l IH]; [reflexivity|]. simpl. destruct (less y x); [|reflexivity]. rewrite IH. apply perm_swap.
Qed.

Lemma stable_sort_perm : forall {A} (less : A -> A -> bool) l, Permutation (stable_sort less l) l.
Proof.
  intros A less. induction l as [|x l IH]; [reflexivity|]. unfold stable_sort in *. simpl. rewrite stable_insert_perm, IH. reflexivity.
Qed.

Lemma stable_insert_sorted : forall {A} (less : A -> A -> bool) (P : A -> Prop),
  (forall a b, P a -> P b -> less a b = true -> less b a = false) ->
  (forall a b c, P a -> P b -> P c -> less a b = false -> less b c = false -> less a c = false) ->
  forall x l, P x -> Forall P l -> StronglySorted (fun a b => less b a = false) l -> StronglySorted (fun a b => less b a = false) (stable_insert less x l).
Proof.
  intros A less P Has Hnt x. induction l as [|y l IH]; intros Hx Hl Hs; [repeat constructor|].
  inversion Hl as [|? ? Hy Hl']; subst. inversion Hs as [|? ? Hs' Hall]; subst. simpl. destruct (less y x) eqn:E.
  - constructor; [apply IH; assumption|]. eapply Permutation_Forall; [apply Permutation_sym, stable_insert_perm|].
    constructor; [apply Has; assumption|exact Hall].
  - constructor; [exact Hs|]. constructor; [exact E|]. rewrite Forall_forall in *. intros z Hz. apply (Hnt z y x); auto.
Qed.

Lemma stable_sort_sorted : forall {A} (less : A -> A -> bool) (P : A -> Prop),
  (forall a b, P a -> P b -> less a b = true -> less b a = false) ->
  (forall a b c, P a -> P b -> P c -> less a b = false -> less b c = false -> less a c = false) ->
  forall l, Forall P l -> StronglySorted (fun a b => less b a = false) (stable_sort less l).
Proof.
  intros A less P Has Hnt. induction l as [|x l IH]; intros H; [constructor|]. inversion H; subst. unfold stable_sort in *. simpl.
  apply (stable_insert_sorted less P Has Hnt); [assumption| |auto].
  eapply Permutation_Forall; [apply Permutation_sym, (stable_sort_perm less)|assumption].
Qed.

Lemma stable_insert_stable : forall (less : nat -> nat -> bool) (P : nat -> Prop),
  (forall a b, P a -> P b -> less a b = true -> less b a = false) ->
  (forall a b c, P a -> P b -> P c -> less a b = false -> less b c = false -> less a c = false) ->
  let R := fun a b => less a b = true \/ less b a = false /\ (a < b)%nat in
  forall x l, P x -> Forall P l -> Forall (lt x) l -> StronglySorted R l -> StronglySorted R (stable_insert less x l).
Proof.
  intros less P Has Hnt R x. induction l as [|y l IH]; intros Hx Hl Hlt Hs; [repeat constructor|].
  inversion Hl as [|? ? Hy Hl']; subst. inversion Hs as [|? ? Hs' Hall]; subst. inversion Hlt as [|? ? Hxy Hlt']; subst.
  simpl. destruct (less y x) eqn:E.
  - constructor; [apply IH; assumption|]. eapply Permutation_Forall; [apply Permutation_sym, stable_insert_perm|].
    constructor; [left; exact E|exact Hall].
  - constructor; [exact Hs|]. constructor; [right; split; assumption|]. rewrite Forall_forall in *. intros z Hz. right.
    split; [|apply Hlt'; exact Hz]. apply (Hnt z y x); auto. destruct (Hall z Hz) as [H|[H _]]; [apply Has; auto|exact H].
Qed.

Lemma stable_sort_stable : forall (less : nat -> nat -> bool) (P : nat -> Prop),
  (forall a b, P a -> P b -> less a b = true -> less b a = false) ->
  (forall a b c, P a -> P b -> P c -> less a b = false -> less b c = false -> less a c = false) ->
  forall l, Forall P l -> StronglySorted lt l ->
  StronglySorted (fun a b => less a b = true \/ less b a = false /\ (a < b)%nat) (stable_sort less l).
Proof.
  intros less P Has Hnt. induction l as [|x l IH]; intros H Hl; [constructor|]. inversion H; subst. inversion Hl; subst.
  unfold stable_sort in *. simpl. apply (stable_insert_stable less P Has Hnt); [assumption| | |auto];
    (eapply Permutation_Forall; [apply Permutation_sym, (stable_sort_perm less)|assumption]).
Qed.

Lemma filter_seq_sorted : forall (f : nat -> bool) n k, StronglySorted lt (filter f (seq k n)).
Proof.
  intros f. induction n as [|n IH]; intros k; [constructor|]. cbn [seq filter]. destruct (f k); [|apply IH].
  constructor; [apply IH|]. apply Forall_forall. intros x Hx. apply filter_In in Hx. destruct Hx as [Hx _]. apply in_seq in Hx. lia.
Qed.

Lemma filter_filter : forall {A} (f g : A -> bool) l, filter f (filter g l) = filter (fun x => f x && g x) l.
Proof.
  intros A f g. induction l as [|x l IH]; [reflexivity|]. simpl. destruct (g x); simpl; [|rewrite andb_false_r; exact IH].
  rewrite andb_true_r. destruct (f x); rewrite IH; reflexivity.
Qed.

Lemma sorted_kids_perm : forall ns lens cs id, Permutation (sorted_kids ns lens cs id) (content_kids ns id).
Proof.
  intros ns lens cs id. unfold sorted_kids, content_kids, kids_of. rewrite stable_sort_perm, filter_filter. reflexivity.
Qed.

Lemma walk_perm : forall ns k1 k2, (forall id, Permutation (k1 id) (k2 id)) -> forall fuel id, Permutation (walk ns k1 fuel id) (walk ns k2 fuel id).
Proof.
  intros ns k1 k2 H. induction fuel as [|fuel IH]; intros id; [reflexivity|]. cbn [walk].
  rewrite (Permutation_flat_map _ (H id)). induction (k2 id) as [|k l IHl]; [reflexivity|]. cbn [flat_map]. rewrite IHl, (IH k). reflexivity.
Qed.

(** ** The replay *)

Section Replay.
Variable i : GInstance.
Variable o : GOrient.
Variable ns : list GNode.
Variable root : nat.
Variable kids : nat -> list nat.
Hypothesis Hany : o <> GAny.
Hypothesis Hpat : Pattern o ns root.
Hypothesis Hkids : forall id, Permutation (kids id) (content_kids ns id).
Local Notation ct := (gp_ct (gin_params i)).

Definition Same (id : nat) (l r b t : Z) : Prop :=
  r - l = gn_r (gnode ns id) - gn_l (gnode ns id) /\ t - b = gn_t (gnode ns id) - gn_b (gnode ns id).

Lemma set_after : forall x l r b t depth bn bins', gs_orient bn = o -> Entry (gs_nodes bn) l r b t depth -> 1 < depth ->
  gof (gset_item i [bn] x) = GROk bins' ->
  exists ns', bins' = [gwith_nodes bn ns'] /\ After (gs_nodes bn) ns' (length (gs_nodes bn) - 1) [mkPl x l r b t].
Proof.
  intros x l r b t depth bn bins' Ho HE Hd H.
  apply (region_sound sort_pl sort_pl_sorts i o 0 l r b t [mkPl x l r b t] depth bn bins' Ho HE). cbn [build_region].
  replace (1 <? depth) with true by (symmetry; apply Z.ltb_lt; exact Hd). cbn [exact_item pl_l pl_r pl_b pl_t pl_item].
  rewrite !Z.eqb_refl. exact H.
Qed.

Lemma replay_stuck : forall v depth perp rec sibs x cur, (forall bins, x <> GROk bins) ->
  fst (fold_left (replay_step i v depth perp ns rec) sibs (x, cur)) = x.
Proof.
  induction sibs as [|k sibs IH]; intros x cur H; [reflexivity|]. cbn [fold_left]. unfold replay_step at 2. cbn [fst].
  destruct x; try (apply IH; exact H). exfalso. eapply H. reflexivity.
Qed.

Lemma replay_loop : forall rec sub id depth p ns0 l r b t, 1 <= depth -> gn_d (gnode ns0 p) = depth - 1 -> gn_d (gnode ns id) = depth - 1 ->
  gn_l (gnode ns0 p) = l -> gn_r (gnode ns0 p) = r -> gn_b (gnode ns0 p) = b -> gn_t (gnode ns0 p) = t ->
  (root <= id)%nat -> Same id l r b t ->
  (forall kid l r b t bn bins', gs_orient bn = o -> Entry (gs_nodes bn) l r b t (depth + 1) -> (root <= kid)%nat -> Same kid l r b t ->
     gn_d (gnode ns kid) = depth ->
     rec kid (if gvertical o (depth + 1) then l else b) (if gvertical o (depth + 1) then b else l) [bn] = GROk bins' ->
     exists ns' pls, bins' = [gwith_nodes bn ns'] /\ After (gs_nodes bn) ns' (length (gs_nodes bn) - 1) pls /\ map pl_size pls = sub kid) ->
  (forall kid c p bins, kids kid = [] -> rec kid c p bins = GROk bins /\ sub kid = []) ->
  forall sibs, (forall k, In k sibs -> In k (kids id)) ->
  forall bn cur bins', gs_orient bn = o -> Ready i o ns0 (gs_nodes bn) p cur depth ->
  fst (fold_left (replay_step i (gvertical o depth) depth (if gvertical o depth then b else l) ns rec) sibs (GROk [bn], cur)) = GROk bins' ->
  exists ns' cur' pls, bins' = [gwith_nodes bn ns'] /\ Ready i o ns0 ns' p cur' depth
    /\ Permutation (bin_placements ns') (bin_placements (gs_nodes bn) ++ pls)
    /\ map pl_size pls = flat_map (fun k => node_size (gnode ns k) ++ sub k) sibs.
Proof.
  intros rec sub id depth p ns0 l r b t Hd Hdp Hdi Hl Hr Hb Ht Hroot Hsame Hrec Hnil. set (v := gvertical o depth).
  assert (Hv : gvertical o (depth + 1) = negb v) by (apply vertical_next; exact Hany).
  induction sibs as [|k sibs IH]; intros Hin bn cur bins' Ho HR H.
  - inversion H; subst. exists (gs_nodes bn), cur, []. split; [destruct bn; reflexivity|]. split; [exact HR|].
    split; [rewrite app_nil_r; reflexivity|reflexivity].
  - assert (Hk : In k (content_kids ns id)) by (apply (Permutation_in _ (Hkids id)); apply Hin; left; reflexivity).
    destruct Hpat as [_ Hp2]. destruct (Hp2 id k Hroot Hk) as (Hik & Hdk & _ & Hgeo). rewrite Hdk, Hdi in Hgeo.
    replace (depth - 1 + 1) with depth in * by lia. rewrite Hdi in Hdk. replace (depth - 1 + 1) with depth in Hdk by lia. fold v in Hgeo.
    cbn [fold_left] in H. unfold replay_step at 2 in H. cbn [fst snd] in H.
    set (cut := cur + (if v then gn_r (gnode ns k) - gn_l (gnode ns k) else gn_t (gnode ns k) - gn_b (gnode ns k))) in *.
    destruct (add_ready i o ns0 bn p cur depth cut Hd Ho Hdp HR) as [[_ E']|[_ (m & E' & R & Hlast & Hpiece & _ & Hcs & Pl)]].
    { rewrite E' in H. rewrite replay_stuck in H by discriminate. discriminate. }
    rewrite E' in H. fold v in Hpiece.
    set (l' := if v then cur else l) in *. set (r' := if v then cut else r) in *.
    set (b' := if v then b else cur) in *. set (t' := if v then t else cut) in *.
    assert (HE : Entry (gs_nodes (gwith_nodes bn m)) l' r' b' t' (depth + 1)).
    { cbn [gwith_nodes gs_nodes]. unfold l', r', b', t'. constructor; try rewrite Hpiece; unfold piece;
        cbn [gn_d gn_l gn_r gn_b gn_t gn_children gn_f]; rewrite ?Hl, ?Hr, ?Hb, ?Ht; try reflexivity; try lia.
      - intros ->. simpl in Hlast. lia.
      - right. reflexivity.
      - intros _. discriminate. }
    assert (HS : Same k l' r' b' t').
    { unfold Same, l', r', b', t', cut in *. destruct Hsame. destruct v; destruct Hgeo as [G1 G2]; rewrite G1, G2; split; lia. }
    assert (Hsub : exists ns' pls, (match (if 0 <=? gn_item (gnode ns k) then gof (gset_item i [gwith_nodes bn m] (Z.to_nat (gn_item (gnode ns k)))) else GROk [gwith_nodes bn m]) with
        | GROk bins => (rec k (if v then b else l) cur bins, cut + ct)
        | x => (x, cur) end) = (GROk [gwith_nodes (gwith_nodes bn m) ns'], cut + ct)
        /\ After m ns' (length m - 1) pls /\ map pl_size pls = node_size (gnode ns k) ++ sub k).
    { unfold node_size. destruct (0 <=? gn_item (gnode ns k)) eqn:Ei.
      - destruct (gof (gset_item i [gwith_nodes bn m] (Z.to_nat (gn_item (gnode ns k))))) as [| | |bins1] eqn:Es;
          try (rewrite replay_stuck in H by discriminate; discriminate).
        destruct (set_after _ l' r' b' t' (depth + 1) (gwith_nodes bn m) bins1 Ho HE ltac:(lia) Es) as (ns' & -> & HA).
        assert (Hleaf : kids k = []).
        { destruct (kids k) as [|k' ks] eqn:Ekk; [reflexivity|]. exfalso. apply Z.leb_le in Ei.
          assert (Hc : In k' (content_kids ns k)) by (apply (Permutation_in _ (Hkids k)); rewrite Ekk; left; reflexivity).
          destruct (Hp2 k k' ltac:(lia) Hc) as (_ & _ & [X|X] & _); lia. }
        destruct (Hnil k (if v then b else l) cur [gwith_nodes (gwith_nodes bn m) ns'] Hleaf) as [Hr0 Hs0].
        exists ns', [mkPl (Z.to_nat (gn_item (gnode ns k))) l' r' b' t']. rewrite Hr0, Hs0. split; [reflexivity|]. split; [exact HA|].
        rewrite app_nil_r. destruct HS as [S1 S2]. unfold pl_size. cbn [map pl_item pl_l pl_r pl_b pl_t]. rewrite S1, S2. reflexivity.
      - destruct (rec k (if v then b else l) cur [gwith_nodes bn m]) as [| | |bins1] eqn:Er;
          try (rewrite replay_stuck in H by discriminate; discriminate).
        destruct (Hrec k l' r' b' t' (gwith_nodes bn m) bins1 Ho HE ltac:(lia) HS Hdk) as (ns' & pls & -> & HA & HM).
        { rewrite Hv. rewrite <- Er. unfold l', b'. destruct v; reflexivity. }
        exists ns', pls. split; [reflexivity|]. split; [exact HA|exact HM]. }
    destruct Hsub as (ns' & pls & Es & HA & HM). rewrite Es in H.
    assert (HR' : Ready i o ns0 ns' p (cut + ct) depth).
    { apply (after_ready i o ns0 m ns' p _ depth pls R Hlast Hcs); [| |exact HA]; rewrite Hpiece; [reflexivity|].
      unfold piece. cbn [gn_d]. destruct (rd_frame _ _ _ _ _ _ _ R) as (_ & F2 & _). lia. }
    destruct (IH ltac:(intros; apply Hin; right; assumption) (gwith_nodes (gwith_nodes bn m) ns') (cut + ct) bins' Ho HR' H)
      as (nsf & curf & plsf & -> & HRf & Hperm & HMf).
    exists nsf, curf, (pls ++ plsf). split; [reflexivity|]. split; [exact HRf|]. split.
    + cbn [gwith_nodes gs_nodes] in Hperm. rewrite Hperm. destruct HA as (_ & _ & _ & HA). rewrite HA, Pl, app_assoc. reflexivity.
    + rewrite map_app, HM, HMf. reflexivity.
Qed.

Lemma replay_sound : forall fuel id depth l r b t bn bins', gs_orient bn = o -> Entry (gs_nodes bn) l r b t depth ->
  (root <= id)%nat -> Same id l r b t -> gn_d (gnode ns id) = depth - 1 ->
  replay i o ns kids fuel id depth (if gvertical o depth then l else b) (if gvertical o depth then b else l) [bn] = GROk bins' ->
  exists ns' pls, bins' = [gwith_nodes bn ns'] /\ After (gs_nodes bn) ns' (length (gs_nodes bn) - 1) pls
    /\ map pl_size pls = walk ns kids fuel id.
Proof.
  assert (Hwn : forall fuel id, kids id = [] -> walk ns kids fuel id = []) by (intros [|fuel] id E; [reflexivity|]; cbn [walk]; rewrite E; reflexivity).
  assert (Hrn : forall fuel id depth c p bins, kids id = [] -> replay i o ns kids fuel id depth c p bins = GROk bins)
    by (intros [|fuel] id depth c p bins E; cbn [replay]; rewrite E; reflexivity).
  induction fuel as [|fuel IH]; intros id depth l r b t bn bins' Ho HE Hroot HS Hdi H.
  all: assert (Hlen : (0 < length (gs_nodes bn))%nat) by (destruct (gs_nodes bn) eqn:En; [destruct HE; congruence|simpl; lia]).
  all: destruct (kids id) as [|k sibs] eqn:Ek;
    [rewrite Hrn in H by exact Ek; inversion H; subst bins'; exists (gs_nodes bn), []; (split; [destruct bn; reflexivity|]);
     (split; [|symmetry; apply Hwn; exact Ek]); unfold After; rewrite app_nil_r; (split; [reflexivity|]); (split; [apply same_frame_refl|]);
     (split; [|reflexivity]); (split; [lia|]); intros; lia|].
  - cbn [replay] in H. rewrite Ek in H. discriminate.
  - cbn [replay] in H. rewrite Ek in H.
    destruct HE as [D0 D1 D2 E1 E2 E3 E4 E5 E6 E7] eqn:EHE.
    destruct (replay_loop (fun kid c p b => replay i o ns kids fuel kid (depth + 1) c p b) (walk ns kids fuel) id depth
       (length (gs_nodes bn) - 1) (gs_nodes bn) l r b t D0 D2 Hdi E1 E2 E3 E4 Hroot HS)
      with (sibs := k :: sibs) (bn := bn) (cur := if gvertical o depth then l else b) (bins' := bins') as (ns' & cur' & pls & -> & HR & HP & HM).
    + intros kid l' r' b' t' bn' bins'' Ho' HE' Hk' HS' Hd' H'. eapply IH; try eassumption. lia.
    + intros kid c p bins Ekk. split; [apply Hrn; exact Ekk|apply Hwn; exact Ekk].
    + intros k' Hk'. rewrite Ek. exact Hk'.
    + exact Ho.
    + eapply entry_ready. exact HE.
    + exact H.
    + exists ns', pls. split; [reflexivity|]. destruct HR as [B1 B2 B3 _ _ _].
      split; [split; [exact B2|]; split; [exact B3|]; split; [exact B1|exact HP]|]. cbn [walk]. rewrite Ek. exact HM.
Qed.
End Replay.

(** ** The plates *)

Lemma usable_root : forall ns root, UsableRoot ns root -> effective_root ns = root.
Proof.
  intros ns root (Hl & Hd & Hn & Hu). unfold effective_root.
  match goal with |- match find ?f ?l with _ => _ end = _ => destruct (find f l) as [k|] eqn:E end.
  - apply find_some in E. destruct E as [Hk E]. apply in_seq in Hk. apply andb_prop in E. destruct E as [E1 E2]. apply Z.eqb_eq in E1.
    apply Hu; [lia|exact E1|]. destruct (gn_f (gnode ns k)); [discriminate|discriminate].
  - symmetry. apply Hn. assert (E' := find_none _ _ E root ltac:(apply in_seq; lia)). cbn beta in E'. rewrite Hd in E'. cbn [Z.eqb andb] in E'.
    destruct (gn_f (gnode ns root)); [discriminate|reflexivity].
Qed.

Lemma sort_bin_sound : forall i cs b bins, Sortable i b -> sort_bin i cs (length (gs_nodes b)) b = GROk bins ->
  exists b', bins = [b'] /\ gs_type b' = gs_type b /\ gs_orient b' = gs_orient b
    /\ Permutation (map pl_size (bin_placements (gs_nodes b'))) (map pl_size (bin_placements (gs_nodes b))).
Proof.
  intros i cs b bins (Hany & Ht & root & HU & Hpat & Hro & U1 & U2 & U3 & U4) H. unfold sort_bin, gadd_bin in H.
  destruct (Nat.ltb (gs_type b) (length (gin_bins i))); [|discriminate]. cbn [app] in H.
  set (bn := mkGB (gs_type b) 1 (gs_orient b) (ginit_nodes (gbin i (gs_type b)) (gs_type b)) 0 0 false false []) in *.
  rewrite (usable_root _ _ HU) in H.
  assert (Hv : gvertical (gs_orient b) 1 = match gs_orient b with GVertical => true | _ => false end).
  { destruct (gs_orient b); try reflexivity. }
  rewrite <- Hv, U1, U3 in H.
  destruct (replay_sound i (gs_orient b) (gs_nodes b) root _ Hany Hpat
      (fun id => sorted_kids_perm (gs_nodes b) (compute_node_lengths (gs_orient b) (gs_nodes b)) cs id)
      (length (gs_nodes b)) root 1 _ _ _ _ bn bins eq_refl (init_entry (gbin i (gs_type b)) (gs_type b) Ht)) as (ns' & pls & -> & HA & HM).
  - lia.
  - unfold Same. rewrite U1, U2, U3, U4. split; lia.
  - destruct Hpat as [E _]. exact E.
  - exact H.
  - eexists. split; [reflexivity|]. split; [reflexivity|]. split; [reflexivity|]. cbn [gwith_nodes gs_nodes].
    destruct HA as (_ & _ & _ & P). rewrite (Permutation_map pl_size P). cbn [gs_nodes bn]. unfold bn. cbn [gs_nodes]. rewrite init_placements. cbn [app].
    rewrite HM. rewrite <- (walk_placements _ _ _ Hpat Hro). apply walk_perm. intros id. apply sorted_kids_perm.
Qed.

Definition key_of (k : nat * Z * list Placement) (b : GBin) : Prop :=
  fst k = (gs_type b, gs_copies b) /\ Permutation (map pl_size (snd k)) (map pl_size (bin_placements (gs_nodes b))).

Lemma sort_from_sound : forall i cb cs bins result r, (forall b, In b bins -> Sortable i b) ->
  sort_from i cb cs bins result = Some r ->
  exists keys, map bin_key (gc_bins (gs_core r)) = map bin_key (gc_bins (gs_core result)) ++ keys /\ Forall2 key_of keys bins.
Proof.
  intros i cb cs. induction bins as [|b bins IH]; intros result r HS H.
  - inversion H. exists []. split; [rewrite app_nil_r; reflexivity|constructor].
  - cbn [sort_from] in H. destruct (sort_bin i cs (length (gs_nodes b)) b) as [| | |built] eqn:Eb; try discriminate.
    destruct (gbuild i cb built) as [s| |] eqn:EB; try discriminate.
    destruct (gappend_bin i cb result s 0 (gs_copies b) [] []) as [res| |] eqn:Ea; try discriminate.
    destruct (sort_bin_sound _ _ _ _ (HS b (or_introl eq_refl)) Eb) as (b' & -> & T1 & _ & P).
    apply build_key in EB. destruct (append_keys _ _ _ _ _ _ _ Ea) as (b'' & Hb'' & K').
    destruct (gc_bins (gs_core s)) as [|b0 [|b1 bs]]; try discriminate. cbn [nth_error] in Hb''. inversion Hb''; subst b''.
    cbn [map] in EB. inversion EB as [[K1 K2 K3]].
    destruct (IH res r ltac:(intros; apply HS; right; assumption) H) as (keys & K & F).
    exists ((gs_type b0, gs_copies b, bin_placements (gs_nodes b0)) :: keys). split.
    + rewrite K, K', <- app_assoc. reflexivity.
    + constructor; [|exact F]. split; cbn [fst snd]; [congruence|]. rewrite K3. exact P.
Qed.

(** ** The documented order *)

Lemma density_lt : forall wa aa wb ab, 0 < aa -> 0 < ab ->
  (density wb ab < density wa aa)%Q <-> wa * ab < wb * aa.
Proof.
  intros wa aa wb ab Ha Hb. unfold density. destruct aa as [|pa|pa]; try lia. destruct ab as [|pb|pb]; try lia.
  unfold Qlt, Qdiv, Qmult, Qinv, inject_Z. cbn [Qnum Qden]. rewrite !Z.mul_1_r, !Pos2Z.inj_mul, !Z.mul_1_l. lia.
Qed.

Lemma density_eq : forall wa aa wb ab, 0 < aa -> 0 < ab ->
  (density wa aa == density wb ab)%Q <-> wa * ab = wb * aa.
Proof.
  intros wa aa wb ab Ha Hb. unfold density. destruct aa as [|pa|pa]; try lia. destruct ab as [|pb|pb]; try lia.
  unfold Qeq, Qdiv, Qmult, Qinv, inject_Z. cbn [Qnum Qden]. rewrite !Z.mul_1_r, !Pos2Z.inj_mul, !Z.mul_1_l. lia.
Qed.

Lemma less_first : forall cs a b, Fits64 a -> Fits64 b -> subplate_less cs a b = true <-> Comes_first cs a b.
Proof.
  induction cs as [|c cs IH]; intros a b Ha Hb; [simpl; split; [discriminate|tauto]|]. specialize (IH a b Ha Hb).
  destruct Ha as [A1 A2]. destruct Hb as [B1 B2].
  destruct c; cbn [subplate_less Comes_first better tie].
  1,2,3: match goal with |- (if ?x =? ?y then _ else _) = _ <-> _ => destruct (Z.eqb_spec x y) end; [rewrite IH|rewrite Z.ltb_lt];
    (split; [intros; first [right; split; [assumption|assumption]|left; assumption]|intros [?|[? ?]]; [first [lia|assumption]|first [assumption|lia]]]).
  rewrite density_lt, density_eq by lia. rewrite !mul_less_exact by (change two64 with (2 ^ 64); lia).
  destruct (Z.ltb_spec (le_waste a * le_area b) (le_waste b * le_area a)).
  - split; [intros _; left; assumption|reflexivity].
  - destruct (Z.ltb_spec (le_waste b * le_area a) (le_waste a * le_area b)).
    + split; [discriminate|]. intros [?|[? _]]; lia.
    + rewrite IH. split; [intros; right; split; [lia|assumption]|]. intros [?|[_ ?]]; [lia|assumption].
Qed.

(** ** The measures *)

Lemma lengths_children : forall res cs a, 
  let r := fold_left (fun acc c => let lc := nth c res le_zero in
    mkLe (Z.max (le_1 acc) (le_2 lc)) (le_2 acc + le_1 lc) (le_waste acc + le_waste lc) (le_area acc)) cs a in
  0 <= le_1 a ->
  le_1 r = Z.max (le_1 a) (zmax_by (fun c => le_2 (nth c res le_zero)) cs)
  /\ le_2 r = le_2 a + zsum_by (fun c => le_1 (nth c res le_zero)) cs
  /\ le_waste r = le_waste a + zsum_by (fun c => le_waste (nth c res le_zero)) cs /\ le_area r = le_area a.
Proof.
  intros res. induction cs as [|c cs IH]; intros a r Ha.
  - subst r. cbn. repeat split; lia.
  - subst r. cbn [fold_left]. match goal with |- context [fold_left _ cs ?x] => specialize (IH x) end. cbv zeta in *.
    cbn [le_1 le_2 le_waste le_area] in IH. destruct IH as (I1 & I2 & I3 & I4); [lia|]. rewrite I1, I2, I3, I4.
    unfold zmax_by, zsum_by. cbn [fold_right]. repeat split; lia.
Qed.

Lemma node_lengths_ext : forall o res res' n, (forall c, In c (gn_children n) -> nth c res le_zero = nth c res' le_zero) ->
  node_lengths o res n = node_lengths o res' n.
Proof.
  intros o res res' n H. unfold node_lengths. cbv zeta. destruct (0 <=? gn_item n); [reflexivity|]. destruct (gn_item n =? -2); [|reflexivity].
  unfold lengths_of_children. generalize (mkLe 0 0 0 ((gn_r n - gn_l n) * (gn_t n - gn_b n))).
  revert H. induction (gn_children n) as [|c cs IH]; intros H a; [reflexivity|]. cbn [fold_left].
  rewrite (H c (or_introl eq_refl)). apply IH. intros c' Hc'. apply H. right. exact Hc'.
Qed.

Lemma nth_upd_le : forall (l : list Lengths) k x j, (k < length l)%nat ->
  nth j (upd k (fun _ => x) l) le_zero = if Nat.eqb k j then x else nth j l le_zero.
Proof.
  induction l as [|a l IH]; intros k x j Hk; [simpl in Hk; lia|]. destruct k, j; simpl; try reflexivity.
  apply IH. simpl in Hk. lia.
Qed.

Lemma lengths_fix : forall o ns, (forall id c, (id < length ns)%nat -> In c (gn_children (gnode ns id)) -> (id < c)%nat) ->
  forall id, (id < length ns)%nat ->
  nth id (compute_node_lengths o ns) le_zero = node_lengths o (compute_node_lengths o ns) (gnode ns id).
Proof.
  intros o ns Hc.
  assert (G : forall k, (k <= length ns)%nat -> forall res, length res = length ns ->
    (forall j, (k <= j < length ns)%nat -> nth j res le_zero = node_lengths o res (gnode ns j)) ->
    let r := fold_left (fun res id => upd id (fun _ => node_lengths o res (gnode ns id)) res) (rev (seq 0 k)) res in
    forall j, (j < length ns)%nat -> nth j r le_zero = node_lengths o r (gnode ns j)).
  { induction k as [|k IH]; intros Hk res HL HI.
    - cbn. intros j Hj. apply HI. lia.
    - rewrite seq_S, rev_app_distr. cbn [rev app plus fold_left]. apply IH; [lia|rewrite upd_length; exact HL|].
      intros j Hj. rewrite nth_upd_le by lia.
      assert (X : forall j', (k <= j' < length ns)%nat -> node_lengths o (upd k (fun _ => node_lengths o res (gnode ns k)) res) (gnode ns j') = node_lengths o res (gnode ns j')).
      { intros j' Hj'. apply node_lengths_ext. intros c Hin. specialize (Hc j' c ltac:(lia) Hin). rewrite nth_upd_le by lia.
        replace (Nat.eqb k c) with false by (symmetry; apply Nat.eqb_neq; lia). reflexivity. }
      rewrite (X j ltac:(lia)). destruct (Nat.eqb_spec k j) as [->|Hn]; [reflexivity|]. apply HI. lia. }
  intros id Hid. apply (G (length ns)); [lia|apply repeat_length|intros; lia|exact Hid].
Qed.
