(** * The cap on the number of bins *)

From Coq Require Import List ZArith QArith Qround Bool Lia Lqa Permutation.
From Verif Require Import Util Common_Model OneDim_Model ColGen_Model ColGen_Spec.
Import ListNotations.
Open Scope Z_scope.

Lemma qtrunc_floor : forall q, (0 <= q)%Q -> qtrunc q = Qfloor q.
Proof.
  intros [n d] H. unfold qtrunc, Qfloor. cbn [Qnum Qden]. unfold Qle in H. cbn in H. apply Z.quot_div_nonneg; lia.
Qed.

Lemma qtrunc_bounds : forall q, (0 <= q)%Q -> 0 <= qtrunc q /\ (inject_Z (qtrunc q) <= q)%Q /\ (q < inject_Z (qtrunc q + 1))%Q.
Proof.
  intros q H. rewrite qtrunc_floor by exact H. split; [|split; [apply Qfloor_le|apply Qlt_floor]].
  change 0 with (Qfloor (inject_Z 0)). apply Qfloor_resp_le. exact H.
Qed.

(** ** The sort *)

Definition qz_le (a b : Q * Z) : Prop := (fst a <= fst b)%Q.

Lemma qz_leb_le : forall a b, qz_leb a b = true -> qz_le a b.
Proof.
  intros a b H. unfold qz_leb in H. apply orb_true_iff in H. unfold qz_le. destruct H as [H|H].
  - unfold Qltb in H. apply negb_true_iff in H. destruct (Qlt_le_dec (fst a) (fst b)) as [G|G]; [apply Qlt_le_weak; exact G|].
    apply Qle_bool_iff in G. congruence.
  - apply andb_true_iff in H. destruct H as [H _]. apply Qeq_bool_iff in H. rewrite H. apply Qle_refl.
Qed.

Lemma qz_leb_total : forall a b, qz_leb a b = false -> qz_le b a.
Proof.
  intros a b H. unfold qz_leb in H. apply orb_false_iff in H. destruct H as [H _]. unfold qz_le, Qltb in *. apply negb_false_iff in H.
  apply Qle_bool_iff. exact H.
Qed.

Lemma qz_insert_perm : forall a l, Permutation (a :: l) (qz_insert a l).
Proof.
  intros a l. induction l as [|b l IH]; [apply Permutation_refl|]. cbn [qz_insert]. destruct (qz_leb a b); [apply Permutation_refl|].
  eapply Permutation_trans; [apply perm_swap|]. apply perm_skip. exact IH.
Qed.

Lemma qz_sort_perm : forall l, Permutation l (qz_sort l).
Proof.
  induction l as [|a l IH]; [apply Permutation_refl|]. cbn [qz_sort fold_right]. eapply Permutation_trans; [apply perm_skip, IH|].
  apply qz_insert_perm.
Qed.

(** Every element is at most every later one. *)
Fixpoint qz_sorted (l : list (Q * Z)) : Prop :=
  match l with [] => True | a :: r => (forall b, In b r -> qz_le a b) /\ qz_sorted r end.

Lemma qz_insert_sorted : forall a l, qz_sorted l -> qz_sorted (qz_insert a l).
Proof.
  intros a l. induction l as [|b l IH]; intros H; [cbn; split; [intros c []|exact I]|].
  cbn [qz_insert]. destruct H as [H1 H2]. destruct (qz_leb a b) eqn:E.
  - split; [|split; assumption]. intros c [<-|Hc]; [apply qz_leb_le; exact E|].
    apply qz_leb_le in E. unfold qz_le in *. eapply Qle_trans; [exact E|]. apply H1. exact Hc.
  - split; [|apply IH; exact H2]. intros c Hc. apply (Permutation_in _ (Permutation_sym (qz_insert_perm a l))) in Hc.
    destruct Hc as [<-|Hc]; [apply qz_leb_total; exact E|apply H1; exact Hc].
Qed.

Lemma qz_sort_sorted : forall l, qz_sorted (qz_sort l).
Proof. induction l as [|a l IH]; [exact I|]. cbn [qz_sort fold_right]. apply qz_insert_sorted. exact IH. Qed.

(** ** The greedy *)

Lemma greedy_start : forall l n b, fst (fold_left cgreedy_step l (n, b)) = n + fst (fold_left cgreedy_step l (0, b)).
Proof.
  induction l as [|[c m] l IH]; intros n b; [cbn; lia|]. cbn [fold_left cgreedy_step].
  destruct (Qle_bool c 0); rewrite IH, (IH (0 + _)); lia.
Qed.

Lemma greedy_nonneg : forall l b, (forall p, In p l -> 0 <= snd p) -> (0 <= b)%Q -> 0 <= fst (fold_left cgreedy_step l (0, b)).
Proof.
  induction l as [|[c m] l IH]; intros b Hl Hb; [cbn; lia|]. cbn [fold_left cgreedy_step].
  pose proof (Hl (c, m) (or_introl eq_refl)) as Hm. cbn [snd] in Hm.
  assert (Hl' : forall p, In p l -> 0 <= snd p) by (intros p Hp; apply Hl; right; exact Hp).
  destruct (Qle_bool c 0) eqn:E; rewrite greedy_start.
  - specialize (IH b Hl' Hb). lia.
  - assert (Hc : (0 < c)%Q) by (destruct (Qlt_le_dec 0 c) as [G|G]; [exact G|apply Qle_bool_iff in G; congruence]).
    assert (Hq : (0 <= b / c)%Q) by (apply Qle_shift_div_l; [exact Hc|lra]).
    destruct (qtrunc_bounds _ Hq) as (H1 & H2 & _).
    assert (Ht : (inject_Z (Z.min m (qtrunc (b / c))) * c <= b)%Q).
    { apply Qle_trans with (inject_Z (qtrunc (b / c)) * c)%Q.
      - apply Qmult_le_compat_r; [rewrite <- Zle_Qle; lia|lra].
      - apply Qle_trans with ((b / c) * c)%Q; [apply Qmult_le_compat_r; lra|]. field_simplify; [lra|lra]. }
    assert (Hb' : (0 <= b - inject_Z (Z.min m (qtrunc (b / c))) * c)%Q) by lra.
    specialize (IH _ Hl' Hb'). lia.
Qed.

(** Taking [o] copies at a total cost of at most [b + s * c0], where [c0] is at
    most every cost, never takes more than [s] bins more than the greedy. *)
Lemma greedy_best : forall l (o : list Z) b s c0,
  qz_sorted l -> (forall p, In p l -> (c0 <= fst p)%Q /\ 0 <= snd p) -> (0 <= c0)%Q -> 0 <= s -> (0 <= b)%Q ->
  Forall2 (fun x p => 0 <= x <= snd p) o l ->
  (qsum (fun xp => inject_Z (fst xp) * fst (snd xp)) (combine o l) <= b + inject_Z s * c0)%Q ->
  zsum (fun x => x) o <= fst (fold_left cgreedy_step l (0, b)) + s.
Proof.
  induction l as [|[c m] l IH]; intros o b s c0 Hs Hl H0 Hss Hb HF HC; inversion HF as [|x p o' l' Hx HF']; subst.
  { cbn. lia. }
  cbn [combine] in HC. rewrite qsum_cons in HC. cbn [fst snd] in HC, Hx. rewrite zsum_cons.
  destruct (Hl (c, m) (or_introl eq_refl)) as [Hc Hm]. cbn [fst snd] in Hc, Hm. destruct Hs as [Hs1 Hs2].
  assert (Hl' : forall p, In p l -> (c <= fst p)%Q /\ 0 <= snd p).
  { intros p Hp. split; [apply (Hs1 p Hp)|apply Hl; right; exact Hp]. }
  assert (Hs0 : (0 <= inject_Z s)%Q) by (change 0%Q with (inject_Z 0); rewrite <- Zle_Qle; exact Hss).
  assert (Hsc : (inject_Z s * c0 <= inject_Z s * c)%Q).
  { setoid_rewrite Qmult_comm. apply Qmult_le_compat_r; assumption. }
  set (rest := qsum (fun xp => inject_Z (fst xp) * fst (snd xp))%Q (combine o' l)) in *.
  cbn [fold_left cgreedy_step]. destruct (Qle_bool c 0) eqn:E; rewrite greedy_start.
  - apply Qle_bool_iff in E. assert (Ec : (c == 0)%Q) by lra.
    assert (HR : (rest <= b + inject_Z (s + (m - x)) * c)%Q).
    { assert (G1 : (inject_Z x * c == 0)%Q) by (rewrite Ec; ring). assert (G2 : (inject_Z s * c == 0)%Q) by (rewrite Ec; ring).
      assert (G3 : (inject_Z (s + (m - x)) * c == 0)%Q) by (rewrite Ec; ring). lra. }
    specialize (IH o' b (s + (m - x)) c Hs2 Hl' ltac:(lra) ltac:(lia) Hb HF' HR). lia.
  - assert (Hc0 : (0 < c)%Q) by (destruct (Qlt_le_dec 0 c) as [G|G]; [exact G|apply Qle_bool_iff in G; congruence]).
    assert (Hq : (0 <= b / c)%Q) by (apply Qle_shift_div_l; [exact Hc0|lra]).
    destruct (qtrunc_bounds _ Hq) as (H1 & H2 & H3). set (f := qtrunc (b / c)) in *. set (t := Z.min m f).
    assert (Hf1 : (inject_Z f * c <= b)%Q).
    { apply Qle_trans with ((b / c) * c)%Q; [apply Qmult_le_compat_r; lra|]. field_simplify; [lra|lra]. }
    assert (Hf2 : (b < (inject_Z f + 1) * c)%Q).
    { rewrite inject_Z_plus in H3. change (inject_Z 1) with 1%Q in H3.
      apply Qle_lt_trans with ((b / c) * c)%Q; [field_simplify; [lra|lra]|]. apply Qmult_lt_compat_r; assumption. }
    assert (Ht : (inject_Z t * c <= b)%Q).
    { apply Qle_trans with (inject_Z f * c)%Q; [|exact Hf1]. apply Qmult_le_compat_r; [rewrite <- Zle_Qle; unfold t; lia|lra]. }
    assert (Hg : 0 <= fst (fold_left cgreedy_step l (0, (b - inject_Z t * c)%Q))).
    { apply greedy_nonneg; [intros p Hp; apply Hl'; exact Hp|lra]. }
    destruct (Z_le_gt_dec x t) as [Hxt|Hxt].
    + assert (HR : (rest <= (b - inject_Z t * c) + inject_Z (s + (t - x)) * c)%Q).
      { rewrite inject_Z_plus. unfold Z.sub. rewrite inject_Z_plus, inject_Z_opp. lra. }
      specialize (IH o' (b - inject_Z t * c)%Q (s + (t - x)) c Hs2 Hl' ltac:(lra) ltac:(lia) ltac:(lra) HF' HR). lia.
    + assert (Etf : t = f) by (unfold t in *; lia).
      assert (HR : (inject_Z (zsum (fun x => x) o') * c <= rest)%Q).
      { clear - HF' Hl' Hc0. unfold rest. induction HF' as [|y p o l Hy H IHo].
        - cbn. change (inject_Z 0) with 0%Q. lra.
        - cbn [combine]. rewrite zsum_cons, qsum_cons, inject_Z_plus. cbn [fst snd].
          assert (G : (inject_Z y * c <= inject_Z y * fst p)%Q).
          { setoid_rewrite Qmult_comm. apply Qmult_le_compat_r; [apply (Hl' p (or_introl eq_refl))|].
            change 0%Q with (inject_Z 0). rewrite <- Zle_Qle. lia. }
          specialize (IHo (fun q Hq => Hl' q (or_intror Hq))). lra. }
      assert (HL : (inject_Z (x + zsum (fun x => x) o') * c < inject_Z (t + 1 + s) * c)%Q).
      { rewrite Etf. rewrite !inject_Z_plus. change (inject_Z 1) with 1%Q. lra. }
      apply Qmult_lt_r in HL; [|exact Hc0]. rewrite <- Zlt_Qlt in HL. lia.
Qed.

(** ** The bins of a solution, by type *)

Lemma qsum_pick : forall n k (h : nat -> Q), (k < n)%nat ->
  (qsum (fun t => if (k =? t)%nat then h t else 0) (seq 0 n) == h k)%Q.
Proof.
  intros n k h. revert k. induction n as [|n IH]; intros k H; [lia|]. rewrite seq_S, qsum_snoc. cbn [plus].
  destruct (Nat.eq_dec k n) as [->|Hn].
  - rewrite Nat.eqb_refl, qsum_zero; [ring|]. intros t Ht. apply in_seq in Ht. rewrite (proj2 (Nat.eqb_neq n t)) by lia. reflexivity.
  - rewrite IH by lia. rewrite (proj2 (Nat.eqb_neq k n)) by exact Hn. ring.
Qed.

Lemma by_type : forall n (h : nat -> Q) (bins : CBins), (forall b, In b bins -> (b_type b < n)%nat) ->
  (qsum (fun b => inject_Z (b_copies b) * h (b_type b)) bins
   == qsum (fun t => inject_Z (used_bins bins t) * h t) (seq 0 n))%Q.
Proof.
  intros n h. induction bins as [|b bins IH]; intros H.
  - rewrite qsum_zero; [|intros b []]. symmetry. apply qsum_zero. intros t _. unfold used_bins. rewrite zsum_nil.
    change (inject_Z 0) with 0%Q. ring.
  - rewrite qsum_cons, IH by (intros c Hc; apply H; right; exact Hc).
    rewrite (qsum_ext _ (fun t => inject_Z (used_bins (b :: bins) t) * h t)%Q
      (fun t => (if (b_type b =? t)%nat then inject_Z (b_copies b) * h t else 0) + inject_Z (used_bins bins t) * h t)%Q).
    + rewrite qsum_plus, (qsum_pick n (b_type b) (fun t => inject_Z (b_copies b) * h t)%Q); [reflexivity|]. apply H. left. reflexivity.
    + intros t _. unfold used_bins at 1. rewrite zsum_cons, inject_Z_plus. fold (used_bins bins t).
      destruct (b_type b =? t)%nat; [|change (inject_Z 0) with 0%Q]; ring.
Qed.

Lemma by_type_z : forall n (bins : CBins), (forall b, In b bins -> (b_type b < n)%nat) ->
  total_bins bins = zsum (used_bins bins) (seq 0 n).
Proof.
  intros n bins H. pose proof (by_type n (fun _ => 1%Q) bins H) as E.
  rewrite (qsum_ext _ (fun b => inject_Z (b_copies b) * 1)%Q (fun b => inject_Z (b_copies b))) in E by (intros; ring).
  rewrite (qsum_ext _ (fun t => inject_Z (used_bins bins t) * 1)%Q (fun t => inject_Z (used_bins bins t))) in E by (intros; ring).
  rewrite !qsum_inject in E. unfold Qeq in E. cbn in E. unfold total_bins. lia.
Qed.

Lemma filled_total : forall bins : CBins, (forall b, In b bins -> 0 <= b_copies b) -> filled_bins bins <= total_bins bins.
Proof.
  intros bins H. unfold filled_bins, total_bins. apply zsum_le. intros b Hb. specialize (H b Hb). destruct (b_items b); lia.
Qed.

(** Every filled bin holds an item. *)
Lemma filled_items : forall n bins, (forall b, In b bins -> 0 <= b_copies b /\ forall x, In x (b_items b) -> (x < n)%nat) ->
  filled_bins bins <= zsum (used_items bins) (seq 0 n).
Proof.
  intros n. induction bins as [|b bins IH]; intros H.
  - unfold filled_bins. rewrite zsum_nil. apply zsum_nonneg. intros x _. unfold used_items. rewrite zsum_nil. lia.
  - unfold filled_bins. rewrite zsum_cons. fold (filled_bins bins).
    rewrite (zsum_ext _ (used_items (b :: bins)) (fun x => b_copies b * occ (b_items b) x + used_items bins x))
      by (intros x _; unfold used_items; rewrite zsum_cons; reflexivity).
    rewrite zsum_plus. specialize (IH (fun c Hc => H c (or_intror Hc))).
    destruct (H b (or_introl eq_refl)) as [Hb Hx].
    assert (G : (match b_items b with [] => 0 | _ => b_copies b end) <= zsum (fun x => b_copies b * occ (b_items b) x) (seq 0 n)).
    { destruct (b_items b) as [|y l] eqn:E.
      - apply zsum_nonneg. intros x _. unfold occ. nia.
      - assert (Hy : In y (seq 0 n)) by (apply in_seq; specialize (Hx y (or_introl eq_refl)); lia).
        apply in_split in Hy. destruct Hy as (l1 & l2 & ->). rewrite zsum_app, zsum_cons.
        assert (G1 : 0 <= zsum (fun x => b_copies b * occ (y :: l) x) l1) by (apply zsum_nonneg; intros x _; unfold occ; nia).
        assert (G2 : 0 <= zsum (fun x => b_copies b * occ (y :: l) x) l2) by (apply zsum_nonneg; intros x _; unfold occ; nia).
        assert (G3 : 1 <= occ (y :: l) y) by (unfold occ; rewrite count_occ_cons_eq by reflexivity; lia). nia. }
    lia.
Qed.

(** ** The cap *)

Lemma budget_fold : forall bins b, (fold_left (fun r b => r - cb_cost b * inject_Z (cb_copies_min b)) bins b
  == b - qsum (fun b => inject_Z (cb_copies_min b) * cb_cost b) bins)%Q.
Proof.
  induction bins as [|c bins IH]; intros b; [cbn; ring|]. cbn [fold_left]. rewrite IH, qsum_cons. ring.
Qed.

(** The optional bins with the number taken. *)
Definition taken (e : Z * CBin) : list (Z * (Q * Z)) :=
  let copies := cb_copies (snd e) - cb_copies_min (snd e) in
  if 0 <? copies then [(fst e - cb_copies_min (snd e), (cb_cost (snd e), copies))] else [].

Lemma taken_facts : forall ns bins, Forall2 (fun n b => cb_copies_min b <= n <= cb_copies b) ns bins ->
  map snd (flat_map taken (combine ns bins)) = flat_map (fun b =>
    let copies := cb_copies b - cb_copies_min b in if 0 <? copies then [(cb_cost b, copies)] else []) bins
  /\ zsum (fun x => x) ns = zsum cb_copies_min bins + zsum fst (flat_map taken (combine ns bins))
  /\ (qsum (fun e => inject_Z (fst e) * cb_cost (snd e)) (combine ns bins)
      == qsum (fun b => inject_Z (cb_copies_min b) * cb_cost b) bins
         + qsum (fun e => inject_Z (fst e) * fst (snd e)) (flat_map taken (combine ns bins)))%Q
  /\ (forall e, In e (flat_map taken (combine ns bins)) -> 0 <= fst e <= snd (snd e) /\ exists b, In b bins /\ fst (snd e) = cb_cost b).
Proof.
  intros ns bins H. induction H as [|n b ns bins Hn H IH].
  - split; [reflexivity|]. split; [reflexivity|]. split; [cbn; ring|]. intros e [].
  - destruct IH as (I1 & I2 & I3 & I4). cbn [combine flat_map]. rewrite map_app, I1, !zsum_cons, I2, zsum_app.
    repeat rewrite qsum_cons. rewrite I3, qsum_app. assert (ET : taken (n, b) = if 0 <? cb_copies b - cb_copies_min b then [(n - cb_copies_min b, (cb_cost b, cb_copies b - cb_copies_min b))] else [])
      by reflexivity. cbv zeta. cbn [fst snd].
    destruct (Z.ltb_spec 0 (cb_copies b - cb_copies_min b)) as [Hc|Hc]; rewrite ET.
    + split; [reflexivity|]. split; [rewrite zsum_cons; cbn [fst]; rewrite zsum_nil; lia|]. split.
      * cbn [qsum fold_right fst snd]. unfold Z.sub. rewrite inject_Z_plus, inject_Z_opp. ring.
      * intros e He. cbn [app] in He. destruct He as [<-|He]; cbn [fst snd].
        -- split; [lia|]. exists b. split; [left; reflexivity|reflexivity].
        -- destruct (I4 e He) as [J1 (c & J2 & J3)]. split; [exact J1|]. exists c. split; [right; exact J2|exact J3].
    + split; [reflexivity|]. split; [rewrite zsum_nil; lia|]. split.
      * assert (n = cb_copies_min b) by lia. subst n.
        change (qsum (fun e : Z * (Q * Z) => inject_Z (fst e) * fst (snd e))%Q []) with 0%Q. ring.
      * intros e He. cbn [app] in He. destruct (I4 e He) as [J1 (c & J2 & J3)]. split; [exact J1|]. exists c. split; [right; exact J2|exact J3].
Qed.

Lemma forall2_seq : forall (P : Z -> CBin -> Prop) (f : nat -> Z) bins d,
  (forall t, (t < length bins)%nat -> P (f t) (nth t bins d)) -> Forall2 P (map f (seq 0 (length bins))) bins.
Proof.
  intros P f bins d H. revert f H. induction bins as [|b bins IH]; intros f H; [constructor|]. cbn [length seq map]. constructor.
  - apply (H 0%nat). cbn. lia.
  - rewrite <- seq_shift, map_map. apply IH. intros t Ht. apply (H (S t)). cbn. lia.
Qed.

Lemma combine_seq_sum : forall (f : nat -> Z) (g : CBin -> Q) bins d,
  (qsum (fun e => inject_Z (fst e) * g (snd e)) (combine (map f (seq 0 (length bins))) bins)
   == qsum (fun t => inject_Z (f t) * g (nth t bins d)) (seq 0 (length bins)))%Q.
Proof.
  intros f g bins d. revert f. induction bins as [|b bins IH]; intros f; [cbn; ring|]. cbn [length seq map combine].
  rewrite !qsum_cons. cbn [fst snd]. rewrite <- seq_shift, map_map, IH, qsum_map. reflexivity.
Qed.

Theorem cap_bound : forall i bins best, within_copies i bins -> (total_cost i bins <= best)%Q ->
  (forall b, In b (cn_bins i) -> (0 <= cb_cost b)%Q) ->
  filled_bins bins <= cmaximum_number_of_bins i best.
Proof.
  intros i bins best HW HC Hpos. pose proof HW as [W1 W2 W3].
  assert (HT : forall b, In b bins -> (b_type b < cnb i)%nat) by (intros b Hb; apply W1; exact Hb).
  unfold cmaximum_number_of_bins. cbv zeta. apply Z.min_glb.
  2:{ assert (G : filled_bins bins <= zsum (used_items bins) (seq 0 (cni i))).
      { apply filled_items. intros b Hb. destruct (W1 b Hb) as (_ & A & B). split; assumption. }
      unfold cnumber_of_items. 
      assert (G2 : zsum ci_copies (cn_items i) = zsum (fun x => ci_copies (citem i x)) (seq 0 (cni i))).
      { unfold citem, cni. generalize (mkCI 0 0 0 0). clear. induction (cn_items i) as [|a l IH]; intros d; [reflexivity|].
        cbn [length seq]. rewrite !zsum_cons. cbn [nth]. f_equal. rewrite <- seq_shift, zsum_map. apply IH. }
      rewrite G2. eapply Z.le_trans; [exact G|]. apply zsum_le. intros x Hx. apply in_seq in Hx. apply W3. lia. }
  set (ns := map (used_bins bins) (seq 0 (length (cn_bins i)))).
  assert (HF : Forall2 (fun n b => cb_copies_min b <= n <= cb_copies b) ns (cn_bins i)).
  { apply forall2_seq with (d := mkCB 0 0 0 []). intros t Ht. apply W2. exact Ht. }
  destruct (taken_facts _ _ HF) as (F1 & F2 & F3 & F4). cbv zeta in F1. rewrite <- F1. set (L := flat_map taken (combine ns (cn_bins i))) in *.
  destruct (Permutation_map_inv snd _ (Permutation_sym (qz_sort_perm (map snd L)))) as (L' & EL & PL).
  rewrite EL. rewrite greedy_start.
  assert (EN : total_bins bins = zsum (fun x => x) ns).
  { unfold ns. rewrite zsum_map. apply by_type_z. exact HT. }
  assert (EC : (qsum (fun e => inject_Z (fst e) * cb_cost (snd e)) (combine ns (cn_bins i)) == total_cost i bins)%Q).
  { unfold ns. rewrite combine_seq_sum with (d := mkCB 0 0 0 []). unfold total_cost. rewrite (by_type (cnb i) (fun t => cb_cost (cbin i t)) bins HT). reflexivity. }
  assert (HL : forall e, In e L' -> 0 <= fst e <= snd (snd e) /\ (0 <= fst (snd e))%Q).
  { intros e He. apply (Permutation_in _ (Permutation_sym PL)) in He. destruct (F4 e He) as [A (b & Hb & Eb)]. split; [exact A|]. rewrite Eb. apply Hpos. exact Hb. }
  assert (HS : (0 <= qsum (fun e => inject_Z (fst e) * fst (snd e)) L)%Q).
  { apply qsum_nonneg. intros e He. apply (Permutation_in _ PL) in He. destruct (HL e He) as [[A _] B]. apply Qmult_le_0_compat; [|exact B].
    change 0%Q with (inject_Z 0). rewrite <- Zle_Qle. exact A. }
  set (budget := fold_left (fun r b => (r - cb_cost b * inject_Z (cb_copies_min b))%Q) (cn_bins i) best).
  assert (HB : (qsum (fun e => inject_Z (fst e) * fst (snd e)) L <= budget)%Q).
  { unfold budget. rewrite budget_fold. rewrite <- EC, F3 in HC. lra. }
  assert (HB0 : Qltb budget 0 = false).
  { unfold Qltb. apply negb_false_iff, Qle_bool_iff. lra. }
  rewrite HB0.
  assert (HBest : zsum fst L' <= fst (fold_left cgreedy_step (map snd L') (0, budget)) + 0).
  { replace (zsum fst L') with (zsum (fun x : Z => x) (map fst L')) by (rewrite zsum_map; reflexivity).
    apply greedy_best with (c0 := 0%Q).
    - rewrite <- EL. apply qz_sort_sorted.
    - intros p Hp. apply in_map_iff in Hp. destruct Hp as (e & <- & He). destruct (HL e He) as [A B]. split; [exact B|lia].
    - lra.
    - lia.
    - lra.
    - clear - HL. induction L' as [|e L' IH]; [constructor|]. cbn [map]. constructor; [apply (HL e (or_introl eq_refl))|].
      apply IH. intros d Hd. apply HL. right. exact Hd.
    - assert (EQ : combine (map fst L') (map snd L') = L') by (clear; induction L' as [|[a b] l IH]; [reflexivity|cbn; rewrite IH; reflexivity]).
      rewrite EQ, (qsum_perm _ _ _ _ (Permutation_sym PL)). change (inject_Z 0) with 0%Q. lra. }
  assert (HPL : zsum fst L' = zsum fst L) by (apply zsum_perm, Permutation_sym, PL).
  assert (HFT : filled_bins bins <= total_bins bins) by (apply filled_total; intros b Hb; apply W1; exact Hb).
  lia.
Qed.
