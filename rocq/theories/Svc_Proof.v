(** * Proofs about sequential value correction *)

From Coq Require Import List ZArith QArith Bool Lia Lqa Permutation.
From Verif Require Import Util Common_Model OneDim_Model ColGen_Model ColGen_Spec ColGenCap_Proof ColGenPrice_Proof Svc_Model Svc_Spec.
Import ListNotations.
Open Scope Z_scope.

(** ** Sums over bins *)

Lemma used_bins_snoc : forall s b t, used_bins (s ++ [b]) t = used_bins s t + (if (b_type b =? t)%nat then b_copies b else 0).
Proof. intros s b t. unfold used_bins. rewrite zsum_snoc. reflexivity. Qed.
Lemma used_items_snoc : forall s b x, used_items (s ++ [b]) x = used_items s x + b_copies b * occ (b_items b) x.
Proof. intros s b x. unfold used_items. rewrite zsum_snoc. reflexivity. Qed.
Lemma total_bins_snoc : forall s b, total_bins (s ++ [b]) = total_bins s + b_copies b.
Proof. intros s b. unfold total_bins. rewrite zsum_snoc. reflexivity. Qed.

Lemma fixed_by_type : forall n (h : nat -> Z) (bins : CBins), (forall b, In b bins -> (b_type b < n)%nat) ->
  zsum (fun b => b_copies b * h (b_type b)) bins = zsum (fun t => used_bins bins t * h t) (seq 0 n).
Proof.
  intros n h bins H. pose proof (by_type n (fun t => inject_Z (h t)) bins H) as E.
  rewrite (qsum_ext _ (fun b => inject_Z (b_copies b) * inject_Z (h (b_type b)))%Q (fun b => inject_Z (b_copies b * h (b_type b)))) in E
    by (intros; rewrite inject_Z_mult; reflexivity).
  rewrite (qsum_ext _ (fun t => inject_Z (used_bins bins t) * inject_Z (h t))%Q (fun t => inject_Z (used_bins bins t * h t))) in E
    by (intros; rewrite inject_Z_mult; reflexivity).
  rewrite !qsum_inject in E. unfold Qeq in E. cbn in E. lia.
Qed.

(** ** The number of copies of a pattern *)

Section One.
Variables (i : SInst) (s : CBins) (pf : nat -> Z) (t : nat).

Definition sc_step (n : Z) (xp : nat * Z) : Z :=
  let p := snd xp - sfixed i t (fst xp) in
  if 0 <? p then Z.min n (Z.quot (sfree i s pf (fst xp)) p) else n.

Lemma scopies_fold : forall packed, scopies i s pf t packed = fold_left sc_step packed (cb_copies (cbin (si_base i) t) - used_bins s t).
Proof. reflexivity. Qed.

Lemma sc_le : forall packed n0, fold_left sc_step packed n0 <= n0.
Proof.
  induction packed as [|xp packed IH]; intro n0; [cbn; lia|]. cbn [fold_left]. eapply Z.le_trans; [apply IH|].
  unfold sc_step. destruct (0 <? snd xp - sfixed i t (fst xp)); lia.
Qed.

Lemma sc_items : forall packed n0 x p, In (x, p) packed -> 0 < p - sfixed i t x ->
  fold_left sc_step packed n0 <= Z.quot (sfree i s pf x) (p - sfixed i t x).
Proof.
  induction packed as [|xp packed IH]; intros n0 x p Hin Hp; [destruct Hin|]. cbn [fold_left]. destruct Hin as [->|Hin]; [|apply IH; assumption].
  eapply Z.le_trans; [apply sc_le|]. unfold sc_step. cbn [fst snd]. apply Z.ltb_lt in Hp. rewrite Hp. lia.
Qed.

Lemma sc_one : forall packed n0, 1 <= n0 ->
  (forall x p, In (x, p) packed -> 0 < p - sfixed i t x -> p - sfixed i t x <= sfree i s pf x) -> 1 <= fold_left sc_step packed n0.
Proof.
  induction packed as [|xp packed IH]; intros n0 H0 H; [exact H0|]. cbn [fold_left]. apply IH; [|intros x p Hin; apply H; right; exact Hin].
  unfold sc_step. destruct (Z.ltb_spec 0 (snd xp - sfixed i t (fst xp))) as [Hp|Hp]; [|exact H0].
  assert (Hf := H (fst xp) (snd xp) ltac:(left; destruct xp; reflexivity) Hp).
  apply Z.min_glb; [exact H0|]. apply Z.quot_le_lower_bound; lia.
Qed.

Lemma quot_mul : forall n a b, 1 <= n -> 0 < b -> n <= Z.quot a b -> n * b <= a.
Proof.
  intros n a b Hn Hb H. assert (Ha : 0 <= a).
  { destruct (Z.le_gt_cases 0 a) as [K|K]; [exact K|]. exfalso.
    assert (Z.quot a b <= 0). { rewrite <- (Z.opp_involutive a), Z.quot_opp_l by lia. pose proof (Z.quot_pos (- a) b ltac:(lia) Hb). lia. } lia. }
  pose proof (Z.mul_quot_le a b Ha ltac:(lia)). nia.
Qed.

(** What the guard of :305 and :449 gives. *)
Lemma scopies_spec : forall packed, 1 <= scopies i s pf t packed ->
  scopies i s pf t packed <= cb_copies (cbin (si_base i) t) - used_bins s t
  /\ forall x p, In (x, p) packed -> 0 <= sfree i s pf x -> scopies i s pf t packed * (p - sfixed i t x) <= sfree i s pf x.
Proof.
  intros packed H1. rewrite scopies_fold in *. split; [apply sc_le|]. intros x p Hin Hf.
  destruct (Z.le_gt_cases (p - sfixed i t x) 0) as [K|K]; [nia|].
  apply quot_mul; [exact H1|exact K|]. apply sc_items; assumption.
Qed.
End One.

(** ** Sub-problems *)

Lemma flat_single_ids : forall (g : nat -> Z) l,
  map fst (flat_map (fun x => if g x <=? 0 then [] else [(x, g x)]) l) = filter (fun x => negb (g x <=? 0)) l.
Proof.
  intros g. induction l as [|x l IH]; [reflexivity|]. cbn [flat_map filter]. rewrite map_app, IH. destruct (g x <=? 0); reflexivity.
Qed.

Lemma skp_ids : forall i s pf t, sk_ids (skp i s pf t) = filter (fun x => negb (sfree i s pf x + sfixed i t x <=? 0)) (seq 0 (cni (si_base i))).
Proof. intros. unfold sk_ids, skp. cbn [sk_items]. apply (flat_single_ids (fun x => sfree i s pf x + sfixed i t x)). Qed.

Lemma skp_nodup : forall i s pf t, NoDup (sk_ids (skp i s pf t)).
Proof. intros. rewrite skp_ids. apply NoDup_filter. apply seq_NoDup. Qed.

Lemma skp_range : forall i s pf t x, In x (sk_ids (skp i s pf t)) -> (x < cni (si_base i))%nat.
Proof. intros i s pf t x H. rewrite skp_ids in H. apply filter_In in H. destruct H as [H _]. apply in_seq in H. lia. Qed.

Lemma skp_in : forall i s pf t x c, In (x, c) (sk_items (skp i s pf t)) <-> (x < cni (si_base i))%nat /\ 0 < c /\ c = sfree i s pf x + sfixed i t x.
Proof.
  intros i s pf t x c. cbn [skp sk_items]. rewrite in_flat_map. split.
  - intros (y & Hy & H). cbv zeta in H. apply in_seq in Hy. destruct (Z.leb_spec (sfree i s pf y + sfixed i t y) 0) as [K|K]; [destruct H|].
    destruct H as [H|[]]. injection H as <- <-. repeat split; lia.
  - intros (Hx & Hc & ->). exists x. split; [apply in_seq; lia|]. cbv zeta. destruct (Z.leb_spec (sfree i s pf x + sfixed i t x) 0); [lia|left; reflexivity].
Qed.

Lemma skp_length : forall i s pf t, length (sk_items (skp i s pf t)) = length (sk_ids (skp i s pf t)).
Proof. intros. unfold sk_ids. rewrite map_length. reflexivity. Qed.

(** ** Order of the bins *)

Lemma space_insert_perm : forall i a l, Permutation (a :: l) (space_insert i a l).
Proof.
  intros i a. induction l as [|b l IH]; [reflexivity|]. cbn [space_insert]. destruct (sspace i b <? sspace i a); [|reflexivity].
  rewrite perm_swap. constructor. exact IH.
Qed.

Lemma sorder_perm : forall i, Permutation (seq 0 (cnb (si_base i))) (sorder i).
Proof.
  intro i. unfold sorder. assert (P : forall l, Permutation l (fold_right (space_insert i) [] l)).
  { induction l as [|a l IH]; [reflexivity|]. cbn [fold_right]. rewrite IH at 1. apply space_insert_perm. }
  destruct (cn_objective (si_base i)); try reflexivity. apply P.
Qed.

Lemma spositions_length : forall i, (forall t, (t < cnb (si_base i))%nat -> 0 <= cb_copies (cbin (si_base i) t)) ->
  Z.of_nat (length (spositions i)) = cnumber_of_bins (si_base i).
Proof.
  intros i H. unfold spositions, cnumber_of_bins.
  assert (E : forall l, (forall t, In t l -> (t < cnb (si_base i))%nat) ->
     Z.of_nat (length (flat_map (fun t => repeat t (Z.to_nat (cb_copies (cbin (si_base i) t)))) l)) = zsum (fun t => cb_copies (cbin (si_base i) t)) l).
  { induction l as [|t l IH]; intros Hl; [reflexivity|]. cbn [flat_map]. rewrite app_length, repeat_length, zsum_cons, Nat2Z.inj_add, IH by (intros; apply Hl; right; assumption).
    rewrite Z2Nat.id; [lia|]. apply H. apply Hl. left. reflexivity. }
  rewrite E.
  - rewrite <- (zsum_perm _ _ _ _ (sorder_perm i)). unfold cnb, cbin. set (d := mkCB 0 0 0 []).
    rewrite <- (zsum_map _ _ (fun t => nth t (cn_bins (si_base i)) d) cb_copies). f_equal.
    apply nth_ext with (d := d) (d' := d); [rewrite map_length, seq_length; reflexivity|]. rewrite map_length, seq_length. intros n Hn.
    set (F := fun t => nth t (cn_bins (si_base i)) d). assert (Ed : nth n (map F (seq 0 (length (cn_bins (si_base i))))) d = F (nth n (seq 0 (length (cn_bins (si_base i)))) O)).
    { rewrite <- (map_nth F). apply nth_indep. rewrite map_length, seq_length. exact Hn. }
    rewrite Ed, seq_nth by exact Hn. reflexivity.
  - intros t Ht. apply (Permutation_in _ (Permutation_sym (sorder_perm i))) in Ht. apply in_seq in Ht. lia.
Qed.

(** A prefix of blocks of equal entries can be extended by the entry that
    follows it, as long as copies are left. *)
Lemma occ_repeat : forall a n x, occ (repeat a n) x = if (a =? x)%nat then Z.of_nat n else 0.
Proof.
  intros a n x. induction n as [|n IH]; [cbn; destruct (a =? x)%nat; reflexivity|]. cbn [repeat]. rewrite occ_cons, IH. destruct (a =? x)%nat; lia.
Qed.

Lemma blocks_extend : forall (f : nat -> nat) order p rest t m,
  NoDup order -> flat_map (fun a => repeat a (f a)) order = p ++ rest -> nth_error rest 0 = Some t ->
  Z.of_nat m <= Z.of_nat (f t) - occ p t -> exists rest', flat_map (fun a => repeat a (f a)) order = p ++ repeat t m ++ rest'.
Proof.
  intros f. induction order as [|a order IH]; intros p rest t m ND E Ht Hm.
  - cbn in E. symmetry in E. apply app_eq_nil in E. destruct E as [_ ->]. discriminate.
  - inversion ND as [|? ? Na ND']; subst. cbn [flat_map] in *.
    assert (Hout : ~ In a (flat_map (fun a => repeat a (f a)) order)).
    { intro K. apply in_flat_map in K. destruct K as (b & Hb & K). apply repeat_spec in K. subst. contradiction. }
    destruct (Nat.le_gt_cases (f a) (length p)) as [L|L].
    + (* the block of a is inside p *)
      assert (Ep : exists p', p = repeat a (f a) ++ p').
      { exists (skipn (f a) p). rewrite <- (firstn_skipn (f a) p) at 1. f_equal.
        assert (K : firstn (f a) (repeat a (f a) ++ flat_map (fun a => repeat a (f a)) order) = firstn (f a) (p ++ rest)) by (rewrite E; reflexivity).
        rewrite firstn_app, repeat_length, Nat.sub_diag, firstn_O, app_nil_r in K. rewrite firstn_all2 in K by (rewrite repeat_length; lia).
        rewrite firstn_app in K. replace (f a - length p)%nat with O in K by lia. rewrite firstn_O, app_nil_r in K. symmetry. exact K. }
      destruct Ep as [p' ->]. rewrite <- app_assoc in E. apply app_inv_head in E.
      assert (Hta : a <> t).
      { intro; subst t. apply Hout. rewrite E. apply in_or_app. right. destruct rest as [|r rest]; [discriminate|]. injection Ht as ->. left. reflexivity. }
      rewrite occ_app, occ_repeat in Hm. rewrite (proj2 (Nat.eqb_neq _ _) Hta) in Hm.
      destruct (IH p' rest t m ND' E Ht ltac:(lia)) as [rest' E']. exists rest'. rewrite E', <- app_assoc. reflexivity.
    + (* p stops inside the block of a *)
      assert (Ep : p = repeat a (length p)).
      { assert (K : firstn (length p) (repeat a (f a) ++ flat_map (fun a => repeat a (f a)) order) = firstn (length p) (p ++ rest)) by (rewrite E; reflexivity).
        rewrite firstn_app, repeat_length in K. replace (length p - f a)%nat with O in K by lia. rewrite firstn_O, app_nil_r in K.
        rewrite firstn_app, Nat.sub_diag, firstn_O, app_nil_r, firstn_all in K. rewrite <- K at 1.
        replace (f a) with (length p + (f a - length p))%nat by lia. rewrite repeat_app, firstn_app, repeat_length, Nat.sub_diag, firstn_O, app_nil_r.
        rewrite firstn_all2; [reflexivity|rewrite repeat_length; lia]. }
      assert (Hta : a = t).
      { rewrite Ep in E. replace (f a) with (length p + S (f a - length p - 1))%nat in E by lia. rewrite repeat_app, <- app_assoc in E. apply app_inv_head in E.
        cbn [repeat app] in E. destruct rest as [|r rest]; [discriminate|]. injection E as -> _. cbn in Ht. congruence. }
      subst t. rewrite Ep in Hm. rewrite occ_repeat, Nat.eqb_refl in Hm.
      exists (repeat a (f a - length p - m) ++ flat_map (fun a => repeat a (f a)) order). rewrite Ep at 1.
      replace (f a) with (length p + (m + (f a - length p - m)))%nat at 1 by lia. rewrite !repeat_app, <- !app_assoc. reflexivity.
Qed.

Lemma expand_snoc : forall s b, expand (s ++ [b]) = expand s ++ repeat (b_type b) (Z.to_nat (b_copies b)).
Proof. intros s b. unfold expand. rewrite flat_map_app. cbn [flat_map]. rewrite app_nil_r. reflexivity. Qed.

Lemma expand_occ : forall s t, (forall b, In b s -> 0 <= b_copies b) -> occ (expand s) t = used_bins s t.
Proof.
  induction s as [|b s IH]; intros t H; [reflexivity|]. unfold expand, used_bins in *. cbn [flat_map]. rewrite occ_app, occ_repeat, zsum_cons, IH by (intros; apply H; right; assumption).
  destruct (b_type b =? t)%nat; [|reflexivity]. rewrite Z2Nat.id; [reflexivity|]. apply H. left. reflexivity.
Qed.

Lemma expand_length : forall s, (forall b, In b s -> 0 <= b_copies b) -> Z.of_nat (length (expand s)) = total_bins s.
Proof.
  induction s as [|b s IH]; intros H; [reflexivity|]. unfold expand, total_bins in *. cbn [flat_map]. rewrite app_length, repeat_length, zsum_cons, Nat2Z.inj_add, IH by (intros; apply H; right; assumption).
  rewrite Z2Nat.id; [reflexivity|]. apply H. left. reflexivity.
Qed.
