(** * The items met when a cutting pattern is walked are all its items *)

From Coq Require Import List ZArith QArith Bool Lia Arith Permutation.
From Verif Require Import Util Guil_Model GuilBuild_Model GuilBuild_Spec GuilBuild_Proof GuilSort_Model GuilSort_Spec.
Import ListNotations.
Open Scope Z_scope.

Section Walk.
Variable ns : list GNode.
Variable root : nat.
Variable o : GOrient.
Hypothesis Hpat : Pattern o ns root.
Hypothesis Hroot : Rooted ns root.

Fixpoint wid (fuel id : nat) : list nat :=
  match fuel with O => [] | S fuel => flat_map (fun k => k :: wid fuel k) (content_kids ns id) end.

Lemma walk_wid : forall fuel id, walk ns (content_kids ns) fuel id = flat_map (fun k => node_size (gnode ns k)) (wid fuel id).
Proof.
  induction fuel as [|fuel IH]; intros id; [reflexivity|]. cbn [walk wid]. induction (content_kids ns id) as [|k l IHl]; [reflexivity|].
  cbn [flat_map app]. rewrite flat_map_app, IHl, IH, app_assoc. reflexivity.
Qed.

Lemma kids_in : forall x id, In x (content_kids ns id) <-> (x < length ns)%nat /\ Content ns x /\ gn_f (gnode ns x) = Some id.
Proof.
  intros x id. unfold content_kids, Content. rewrite filter_In, in_seq, !andb_true_iff, !negb_true_iff, !Z.eqb_neq.
  destruct (gn_f (gnode ns x)) as [f|]; [rewrite Nat.eqb_eq|]; split; intros H; intuition (try lia; try congruence).
Qed.

Local Notation cnt := (count_occ Nat.eq_dec).

Lemma cnt_kids : forall x id F, (x < length ns)%nat -> Content ns x -> gn_f (gnode ns x) = Some F ->
  cnt (content_kids ns id) x = if Nat.eqb F id then 1%nat else 0%nat.
Proof.
  intros x id F Hx Hc HF. destruct (Nat.eqb_spec F id) as [->|Hn].
  - apply NoDup_count_occ'; [apply NoDup_filter, seq_NoDup|]. apply kids_in. auto.
  - apply count_occ_not_In. rewrite kids_in. intros (_ & _ & E). congruence.
Qed.

Definition nsum (f : nat -> nat) (l : list nat) : nat := fold_right (fun k s => (f k + s)%nat) 0%nat l.

Lemma cnt_flat : forall (g : nat -> list nat) l x, cnt (flat_map (fun k => k :: g k) l) x = (cnt l x + nsum (fun k => cnt (g k) x) l)%nat.
Proof.
  intros g l x. induction l as [|k l IH]; [reflexivity|]. cbn [flat_map app nsum fold_right].
  cbn [count_occ]. fold (nsum (fun k => cnt (g k) x) l). rewrite count_occ_app, IH. destruct (Nat.eq_dec k x); lia.
Qed.

Lemma nsum_add : forall f g l, nsum (fun k => (f k + g k)%nat) l = (nsum f l + nsum g l)%nat.
Proof. intros f g l. unfold nsum. induction l as [|k l IH]; [reflexivity|]. cbn [fold_right]. rewrite IH. lia. Qed.

Lemma nsum_ext : forall f g l, (forall k, f k = g k) -> nsum f l = nsum g l.
Proof. intros f g l H. unfold nsum. induction l as [|k l IH]; [reflexivity|]. cbn [fold_right]. rewrite IH, H. reflexivity. Qed.

Lemma nsum_zero : forall l, nsum (fun _ => 0%nat) l = 0%nat.
Proof. intros l. unfold nsum. induction l as [|k l IH]; [reflexivity|]. exact IH. Qed.

Lemma nsum_ind : forall F l, nsum (fun k => if Nat.eqb F k then 1%nat else 0%nat) l = cnt l F.
Proof.
  intros F l. unfold nsum. induction l as [|k l IH]; [reflexivity|]. cbn [fold_right count_occ]. rewrite IH.
  destruct (Nat.eqb_spec F k), (Nat.eq_dec k F); lia || congruence.
Qed.

Lemma cnt_wid : forall x F, (x < length ns)%nat -> Content ns x -> gn_f (gnode ns x) = Some F ->
  forall fuel id, cnt (wid (S fuel) id) x = ((if Nat.eqb F id then 1 else 0) + cnt (wid fuel id) F)%nat.
Proof.
  intros x F Hx Hc HF. induction fuel as [|fuel IH]; intros id.
  - cbn [wid]. rewrite cnt_flat, (cnt_kids x id F Hx Hc HF). cbn [count_occ]. rewrite nsum_zero. reflexivity.
  - change (wid (S (S fuel)) id) with (flat_map (fun k => k :: wid (S fuel) k) (content_kids ns id)).
    rewrite cnt_flat, (cnt_kids x id F Hx Hc HF). rewrite (nsum_ext _ _ _ IH), nsum_add, nsum_ind.
    cbn [wid]. rewrite cnt_flat. reflexivity.
Qed.

Lemma wid_above : forall fuel id x, (root <= id)%nat -> In x (wid fuel id) -> (id < x)%nat.
Proof.
  induction fuel as [|fuel IH]; intros id x Hid Hx; [destruct Hx|]. cbn [wid] in Hx. apply in_flat_map in Hx. destruct Hx as (k & Hk & Hx).
  destruct (proj2 Hpat id k Hid Hk) as (Hik & _). destruct Hx as [<-|Hx]; [exact Hik|]. specialize (IH k x ltac:(lia) Hx). lia.
Qed.

Lemma wid_in : forall fuel id x, In x (wid fuel id) -> (x < length ns)%nat /\ Content ns x /\ gn_f (gnode ns x) <> None.
Proof.
  induction fuel as [|fuel IH]; intros id x Hx; [destruct Hx|]. cbn [wid] in Hx. apply in_flat_map in Hx. destruct Hx as (k & Hk & [<-|Hx]).
  - apply kids_in in Hk. destruct Hk as (K1 & K2 & K3). split; [exact K1|]. split; [exact K2|congruence].
  - apply (IH k x Hx).
Qed.

Lemma cnt_one : forall n x, (x <= n)%nat -> (x < length ns)%nat -> Content ns x -> gn_f (gnode ns x) <> None -> x <> root ->
  forall fuel, (x <= fuel)%nat -> cnt (wid fuel root) x = 1%nat.
Proof.
  induction n as [|n IH]; intros x Hn Hx Hc Hf Hr fuel Hfu.
  all: destruct (gn_f (gnode ns x)) as [F|] eqn:EF; [|congruence].
  all: destruct (proj2 Hroot x F Hx Hc EF Hr) as (HF & HFc).
  all: assert (HFx : (F < x)%nat) by (apply (proj2 Hpat F x (proj1 HF)); apply kids_in; auto).
  - lia.
  - destruct fuel as [|fuel]; [lia|]. rewrite (cnt_wid x F Hx Hc EF). destruct (Nat.eqb_spec F root) as [->|Hne].
    + replace (cnt (wid fuel root) root) with 0%nat; [reflexivity|]. symmetry. apply count_occ_not_In. intros Hin. apply wid_above in Hin; lia.
    + destruct HFc as [HFc|[HF1 HF2]]; [congruence|]. rewrite (IH F) by (try assumption; lia). reflexivity.
Qed.

Definition reached (k : nat) : bool :=
  negb (gn_item (gnode ns k) =? -1) && negb (gn_item (gnode ns k) =? -3) && negb (Nat.eqb k root)
  && match gn_f (gnode ns k) with Some _ => true | None => false end.

Lemma wid_perm : Permutation (wid (length ns) root) (filter reached (seq 0 (length ns))).
Proof.
  apply (Permutation_count_occ Nat.eq_dec). intros x.
  assert (D : In x (filter reached (seq 0 (length ns))) <-> (x < length ns)%nat /\ Content ns x /\ x <> root /\ gn_f (gnode ns x) <> None).
  { unfold reached, Content. rewrite filter_In, in_seq, !andb_true_iff, !negb_true_iff, !Z.eqb_neq, Nat.eqb_neq.
    destruct (gn_f (gnode ns x)); split; intros H; intuition (try lia; try congruence). }
  destruct (in_dec Nat.eq_dec x (filter reached (seq 0 (length ns)))) as [Hi|Hi].
  - rewrite (proj1 (NoDup_count_occ' Nat.eq_dec _) (NoDup_filter _ (seq_NoDup _ _)) x Hi).
    apply D in Hi. destruct Hi as (H1 & H2 & H3 & H4). apply (cnt_one x); try assumption; lia.
  - rewrite (proj1 (count_occ_not_In Nat.eq_dec _ x) Hi). apply count_occ_not_In. intros Hw. apply Hi, D.
    destruct (wid_in _ _ _ Hw) as (W1 & W2 & W3). apply wid_above in Hw; [|lia]. repeat split; try assumption; try apply W2. lia.
Qed.

Lemma walk_placements : Permutation (walk ns (content_kids ns) (length ns) root) (map pl_size (bin_placements ns)).
Proof.
  rewrite walk_wid, (Permutation_flat_map _ wid_perm).
  assert (E : bin_placements ns = flat_map (fun k => node_placement (gnode ns k)) (seq 0 (length ns))).
  { unfold bin_placements. clear. 
    assert (G : forall (l pre : list GNode), flat_map node_placement l = flat_map (fun k => node_placement (gnode (pre ++ l) k)) (seq (length pre) (length l))).
    { induction l as [|a l IH]; intros pre; [reflexivity|]. cbn [length seq flat_map]. unfold gnode at 1. rewrite nth_middle. f_equal.
      specialize (IH (pre ++ [a])). rewrite <- app_assoc in IH. cbn [app] in IH. rewrite IH, app_length. cbn [length]. rewrite Nat.add_1_r. reflexivity. }
    apply (G ns []). }
  rewrite E. clear E. match goal with |- Permutation ?a ?b => assert (G : a = b); [|rewrite G; reflexivity] end. induction (seq 0 (length ns)) as [|k l IH]; [reflexivity|].
  cbn [filter flat_map]. rewrite map_app, <- IH.
  assert (X : (if reached k then node_size (gnode ns k) else []) = map pl_size (node_placement (gnode ns k))).
  { unfold reached, node_size, node_placement. destruct (gn_f (gnode ns k)) as [f|] eqn:Ef; [|rewrite !andb_false_r; reflexivity].
    destruct (Z.leb_spec 0 (gn_item (gnode ns k))) as [Hi|Hi].
    - replace (gn_item (gnode ns k) =? -1) with false by (symmetry; apply Z.eqb_neq; lia).
      replace (gn_item (gnode ns k) =? -3) with false by (symmetry; apply Z.eqb_neq; lia).
      destruct (Nat.eqb_spec k root) as [->|Hr]; [|reflexivity]. destruct Hroot as [[R|R] _]; [congruence|lia].
    - match goal with |- (if ?c then _ else _) = _ => destruct c; reflexivity end. }
  rewrite <- X. destruct (reached k); reflexivity.
Qed.
End Walk.
