(** * Pushing items towards the origin, along one axis

    Intervals [pos j, pos j + len j): every interval is moved to the left as far as the
    intervals that were entirely before it allow. *)

From Coq Require Import List ZArith Bool Lia Arith.
From Verif Require Import Util.
Import ListNotations.
Open Scope Z_scope.

Section Push.
Variables (pos len : nat -> Z) (n : nat).
Hypothesis Hpos : forall j, (j < n)%nat -> 0 <= pos j.
Hypothesis Hlen : forall j, (j < n)%nat -> 0 < len j.

Definition before (j : nat) : list nat := filter (fun k => pos k + len k <=? pos j) (seq 0 n).

Fixpoint push (fuel : nat) (j : nat) : Z :=
  match fuel with
  | O => 0
  | S f => fold_right Z.max 0 (map (fun k => push f k + len k) (before j))
  end.

Lemma in_before : forall j k, In k (before j) <-> (k < n)%nat /\ pos k + len k <= pos j.
Proof. intros. unfold before. rewrite filter_In, in_seq, Z.leb_le. lia. Qed.

Lemma max_ge0 : forall l, 0 <= fold_right Z.max 0 l.
Proof. induction l; simpl; lia. Qed.
Lemma max_ge : forall l v, In v l -> v <= fold_right Z.max 0 l.
Proof. induction l as [|a l IH]; intros v [].
  - simpl. lia.
  - simpl. specialize (IH v H). lia. Qed.
Lemma max_attained : forall l, fold_right Z.max 0 l = 0 \/ In (fold_right Z.max 0 l) l.
Proof. induction l as [|a l IH]; [left; reflexivity|]. simpl. destruct (Z.max_spec a (fold_right Z.max 0 l)) as [[_ E]|[_ E]]; rewrite E; [|right; left; reflexivity].
  destruct IH as [IH|IH]; [left; assumption|right; right; assumption]. Qed.

Lemma push_bounds : forall f j, (j < n)%nat -> 0 <= push f j <= pos j.
Proof.
  induction f as [|f IH]; intros j Hj; cbn [push]; [specialize (Hpos j Hj); lia|]. split; [apply max_ge0|].
  destruct (max_attained (map (fun k => push f k + len k) (before j))) as [E|E]; [rewrite E; auto|].
  apply in_map_iff in E. destruct E as (k & E & Hk). rewrite <- E. apply in_before in Hk. destruct Hk as [Hk H]. specialize (IH k Hk). lia.
Qed.

Lemma push_stable : forall f j, (j < n)%nat -> pos j < Z.of_nat f -> push (S f) j = push f j.
Proof.
  induction f as [|f IH]; intros j Hj Hf; [specialize (Hpos j Hj); lia|].
  change (push (S (S f)) j) with (fold_right Z.max 0 (map (fun k => push (S f) k + len k) (before j))).
  change (push (S f) j) with (fold_right Z.max 0 (map (fun k => push f k + len k) (before j))). f_equal.
  apply map_ext_in. intros k Hk. apply in_before in Hk. destruct Hk as [Hk H]. specialize (Hlen k Hk). rewrite IH; [reflexivity|assumption|lia].
Qed.

Lemma push_order : forall f k j, (k < n)%nat -> (j < n)%nat -> pos k + len k <= pos j -> pos j < Z.of_nat f -> push f k + len k <= push f j.
Proof.
  intros f k j Hk Hj H Hf. rewrite <- (push_stable f j Hj Hf). cbn [push]. apply max_ge. apply in_map_iff. exists k. split; [reflexivity|].
  apply in_before. auto.
Qed.

Lemma push_chain : forall f j, (j < n)%nat -> exists c, NoDup c /\ (forall k, In k c -> (k < n)%nat /\ pos k + len k <= pos j) /\ push f j = zsum len c.
Proof.
  induction f as [|f IH]; intros j Hj; cbn [push].
  - exists []. split; [constructor|]. split; [intros k []|reflexivity].
  - destruct (max_attained (map (fun k => push f k + len k) (before j))) as [E|E].
    + rewrite E. exists []. split; [constructor|]. split; [intros k []|reflexivity].
    + apply in_map_iff in E. destruct E as (k & E & Hk). rewrite <- E. apply in_before in Hk. destruct Hk as [Hk H].
      destruct (IH k Hk) as (c & C1 & C2 & C3). exists (k :: c). pose proof (Hlen k Hk) as L. split; [|split].
      * constructor; [|assumption]. intro Hin. destruct (C2 k Hin). lia.
      * intros k' [<-|Hk']; [auto|]. destruct (C2 k' Hk'). split; [assumption|lia].
      * rewrite zsum_cons. lia.
Qed.

(** Summary: new positions, no larger, keeping the order, each end a sum of lengths of
    distinct intervals. *)
Theorem push_left : exists new : nat -> Z,
  (forall j, (j < n)%nat -> 0 <= new j <= pos j) /\
  (forall k j, (k < n)%nat -> (j < n)%nat -> pos k + len k <= pos j -> new k + len k <= new j) /\
  (forall j, (j < n)%nat -> exists c, NoDup c /\ (forall k, In k c -> (k < n)%nat) /\ new j + len j = zsum len c).
Proof.
  assert (B : exists f, forall j, (j < n)%nat -> pos j < Z.of_nat f).
  { clear Hpos Hlen. induction n as [|m [f IH]]; [exists 0%nat; intros; lia|]. exists (f + S (Z.to_nat (pos m)))%nat.
    intros j Hj. destruct (Nat.eq_dec j m) as [->|Hne]; [lia|]. specialize (IH j ltac:(lia)). lia. }
  destruct B as [f B]. exists (push f). split; [intros; apply push_bounds; assumption|]. split; [intros; apply push_order; auto|].
  intros j Hj. destruct (push_chain f j Hj) as (c & C1 & C2 & C3). exists (j :: c). pose proof (Hlen j Hj). split; [|split].
  - constructor; [|assumption]. intro Hin. destruct (C2 j Hin). lia.
  - intros k [<-|Hk]; [assumption|]. apply (C2 k Hk).
  - rewrite zsum_cons. lia.
Qed.

End Push.
