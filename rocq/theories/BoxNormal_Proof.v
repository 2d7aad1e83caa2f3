(** * Box packings within the reachable lengths *)

From Coq Require Import List ZArith QArith Bool Lia Arith Sorted.
From Verif Require Import Util Common_Model Box_Model Box_Spec Block_Model BoxBlock_Model BoxBlock_Spec BoxBlock_Proof Normal_Proof BoxSpaces_Model BoxSpaces_Spec BoxSpaces_Proof.
Import ListNotations.
Open Scope Z_scope.

Section Normal.
Variable i : BInstance.
Variable ps : list BPlace.
Let p0 : BPlace := mkBP 0 (mkV 0 0 0) XYZ.
Let at_ (j : nat) : BPlace := nth j ps p0.

Lemma bfilter_seq_length : forall (f : BPlace -> bool), length (filter (fun j => f (at_ j)) (seq 0 (length ps))) = length (filter f ps).
Proof.
  intro f. unfold at_. clear at_. assert (G : forall l k (h : nat -> BPlace), (forall j, (j < length l)%nat -> h (k + j)%nat = nth j l p0) ->
    length (filter (fun j => f (h j)) (seq k (length l))) = length (filter f l)).
  { induction l as [|a l IH]; intros k h H; [reflexivity|]. cbn [length seq filter].
    assert (E : h k = a) by (rewrite <- (Nat.add_0_r k), H by (cbn; lia); reflexivity). rewrite E.
    specialize (IH (S k) h ltac:(intros j Hj; rewrite Nat.add_succ_l, <- Nat.add_succ_r, H by (cbn; lia); reflexivity)).
    destruct (f a); cbn [length]; rewrite IH; reflexivity. }
  apply (G ps 0%nat (fun j => nth j ps p0)). intros; reflexivity.
Qed.

(** Distinct items of the packing, side by side. *)
Lemma bchain_stackable : forall a c, NoDup c -> (forall k, In k c -> (k < length ps)%nat) ->
  (forall p, In p ps -> (bp_type p < length (bx_items i))%nat /\ In (bp_rot p) (bi_rotations (bxitem i (bp_type p)))) ->
  (forall x, (x < length (bx_items i))%nat -> bcount x ps <= bi_copies (bxitem i x)) ->
  xstackable i a (zsum (fun k => bp_size i (at_ k) a) c).
Proof.
  intros a c N I T C. exists (map at_ c). split; [|split].
  - intros p Hp. apply in_map_iff in Hp. destruct Hp as (k & <- & Hk). apply T, nth_In, I, Hk.
  - intros x Hx. eapply Z.le_trans; [|apply C; assumption]. unfold bcount.
    rewrite <- (bfilter_seq_length (fun p => Nat.eqb (bp_type p) x)). apply inj_le.
    assert (E : length (filter (fun p => Nat.eqb (bp_type p) x) (map at_ c)) = length (filter (fun k => Nat.eqb (bp_type (at_ k)) x) c)).
    { clear. induction c as [|k c IH]; [reflexivity|]. cbn [map filter]. destruct (Nat.eqb (bp_type (at_ k)) x); cbn [length]; rewrite IH; reflexivity. }
    rewrite E. apply NoDup_incl_length.
    + apply NoDup_filter. assumption.
    + intros k Hk. apply filter_In in Hk. destruct Hk as [Hk1 Hk2]. apply filter_In. split; [|assumption]. apply in_seq. specialize (I k Hk1). lia.
  - clear. induction c as [|k c IH]; [reflexivity|]. cbn [map]. rewrite !zsum_cons, IH. reflexivity.
Qed.

Lemma bat_all : map at_ (seq 0 (length ps)) = ps.
Proof.
  unfold at_. clear at_. apply (nth_ext _ _ p0 p0); rewrite map_length, seq_length; [reflexivity|]. intros n Hn.
  rewrite nth_indep with (d' := nth 0%nat ps p0) by (rewrite map_length, seq_length; assumption).
  rewrite (map_nth (fun j => nth j ps p0) (seq 0 (length ps)) 0%nat), seq_nth by assumption. reflexivity.
Qed.

Lemma bord_pairs_map : forall (f g : nat -> BPlace) l,
  (forall a b, In a l -> In b l -> bdisjoint i (f a) (f b) -> bdisjoint i (g a) (g b)) ->
  ForallOrdPairs (bdisjoint i) (map f l) -> ForallOrdPairs (bdisjoint i) (map g l).
Proof.
  intros f g. induction l as [|a l IH]; intros H F; [constructor|]. cbn [map] in *. inversion F as [|? ? F1 F2]; subst. constructor.
  - rewrite Forall_forall in *. intros q Hq. apply in_map_iff in Hq. destruct Hq as (b & <- & Hb). apply H; [left; reflexivity|right; assumption|].
    apply F1. apply in_map. assumption.
  - apply IH; [|assumption]. intros; apply H; [right; assumption|right; assumption|assumption].
Qed.

(** Every packing can be pushed so that its extent is made of items side by side. *)
Theorem push_boxes : forall bt, (forall it, In it (bx_items i) -> (forall a, 0 < vat (bi_box it) a) /\ 0 <= bi_copies it) -> bgeometry_ok i bt ps ->
  (forall x, (x < length (bx_items i))%nat -> bcount x ps <= bi_copies (bxitem i x)) ->
  exists ps', same_boxes ps ps' /\ bgeometry_ok i bt ps' /\ forall p a, In p ps' -> xstackable i a (bp_end i p a).
Proof.
  intros bt Hpos [G1 G2] C.
  assert (Hat : forall j, (j < length ps)%nat -> bplace_ok i bt (at_ j)) by (intros j Hj; apply G1, nth_In, Hj).
  assert (W : forall a j, (j < length ps)%nat -> 0 < bp_size i (at_ j) a).
  { intros a j Hj. destruct (Hat j Hj) as [T _ _]. destruct (Hpos (bxitem i (bp_type (at_ j))) (nth_In _ _ T)) as (A & _).
    pose proof (A AX). pose proof (A AY). pose proof (A AZ). unfold vat in *. unfold bp_size. destruct (bp_rot (at_ j)), a; assumption. }
  assert (P : forall a, exists new, _) by (intro a; apply (push_left (fun j => vat (bp_pos (at_ j)) a) (fun j => bp_size i (at_ j) a) (length ps));
    [intros j Hj; apply (bk_inside _ _ _ (Hat j Hj) a)|exact (W a)]).
  destruct (P AX) as (nx & X1 & X2 & X3). destruct (P AY) as (ny & Y1 & Y2 & Y3). destruct (P AZ) as (nz & Z1 & Z2 & Z3).
  pose (nw := fun a => match a with AX => nx | AY => ny | AZ => nz end).
  assert (N1 : forall a j, (j < length ps)%nat -> 0 <= nw a j <= vat (bp_pos (at_ j)) a) by (intros []; assumption).
  assert (N2 : forall a j k, (j < length ps)%nat -> (k < length ps)%nat -> vat (bp_pos (at_ j)) a + bp_size i (at_ j) a <= vat (bp_pos (at_ k)) a ->
    nw a j + bp_size i (at_ j) a <= nw a k) by (intros []; assumption).
  assert (N3 : forall a j, (j < length ps)%nat -> exists c, NoDup c /\ (forall k, In k c -> (k < length ps)%nat) /\
    nw a j + bp_size i (at_ j) a = zsum (fun k => bp_size i (at_ k) a) c) by (intros []; assumption).
  clear P X1 X2 X3 Y1 Y2 Y3 Z1 Z2 Z3.
  pose (mv := fun j => mkBP (bp_type (at_ j)) (mkV (nx j) (ny j) (nz j)) (bp_rot (at_ j))).
  assert (Mp : forall j a, vat (bp_pos (mv j)) a = nw a j) by (intros j []; reflexivity).
  assert (Ms : forall j a, bp_size i (mv j) a = bp_size i (at_ j) a) by reflexivity.
  assert (Me : forall j a, bp_end i (mv j) a = nw a j + bp_size i (at_ j) a) by (intros j a; unfold bp_end; rewrite Mp, Ms; reflexivity).
  assert (Hin : forall p, In p (map mv (seq 0 (length ps))) -> exists j, (j < length ps)%nat /\ p = mv j).
  { intros p Hp. apply in_map_iff in Hp. destruct Hp as (j & <- & Hj). apply in_seq in Hj. exists j. split; [lia|reflexivity]. }
  exists (map mv (seq 0 (length ps))). split; [|split; [constructor|]].
  - unfold same_boxes. rewrite <- bat_all at 1. generalize (seq 0 (length ps)). intro l. induction l; cbn [map]; constructor; auto.
  - intros p Hp. destruct (Hin p Hp) as (j & Hj & ->). destruct (Hat j Hj) as [T A R]. constructor; [exact T| |exact R].
    intro a. rewrite Mp, Me. specialize (N1 a j Hj). destruct (A a) as [A1 A2]. unfold bp_end in A2. lia.
  - apply (bord_pairs_map at_ mv); [|rewrite bat_all; assumption]. intros j k Hj Hk [a D]. apply in_seq in Hj. apply in_seq in Hk.
    exists a. rewrite !Mp, !Me. unfold bp_end in D. destruct D as [D|D]; [left|right]; apply N2; try assumption; lia.
  - intros p a Hp. destruct (Hin p Hp) as (j & Hj & ->). rewrite Me. destruct (N3 a j Hj) as (c & N & I & ->).
    apply bchain_stackable; try assumption. intros q Hq. destruct (G1 q Hq) as [A _ B]. auto.
Qed.

End Normal.
