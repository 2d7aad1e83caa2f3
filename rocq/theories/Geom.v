(** * Packing boxes in any dimension

    [volume_bound]: boxes placed in a box, pairwise separated along some axis,
    have a total volume of at most the volume of the box.
    [rescaled_bound]: the same after replacing lengths by other lengths, axis by
    axis, provided that what fits in a row still fits. *)

From Coq Require Import List ZArith Bool Lia Arith Permutation Psatz.
From Verif Require Import Util Dff_Axis.
Import ListNotations.
Open Scope Z_scope.

Section Geom.

Variable A : Type.

Record Axis : Type := mkAxis { ax_pos : A -> Z; ax_len : A -> Z; ax_cap : Z }.

Definition prod (l : list Z) : Z := fold_right Z.mul 1 l.

Definition apart (ax : Axis) (a b : A) : Prop :=
  ax_pos ax a + ax_len ax a <= ax_pos ax b \/ ax_pos ax b + ax_len ax b <= ax_pos ax a.
Definition separated (axes : list Axis) (a b : A) : Prop := exists ax, In ax axes /\ apart ax a b.
Definition inside (ax : Axis) (a : A) : Prop :=
  0 <= ax_pos ax a /\ 0 <= ax_len ax a /\ ax_pos ax a + ax_len ax a <= ax_cap ax.

Definition covers (ax : Axis) (t : Z) (a : A) : bool := (ax_pos ax a <=? t) && (t <? ax_pos ax a + ax_len ax a).

(** Integers 0 .. n-1. *)
Definition zrange (n : Z) : list Z := map Z.of_nat (seq 0 (Z.to_nat n)).

Lemma zrange_in : forall n t, In t (zrange n) <-> 0 <= t < n.
Proof.
  intros n t. unfold zrange. rewrite in_map_iff. split.
  - intros (k & <- & Hk). apply in_seq in Hk. lia.
  - intro H. exists (Z.to_nat t). split; [lia|]. apply in_seq. lia.
Qed.

Lemma count_range : forall c lo hi, 0 <= lo -> lo <= hi -> hi <= Z.of_nat c ->
  zsum (fun t => if (lo <=? t) && (t <? hi) then 1 else 0) (map Z.of_nat (seq 0 c)) = hi - lo.
Proof.
  intros c lo hi H1 H2. revert hi H2. induction c as [|c IH]; intros hi H2 H3.
  - simpl. lia.
  - rewrite seq_S, map_app, zsum_app. simpl map. rewrite zsum_cons, zsum_nil.
    destruct (Z.eq_dec hi (Z.of_nat (S c))) as [E|N].
    + destruct (Z.eq_dec lo hi) as [E'|N'].
      * rewrite (zsum_zero _ _ (map Z.of_nat (seq 0 c))).
        -- destruct (Z.leb_spec lo (Z.of_nat c)), (Z.ltb_spec (Z.of_nat c) hi); simpl; lia.
        -- intros t _. destruct (Z.leb_spec lo t), (Z.ltb_spec t hi); simpl; lia.
      * rewrite (zsum_ext _ _ (fun t => if (lo <=? t) && (t <? hi - 1) then 1 else 0)).
        -- rewrite IH by lia. destruct (Z.leb_spec lo (Z.of_nat c)), (Z.ltb_spec (Z.of_nat c) hi); simpl; lia.
        -- intros t Ht. apply in_map_iff in Ht. destruct Ht as (k & <- & Hk). apply in_seq in Hk.
           destruct (Z.ltb_spec (Z.of_nat k) hi), (Z.ltb_spec (Z.of_nat k) (hi - 1)); try reflexivity; lia.
    + rewrite IH by lia. destruct (Z.ltb_spec (Z.of_nat c) hi); [lia|]. rewrite andb_false_r. lia.
Qed.

Lemma slice_sum : forall ax (v : A -> Z) its, (forall a, In a its -> inside ax a) ->
  zsum (fun a => ax_len ax a * v a) its
  = zsum (fun t => zsum v (filter (covers ax t) its)) (zrange (ax_cap ax)).
Proof.
  intros ax v its H. induction its as [|a its IH].
  - symmetry. apply zsum_zero. reflexivity.
  - rewrite zsum_cons, IH by (intros b Hb; apply H; right; assumption).
    destruct (H a (or_introl eq_refl)) as (H1 & H2 & H3).
    assert (E : ax_len ax a * v a = zsum (fun t => v a * (if covers ax t a then 1 else 0)) (zrange (ax_cap ax))).
    { rewrite zsum_mult. unfold covers, zrange. rewrite count_range by lia. lia. }
    rewrite E, <- zsum_plus. apply zsum_ext. intros t _. cbn [filter].
    destruct (covers ax t a); [rewrite zsum_cons; lia|lia].
Qed.

Lemma ord_pairs_filter : forall (R : A -> A -> Prop) p l, ForallOrdPairs R l ->
  ForallOrdPairs (fun a b => R a b /\ p a = true /\ p b = true) (filter p l).
Proof.
  intros R p l H. induction H as [|a l Ha H IH]; simpl; [constructor|].
  destruct (p a) eqn:E; [|assumption]. constructor; [|assumption].
  apply Forall_forall. intros b Hb. apply filter_In in Hb. destruct Hb as [Hb Hpb].
  rewrite Forall_forall in Ha. auto.
Qed.

Lemma ord_pairs_impl : forall (R R' : A -> A -> Prop) l, (forall a b, R a b -> R' a b) ->
  ForallOrdPairs R l -> ForallOrdPairs R' l.
Proof.
  intros R R' l H HF. induction HF as [|a l Ha HF IH]; constructor; [|assumption].
  apply Forall_forall. intros b Hb. rewrite Forall_forall in Ha. auto.
Qed.

Lemma prod_nonneg : forall l, (forall x, In x l -> 0 <= x) -> 0 <= prod l.
Proof.
  induction l as [|x l IH]; intro H; simpl; [lia|].
  apply Z.mul_nonneg_nonneg; [apply H; left; reflexivity|]. apply IH. intros y Hy. apply H. right. assumption.
Qed.

Theorem volume_bound : forall axes its,
  (forall ax a, In ax axes -> In a its -> inside ax a) ->
  (forall ax, In ax axes -> 0 <= ax_cap ax) ->
  ForallOrdPairs (separated axes) its ->
  zsum (fun a => prod (map (fun ax => ax_len ax a) axes)) its <= prod (map ax_cap axes).
Proof.
  induction axes as [|ax axes IH]; intros its Hin Hcap Hsep.
  - simpl. destruct Hsep as [|a l Ha Hl]; [simpl; lia|].
    destruct l as [|b l]; [simpl; lia|]. inversion Ha as [|? ? (ax & [] & _) _].
  - cbn [map prod fold_right]. fold (prod (map ax_cap axes)).
    change (zsum (fun a => ax_len ax a * prod (map (fun ax => ax_len ax a) axes)) its <= ax_cap ax * prod (map ax_cap axes)).
    rewrite slice_sum by (intros a Ha; apply Hin; [left; reflexivity|assumption]).
    assert (Hc : 0 <= ax_cap ax) by (apply Hcap; left; reflexivity).
    transitivity (zsum (fun _ => prod (map ax_cap axes)) (zrange (ax_cap ax))).
    + apply zsum_le. intros t _. apply IH.
      * intros ax' a Hax Ha. apply filter_In in Ha. apply Hin; [right; assumption|apply Ha].
      * intros ax' Hax. apply Hcap. right. assumption.
      * eapply ord_pairs_impl; [|apply ord_pairs_filter; exact Hsep].
        intros a b ((ax' & [<-|Hax] & Hap) & Ca & Cb); [exfalso|exists ax'; auto].
        unfold covers in Ca, Cb. apply andb_true_iff in Ca, Cb. destruct Ca as [A1 A2], Cb as [B1 B2].
        apply Z.leb_le in A1, B1. apply Z.ltb_lt in A2, B2. unfold apart in Hap. lia.
    + assert (E : zsum (fun _ : Z => prod (map ax_cap axes)) (zrange (ax_cap ax)) = ax_cap ax * prod (map ax_cap axes)).
      { generalize (prod (map ax_cap axes)) as v. intro v.
        rewrite (zsum_ext _ _ (fun _ => v * 1)) by (intros; lia).
        rewrite zsum_mult, zsum_one. unfold zrange. rewrite map_length, seq_length, Z2Nat.id by lia. ring. }
      lia.
Qed.

(** ** Rescaling one axis *)

Section Rescale.

Variable its : list A.
Variables x w f : A -> Z.
Variables W F : Z.
Hypothesis Hnodup : NoDup its.
Hypothesis Hpos : forall a, In a its -> 0 <= x a /\ 0 < w a /\ x a + w a <= W.
Hypothesis HW : 0 <= W.
Hypothesis Hchain : forall ch, NoDup ch -> incl ch its -> zsum w ch <= W -> zsum f ch <= F.

(** Longest chain of items ending at or before [t]. *)
Fixpoint longest (fuel : nat) (t : Z) : Z :=
  match fuel with
  | O => 0
  | S fuel' => fold_right (fun a m => if x a + w a <=? t then Z.max m (f a + longest fuel' (x a)) else m) 0 its
  end.

Lemma longest_stable : forall n t, t <= Z.of_nat n -> longest n t = longest (S n) t.
Proof.
  induction n as [|n IH]; intros t Ht.
  - cbn [longest]. symmetry. pose proof Hpos as HP'. revert HP'. generalize its as l. induction l as [|a l IHl]; intro H; [reflexivity|].
    cbn [fold_right]. rewrite IHl by (intros b Hb; apply H; right; assumption).
    destruct (H a (or_introl eq_refl)) as (H1 & H2 & H3). destruct (Z.leb_spec (x a + w a) t); [lia|reflexivity].
  - change (fold_right (fun a m => if x a + w a <=? t then Z.max m (f a + longest n (x a)) else m) 0 its
          = fold_right (fun a m => if x a + w a <=? t then Z.max m (f a + longest (S n) (x a)) else m) 0 its).
    pose proof Hpos as HP'. revert HP'. generalize its as l. induction l as [|a l IHl]; intro H; [reflexivity|].
    cbn [fold_right]. rewrite IHl by (intros b Hb; apply H; right; assumption).
    destruct (H a (or_introl eq_refl)) as (H1 & H2 & H3). destruct (Z.leb_spec (x a + w a) t); [|reflexivity].
    rewrite IH by lia. reflexivity.
Qed.

Lemma longest_fuel : forall m n t, (n <= m)%nat -> t <= Z.of_nat n -> longest m t = longest n t.
Proof.
  induction m as [|m IH]; intros n t Hle Ht.
  - assert (n = 0)%nat by lia. subst. reflexivity.
  - destruct (Nat.eq_dec n (S m)) as [->|N]; [reflexivity|].
    rewrite <- (IH n t) by lia. symmetry. apply longest_stable. lia.
Qed.

Definition newpos (t : Z) : Z := longest (Z.to_nat t) t.

Definition step (t : Z) (l : list A) : Z :=
  fold_right (fun a m => if x a + w a <=? t then Z.max m (f a + newpos (x a)) else m) 0 l.

Lemma newpos_unfold : forall t, newpos t = step t its.
Proof.
  intro t. unfold newpos at 1. rewrite (longest_stable (Z.to_nat t)) by lia.
  cbn [longest]. unfold step. pose proof Hpos as HP'. revert HP'. generalize its as l. induction l as [|a l IHl]; intro H; [reflexivity|].
  cbn [fold_right]. rewrite IHl by (intros b Hb; apply H; right; assumption).
  destruct (H a (or_introl eq_refl)) as (H1 & H2 & H3). destruct (Z.leb_spec (x a + w a) t); [|reflexivity].
  rewrite (longest_fuel (Z.to_nat t) (Z.to_nat (x a)) (x a)) by lia. reflexivity.
Qed.

Lemma step_nonneg : forall t l, 0 <= step t l.
Proof.
  intros t l. unfold step. induction l as [|a l IH]; cbn [fold_right]; [lia|].
  destruct (x a + w a <=? t); lia.
Qed.
Lemma newpos_nonneg : forall t, 0 <= newpos t.
Proof. intro t. rewrite newpos_unfold. apply step_nonneg. Qed.

Lemma newpos_mono : forall t t', t <= t' -> newpos t <= newpos t'.
Proof.
  intros t t' H. rewrite !newpos_unfold. unfold step. generalize its as l.
  induction l as [|a l IH]; cbn [fold_right]; [lia|].
  destruct (Z.leb_spec (x a + w a) t), (Z.leb_spec (x a + w a) t'); lia.
Qed.

Lemma newpos_item : forall a t, In a its -> x a + w a <= t -> newpos (x a) + f a <= newpos t.
Proof.
  intros a t Ha Ht. rewrite (newpos_unfold t). unfold step. revert Ha. generalize its as l.
  induction l as [|b l IH]; intro Ha; [destruct Ha|]. cbn [fold_right].
  destruct Ha as [->|Ha].
  - destruct (Z.leb_spec (x a + w a) t); lia.
  - specialize (IH Ha). destruct (Z.leb_spec (x b + w b) t); lia.
Qed.

Lemma step_reached : forall t l, step t l = 0 \/
  exists a, In a l /\ x a + w a <= t /\ step t l = f a + newpos (x a).
Proof.
  intros t l. unfold step. induction l as [|a l IH]; cbn [fold_right]; [left; reflexivity|].
  destruct (Z.leb_spec (x a + w a) t) as [Hle|Hgt].
  - destruct (Z.max_spec (fold_right (fun a m => if x a + w a <=? t then Z.max m (f a + newpos (x a)) else m) 0 l)
      (f a + newpos (x a))) as [[_ ->]|[_ ->]].
    + right. exists a. split; [left; reflexivity|]. auto.
    + destruct IH as [IH|(b & Hb & H1 & H2)]; [left; assumption|].
      right. exists b. split; [right; assumption|]. auto.
  - destruct IH as [IH|(b & Hb & H1 & H2)]; [left; assumption|].
    right. exists b. split; [right; assumption|]. auto.
Qed.

Lemma newpos_chain : forall n t, 0 <= t -> t <= Z.of_nat n ->
  exists ch, NoDup ch /\ incl ch its /\ (forall a, In a ch -> x a + w a <= t) /\ zsum w ch <= t /\ zsum f ch = newpos t.
Proof.
  assert (E0 : forall t, 0 <= t -> newpos t = 0 ->
    exists ch, NoDup ch /\ incl ch its /\ (forall a, In a ch -> x a + w a <= t) /\ zsum w ch <= t /\ zsum f ch = newpos t).
  { intros t Ht E. exists []. repeat split; try constructor; try (intros a []); simpl; lia. }
  induction n as [|n IH]; intros t H0 Ht.
  - apply E0; [assumption|]. assert (t = 0) by lia. subst t. unfold newpos. reflexivity.
  - rewrite newpos_unfold. destruct (step_reached t its) as [E|(a & Ha & Hle & E)].
    + rewrite <- newpos_unfold in *. apply E0; assumption.
    + destruct (Hpos a Ha) as (P1 & P2 & P3).
      destruct (IH (x a) P1 ltac:(lia)) as (ch & C1 & C2 & C3 & C4 & C5).
      exists (a :: ch). rewrite !zsum_cons, E, C5. split; [|split; [|split; [|split]]]; try lia.
      * constructor; [|assumption]. intro Hin. specialize (C3 a Hin). lia.
      * intros b [<-|Hb]; [assumption|apply C2; assumption].
      * intros b [<-|Hb]; [assumption|]. specialize (C3 b Hb). lia.
Qed.

Lemma newpos_cap : newpos W <= F.
Proof.
  destruct (newpos_chain (Z.to_nat W) W HW ltac:(lia)) as (ch & C1 & C2 & _ & C4 & C5).
  rewrite <- C5. apply Hchain; assumption.
Qed.

Definition rescaled_axis : Axis := mkAxis (fun a => newpos (x a)) f F.

Lemma rescaled_inside : (forall a, In a its -> 0 <= f a) -> forall a, In a its -> inside rescaled_axis a.
Proof.
  intros Hf a Ha. unfold inside, rescaled_axis. simpl. split; [apply newpos_nonneg|]. split; [apply Hf; assumption|].
  destruct (Hpos a Ha) as (P1 & P2 & P3). pose proof (newpos_item a W Ha P3). pose proof newpos_cap. lia.
Qed.

Lemma rescaled_apart : forall a b, In a its -> In b its -> (x a + w a <= x b \/ x b + w b <= x a) ->
  apart rescaled_axis a b.
Proof.
  intros a b Ha Hb [H|H]; unfold apart, rescaled_axis; simpl; [left|right]; apply newpos_item; assumption.
Qed.

Lemma rescaled_cap : 0 <= F.
Proof. pose proof newpos_cap. pose proof (newpos_nonneg W). lia. Qed.

End Rescale.

(** An axis with real positions, lengths, capacity and the lengths and capacity
    that replace them. *)
Record RAxis : Type := mkRA {
  ra_pos : A -> Z; ra_len : A -> Z; ra_cap : Z; ra_new : A -> Z; ra_new_cap : Z }.

Definition ra_apart (ax : RAxis) (a b : A) : Prop :=
  ra_pos ax a + ra_len ax a <= ra_pos ax b \/ ra_pos ax b + ra_len ax b <= ra_pos ax a.

Theorem rescaled_bound : forall axes its, NoDup its ->
  (forall ax a, In ax axes -> In a its ->
     0 <= ra_pos ax a /\ 0 < ra_len ax a /\ ra_pos ax a + ra_len ax a <= ra_cap ax /\ 0 <= ra_new ax a) ->
  (forall ax, In ax axes -> 0 <= ra_cap ax) ->
  (forall ax ch, In ax axes -> NoDup ch -> incl ch its -> zsum (ra_len ax) ch <= ra_cap ax ->
     zsum (ra_new ax) ch <= ra_new_cap ax) ->
  ForallOrdPairs (fun a b => exists ax, In ax axes /\ ra_apart ax a b) its ->
  zsum (fun a => prod (map (fun ax => ra_new ax a) axes)) its <= prod (map ra_new_cap axes).
Proof.
  intros axes its Hnd Hpos Hcap Hch Hsep.
  pose (g := fun ax => rescaled_axis its (ra_pos ax) (ra_len ax) (ra_new ax) (ra_new_cap ax)).
  pose proof (volume_bound (map g axes) its) as HV. rewrite map_map in HV. simpl in HV.
  assert (E : forall a, map (fun ax => ax_len ax a) (map g axes) = map (fun ax => ra_new ax a) axes).
  { intro a. rewrite map_map. reflexivity. }
  rewrite (zsum_ext _ _ (fun a => prod (map (fun ax => ra_new ax a) axes))) in HV
    by (intros a _; rewrite E; reflexivity).
  apply HV.
  - intros ax a Hax Ha. apply in_map_iff in Hax. destruct Hax as (r & <- & Hr). unfold g.
    apply (rescaled_inside its (ra_pos r) (ra_len r) (ra_new r) (ra_cap r) (ra_new_cap r)).
    + intros b Hb. destruct (Hpos r b Hr Hb) as (H1 & H2 & H3 & _). auto.
    + apply Hcap. assumption.
    + intros ch. apply Hch. assumption.
    + intros b Hb. apply Hpos; assumption.
    + assumption.
  - intros ax Hax. apply in_map_iff in Hax. destruct Hax as (r & <- & Hr). unfold g.
    apply (rescaled_cap its (ra_pos r) (ra_len r) (ra_new r) (ra_cap r)).
    + intros b Hb. destruct (Hpos r b Hr Hb) as (H1 & H2 & H3 & _). auto.
    + apply Hcap. assumption.
    + intros ch. apply Hch. assumption.
  - assert (G : forall l, incl l its -> ForallOrdPairs (fun a b => exists ax, In ax axes /\ ra_apart ax a b) l ->
      ForallOrdPairs (separated (map g axes)) l).
    { intros l Hl HF. induction HF as [|a l Ha HF IH]; constructor.
      - apply Forall_forall. intros b Hb. rewrite Forall_forall in Ha. destruct (Ha b Hb) as (r & Hr & Hap).
        exists (g r). split; [apply in_map; assumption|]. unfold g.
        apply (rescaled_apart its (ra_pos r) (ra_len r) (ra_new r) (ra_cap r)).
        + intros c Hc. destruct (Hpos r c Hr Hc) as (H1 & H2 & H3 & _). auto.
        + apply Hl. left. reflexivity.
        + apply Hl. right. assumption.
        + exact Hap.
      - apply IH. intros b Hb. apply Hl. right. assumption. }
    apply G; [intros b Hb; exact Hb|assumption].
Qed.

End Geom.
