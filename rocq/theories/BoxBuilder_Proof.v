(** * Proofs about the box instance builder *)

From Coq Require Import List ZArith QArith Qminmax Bool Lia Lqa Sorted Arith.
From Verif Require Import Util Common_Model OneDim_Model OneDim_Spec OneDimBuilder_Model OneDimBuilder_Spec OneDimBuilder_Proof
  Box_Model Box_Spec BoxBuilder_Model BoxBuilder_Spec.
Import ListNotations.
Open Scope Z_scope.

(** ** Acceptance of the calls *)

Ltac wsplit_call c :=
  destruct c as [o|v|id q|id w|id q p y|id rid x k q|id n|id n| | | | |v|id rt|id w|id p|id n|id n| | | | |i id|i id].

Ltac wunfold_setters :=
  unfold w_set_bin_weight, w_add_resource, w_add_rotation, w_set_item_weight, w_set_item_profit.

Lemma fold_finite : forall bins q,
  (fold_left (fun n t => match bn_max_weight t with Some m => (n + inject_Z (bn_copies t) * m)%Q | None => n end) bins q
   == q + qsum (fun t => inject_Z (bn_copies t) * match bn_max_weight t with Some m => m | None => 0 end) bins)%Q.
Proof.
  induction bins as [|t l IH]; intro q; cbn [fold_left]; [simpl; ring|].
  rewrite IH, qsum_cons. destruct (bn_max_weight t); ring.
Qed.

Lemma profits_auto_accept : forall b,
  match w_profits_auto b with
  | WOk _ => True /\ ~ wunchecked b WProfitsAuto
  | WThrow b' => b' = b /\ ~ True
  | WUndef => wunchecked b WProfitsAuto
  end.
Proof.
  intro b. unfold w_profits_auto. cbv zeta. cbn [wunchecked].
  pose proof (fold_finite (w_bins b) 0%Q) as F. rewrite Qplus_0_l in F.
  rewrite (fold_sum _ (fun t => bn_copies t * vol (bn_box t))), Z.add_0_l.
  set (q := fold_left _ (w_bins b) 0%Q) in *. clearbody q.
  change (zsum (fun t => bn_copies t * vol (bn_box t)) (w_bins b)) with (zsum (fun t => bn_copies t * bn_vol t) (w_bins b)).
  set (v := zsum (fun t => bn_copies t * bn_vol t) (w_bins b)). clearbody v.
  set (s := qsum _ _) in *. clearbody s.
  assert (Up : existsb (winfinite true) (w_bins b) = true <-> exists t, In t (w_bins b) /\ bn_max_weight t = None /\ 0 < bn_copies t).
  { rewrite existsb_exists. split; intros (t & Ht & H); exists t; split; auto; unfold winfinite in *.
    - destruct (bn_max_weight t); [discriminate|]. apply Z.ltb_lt in H. auto.
    - destruct H as [-> H]. apply Z.ltb_lt. assumption. }
  assert (Down : existsb (winfinite false) (w_bins b) = true <-> exists t, In t (w_bins b) /\ bn_max_weight t = None /\ bn_copies t < 0).
  { rewrite existsb_exists. split; intros (t & Ht & H); exists t; split; auto; unfold winfinite in *.
    - destruct (bn_max_weight t); [discriminate|]. apply Z.ltb_lt in H. auto.
    - destruct H as [-> H]. apply Z.ltb_lt. assumption. }
  assert (Fin : (forall t, In t (w_bins b) -> bn_max_weight t = None -> bn_copies t = 0) <->
    existsb (winfinite true) (w_bins b) = false /\ existsb (winfinite false) (w_bins b) = false).
  { rewrite <- !not_true_iff_false, Up, Down. split.
    - intro H. split; intros (t & Ht & E & L); specialize (H t Ht E); lia.
    - intros [H1 H2] t Ht E. destruct (Z.lt_trichotomy (bn_copies t) 0) as [L|[L|L]]; [|assumption|].
      + exfalso. apply H2. eauto.
      + exfalso. apply H1. eauto. }
  destruct (w_items b) as [|it l]; [split; [exact I|]; intros [H _]; congruence|].
  assert (Hne : it :: l <> []) by discriminate.
  destruct (v =? 0) eqn:Ez; [apply Z.eqb_eq in Ez; cbn [orb]; tauto|apply Z.eqb_neq in Ez; cbn [orb]].
  destruct (existsb (winfinite true) (w_bins b)), (existsb (winfinite false) (w_bins b)); cbn [andb negb orb].
  - split; [assumption|]. right. left. split; [apply Up|apply Down]; reflexivity.
  - split; [exact I|]. intros [_ [H|[[_ H]|[H _]]]]; [congruence|apply Down in H; discriminate|apply Fin in H; destruct H; discriminate].
  - split; [exact I|]. intros [_ [H|[[H _]|[H _]]]]; [congruence|apply Up in H; discriminate|apply Fin in H; destruct H; discriminate].
  - destruct (Qeq_bool q 0) eqn:Eq.
    + apply Qeq_bool_iff in Eq. split; [assumption|]. right. right. split; [apply Fin; auto|]. rewrite <- F. assumption.
    + apply Qeq_bool_neq in Eq. split; [exact I|]. intros [_ [H|[[H _]|[_ H]]]]; [congruence|apply Up in H; discriminate|].
      apply Eq. rewrite F. assumption.
Qed.

Lemma wacceptance : forall b c, wdirect c = true ->
  match wstep b c with
  | WOk _ => waccepted b c /\ ~ wunchecked b c
  | WThrow b' => b' = b /\ ~ waccepted b c
  | WUndef => wunchecked b c
  end.
Proof.
  assert (Hbin : forall b id f, match won_bin b id f with
     | WOk _ => in_range id (w_bins b) | WThrow b' => b' = b /\ ~ in_range id (w_bins b) | WUndef => False end).
  { intros b id f. unfold won_bin. destruct (bad_id id (w_bins b)) eqn:E.
    - apply bad_id_true in E. auto.
    - apply bad_id_false in E. auto. }
  assert (Hitem : forall b id f, match won_item b id f with
     | WOk _ => in_range id (w_items b) | WThrow b' => b' = b /\ ~ in_range id (w_items b) | WUndef => False end).
  { intros b id f. unfold won_item. destruct (bad_id id (w_items b)) eqn:E.
    - apply bad_id_true in E. auto.
    - apply bad_id_false in E. auto. }
  assert (Bok : forall b id f, bad_id id (w_bins b) = false -> exists b', won_bin b id f = WOk b').
  { intros b id f E. unfold won_bin. rewrite E. eauto. }
  assert (Iok : forall b id f, bad_id id (w_items b) = false -> exists b', won_item b id f = WOk b').
  { intros b id f E. unfold won_item. rewrite E. eauto. }
  intros b c Hd. wsplit_call c;
    try discriminate; cbn [wstep waccepted wunchecked]; wunfold_setters;
    try (match goal with |- context [won_bin ?b ?id ?f] => pose proof (Hbin b id f) as H; destruct (won_bin b id f); tauto end);
    try (match goal with |- context [won_item ?b ?id ?f] => pose proof (Hitem b id f) as H; destruct (won_item b id f); tauto end);
    try (simpl; tauto).
  - unfold w_add_bin. destruct (v_x v <=? 0) eqn:E; [apply Z.leb_le in E; split; [reflexivity|intro H; specialize (H AX); simpl in H; lia]|apply Z.leb_gt in E].
    destruct (v_y v <=? 0) eqn:E1; [apply Z.leb_le in E1; split; [reflexivity|intro H; specialize (H AY); simpl in H; lia]|apply Z.leb_gt in E1].
    destruct (v_z v <=? 0) eqn:E2; [apply Z.leb_le in E2; split; [reflexivity|intro H; specialize (H AZ); simpl in H; lia]|apply Z.leb_gt in E2].
    split; [intros [ | | ]; assumption|auto].
  - unfold w_set_bin_cost. destruct (bad_id id (w_bins b)) eqn:E.
    { apply bad_id_true in E. tauto. }
    pose proof E as E'. apply bad_id_false in E.
    destruct (Qle_bool q 0) eqn:E1; [apply Qle_bool_iff in E1|];
      (destruct (Qeq_bool q (-1)) eqn:E2; [apply Qeq_bool_iff in E2|apply Qeq_bool_neq in E2]); cbn [andb negb];
      try (match goal with |- context [won_bin b id ?f] => destruct (Bok b id f E') as [b' ->] end).
    + tauto.
    + split; [reflexivity|]. intros [_ [H|H]]; [lra|tauto].
    + tauto.
    + assert (0 < q)%Q. { apply Qnot_le_lt. intro H. apply Qle_bool_iff in H. congruence. } tauto.
  - unfold w_add_consumption. destruct (bad_id id (w_bins b)) eqn:E; [apply bad_id_true in E; tauto|].
    destruct (bad_id rid _) eqn:E1; [apply bad_id_true in E1; tauto|].
    pose proof E as E'. apply bad_id_false in E. apply bad_id_false in E1.
    destruct (k <? 0) eqn:E2; [apply Z.ltb_lt in E2; split; [reflexivity|intros (_ & _ & H); lia]|apply Z.ltb_ge in E2].
    destruct (x <? 0) eqn:E3; [apply Z.ltb_lt in E3; tauto|apply Z.ltb_ge in E3].
    match goal with |- context [won_bin b id ?f] => destruct (Bok b id f E') as [b' ->] end.
    split; [tauto|]. intros [_ H]. lia.
  - unfold w_set_bin_copies. destruct (bad_id id (w_bins b)) eqn:E; [apply bad_id_true in E; tauto|].
    pose proof E as E'. apply bad_id_false in E.
    match goal with |- context [if ?c then _ else _] => destruct c eqn:E1 end.
    + apply andb_prop in E1. destruct E1 as [E1 E2]. apply negb_true_iff, Z.eqb_neq in E1.
      apply orb_prop in E2. rewrite Z.leb_le, Z.ltb_lt in E2. split; [reflexivity|]. intros [_ [H|[H1 H2]]]; lia.
    + match goal with |- context [won_bin b id ?f] => destruct (Bok b id f E') as [b' ->] end.
      apply andb_false_iff in E1. rewrite negb_false_iff, Z.eqb_eq, orb_false_iff, Z.leb_gt, Z.ltb_ge in E1. intuition lia.
  - unfold w_set_bin_copies_min. destruct (bad_id id (w_bins b)) eqn:E; [apply bad_id_true in E; tauto|].
    pose proof E as E'. apply bad_id_false in E.
    destruct (n <? 0) eqn:E0; [apply Z.ltb_lt in E0; split; [reflexivity|lia]|apply Z.ltb_ge in E0].
    match goal with |- context [if ?c then _ else _] => destruct c eqn:E1 end.
    + apply andb_prop in E1. destruct E1 as [E1 E2]. apply negb_true_iff, Z.eqb_neq in E1.
      apply Z.ltb_lt in E2. split; [reflexivity|]. intros (_ & _ & [H|H]); lia.
    + match goal with |- context [won_bin b id ?f] => destruct (Bok b id f E') as [b' ->] end.
      apply andb_false_iff in E1. rewrite negb_false_iff, Z.eqb_eq, Z.ltb_ge in E1. intuition lia.
  - unfold w_add_item. destruct (v_x v <? 0) eqn:E; [apply Z.ltb_lt in E; split; [reflexivity|intro H; specialize (H AX); simpl in H; lia]|apply Z.ltb_ge in E].
    destruct (v_y v <? 0) eqn:E1; [apply Z.ltb_lt in E1; split; [reflexivity|intro H; specialize (H AY); simpl in H; lia]|apply Z.ltb_ge in E1].
    destruct (v_z v <? 0) eqn:E2; [apply Z.ltb_lt in E2; split; [reflexivity|intro H; specialize (H AZ); simpl in H; lia]|apply Z.ltb_ge in E2].
    split; [intros [ | | ]; assumption|auto].
  - unfold w_set_item_copies. destruct (bad_id id (w_items b)) eqn:E; [apply bad_id_true in E; tauto|].
    pose proof E as E'. apply bad_id_false in E.
    match goal with |- context [if ?c then _ else _] => destruct c eqn:E1 end.
    + apply andb_prop in E1. destruct E1 as [E1 E2]. apply negb_true_iff, Z.eqb_neq in E1.
      apply Z.leb_le in E2. split; [reflexivity|]. intros [_ [H|H]]; lia.
    + match goal with |- context [won_item b id ?f] => destruct (Iok b id f E') as [b' ->] end.
      apply andb_false_iff in E1. rewrite negb_false_iff, Z.eqb_eq, Z.leb_gt in E1. intuition lia.
  - unfold w_set_item_copies_min. destruct (bad_id id (w_items b)) eqn:E; [apply bad_id_true in E; tauto|].
    pose proof E as E'. apply bad_id_false in E.
    destruct (n <? -1) eqn:E0; [apply Z.ltb_lt in E0; split; [reflexivity|lia]|apply Z.ltb_ge in E0].
    match goal with |- context [won_item b id ?f] => destruct (Iok b id f E') as [b' ->] end.
    intuition lia.
  - apply profits_auto_accept.
  - unfold w_items_infinite. destruct (existsb _ _) eqn:E.
    + apply existsb_exists in E. destruct E as (t & Ht & E). apply Z.eqb_eq in E. eauto.
    + split; [exact I|]. intros (t & Ht & E1).
      assert (existsb (fun t => vol (bi_box t) =? 0) (w_items b) = true); [|congruence].
      apply existsb_exists. exists t. split; [assumption|]. apply Z.eqb_eq. assumption.
Qed.

(** ** Invariant of the builder *)

Record wbin_inv (t : BBin) : Prop := {
  wbk_min : 0 <= bn_copies_min t;
  wbk_copies : bn_copies t = -1 \/ (1 <= bn_copies t /\ bn_copies_min t <= bn_copies t)
}.
Record witem_inv (t : BItem) : Prop := {
  wik_box : forall a, 0 <= vat (bi_box t) a;
  wik_min : -1 <= bi_copies_min t;
  wik_ids : bi_resource_ids t = []
}.
Definition winv (b : BBuilder) : Prop :=
  (forall t, In t (w_bins b) -> wbin_inv t) /\ (forall t, In t (w_items b) -> witem_inv t).

Definition wkeeps (r : WRes) : Prop := match r with WOk b | WThrow b => winv b | WUndef => True end.

Lemma wkeeps_then : forall r f, wkeeps r -> (forall b, winv b -> wkeeps (f b)) -> wkeeps (wthen r f).
Proof. intros [b|b|] f H Hf; simpl in *; auto. Qed.

Lemma wkeeps_fold : forall (A : Type) (f : BBuilder -> A -> WRes) (l : list A) r,
  wkeeps r -> (forall b a, winv b -> wkeeps (f b a)) ->
  wkeeps (fold_left (fun r a => wthen r (fun b => f b a)) l r).
Proof.
  intros A f l. induction l as [|a l IH]; intros r Hr Hf; simpl; [assumption|].
  apply IH; [|assumption]. apply wkeeps_then; auto.
Qed.

Lemma wkeeps_bin : forall b id f, winv b ->
  (forall t, In t (w_bins b) -> wbin_inv (f t)) -> wkeeps (won_bin b id f).
Proof.
  intros b id f [H1 H2] Hf. unfold won_bin. destruct (bad_id id (w_bins b)); simpl; [split; assumption|].
  split; simpl; [|assumption]. intros t Ht. apply upd_in in Ht.
  destruct Ht as [Ht|(x & Hx & ->)]; auto.
Qed.

Lemma wkeeps_bin_at : forall b id f, winv b -> bad_id id (w_bins b) = false ->
  (wbin_inv (nth (Z.to_nat id) (w_bins b) dummy_bbin) -> wbin_inv (f (nth (Z.to_nat id) (w_bins b) dummy_bbin))) ->
  wkeeps (won_bin b id f).
Proof.
  intros b id f [H1 H2] E Hf. unfold won_bin. rewrite E. simpl.
  split; simpl; [|assumption]. intros t Ht. apply In_nth with (d := dummy_bbin) in Ht.
  destruct Ht as (n & Hn & <-). rewrite upd_length in Hn.
  apply bad_id_false in E. unfold in_range in E. rewrite nth_upd by lia.
  assert (Hin : wbin_inv (nth n (w_bins b) dummy_bbin)) by (apply H1; apply nth_In; assumption).
  destruct (Nat.eqb (Z.to_nat id) n) eqn:En; [|assumption].
  apply Nat.eqb_eq in En. subst n. auto.
Qed.

Lemma wkeeps_item : forall b id f, winv b ->
  (forall t, In t (w_items b) -> witem_inv (f t)) -> wkeeps (won_item b id f).
Proof.
  intros b id f [H1 H2] Hf. unfold won_item. destruct (bad_id id (w_items b)); simpl; [split; assumption|].
  split; simpl; [assumption|]. intros t Ht. apply upd_in in Ht.
  destruct Ht as [Ht|(x & Hx & ->)]; auto.
Qed.

Lemma wdirect_keeps : forall b c, wdirect c = true -> winv b -> wkeeps (wstep b c).
Proof.
  intros b c Hd Hb. pose proof Hb as [Hb1 Hb2].
  assert (Kbin : forall id f, (forall t, wbin_inv t -> wbin_inv (f t)) -> wkeeps (won_bin b id f)).
  { intros id f Hf. apply wkeeps_bin; [assumption|]. intros t Ht. apply Hf. auto. }
  assert (Kitem : forall id f, (forall t, witem_inv t -> witem_inv (f t)) -> wkeeps (won_item b id f)).
  { intros id f Hf. apply wkeeps_item; [assumption|]. intros t Ht. apply Hf. auto. }
  assert (Mbin : forall f, (forall t, wbin_inv t -> wbin_inv (f t)) -> wkeeps (WOk (wset_bins b (map f (w_bins b))))).
  { intros f Hf. split; simpl; [|assumption]. intros t Ht. apply in_map_iff in Ht. destruct Ht as (x & <- & Hx). auto. }
  assert (Mitem : forall f, (forall t, witem_inv t -> witem_inv (f t)) -> wkeeps (WOk (wset_items b (map f (w_items b))))).
  { intros f Hf. split; simpl; [assumption|]. intros t Ht. apply in_map_iff in Ht. destruct Ht as (x & <- & Hx). auto. }
  wsplit_call c;
    try discriminate; cbn [wstep];
    try (apply Kbin; intros t [T1 T2]; constructor; simpl; assumption);
    try (apply Kitem; intros t [T1 T2 T3]; constructor; simpl; assumption);
    try (apply Mbin; intros t [T1 T2]; constructor; simpl; auto; fail);
    try (apply Mitem; intros t [T1 T2 T3]; constructor; simpl; auto; fail);
    try (split; assumption).
  - unfold w_add_bin. destruct (v_x v <=? 0); [exact Hb|]. destruct (v_y v <=? 0); [exact Hb|].
    destruct (v_z v <=? 0); [exact Hb|]. split; [|assumption].
    simpl. intros t Ht. apply in_app_or in Ht. destruct Ht as [Ht|[<-|[]]]; [auto|].
    constructor; simpl; lia.
  - unfold w_set_bin_cost. destruct (bad_id id (w_bins b)); [exact Hb|].
    destruct (Qle_bool q 0 && negb (Qeq_bool q (-1))) eqn:E; [exact Hb|].
    apply Kbin. intros t [T1 T2]. constructor; simpl; assumption.
  - unfold w_add_consumption. destruct (bad_id id (w_bins b)); [exact Hb|].
    destruct (bad_id rid _); [exact Hb|]. destruct (k <? 0); [exact Hb|]. destruct (x <? 0); [exact I|].
    apply Kbin. intros t [T1 T2]. constructor; simpl; assumption.
  - unfold w_set_bin_copies. destruct (bad_id id (w_bins b)) eqn:E0; [exact Hb|].
    match goal with |- context [if ?c then _ else _] => destruct c eqn:E1; [exact Hb|] end.
    apply wkeeps_bin_at; [assumption..|]. intros [T1 T2]. constructor; simpl; try assumption.
    apply andb_false_iff in E1. rewrite negb_false_iff, Z.eqb_eq, orb_false_iff, Z.leb_gt, Z.ltb_ge in E1. lia.
  - unfold w_set_bin_copies_min. destruct (bad_id id (w_bins b)) eqn:E0; [exact Hb|].
    destruct (n <? 0) eqn:E2; [exact Hb|]. apply Z.ltb_ge in E2.
    match goal with |- context [if ?c then _ else _] => destruct c eqn:E1; [exact Hb|] end.
    apply wkeeps_bin_at; [assumption..|]. intros [T1 T2]. constructor; simpl; try assumption.
    apply andb_false_iff in E1. rewrite negb_false_iff, Z.eqb_eq, Z.ltb_ge in E1. lia.
  - unfold w_add_item. destruct (v_x v <? 0) eqn:E; [exact Hb|]. destruct (v_y v <? 0) eqn:E1; [exact Hb|].
    destruct (v_z v <? 0) eqn:E2; [exact Hb|].
    apply Z.ltb_ge in E, E1, E2. split; simpl; [assumption|].
    intros t Ht. apply in_app_or in Ht. destruct Ht as [Ht|[<-|[]]]; [auto|].
    constructor; simpl; [intros [ | | ]; assumption|lia|reflexivity].
  - unfold w_set_item_copies. destruct (bad_id id (w_items b)); [exact Hb|].
    match goal with |- context [if ?c then _ else _] => destruct c; [exact Hb|] end.
    apply Kitem. intros t [T1 T2 T3]. constructor; simpl; assumption.
  - unfold w_set_item_copies_min. destruct (bad_id id (w_items b)); [exact Hb|].
    destruct (n <? -1) eqn:E; [exact Hb|]. apply Z.ltb_ge in E.
    apply Kitem. intros t [T1 T2 T3]. constructor; simpl; assumption.
  - unfold w_profits_auto. cbv zeta. destruct (w_items b) eqn:Ei; [exact Hb|]. rewrite <- Ei in *.
    match goal with |- context [if ?c then _ else _] => destruct c; [exact I|] end.
    apply Mitem. intros t [T1 T2 T3]. constructor; simpl; assumption.
  - unfold w_items_infinite. destruct (existsb _ _); [exact I|].
    apply Mitem. intros t [T1 T2 T3]. constructor; simpl; assumption.
Qed.

Ltac nextcall c := apply wkeeps_then; [apply (wdirect_keeps _ c); auto|]; match goal with H : winv ?b |- _ => clear b H end; intros b Hb.

Lemma wstep_keeps : forall b c, winv b -> wkeeps (wstep b c).
Proof.
  intros b c Hb. destruct (wdirect c) eqn:Hd; [apply wdirect_keeps; assumption|].
  wsplit_call c; try discriminate; cbn [wstep].
  - unfold w_copy_bin. destruct (nth_error _ _) as [t|]; [|exact I].
    apply wkeeps_then; [apply (wdirect_keeps b (WAddBin (bn_box t))); auto|].
    generalize (length (w_bins b)) as id0. clear b Hb. intros id0 b Hb. cbv zeta.
    apply wkeeps_then; [apply (wdirect_keeps (mkW (w_objective b) (w_items b) (w_bins b) _) (WSetBinCost _ _)); auto|].
    clear b Hb. intros b Hb.
    apply wkeeps_then; [apply (wdirect_keeps b (WSetBinCopies _ _)); auto|]. clear b Hb. intros b Hb.
    apply wkeeps_then; [apply (wdirect_keeps b (WSetBinCopiesMin _ _)); auto|]. clear b Hb. intros b Hb.
    apply wkeeps_then; [apply (wdirect_keeps b (WSetBinWeight _ _)); auto|]. clear b Hb. intros b Hb.
    apply (wkeeps_fold _ (fun b res => w_add_resource b _ (res_capacity res) (res_penalize res) (res_penalty res))); [exact Hb|].
    intros b' e Hb'. apply (wdirect_keeps b' (WAddResource _ _ _ _)); auto.
  - unfold w_copy_item. destruct (nth_error _ _) as [t|]; [|exact I].
    apply wkeeps_then; [apply (wdirect_keeps b (WAddItem _)); auto|].
    generalize (Z.of_nat (length (w_items b))) as zid. clear b Hb. intros zid b Hb.
    apply wkeeps_then.
    { apply (wkeeps_fold _ (fun b r => w_add_rotation b zid r)); [exact Hb|].
      intros b' r Hb'. apply (wdirect_keeps b' (WAddRotation _ _)); auto. }
    clear b Hb. intros b Hb.
    apply wkeeps_then; [apply (wdirect_keeps b (WSetItemProfit _ _)); auto|]. clear b Hb. intros b Hb.
    apply wkeeps_then; [apply (wdirect_keeps b (WSetItemCopies _ _)); auto|]. clear b Hb. intros b Hb.
    apply wkeeps_then; [apply (wdirect_keeps b (WSetItemWeight _ _)); auto|]. clear b Hb. intros b Hb.
    apply (wkeeps_fold _ (fun b ko => match snd ko with
          | None => WOk b
          | Some sub =>
              match nth_error (bx_bins i) (fst ko) with
              | None => WUndef
              | Some obt => w_copy_resources b (Z.of_nat sub) zid id (bn_resources obt)
              end
          end)); [exact Hb|].
    clear b Hb. intros b [o [sub|]] Hb; simpl; [|exact Hb].
    destruct (nth_error (bx_bins i) o) as [obt|]; [|exact I].
    unfold w_copy_resources.
    apply (wkeeps_fold _ (fun b kres => if (id <? length (res_item_consumptions (snd kres)))%nat
      then w_copy_schedule b (Z.of_nat sub) (fst kres) zid (nth id (res_item_consumptions (snd kres)) [])
      else WOk b)); [exact Hb|].
    clear b Hb. intros b [k res] Hb; simpl.
    destruct (id <? length (res_item_consumptions res))%nat; [|exact Hb].
    unfold w_copy_schedule.
    apply (wkeeps_fold _ (fun b kq => w_add_consumption b (Z.of_nat sub) k zid (fst kq) (snd kq))); [exact Hb|].
    clear b Hb. intros b [c q] Hb; simpl. apply (wdirect_keeps b (WAddConsumption _ _ _ _ _)); auto.
Qed.

Lemma wrun_snoc : forall o calls c, wrun o (calls ++ [c]) =
  match wrun o calls with
  | None => None
  | Some b => match wstep b c with WOk b' | WThrow b' => Some b' | WUndef => None end
  end.
Proof. intros. unfold wrun. rewrite fold_left_app. reflexivity. Qed.

Lemma wrun_inv : forall o calls b, wrun o calls = Some b -> winv b.
Proof.
  intros o calls. induction calls as [|c calls IH] using rev_ind; intros b H.
  - injection H as <-. split; intros t [].
  - rewrite wrun_snoc in H. destruct (wrun o calls) as [b0|]; [|discriminate].
    pose proof (wstep_keeps b0 c (IH b0 eq_refl)) as K.
    destruct (wstep b0 c); simpl in K; try discriminate; injection H as <-; assumption.
Qed.

(** ** build *)

Lemma wbest_efficiency_spec : forall items,
  match wbest_efficiency items with
  | None => items = []
  | Some k => (k < length items)%nat /\
      forall t, In t items -> (wefficiency t <= wefficiency (nth k items dummy_bitem))%Q
  end.
Proof.
  intro items. unfold wbest_efficiency.
  assert (H : forall n, (n <= length items)%nat ->
    match fold_left (fun best k =>
      match best with
      | None => Some k
      | Some j => if Qltb (wefficiency (nth j items dummy_bitem)) (wefficiency (nth k items dummy_bitem)) then Some k else best
      end) (seq 0 n) None with
    | None => n = 0%nat
    | Some k => (k < n)%nat /\ forall j, (j < n)%nat ->
        (wefficiency (nth j items dummy_bitem) <= wefficiency (nth k items dummy_bitem))%Q
    end).
  { induction n as [|n IH]; intro Hn; [reflexivity|]. rewrite seq_S, fold_left_app. simpl.
    specialize (IH ltac:(lia)). destruct (fold_left _ (seq 0 n) None) as [k|].
    - destruct IH as [K1 K2]. destruct (Qltb _ _) eqn:E.
      + apply qltb_lt in E. split; [lia|]. intros j Hj. destruct (Nat.eq_dec j n) as [->|]; [apply Qle_refl|].
        specialize (K2 j ltac:(lia)). lra.
      + apply qltb_ge in E. split; [lia|]. intros j Hj. destruct (Nat.eq_dec j n) as [->|]; [assumption|].
        apply K2. lia.
    - subst n. split; [lia|]. intros j Hj. replace j with 0%nat by lia. apply Qle_refl. }
  specialize (H (length items) (Nat.le_refl _)). destruct (fold_left _ _ None) as [k|].
  - destruct H as [H1 H2]. split; [assumption|]. intros t Ht. apply In_nth with (d := dummy_bitem) in Ht.
    destruct Ht as (j & Hj & <-). auto.
  - destruct items; [reflexivity|discriminate].
Qed.

Lemma wexpand_spec : forall bins,
  let '(ids, prev, p) := wexpand_bins bins in
  ids = flat_map (fun t => repeat t (Z.to_nat (bn_copies (nth t bins dummy_bbin)))) (seq 0 (length bins)) /\
  length prev = length ids /\
  (forall k, (k < length ids)%nat -> nth k prev 0 = zsum (fun t => bn_vol (nth t bins dummy_bbin)) (firstn k ids)) /\
  p = zsum (fun t => bn_vol (nth t bins dummy_bbin)) ids.
Proof.
  intro bins. unfold wexpand_bins.
  assert (Inner : forall k n ids prev p, length prev = length ids ->
    (forall j, (j < length ids)%nat -> nth j prev 0 = zsum (fun t => bn_vol (nth t bins dummy_bbin)) (firstn j ids)) ->
    p = zsum (fun t => bn_vol (nth t bins dummy_bbin)) ids ->
    let '(ids', prev', p') := fold_left (fun (acc : list nat * list Z * Z) (_ : unit) =>
          let '(ids, prev, p) := acc in (ids ++ [k], prev ++ [p], p + bn_vol (nth k bins dummy_bbin)))
        (repeat tt n) (ids, prev, p) in
    ids' = ids ++ repeat k n /\ length prev' = length ids' /\
    (forall j, (j < length ids')%nat -> nth j prev' 0 = zsum (fun t => bn_vol (nth t bins dummy_bbin)) (firstn j ids')) /\
    p' = zsum (fun t => bn_vol (nth t bins dummy_bbin)) ids').
  { intros k n. induction n as [|n IH]; intros ids prev p H1 H2 H3; simpl.
    - rewrite app_nil_r. auto.
    - specialize (IH (ids ++ [k]) (prev ++ [p]) (p + bn_vol (nth k bins dummy_bbin))).
      destruct (fold_left _ (repeat tt n) _) as [[ids' prev'] p'].
      rewrite <- app_assoc in IH. apply IH.
      + rewrite !app_length. simpl. lia.
      + intros j Hj. rewrite app_length in Hj. simpl in Hj.
        destruct (Nat.eq_dec j (length ids)) as [->|].
        * rewrite app_nth2 by lia. rewrite H1, Nat.sub_diag. simpl.
          rewrite firstn_app, Nat.sub_diag, firstn_all. simpl. rewrite app_nil_r. assumption.
        * rewrite app_nth1 by lia. rewrite firstn_app. replace (j - length ids)%nat with 0%nat by lia.
          simpl. rewrite app_nil_r. apply H2. lia.
      + rewrite zsum_snoc. lia. }
  assert (Outer : forall n, let '(ids, prev, p) := fold_left (fun acc k =>
      let t := nth k bins dummy_bbin in
      fold_left (fun (acc : list nat * list Z * Z) (_ : unit) =>
          let '(ids, prev, p) := acc in (ids ++ [k], prev ++ [p], p + bn_vol t))
        (repeat tt (Z.to_nat (bn_copies t))) acc)
    (seq 0 n) ([], [], 0) in
    ids = flat_map (fun t => repeat t (Z.to_nat (bn_copies (nth t bins dummy_bbin)))) (seq 0 n) /\
    length prev = length ids /\
    (forall k, (k < length ids)%nat -> nth k prev 0 = zsum (fun t => bn_vol (nth t bins dummy_bbin)) (firstn k ids)) /\
    p = zsum (fun t => bn_vol (nth t bins dummy_bbin)) ids).
  { induction n as [|n IH].
    - simpl. split; [reflexivity|]. split; [reflexivity|]. split; [intros k Hk; lia|reflexivity].
    - rewrite seq_S, fold_left_app. cbn [fold_left].
      destruct (fold_left _ (seq 0 n) _) as [[ids prev] p]. destruct IH as (I1 & I2 & I3 & I4). cbv zeta.
      specialize (Inner (0 + n)%nat (Z.to_nat (bn_copies (nth (0 + n) bins dummy_bbin))) ids prev p I2 I3 I4).
      destruct (fold_left _ (repeat tt _) _) as [[ids' prev'] p'].
      destruct Inner as (J1 & J2 & J3 & J4). split; [|auto].
      rewrite J1, I1, flat_map_app. simpl. rewrite app_nil_r. reflexivity. }
  apply Outer.
Qed.

Lemma smallest_fold : forall a items m,
  let r := fold_left (fun m t => fold_left (fun m r => wmin m (vat (rotate (bi_box t) r) a)) (bi_rotations t) m) items m in
  (forall v, m = Some v -> exists v', r = Some v' /\ v' <= v) /\
  (forall t s, In t items -> can_size a t s -> exists v', r = Some v' /\ v' <= s) /\
  (forall v', r = Some v' -> m = Some v' \/ exists t, In t items /\ can_size a t v').
Proof.
  intros a items.
  assert (Inner : forall t rs m, let r := fold_left (fun m r => wmin m (vat (rotate (bi_box t) r) a)) rs m in
    (forall v, m = Some v -> exists v', r = Some v' /\ v' <= v) /\
    (forall q, In q rs -> exists v', r = Some v' /\ v' <= vat (rotate (bi_box t) q) a) /\
    (forall v', r = Some v' -> m = Some v' \/ exists q, In q rs /\ v' = vat (rotate (bi_box t) q) a)).
  { intros t rs. induction rs as [|q rs IH]; intro m; cbn [fold_left]; cbv zeta.
    - split; [intros v ->; exists v; split; [reflexivity|lia]|]. split; [intros q []|auto].
    - specialize (IH (wmin m (vat (rotate (bi_box t) q) a))). cbv zeta in IH. destruct IH as (I1 & I2 & I3).
      split; [|split].
      + intros v ->. simpl in I1. destruct (I1 _ eq_refl) as (v' & E & L). exists v'. split; [assumption|lia].
      + intros q' [<-|Hq].
        * destruct m as [v|]; simpl in I1; destruct (I1 _ eq_refl) as (v' & E & L); exists v'; (split; [assumption|lia]).
        * auto.
      + intros v' E. destruct (I3 v' E) as [H|(q' & Hq & H)].
        * destruct m as [v|]; simpl in H; injection H as <-.
          -- destruct (Z.min_spec v (vat (rotate (bi_box t) q) a)) as [[_ ->]|[_ ->]]; [auto|]. right. exists q. simpl. auto.
          -- right. exists q. simpl. auto.
        * right. exists q'. simpl. auto. }
  induction items as [|t items IH]; intro m; cbn [fold_left]; cbv zeta.
  - split; [intros v ->; exists v; split; [reflexivity|lia]|]. split; [intros t s []|auto].
  - specialize (Inner t (bi_rotations t) m). cbv zeta in Inner.
    set (m' := fold_left _ (bi_rotations t) m) in *. clearbody m'. destruct Inner as (J1 & J2 & J3).
    specialize (IH m'). cbv zeta in IH. destruct IH as (I1 & I2 & I3). split; [|split].
    + intros v Hv. destruct (J1 v Hv) as (v1 & E1 & L1). destruct (I1 v1 E1) as (v2 & E2 & L2). exists v2. split; [assumption|lia].
    + intros u s [<-|Hu] Hs; [|eauto]. destruct Hs as (q & Hq & ->). destruct (J2 q Hq) as (v1 & E1 & L1).
      destruct (I1 v1 E1) as (v2 & E2 & L2). exists v2. split; [assumption|lia].
    + intros v' E. destruct (I3 v' E) as [H|(u & Hu & H)].
      * destruct (J3 v' H) as [H'|(q & Hq & ->)]; [auto|]. right. exists t. split; [left; reflexivity|]. exists q. auto.
      * right. exists u. simpl. auto.
Qed.

Lemma smallest_along_spec : forall a items, (forall t, In t items -> bi_rotations t <> []) ->
  is_smallest_along a items (smallest_along a items).
Proof.
  intros a items Hrot. unfold smallest_along. pose proof (smallest_fold a items None) as S0. cbv zeta in S0.
  set (r := fold_left _ items None) in *. clearbody r. destruct S0 as (_ & S2 & S3).
  destruct items as [|t0 items].
  - left. split; [reflexivity|]. destruct r as [v|]; [|reflexivity]. destruct (S3 v eq_refl) as [H|(t & [] & _)]. discriminate.
  - right. destruct r as [v|].
    + split.
      * destruct (S3 v eq_refl) as [H|H]; [discriminate|assumption].
      * intros t s Ht Hs. destruct (S2 t s Ht Hs) as (v' & E & L). injection E as <-. assumption.
    + exfalso. assert (Hin : In t0 (t0 :: items)) by (left; reflexivity). specialize (Hrot t0 Hin).
      destruct (bi_rotations t0) as [|q l] eqn:Er; [congruence|].
      destruct (S2 t0 (vat (rotate (bi_box t0) q) a) Hin) as (v' & E & _); [|discriminate].
      exists q. rewrite Er. simpl. auto.
Qed.

Lemma wbin_weight_spec : forall bins,
  match wbin_weight bins with
  | Some w => (forall t, In t bins -> bn_max_weight t <> None) /\
      (w == qsum (fun t => inject_Z (bn_copies t) * match bn_max_weight t with Some m => m | None => 0 end) bins)%Q
  | None => exists t, In t bins /\ bn_max_weight t = None
  end.
Proof.
  intro bins. unfold wbin_weight. induction bins as [|a l IH] using rev_ind.
  - simpl. split; [intros t []|reflexivity].
  - rewrite fold_left_app. cbn [fold_left]. set (acc := fold_left _ l _) in *. clearbody acc.
    destruct acc as [w|].
    + destruct IH as [I1 I2]. destruct (bn_max_weight a) as [m|] eqn:E.
      * split.
        -- intros t Ht. apply in_app_or in Ht. destruct Ht as [Ht|[<-|[]]]; [auto|congruence].
        -- rewrite qsum_snoc, I2, E. reflexivity.
      * exists a. split; [apply in_elt|assumption].
    + destruct IH as (t & Ht & E). exists t. split; [apply in_or_app; left; assumption|assumption].
Qed.

Section Build.

Variable b : BBuilder.
Variable i : BInstance.
Variable d : BDerived.
Hypothesis Hbuild : w_build b = WBuilt i d.
Hypothesis Hinv : winv b.

Notation items := (map (wresolve_item (w_objective b)) (w_items b)).
Notation bins := (map (wresolve_copies (db_number_of_items d)) (w_bins b)).

Lemma wbuild_eq :
  bx_objective i = w_objective b /\
  (forall t, In t items -> bi_copies_min t <= bi_copies t /\ vol (bi_box t) <> 0) /\
  bx_bins i = bins /\
  bx_items i = map (fun x => bi_with_ids (wresource_ids_of bins x) (nth x items dummy_bitem)) (seq 0 (length items)) /\
  (bx_objective i = OOpenDimensionX \/ bx_objective i = OOpenDimensionY -> length (db_bin_type_ids d) = 1%nat) /\
  d = (mkDb (fst (fst (wexpand_bins bins))) (snd (fst (wexpand_bins bins)))
            (fold_left (fun n t => n + bn_copies t * vol (bn_box t)) bins 0)
            (fold_left (fun n t => n + bn_copies t * base_area (bn_box t)) bins 0)
            (wbin_weight bins)
            (fold_left (fun m t => if Qltb m (bn_cost t) then bn_cost t else m) bins 0%Q)
            (fold_left (fun n t => n + bi_copies t) items 0)
            (fold_left (fun n t => n + bi_copies t * vol (bi_box t)) items 0)
            (smallest_along AX items) (smallest_along AY items) (smallest_along AZ items)
            (fold_left (fun n t => (n + inject_Z (bi_copies t) * bi_weight t)%Q) items 0%Q)
            (fold_left (fun n t => (n + inject_Z (bi_copies t) * bi_profit t)%Q) items 0%Q)
            (fold_left (fun m t => if Qltb m (bi_profit t) then bi_profit t else m) items 0%Q)
            (wbest_efficiency items)
            (fold_left (fun m t => if m <? bi_copies t then bi_copies t else m) items 0)
            (forallb (fun t => negb (bi_copies t <? winfinite_copies (volume_max (w_bins b)) t)) items)).
Proof.
  pose proof Hbuild as H. unfold w_build in H. cbv zeta in H.
  destruct (find _ _) as [t|] eqn:Ef; [destruct (bi_copies t <? bi_copies_min t); discriminate|].
  match type of H with context [wexpand_bins ?l] => destruct (wexpand_bins l) as [[ids prev] p] eqn:Ex end.
  match type of H with context [if ?c then _ else _] => destruct c eqn:Eo; [discriminate|] end.
  match type of H with context [if ?c then _ else _] => destruct c eqn:Er; [discriminate|] end.
  injection H as <- <-. cbn [bx_objective bx_bins bx_items db_number_of_items db_bin_type_ids].
  split; [reflexivity|]. split.
  { intros t Ht. pose proof (find_none_all _ _ _ Ef t Ht) as F. simpl in F. apply orb_false_iff in F.
    rewrite Z.ltb_ge, Z.eqb_neq in F. exact F. }
  split; [reflexivity|]. split; [reflexivity|]. split.
  { intros [E|E]; rewrite E in Eo; apply negb_false_iff, Z.eqb_eq in Eo; lia. }
  rewrite Ex. reflexivity.
Qed.

Lemma wresolved_nth : forall x, (x < length (w_items b))%nat ->
  nth x items dummy_bitem = wresolve_item (w_objective b) (nth x (w_items b) dummy_bitem).
Proof.
  intros x Hx.
  rewrite nth_indep with (d' := wresolve_item (w_objective b) dummy_bitem) by (rewrite map_length; assumption).
  apply map_nth.
Qed.

Lemma witems_nth : forall x, (x < length (w_items b))%nat ->
  bxitem i x = bi_with_ids (wresource_ids_of bins x) (wresolve_item (w_objective b) (nth x (w_items b) dummy_bitem)).
Proof.
  intros x Hx. destruct wbuild_eq as (_ & _ & _ & E & _). unfold bxitem. rewrite E.
  rewrite map_length.
  rewrite nth_indep with (d' := bi_with_ids (wresource_ids_of bins 0%nat) (nth 0%nat items dummy_bitem))
    by (rewrite map_length, seq_length; assumption).
  rewrite map_nth with (f := fun x => bi_with_ids (wresource_ids_of bins x) (nth x items dummy_bitem)).
  rewrite seq_nth by assumption. simpl plus.
  f_equal. apply wresolved_nth. assumption.
Qed.

Lemma witems_length : length (bx_items i) = length (w_items b).
Proof.
  destruct wbuild_eq as (_ & _ & _ & E & _). rewrite E, map_length, seq_length, map_length. reflexivity.
Qed.

Lemma wbins_nth : forall t, (t < length (w_bins b))%nat ->
  bxbin i t = wresolve_copies (db_number_of_items d) (nth t (w_bins b) dummy_bbin).
Proof.
  intros t Ht. destruct wbuild_eq as (_ & _ & E & _). unfold bxbin. rewrite E.
  rewrite nth_indep with (d' := wresolve_copies (db_number_of_items d) dummy_bbin)
    by (rewrite map_length; assumption).
  apply map_nth.
Qed.

Lemma wbins_length : length (bx_bins i) = length (w_bins b).
Proof. destruct wbuild_eq as (_ & _ & E & _). rewrite E, map_length. reflexivity. Qed.

Lemma win_items_in : forall t, In t (bx_items i) -> exists x, (x < length (w_items b))%nat /\ t = bxitem i x.
Proof.
  intros t Ht. apply In_nth with (d := dummy_bitem) in Ht. destruct Ht as (x & Hx & <-).
  rewrite witems_length in Hx. exists x. split; [assumption|reflexivity].
Qed.

Lemma win_bins_in : forall t, In t (bx_bins i) -> exists x, (x < length (w_bins b))%nat /\ t = bxbin i x.
Proof.
  intros t Ht. apply In_nth with (d := dummy_bbin) in Ht. destruct Ht as (x & Hx & <-).
  rewrite wbins_length in Hx. exists x. split; [assumption|reflexivity].
Qed.

(** A function of the item types that does not look at the resource ids. *)
Lemma witems_map : forall (B : Type) (f : BItem -> B),
  (forall t l, f (bi_with_ids l t) = f t) -> map f (bx_items i) = map f items.
Proof.
  intros B f Hf. apply nth_ext with (d := f dummy_bitem) (d' := f dummy_bitem).
  - rewrite !map_length. apply witems_length.
  - intros n Hn. rewrite map_length, witems_length in Hn. rewrite !map_nth.
    change (nth n (bx_items i) dummy_bitem) with (bxitem i n). rewrite (witems_nth n Hn), Hf.
    f_equal. symmetry. apply wresolved_nth. assumption.
Qed.

Lemma wzsum_items : forall f : BItem -> Z, (forall t l, f (bi_with_ids l t) = f t) ->
  zsum f items = zsum f (bx_items i).
Proof.
  intros f Hf. rewrite (zsum_as_map _ f items), (zsum_as_map _ f (bx_items i)). f_equal. symmetry. apply witems_map. assumption.
Qed.

Lemma wqsum_items : forall f : BItem -> Q, (forall t l, f (bi_with_ids l t) = f t) ->
  qsum f items = qsum f (bx_items i).
Proof.
  intros f Hf. rewrite (qsum_as_map _ f items), (qsum_as_map _ f (bx_items i)). f_equal. symmetry. apply witems_map. assumption.
Qed.

Lemma win_map_items : forall (B : Type) (f : BItem -> B), (forall t l, f (bi_with_ids l t) = f t) ->
  forall y, (exists t, In t (bx_items i) /\ f t = y) <-> (exists t, In t items /\ f t = y).
Proof.
  intros B f Hf y. pose proof (witems_map B f Hf) as E.
  split; intros (t & Ht & <-); apply (in_map f) in Ht; [rewrite E in Ht|rewrite <- E in Ht];
    apply in_map_iff in Ht; destruct Ht as (u & E1 & Hu); exists u; auto.
Qed.

Lemma wnumber_eq : db_number_of_items d = zsum bi_copies (w_items b).
Proof.
  destruct wbuild_eq as (_ & _ & _ & _ & _ & Ed). rewrite Ed at 1. cbn [db_number_of_items].
  rewrite fold_sum, zsum_map. reflexivity.
Qed.

Lemma wbuild_holds : wholds_data b i.
Proof.
  destruct wbuild_eq as (Eo & _). constructor; [assumption| |].
  - split; [apply witems_length|]. intros x Hx. cbv zeta. rewrite (witems_nth x Hx), Eo. simpl. repeat split; reflexivity.
  - split; [apply wbins_length|]. intros t Ht. cbv zeta. rewrite (wbins_nth t Ht), wnumber_eq. simpl. repeat split; reflexivity.
Qed.

Lemma wbuild_bounded : wwell_bounded i.
Proof.
  destruct wbuild_eq as (Eo & E1 & _).
  destruct Hinv as [I1 I2].
  constructor.
  - intros t Ht. destruct (win_items_in t Ht) as (x & Hx & ->). rewrite (witems_nth x Hx). simpl.
    assert (Hin : In (wresolve_item (w_objective b) (nth x (w_items b) dummy_bitem)) items).
    { apply in_map. apply nth_In. assumption. }
    destruct (E1 _ Hin) as [F1 F2]. unfold vol in F2. simpl in F1, F2.
    destruct (I2 (nth x (w_items b) dummy_bitem) (nth_In _ _ Hx)) as [G1 G2 _].
    split.
    { pose proof (G1 AX) as GX. pose proof (G1 AY) as GY. pose proof (G1 AZ) as GZ. simpl in GX, GY, GZ.
      intros [ | | ]; simpl; nia. }
    split; [destruct (bi_rotations (nth x (w_items b) dummy_bitem)); discriminate|]. split; [assumption|].
    destruct (bi_copies_min (nth x (w_items b) dummy_bitem) =? -1) eqn:Em; intro Hc.
    + destruct (w_objective b); lia.
    + apply Z.eqb_neq in Em. lia.
  - intros t Ht. destruct (win_bins_in t Ht) as (x & Hx & ->). rewrite (wbins_nth x Hx). simpl.
    apply (I1 (nth x (w_bins b) dummy_bbin) (nth_In _ _ Hx)).
Qed.

Lemma wsmallest_items : forall a, is_smallest_along a items (smallest_along a items) ->
  is_smallest_along a (bx_items i) (smallest_along a items).
Proof.
  intros a [[H1 H2]|[(t0 & Ht0 & C0) H2]].
  - left. split; [|assumption]. apply map_eq_nil in H1. apply length_zero_iff_nil. rewrite witems_length, H1. reflexivity.
  - right. split.
    + apply In_nth with (d := dummy_bitem) in Ht0. destruct Ht0 as (x & Hx & E). rewrite map_length in Hx.
      exists (bxitem i x). split; [unfold bxitem; apply nth_In; rewrite witems_length; assumption|].
      rewrite (witems_nth x Hx), <- (wresolved_nth x Hx). rewrite <- E in C0. exact C0.
    + intros t w Ht Hw. destruct (win_items_in t Ht) as (x & Hx & ->).
      rewrite (witems_nth x Hx), <- (wresolved_nth x Hx) in Hw.
      apply (H2 (nth x items dummy_bitem)); [|exact Hw]. apply nth_In. rewrite map_length. assumption.
Qed.

Lemma witems_rotations : forall t, In t items -> bi_rotations t <> [].
Proof.
  intros t Ht. apply in_map_iff in Ht. destruct Ht as (u & <- & _). simpl. destruct (bi_rotations u); discriminate.
Qed.

Lemma volume_max_spec : forall (l : list BBin), l <> [] -> (forall t, In t l -> 0 < bn_vol t) ->
  (forall t, In t l -> bn_vol t <= volume_max l) /\ exists t, In t l /\ volume_max l = bn_vol t.
Proof.
  intros l Hne Hp. unfold volume_max.
  assert (H : forall l m, (forall t, In t l -> bn_vol t <= fold_left (fun m t => Z.max m (vol (bn_box t))) l m) /\
     m <= fold_left (fun m t => Z.max m (vol (bn_box t))) l m /\
     (fold_left (fun m t => Z.max m (vol (bn_box t))) l m = m \/ exists t, In t l /\ fold_left (fun m t => Z.max m (vol (bn_box t))) l m = bn_vol t)).
  { clear. induction l as [|a l IH]; intro m; cbn [fold_left].
    - split; [intros t []|]. split; [lia|left; reflexivity].
    - destruct (IH (Z.max m (vol (bn_box a)))) as (I1 & I2 & I3).
      change (vol (bn_box a)) with (bn_vol a) in *. split; [|split].
      + intros t [<-|Ht]; [lia|auto].
      + lia.
      + destruct I3 as [I3|(t & Ht & I3)].
        * rewrite I3. destruct (Z.max_spec m (bn_vol a)) as [[_ ->]|[_ ->]]; [right; exists a; split; [left; reflexivity|reflexivity]|left; reflexivity].
        * right. exists t. split; [right; assumption|assumption]. }
  destruct (H l 0) as (H1 & _ & [H3|H3]); (split; [assumption|]); [|assumption].
  destruct l as [|a l]; [congruence|]. specialize (H1 a (or_introl eq_refl)). specialize (Hp a (or_introl eq_refl)). lia.
Qed.

Lemma quot_copies : forall v c m, 0 < v -> 0 < m -> (Z.quot (m - 1) v + 1 <= c <-> m <= c * v).
Proof.
  intros v c m Hv Hm. rewrite Z.quot_div_nonneg by lia.
  pose proof (Z.div_mod (m - 1) v ltac:(lia)). pose proof (Z.mod_pos_bound (m - 1) v Hv). split; intro; nia.
Qed.

Lemma wbuild_consistent : wconsistent i d.
Proof.
  destruct wbuild_eq as (Eobj & E1 & Eb & Ei & Eopen & Ed).
  assert (Xd : forall (B : Type) (f : BDerived -> B), f d = f (mkDb (fst (fst (wexpand_bins bins))) (snd (fst (wexpand_bins bins)))
            (fold_left (fun n t => n + bn_copies t * vol (bn_box t)) bins 0)
            (fold_left (fun n t => n + bn_copies t * base_area (bn_box t)) bins 0)
            (wbin_weight bins)
            (fold_left (fun m t => if Qltb m (bn_cost t) then bn_cost t else m) bins 0%Q)
            (fold_left (fun n t => n + bi_copies t) items 0)
            (fold_left (fun n t => n + bi_copies t * vol (bi_box t)) items 0)
            (smallest_along AX items) (smallest_along AY items) (smallest_along AZ items)
            (fold_left (fun n t => (n + inject_Z (bi_copies t) * bi_weight t)%Q) items 0%Q)
            (fold_left (fun n t => (n + inject_Z (bi_copies t) * bi_profit t)%Q) items 0%Q)
            (fold_left (fun m t => if Qltb m (bi_profit t) then bi_profit t else m) items 0%Q)
            (wbest_efficiency items)
            (fold_left (fun m t => if m <? bi_copies t then bi_copies t else m) items 0)
            (forallb (fun t => negb (bi_copies t <? winfinite_copies (volume_max (w_bins b)) t)) items))) by (intros B f; rewrite <- Ed; reflexivity).
  pose proof (Xd _ db_bin_type_ids) as Dids. pose proof (Xd _ db_previous) as Dprev. pose proof (Xd _ db_bin_volume) as Dba.
  pose proof (Xd _ db_bin_area) as Dbb.
  pose proof (Xd _ db_bin_weight) as Dbw. pose proof (Xd _ db_largest_cost) as Dlc.
  pose proof (Xd _ db_number_of_items) as Dn. pose proof (Xd _ db_item_volume) as Dia.
  pose proof (Xd _ db_smallest_x) as Dsx. pose proof (Xd _ db_smallest_y) as Dsy. pose proof (Xd _ db_smallest_z) as Dsz.
  pose proof (Xd _ db_item_weight) as Diw. pose proof (Xd _ db_item_profit) as Dip. pose proof (Xd _ db_largest_profit) as Dlp.
  pose proof (Xd _ db_largest_efficiency) as Dle. pose proof (Xd _ db_largest_copies) as Dlk. pose proof (Xd _ db_all_infinite) as Dai.
  clear Xd Ed. cbn [db_bin_type_ids db_previous db_bin_volume db_bin_area db_bin_weight db_largest_cost db_number_of_items db_item_volume
    db_smallest_x db_smallest_y db_smallest_z db_item_weight db_item_profit db_largest_profit
    db_largest_efficiency db_largest_copies db_all_infinite] in *.
  rewrite <- Eb in Dids, Dprev, Dba, Dbb, Dbw, Dlc.
  constructor.
  - rewrite Dn, fold_sum, Z.add_0_l. apply wzsum_items. reflexivity.
  - rewrite Dia, (fold_sum _ (fun t => bi_copies t * vol (bi_box t))), Z.add_0_l. apply wzsum_items. reflexivity.
  - rewrite Dsx. apply wsmallest_items. apply smallest_along_spec. apply witems_rotations.
  - rewrite Dsy. apply wsmallest_items. apply smallest_along_spec. apply witems_rotations.
  - rewrite Dsz. apply wsmallest_items. apply smallest_along_spec. apply witems_rotations.
  - rewrite Diw, (fold_qsum _ (fun t => (inject_Z (bi_copies t) * bi_weight t)%Q)), Qplus_0_l.
    rewrite wqsum_items; [reflexivity|reflexivity].
  - rewrite Dip, (fold_qsum _ (fun t => (inject_Z (bi_copies t) * bi_profit t)%Q)), Qplus_0_l.
    rewrite wqsum_items; [reflexivity|reflexivity].
  - rewrite Dlp. destruct (fold_largest _ bi_profit items) as (L1 & L2 & L3). split; [assumption|]. split.
    + intros t Ht. destruct (proj1 (win_map_items _ bi_profit (fun _ _ => eq_refl) (bi_profit t))) as (u & Hu & <-); [eauto|auto].
    + destruct L3 as [L3|L3]; [left; assumption|right].
      apply (win_map_items _ bi_profit (fun _ _ => eq_refl)). assumption.
  - rewrite Dlk. destruct (fold_zlargest _ bi_copies items) as (L1 & L2 & L3). split; [assumption|]. split.
    + intros t Ht. destruct (proj1 (win_map_items _ bi_copies (fun _ _ => eq_refl) (bi_copies t))) as (u & Hu & <-); [eauto|auto].
    + destruct L3 as [L3|L3]; [left; assumption|right].
      apply (win_map_items _ bi_copies (fun _ _ => eq_refl)). assumption.
  - rewrite Dle. pose proof (wbest_efficiency_spec items) as B.
    destruct (wbest_efficiency items) as [k|].
    + destruct B as [B1 B2]. rewrite map_length in B1. rewrite witems_length. split; [assumption|].
      intros t Ht. rewrite (witems_nth k B1). 
      destruct (proj1 (win_map_items _ wefficiency (fun _ _ => eq_refl) (wefficiency t))) as (u & Hu & Eu); [eauto|].
      specialize (B2 u Hu). rewrite Eu in B2. unfold wefficiency in B2.
      rewrite (wresolved_nth k B1) in B2. exact B2.
    + apply map_eq_nil in B. apply length_zero_iff_nil. rewrite witems_length, B. reflexivity.
  - intros Hne Hpos. rewrite Dai, forallb_forall.
    assert (Eu : bx_bins i = map (wresolve_copies (db_number_of_items d)) (w_bins b)) by exact Eb.
    assert (Evm : volume_max (w_bins b) = volume_max (bx_bins i)).
    { rewrite Eu. unfold volume_max. generalize 0 as m. clear. induction (w_bins b) as [|a l IH]; intro m; [reflexivity|].
      cbn [map fold_left]. rewrite IH. reflexivity. }
    rewrite Evm. destruct (volume_max_spec (bx_bins i) Hne Hpos) as (V1 & tm & Vin & V2).
    pose proof (Hpos tm Vin) as V3. rewrite <- V2 in V3.
    assert (Hvol : forall t, In t (bx_items i) -> 0 < bi_vol t).
    { intros t Ht. destruct (ww_items _ wbuild_bounded t Ht) as [P _]. pose proof (P AX) as PX. pose proof (P AY) as PY. pose proof (P AZ) as PZ.
      simpl in PX, PY, PZ. unfold bi_vol. nia. }
    split.
    + intros H t bt Ht Hbt. pose proof (Hvol t Ht) as Hv.
      destruct (proj1 (win_map_items _ (fun t => (bi_copies t, bi_vol t)) (fun _ _ => eq_refl) (bi_copies t, bi_vol t))) as (u & Hu & Eq); [eauto|].
      injection Eq as Eq1 Eq2. specialize (H u Hu). apply negb_true_iff, Z.ltb_ge in H. unfold winfinite_copies in H.
      change (vol (bi_box u)) with (bi_vol u) in H. rewrite Eq1, Eq2 in H.
      apply quot_copies in H; [|assumption..]. specialize (V1 bt Hbt). lia.
    + intros H u Hu.
      destruct (proj2 (win_map_items _ (fun t => (bi_copies t, bi_vol t)) (fun _ _ => eq_refl) (bi_copies u, bi_vol u))) as (t & Ht & Eq); [eauto|].
      injection Eq as Eq1 Eq2. pose proof (Hvol t Ht) as Hv. specialize (H t tm Ht Vin).
      apply negb_true_iff, Z.ltb_ge. unfold winfinite_copies. change (vol (bi_box u)) with (bi_vol u). rewrite <- Eq1, <- Eq2.
      apply quot_copies; [assumption..|]. lia.
  - rewrite Dba, (fold_sum _ (fun t => bn_copies t * vol (bn_box t))). reflexivity.
  - rewrite Dbb, (fold_sum _ (fun t => bn_copies t * base_area (bn_box t))). reflexivity.
  - rewrite Dbw. apply wbin_weight_spec.
  - rewrite Dlc. apply fold_largest.
  - rewrite Dids. pose proof (wexpand_spec (bx_bins i)) as X.
    destruct (wexpand_bins (bx_bins i)) as [[ids prev] p]. apply X.
  - rewrite Dids, Dprev. pose proof (wexpand_spec (bx_bins i)) as X.
    destruct (wexpand_bins (bx_bins i)) as [[ids prev] p]. simpl. destruct X as (_ & X1 & X2 & _). auto.
  - intros x t Hx Ht. rewrite witems_length in Hx. rewrite wbins_length in Ht.
    rewrite (witems_nth x Hx). cbn [bi_resource_ids bi_with_ids]. unfold wresource_ids_of.
    assert (Hnth : nth t (map (fun t => filter (fun r =>
        match nth x (res_item_consumptions (nth r (bn_resources t) dummy_resource)) [] with [] => false | _ => true end)
        (seq 0 (length (bn_resources t)))) bins) [] =
      filter (fun r =>
        match nth x (res_item_consumptions (nth r (bn_resources (bxbin i t)) dummy_resource)) [] with [] => false | _ => true end)
        (seq 0 (length (bn_resources (bxbin i t))))).
    { rewrite nth_indep with (d' := filter (fun r =>
        match nth x (res_item_consumptions (nth r (bn_resources dummy_bbin) dummy_resource)) [] with [] => false | _ => true end)
        (seq 0 (length (bn_resources dummy_bbin)))) by (rewrite !map_length; assumption).
      rewrite (map_nth (fun t => filter (fun r =>
        match nth x (res_item_consumptions (nth r (bn_resources t) dummy_resource)) [] with [] => false | _ => true end)
        (seq 0 (length (bn_resources t)))) bins dummy_bbin t).
      unfold bxbin. rewrite Eb. reflexivity. }
    rewrite Hnth. split.
    + apply NoDup_filter. apply seq_NoDup.
    + intro r. rewrite filter_In, in_seq.
      destruct (nth x (res_item_consumptions (nth r (bn_resources (bxbin i t)) dummy_resource)) []) as [|q l].
      * split; [intros [_ H]; discriminate|intros [_ H]; congruence].
      * split; [intros [H _]; split; [lia|discriminate]|intros [H _]; split; [lia|reflexivity]].
  - assumption.
Qed.

End Build.
