(** * Proofs about the boxstacks instance builder *)

From Coq Require Import List ZArith QArith Qminmax Bool Lia Lqa Sorted Arith.
From Verif Require Import Util Common_Model OneDim_Model OneDim_Spec OneDimBuilder_Model OneDimBuilder_Spec OneDimBuilder_Proof
  Rect_Model Box_Model Box_Spec Stack_Model StackBuilder_Model StackBuilder_Spec.
Import ListNotations.
Open Scope Z_scope.

(** ** Acceptance of the calls *)

Ltac ysplit_call c :=
  destruct c as [o|u l|g v|u|v|id q|id w|id w|id tr|id x y lx ly|id n|id n| | | | |v|id rt|id g|id w|id s|id h|id n|id w|id p|id n|id n| | | | |i id|i id].

Ltac yunfold_setters :=
  unfold y_set_bin_weight, y_set_bin_density, y_set_bin_truck, y_add_defect, y_add_rotation, y_set_item_weight, y_set_item_stackability,
    y_set_item_nesting, y_set_item_max_stackability, y_set_item_above, y_set_item_profit.

Lemma yfold_finite : forall bins q,
  (fold_left (fun n t => match kb_max_weight t with Some m => (n + inject_Z (kb_copies t) * m)%Q | None => n end) bins q
   == q + qsum (fun t => inject_Z (kb_copies t) * match kb_max_weight t with Some m => m | None => 0 end) bins)%Q.
Proof.
  induction bins as [|t l IH]; intro q; cbn [fold_left]; [simpl; ring|].
  rewrite IH, qsum_cons. destruct (kb_max_weight t); ring.
Qed.

Lemma yprofits_auto_accept : forall b,
  match y_profits_auto b with
  | YOk _ => True /\ ~ yunchecked b YProfitsAuto
  | YThrow b' => b' = b /\ ~ True
  | YUndef => yunchecked b YProfitsAuto
  end.
Proof.
  intro b. unfold y_profits_auto. cbv zeta. cbn [yunchecked].
  pose proof (yfold_finite (y_bins b) 0%Q) as F. rewrite Qplus_0_l in F.
  rewrite (fold_sum _ (fun t => kb_copies t * vol (kb_box t))), Z.add_0_l.
  set (q := fold_left _ (y_bins b) 0%Q) in *. clearbody q.
  change (zsum (fun t => kb_copies t * vol (kb_box t)) (y_bins b)) with (zsum (fun t => kb_copies t * yb_vol t) (y_bins b)).
  set (v := zsum (fun t => kb_copies t * yb_vol t) (y_bins b)). clearbody v.
  set (s := qsum _ _) in *. clearbody s.
  assert (Up : existsb (yinfinite true) (y_bins b) = true <-> exists t, In t (y_bins b) /\ kb_max_weight t = None /\ 0 < kb_copies t).
  { rewrite existsb_exists. split; intros (t & Ht & H); exists t; split; auto; unfold yinfinite in *.
    - destruct (kb_max_weight t); [discriminate|]. apply Z.ltb_lt in H. auto.
    - destruct H as [-> H]. apply Z.ltb_lt. assumption. }
  assert (Down : existsb (yinfinite false) (y_bins b) = true <-> exists t, In t (y_bins b) /\ kb_max_weight t = None /\ kb_copies t < 0).
  { rewrite existsb_exists. split; intros (t & Ht & H); exists t; split; auto; unfold yinfinite in *.
    - destruct (kb_max_weight t); [discriminate|]. apply Z.ltb_lt in H. auto.
    - destruct H as [-> H]. apply Z.ltb_lt. assumption. }
  assert (Fin : (forall t, In t (y_bins b) -> kb_max_weight t = None -> kb_copies t = 0) <->
    existsb (yinfinite true) (y_bins b) = false /\ existsb (yinfinite false) (y_bins b) = false).
  { rewrite <- !not_true_iff_false, Up, Down. split.
    - intro H. split; intros (t & Ht & E & L); specialize (H t Ht E); lia.
    - intros [H1 H2] t Ht E. destruct (Z.lt_trichotomy (kb_copies t) 0) as [L|[L|L]]; [|assumption|].
      + exfalso. apply H2. eauto.
      + exfalso. apply H1. eauto. }
  destruct (y_items b) as [|it l]; [split; [exact I|]; intros [H _]; congruence|].
  assert (Hne : it :: l <> []) by discriminate.
  destruct (v =? 0) eqn:Ez; [apply Z.eqb_eq in Ez; cbn [orb]; tauto|apply Z.eqb_neq in Ez; cbn [orb]].
  destruct (existsb (yinfinite true) (y_bins b)), (existsb (yinfinite false) (y_bins b)); cbn [andb negb orb].
  - split; [assumption|]. right. left. split; [apply Up|apply Down]; reflexivity.
  - split; [exact I|]. intros [_ [H|[[_ H]|[H _]]]]; [congruence|apply Down in H; discriminate|apply Fin in H; destruct H; discriminate].
  - split; [exact I|]. intros [_ [H|[[H _]|[H _]]]]; [congruence|apply Up in H; discriminate|apply Fin in H; destruct H; discriminate].
  - destruct (Qeq_bool q 0) eqn:Eq.
    + apply Qeq_bool_iff in Eq. split; [assumption|]. right. right. split; [apply Fin; auto|]. rewrite <- F. assumption.
    + apply Qeq_bool_neq in Eq. split; [exact I|]. intros [_ [H|[[H _]|[_ H]]]]; [congruence|apply Up in H; discriminate|].
      apply Eq. rewrite F. assumption.
Qed.

Lemma yacceptance : forall b c, ydirect c = true ->
  match ystep b c with
  | YOk _ => yaccepted b c /\ ~ yunchecked b c
  | YThrow b' => b' = b /\ ~ yaccepted b c
  | YUndef => yunchecked b c
  end.
Proof.
  assert (Hbin : forall b id f, match yon_bin b id f with
     | YOk _ => in_range id (y_bins b) | YThrow b' => b' = b /\ ~ in_range id (y_bins b) | YUndef => False end).
  { intros b id f. unfold yon_bin. destruct (bad_id id (y_bins b)) eqn:E.
    - apply bad_id_true in E. auto.
    - apply bad_id_false in E. auto. }
  assert (Hitem : forall b id f, match yon_item b id f with
     | YOk _ => in_range id (y_items b) | YThrow b' => b' = b /\ ~ in_range id (y_items b) | YUndef => False end).
  { intros b id f. unfold yon_item. destruct (bad_id id (y_items b)) eqn:E.
    - apply bad_id_true in E. auto.
    - apply bad_id_false in E. auto. }
  assert (Bok : forall b id f, bad_id id (y_bins b) = false -> exists b', yon_bin b id f = YOk b').
  { intros b id f E. unfold yon_bin. rewrite E. eauto. }
  assert (Iok : forall b id f, bad_id id (y_items b) = false -> exists b', yon_item b id f = YOk b').
  { intros b id f E. unfold yon_item. rewrite E. eauto. }
  intros b c Hd. ysplit_call c;
    try discriminate; cbn [ystep yaccepted yunchecked]; yunfold_setters;
    try (match goal with |- context [yon_bin ?b ?id ?f] => pose proof (Hbin b id f) as H; destruct (yon_bin b id f); tauto end);
    try (match goal with |- context [yon_item ?b ?id ?f] => pose proof (Hitem b id f) as H; destruct (yon_item b id f); tauto end);
    try (simpl; tauto).
  - unfold y_group_weight. destruct (g <? 0) eqn:E; [apply Z.ltb_lt in E; assumption|apply Z.ltb_ge in E; split; [exact I|lia]].
  - unfold y_add_bin. destruct (v_x v <=? 0) eqn:E; [apply Z.leb_le in E; split; [reflexivity|intro H; specialize (H AX); simpl in H; lia]|apply Z.leb_gt in E].
    destruct (v_y v <=? 0) eqn:E1; [apply Z.leb_le in E1; split; [reflexivity|intro H; specialize (H AY); simpl in H; lia]|apply Z.leb_gt in E1].
    destruct (v_z v <=? 0) eqn:E2; [apply Z.leb_le in E2; split; [reflexivity|intro H; specialize (H AZ); simpl in H; lia]|apply Z.leb_gt in E2].
    split; [intros [ | | ]; assumption|auto].
  - unfold y_set_bin_cost. destruct (bad_id id (y_bins b)) eqn:E.
    { apply bad_id_true in E. tauto. }
    pose proof E as E'. apply bad_id_false in E.
    destruct (Qle_bool q 0) eqn:E1; [apply Qle_bool_iff in E1|];
      (destruct (Qeq_bool q (-1)) eqn:E2; [apply Qeq_bool_iff in E2|apply Qeq_bool_neq in E2]); cbn [andb negb];
      try (match goal with |- context [yon_bin b id ?f] => destruct (Bok b id f E') as [b' ->] end).
    + tauto.
    + split; [reflexivity|]. intros [_ [H|H]]; [lra|tauto].
    + tauto.
    + assert (0 < q)%Q. { apply Qnot_le_lt. intro H. apply Qle_bool_iff in H. congruence. } tauto.
  - unfold y_set_bin_copies. destruct (bad_id id (y_bins b)) eqn:E; [apply bad_id_true in E; tauto|].
    pose proof E as E'. apply bad_id_false in E.
    match goal with |- context [if ?c then _ else _] => destruct c eqn:E1 end.
    + apply andb_prop in E1. destruct E1 as [E1 E2]. apply negb_true_iff, Z.eqb_neq in E1.
      apply orb_prop in E2. rewrite Z.leb_le, Z.ltb_lt in E2. split; [reflexivity|]. intros [_ [H|[H1 H2]]]; lia.
    + match goal with |- context [yon_bin b id ?f] => destruct (Bok b id f E') as [b' ->] end.
      apply andb_false_iff in E1. rewrite negb_false_iff, Z.eqb_eq, orb_false_iff, Z.leb_gt, Z.ltb_ge in E1. intuition lia.
  - unfold y_set_bin_copies_min. destruct (bad_id id (y_bins b)) eqn:E; [apply bad_id_true in E; tauto|].
    pose proof E as E'. apply bad_id_false in E.
    destruct (n <? 0) eqn:E0; [apply Z.ltb_lt in E0; split; [reflexivity|lia]|apply Z.ltb_ge in E0].
    match goal with |- context [if ?c then _ else _] => destruct c eqn:E1 end.
    + apply andb_prop in E1. destruct E1 as [E1 E2]. apply negb_true_iff, Z.eqb_neq in E1.
      apply Z.ltb_lt in E2. split; [reflexivity|]. intros (_ & _ & [H|H]); lia.
    + match goal with |- context [yon_bin b id ?f] => destruct (Bok b id f E') as [b' ->] end.
      apply andb_false_iff in E1. rewrite negb_false_iff, Z.eqb_eq, Z.ltb_ge in E1. intuition lia.
  - unfold y_add_item. destruct (v_x v <? 0) eqn:E; [apply Z.ltb_lt in E; split; [reflexivity|intro H; specialize (H AX); simpl in H; lia]|apply Z.ltb_ge in E].
    destruct (v_y v <? 0) eqn:E1; [apply Z.ltb_lt in E1; split; [reflexivity|intro H; specialize (H AY); simpl in H; lia]|apply Z.ltb_ge in E1].
    destruct (v_z v <? 0) eqn:E2; [apply Z.ltb_lt in E2; split; [reflexivity|intro H; specialize (H AZ); simpl in H; lia]|apply Z.ltb_ge in E2].
    split; [intros [ | | ]; assumption|auto].
  - unfold y_set_item_group. destruct (g <? 0) eqn:E; [apply Z.ltb_lt in E; split; [reflexivity|lia]|apply Z.ltb_ge in E].
    destruct (bad_id id (y_items b)) eqn:E1; [apply bad_id_true in E1; tauto|].
    match goal with |- context [yon_item b id ?f] => destruct (Iok b id f E1) as [b' ->] end.
    apply bad_id_false in E1. tauto.
  - unfold y_set_item_copies. destruct (bad_id id (y_items b)) eqn:E; [apply bad_id_true in E; tauto|].
    pose proof E as E'. apply bad_id_false in E.
    match goal with |- context [if ?c then _ else _] => destruct c eqn:E1 end.
    + apply andb_prop in E1. destruct E1 as [E1 E2]. apply negb_true_iff, Z.eqb_neq in E1.
      apply Z.leb_le in E2. split; [reflexivity|]. intros [_ [H|H]]; lia.
    + match goal with |- context [yon_item b id ?f] => destruct (Iok b id f E') as [b' ->] end.
      apply andb_false_iff in E1. rewrite negb_false_iff, Z.eqb_eq, Z.leb_gt in E1. intuition lia.
  - unfold y_set_item_copies_min. destruct (bad_id id (y_items b)) eqn:E; [apply bad_id_true in E; tauto|].
    pose proof E as E'. apply bad_id_false in E.
    destruct (n <? -1) eqn:E0; [apply Z.ltb_lt in E0; split; [reflexivity|lia]|apply Z.ltb_ge in E0].
    match goal with |- context [yon_item b id ?f] => destruct (Iok b id f E') as [b' ->] end.
    intuition lia.
  - apply yprofits_auto_accept.
  - unfold y_items_infinite. destruct (existsb _ _) eqn:E.
    + apply existsb_exists in E. destruct E as (t & Ht & E). apply Z.eqb_eq in E. eauto.
    + split; [exact I|]. intros (t & Ht & E1).
      assert (existsb (fun t => vol (ki_box t) =? 0) (y_items b) = true); [|congruence].
      apply existsb_exists. exists t. split; [assumption|]. apply Z.eqb_eq. assumption.
Qed.

(** ** Invariant of the builder *)

Record ybin_inv (t : KBin) : Prop := {
  ybk_min : 0 <= kb_copies_min t;
  ybk_copies : kb_copies t = -1 \/ (1 <= kb_copies t /\ kb_copies_min t <= kb_copies t)
}.
Record yitem_inv (t : KItem) : Prop := {
  yik_box : forall a, 0 <= vat (ki_box t) a;
  yik_min : -1 <= ki_copies_min t
}.
Definition yinv (b : KBuilder) : Prop :=
  (forall t, In t (y_bins b) -> ybin_inv t) /\ (forall t, In t (y_items b) -> yitem_inv t).

Definition ykeeps (r : YRes) : Prop := match r with YOk b | YThrow b => yinv b | YUndef => True end.

Lemma ykeeps_then : forall r f, ykeeps r -> (forall b, yinv b -> ykeeps (f b)) -> ykeeps (ythen r f).
Proof. intros [b|b|] f H Hf; simpl in *; auto. Qed.

Lemma ykeeps_fold : forall (A : Type) (f : KBuilder -> A -> YRes) (l : list A) r,
  ykeeps r -> (forall b a, yinv b -> ykeeps (f b a)) ->
  ykeeps (fold_left (fun r a => ythen r (fun b => f b a)) l r).
Proof.
  intros A f l. induction l as [|a l IH]; intros r Hr Hf; simpl; [assumption|].
  apply IH; [|assumption]. apply ykeeps_then; auto.
Qed.

Lemma ykeeps_bin : forall b id f, yinv b ->
  (forall t, In t (y_bins b) -> ybin_inv (f t)) -> ykeeps (yon_bin b id f).
Proof.
  intros b id f [H1 H2] Hf. unfold yon_bin. destruct (bad_id id (y_bins b)); simpl; [split; assumption|].
  split; simpl; [|assumption]. intros t Ht. apply upd_in in Ht.
  destruct Ht as [Ht|(x & Hx & ->)]; auto.
Qed.

Lemma ykeeps_bin_at : forall b id f, yinv b -> bad_id id (y_bins b) = false ->
  (ybin_inv (nth (Z.to_nat id) (y_bins b) dummy_kbin) -> ybin_inv (f (nth (Z.to_nat id) (y_bins b) dummy_kbin))) ->
  ykeeps (yon_bin b id f).
Proof.
  intros b id f [H1 H2] E Hf. unfold yon_bin. rewrite E. simpl.
  split; simpl; [|assumption]. intros t Ht. apply In_nth with (d := dummy_kbin) in Ht.
  destruct Ht as (n & Hn & <-). rewrite upd_length in Hn.
  apply bad_id_false in E. unfold in_range in E. rewrite nth_upd by lia.
  assert (Hin : ybin_inv (nth n (y_bins b) dummy_kbin)) by (apply H1; apply nth_In; assumption).
  destruct (Nat.eqb (Z.to_nat id) n) eqn:En; [|assumption].
  apply Nat.eqb_eq in En. subst n. auto.
Qed.

Lemma ykeeps_item : forall b id f, yinv b ->
  (forall t, In t (y_items b) -> yitem_inv (f t)) -> ykeeps (yon_item b id f).
Proof.
  intros b id f [H1 H2] Hf. unfold yon_item. destruct (bad_id id (y_items b)); simpl; [split; assumption|].
  split; simpl; [assumption|]. intros t Ht. apply upd_in in Ht.
  destruct Ht as [Ht|(x & Hx & ->)]; auto.
Qed.

Lemma ydirect_keeps : forall b c, ydirect c = true -> yinv b -> ykeeps (ystep b c).
Proof.
  intros b c Hd Hb. pose proof Hb as [Hb1 Hb2].
  assert (Kbin : forall id f, (forall t, ybin_inv t -> ybin_inv (f t)) -> ykeeps (yon_bin b id f)).
  { intros id f Hf. apply ykeeps_bin; [assumption|]. intros t Ht. apply Hf. auto. }
  assert (Kitem : forall id f, (forall t, yitem_inv t -> yitem_inv (f t)) -> ykeeps (yon_item b id f)).
  { intros id f Hf. apply ykeeps_item; [assumption|]. intros t Ht. apply Hf. auto. }
  assert (Mbin : forall f, (forall t, ybin_inv t -> ybin_inv (f t)) -> ykeeps (YOk (yset_bins b (map f (y_bins b))))).
  { intros f Hf. split; simpl; [|assumption]. intros t Ht. apply in_map_iff in Ht. destruct Ht as (x & <- & Hx). auto. }
  assert (Mitem : forall f, (forall t, yitem_inv t -> yitem_inv (f t)) -> ykeeps (YOk (yset_items b (map f (y_items b))))).
  { intros f Hf. split; simpl; [assumption|]. intros t Ht. apply in_map_iff in Ht. destruct Ht as (x & <- & Hx). auto. }
  ysplit_call c;
    try discriminate; cbn [ystep];
    try (apply Kbin; intros t [T1 T2]; constructor; simpl; assumption);
    try (apply Kitem; intros t [T1 T2]; constructor; simpl; assumption);
    try (apply Mbin; intros t [T1 T2]; constructor; simpl; auto; fail);
    try (apply Mitem; intros t [T1 T2]; constructor; simpl; auto; fail);
    try (split; assumption).
  - unfold y_group_weight. destruct (g <? 0); [exact I|split; assumption].
  - unfold y_add_bin. destruct (v_x v <=? 0); [exact Hb|]. destruct (v_y v <=? 0); [exact Hb|].
    destruct (v_z v <=? 0); [exact Hb|]. split; [|assumption].
    simpl. intros t Ht. apply in_app_or in Ht. destruct Ht as [Ht|[<-|[]]]; [auto|].
    constructor; simpl; lia.
  - unfold y_set_bin_cost. destruct (bad_id id (y_bins b)); [exact Hb|].
    destruct (Qle_bool q 0 && negb (Qeq_bool q (-1))) eqn:E; [exact Hb|].
    apply Kbin. intros t [T1 T2]. constructor; simpl; assumption.
  - unfold y_set_bin_copies. destruct (bad_id id (y_bins b)) eqn:E0; [exact Hb|].
    match goal with |- context [if ?c then _ else _] => destruct c eqn:E1; [exact Hb|] end.
    apply ykeeps_bin_at; [assumption..|]. intros [T1 T2]. constructor; simpl; try assumption.
    apply andb_false_iff in E1. rewrite negb_false_iff, Z.eqb_eq, orb_false_iff, Z.leb_gt, Z.ltb_ge in E1. lia.
  - unfold y_set_bin_copies_min. destruct (bad_id id (y_bins b)) eqn:E0; [exact Hb|].
    destruct (n <? 0) eqn:E2; [exact Hb|]. apply Z.ltb_ge in E2.
    match goal with |- context [if ?c then _ else _] => destruct c eqn:E1; [exact Hb|] end.
    apply ykeeps_bin_at; [assumption..|]. intros [T1 T2]. constructor; simpl; try assumption.
    apply andb_false_iff in E1. rewrite negb_false_iff, Z.eqb_eq, Z.ltb_ge in E1. lia.
  - unfold y_add_item. destruct (v_x v <? 0) eqn:E; [exact Hb|]. destruct (v_y v <? 0) eqn:E1; [exact Hb|].
    destruct (v_z v <? 0) eqn:E2; [exact Hb|].
    apply Z.ltb_ge in E, E1, E2. split; simpl; [assumption|].
    intros t Ht. apply in_app_or in Ht. destruct Ht as [Ht|[<-|[]]]; [auto|].
    constructor; simpl; [intros [ | | ]; assumption|lia].
  - unfold y_set_item_group. destruct (g <? 0); [exact Hb|]. destruct (bad_id id (y_items b)); [exact I|].
    apply Kitem. intros t [T1 T2]. constructor; simpl; assumption.
  - unfold y_set_item_copies. destruct (bad_id id (y_items b)); [exact Hb|].
    match goal with |- context [if ?c then _ else _] => destruct c; [exact Hb|] end.
    apply Kitem. intros t [T1 T2]. constructor; simpl; assumption.
  - unfold y_set_item_copies_min. destruct (bad_id id (y_items b)); [exact Hb|].
    destruct (n <? -1) eqn:E; [exact Hb|]. apply Z.ltb_ge in E.
    apply Kitem. intros t [T1 T2]. constructor; simpl; assumption.
  - unfold y_profits_auto. cbv zeta. destruct (y_items b) eqn:Ei; [exact Hb|]. rewrite <- Ei in *.
    match goal with |- context [if ?c then _ else _] => destruct c; [exact I|] end.
    apply Mitem. intros t [T1 T2]. constructor; simpl; assumption.
  - unfold y_items_infinite. destruct (existsb _ _); [exact I|].
    apply Mitem. intros t [T1 T2]. constructor; simpl; assumption.
Qed.

Lemma ystep_keeps : forall b c, yinv b -> ykeeps (ystep b c).
Proof.
  intros b c Hb. destruct (ydirect c) eqn:Hd; [apply ydirect_keeps; assumption|].
  ysplit_call c; try discriminate; cbn [ystep].
  - unfold y_copy_bin. destruct (nth_error _ _) as [t|]; [|exact I]. cbv zeta.
    generalize (Z.of_nat (length (y_bins b))) as zid. intro zid.
    apply ykeeps_then; [apply (ydirect_keeps b (YAddBin (kb_box t))); auto|]. clear b Hb. intros b Hb.
    apply ykeeps_then; [apply (ydirect_keeps b (YSetBinCost _ _)); auto|]. clear b Hb. intros b Hb.
    apply ykeeps_then; [apply (ydirect_keeps b (YSetBinCopies _ _)); auto|]. clear b Hb. intros b Hb.
    apply ykeeps_then; [apply (ydirect_keeps b (YSetBinCopiesMin _ _)); auto|]. clear b Hb. intros b Hb.
    apply ykeeps_then; [apply (ydirect_keeps b (YSetBinWeight _ _)); auto|]. clear b Hb. intros b Hb.
    apply ykeeps_then; [apply (ydirect_keeps b (YSetBinDensity _ _)); auto|]. clear b Hb. intros b Hb.
    apply ykeeps_then; [apply (ydirect_keeps b (YSetBinTruck _ _)); auto|]. clear b Hb. intros b Hb.
    apply (ykeeps_fold _ (fun b d => y_add_defect b zid (df_x d) (df_y d) (df_lx d) (df_ly d))); [exact Hb|].
    intros b' e Hb'. apply (ydirect_keeps b' (YAddDefect _ _ _ _ _)); auto.
  - unfold y_copy_item. destruct (nth_error _ _) as [t|]; [|exact I]. cbv zeta.
    generalize (Z.of_nat (length (y_items b))) as zid. intro zid.
    apply ykeeps_then; [apply (ydirect_keeps b (YAddItem _)); auto|]. clear b Hb. intros b Hb.
    apply ykeeps_then.
    { apply (ykeeps_fold _ (fun b r => y_add_rotation b zid r)); [exact Hb|].
      intros b' r Hb'. apply (ydirect_keeps b' (YAddRotation _ _)); auto. }
    clear b Hb. intros b Hb.
    apply ykeeps_then; [apply (ydirect_keeps b (YSetItemProfit _ _)); auto|]. clear b Hb. intros b Hb.
    apply ykeeps_then; [apply (ydirect_keeps b (YSetItemCopies _ _)); auto|]. clear b Hb. intros b Hb.
    apply ykeeps_then; [apply (ydirect_keeps b (YSetItemGroup _ _)); auto|]. clear b Hb. intros b Hb.
    apply ykeeps_then; [apply (ydirect_keeps b (YSetItemWeight _ _)); auto|]. clear b Hb. intros b Hb.
    apply ykeeps_then; [apply (ydirect_keeps b (YSetItemStackability _ _)); auto|]. clear b Hb. intros b Hb.
    apply ykeeps_then; [apply (ydirect_keeps b (YSetItemNesting _ _)); auto|]. clear b Hb. intros b Hb.
    apply ykeeps_then; [apply (ydirect_keeps b (YSetItemMaxStackability _ _)); auto|]. clear b Hb. intros b Hb.
    apply (ydirect_keeps b (YSetItemAbove _ _)); auto.
Qed.

Lemma yrun_snoc : forall o calls c, yrun o (calls ++ [c]) =
  match yrun o calls with
  | None => None
  | Some b => match ystep b c with YOk b' | YThrow b' => Some b' | YUndef => None end
  end.
Proof. intros. unfold yrun. rewrite fold_left_app. reflexivity. Qed.

Lemma yrun_inv : forall o calls b, yrun o calls = Some b -> yinv b.
Proof.
  intros o calls. induction calls as [|c calls IH] using rev_ind; intros b H.
  - injection H as <-. split; intros t [].
  - rewrite yrun_snoc in H. destruct (yrun o calls) as [b0|]; [|discriminate].
    pose proof (ystep_keeps b0 c (IH b0 eq_refl)) as K.
    destruct (ystep b0 c); simpl in K; try discriminate; injection H as <-; assumption.
Qed.

(** ** build *)

Lemma ybest_efficiency_spec : forall items,
  match ybest_efficiency items with
  | None => items = []
  | Some k => (k < length items)%nat /\
      forall t, In t items -> (yefficiency t <= yefficiency (nth k items dummy_kitem))%Q
  end.
Proof.
  intro items. unfold ybest_efficiency.
  assert (H : forall n, (n <= length items)%nat ->
    match fold_left (fun best k =>
      match best with
      | None => Some k
      | Some j => if Qltb (yefficiency (nth j items dummy_kitem)) (yefficiency (nth k items dummy_kitem)) then Some k else best
      end) (seq 0 n) None with
    | None => n = 0%nat
    | Some k => (k < n)%nat /\ forall j, (j < n)%nat ->
        (yefficiency (nth j items dummy_kitem) <= yefficiency (nth k items dummy_kitem))%Q
    end).
  { induction n as [|n IH]; intro Hn; [reflexivity|]. rewrite seq_S, fold_left_app. simpl.
    specialize (IH ltac:(lia)). destruct (fold_left _ (seq 0 n) None) as [k|].
    - destruct IH as [K1 K2]. destruct (Qltb _ _) eqn:E.
      + apply qltb_lt in E. split; [lia|]. intros j Hj. destruct (Nat.eq_dec j n) as [->|]; [apply Qle_refl|].
        specialize (K2 j ltac:(lia)). lra.
      + apply qltb_ge in E. split; [lia|]. intros j Hj. destruct (Nat.eq_dec j n) as [->|]; [assumption|].
        apply K2. lia.
    - subst n. split; [lia|]. intros j Hj. replace j with 0%nat by lia. apply Qle_refl. }
  specialize (H (length items) (Nat.le_refl _)). destruct (fold_left _ _ None) as [k|].
  - destruct H as [H1 H2]. split; [assumption|]. intros t Ht. apply In_nth with (d := dummy_kitem) in Ht.
    destruct Ht as (j & Hj & <-). auto.
  - destruct items; [reflexivity|discriminate].
Qed.

Lemma yexpand_spec : forall bins,
  let '(ids, prev, p) := yexpand_bins bins in
  ids = flat_map (fun t => repeat t (Z.to_nat (kb_copies (nth t bins dummy_kbin)))) (seq 0 (length bins)) /\
  length prev = length ids /\
  (forall k, (k < length ids)%nat -> nth k prev 0 = zsum (fun t => yb_vol (nth t bins dummy_kbin)) (firstn k ids)) /\
  p = zsum (fun t => yb_vol (nth t bins dummy_kbin)) ids.
Proof.
  intro bins. unfold yexpand_bins.
  assert (Inner : forall k n ids prev p, length prev = length ids ->
    (forall j, (j < length ids)%nat -> nth j prev 0 = zsum (fun t => yb_vol (nth t bins dummy_kbin)) (firstn j ids)) ->
    p = zsum (fun t => yb_vol (nth t bins dummy_kbin)) ids ->
    let '(ids', prev', p') := fold_left (fun (acc : list nat * list Z * Z) (_ : unit) =>
          let '(ids, prev, p) := acc in (ids ++ [k], prev ++ [p], p + yb_vol (nth k bins dummy_kbin)))
        (repeat tt n) (ids, prev, p) in
    ids' = ids ++ repeat k n /\ length prev' = length ids' /\
    (forall j, (j < length ids')%nat -> nth j prev' 0 = zsum (fun t => yb_vol (nth t bins dummy_kbin)) (firstn j ids')) /\
    p' = zsum (fun t => yb_vol (nth t bins dummy_kbin)) ids').
  { intros k n. induction n as [|n IH]; intros ids prev p H1 H2 H3; simpl.
    - rewrite app_nil_r. auto.
    - specialize (IH (ids ++ [k]) (prev ++ [p]) (p + yb_vol (nth k bins dummy_kbin))).
      destruct (fold_left _ (repeat tt n) _) as [[ids' prev'] p'].
      rewrite <- app_assoc in IH. apply IH.
      + rewrite !app_length. simpl. lia.
      + intros j Hj. rewrite app_length in Hj. simpl in Hj.
        destruct (Nat.eq_dec j (length ids)) as [->|].
        * rewrite app_nth2 by lia. rewrite H1, Nat.sub_diag. simpl.
          rewrite firstn_app, Nat.sub_diag, firstn_all. simpl. rewrite app_nil_r. assumption.
        * rewrite app_nth1 by lia. rewrite firstn_app. replace (j - length ids)%nat with 0%nat by lia.
          simpl. rewrite app_nil_r. apply H2. lia.
      + rewrite zsum_snoc. lia. }
  assert (Outer : forall n, let '(ids, prev, p) := fold_left (fun acc k =>
      let t := nth k bins dummy_kbin in
      fold_left (fun (acc : list nat * list Z * Z) (_ : unit) =>
          let '(ids, prev, p) := acc in (ids ++ [k], prev ++ [p], p + yb_vol t))
        (repeat tt (Z.to_nat (kb_copies t))) acc)
    (seq 0 n) ([], [], 0) in
    ids = flat_map (fun t => repeat t (Z.to_nat (kb_copies (nth t bins dummy_kbin)))) (seq 0 n) /\
    length prev = length ids /\
    (forall k, (k < length ids)%nat -> nth k prev 0 = zsum (fun t => yb_vol (nth t bins dummy_kbin)) (firstn k ids)) /\
    p = zsum (fun t => yb_vol (nth t bins dummy_kbin)) ids).
  { induction n as [|n IH].
    - simpl. split; [reflexivity|]. split; [reflexivity|]. split; [intros k Hk; lia|reflexivity].
    - rewrite seq_S, fold_left_app. cbn [fold_left].
      destruct (fold_left _ (seq 0 n) _) as [[ids prev] p]. destruct IH as (I1 & I2 & I3 & I4). cbv zeta.
      specialize (Inner (0 + n)%nat (Z.to_nat (kb_copies (nth (0 + n) bins dummy_kbin))) ids prev p I2 I3 I4).
      destruct (fold_left _ (repeat tt _) _) as [[ids' prev'] p'].
      destruct Inner as (J1 & J2 & J3 & J4). split; [|auto].
      rewrite J1, I1, flat_map_app. simpl. rewrite app_nil_r. reflexivity. }
  apply Outer.
Qed.

Lemma ybin_weight_spec : forall bins,
  match ybin_weight bins with
  | Some w => (forall t, In t bins -> kb_max_weight t <> None) /\
      (w == qsum (fun t => inject_Z (kb_copies t) * match kb_max_weight t with Some m => m | None => 0 end) bins)%Q
  | None => exists t, In t bins /\ kb_max_weight t = None
  end.
Proof.
  intro bins. unfold ybin_weight. induction bins as [|a l IH] using rev_ind.
  - simpl. split; [intros t []|reflexivity].
  - rewrite fold_left_app. cbn [fold_left]. set (acc := fold_left _ l _) in *. clearbody acc.
    destruct acc as [w|].
    + destruct IH as [I1 I2]. destruct (kb_max_weight a) as [m|] eqn:E.
      * split.
        -- intros t Ht. apply in_app_or in Ht. destruct Ht as [Ht|[<-|[]]]; [auto|congruence].
        -- rewrite qsum_snoc, I2, E. reflexivity.
      * exists a. split; [apply in_elt|assumption].
    + destruct IH as (t & Ht & E). exists t. split; [apply in_or_app; left; assumption|assumption].
Qed.

Lemma ybuild_groups_spec : forall items n, (n <= length items)%nat ->
  let gs := fold_left (fun gs x =>
      let t := nth x items dummy_kitem in
      upd (ki_group t) (fun g => (fst g ++ [x], snd g + ki_copies t)) (grow (S (ki_group t)) ([], 0) gs))
    (seq 0 n) [] in
  (forall g, nth g gs ([], 0) =
    (filter (fun x => Nat.eqb (ki_group (nth x items dummy_kitem)) g) (seq 0 n),
     zsum (fun t => if Nat.eqb (ki_group t) g then ki_copies t else 0) (firstn n items))) /\
  (forall x, (x < n)%nat -> (ki_group (nth x items dummy_kitem) < length gs)%nat) /\
  (gs = [] \/ exists x, (x < n)%nat /\ length gs = S (ki_group (nth x items dummy_kitem))).
Proof.
  intros items n. induction n as [|n IH]; intro Hn; cbv zeta.
  - simpl. split; [intros [|g]; reflexivity|]. split; [intros; lia|left; reflexivity].
  - specialize (IH ltac:(lia)). cbv zeta in IH. rewrite seq_S, fold_left_app. cbn [fold_left plus]. cbv zeta.
    set (gs := fold_left _ (seq 0 n) _) in *. destruct IH as (I1 & I2 & I3). clearbody gs.
    set (t := nth n items dummy_kitem) in *.
    assert (Hf : firstn (S n) items = firstn n items ++ [t]).
    { subst t. clear -Hn. revert n Hn. induction items as [|a items IHr]; intros n Hn; simpl in Hn; [lia|].
      destruct n as [|n]; [reflexivity|]. simpl. f_equal. apply IHr. lia. }
    assert (Hgl : forall k, length (grow (S k) (@nil nat, 0) gs) = Nat.max (S k) (length gs)).
    { intro k. unfold grow. rewrite app_length, repeat_length. lia. }
    assert (Hgn : forall k g, nth g (grow (S k) (@nil nat, 0) gs) ([], 0) = nth g gs ([], 0)).
    { intros k g. unfold grow. destruct (lt_dec g (length gs)) as [L|L].
      - apply app_nth1. assumption.
      - rewrite app_nth2 by lia. rewrite (nth_overflow gs) by lia.
        destruct (lt_dec (g - length gs) (S k - length gs)) as [L'|L'].
        + apply nth_repeat.
        + apply nth_overflow. rewrite repeat_length. lia. }
    split; [|split].
    + intro g. rewrite nth_upd by (rewrite Hgl; lia). rewrite Hgn.
      rewrite filter_app, Hf, zsum_snoc. cbn [filter]. fold t.
      destruct (Nat.eqb (ki_group t) g) eqn:E.
      * apply Nat.eqb_eq in E. rewrite I1. cbn [fst snd]. reflexivity.
      * rewrite I1. rewrite app_nil_r, Z.add_0_r. reflexivity.
    + intros x Hx. rewrite upd_length, Hgl. destruct (Nat.eq_dec x n) as [->|]; [fold t; lia|].
      specialize (I2 x ltac:(lia)). lia.
    + right. rewrite upd_length, Hgl. destruct (le_lt_dec (length gs) (S (ki_group t))) as [L|L].
      * exists n. split; [lia|]. fold t. lia.
      * destruct I3 as [->|(x & Hx & I3)]; [simpl in L; lia|]. exists x. split; [lia|]. lia.
Qed.

Lemma yvolume_max_spec : forall (l : list KBin), l <> [] -> (forall t, In t l -> 0 < yb_vol t) ->
  (forall t, In t l -> yb_vol t <= yvolume_max l) /\ exists t, In t l /\ yvolume_max l = yb_vol t.
Proof.
  intros l Hne Hp. unfold yvolume_max.
  assert (H : forall l m, (forall t, In t l -> yb_vol t <= fold_left (fun m t => Z.max m (vol (kb_box t))) l m) /\
     m <= fold_left (fun m t => Z.max m (vol (kb_box t))) l m /\
     (fold_left (fun m t => Z.max m (vol (kb_box t))) l m = m \/ exists t, In t l /\ fold_left (fun m t => Z.max m (vol (kb_box t))) l m = yb_vol t)).
  { clear. induction l as [|a l IH]; intro m; cbn [fold_left].
    - split; [intros t []|]. split; [lia|left; reflexivity].
    - destruct (IH (Z.max m (vol (kb_box a)))) as (I1 & I2 & I3).
      change (vol (kb_box a)) with (yb_vol a) in *. split; [|split].
      + intros t [<-|Ht]; [lia|auto].
      + lia.
      + destruct I3 as [I3|(t & Ht & I3)].
        * rewrite I3. destruct (Z.max_spec m (yb_vol a)) as [[_ ->]|[_ ->]]; [right; exists a; split; [left; reflexivity|reflexivity]|left; reflexivity].
        * right. exists t. split; [right; assumption|assumption]. }
  destruct (H l 0) as (H1 & _ & [H3|H3]); (split; [assumption|]); [|assumption].
  destruct l as [|a l]; [congruence|]. specialize (H1 a (or_introl eq_refl)). specialize (Hp a (or_introl eq_refl)). lia.
Qed.

Lemma yquot_copies : forall v c m, 0 < v -> 0 < m -> (Z.quot (m - 1) v + 1 <= c <-> m <= c * v).
Proof.
  intros v c m Hv Hm. rewrite Z.quot_div_nonneg by lia.
  pose proof (Z.div_mod (m - 1) v ltac:(lia)). pose proof (Z.mod_pos_bound (m - 1) v Hv). split; intro; nia.
Qed.

Section Build.

Variable b : KBuilder.
Variable i : KInstance.
Variable d : KDerived.
Hypothesis Hbuild : y_build b = YBuilt i d.
Hypothesis Hinv : yinv b.

Notation items := (map (yresolve_item (y_objective b)) (y_items b)).
Notation bins := (map (yresolve_copies (dk_number_of_items d)) (y_bins b)).

Lemma ybuild_eq :
  kx_objective i = y_objective b /\
  (forall t, In t items -> ki_copies_min t <= ki_copies t /\ vol (ki_box t) <> 0) /\
  kx_bins i = bins /\
  kx_items i = items /\
  (kx_objective i = OOpenDimensionX \/ kx_objective i = OOpenDimensionY -> length (dk_bin_type_ids d) = 1%nat) /\
  kx_check_weight i = y_check_weight b /\
  d = (mkDk (y_unloading b) (fst (fst (yexpand_bins bins))) (snd (fst (yexpand_bins bins)))
            (fold_left (fun n t => n + kb_copies t * vol (kb_box t)) bins 0)
            (fold_left (fun n t => n + kb_copies t * kb_area t) bins 0)
            (ybin_weight bins)
            (fold_left (fun n t => (n + length (kb_defects t))%nat) bins 0%nat)
            (fold_left (fun n t => n + ki_copies t) items 0)
            (fold_left (fun n t => n + ki_copies t * vol (ki_box t)) items 0)
            (fold_left (fun n t => (n + inject_Z (ki_copies t) * ki_weight t)%Q) items 0%Q)
            (fold_left (fun n t => (n + inject_Z (ki_copies t) * ki_profit t)%Q) items 0%Q)
            (ybest_efficiency items)
            (forallb (fun t => negb (ki_copies t <? yinfinite_copies (yvolume_max (y_bins b)) t)) items)
            (ybuild_groups items)).
Proof.
  pose proof Hbuild as H. unfold y_build in H. cbv zeta in H.
  destruct (find _ _) as [t|] eqn:Ef; [destruct (ki_copies t <? ki_copies_min t); discriminate|].
  match type of H with context [yexpand_bins ?l] => destruct (yexpand_bins l) as [[ids prev] p] eqn:Ex end.
  match type of H with context [if ?c then _ else _] => destruct c eqn:Eo; [discriminate|] end.
  injection H as <- <-. cbn [kx_objective kx_bins kx_items kx_check_weight dk_number_of_items dk_bin_type_ids].
  split; [reflexivity|]. split.
  { intros t Ht. pose proof (find_none_all _ _ _ Ef t Ht) as F. simpl in F. apply orb_false_iff in F.
    rewrite Z.ltb_ge, Z.eqb_neq in F. exact F. }
  split; [reflexivity|]. split; [reflexivity|]. split.
  { intros [E|E]; rewrite E in Eo; apply negb_false_iff, Z.eqb_eq in Eo; lia. }
  split; [reflexivity|].
  rewrite Ex. reflexivity.
Qed.

Lemma yitems_nth : forall x, (x < length (y_items b))%nat ->
  kitem i x = yresolve_item (y_objective b) (nth x (y_items b) dummy_kitem).
Proof.
  intros x Hx. destruct ybuild_eq as (_ & _ & _ & E & _). unfold kitem. rewrite E.
  rewrite nth_indep with (d' := yresolve_item (y_objective b) dummy_kitem) by (rewrite map_length; assumption).
  apply map_nth.
Qed.

Lemma yitems_length : length (kx_items i) = length (y_items b).
Proof. destruct ybuild_eq as (_ & _ & _ & E & _). rewrite E, map_length. reflexivity. Qed.

Lemma ybins_nth : forall t, (t < length (y_bins b))%nat ->
  kbin i t = yresolve_copies (dk_number_of_items d) (nth t (y_bins b) dummy_kbin).
Proof.
  intros t Ht. destruct ybuild_eq as (_ & _ & E & _). unfold kbin. rewrite E.
  rewrite nth_indep with (d' := yresolve_copies (dk_number_of_items d) dummy_kbin)
    by (rewrite map_length; assumption).
  apply map_nth.
Qed.

Lemma ybins_length : length (kx_bins i) = length (y_bins b).
Proof. destruct ybuild_eq as (_ & _ & E & _). rewrite E, map_length. reflexivity. Qed.

Lemma yin_items_in : forall t, In t (kx_items i) -> exists x, (x < length (y_items b))%nat /\ t = kitem i x.
Proof.
  intros t Ht. apply In_nth with (d := dummy_kitem) in Ht. destruct Ht as (x & Hx & <-).
  rewrite yitems_length in Hx. exists x. split; [assumption|reflexivity].
Qed.

Lemma yin_bins_in : forall t, In t (kx_bins i) -> exists x, (x < length (y_bins b))%nat /\ t = kbin i x.
Proof.
  intros t Ht. apply In_nth with (d := dummy_kbin) in Ht. destruct Ht as (x & Hx & <-).
  rewrite ybins_length in Hx. exists x. split; [assumption|reflexivity].
Qed.

Lemma ynumber_eq : dk_number_of_items d = zsum ki_copies (y_items b).
Proof.
  destruct ybuild_eq as (_ & _ & _ & _ & _ & _ & Ed). rewrite Ed at 1. cbn [dk_number_of_items].
  rewrite fold_sum, zsum_map. reflexivity.
Qed.

Lemma yunloading_eq : dk_unloading d = y_unloading b.
Proof. destruct ybuild_eq as (_ & _ & _ & _ & _ & _ & Ed). rewrite Ed at 1. reflexivity. Qed.

Lemma ybuild_holds : yholds_data b i d.
Proof.
  destruct ybuild_eq as (Eo & _ & _ & _ & _ & Ec & _).
  constructor; [assumption|exact yunloading_eq|assumption| |].
  - split; [apply yitems_length|]. intros x Hx. cbv zeta. rewrite (yitems_nth x Hx), Eo. simpl. repeat split; reflexivity.
  - split; [apply ybins_length|]. intros t Ht. cbv zeta. rewrite (ybins_nth t Ht), ynumber_eq. simpl. repeat split; reflexivity.
Qed.

Lemma ybuild_bounded : ywell_bounded i.
Proof.
  destruct ybuild_eq as (Eo & E1 & _).
  destruct Hinv as [I1 I2].
  constructor.
  - intros t Ht. destruct (yin_items_in t Ht) as (x & Hx & ->). rewrite (yitems_nth x Hx). simpl.
    assert (Hin : In (yresolve_item (y_objective b) (nth x (y_items b) dummy_kitem)) items).
    { apply in_map. apply nth_In. assumption. }
    destruct (E1 _ Hin) as [F1 F2]. unfold vol in F2. simpl in F1, F2.
    destruct (I2 (nth x (y_items b) dummy_kitem) (nth_In _ _ Hx)) as [G1 G2].
    split.
    { pose proof (G1 AX) as GX. pose proof (G1 AY) as GY. pose proof (G1 AZ) as GZ. simpl in GX, GY, GZ.
      intros [ | | ]; simpl; nia. }
    split; [destruct (ki_rotations (nth x (y_items b) dummy_kitem)); discriminate|]. split; [assumption|].
    destruct (ki_copies_min (nth x (y_items b) dummy_kitem) =? -1) eqn:Em; intro Hc.
    + destruct (y_objective b); lia.
    + apply Z.eqb_neq in Em. lia.
  - intros t Ht. destruct (yin_bins_in t Ht) as (x & Hx & ->). rewrite (ybins_nth x Hx). simpl.
    apply (I1 (nth x (y_bins b) dummy_kbin) (nth_In _ _ Hx)).
Qed.

Lemma ybuild_consistent : yconsistent i d.
Proof.
  destruct ybuild_eq as (Eobj & E1 & Eb & Ei & Eopen & _ & Ed).
  assert (Xd : forall (B : Type) (f : KDerived -> B), f d = f (mkDk (y_unloading b) (fst (fst (yexpand_bins bins))) (snd (fst (yexpand_bins bins)))
            (fold_left (fun n t => n + kb_copies t * vol (kb_box t)) bins 0)
            (fold_left (fun n t => n + kb_copies t * kb_area t) bins 0)
            (ybin_weight bins)
            (fold_left (fun n t => (n + length (kb_defects t))%nat) bins 0%nat)
            (fold_left (fun n t => n + ki_copies t) items 0)
            (fold_left (fun n t => n + ki_copies t * vol (ki_box t)) items 0)
            (fold_left (fun n t => (n + inject_Z (ki_copies t) * ki_weight t)%Q) items 0%Q)
            (fold_left (fun n t => (n + inject_Z (ki_copies t) * ki_profit t)%Q) items 0%Q)
            (ybest_efficiency items)
            (forallb (fun t => negb (ki_copies t <? yinfinite_copies (yvolume_max (y_bins b)) t)) items)
            (ybuild_groups items))) by (intros B f; rewrite <- Ed; reflexivity).
  pose proof (Xd _ dk_bin_type_ids) as Dids. pose proof (Xd _ dk_previous) as Dprev. pose proof (Xd _ dk_bin_volume) as Dba.
  pose proof (Xd _ dk_bin_area) as Dbb. pose proof (Xd _ dk_bin_weight) as Dbw. pose proof (Xd _ dk_defects) as Ddf.
  pose proof (Xd _ dk_number_of_items) as Dn. pose proof (Xd _ dk_item_volume) as Dia.
  pose proof (Xd _ dk_item_weight) as Diw. pose proof (Xd _ dk_item_profit) as Dip.
  pose proof (Xd _ dk_largest_efficiency) as Dle. pose proof (Xd _ dk_all_infinite) as Dai. pose proof (Xd _ dk_groups) as Dgr.
  clear Xd Ed. cbn [dk_bin_type_ids dk_previous dk_bin_volume dk_bin_area dk_bin_weight dk_defects dk_number_of_items dk_item_volume
    dk_item_weight dk_item_profit dk_largest_efficiency dk_all_infinite dk_groups] in *.
  rewrite <- Eb in Dids, Dprev, Dba, Dbb, Dbw, Ddf. rewrite <- Ei in Dn, Dia, Diw, Dip, Dle, Dai, Dgr.
  constructor.
  - rewrite Dn, fold_sum. reflexivity.
  - rewrite Dia, (fold_sum _ (fun t => ki_copies t * vol (ki_box t))). reflexivity.
  - rewrite Diw, (fold_qsum _ (fun t => (inject_Z (ki_copies t) * ki_weight t)%Q)), Qplus_0_l. reflexivity.
  - rewrite Dip, (fold_qsum _ (fun t => (inject_Z (ki_copies t) * ki_profit t)%Q)), Qplus_0_l. reflexivity.
  - rewrite Dle. pose proof (ybest_efficiency_spec (kx_items i)) as B.
    destruct (ybest_efficiency (kx_items i)) as [k|]; exact B.
  - intros Hne Hpos. rewrite Dai, forallb_forall.
    assert (Evm : yvolume_max (y_bins b) = yvolume_max (kx_bins i)).
    { rewrite Eb. unfold yvolume_max. generalize 0 as m. clear. induction (y_bins b) as [|a l IH]; intro m; [reflexivity|].
      cbn [map fold_left]. rewrite IH. reflexivity. }
    rewrite Evm. destruct (yvolume_max_spec (kx_bins i) Hne Hpos) as (V1 & tm & Vin & V2).
    pose proof (Hpos tm Vin) as V3. rewrite <- V2 in V3.
    assert (Hvol : forall t, In t (kx_items i) -> 0 < yi_vol t).
    { intros t Ht. destruct (yw_items _ ybuild_bounded t Ht) as [P _]. pose proof (P AX) as PX. pose proof (P AY) as PY. pose proof (P AZ) as PZ.
      simpl in PX, PY, PZ. unfold yi_vol. nia. }
    split.
    + intros H t bt Ht Hbt. pose proof (Hvol t Ht) as Hv.
      specialize (H t Ht). apply negb_true_iff, Z.ltb_ge in H. unfold yinfinite_copies in H.
      change (vol (ki_box t)) with (yi_vol t) in H.
      apply yquot_copies in H; [|assumption..]. specialize (V1 bt Hbt). lia.
    + intros H t Ht. pose proof (Hvol t Ht) as Hv. specialize (H t tm Ht Vin).
      apply negb_true_iff, Z.ltb_ge. unfold yinfinite_copies. change (vol (ki_box t)) with (yi_vol t).
      apply yquot_copies; [assumption..|]. lia.
  - rewrite Dba, (fold_sum _ (fun t => kb_copies t * vol (kb_box t))). reflexivity.
  - rewrite Dbb, (fold_sum _ (fun t => kb_copies t * kb_area t)). reflexivity.
  - rewrite Dbw. apply ybin_weight_spec.
  - rewrite Ddf. assert (F : forall l n, Z.of_nat (fold_left (fun n t => (n + length (kb_defects t))%nat) l n)
      = Z.of_nat n + zsum (fun t => Z.of_nat (length (kb_defects t))) l).
    { clear. induction l as [|a l IH]; intro n; cbn [fold_left]; [rewrite zsum_nil; lia|]. rewrite IH, zsum_cons. lia. }
    rewrite F. reflexivity.
  - rewrite Dids. pose proof (yexpand_spec (kx_bins i)) as X.
    destruct (yexpand_bins (kx_bins i)) as [[ids prev] p]. apply X.
  - rewrite Dids, Dprev. pose proof (yexpand_spec (kx_bins i)) as X.
    destruct (yexpand_bins (kx_bins i)) as [[ids prev] p]. simpl. destruct X as (_ & X1 & X2 & _). auto.
  - intros g Hg. rewrite Dgr. unfold ybuild_groups.
    destruct (ybuild_groups_spec (kx_items i) (length (kx_items i)) (Nat.le_refl _)) as (G1 & _ & _). rewrite G1. cbn [fst snd]. split; [|split].
    + apply filter_sorted. apply seq_sorted.
    + intro x. rewrite filter_In, in_seq, Nat.eqb_eq. unfold kitem. intuition lia.
    + rewrite firstn_all. reflexivity.
  - rewrite Dgr. unfold ybuild_groups.
    destruct (ybuild_groups_spec (kx_items i) (length (kx_items i)) (Nat.le_refl _)) as (_ & G2 & G3). split.
    + intros t Ht. apply In_nth with (d := dummy_kitem) in Ht. destruct Ht as (x & Hx & <-). auto.
    + destruct G3 as [G3|(x & Hx & G3)]; [left; exact G3|right]. exists (nth x (kx_items i) dummy_kitem). split; [apply nth_In; assumption|exact G3].
  - assumption.
Qed.

End Build.
