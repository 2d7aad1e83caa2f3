(** * Proofs about the onedimensional instance builder *)

From Coq Require Import List ZArith QArith Qminmax Bool Lia Lqa Sorted Arith.
From Verif Require Import Util Common_Model OneDim_Model OneDim_Spec OneDimBuilder_Model OneDimBuilder_Spec.
Import ListNotations.
Open Scope Z_scope.

Lemma bad_id_false : forall (A : Type) id (l : list A), bad_id id l = false <-> in_range id l.
Proof.
  intros A id l. unfold bad_id, in_range. rewrite orb_false_iff, Z.ltb_ge, Z.leb_gt. lia.
Qed.

Lemma bad_id_true : forall (A : Type) id (l : list A), bad_id id l = true <-> ~ in_range id l.
Proof.
  intros A id l. rewrite <- bad_id_false. destruct (bad_id id l); intuition congruence.
Qed.

Lemma upd_in : forall (A : Type) k (f : A -> A) l y, In y (upd k f l) -> In y l \/ exists x, In x l /\ y = f x.
Proof.
  intros A k f l. revert k. induction l as [|a l IH]; intros [|k] y H; simpl in H; try tauto.
  - destruct H as [<-|H]; [right; exists a; split; [left; reflexivity|reflexivity]|left; right; assumption].
  - destruct H as [<-|H]; [left; left; reflexivity|].
    destruct (IH k y H) as [G|(x & G1 & G2)]; [left; right; assumption|right; exists x; split; [right; assumption|assumption]].
Qed.

(** ** Acceptance of the calls *)

Lemma acceptance : forall b c, direct c = true ->
  match bstep b c with
  | BOk _ => accepted b c /\ ~ unchecked b c
  | BThrow b' => b' = b /\ ~ accepted b c
  | BUndef => unchecked b c
  end.
Proof.
  assert (Hbin : forall b id f, match on_bin b id f with
     | BOk _ => in_range id (b_bins b) | BThrow b' => b' = b /\ ~ in_range id (b_bins b) | BUndef => False end).
  { intros b id f. unfold on_bin. destruct (bad_id id (b_bins b)) eqn:E.
    - apply bad_id_true in E. auto.
    - apply bad_id_false in E. auto. }
  assert (Hitem : forall b id f, match on_item b id f with
     | BOk _ => in_range id (b_items b) | BThrow b' => b' = b /\ ~ in_range id (b_items b) | BUndef => False end).
  { intros b id f. unfold on_item. destruct (bad_id id (b_items b)) eqn:E.
    - apply bad_id_true in E. auto.
    - apply bad_id_false in E. auto. }
  assert (on_bin_ok : forall b id f, bad_id id (b_bins b) = false -> exists b', on_bin b id f = BOk b').
  { intros b id f E. unfold on_bin. rewrite E. eauto. }
  assert (on_item_ok : forall b id f, bad_id id (b_items b) = false -> exists b', on_item b id f = BOk b').
  { intros b id f E. unfold on_item. rewrite E. eauto. }
  intros b c Hd. destruct c as [o|l|id q|id w|id e|id q p y|id rid x k q|id n|id n| | |l|id w|id n|id n|id w|id e|id p|id n|id n| | |i id|i id];
    try discriminate; cbn [bstep accepted unchecked]; unfold b_set_bin_weight, b_add_eligibility, b_add_resource,
      b_set_item_weight, b_set_item_nesting, b_set_item_stackability, b_set_item_weight_after,
      b_set_item_eligibility, b_set_item_profit;
    try (match goal with |- context [on_bin ?b ?id ?f] => pose proof (Hbin b id f) as H; destruct (on_bin b id f); tauto end);
    try (match goal with |- context [on_item ?b ?id ?f] => pose proof (Hitem b id f) as H; destruct (on_item b id f); tauto end);
    try (simpl; tauto).
  - unfold b_add_bin. destruct (l <=? 0) eqn:E; [apply Z.leb_le in E|apply Z.leb_gt in E]; split; auto; lia.
  - unfold b_set_bin_cost. destruct (bad_id id (b_bins b)) eqn:E.
    { apply bad_id_true in E. tauto. }
    pose proof E as E'. apply bad_id_false in E.
    destruct (Qle_bool q 0) eqn:E1; [apply Qle_bool_iff in E1|];
      (destruct (Qeq_bool q (-1)) eqn:E2; [apply Qeq_bool_iff in E2|apply Qeq_bool_neq in E2]); cbn [andb negb].
    + destruct (on_bin_ok b id) with (1 := E') (f := fun t =>
        mkBT (bt_length t) (inject_Z (bt_length t)) (bt_copies t) (bt_copies_min t) (bt_max_weight t) (bt_eligibility_ids t) (bt_resources t) (bt_item_type_ids t)) as [b' ->].
      tauto.
    + split; [reflexivity|]. intros [_ [H|H]]; [lra|tauto].
    + destruct (on_bin_ok b id) with (1 := E') (f := fun t =>
        mkBT (bt_length t) (inject_Z (bt_length t)) (bt_copies t) (bt_copies_min t) (bt_max_weight t) (bt_eligibility_ids t) (bt_resources t) (bt_item_type_ids t)) as [b' ->].
      tauto.
    + destruct (on_bin_ok b id) with (1 := E') (f := fun t =>
        mkBT (bt_length t) q (bt_copies t) (bt_copies_min t) (bt_max_weight t) (bt_eligibility_ids t) (bt_resources t) (bt_item_type_ids t)) as [b' ->].
      assert (0 < q)%Q. { apply Qnot_le_lt. intro H. apply Qle_bool_iff in H. congruence. } tauto.
  - unfold b_add_consumption. destruct (bad_id id (b_bins b)) eqn:E; [apply bad_id_true in E; tauto|].
    destruct (bad_id rid _) eqn:E1; [apply bad_id_true in E1; tauto|].
    pose proof E as E'. apply bad_id_false in E. apply bad_id_false in E1.
    destruct (k <? 0) eqn:E2; [apply Z.ltb_lt in E2; split; [reflexivity|intros (_ & _ & H); lia]|apply Z.ltb_ge in E2].
    destruct (x <? 0) eqn:E3; [apply Z.ltb_lt in E3; tauto|apply Z.ltb_ge in E3].
    match goal with |- context [on_bin b id ?f] => destruct (on_bin_ok b id f E') as [b' ->] end.
    split; [tauto|]. intros [_ H]. lia.
  - unfold b_set_bin_copies. destruct (bad_id id (b_bins b)) eqn:E; [apply bad_id_true in E; tauto|].
    pose proof E as E'. apply bad_id_false in E.
    match goal with |- context [if ?c then _ else _] => destruct c eqn:E1 end.
    + apply andb_prop in E1. destruct E1 as [E1 E2]. apply negb_true_iff, Z.eqb_neq in E1.
      apply orb_prop in E2. rewrite Z.leb_le, Z.ltb_lt in E2. split; [reflexivity|]. intros [_ [H|[H1 H2]]]; lia.
    + match goal with |- context [on_bin b id ?f] => destruct (on_bin_ok b id f E') as [b' ->] end.
      apply andb_false_iff in E1. rewrite negb_false_iff, Z.eqb_eq, orb_false_iff, Z.leb_gt, Z.ltb_ge in E1. intuition lia.
  - unfold b_set_bin_copies_min. destruct (bad_id id (b_bins b)) eqn:E; [apply bad_id_true in E; tauto|].
    pose proof E as E'. apply bad_id_false in E.
    destruct (n <? 0) eqn:E0; [apply Z.ltb_lt in E0; split; [reflexivity|lia]|apply Z.ltb_ge in E0].
    match goal with |- context [if ?c then _ else _] => destruct c eqn:E1 end.
    + apply andb_prop in E1. destruct E1 as [E1 E2]. apply negb_true_iff, Z.eqb_neq in E1.
      apply Z.ltb_lt in E2. split; [reflexivity|]. intros (_ & _ & [H|H]); lia.
    + match goal with |- context [on_bin b id ?f] => destruct (on_bin_ok b id f E') as [b' ->] end.
      apply andb_false_iff in E1. rewrite negb_false_iff, Z.eqb_eq, Z.ltb_ge in E1. intuition lia.
  - unfold b_set_item_copies. destruct (bad_id id (b_items b)) eqn:E; [apply bad_id_true in E; tauto|].
    pose proof E as E'. apply bad_id_false in E.
    match goal with |- context [if ?c then _ else _] => destruct c eqn:E1 end.
    + apply andb_prop in E1. destruct E1 as [E1 E2]. apply negb_true_iff, Z.eqb_neq in E1.
      apply Z.leb_le in E2. split; [reflexivity|]. intros [_ [H|H]]; lia.
    + match goal with |- context [on_item b id ?f] => destruct (on_item_ok b id f E') as [b' ->] end.
      apply andb_false_iff in E1. rewrite negb_false_iff, Z.eqb_eq, Z.leb_gt in E1. intuition lia.
  - unfold b_set_item_copies_min. destruct (bad_id id (b_items b)) eqn:E; [apply bad_id_true in E; tauto|].
    pose proof E as E'. apply bad_id_false in E.
    destruct (n <? -1) eqn:E0; [apply Z.ltb_lt in E0; split; [reflexivity|lia]|apply Z.ltb_ge in E0].
    match goal with |- context [on_item b id ?f] => destruct (on_item_ok b id f E') as [b' ->] end.
    intuition lia.
  - unfold b_items_infinite. destruct (existsb _ _) eqn:E.
    + apply existsb_exists in E. destruct E as (t & Ht & E). apply Z.eqb_eq in E. eauto.
    + split; [exact I|]. intros (t & Ht & E1).
      assert (existsb (fun t => it_length t =? 0) (b_items b) = true); [|congruence].
      apply existsb_exists. exists t. split; [assumption|]. apply Z.eqb_eq. assumption.
Qed.

(** ** Invariant of the builder *)

Record bin_ok (t : BinType) : Prop := {
  bk_length : 0 < bt_length t;
  bk_cost : (0 < bt_cost t)%Q;
  bk_min : 0 <= bt_copies_min t;
  bk_copies : bt_copies t = -1 \/ (1 <= bt_copies t /\ bt_copies_min t <= bt_copies t);
  bk_ids : bt_item_type_ids t = []
}.
Record item_ok (t : ItemType) : Prop := {
  ik_min : -1 <= it_copies_min t;
  ik_ids : it_resource_ids t = []
}.
Definition binv (b : Builder) : Prop :=
  (forall t, In t (b_bins b) -> bin_ok t) /\ (forall t, In t (b_items b) -> item_ok t).

Definition keeps (r : BRes) : Prop := match r with BOk b | BThrow b => binv b | BUndef => True end.

Lemma keeps_then : forall r f, keeps r -> (forall b, binv b -> keeps (f b)) -> keeps (bthen r f).
Proof. intros [b|b|] f H Hf; simpl in *; auto. Qed.

Lemma keeps_fold : forall (A : Type) (f : Builder -> A -> BRes) (l : list A) r,
  keeps r -> (forall b a, binv b -> keeps (f b a)) ->
  keeps (fold_left (fun r a => bthen r (fun b => f b a)) l r).
Proof.
  intros A f l. induction l as [|a l IH]; intros r Hr Hf; simpl; [assumption|].
  apply IH; [|assumption]. apply keeps_then; auto.
Qed.

Lemma keeps_bin : forall b id f, binv b ->
  (forall t, In t (b_bins b) -> bin_ok (f t)) -> keeps (on_bin b id f).
Proof.
  intros b id f [H1 H2] Hf. unfold on_bin. destruct (bad_id id (b_bins b)); simpl; [split; assumption|].
  split; simpl; [|assumption]. intros t Ht. apply upd_in in Ht.
  destruct Ht as [Ht|(x & Hx & ->)]; auto.
Qed.

Lemma keeps_bin_at : forall b id f, binv b -> bad_id id (b_bins b) = false ->
  (bin_ok (nth (Z.to_nat id) (b_bins b) dummy_bin) -> bin_ok (f (nth (Z.to_nat id) (b_bins b) dummy_bin))) ->
  keeps (on_bin b id f).
Proof.
  intros b id f [H1 H2] E Hf. unfold on_bin. rewrite E. simpl.
  split; simpl; [|assumption]. intros t Ht. apply In_nth with (d := dummy_bin) in Ht.
  destruct Ht as (n & Hn & <-). rewrite upd_length in Hn.
  apply bad_id_false in E. unfold in_range in E. rewrite nth_upd by lia.
  assert (Hin : bin_ok (nth n (b_bins b) dummy_bin)) by (apply H1; apply nth_In; assumption).
  destruct (Nat.eqb (Z.to_nat id) n) eqn:En; [|assumption].
  apply Nat.eqb_eq in En. subst n. auto.
Qed.

Lemma keeps_item : forall b id f, binv b ->
  (forall t, In t (b_items b) -> item_ok (f t)) -> keeps (on_item b id f).
Proof.
  intros b id f [H1 H2] Hf. unfold on_item. destruct (bad_id id (b_items b)); simpl; [split; assumption|].
  split; simpl; [assumption|]. intros t Ht. apply upd_in in Ht.
  destruct Ht as [Ht|(x & Hx & ->)]; auto.
Qed.

Lemma direct_keeps : forall b c, direct c = true -> binv b -> keeps (bstep b c).
Proof.
  intros b c Hd Hb. pose proof Hb as [Hb1 Hb2].
  assert (Kbin : forall id f, (forall t, bin_ok t -> bin_ok (f t)) -> keeps (on_bin b id f)).
  { intros id f Hf. apply keeps_bin; [assumption|]. intros t Ht. apply Hf. auto. }
  assert (Kitem : forall id f, (forall t, item_ok t -> item_ok (f t)) -> keeps (on_item b id f)).
  { intros id f Hf. apply keeps_item; [assumption|]. intros t Ht. apply Hf. auto. }
  destruct c as [o|l|id q|id w|id e|id q p y|id rid x k q|id n|id n| | |l|id w|id n|id n|id w|id e|id p|id n|id n| | |i id|i id];
    try discriminate; cbn [bstep];
    try (apply Kbin; intros t [T1 T2 T3 T4 T5]; constructor; simpl; assumption);
    try (apply Kitem; intros t [T1 T2]; constructor; simpl; assumption).
  - split; assumption.
  - unfold b_add_bin. destruct (l <=? 0) eqn:E; [exact Hb|]. apply Z.leb_gt in E. split; [|assumption].
    simpl. intros t Ht. apply in_app_or in Ht. destruct Ht as [Ht|[<-|[]]]; [auto|].
    constructor; simpl; try lia; auto; try (right; lia).
    change 0%Q with (inject_Z 0). rewrite <- Zlt_Qlt. assumption.
  - unfold b_set_bin_cost. destruct (bad_id id (b_bins b)); [exact Hb|].
    destruct (Qle_bool q 0 && negb (Qeq_bool q (-1))) eqn:E; [exact Hb|].
    apply Kbin. intros t [T1 T2 T3 T4 T5]. constructor; simpl; try assumption.
    destruct (Qeq_bool q (-1)) eqn:E2.
    + change 0%Q with (inject_Z 0). rewrite <- Zlt_Qlt. assumption.
    + rewrite andb_true_r in E. apply Qnot_le_lt. intro H. apply Qle_bool_iff in H. congruence.
  - unfold b_add_consumption. destruct (bad_id id (b_bins b)); [exact Hb|].
    destruct (bad_id rid _); [exact Hb|]. destruct (k <? 0); [exact Hb|]. destruct (x <? 0); [exact I|].
    apply Kbin. intros t [T1 T2 T3 T4 T5]. constructor; simpl; assumption.
  - unfold b_set_bin_copies. destruct (bad_id id (b_bins b)) eqn:E0; [exact Hb|].
    match goal with |- context [if ?c then _ else _] => destruct c eqn:E1; [exact Hb|] end.
    apply keeps_bin_at; [assumption..|]. intros [T1 T2 T3 T4 T5]. constructor; simpl; try assumption.
    apply andb_false_iff in E1. rewrite negb_false_iff, Z.eqb_eq, orb_false_iff, Z.leb_gt, Z.ltb_ge in E1. lia.
  - unfold b_set_bin_copies_min. destruct (bad_id id (b_bins b)) eqn:E0; [exact Hb|].
    destruct (n <? 0) eqn:E2; [exact Hb|]. apply Z.ltb_ge in E2.
    match goal with |- context [if ?c then _ else _] => destruct c eqn:E1; [exact Hb|] end.
    apply keeps_bin_at; [assumption..|]. intros [T1 T2 T3 T4 T5]. constructor; simpl; try assumption.
    apply andb_false_iff in E1. rewrite negb_false_iff, Z.eqb_eq, Z.ltb_ge in E1. lia.
  - split; simpl; [|assumption]. intros t Ht. apply in_map_iff in Ht. destruct Ht as (x & <- & Hx).
    destruct (Hb1 x Hx) as [T1 T2 T3 T4 T5]. constructor; simpl; auto.
  - split; simpl; [|assumption]. intros t Ht. apply in_map_iff in Ht. destruct Ht as (x & <- & Hx).
    destruct (Hb1 x Hx) as [T1 T2 T3 T4 T5]. constructor; simpl; auto.
    change 0%Q with (inject_Z 0). rewrite <- Zlt_Qlt. assumption.
  - split; simpl; [assumption|]. intros t Ht. apply in_app_or in Ht. destruct Ht as [Ht|[<-|[]]]; [auto|].
    constructor; simpl; [lia|reflexivity].
  - unfold b_set_item_copies. destruct (bad_id id (b_items b)); [exact Hb|].
    match goal with |- context [if ?c then _ else _] => destruct c; [exact Hb|] end.
    apply Kitem. intros t [T1 T2]. constructor; simpl; assumption.
  - unfold b_set_item_copies_min. destruct (bad_id id (b_items b)); [exact Hb|].
    destruct (n <? -1) eqn:E; [exact Hb|]. apply Z.ltb_ge in E.
    apply Kitem. intros t [T1 T2]. constructor; simpl; assumption.
  - split; simpl; [assumption|]. intros t Ht. apply in_map_iff in Ht. destruct Ht as (x & <- & Hx).
    destruct (Hb2 x Hx) as [T1 T2]. constructor; simpl; auto.
  - unfold b_items_infinite. destruct (existsb _ _); [exact I|].
    split; simpl; [assumption|]. intros t Ht. apply in_map_iff in Ht. destruct Ht as (x & <- & Hx).
    destruct (Hb2 x Hx) as [T1 T2]. constructor; simpl; auto.
Qed.

Lemma bstep_keeps : forall b c, binv b -> keeps (bstep b c).
Proof.
  intros b c Hb. destruct (direct c) eqn:Hd; [apply direct_keeps; assumption|].
  destruct c as [o|l|id q|id w|id e|id q p y|id rid x k q|id n|id n| | |l|id w|id n|id n|id w|id e|id p|id n|id n| | |i id|i id];
    try discriminate; cbn [bstep].
  - unfold b_copy_bin. destruct (nth_error _ _) as [t|]; [|exact I].
    apply keeps_then; [apply (direct_keeps b (AddBinType (bt_length t))); auto|].
    generalize (length (b_bins b)) as id0. clear b Hb. intros id0 b Hb. cbv zeta.
    apply keeps_then; [apply (direct_keeps (mkB (b_objective b) (b_items b) (b_bins b) _) (SetBinCost _ _)); auto|].
    clear b Hb. intros b Hb.
    apply keeps_then; [apply (direct_keeps b (SetBinCopies _ _)); auto|]. clear b Hb. intros b Hb.
    apply keeps_then; [apply (direct_keeps b (SetBinCopiesMin _ _)); auto|]. clear b Hb. intros b Hb.
    apply keeps_then; [apply (direct_keeps b (SetBinMaxWeight _ _)); auto|]. clear b Hb. intros b Hb.
    apply keeps_then.
    + apply (keeps_fold _ (fun b e => b_add_eligibility b _ e)); [exact Hb|].
      intros b' e Hb'. apply (direct_keeps b' (AddBinEligibility _ _)); auto.
    + clear b Hb. intros b Hb. apply (keeps_fold _ (fun b res => b_add_resource b _ (res_capacity res) (res_penalize res) (res_penalty res))); [exact Hb|].
      intros b' e Hb'. apply (direct_keeps b' (AddBinResource _ _ _ _)); auto.
  - unfold b_copy_item. destruct (nth_error _ _) as [t|]; [|exact I].
    apply keeps_then; [apply (direct_keeps b (AddItemType (it_length t))); auto|].
    generalize (Z.of_nat (length (b_items b))) as zid. clear b Hb. intros zid b Hb.
    apply keeps_then; [apply (direct_keeps b (SetItemProfit _ _)); auto|]. clear b Hb. intros b Hb.
    apply keeps_then; [apply (direct_keeps b (SetItemCopies _ _)); auto|]. clear b Hb. intros b Hb.
    apply keeps_then; [apply (direct_keeps b (SetItemWeight _ _)); auto|]. clear b Hb. intros b Hb.
    apply keeps_then; [apply (direct_keeps b (SetItemNesting _ _)); auto|]. clear b Hb. intros b Hb.
    apply keeps_then; [apply (direct_keeps b (SetItemStackability _ _)); auto|]. clear b Hb. intros b Hb.
    apply keeps_then; [apply (direct_keeps b (SetItemWeightAfter _ _)); auto|]. clear b Hb. intros b Hb.
    apply keeps_then; [apply (direct_keeps b (SetItemEligibility _ _)); auto|]. clear b Hb. intros b Hb.
    apply (keeps_fold _ (fun b ko => match snd ko with
          | None => BOk b
          | Some sub =>
              match nth_error (in_bin_types i) (fst ko) with
              | None => BUndef
              | Some obt => b_copy_resources b (Z.of_nat sub) zid id (bt_resources obt)
              end
          end)); [exact Hb|].
    clear b Hb. intros b [o [sub|]] Hb; simpl; [|exact Hb].
    destruct (nth_error (in_bin_types i) o) as [obt|]; [|exact I].
    unfold b_copy_resources.
    apply (keeps_fold _ (fun b kres => if (id <? length (res_item_consumptions (snd kres)))%nat
      then b_copy_schedule b (Z.of_nat sub) (fst kres) zid (nth id (res_item_consumptions (snd kres)) [])
      else BOk b)); [exact Hb|].
    clear b Hb. intros b [k res] Hb; simpl.
    destruct (id <? length (res_item_consumptions res))%nat; [|exact Hb].
    unfold b_copy_schedule.
    apply (keeps_fold _ (fun b kq => b_add_consumption b (Z.of_nat sub) k zid (fst kq) (snd kq))); [exact Hb|].
    clear b Hb. intros b [c q] Hb; simpl. apply (direct_keeps b (AddConsumption _ _ _ _ _)); auto.
Qed.

Lemma brun_snoc : forall calls c, brun (calls ++ [c]) =
  match brun calls with
  | None => None
  | Some b => match bstep b c with BOk b' | BThrow b' => Some b' | BUndef => None end
  end.
Proof. intros. unfold brun. rewrite fold_left_app. reflexivity. Qed.

Lemma brun_inv : forall calls b, brun calls = Some b -> binv b.
Proof.
  intro calls. induction calls as [|c calls IH] using rev_ind; intros b H.
  - injection H as <-. split; intros t [].
  - rewrite brun_snoc in H. destruct (brun calls) as [b0|]; [|discriminate].
    pose proof (bstep_keeps b0 c (IH b0 eq_refl)) as K.
    destruct (bstep b0 c); simpl in K; try discriminate; injection H as <-; assumption.
Qed.

(** ** build *)

Lemma fold_sum : forall (A : Type) (f : A -> Z) l n, fold_left (fun n t => n + f t) l n = n + zsum f l.
Proof.
  intros A f l. induction l as [|a l IH]; intro n; simpl fold_left; [rewrite zsum_nil; lia|].
  rewrite IH, zsum_cons. lia.
Qed.

Lemma fold_qsum : forall (A : Type) (f : A -> Q) l n, (fold_left (fun n t => (n + f t)%Q) l n == n + qsum f l)%Q.
Proof.
  intros A f l. induction l as [|a l IH]; intro n; simpl fold_left; [unfold qsum; simpl; ring|].
  rewrite IH, qsum_cons. ring.
Qed.

Lemma qltb_lt : forall a b, Qltb a b = true <-> (a < b)%Q.
Proof.
  intros a b. unfold Qltb. rewrite negb_true_iff. split.
  - intro H. apply Qnot_le_lt. intro H1. apply Qle_bool_iff in H1. congruence.
  - intro H. apply not_true_is_false. intro H1. apply Qle_bool_iff in H1. lra.
Qed.

Lemma qltb_ge : forall a b, Qltb a b = false <-> (b <= a)%Q.
Proof. intros a b. unfold Qltb. rewrite negb_false_iff. apply Qle_bool_iff. Qed.

Lemma fold_largest : forall (A : Type) (f : A -> Q) l,
  is_largest f l (fold_left (fun m t => if Qltb m (f t) then f t else m) l 0%Q).
Proof.
  intros A f l. induction l as [|a l IH] using rev_ind.
  - split; [apply Qle_refl|]. split; [intros a []|left; reflexivity].
  - rewrite fold_left_app. simpl. destruct IH as (H1 & H2 & H3).
    set (m := fold_left _ l 0%Q) in *. destruct (Qltb m (f a)) eqn:E.
    + apply qltb_lt in E. split; [lra|]. split.
      * intros x Hx. apply in_app_or in Hx. destruct Hx as [Hx|[<-|[]]]; [specialize (H2 x Hx); lra|apply Qle_refl].
      * right. exists a. split; [apply in_elt|reflexivity].
    + apply qltb_ge in E. split; [assumption|]. split.
      * intros x Hx. apply in_app_or in Hx. destruct Hx as [Hx|[<-|[]]]; auto.
      * destruct H3 as [H3|(x & Hx & H3)]; [left; assumption|right; exists x; split; [apply in_or_app; left|]; assumption].
Qed.

Lemma fold_zlargest : forall (A : Type) (f : A -> Z) l,
  let m := fold_left (fun m t => if m <? f t then f t else m) l 0 in
  0 <= m /\ (forall a, In a l -> f a <= m) /\ (m = 0 \/ exists a, In a l /\ f a = m).
Proof.
  intros A f l. cbv zeta. induction l as [|a l IH] using rev_ind.
  - split; [reflexivity|]. split; [intros a []|left; reflexivity].
  - rewrite fold_left_app. simpl. destruct IH as (H1 & H2 & H3).
    set (m := fold_left _ l 0) in *. destruct (m <? f a) eqn:E.
    + apply Z.ltb_lt in E. split; [lia|]. split.
      * intros x Hx. apply in_app_or in Hx. destruct Hx as [Hx|[<-|[]]]; [specialize (H2 x Hx); lia|lia].
      * right. exists a. split; [apply in_elt|reflexivity].
    + apply Z.ltb_ge in E. split; [assumption|]. split.
      * intros x Hx. apply in_app_or in Hx. destruct Hx as [Hx|[<-|[]]]; auto.
      * destruct H3 as [H3|(x & Hx & H3)]; [left; assumption|right; exists x; split; [apply in_or_app; left|]; assumption].
Qed.

Lemma best_efficiency_spec : forall items,
  match best_efficiency items with
  | None => items = []
  | Some k => (k < length items)%nat /\
      forall t, In t items -> (efficiency t <= efficiency (nth k items dummy_item))%Q
  end.
Proof.
  intro items. unfold best_efficiency.
  assert (H : forall n, (n <= length items)%nat ->
    match fold_left (fun best k =>
      match best with
      | None => Some k
      | Some j => if Qltb (efficiency (nth j items dummy_item)) (efficiency (nth k items dummy_item)) then Some k else best
      end) (seq 0 n) None with
    | None => n = 0%nat
    | Some k => (k < n)%nat /\ forall j, (j < n)%nat ->
        (efficiency (nth j items dummy_item) <= efficiency (nth k items dummy_item))%Q
    end).
  { induction n as [|n IH]; intro Hn; [reflexivity|]. rewrite seq_S, fold_left_app. simpl.
    specialize (IH ltac:(lia)). destruct (fold_left _ (seq 0 n) None) as [k|].
    - destruct IH as [K1 K2]. destruct (Qltb _ _) eqn:E.
      + apply qltb_lt in E. split; [lia|]. intros j Hj. destruct (Nat.eq_dec j n) as [->|]; [apply Qle_refl|].
        specialize (K2 j ltac:(lia)). lra.
      + apply qltb_ge in E. split; [lia|]. intros j Hj. destruct (Nat.eq_dec j n) as [->|]; [assumption|].
        apply K2. lia.
    - subst n. split; [lia|]. intros j Hj. replace j with 0%nat by lia. apply Qle_refl. }
  specialize (H (length items) (Nat.le_refl _)). destruct (fold_left _ _ None) as [k|].
  - destruct H as [H1 H2]. split; [assumption|]. intros t Ht. apply In_nth with (d := dummy_item) in Ht.
    destruct Ht as (j & Hj & <-). auto.
  - destruct items; [reflexivity|discriminate].
Qed.

Lemma expand_spec : forall bins,
  let '(ids, prev, p) := expand_bins bins in
  ids = flat_map (fun t => repeat t (Z.to_nat (bt_copies (nth t bins dummy_bin)))) (seq 0 (length bins)) /\
  length prev = length ids /\
  (forall k, (k < length ids)%nat -> nth k prev 0 = zsum (fun t => bt_length (nth t bins dummy_bin)) (firstn k ids)) /\
  p = zsum (fun t => bt_length (nth t bins dummy_bin)) ids.
Proof.
  intro bins. unfold expand_bins.
  assert (Inner : forall k n ids prev p, length prev = length ids ->
    (forall j, (j < length ids)%nat -> nth j prev 0 = zsum (fun t => bt_length (nth t bins dummy_bin)) (firstn j ids)) ->
    p = zsum (fun t => bt_length (nth t bins dummy_bin)) ids ->
    let '(ids', prev', p') := fold_left (fun (acc : list nat * list Z * Z) (_ : unit) =>
          let '(ids, prev, p) := acc in (ids ++ [k], prev ++ [p], p + bt_length (nth k bins dummy_bin)))
        (repeat tt n) (ids, prev, p) in
    ids' = ids ++ repeat k n /\ length prev' = length ids' /\
    (forall j, (j < length ids')%nat -> nth j prev' 0 = zsum (fun t => bt_length (nth t bins dummy_bin)) (firstn j ids')) /\
    p' = zsum (fun t => bt_length (nth t bins dummy_bin)) ids').
  { intros k n. induction n as [|n IH]; intros ids prev p H1 H2 H3; simpl.
    - rewrite app_nil_r. auto.
    - specialize (IH (ids ++ [k]) (prev ++ [p]) (p + bt_length (nth k bins dummy_bin))).
      destruct (fold_left _ (repeat tt n) _) as [[ids' prev'] p'].
      rewrite <- app_assoc in IH. apply IH.
      + rewrite !app_length. simpl. lia.
      + intros j Hj. rewrite app_length in Hj. simpl in Hj.
        destruct (Nat.eq_dec j (length ids)) as [->|].
        * rewrite app_nth2 by lia. rewrite H1, Nat.sub_diag. simpl.
          rewrite firstn_app, Nat.sub_diag, firstn_all. simpl. rewrite app_nil_r. assumption.
        * rewrite app_nth1 by lia. rewrite firstn_app. replace (j - length ids)%nat with 0%nat by lia.
          simpl. rewrite app_nil_r. apply H2. lia.
      + rewrite zsum_snoc. lia. }
  assert (Outer : forall n, let '(ids, prev, p) := fold_left (fun acc k =>
      let t := nth k bins dummy_bin in
      fold_left (fun (acc : list nat * list Z * Z) (_ : unit) =>
          let '(ids, prev, p) := acc in (ids ++ [k], prev ++ [p], p + bt_length t))
        (repeat tt (Z.to_nat (bt_copies t))) acc)
    (seq 0 n) ([], [], 0) in
    ids = flat_map (fun t => repeat t (Z.to_nat (bt_copies (nth t bins dummy_bin)))) (seq 0 n) /\
    length prev = length ids /\
    (forall k, (k < length ids)%nat -> nth k prev 0 = zsum (fun t => bt_length (nth t bins dummy_bin)) (firstn k ids)) /\
    p = zsum (fun t => bt_length (nth t bins dummy_bin)) ids).
  { induction n as [|n IH].
    - simpl. split; [reflexivity|]. split; [reflexivity|]. split; [intros k Hk; lia|reflexivity].
    - rewrite seq_S, fold_left_app. cbn [fold_left].
      destruct (fold_left _ (seq 0 n) _) as [[ids prev] p]. destruct IH as (I1 & I2 & I3 & I4). cbv zeta.
      specialize (Inner (0 + n)%nat (Z.to_nat (bt_copies (nth (0 + n) bins dummy_bin))) ids prev p I2 I3 I4).
      destruct (fold_left _ (repeat tt _) _) as [[ids' prev'] p'].
      destruct Inner as (J1 & J2 & J3 & J4). split; [|auto].
      rewrite J1, I1, flat_map_app. simpl. rewrite app_nil_r. reflexivity. }
  apply Outer.
Qed.

Lemma seq_sorted : forall n s, StronglySorted lt (seq s n).
Proof.
  induction n as [|n IH]; intro s; simpl; constructor; [apply IH|].
  apply Forall_forall. intros x Hx. apply in_seq in Hx. lia.
Qed.

Lemma filter_sorted : forall f (l : list nat), StronglySorted lt l -> StronglySorted lt (filter f l).
Proof.
  intros f l H. induction H as [|a l H IH Ha]; simpl; [constructor|].
  destruct (f a); [|assumption]. constructor; [assumption|].
  rewrite Forall_forall in *. intros x Hx. apply filter_In in Hx. apply Ha. apply Hx.
Qed.

Lemma find_none_all : forall (A : Type) (f : A -> bool) l, find f l = None -> forall x, In x l -> f x = false.
Proof. intros A f l H x Hx. apply find_none with (l := l); assumption. Qed.

Section Build.

Variable b : Builder.
Variable i : Instance.
Hypothesis Hbuild : b_build b = Built i.
Hypothesis Hinv : binv b.

Notation items := (map (resolve_min (in_objective i)) (b_items b)).
Notation bins := (map (with_item_ids items) (map (resolve_copies (in_number_of_items i)) (b_bins b))).

Lemma build_eq :
  b_objective b = Some (in_objective i) /\
  (forall t, In t items -> it_copies_min t <= it_copies t /\ it_length t <> 0) /\
  (in_objective i = OBinPacking -> forall t, In t (b_bins b) -> bt_copies_min t <= 0) /\
  (forall t r x, In t (b_bins b) -> In r (bt_resources t) -> (length (b_items b) <= x)%nat -> schedule r x = []) /\
  in_bin_types i = bins /\
  in_item_types i = map (fun x => with_resource_ids bins x (nth x items dummy_item)) (seq 0 (length items)) /\
  in_bin_type_ids i = fst (fst (expand_bins bins)) /\
  in_previous_bins_length i = snd (fst (expand_bins bins)) /\
  in_bin_length i = fold_left (fun n t => n + bt_copies t * bt_length t) bins 0 /\
  in_largest_bin_cost i = fold_left (fun m t => if Qltb m (bt_cost t) then bt_cost t else m) bins 0%Q /\
  in_number_of_items i = fold_left (fun n t => n + it_copies t) items 0 /\
  in_item_length i = fold_left (fun n t => n + it_copies t * it_length t) items 0 /\
  in_item_profit i = fold_left (fun n t => (n + inject_Z (it_copies t) * it_profit t)%Q) items 0%Q /\
  in_largest_item_profit i = fold_left (fun m t => if Qltb m (it_profit t) then it_profit t else m) items 0%Q /\
  in_largest_efficiency i = best_efficiency items /\
  in_largest_item_copies i = fold_left (fun m t => if m <? it_copies t then it_copies t else m) items 0 /\
  in_all_infinite i = forallb (fun t => negb (it_copies t <? infinite_copies (length_max (b_bins b)) t)) items.
Proof.
  pose proof Hbuild as H. unfold b_build in H.
  destruct (b_objective b) as [o|]; [|discriminate].
  destruct (find _ _) as [t|] eqn:Ef; [destruct (it_copies t <? it_copies_min t); discriminate|].
  destruct (existsb _ (b_bins b)) eqn:Ec; [discriminate|].
  match type of H with context [if ?c then _ else _] => destruct c eqn:Er; [discriminate|] end.
  match type of H with context [expand_bins ?l] => destruct (expand_bins l) as [[ids prev] p] eqn:Ex end.
  injection H as <-. cbn [in_objective in_number_of_items in_bin_types in_item_types in_bin_type_ids in_previous_bins_length
    in_bin_length in_largest_bin_cost in_item_length in_item_profit in_largest_item_profit in_largest_efficiency
    in_largest_item_copies in_all_infinite].
  split; [reflexivity|]. split.
  { intros t Ht. pose proof (find_none_all _ _ _ Ef t Ht) as F. simpl in F. apply orb_false_iff in F.
    rewrite Z.ltb_ge, Z.eqb_neq in F. exact F. }
  split.
  { intros -> t Ht. apply Z.nlt_ge. intro Hlt.
    assert (existsb (fun t => 0 <? bt_copies_min t) (b_bins b) = true); [|simpl in *; congruence].
    apply existsb_exists. exists t. split; [assumption|]. apply Z.ltb_lt. assumption. }
  split.
  { intros t r x Ht Hr Hx. unfold schedule.
    destruct (le_lt_dec (length (res_item_consumptions r)) x) as [L|L]; [apply nth_overflow; assumption|].
    destruct (nth x (res_item_consumptions r) []) as [|q l] eqn:En; [reflexivity|]. exfalso.
    match type of Er with ?e = false => assert (e = true); [|congruence] end.
    apply existsb_exists. exists t. split; [assumption|].
    apply existsb_exists. exists r. split; [assumption|].
    apply existsb_exists. exists x. rewrite map_length, in_seq. split; [lia|]. rewrite En. reflexivity. }
  rewrite Ex. repeat split; reflexivity.
Qed.

Lemma resolved_nth : forall x, (x < length (b_items b))%nat ->
  nth x items dummy_item = resolve_min (in_objective i) (nth x (b_items b) dummy_item).
Proof.
  intros x Hx.
  rewrite nth_indep with (d' := resolve_min (in_objective i) dummy_item) by (rewrite map_length; assumption).
  apply map_nth.
Qed.

Lemma items_nth : forall x, (x < length (b_items b))%nat ->
  item_type i x = with_resource_ids bins x (resolve_min (in_objective i) (nth x (b_items b) dummy_item)).
Proof.
  intros x Hx. destruct build_eq as (_ & _ & _ & _ & _ & E & _). unfold item_type. rewrite E.
  rewrite map_length. 
  rewrite nth_indep with (d' := with_resource_ids bins 0%nat (nth 0%nat items dummy_item))
    by (rewrite map_length, seq_length; assumption).
  rewrite map_nth with (f := fun x => with_resource_ids bins x (nth x items dummy_item)).
  rewrite seq_nth by assumption. simpl plus.
  f_equal. apply resolved_nth. assumption.
Qed.

Lemma items_length : length (in_item_types i) = length (b_items b).
Proof.
  destruct build_eq as (_ & _ & _ & _ & _ & E & _). rewrite E, map_length, seq_length, map_length. reflexivity.
Qed.

Lemma bins_nth : forall t, (t < length (b_bins b))%nat ->
  bin_type i t = with_item_ids items (resolve_copies (in_number_of_items i) (nth t (b_bins b) dummy_bin)).
Proof.
  intros t Ht. destruct build_eq as (_ & _ & _ & _ & E & _). unfold bin_type. rewrite E, map_map.
  rewrite nth_indep with (d' := with_item_ids items (resolve_copies (in_number_of_items i) dummy_bin))
    by (rewrite map_length; assumption).
  apply (map_nth (fun x => with_item_ids items (resolve_copies (in_number_of_items i) x))).
Qed.

Lemma bins_length : length (in_bin_types i) = length (b_bins b).
Proof. destruct build_eq as (_ & _ & _ & _ & E & _). rewrite E, !map_length. reflexivity. Qed.

Lemma in_items : forall t, In t (in_item_types i) -> exists x, (x < length (b_items b))%nat /\ t = item_type i x.
Proof.
  intros t Ht. apply In_nth with (d := dummy_item) in Ht. destruct Ht as (x & Hx & <-).
  rewrite items_length in Hx. exists x. split; [assumption|reflexivity].
Qed.

Lemma in_bins : forall t, In t (in_bin_types i) -> exists x, (x < length (b_bins b))%nat /\ t = bin_type i x.
Proof.
  intros t Ht. apply In_nth with (d := dummy_bin) in Ht. destruct Ht as (x & Hx & <-).
  rewrite bins_length in Hx. exists x. split; [assumption|reflexivity].
Qed.

Lemma build_holds : holds_data b i.
Proof.
  constructor.
  - apply build_eq.
  - split; [apply items_length|]. intros x Hx. cbv zeta. rewrite (items_nth x Hx). simpl. repeat split; reflexivity.
  - split; [apply bins_length|]. intros t Ht. cbv zeta. rewrite (bins_nth t Ht). simpl. repeat split; reflexivity.
Qed.

(** A function of the item types that does not look at the resource ids. *)
Lemma items_map : forall (B : Type) (f : ItemType -> B),
  (forall t l x, f (with_resource_ids l x t) = f t) -> map f (in_item_types i) = map f items.
Proof.
  intros B f Hf. apply nth_ext with (d := f dummy_item) (d' := f dummy_item).
  - rewrite !map_length. apply items_length.
  - intros n Hn. rewrite map_length, items_length in Hn. rewrite !map_nth.
    change (nth n (in_item_types i) dummy_item) with (item_type i n). rewrite (items_nth n Hn), Hf.
    f_equal. symmetry. apply resolved_nth. assumption.
Qed.

Lemma zsum_as_map : forall (A : Type) (f : A -> Z) l, zsum f l = zsum (fun z => z) (map f l).
Proof. intros. rewrite zsum_map. reflexivity. Qed.
Lemma qsum_as_map : forall (A : Type) (f : A -> Q) l, qsum f l = qsum (fun z => z) (map f l).
Proof. intros. rewrite qsum_map. reflexivity. Qed.

Lemma in_map_items : forall (B : Type) (f : ItemType -> B), (forall t l x, f (with_resource_ids l x t) = f t) ->
  forall y, (exists t, In t (in_item_types i) /\ f t = y) <-> (exists t, In t items /\ f t = y).
Proof.
  intros B f Hf y. pose proof (items_map B f Hf) as E.
  split; intros (t & Ht & <-); apply (in_map f) in Ht; [rewrite E in Ht|rewrite <- E in Ht];
    apply in_map_iff in Ht; destruct Ht as (u & E1 & Hu); exists u; auto.
Qed.

Lemma build_bounded : well_bounded i.
Proof.
  destruct build_eq as (_ & E1 & E2 & _).
  destruct Hinv as [I1 I2].
  constructor.
  - intros t Ht. destruct (in_items t Ht) as (x & Hx & ->). rewrite (items_nth x Hx). simpl.
    assert (Hin : In (resolve_min (in_objective i) (nth x (b_items b) dummy_item)) items).
    { apply in_map. apply nth_In. assumption. }
    destruct (E1 _ Hin) as [F1 F2]. simpl in F1, F2. split; [assumption|]. split; [assumption|].
    destruct (I2 (nth x (b_items b) dummy_item) (nth_In _ _ Hx)) as [G _].
    destruct (it_copies_min (nth x (b_items b) dummy_item) =? -1) eqn:Em; intro Hc.
    + destruct (in_objective i); lia.
    + apply Z.eqb_neq in Em. lia.
  - intros t Ht. destruct (in_bins t Ht) as (x & Hx & ->). rewrite (bins_nth x Hx). simpl.
    destruct (I1 (nth x (b_bins b) dummy_bin) (nth_In _ _ Hx)) as [G1 G2 G3 G4 G5]. auto.
  - intros Ho t Ht. destruct (in_bins t Ht) as (x & Hx & ->). rewrite (bins_nth x Hx). simpl.
    destruct (I1 (nth x (b_bins b) dummy_bin) (nth_In _ _ Hx)) as [G1 G2 G3 G4 G5].
    specialize (E2 Ho _ (nth_In (b_bins b) dummy_bin Hx)). lia.
Qed.

Lemma build_consistent : consistent i.
Proof.
  destruct build_eq as (_ & E1 & _ & Esched & Eb & Ei & Eids & Eprev & Ebl & Ecost & En & El & Ep & Elp & Eeff & Elc & _).
  constructor.
  - rewrite En, fold_sum, Z.add_0_l. rewrite (zsum_as_map _ it_copies items), (zsum_as_map _ it_copies (in_item_types i)).
    f_equal. symmetry. apply items_map. reflexivity.
  - rewrite El, (fold_sum _ (fun t => it_copies t * it_length t)), Z.add_0_l.
    rewrite (zsum_as_map _ _ items), (zsum_as_map _ _ (in_item_types i)).
    f_equal. symmetry. apply items_map. reflexivity.
  - rewrite Ep, (fold_qsum _ (fun t => (inject_Z (it_copies t) * it_profit t)%Q)), Qplus_0_l.
    rewrite (qsum_as_map _ _ items), (qsum_as_map _ _ (in_item_types i)).
    rewrite items_map; [reflexivity|reflexivity].
  - rewrite Elp. destruct (fold_largest _ it_profit items) as (L1 & L2 & L3). split; [assumption|]. split.
    + intros t Ht. destruct (proj1 (in_map_items _ it_profit (fun _ _ _ => eq_refl) (it_profit t))) as (u & Hu & <-); [eauto|auto].
    + destruct L3 as [L3|L3]; [left; assumption|right].
      apply (in_map_items _ it_profit (fun _ _ _ => eq_refl)). assumption.
  - rewrite Elc. destruct (fold_zlargest _ it_copies items) as (L1 & L2 & L3). split; [assumption|]. split.
    + intros t Ht. destruct (proj1 (in_map_items _ it_copies (fun _ _ _ => eq_refl) (it_copies t))) as (u & Hu & <-); [eauto|auto].
    + destruct L3 as [L3|L3]; [left; assumption|right].
      apply (in_map_items _ it_copies (fun _ _ _ => eq_refl)). assumption.
  - rewrite Eeff. pose proof (best_efficiency_spec items) as B.
    destruct (best_efficiency items) as [k|].
    + destruct B as [B1 B2]. rewrite map_length in B1. rewrite items_length. split; [assumption|].
      intros t Ht. rewrite (items_nth k B1). cbn [it_profit it_length with_resource_ids].
      destruct (proj1 (in_map_items _ efficiency (fun _ _ _ => eq_refl) (efficiency t))) as (u & Hu & Eu); [eauto|].
      specialize (B2 u Hu). rewrite Eu in B2. unfold efficiency in B2.
      rewrite (resolved_nth k B1) in B2. exact B2.
    + apply map_eq_nil in B. apply length_zero_iff_nil. rewrite items_length, B. reflexivity.
  - rewrite Ebl, (fold_sum _ (fun t => bt_copies t * bt_length t)), Eb. reflexivity.
  - rewrite Ecost, Eb. apply fold_largest.
  - rewrite Eids, <- Eb. pose proof (expand_spec (in_bin_types i)) as X.
    destruct (expand_bins (in_bin_types i)) as [[ids prev] p]. apply X.
  - rewrite Eids, Eprev, <- Eb. pose proof (expand_spec (in_bin_types i)) as X.
    destruct (expand_bins (in_bin_types i)) as [[ids prev] p]. simpl. destruct X as (_ & X1 & X2 & _). auto.
  - intros t Ht. rewrite bins_length in Ht. rewrite (bins_nth t Ht). simpl. split.
    + apply filter_sorted. apply seq_sorted.
    + intro x. rewrite filter_In, in_seq, map_length, items_length. split.
      * intros [[_ Hx] H]. split; [assumption|]. unfold is_eligible.
        rewrite (items_nth x Hx), (bins_nth t Ht). simpl.
        rewrite (resolved_nth x Hx) in H. unfold eligible in H. simpl in H. apply orb_prop in H.
        destruct H as [H|H]; [left; apply Z.eqb_eq; assumption|right].
        apply existsb_exists in H. destruct H as (e & He & H). apply Z.eqb_eq in H. rewrite H. assumption.
      * intros [Hx H]. split; [lia|]. unfold is_eligible in H.
        rewrite (items_nth x Hx), (bins_nth t Ht) in H. simpl in H.
        rewrite (resolved_nth x Hx). unfold eligible. simpl. apply orb_true_iff.
        destruct H as [H|H]; [left; apply Z.eqb_eq; assumption|right].
        apply existsb_exists. exists (it_eligibility (nth x (b_items b) dummy_item)). split; [assumption|apply Z.eqb_refl].
  - intros x t Hx Ht. rewrite items_length in Hx. rewrite bins_length in Ht.
    rewrite (items_nth x Hx). simpl it_resource_ids. unfold resource_ids_of.
    assert (Hnth : nth t (map (fun t => filter (fun r =>
        match nth x (res_item_consumptions (nth r (bt_resources t) dummy_resource)) [] with [] => false | _ => true end)
        (seq 0 (length (bt_resources t)))) bins) [] =
      filter (fun r =>
        match nth x (res_item_consumptions (nth r (bt_resources (bin_type i t)) dummy_resource)) [] with [] => false | _ => true end)
        (seq 0 (length (bt_resources (bin_type i t))))).
    { rewrite nth_indep with (d' := filter (fun r =>
        match nth x (res_item_consumptions (nth r (bt_resources dummy_bin) dummy_resource)) [] with [] => false | _ => true end)
        (seq 0 (length (bt_resources dummy_bin)))) by (rewrite !map_length; assumption).
      rewrite (map_nth (fun t => filter (fun r =>
        match nth x (res_item_consumptions (nth r (bt_resources t) dummy_resource)) [] with [] => false | _ => true end)
        (seq 0 (length (bt_resources t)))) bins dummy_bin t).
      unfold bin_type. rewrite Eb. reflexivity. }
    rewrite Hnth. split.
    + apply NoDup_filter. apply seq_NoDup.
    + intro r. rewrite filter_In, in_seq. unfold schedule.
      destruct (nth x (res_item_consumptions (nth r (bt_resources (bin_type i t)) dummy_resource)) []) as [|q l].
      * split; [intros [_ H]; discriminate|intros [_ H]; congruence].
      * split; [intros [H _]; split; [lia|discriminate]|intros [H _]; split; [lia|reflexivity]].
Qed.

End Build.
