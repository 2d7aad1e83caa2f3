(** * Proofs about the rectangle instance builder *)

From Coq Require Import List ZArith QArith Qminmax Bool Lia Lqa Sorted Arith.
From Verif Require Import Util Common_Model OneDim_Model OneDim_Spec OneDimBuilder_Model OneDimBuilder_Spec OneDimBuilder_Proof
  Rect_Model RectBuilder_Model RectBuilder_Spec.
Import ListNotations.
Open Scope Z_scope.

(** ** Acceptance of the calls *)

Ltac split_call c :=
  destruct c as [o|ps|g v|ul|lm|x y|id q|id w|id tk|id e|id dx dy lx ly|id q p y|id rid x k q|id n|id n| | | | |x y o|id g|id w|id e|id p|id n|id n| | | |n|i id|i id].

Ltac unfold_setters :=
  unfold u_set_bin_weight, u_set_bin_truck, u_add_eligibility, u_add_defect, u_add_resource,
    u_set_item_weight, u_set_item_eligibility, u_set_item_profit.

Lemma racceptance : forall b c, rdirect c = true ->
  match ustep b c with
  | UOk _ => raccepted b c /\ ~ runchecked b c
  | UThrow b' => b' = b /\ ~ raccepted b c
  | UUndef => runchecked b c
  end.
Proof.
  assert (Hbin : forall b id f, match uon_bin b id f with
     | UOk _ => in_range id (u_bins b) | UThrow b' => b' = b /\ ~ in_range id (u_bins b) | UUndef => False end).
  { intros b id f. unfold uon_bin. destruct (bad_id id (u_bins b)) eqn:E.
    - apply bad_id_true in E. auto.
    - apply bad_id_false in E. auto. }
  assert (Hitem : forall b id f, match uon_item b id f with
     | UOk _ => in_range id (u_items b) | UThrow b' => b' = b /\ ~ in_range id (u_items b) | UUndef => False end).
  { intros b id f. unfold uon_item. destruct (bad_id id (u_items b)) eqn:E.
    - apply bad_id_true in E. auto.
    - apply bad_id_false in E. auto. }
  assert (Bok : forall b id f, bad_id id (u_bins b) = false -> exists b', uon_bin b id f = UOk b').
  { intros b id f E. unfold uon_bin. rewrite E. eauto. }
  assert (Iok : forall b id f, bad_id id (u_items b) = false -> exists b', uon_item b id f = UOk b').
  { intros b id f E. unfold uon_item. rewrite E. eauto. }
  intros b c Hd. split_call c;
    try discriminate; cbn [ustep raccepted runchecked]; unfold_setters;
    try (match goal with |- context [uon_bin ?b ?id ?f] => pose proof (Hbin b id f) as H; destruct (uon_bin b id f); tauto end);
    try (match goal with |- context [uon_item ?b ?id ?f] => pose proof (Hitem b id f) as H; destruct (uon_item b id f); tauto end);
    try (simpl; tauto).
  - unfold u_group_weight. destruct (g <? 0) eqn:E; [apply Z.ltb_lt in E; assumption|apply Z.ltb_ge in E; split; [exact I|lia]].
  - unfold u_add_bin. destruct (x <=? 0) eqn:E; [apply Z.leb_le in E; split; [auto|lia]|apply Z.leb_gt in E].
    destruct (y <=? 0) eqn:E1; [apply Z.leb_le in E1; split; [auto|lia]|apply Z.leb_gt in E1]. split; [lia|auto].
  - unfold u_set_bin_cost. destruct (bad_id id (u_bins b)) eqn:E.
    { apply bad_id_true in E. tauto. }
    pose proof E as E'. apply bad_id_false in E.
    destruct (Qle_bool q 0) eqn:E1; [apply Qle_bool_iff in E1|];
      (destruct (Qeq_bool q (-1)) eqn:E2; [apply Qeq_bool_iff in E2|apply Qeq_bool_neq in E2]); cbn [andb negb];
      try (match goal with |- context [uon_bin b id ?f] => destruct (Bok b id f E') as [b' ->] end).
    + tauto.
    + split; [reflexivity|]. intros [_ [H|H]]; [lra|tauto].
    + tauto.
    + assert (0 < q)%Q. { apply Qnot_le_lt. intro H. apply Qle_bool_iff in H. congruence. } tauto.
  - unfold u_add_consumption. destruct (bad_id id (u_bins b)) eqn:E; [apply bad_id_true in E; tauto|].
    destruct (bad_id rid _) eqn:E1; [apply bad_id_true in E1; tauto|].
    pose proof E as E'. apply bad_id_false in E. apply bad_id_false in E1.
    destruct (k <? 0) eqn:E2; [apply Z.ltb_lt in E2; split; [reflexivity|intros (_ & _ & H); lia]|apply Z.ltb_ge in E2].
    destruct (x <? 0) eqn:E3; [apply Z.ltb_lt in E3; tauto|apply Z.ltb_ge in E3].
    match goal with |- context [uon_bin b id ?f] => destruct (Bok b id f E') as [b' ->] end.
    split; [tauto|]. intros [_ H]. lia.
  - unfold u_set_bin_copies. destruct (bad_id id (u_bins b)) eqn:E; [apply bad_id_true in E; tauto|].
    pose proof E as E'. apply bad_id_false in E.
    match goal with |- context [if ?c then _ else _] => destruct c eqn:E1 end.
    + apply andb_prop in E1. destruct E1 as [E1 E2]. apply negb_true_iff, Z.eqb_neq in E1.
      apply orb_prop in E2. rewrite Z.leb_le, Z.ltb_lt in E2. split; [reflexivity|]. intros [_ [H|[H1 H2]]]; lia.
    + match goal with |- context [uon_bin b id ?f] => destruct (Bok b id f E') as [b' ->] end.
      apply andb_false_iff in E1. rewrite negb_false_iff, Z.eqb_eq, orb_false_iff, Z.leb_gt, Z.ltb_ge in E1. intuition lia.
  - unfold u_set_bin_copies_min. destruct (bad_id id (u_bins b)) eqn:E; [apply bad_id_true in E; tauto|].
    pose proof E as E'. apply bad_id_false in E.
    destruct (n <? 0) eqn:E0; [apply Z.ltb_lt in E0; split; [reflexivity|lia]|apply Z.ltb_ge in E0].
    match goal with |- context [if ?c then _ else _] => destruct c eqn:E1 end.
    + apply andb_prop in E1. destruct E1 as [E1 E2]. apply negb_true_iff, Z.eqb_neq in E1.
      apply Z.ltb_lt in E2. split; [reflexivity|]. intros (_ & _ & [H|H]); lia.
    + match goal with |- context [uon_bin b id ?f] => destruct (Bok b id f E') as [b' ->] end.
      apply andb_false_iff in E1. rewrite negb_false_iff, Z.eqb_eq, Z.ltb_ge in E1. intuition lia.
  - unfold u_add_item. destruct (x <? 0) eqn:E; [apply Z.ltb_lt in E; split; [auto|lia]|apply Z.ltb_ge in E].
    destruct (y <? 0) eqn:E1; [apply Z.ltb_lt in E1; split; [auto|lia]|apply Z.ltb_ge in E1]. split; [lia|auto].
  - unfold u_set_item_group. destruct (g <? 0) eqn:E; [apply Z.ltb_lt in E; split; [auto|lia]|apply Z.ltb_ge in E].
    destruct (bad_id id (u_items b)) eqn:E1; [apply bad_id_true in E1; tauto|].
    match goal with |- context [uon_item b id ?f] => destruct (Iok b id f E1) as [b' ->] end.
    apply bad_id_false in E1. tauto.
  - unfold u_set_item_copies. destruct (bad_id id (u_items b)) eqn:E; [apply bad_id_true in E; tauto|].
    pose proof E as E'. apply bad_id_false in E.
    match goal with |- context [if ?c then _ else _] => destruct c eqn:E1 end.
    + apply andb_prop in E1. destruct E1 as [E1 E2]. apply negb_true_iff, Z.eqb_neq in E1.
      apply Z.leb_le in E2. split; [reflexivity|]. intros [_ [H|H]]; lia.
    + match goal with |- context [uon_item b id ?f] => destruct (Iok b id f E') as [b' ->] end.
      apply andb_false_iff in E1. rewrite negb_false_iff, Z.eqb_eq, Z.leb_gt in E1. intuition lia.
  - unfold u_set_item_copies_min. destruct (bad_id id (u_items b)) eqn:E; [apply bad_id_true in E; tauto|].
    pose proof E as E'. apply bad_id_false in E.
    destruct (n <? -1) eqn:E0; [apply Z.ltb_lt in E0; split; [reflexivity|lia]|apply Z.ltb_ge in E0].
    match goal with |- context [uon_item b id ?f] => destruct (Iok b id f E') as [b' ->] end.
    intuition lia.
  - unfold u_items_infinite. destruct (existsb _ _) eqn:E.
    + apply existsb_exists in E. destruct E as (t & Ht & E). apply Z.eqb_eq in E. eauto.
    + split; [exact I|]. intros (t & Ht & E1).
      assert (existsb (fun t => ri_area t =? 0) (u_items b) = true); [|congruence].
      apply existsb_exists. exists t. split; [assumption|]. apply Z.eqb_eq. assumption.
Qed.

(** ** Invariant of the builder *)

Record rbin_inv (t : RBin) : Prop := {
  rbk_min : 0 <= rb_copies_min t;
  rbk_copies : rb_copies t = -1 \/ (1 <= rb_copies t /\ rb_copies_min t <= rb_copies t)
}.
Record ritem_inv (t : RItem) : Prop := {
  rik_x : 0 <= ri_x t;
  rik_y : 0 <= ri_y t;
  rik_min : -1 <= ri_copies_min t;
  rik_ids : ri_resource_ids t = []
}.
Definition uinv (b : RBuilder) : Prop :=
  (forall t, In t (u_bins b) -> rbin_inv t) /\ (forall t, In t (u_items b) -> ritem_inv t).

Definition ukeeps (r : URes) : Prop := match r with UOk b | UThrow b => uinv b | UUndef => True end.

Lemma ukeeps_then : forall r f, ukeeps r -> (forall b, uinv b -> ukeeps (f b)) -> ukeeps (uthen r f).
Proof. intros [b|b|] f H Hf; simpl in *; auto. Qed.

Lemma ukeeps_fold : forall (A : Type) (f : RBuilder -> A -> URes) (l : list A) r,
  ukeeps r -> (forall b a, uinv b -> ukeeps (f b a)) ->
  ukeeps (fold_left (fun r a => uthen r (fun b => f b a)) l r).
Proof.
  intros A f l. induction l as [|a l IH]; intros r Hr Hf; simpl; [assumption|].
  apply IH; [|assumption]. apply ukeeps_then; auto.
Qed.

Lemma ukeeps_bin : forall b id f, uinv b ->
  (forall t, In t (u_bins b) -> rbin_inv (f t)) -> ukeeps (uon_bin b id f).
Proof.
  intros b id f [H1 H2] Hf. unfold uon_bin. destruct (bad_id id (u_bins b)); simpl; [split; assumption|].
  split; simpl; [|assumption]. intros t Ht. apply upd_in in Ht.
  destruct Ht as [Ht|(x & Hx & ->)]; auto.
Qed.

Lemma ukeeps_bin_at : forall b id f, uinv b -> bad_id id (u_bins b) = false ->
  (rbin_inv (nth (Z.to_nat id) (u_bins b) dummy_rbin) -> rbin_inv (f (nth (Z.to_nat id) (u_bins b) dummy_rbin))) ->
  ukeeps (uon_bin b id f).
Proof.
  intros b id f [H1 H2] E Hf. unfold uon_bin. rewrite E. simpl.
  split; simpl; [|assumption]. intros t Ht. apply In_nth with (d := dummy_rbin) in Ht.
  destruct Ht as (n & Hn & <-). rewrite upd_length in Hn.
  apply bad_id_false in E. unfold in_range in E. rewrite nth_upd by lia.
  assert (Hin : rbin_inv (nth n (u_bins b) dummy_rbin)) by (apply H1; apply nth_In; assumption).
  destruct (Nat.eqb (Z.to_nat id) n) eqn:En; [|assumption].
  apply Nat.eqb_eq in En. subst n. auto.
Qed.

Lemma ukeeps_item : forall b id f, uinv b ->
  (forall t, In t (u_items b) -> ritem_inv (f t)) -> ukeeps (uon_item b id f).
Proof.
  intros b id f [H1 H2] Hf. unfold uon_item. destruct (bad_id id (u_items b)); simpl; [split; assumption|].
  split; simpl; [assumption|]. intros t Ht. apply upd_in in Ht.
  destruct Ht as [Ht|(x & Hx & ->)]; auto.
Qed.

Lemma rdirect_keeps : forall b c, rdirect c = true -> uinv b -> ukeeps (ustep b c).
Proof.
  intros b c Hd Hb. pose proof Hb as [Hb1 Hb2].
  assert (Kbin : forall id f, (forall t, rbin_inv t -> rbin_inv (f t)) -> ukeeps (uon_bin b id f)).
  { intros id f Hf. apply ukeeps_bin; [assumption|]. intros t Ht. apply Hf. auto. }
  assert (Kitem : forall id f, (forall t, ritem_inv t -> ritem_inv (f t)) -> ukeeps (uon_item b id f)).
  { intros id f Hf. apply ukeeps_item; [assumption|]. intros t Ht. apply Hf. auto. }
  assert (Mbin : forall f, (forall t, rbin_inv t -> rbin_inv (f t)) -> ukeeps (UOk (uset_bins b (map f (u_bins b))))).
  { intros f Hf. split; simpl; [|assumption]. intros t Ht. apply in_map_iff in Ht. destruct Ht as (x & <- & Hx). auto. }
  assert (Mitem : forall f, (forall t, ritem_inv t -> ritem_inv (f t)) -> ukeeps (UOk (uset_items b (map f (u_items b))))).
  { intros f Hf. split; simpl; [assumption|]. intros t Ht. apply in_map_iff in Ht. destruct Ht as (x & <- & Hx). auto. }
  split_call c;
    try discriminate; cbn [ustep];
    try (apply Kbin; intros t [T1 T2]; constructor; simpl; assumption);
    try (apply Kitem; intros t [T1 T2 T3 T4]; constructor; simpl; assumption);
    try (apply Mbin; intros t [T1 T2]; constructor; simpl; auto; fail);
    try (apply Mitem; intros t [T1 T2 T3 T4]; constructor; simpl; auto; fail);
    try (split; assumption).
  - unfold u_group_weight. destruct (g <? 0); [exact I|split; assumption].
  - unfold u_add_bin. destruct (x <=? 0) eqn:E; [exact Hb|]. destruct (y <=? 0) eqn:E1; [exact Hb|]. split; [|assumption].
    simpl. intros t Ht. apply in_app_or in Ht. destruct Ht as [Ht|[<-|[]]]; [auto|].
    constructor; simpl; lia.
  - unfold u_set_bin_cost. destruct (bad_id id (u_bins b)); [exact Hb|].
    destruct (Qle_bool q 0 && negb (Qeq_bool q (-1))) eqn:E; [exact Hb|].
    apply Kbin. intros t [T1 T2]. constructor; simpl; assumption.
  - unfold u_add_consumption. destruct (bad_id id (u_bins b)); [exact Hb|].
    destruct (bad_id rid _); [exact Hb|]. destruct (k <? 0); [exact Hb|]. destruct (x <? 0); [exact I|].
    apply Kbin. intros t [T1 T2]. constructor; simpl; assumption.
  - unfold u_set_bin_copies. destruct (bad_id id (u_bins b)) eqn:E0; [exact Hb|].
    match goal with |- context [if ?c then _ else _] => destruct c eqn:E1; [exact Hb|] end.
    apply ukeeps_bin_at; [assumption..|]. intros [T1 T2]. constructor; simpl; try assumption.
    apply andb_false_iff in E1. rewrite negb_false_iff, Z.eqb_eq, orb_false_iff, Z.leb_gt, Z.ltb_ge in E1. lia.
  - unfold u_set_bin_copies_min. destruct (bad_id id (u_bins b)) eqn:E0; [exact Hb|].
    destruct (n <? 0) eqn:E2; [exact Hb|]. apply Z.ltb_ge in E2.
    match goal with |- context [if ?c then _ else _] => destruct c eqn:E1; [exact Hb|] end.
    apply ukeeps_bin_at; [assumption..|]. intros [T1 T2]. constructor; simpl; try assumption.
    apply andb_false_iff in E1. rewrite negb_false_iff, Z.eqb_eq, Z.ltb_ge in E1. lia.
  - unfold u_add_item. destruct (x <? 0) eqn:E; [exact Hb|]. destruct (y <? 0) eqn:E1; [exact Hb|].
    apply Z.ltb_ge in E, E1. split; simpl; [assumption|].
    intros t Ht. apply in_app_or in Ht. destruct Ht as [Ht|[<-|[]]]; [auto|].
    constructor; simpl; [lia..|reflexivity].
  - unfold u_set_item_group. destruct (g <? 0); [exact Hb|]. destruct (bad_id id (u_items b)); [exact I|].
    apply Kitem. intros t [T1 T2 T3 T4]. constructor; simpl; assumption.
  - unfold u_set_item_copies. destruct (bad_id id (u_items b)); [exact Hb|].
    match goal with |- context [if ?c then _ else _] => destruct c; [exact Hb|] end.
    apply Kitem. intros t [T1 T2 T3 T4]. constructor; simpl; assumption.
  - unfold u_set_item_copies_min. destruct (bad_id id (u_items b)); [exact Hb|].
    destruct (n <? -1) eqn:E; [exact Hb|]. apply Z.ltb_ge in E.
    apply Kitem. intros t [T1 T2 T3 T4]. constructor; simpl; assumption.
  - unfold u_items_infinite. destruct (existsb _ _); [exact I|].
    apply Mitem. intros t [T1 T2 T3 T4]. constructor; simpl; assumption.
Qed.

Ltac nextcall c := apply ukeeps_then; [apply (rdirect_keeps _ c); auto|]; match goal with H : uinv ?b |- _ => clear b H end; intros b Hb.

Lemma ustep_keeps : forall b c, uinv b -> ukeeps (ustep b c).
Proof.
  intros b c Hb. destruct (rdirect c) eqn:Hd; [apply rdirect_keeps; assumption|].
  split_call c; try discriminate; cbn [ustep].
  - unfold u_copy_bin. destruct (nth_error _ _) as [t|]; [|exact I].
    apply ukeeps_then; [apply (rdirect_keeps b (UAddBin (rb_x t) (rb_y t))); auto|].
    generalize (length (u_bins b)) as id0. clear b Hb. intros id0 b Hb. cbv zeta.
    apply ukeeps_then; [apply (rdirect_keeps (mkU (u_objective b) (u_params b) (u_items b) (u_bins b) _) (USetBinCost _ _)); auto|].
    clear b Hb. intros b Hb.
    apply ukeeps_then; [apply (rdirect_keeps b (USetBinCopies _ _)); auto|]. clear b Hb. intros b Hb.
    apply ukeeps_then; [apply (rdirect_keeps b (USetBinCopiesMin _ _)); auto|]. clear b Hb. intros b Hb.
    apply ukeeps_then; [apply (rdirect_keeps b (USetBinWeight _ _)); auto|]. clear b Hb. intros b Hb.
    apply ukeeps_then; [apply (rdirect_keeps b (USetBinTruck _ _)); auto|]. clear b Hb. intros b Hb.
    apply ukeeps_then.
    { apply (ukeeps_fold _ (fun b e => u_add_eligibility b _ e)); [exact Hb|].
      intros b' e Hb'. apply (rdirect_keeps b' (UAddEligibility _ _)); auto. }
    clear b Hb. intros b Hb. apply ukeeps_then.
    { apply (ukeeps_fold _ (fun b d => u_add_defect b _ (df_x d) (df_y d) (df_lx d) (df_ly d))); [exact Hb|].
      intros b' e Hb'. apply (rdirect_keeps b' (UAddDefect _ _ _ _ _)); auto. }
    clear b Hb. intros b Hb. apply (ukeeps_fold _ (fun b res => u_add_resource b _ (res_capacity res) (res_penalize res) (res_penalty res))); [exact Hb|].
    intros b' e Hb'. apply (rdirect_keeps b' (UAddResource _ _ _ _)); auto.
  - unfold u_copy_item. destruct (nth_error _ _) as [t|]; [|exact I].
    apply ukeeps_then; [apply (rdirect_keeps b (UAddItem _ _ _)); auto|].
    generalize (Z.of_nat (length (u_items b))) as zid. clear b Hb. intros zid b Hb.
    apply ukeeps_then; [apply (rdirect_keeps b (USetItemProfit _ _)); auto|]. clear b Hb. intros b Hb.
    apply ukeeps_then; [apply (rdirect_keeps b (USetItemCopies _ _)); auto|]. clear b Hb. intros b Hb.
    apply ukeeps_then; [apply (rdirect_keeps b (USetItemGroup _ _)); auto|]. clear b Hb. intros b Hb.
    apply ukeeps_then; [apply (rdirect_keeps b (USetItemWeight _ _)); auto|]. clear b Hb. intros b Hb.
    apply ukeeps_then; [apply (rdirect_keeps b (USetItemEligibility _ _)); auto|]. clear b Hb. intros b Hb.
    apply (ukeeps_fold _ (fun b ko => match snd ko with
          | None => UOk b
          | Some sub =>
              match nth_error (rin_bins i) (fst ko) with
              | None => UUndef
              | Some obt => u_copy_resources b (Z.of_nat sub) zid id (rb_resources obt)
              end
          end)); [exact Hb|].
    clear b Hb. intros b [o [sub|]] Hb; simpl; [|exact Hb].
    destruct (nth_error (rin_bins i) o) as [obt|]; [|exact I].
    unfold u_copy_resources.
    apply (ukeeps_fold _ (fun b kres => if (id <? length (res_item_consumptions (snd kres)))%nat
      then u_copy_schedule b (Z.of_nat sub) (fst kres) zid (nth id (res_item_consumptions (snd kres)) [])
      else UOk b)); [exact Hb|].
    clear b Hb. intros b [k res] Hb; simpl.
    destruct (id <? length (res_item_consumptions res))%nat; [|exact Hb].
    unfold u_copy_schedule.
    apply (ukeeps_fold _ (fun b kq => u_add_consumption b (Z.of_nat sub) k zid (fst kq) (snd kq))); [exact Hb|].
    clear b Hb. intros b [c q] Hb; simpl. apply (rdirect_keeps b (UAddConsumption _ _ _ _ _)); auto.
Qed.

Lemma urun_snoc : forall calls c, urun (calls ++ [c]) =
  match urun calls with
  | None => None
  | Some b => match ustep b c with UOk b' | UThrow b' => Some b' | UUndef => None end
  end.
Proof. intros. unfold urun. rewrite fold_left_app. reflexivity. Qed.

Lemma urun_inv : forall calls b, urun calls = Some b -> uinv b.
Proof.
  intro calls. induction calls as [|c calls IH] using rev_ind; intros b H.
  - injection H as <-. split; intros t [].
  - rewrite urun_snoc in H. destruct (urun calls) as [b0|]; [|discriminate].
    pose proof (ustep_keeps b0 c (IH b0 eq_refl)) as K.
    destruct (ustep b0 c); simpl in K; try discriminate; injection H as <-; assumption.
Qed.

(** ** build *)

Lemma rbest_efficiency_spec : forall items,
  match rbest_efficiency items with
  | None => items = []
  | Some k => (k < length items)%nat /\
      forall t, In t items -> (refficiency t <= refficiency (nth k items dummy_ritem))%Q
  end.
Proof.
  intro items. unfold rbest_efficiency.
  assert (H : forall n, (n <= length items)%nat ->
    match fold_left (fun best k =>
      match best with
      | None => Some k
      | Some j => if Qltb (refficiency (nth j items dummy_ritem)) (refficiency (nth k items dummy_ritem)) then Some k else best
      end) (seq 0 n) None with
    | None => n = 0%nat
    | Some k => (k < n)%nat /\ forall j, (j < n)%nat ->
        (refficiency (nth j items dummy_ritem) <= refficiency (nth k items dummy_ritem))%Q
    end).
  { induction n as [|n IH]; intro Hn; [reflexivity|]. rewrite seq_S, fold_left_app. simpl.
    specialize (IH ltac:(lia)). destruct (fold_left _ (seq 0 n) None) as [k|].
    - destruct IH as [K1 K2]. destruct (Qltb _ _) eqn:E.
      + apply qltb_lt in E. split; [lia|]. intros j Hj. destruct (Nat.eq_dec j n) as [->|]; [apply Qle_refl|].
        specialize (K2 j ltac:(lia)). lra.
      + apply qltb_ge in E. split; [lia|]. intros j Hj. destruct (Nat.eq_dec j n) as [->|]; [assumption|].
        apply K2. lia.
    - subst n. split; [lia|]. intros j Hj. replace j with 0%nat by lia. apply Qle_refl. }
  specialize (H (length items) (Nat.le_refl _)). destruct (fold_left _ _ None) as [k|].
  - destruct H as [H1 H2]. split; [assumption|]. intros t Ht. apply In_nth with (d := dummy_ritem) in Ht.
    destruct Ht as (j & Hj & <-). auto.
  - destruct items; [reflexivity|discriminate].
Qed.

Lemma rexpand_spec : forall bins,
  let '(ids, prev, p) := rexpand_bins bins in
  ids = flat_map (fun t => repeat t (Z.to_nat (rb_copies (nth t bins dummy_rbin)))) (seq 0 (length bins)) /\
  length prev = length ids /\
  (forall k, (k < length ids)%nat -> nth k prev 0 = zsum (fun t => rb_area (nth t bins dummy_rbin)) (firstn k ids)) /\
  p = zsum (fun t => rb_area (nth t bins dummy_rbin)) ids.
Proof.
  intro bins. unfold rexpand_bins.
  assert (Inner : forall k n ids prev p, length prev = length ids ->
    (forall j, (j < length ids)%nat -> nth j prev 0 = zsum (fun t => rb_area (nth t bins dummy_rbin)) (firstn j ids)) ->
    p = zsum (fun t => rb_area (nth t bins dummy_rbin)) ids ->
    let '(ids', prev', p') := fold_left (fun (acc : list nat * list Z * Z) (_ : unit) =>
          let '(ids, prev, p) := acc in (ids ++ [k], prev ++ [p], p + rb_area (nth k bins dummy_rbin)))
        (repeat tt n) (ids, prev, p) in
    ids' = ids ++ repeat k n /\ length prev' = length ids' /\
    (forall j, (j < length ids')%nat -> nth j prev' 0 = zsum (fun t => rb_area (nth t bins dummy_rbin)) (firstn j ids')) /\
    p' = zsum (fun t => rb_area (nth t bins dummy_rbin)) ids').
  { intros k n. induction n as [|n IH]; intros ids prev p H1 H2 H3; simpl.
    - rewrite app_nil_r. auto.
    - specialize (IH (ids ++ [k]) (prev ++ [p]) (p + rb_area (nth k bins dummy_rbin))).
      destruct (fold_left _ (repeat tt n) _) as [[ids' prev'] p'].
      rewrite <- app_assoc in IH. apply IH.
      + rewrite !app_length. simpl. lia.
      + intros j Hj. rewrite app_length in Hj. simpl in Hj.
        destruct (Nat.eq_dec j (length ids)) as [->|].
        * rewrite app_nth2 by lia. rewrite H1, Nat.sub_diag. simpl.
          rewrite firstn_app, Nat.sub_diag, firstn_all. simpl. rewrite app_nil_r. assumption.
        * rewrite app_nth1 by lia. rewrite firstn_app. replace (j - length ids)%nat with 0%nat by lia.
          simpl. rewrite app_nil_r. apply H2. lia.
      + rewrite zsum_snoc. lia. }
  assert (Outer : forall n, let '(ids, prev, p) := fold_left (fun acc k =>
      let t := nth k bins dummy_rbin in
      fold_left (fun (acc : list nat * list Z * Z) (_ : unit) =>
          let '(ids, prev, p) := acc in (ids ++ [k], prev ++ [p], p + rb_area t))
        (repeat tt (Z.to_nat (rb_copies t))) acc)
    (seq 0 n) ([], [], 0) in
    ids = flat_map (fun t => repeat t (Z.to_nat (rb_copies (nth t bins dummy_rbin)))) (seq 0 n) /\
    length prev = length ids /\
    (forall k, (k < length ids)%nat -> nth k prev 0 = zsum (fun t => rb_area (nth t bins dummy_rbin)) (firstn k ids)) /\
    p = zsum (fun t => rb_area (nth t bins dummy_rbin)) ids).
  { induction n as [|n IH].
    - simpl. split; [reflexivity|]. split; [reflexivity|]. split; [intros k Hk; lia|reflexivity].
    - rewrite seq_S, fold_left_app. cbn [fold_left].
      destruct (fold_left _ (seq 0 n) _) as [[ids prev] p]. destruct IH as (I1 & I2 & I3 & I4). cbv zeta.
      specialize (Inner (0 + n)%nat (Z.to_nat (rb_copies (nth (0 + n) bins dummy_rbin))) ids prev p I2 I3 I4).
      destruct (fold_left _ (repeat tt _) _) as [[ids' prev'] p'].
      destruct Inner as (J1 & J2 & J3 & J4). split; [|auto].
      rewrite J1, I1, flat_map_app. simpl. rewrite app_nil_r. reflexivity. }
  apply Outer.
Qed.

Lemma smallest_spec : forall (fa fb : RItem -> Z) (can : RItem -> Z -> Prop) items,
  (forall t w, can t w <-> w = fa t \/ (ri_oriented t = false /\ w = fb t)) ->
  is_smallest can items
    (fold_left (fun m t => let m := omin m (fa t) in if ri_oriented t then m else omin m (fb t)) items None).
Proof.
  intros fa fb can items Hcan. induction items as [|a l IH] using rev_ind; [reflexivity|].
  rewrite fold_left_app. cbn [fold_left].
  set (m := fold_left _ l None) in *. clearbody m. cbv zeta.
  assert (Ha : can a (fa a)) by (apply Hcan; left; reflexivity).
  assert (Hb : ri_oriented a = false -> can a (fb a)) by (intro; apply Hcan; right; split; [assumption|reflexivity]).
  assert (Hin : In a (l ++ [a])) by apply in_elt.
  destruct m as [v|]; simpl in IH; simpl omin.
  - destruct IH as [(t0 & Ht0 & C0) Hmin].
    assert (Hin0 : In t0 (l ++ [a])) by (apply in_or_app; left; assumption).
    destruct (ri_oriented a) eqn:Eo; simpl.
    + split.
      * destruct (Z.min_spec v (fa a)) as [[_ ->]|[_ ->]]; eauto.
      * intros t w Ht Hw. apply in_app_or in Ht. destruct Ht as [Ht|[<-|[]]].
        -- specialize (Hmin t w Ht Hw). lia.
        -- apply Hcan in Hw. destruct Hw as [->|[Hw _]]; [lia|congruence].
    + split.
      * destruct (Z.min_spec (Z.min v (fa a)) (fb a)) as [[_ ->]|[_ ->]]; [|eauto].
        destruct (Z.min_spec v (fa a)) as [[_ ->]|[_ ->]]; eauto.
      * intros t w Ht Hw. apply in_app_or in Ht. destruct Ht as [Ht|[<-|[]]].
        -- specialize (Hmin t w Ht Hw). lia.
        -- apply Hcan in Hw. destruct Hw as [->|[_ ->]]; lia.
  - subst l. simpl in *. destruct (ri_oriented a) eqn:Eo; simpl.
    + split; [eauto|]. intros t w [<-|[]] Hw. apply Hcan in Hw. destruct Hw as [->|[Hw _]]; [lia|congruence].
    + split.
      * destruct (Z.min_spec (fa a) (fb a)) as [[_ ->]|[_ ->]]; eauto.
      * intros t w [<-|[]] Hw. apply Hcan in Hw. destruct Hw as [->|[_ ->]]; lia.
Qed.

Lemma bin_weight_spec : forall bins,
  match bin_weight bins with
  | Some w => (forall t, In t bins -> rb_max_weight t <> None) /\
      (w == qsum (fun t => inject_Z (rb_copies t) * match rb_max_weight t with Some m => m | None => 0 end) bins)%Q
  | None => exists t, In t bins /\ rb_max_weight t = None
  end.
Proof.
  intro bins. unfold bin_weight. induction bins as [|a l IH] using rev_ind.
  - simpl. split; [intros t []|reflexivity].
  - rewrite fold_left_app. cbn [fold_left]. set (acc := fold_left _ l _) in *. clearbody acc.
    destruct acc as [w|].
    + destruct IH as [I1 I2]. destruct (rb_max_weight a) as [m|] eqn:E.
      * split.
        -- intros t Ht. apply in_app_or in Ht. destruct Ht as [Ht|[<-|[]]]; [auto|congruence].
        -- rewrite qsum_snoc, I2, E. reflexivity.
      * exists a. split; [apply in_elt|assumption].
    + destruct IH as (t & Ht & E). exists t. split; [apply in_or_app; left; assumption|assumption].
Qed.

Lemma build_groups_spec : forall items n, (n <= length items)%nat ->
  let gs := fold_left (fun gs x =>
      let t := nth x items dummy_ritem in
      upd (ri_group t) (fun g => (fst g ++ [x], snd g + ri_copies t)) (grow (S (ri_group t)) ([], 0) gs))
    (seq 0 n) [] in
  (forall g, nth g gs ([], 0) =
    (filter (fun x => Nat.eqb (ri_group (nth x items dummy_ritem)) g) (seq 0 n),
     zsum (fun t => if Nat.eqb (ri_group t) g then ri_copies t else 0) (firstn n items))) /\
  (forall x, (x < n)%nat -> (ri_group (nth x items dummy_ritem) < length gs)%nat) /\
  (gs = [] \/ exists x, (x < n)%nat /\ length gs = S (ri_group (nth x items dummy_ritem))).
Proof.
  intros items n. induction n as [|n IH]; intro Hn; cbv zeta.
  - simpl. split; [intros [|g]; reflexivity|]. split; [intros; lia|left; reflexivity].
  - specialize (IH ltac:(lia)). cbv zeta in IH. rewrite seq_S, fold_left_app. cbn [fold_left plus]. cbv zeta.
    set (gs := fold_left _ (seq 0 n) _) in *. destruct IH as (I1 & I2 & I3). clearbody gs.
    set (t := nth n items dummy_ritem) in *.
    assert (Hf : firstn (S n) items = firstn n items ++ [t]).
    { subst t. clear -Hn. revert n Hn. induction items as [|a items IHr]; intros n Hn; simpl in Hn; [lia|].
      destruct n as [|n]; [reflexivity|]. simpl. f_equal. apply IHr. lia. }
    assert (Hgl : forall k, length (grow (S k) (@nil nat, 0) gs) = Nat.max (S k) (length gs)).
    { intro k. unfold grow. rewrite app_length, repeat_length. lia. }
    assert (Hgn : forall k g, nth g (grow (S k) (@nil nat, 0) gs) ([], 0) = nth g gs ([], 0)).
    { intros k g. unfold grow. destruct (lt_dec g (length gs)) as [L|L].
      - apply app_nth1. assumption.
      - rewrite app_nth2 by lia. rewrite (nth_overflow gs) by lia.
        destruct (lt_dec (g - length gs) (S k - length gs)) as [L'|L'].
        + apply nth_repeat.
        + apply nth_overflow. rewrite repeat_length. lia. }
    split; [|split].
    + intro g. rewrite nth_upd by (rewrite Hgl; lia). rewrite Hgn.
      rewrite filter_app, Hf, zsum_snoc. cbn [filter]. fold t.
      destruct (Nat.eqb (ri_group t) g) eqn:E.
      * apply Nat.eqb_eq in E. rewrite I1. cbn [fst snd]. reflexivity.
      * rewrite I1. rewrite app_nil_r, Z.add_0_r. reflexivity.
    + intros x Hx. rewrite upd_length, Hgl. destruct (Nat.eq_dec x n) as [->|]; [fold t; lia|].
      specialize (I2 x ltac:(lia)). lia.
    + right. rewrite upd_length, Hgl. destruct (le_lt_dec (length gs) (S (ri_group t))) as [L|L].
      * exists n. split; [lia|]. fold t. lia.
      * destruct I3 as [->|(x & Hx & I3)]; [simpl in L; lia|]. exists x. split; [lia|]. lia.
Qed.

Section Build.

Variable b : RBuilder.
Variable i : RInstance.
Variable d : RDerived.
Hypothesis Hbuild : u_build b = UBuilt i d.
Hypothesis Hinv : uinv b.

Notation items := (map (rresolve_min (u_objective b)) (u_items b)).
Notation bins := (map (rresolve_copies (dv_number_of_items d)) (u_bins b)).

Lemma rbuild_eq :
  rin_objective i = u_objective b /\ rin_params i = u_params b /\
  (forall t, In t items -> ri_copies_min t <= ri_copies t /\ ri_area t <> 0) /\
  rin_bins i = bins /\
  rin_items i = map (fun x => ri_with_ids (rresource_ids_of bins x) (nth x items dummy_ritem)) (seq 0 (length items)) /\
  (rin_objective i = OOpenDimensionX \/ rin_objective i = OOpenDimensionY -> length (dv_bin_type_ids d) = 1%nat) /\
  d = mkDv (fst (fst (rexpand_bins bins))) (snd (fst (rexpand_bins bins)))
            (fold_left (fun n t => n + rb_copies t * rb_area t) bins 0)
            (bin_weight bins)
            (fold_left (fun m t => if Qltb m (rb_cost t) then rb_cost t else m) bins 0%Q)
            (fold_left (fun n t => (n + length (rb_defects t))%nat) bins 0%nat)
            (fold_left (fun n t => n + ri_copies t) items 0)
            (fold_left (fun n t => n + ri_copies t * ri_area t) items 0)
            (fold_left (fun n t => n + ri_copies t * ri_x t) items 0)
            (fold_left (fun n t => n + ri_copies t * ri_y t) items 0)
            (smallest_width items) (smallest_height items)
            (fold_left (fun n t => (n + inject_Z (ri_copies t) * ri_weight t)%Q) items 0%Q)
            (fold_left (fun n t => (n + inject_Z (ri_copies t) * ri_profit t)%Q) items 0%Q)
            (fold_left (fun m t => if Qltb m (ri_profit t) then ri_profit t else m) items 0%Q)
            (rbest_efficiency items)
            (fold_left (fun m t => if m <? ri_copies t then ri_copies t else m) items 0)
            (forallb (fun t => negb (ri_copies t <? rinfinite_copies (area_max (u_bins b)) t)) items)
            (map (ritem_ids items) bins)
            (build_groups items).
Proof.
  pose proof Hbuild as H. unfold u_build in H. cbv zeta in H.
  destruct (find _ _) as [t|] eqn:Ef; [destruct (ri_copies t <? ri_copies_min t); discriminate|].
  match type of H with context [if ?c then _ else _] => destruct c eqn:Er; [discriminate|] end.
  match type of H with context [rexpand_bins ?l] => destruct (rexpand_bins l) as [[ids prev] p] eqn:Ex end.
  match type of H with context [if ?c then _ else _] => destruct c eqn:Eo; [discriminate|] end.
  injection H as <- <-. cbn [rin_objective rin_params rin_bins rin_items dv_number_of_items dv_bin_type_ids].
  split; [reflexivity|]. split; [reflexivity|]. split.
  { intros t Ht. pose proof (find_none_all _ _ _ Ef t Ht) as F. simpl in F. apply orb_false_iff in F.
    rewrite Z.ltb_ge, Z.eqb_neq in F. exact F. }
  split; [reflexivity|]. split; [reflexivity|]. split.
  { intros [E|E]; rewrite E in Eo; apply negb_false_iff, Z.eqb_eq in Eo; lia. }
  rewrite Ex. reflexivity.
Qed.

Lemma rresolved_nth : forall x, (x < length (u_items b))%nat ->
  nth x items dummy_ritem = rresolve_min (u_objective b) (nth x (u_items b) dummy_ritem).
Proof.
  intros x Hx.
  rewrite nth_indep with (d' := rresolve_min (u_objective b) dummy_ritem) by (rewrite map_length; assumption).
  apply map_nth.
Qed.

Lemma ritems_nth : forall x, (x < length (u_items b))%nat ->
  ritem i x = ri_with_ids (rresource_ids_of bins x) (rresolve_min (u_objective b) (nth x (u_items b) dummy_ritem)).
Proof.
  intros x Hx. destruct rbuild_eq as (_ & _ & _ & _ & E & _). unfold ritem. rewrite E.
  rewrite map_length.
  rewrite nth_indep with (d' := ri_with_ids (rresource_ids_of bins 0%nat) (nth 0%nat items dummy_ritem))
    by (rewrite map_length, seq_length; assumption).
  rewrite map_nth with (f := fun x => ri_with_ids (rresource_ids_of bins x) (nth x items dummy_ritem)).
  rewrite seq_nth by assumption. simpl plus.
  f_equal. apply rresolved_nth. assumption.
Qed.

Lemma ritems_length : length (rin_items i) = length (u_items b).
Proof.
  destruct rbuild_eq as (_ & _ & _ & _ & E & _). rewrite E, map_length, seq_length, map_length. reflexivity.
Qed.

Lemma rbins_nth : forall t, (t < length (u_bins b))%nat ->
  rbin i t = rresolve_copies (dv_number_of_items d) (nth t (u_bins b) dummy_rbin).
Proof.
  intros t Ht. destruct rbuild_eq as (_ & _ & _ & E & _). unfold rbin. rewrite E.
  rewrite nth_indep with (d' := rresolve_copies (dv_number_of_items d) dummy_rbin)
    by (rewrite map_length; assumption).
  apply map_nth.
Qed.

Lemma rbins_length : length (rin_bins i) = length (u_bins b).
Proof. destruct rbuild_eq as (_ & _ & _ & E & _). rewrite E, map_length. reflexivity. Qed.

Lemma rin_items_in : forall t, In t (rin_items i) -> exists x, (x < length (u_items b))%nat /\ t = ritem i x.
Proof.
  intros t Ht. apply In_nth with (d := dummy_ritem) in Ht. destruct Ht as (x & Hx & <-).
  rewrite ritems_length in Hx. exists x. split; [assumption|reflexivity].
Qed.

Lemma rin_bins_in : forall t, In t (rin_bins i) -> exists x, (x < length (u_bins b))%nat /\ t = rbin i x.
Proof.
  intros t Ht. apply In_nth with (d := dummy_rbin) in Ht. destruct Ht as (x & Hx & <-).
  rewrite rbins_length in Hx. exists x. split; [assumption|reflexivity].
Qed.

(** A function of the item types that does not look at the resource ids. *)
Lemma ritems_map : forall (B : Type) (f : RItem -> B),
  (forall t l, f (ri_with_ids l t) = f t) -> map f (rin_items i) = map f items.
Proof.
  intros B f Hf. apply nth_ext with (d := f dummy_ritem) (d' := f dummy_ritem).
  - rewrite !map_length. apply ritems_length.
  - intros n Hn. rewrite map_length, ritems_length in Hn. rewrite !map_nth.
    change (nth n (rin_items i) dummy_ritem) with (ritem i n). rewrite (ritems_nth n Hn), Hf.
    f_equal. symmetry. apply rresolved_nth. assumption.
Qed.

Lemma rzsum_items : forall f : RItem -> Z, (forall t l, f (ri_with_ids l t) = f t) ->
  zsum f items = zsum f (rin_items i).
Proof.
  intros f Hf. rewrite (zsum_as_map _ f items), (zsum_as_map _ f (rin_items i)). f_equal. symmetry. apply ritems_map. assumption.
Qed.

Lemma rqsum_items : forall f : RItem -> Q, (forall t l, f (ri_with_ids l t) = f t) ->
  qsum f items = qsum f (rin_items i).
Proof.
  intros f Hf. rewrite (qsum_as_map _ f items), (qsum_as_map _ f (rin_items i)). f_equal. symmetry. apply ritems_map. assumption.
Qed.

Lemma rin_map_items : forall (B : Type) (f : RItem -> B), (forall t l, f (ri_with_ids l t) = f t) ->
  forall y, (exists t, In t (rin_items i) /\ f t = y) <-> (exists t, In t items /\ f t = y).
Proof.
  intros B f Hf y. pose proof (ritems_map B f Hf) as E.
  split; intros (t & Ht & <-); apply (in_map f) in Ht; [rewrite E in Ht|rewrite <- E in Ht];
    apply in_map_iff in Ht; destruct Ht as (u & E1 & Hu); exists u; auto.
Qed.

Lemma rnumber_eq : dv_number_of_items d = zsum ri_copies (u_items b).
Proof.
  destruct rbuild_eq as (_ & _ & _ & _ & _ & _ & Ed). rewrite Ed at 1. cbn [dv_number_of_items].
  rewrite fold_sum, zsum_map. reflexivity.
Qed.

Lemma rbuild_holds : rholds_data b i.
Proof.
  destruct rbuild_eq as (Eo & Ep & _). constructor; [assumption|assumption| |].
  - split; [apply ritems_length|]. intros x Hx. cbv zeta. rewrite (ritems_nth x Hx), Eo. simpl. repeat split; reflexivity.
  - split; [apply rbins_length|]. intros t Ht. cbv zeta. rewrite (rbins_nth t Ht), rnumber_eq. simpl. repeat split; reflexivity.
Qed.

Lemma rbuild_bounded : rwell_bounded i.
Proof.
  destruct rbuild_eq as (Eo & _ & E1 & _).
  destruct Hinv as [I1 I2].
  constructor.
  - intros t Ht. destruct (rin_items_in t Ht) as (x & Hx & ->). rewrite (ritems_nth x Hx). simpl.
    assert (Hin : In (rresolve_min (u_objective b) (nth x (u_items b) dummy_ritem)) items).
    { apply in_map. apply nth_In. assumption. }
    destruct (E1 _ Hin) as [F1 F2]. unfold ri_area in F2. simpl in F1, F2.
    destruct (I2 (nth x (u_items b) dummy_ritem) (nth_In _ _ Hx)) as [G1 G2 G3 _].
    split; [nia|]. split; [nia|]. split; [assumption|].
    destruct (ri_copies_min (nth x (u_items b) dummy_ritem) =? -1) eqn:Em; intro Hc.
    + destruct (u_objective b); lia.
    + apply Z.eqb_neq in Em. lia.
  - intros t Ht. destruct (rin_bins_in t Ht) as (x & Hx & ->). rewrite (rbins_nth x Hx). simpl.
    apply (I1 (nth x (u_bins b) dummy_rbin) (nth_In _ _ Hx)).
Qed.

Lemma fold_nsum : forall (A : Type) (f : A -> nat) l n, Z.of_nat (fold_left (fun n t => (n + f t)%nat) l n) = Z.of_nat n + zsum (fun t => Z.of_nat (f t)) l.
Proof.
  intros A f l. induction l as [|a l IH]; intro n; simpl fold_left; [rewrite zsum_nil; lia|].
  rewrite IH, zsum_cons. lia.
Qed.

Lemma rsmallest_items : forall can items' m, (forall t l w, can (ri_with_ids l t) w <-> can t w) ->
  items' = items -> is_smallest can items' m -> is_smallest can (rin_items i) m.
Proof.
  intros can items' m Hc -> H. destruct m as [v|]; simpl in *.
  - destruct H as [(t0 & Ht0 & C0) H2].
    assert (Hmem : forall t, In t (rin_items i) -> exists u l, In u items /\ t = ri_with_ids l u).
    { intros t Ht. destruct (rin_items_in t Ht) as (x & Hx & ->). rewrite (ritems_nth x Hx), <- (rresolved_nth x Hx).
      eexists. eexists. split; [|reflexivity]. apply nth_In. rewrite map_length. assumption. }
    split.
    + apply In_nth with (d := dummy_ritem) in Ht0. destruct Ht0 as (x & Hx & E). rewrite map_length in Hx.
      exists (ritem i x). split; [unfold ritem; apply nth_In; rewrite ritems_length; assumption|].
      rewrite (ritems_nth x Hx), <- (rresolved_nth x Hx). apply Hc. rewrite E. assumption.
    + intros t w Ht Hw. destruct (Hmem t Ht) as (u & l & Hu & ->). apply Hc in Hw. eauto.
  - apply map_eq_nil in H. apply length_zero_iff_nil. rewrite ritems_length, H. reflexivity.
Qed.

Lemma rbuild_consistent : rconsistent i d.
Proof.
  destruct rbuild_eq as (Eobj & _ & E1 & Eb & Ei & Eopen & Ed).
  assert (Xd : forall (B : Type) (f : RDerived -> B), f d = f (mkDv (fst (fst (rexpand_bins bins))) (snd (fst (rexpand_bins bins)))
            (fold_left (fun n t => n + rb_copies t * rb_area t) bins 0)
            (bin_weight bins)
            (fold_left (fun m t => if Qltb m (rb_cost t) then rb_cost t else m) bins 0%Q)
            (fold_left (fun n t => (n + length (rb_defects t))%nat) bins 0%nat)
            (fold_left (fun n t => n + ri_copies t) items 0)
            (fold_left (fun n t => n + ri_copies t * ri_area t) items 0)
            (fold_left (fun n t => n + ri_copies t * ri_x t) items 0)
            (fold_left (fun n t => n + ri_copies t * ri_y t) items 0)
            (smallest_width items) (smallest_height items)
            (fold_left (fun n t => (n + inject_Z (ri_copies t) * ri_weight t)%Q) items 0%Q)
            (fold_left (fun n t => (n + inject_Z (ri_copies t) * ri_profit t)%Q) items 0%Q)
            (fold_left (fun m t => if Qltb m (ri_profit t) then ri_profit t else m) items 0%Q)
            (rbest_efficiency items)
            (fold_left (fun m t => if m <? ri_copies t then ri_copies t else m) items 0)
            (forallb (fun t => negb (ri_copies t <? rinfinite_copies (area_max (u_bins b)) t)) items)
            (map (ritem_ids items) bins)
            (build_groups items))) by (intros B f; rewrite <- Ed; reflexivity).
  pose proof (Xd _ dv_bin_type_ids) as Dids. pose proof (Xd _ dv_previous) as Dprev. pose proof (Xd _ dv_bin_area) as Dba.
  pose proof (Xd _ dv_bin_weight) as Dbw. pose proof (Xd _ dv_largest_cost) as Dlc. pose proof (Xd _ dv_defects) as Ddf.
  pose proof (Xd _ dv_number_of_items) as Dn. pose proof (Xd _ dv_item_area) as Dia. pose proof (Xd _ dv_total_width) as Dtw.
  pose proof (Xd _ dv_total_height) as Dth. pose proof (Xd _ dv_smallest_width) as Dsw. pose proof (Xd _ dv_smallest_height) as Dsh.
  pose proof (Xd _ dv_item_weight) as Diw. pose proof (Xd _ dv_item_profit) as Dip. pose proof (Xd _ dv_largest_profit) as Dlp.
  pose proof (Xd _ dv_largest_efficiency) as Dle. pose proof (Xd _ dv_largest_copies) as Dlk.
  pose proof (Xd _ dv_item_type_ids) as Dit. pose proof (Xd _ dv_groups) as Dgr.
  clear Xd Ed. cbn [dv_bin_type_ids dv_previous dv_bin_area dv_bin_weight dv_largest_cost dv_defects dv_number_of_items dv_item_area
    dv_total_width dv_total_height dv_smallest_width dv_smallest_height dv_item_weight dv_item_profit dv_largest_profit
    dv_largest_efficiency dv_largest_copies dv_item_type_ids dv_groups] in *.
  rewrite <- Eb in Dids, Dprev, Dba, Dbw, Dlc, Ddf, Dit.
  constructor.
  - rewrite Dn, fold_sum, Z.add_0_l. apply rzsum_items. reflexivity.
  - rewrite Dia, (fold_sum _ (fun t => ri_copies t * ri_area t)), Z.add_0_l. apply rzsum_items. reflexivity.
  - rewrite Dtw, (fold_sum _ (fun t => ri_copies t * ri_x t)), Z.add_0_l. apply rzsum_items. reflexivity.
  - rewrite Dth, (fold_sum _ (fun t => ri_copies t * ri_y t)), Z.add_0_l. apply rzsum_items. reflexivity.
  - rewrite Dsw. apply rsmallest_items with (items' := items); [reflexivity|reflexivity|].
    apply (smallest_spec ri_x ri_y). reflexivity.
  - rewrite Dsh. apply rsmallest_items with (items' := items); [reflexivity|reflexivity|].
    apply (smallest_spec ri_y ri_x). reflexivity.
  - rewrite Diw, (fold_qsum _ (fun t => (inject_Z (ri_copies t) * ri_weight t)%Q)), Qplus_0_l.
    rewrite rqsum_items; [reflexivity|reflexivity].
  - rewrite Dip, (fold_qsum _ (fun t => (inject_Z (ri_copies t) * ri_profit t)%Q)), Qplus_0_l.
    rewrite rqsum_items; [reflexivity|reflexivity].
  - rewrite Dlp. destruct (fold_largest _ ri_profit items) as (L1 & L2 & L3). split; [assumption|]. split.
    + intros t Ht. destruct (proj1 (rin_map_items _ ri_profit (fun _ _ => eq_refl) (ri_profit t))) as (u & Hu & <-); [eauto|auto].
    + destruct L3 as [L3|L3]; [left; assumption|right].
      apply (rin_map_items _ ri_profit (fun _ _ => eq_refl)). assumption.
  - rewrite Dlk. destruct (fold_zlargest _ ri_copies items) as (L1 & L2 & L3). split; [assumption|]. split.
    + intros t Ht. destruct (proj1 (rin_map_items _ ri_copies (fun _ _ => eq_refl) (ri_copies t))) as (u & Hu & <-); [eauto|auto].
    + destruct L3 as [L3|L3]; [left; assumption|right].
      apply (rin_map_items _ ri_copies (fun _ _ => eq_refl)). assumption.
  - rewrite Dle. pose proof (rbest_efficiency_spec items) as B.
    destruct (rbest_efficiency items) as [k|].
    + destruct B as [B1 B2]. rewrite map_length in B1. rewrite ritems_length. split; [assumption|].
      intros t Ht. rewrite (ritems_nth k B1). cbn [ri_profit ri_x ri_y ri_with_ids].
      destruct (proj1 (rin_map_items _ refficiency (fun _ _ => eq_refl) (refficiency t))) as (u & Hu & Eu); [eauto|].
      specialize (B2 u Hu). rewrite Eu in B2. unfold refficiency in B2.
      rewrite (rresolved_nth k B1) in B2. exact B2.
    + apply map_eq_nil in B. apply length_zero_iff_nil. rewrite ritems_length, B. reflexivity.
  - rewrite Dba, (fold_sum _ (fun t => rb_copies t * rb_area t)). reflexivity.
  - rewrite Dbw. apply bin_weight_spec.
  - rewrite Dlc. apply fold_largest.
  - rewrite Ddf, (fold_nsum _ (fun t => length (rb_defects t))). reflexivity.
  - rewrite Dids. pose proof (rexpand_spec (rin_bins i)) as X.
    destruct (rexpand_bins (rin_bins i)) as [[ids prev] p]. apply X.
  - rewrite Dids, Dprev. pose proof (rexpand_spec (rin_bins i)) as X.
    destruct (rexpand_bins (rin_bins i)) as [[ids prev] p]. simpl. destruct X as (_ & X1 & X2 & _). auto.
  - rewrite Dit, map_length. split; [reflexivity|]. intros t Ht. pose proof Ht as Ht'. rewrite rbins_length in Ht'.
    rewrite nth_indep with (d' := ritem_ids items dummy_rbin) by (rewrite map_length; assumption).
    rewrite map_nth. fold (rbin i t). unfold ritem_ids. split.
    + apply filter_sorted. apply seq_sorted.
    + intro x. rewrite filter_In, in_seq, map_length, ritems_length. split.
      * intros [[_ Hx] H]. split; [assumption|].
        rewrite (ritems_nth x Hx). simpl. rewrite (rresolved_nth x Hx) in H. unfold religible in H. simpl in H. apply orb_prop in H.
        destruct H as [H|H]; [left; apply Z.eqb_eq; assumption|right].
        apply existsb_exists in H. destruct H as (e & He & H). apply Z.eqb_eq in H. rewrite H. assumption.
      * intros [Hx H]. split; [lia|].
        rewrite (ritems_nth x Hx) in H. simpl in H.
        rewrite (rresolved_nth x Hx). unfold religible. simpl. apply orb_true_iff.
        destruct H as [H|H]; [left; apply Z.eqb_eq; assumption|right].
        apply existsb_exists. exists (ri_eligibility (nth x (u_items b) dummy_ritem)). split; [assumption|apply Z.eqb_refl].
  - intros x t Hx Ht. rewrite ritems_length in Hx. rewrite rbins_length in Ht.
    rewrite (ritems_nth x Hx). cbn [ri_resource_ids ri_with_ids]. unfold rresource_ids_of.
    assert (Hnth : nth t (map (fun t => filter (fun r =>
        match nth x (res_item_consumptions (nth r (rb_resources t) dummy_resource)) [] with [] => false | _ => true end)
        (seq 0 (length (rb_resources t)))) bins) [] =
      filter (fun r =>
        match nth x (res_item_consumptions (nth r (rb_resources (rbin i t)) dummy_resource)) [] with [] => false | _ => true end)
        (seq 0 (length (rb_resources (rbin i t))))).
    { rewrite nth_indep with (d' := filter (fun r =>
        match nth x (res_item_consumptions (nth r (rb_resources dummy_rbin) dummy_resource)) [] with [] => false | _ => true end)
        (seq 0 (length (rb_resources dummy_rbin)))) by (rewrite !map_length; assumption).
      rewrite (map_nth (fun t => filter (fun r =>
        match nth x (res_item_consumptions (nth r (rb_resources t) dummy_resource)) [] with [] => false | _ => true end)
        (seq 0 (length (rb_resources t)))) bins dummy_rbin t).
      unfold rbin. rewrite Eb. reflexivity. }
    rewrite Hnth. split.
    + apply NoDup_filter. apply seq_NoDup.
    + intro r. rewrite filter_In, in_seq.
      destruct (nth x (res_item_consumptions (nth r (rb_resources (rbin i t)) dummy_resource)) []) as [|q l].
      * split; [intros [_ H]; discriminate|intros [_ H]; congruence].
      * split; [intros [H _]; split; [lia|discriminate]|intros [H _]; split; [lia|reflexivity]].
  - intros g Hg. rewrite Dgr. unfold build_groups.
    destruct (build_groups_spec items (length items) (Nat.le_refl _)) as (G1 & _ & _). rewrite G1. cbn [fst snd]. split; [|split].
    + apply filter_sorted. apply seq_sorted.
    + intro x. rewrite filter_In, in_seq, map_length, ritems_length, Nat.eqb_eq. split.
      * intros [[_ Hx] H]. split; [assumption|]. rewrite (ritems_nth x Hx). rewrite (rresolved_nth x Hx) in H. exact H.
      * intros [Hx H]. split; [lia|]. rewrite (ritems_nth x Hx) in H. rewrite (rresolved_nth x Hx). exact H.
    + rewrite firstn_all. apply rzsum_items. reflexivity.
  - rewrite Dgr. unfold build_groups.
    destruct (build_groups_spec items (length items) (Nat.le_refl _)) as (_ & G2 & G3). rewrite map_length in G2, G3. split.
    + intros t Ht. destruct (rin_items_in t Ht) as (x & Hx & ->). rewrite (ritems_nth x Hx).
      specialize (G2 x). rewrite (rresolved_nth x Hx), <- map_length with (f := rresolve_min (u_objective b)) in G2.
      apply G2. rewrite map_length. assumption.
    + rewrite map_length. destruct G3 as [G3|(x & Hx & G3)]; [left; exact G3|right].
      exists (ritem i x). split; [unfold ritem; apply nth_In; rewrite ritems_length; assumption|].
      rewrite (ritems_nth x Hx). rewrite (rresolved_nth x Hx) in G3. exact G3.
  - assumption.
Qed.

End Build.
