(** * Proofs about the rectangleguillotine instance builder *)

From Coq Require Import Ascii String List ZArith QArith Qminmax Bool Lia Lqa Sorted Arith.
From Verif Require Import Util Common_Model OneDim_Model OneDim_Spec OneDimBuilder_Model OneDimBuilder_Spec OneDimBuilder_Proof
  Guil_Model GuilBuilder_Model GuilBuilder_Spec GuilStack_Proof.
Import ListNotations.
Open Scope Z_scope.

(** ** Acceptance of the calls *)

Ltac split_call c :=
  destruct c as [o|ps|n| |ct|fo|n|n|n|n|n|n|n|v|n|s v|s v|v|str| |x y|id q|id l r bo to|id dx dy lx ly|id q p y|id rid x k q|id n|id n| | | | |x y o s|id p|id n|id n| |o| |n|i id|i id].

Ltac unfold_setters :=
  unfold h_add_defect, h_add_resource, h_set_item_profit.

Lemma hacceptance : forall b c, hdirect c = true ->
  match hstep b c with
  | HOk _ => haccepted b c /\ ~ hunchecked b c
  | HThrow b' => b' = b /\ ~ haccepted b c
  | HUndef => hunchecked b c
  end.
Proof.
  assert (Hbin : forall b id f, match hon_bin b id f with
     | HOk _ => in_range id (h_bins b) | HThrow b' => b' = b /\ ~ in_range id (h_bins b) | HUndef => False end).
  { intros b id f. unfold hon_bin. destruct (bad_id id (h_bins b)) eqn:E.
    - apply bad_id_true in E. auto.
    - apply bad_id_false in E. auto. }
  assert (Hitem : forall b id f, match hon_item b id f with
     | HOk _ => in_range id (h_items b) | HThrow b' => b' = b /\ ~ in_range id (h_items b) | HUndef => False end).
  { intros b id f. unfold hon_item. destruct (bad_id id (h_items b)) eqn:E.
    - apply bad_id_true in E. auto.
    - apply bad_id_false in E. auto. }
  assert (Bok : forall b id f, bad_id id (h_bins b) = false -> exists b', hon_bin b id f = HOk b').
  { intros b id f E. unfold hon_bin. rewrite E. eauto. }
  assert (Iok : forall b id f, bad_id id (h_items b) = false -> exists b', hon_item b id f = HOk b').
  { intros b id f E. unfold hon_item. rewrite E. eauto. }
  intros b c Hd. split_call c;
    try discriminate; cbn [hstep haccepted hunchecked]; unfold_setters;
    try (match goal with |- context [hon_bin ?b ?id ?f] => pose proof (Hbin b id f) as H; destruct (hon_bin b id f); tauto end);
    try (match goal with |- context [hon_item ?b ?id ?f] => pose proof (Hitem b id f) as H; destruct (hon_item b id f); tauto end);
    try (simpl; tauto).
  - unfold h_set_fixed. destruct (bad_id _ _) eqn:E; [apply bad_id_true in E|apply bad_id_false in E]; tauto.
  - unfold h_set_variable. destruct (bad_id _ _) eqn:E; [apply bad_id_true in E|apply bad_id_false in E]; tauto.
  - unfold h_add_bin. destruct (x <=? 0) eqn:E; [apply Z.leb_le in E; split; [auto|lia]|apply Z.leb_gt in E].
    destruct (y <=? 0) eqn:E1; [apply Z.leb_le in E1; split; [auto|lia]|apply Z.leb_gt in E1]. split; [lia|auto].
  - unfold h_set_bin_cost. destruct (bad_id id (h_bins b)) eqn:E.
    { apply bad_id_true in E. tauto. }
    pose proof E as E'. apply bad_id_false in E.
    destruct (Qle_bool q 0) eqn:E1; [apply Qle_bool_iff in E1|];
      (destruct (Qeq_bool q (-1)) eqn:E2; [apply Qeq_bool_iff in E2|apply Qeq_bool_neq in E2]); cbn [andb negb];
      try (match goal with |- context [hon_bin b id ?f] => destruct (Bok b id f E') as [b' ->] end).
    + tauto.
    + split; [reflexivity|]. intros [_ [H|H]]; [lra|tauto].
    + tauto.
    + assert (0 < q)%Q. { apply Qnot_le_lt. intro H. apply Qle_bool_iff in H. congruence. } tauto.
  - unfold h_add_trims. destruct (bad_id id (h_bins b)) eqn:E; [apply bad_id_true in E; tauto|].
    pose proof E as E'. apply bad_id_false in E. cbv zeta. set (t := nth _ _ _) in *. clearbody t.
    repeat match goal with |- context [if ?c <? ?e then _ else _] => destruct (Z.ltb_spec c e); [split; [reflexivity|lia]|]
      | |- context [if ?c <=? ?e then _ else _] => destruct (Z.leb_spec c e); [split; [reflexivity|lia]|] end.
    match goal with |- context [hon_bin b id ?f] => destruct (Bok b id f E') as [b' ->] end. split; [split; [assumption|lia]|tauto].
  - unfold h_add_consumption. destruct (bad_id id (h_bins b)) eqn:E; [apply bad_id_true in E; tauto|].
    destruct (bad_id rid _) eqn:E1; [apply bad_id_true in E1; tauto|].
    pose proof E as E'. apply bad_id_false in E. apply bad_id_false in E1.
    destruct (k <? 0) eqn:E2; [apply Z.ltb_lt in E2; split; [reflexivity|intros (_ & _ & H); lia]|apply Z.ltb_ge in E2].
    destruct (x <? 0) eqn:E3; [apply Z.ltb_lt in E3; tauto|apply Z.ltb_ge in E3].
    match goal with |- context [hon_bin b id ?f] => destruct (Bok b id f E') as [b' ->] end.
    split; [tauto|]. intros [_ H]. lia.
  - unfold h_set_bin_copies. destruct (bad_id id (h_bins b)) eqn:E; [apply bad_id_true in E; tauto|].
    pose proof E as E'. apply bad_id_false in E.
    match goal with |- context [if ?c then _ else _] => destruct c eqn:E1 end.
    + apply andb_prop in E1. destruct E1 as [E1 E2]. apply negb_true_iff, Z.eqb_neq in E1.
      apply orb_prop in E2. rewrite Z.leb_le, Z.ltb_lt in E2. split; [reflexivity|]. intros [_ [H|[H1 H2]]]; lia.
    + match goal with |- context [hon_bin b id ?f] => destruct (Bok b id f E') as [b' ->] end.
      apply andb_false_iff in E1. rewrite negb_false_iff, Z.eqb_eq, orb_false_iff, Z.leb_gt, Z.ltb_ge in E1. intuition lia.
  - unfold h_set_bin_copies_min. destruct (bad_id id (h_bins b)) eqn:E; [apply bad_id_true in E; tauto|].
    pose proof E as E'. apply bad_id_false in E.
    destruct (n <? 0) eqn:E0; [apply Z.ltb_lt in E0; split; [reflexivity|lia]|apply Z.ltb_ge in E0].
    match goal with |- context [if ?c then _ else _] => destruct c eqn:E1 end.
    + apply andb_prop in E1. destruct E1 as [E1 E2]. apply negb_true_iff, Z.eqb_neq in E1.
      apply Z.ltb_lt in E2. split; [reflexivity|]. intros (_ & _ & [H|H]); lia.
    + match goal with |- context [hon_bin b id ?f] => destruct (Bok b id f E') as [b' ->] end.
      apply andb_false_iff in E1. rewrite negb_false_iff, Z.eqb_eq, Z.ltb_ge in E1. intuition lia.
  - unfold h_add_item. destruct (x <? 0) eqn:E; [apply Z.ltb_lt in E; split; [auto|lia]|apply Z.ltb_ge in E].
    destruct (y <? 0) eqn:E1; [apply Z.ltb_lt in E1; split; [auto|lia]|apply Z.ltb_ge in E1]. split; [lia|auto].
  - unfold h_set_item_copies. destruct (bad_id id (h_items b)) eqn:E; [apply bad_id_true in E; tauto|].
    pose proof E as E'. apply bad_id_false in E.
    match goal with |- context [if ?c then _ else _] => destruct c eqn:E1 end.
    + apply andb_prop in E1. destruct E1 as [E1 E2]. apply negb_true_iff, Z.eqb_neq in E1.
      apply Z.leb_le in E2. split; [reflexivity|]. intros [_ [H|H]]; lia.
    + match goal with |- context [hon_item b id ?f] => destruct (Iok b id f E') as [b' ->] end.
      apply andb_false_iff in E1. rewrite negb_false_iff, Z.eqb_eq, Z.leb_gt in E1. intuition lia.
  - unfold h_set_item_copies_min. destruct (bad_id id (h_items b)) eqn:E; [apply bad_id_true in E; tauto|].
    pose proof E as E'. apply bad_id_false in E.
    destruct (n <? -1) eqn:E0; [apply Z.ltb_lt in E0; split; [reflexivity|lia]|apply Z.ltb_ge in E0].
    match goal with |- context [hon_item b id ?f] => destruct (Iok b id f E') as [b' ->] end.
    intuition lia.
  - unfold h_items_infinite. destruct (existsb _ _) eqn:E.
    + apply existsb_exists in E. destruct E as (t & Ht & E). apply Z.eqb_eq in E. eauto.
    + split; [exact I|]. intros (t & Ht & E1).
      assert (existsb (fun t => gi_area t =? 0) (h_items b) = true); [|congruence].
      apply existsb_exists. exists t. split; [assumption|]. apply Z.eqb_eq. assumption.
Qed.

(** ** Invariant of the builder *)

Record hbin_inv (t : GBinType) : Prop := {
  hbk_min : 0 <= gb_copies_min t;
  hbk_copies : gb_copies t = -1 \/ (1 <= gb_copies t /\ gb_copies_min t <= gb_copies t);
  hbk_trims : 0 <= gt_length (gb_left t) /\ 0 <= gt_length (gb_right t) /\ 0 <= gt_length (gb_bottom t) /\ 0 <= gt_length (gb_top t)
}.
Record hitem_inv (t : GItem) : Prop := {
  hik_x : 0 <= gi_w t;
  hik_y : 0 <= gi_h t;
  hik_min : -1 <= gi_copies_min t;
  hik_ids : gi_resource_ids t = []
}.
Definition hinv (b : HBuilder) : Prop :=
  (forall t, In t (h_bins b) -> hbin_inv t) /\ (forall t, In t (h_items b) -> hitem_inv t) /\
  length (h_stacks b) = length (h_items b).

Definition hkeeps (r : HRes) : Prop := match r with HOk b | HThrow b => hinv b | HUndef => True end.

Lemma hkeeps_then : forall r f, hkeeps r -> (forall b, hinv b -> hkeeps (f b)) -> hkeeps (hthen r f).
Proof. intros [b|b|] f H Hf; simpl in *; auto. Qed.

Lemma hkeeps_fold : forall (A : Type) (f : HBuilder -> A -> HRes) (l : list A) r,
  hkeeps r -> (forall b a, hinv b -> hkeeps (f b a)) ->
  hkeeps (fold_left (fun r a => hthen r (fun b => f b a)) l r).
Proof.
  intros A f l. induction l as [|a l IH]; intros r Hr Hf; simpl; [assumption|].
  apply IH; [|assumption]. apply hkeeps_then; auto.
Qed.

Lemma hkeeps_bin : forall b id f, hinv b ->
  (forall t, In t (h_bins b) -> hbin_inv (f t)) -> hkeeps (hon_bin b id f).
Proof.
  intros b id f (H1 & H2 & H3) Hf. unfold hon_bin. destruct (bad_id id (h_bins b)); simpl; [exact (conj H1 (conj H2 H3))|].
  split; simpl; [|auto]. intros t Ht. apply upd_in in Ht.
  destruct Ht as [Ht|(x & Hx & ->)]; auto.
Qed.

Lemma hkeeps_bin_at : forall b id f, hinv b -> bad_id id (h_bins b) = false ->
  (hbin_inv (nth (Z.to_nat id) (h_bins b) gdummy_bin) -> hbin_inv (f (nth (Z.to_nat id) (h_bins b) gdummy_bin))) ->
  hkeeps (hon_bin b id f).
Proof.
  intros b id f (H1 & H2 & H3) E Hf. unfold hon_bin. rewrite E. simpl.
  split; simpl; [|auto]. intros t Ht. apply In_nth with (d := gdummy_bin) in Ht.
  destruct Ht as (n & Hn & <-). rewrite upd_length in Hn.
  apply bad_id_false in E. unfold in_range in E. rewrite nth_upd by lia.
  assert (Hin : hbin_inv (nth n (h_bins b) gdummy_bin)) by (apply H1; apply nth_In; assumption).
  destruct (Nat.eqb (Z.to_nat id) n) eqn:En; [|assumption].
  apply Nat.eqb_eq in En. subst n. auto.
Qed.

Lemma hkeeps_item : forall b id f, hinv b ->
  (forall t, In t (h_items b) -> hitem_inv (f t)) -> hkeeps (hon_item b id f).
Proof.
  intros b id f (H1 & H2 & H3) Hf. unfold hon_item. destruct (bad_id id (h_items b)); simpl; [exact (conj H1 (conj H2 H3))|].
  split; simpl; [assumption|]. split; [|rewrite upd_length; assumption]. intros t Ht. apply upd_in in Ht.
  destruct Ht as [Ht|(x & Hx & ->)]; auto.
Qed.

Lemma hdirect_keeps : forall b c, hdirect c = true -> hinv b -> hkeeps (hstep b c).
Proof.
  intros b c Hd Hb. pose proof Hb as (Hb1 & Hb2 & Hb3).
  assert (Kbin : forall id f, (forall t, hbin_inv t -> hbin_inv (f t)) -> hkeeps (hon_bin b id f)).
  { intros id f Hf. apply hkeeps_bin; [assumption|]. intros t Ht. apply Hf. auto. }
  assert (Kitem : forall id f, (forall t, hitem_inv t -> hitem_inv (f t)) -> hkeeps (hon_item b id f)).
  { intros id f Hf. apply hkeeps_item; [assumption|]. intros t Ht. apply Hf. auto. }
  assert (Mbin : forall f, (forall t, hbin_inv t -> hbin_inv (f t)) -> hkeeps (HOk (hset_bins b (map f (h_bins b))))).
  { intros f Hf. split; simpl; [|auto]. intros t Ht. apply in_map_iff in Ht. destruct Ht as (x & <- & Hx). auto. }
  assert (Mitem : forall f, (forall t, hitem_inv t -> hitem_inv (f t)) -> hkeeps (HOk (hset_items b (map f (h_items b))))).
  { intros f Hf. split; simpl; [assumption|]. split; [|rewrite map_length; assumption]. intros t Ht. apply in_map_iff in Ht. destruct Ht as (x & <- & Hx). auto. }
  split_call c;
    try discriminate; cbn [hstep];
    try (apply Kbin; intros t [T1 T2 T3]; constructor; simpl; assumption);
    try (apply Kitem; intros t [T1 T2 T3 T4]; constructor; simpl; assumption);
    try (apply Mbin; intros t [T1 T2 T3]; constructor; simpl; auto; fail);
    try (apply Mitem; intros t [T1 T2 T3 T4]; constructor; simpl; auto; fail);
    try exact (conj Hb1 (conj Hb2 Hb3)).
  - unfold h_set_fixed. destruct (bad_id _ _); exact Hb.
  - unfold h_set_variable. destruct (bad_id _ _); exact Hb.
  - unfold h_add_bin. destruct (x <=? 0) eqn:E; [exact Hb|]. destruct (y <=? 0) eqn:E1; [exact Hb|]. split; [|auto].
    simpl. intros t Ht. apply in_app_or in Ht. destruct Ht as [Ht|[<-|[]]]; [auto|].
    constructor; simpl; lia.
  - unfold h_set_bin_cost. destruct (bad_id id (h_bins b)); [exact Hb|].
    destruct (Qle_bool q 0 && negb (Qeq_bool q (-1))) eqn:E; [exact Hb|].
    apply Kbin. intros t [T1 T2 T3]. constructor; simpl; assumption.
  - unfold h_add_trims. destruct (bad_id id (h_bins b)); [exact Hb|]. cbv zeta.
    repeat match goal with |- context [if ?c <? ?e then _ else _] => destruct (Z.ltb_spec c e); [exact Hb|]
      | |- context [if ?c <=? ?e then _ else _] => destruct (Z.leb_spec c e); [exact Hb|] end.
    apply Kbin. intros t [T1 T2 T3]. constructor; simpl; auto.
  - unfold h_add_consumption. destruct (bad_id id (h_bins b)); [exact Hb|].
    destruct (bad_id rid _); [exact Hb|]. destruct (k <? 0); [exact Hb|]. destruct (x <? 0); [exact I|].
    apply Kbin. intros t [T1 T2 T3]. constructor; simpl; assumption.
  - unfold h_set_bin_copies. destruct (bad_id id (h_bins b)) eqn:E0; [exact Hb|].
    match goal with |- context [if ?c then _ else _] => destruct c eqn:E1; [exact Hb|] end.
    apply hkeeps_bin_at; [assumption..|]. intros [T1 T2 T3]. constructor; simpl; try assumption.
    apply andb_false_iff in E1. rewrite negb_false_iff, Z.eqb_eq, orb_false_iff, Z.leb_gt, Z.ltb_ge in E1. lia.
  - unfold h_set_bin_copies_min. destruct (bad_id id (h_bins b)) eqn:E0; [exact Hb|].
    destruct (n <? 0) eqn:E2; [exact Hb|]. apply Z.ltb_ge in E2.
    match goal with |- context [if ?c then _ else _] => destruct c eqn:E1; [exact Hb|] end.
    apply hkeeps_bin_at; [assumption..|]. intros [T1 T2 T3]. constructor; simpl; try assumption.
    apply andb_false_iff in E1. rewrite negb_false_iff, Z.eqb_eq, Z.ltb_ge in E1. lia.
  - unfold h_add_item. destruct (x <? 0) eqn:E; [exact Hb|]. destruct (y <? 0) eqn:E1; [exact Hb|].
    apply Z.ltb_ge in E, E1. split; simpl; [assumption|]. split; [|rewrite !app_length; cbn; lia].
    intros t Ht. apply in_app_or in Ht. destruct Ht as [Ht|[<-|[]]]; [auto|].
    constructor; simpl; [lia..|reflexivity].
  - unfold h_set_item_copies. destruct (bad_id id (h_items b)); [exact Hb|].
    match goal with |- context [if ?c then _ else _] => destruct c; [exact Hb|] end.
    apply Kitem. intros t [T1 T2 T3 T4]. constructor; simpl; assumption.
  - unfold h_set_item_copies_min. destruct (bad_id id (h_items b)); [exact Hb|].
    destruct (n <? -1) eqn:E; [exact Hb|]. apply Z.ltb_ge in E.
    apply Kitem. intros t [T1 T2 T3 T4]. constructor; simpl; assumption.
  - unfold h_items_infinite. destruct (existsb _ _); [exact I|].
    apply Mitem. intros t [T1 T2 T3 T4]. constructor; simpl; assumption.
Qed.

Lemma hpredefined_keeps : forall b s, hinv b -> hkeeps (h_predefined b s).
Proof.
  intros b s Hb. unfold h_predefined.
  destruct (_ =? _)%string; [apply (hdirect_keeps b HRoadef); auto|].
  destruct (_ =? _)%char.
  { apply hkeeps_then; [apply (hdirect_keeps b HSetUnlimited); auto|]. clear b Hb. intros b Hb.
    destruct (_ =? _)%char; [apply (hdirect_keeps b (HItemsOriented false)); auto|].
    destruct (_ =? _)%char; [apply (hdirect_keeps b (HItemsOriented true)); auto|exact Hb]. }
  destruct (negb _); [exact Hb|]. destruct (_ <=? 1); [exact Hb|].
  apply hkeeps_then; [apply (hdirect_keeps b (HSetStages _)); auto|]. clear b Hb. intros b Hb.
  apply hkeeps_then.
  { repeat match goal with |- hkeeps (if ?c then _ else _) => destruct c end; try exact Hb; apply (hdirect_keeps b (HSetCutType _)); auto. }
  clear b Hb. intros b Hb. apply hkeeps_then.
  { repeat match goal with |- hkeeps (if ?c then _ else _) => destruct c end; try exact Hb; apply (hdirect_keeps b (HSetFirst _)); auto. }
  clear b Hb. intros b Hb.
  destruct (_ =? _)%char; [apply (hdirect_keeps b (HItemsOriented false)); auto|].
  destruct (_ =? _)%char; [apply (hdirect_keeps b (HItemsOriented true)); auto|exact Hb].
Qed.

Lemma hstep_keeps : forall b c, hinv b -> hkeeps (hstep b c).
Proof.
  intros b c Hb. destruct (hdirect c) eqn:Hd; [apply hdirect_keeps; assumption|].
  split_call c; try discriminate; cbn [hstep].
  - apply hpredefined_keeps. exact Hb.
  - unfold h_copy_bin. destruct (nth_error _ _) as [t|]; [|exact I].
    apply hkeeps_then; [apply (hdirect_keeps b (HAddBin (gb_w t) (gb_h t))); auto|].
    generalize (length (h_bins b)) as id0. clear b Hb. intros id0 b Hb. cbv zeta.
    apply hkeeps_then; [apply (hdirect_keeps (mkH (h_objective b) (h_params b) (h_items b) (h_stacks b) (h_bins b) _) (HSetBinCost _ _)); auto|].
    clear b Hb. intros b Hb.
    apply hkeeps_then; [apply (hdirect_keeps b (HSetBinCopies _ _)); auto|]. clear b Hb. intros b Hb.
    apply hkeeps_then; [apply (hdirect_keeps b (HSetBinCopiesMin _ _)); auto|]. clear b Hb. intros b Hb.
    apply hkeeps_then; [apply (hdirect_keeps b (HAddTrims _ _ _ _ _)); auto|]. clear b Hb. intros b Hb.
    apply hkeeps_then.
    { apply (hkeeps_fold _ (fun b d => h_add_defect b _ (gd_x d) (gd_y d) (gd_w d) (gd_h d))); [exact Hb|].
      intros b' e Hb'. apply (hdirect_keeps b' (HAddDefect _ _ _ _ _)); auto. }
    clear b Hb. intros b Hb. apply (hkeeps_fold _ (fun b res => h_add_resource b _ (res_capacity res) (res_penalize res) (res_penalty res))); [exact Hb|].
    intros b' e Hb'. apply (hdirect_keeps b' (HAddResource _ _ _ _)); auto.
  - unfold h_copy_item. destruct (nth_error _ _) as [t|]; [|exact I].
    apply hkeeps_then; [apply (hdirect_keeps b (HAddItem _ _ _ _)); auto|].
    generalize (Z.of_nat (length (h_items b))) as zid. clear b Hb. intros zid b Hb.
    apply hkeeps_then; [apply (hdirect_keeps b (HSetItemProfit _ _)); auto|]. clear b Hb. intros b Hb.
    apply hkeeps_then; [apply (hdirect_keeps b (HSetItemCopies _ _)); auto|]. clear b Hb. intros b Hb.
    apply (hkeeps_fold _ (fun b ko => match snd ko with
          | None => HOk b
          | Some sub =>
              match nth_error (gin_bins i) (fst ko) with
              | None => HUndef
              | Some obt => h_copy_resources b (Z.of_nat sub) zid id (gb_resources obt)
              end
          end)); [exact Hb|].
    clear b Hb. intros b [o [sub|]] Hb; simpl; [|exact Hb].
    destruct (nth_error (gin_bins i) o) as [obt|]; [|exact I].
    unfold h_copy_resources.
    apply (hkeeps_fold _ (fun b kres => if (id <? length (res_item_consumptions (snd kres)))%nat
      then h_copy_schedule b (Z.of_nat sub) (fst kres) zid (nth id (res_item_consumptions (snd kres)) [])
      else HOk b)); [exact Hb|].
    clear b Hb. intros b [k res] Hb; simpl.
    destruct (id <? length (res_item_consumptions res))%nat; [|exact Hb].
    unfold h_copy_schedule.
    apply (hkeeps_fold _ (fun b kq => h_add_consumption b (Z.of_nat sub) k zid (fst kq) (snd kq))); [exact Hb|].
    clear b Hb. intros b [c q] Hb; simpl. apply (hdirect_keeps b (HAddConsumption _ _ _ _ _)); auto.
Qed.

Lemma hrun_snoc : forall b0 calls c, hrun_from b0 (calls ++ [c]) =
  match hrun_from b0 calls with
  | None => None
  | Some b => match hstep b c with HOk b' | HThrow b' => Some b' | HUndef => None end
  end.
Proof. intros. unfold hrun_from. rewrite fold_left_app. reflexivity. Qed.

Lemma hrun_inv : forall o calls b, hrun o calls = Some b -> hinv b.
Proof.
  intros o calls. unfold hrun. induction calls as [|c calls IH] using rev_ind; intros b H.
  - injection H as <-. split; [intros t []|]. split; [intros t []|reflexivity].
  - rewrite hrun_snoc in H. destruct (hrun_from _ calls) as [b0|]; [|discriminate].
    pose proof (hstep_keeps b0 c (IH b0 eq_refl)) as K.
    destruct (hstep b0 c); simpl in K; try discriminate; injection H as <-; assumption.
Qed.

(** ** build *)

Lemma hbest_efficiency_spec : forall items,
  match hbest_efficiency items with
  | None => items = []
  | Some k => (k < length items)%nat /\
      forall t, In t items -> (hefficiency t <= hefficiency (nth k items gdummy_item))%Q
  end.
Proof.
  intro items. unfold hbest_efficiency.
  assert (H : forall n, (n <= length items)%nat ->
    match fold_left (fun best k =>
      match best with
      | None => Some k
      | Some j => if Qltb (hefficiency (nth j items gdummy_item)) (hefficiency (nth k items gdummy_item)) then Some k else best
      end) (seq 0 n) None with
    | None => n = 0%nat
    | Some k => (k < n)%nat /\ forall j, (j < n)%nat ->
        (hefficiency (nth j items gdummy_item) <= hefficiency (nth k items gdummy_item))%Q
    end).
  { induction n as [|n IH]; intro Hn; [reflexivity|]. rewrite seq_S, fold_left_app. simpl.
    specialize (IH ltac:(lia)). destruct (fold_left _ (seq 0 n) None) as [k|].
    - destruct IH as [K1 K2]. destruct (Qltb _ _) eqn:E.
      + apply qltb_lt in E. split; [lia|]. intros j Hj. destruct (Nat.eq_dec j n) as [->|]; [apply Qle_refl|].
        specialize (K2 j ltac:(lia)). lra.
      + apply qltb_ge in E. split; [lia|]. intros j Hj. destruct (Nat.eq_dec j n) as [->|]; [assumption|].
        apply K2. lia.
    - subst n. split; [lia|]. intros j Hj. replace j with 0%nat by lia. apply Qle_refl. }
  specialize (H (length items) (Nat.le_refl _)). destruct (fold_left _ _ None) as [k|].
  - destruct H as [H1 H2]. split; [assumption|]. intros t Ht. apply In_nth with (d := gdummy_item) in Ht.
    destruct Ht as (j & Hj & <-). auto.
  - destruct items; [reflexivity|discriminate].
Qed.

Lemma hexpand_spec : forall bins,
  let '(ids, prev, p) := hexpand_bins bins in
  ids = flat_map (fun t => repeat t (Z.to_nat (gb_copies (nth t bins gdummy_bin)))) (seq 0 (length bins)) /\
  length prev = length ids /\
  (forall k, (k < length ids)%nat -> nth k prev 0 = zsum (fun t => gb_area (nth t bins gdummy_bin)) (firstn k ids)) /\
  p = zsum (fun t => gb_area (nth t bins gdummy_bin)) ids.
Proof.
  intro bins. unfold hexpand_bins.
  assert (Inner : forall k n ids prev p, length prev = length ids ->
    (forall j, (j < length ids)%nat -> nth j prev 0 = zsum (fun t => gb_area (nth t bins gdummy_bin)) (firstn j ids)) ->
    p = zsum (fun t => gb_area (nth t bins gdummy_bin)) ids ->
    let '(ids', prev', p') := fold_left (fun (acc : list nat * list Z * Z) (_ : unit) =>
          let '(ids, prev, p) := acc in (ids ++ [k], prev ++ [p], p + gb_area (nth k bins gdummy_bin)))
        (repeat tt n) (ids, prev, p) in
    ids' = ids ++ repeat k n /\ length prev' = length ids' /\
    (forall j, (j < length ids')%nat -> nth j prev' 0 = zsum (fun t => gb_area (nth t bins gdummy_bin)) (firstn j ids')) /\
    p' = zsum (fun t => gb_area (nth t bins gdummy_bin)) ids').
  { intros k n. induction n as [|n IH]; intros ids prev p H1 H2 H3; simpl.
    - rewrite app_nil_r. auto.
    - specialize (IH (ids ++ [k]) (prev ++ [p]) (p + gb_area (nth k bins gdummy_bin))).
      destruct (fold_left _ (repeat tt n) _) as [[ids' prev'] p'].
      rewrite <- app_assoc in IH. apply IH.
      + rewrite !app_length. simpl. lia.
      + intros j Hj. rewrite app_length in Hj. simpl in Hj.
        destruct (Nat.eq_dec j (length ids)) as [->|].
        * rewrite app_nth2 by lia. rewrite H1, Nat.sub_diag. simpl.
          rewrite firstn_app, Nat.sub_diag, firstn_all. simpl. rewrite app_nil_r. assumption.
        * rewrite app_nth1 by lia. rewrite firstn_app. replace (j - length ids)%nat with 0%nat by lia.
          simpl. rewrite app_nil_r. apply H2. lia.
      + rewrite zsum_snoc. lia. }
  assert (Outer : forall n, let '(ids, prev, p) := fold_left (fun acc k =>
      let t := nth k bins gdummy_bin in
      fold_left (fun (acc : list nat * list Z * Z) (_ : unit) =>
          let '(ids, prev, p) := acc in (ids ++ [k], prev ++ [p], p + gb_area t))
        (repeat tt (Z.to_nat (gb_copies t))) acc)
    (seq 0 n) ([], [], 0) in
    ids = flat_map (fun t => repeat t (Z.to_nat (gb_copies (nth t bins gdummy_bin)))) (seq 0 n) /\
    length prev = length ids /\
    (forall k, (k < length ids)%nat -> nth k prev 0 = zsum (fun t => gb_area (nth t bins gdummy_bin)) (firstn k ids)) /\
    p = zsum (fun t => gb_area (nth t bins gdummy_bin)) ids).
  { induction n as [|n IH].
    - simpl. split; [reflexivity|]. split; [reflexivity|]. split; [intros k Hk; lia|reflexivity].
    - rewrite seq_S, fold_left_app. cbn [fold_left].
      destruct (fold_left _ (seq 0 n) _) as [[ids prev] p]. destruct IH as (I1 & I2 & I3 & I4). cbv zeta.
      specialize (Inner (0 + n)%nat (Z.to_nat (gb_copies (nth (0 + n) bins gdummy_bin))) ids prev p I2 I3 I4).
      destruct (fold_left _ (repeat tt _) _) as [[ids' prev'] p'].
      destruct Inner as (J1 & J2 & J3 & J4). split; [|auto].
      rewrite J1, I1, flat_map_app. simpl. rewrite app_nil_r. reflexivity. }
  apply Outer.
Qed.

Lemma hfirstn_snoc : forall (A : Type) (e : A) k l, (k < length l)%nat -> firstn (S k) l = firstn k l ++ [nth k l e].
Proof.
  intros A e k. induction k as [|k IH]; intros [|x l] H; cbn [length] in H; try lia; [reflexivity|].
  cbn [nth]. change (firstn (S (S k)) (x :: l)) with (x :: firstn (S k) l). rewrite IH by lia. reflexivity.
Qed.

Section Build.

Variable b : HBuilder.
Variable i : GInstance.
Variable d : HDerived.
Hypothesis Hbuild : h_build b = HBuilt i d.
Hypothesis Hinv : hinv b.

Notation items := (map (hresolve_min (h_objective b)) (h_items b)).
Notation bins := (map (hresolve_copies (hd_number_of_items d)) (h_bins b)).

Lemma hbuild_eq : exists sids spos offsets fl,
  h_build_stacks (map gi_copies (h_items b)) (h_stacks b) = HSOk sids spos offsets fl /\
  gin_stack_offsets i = map Z.to_nat offsets /\ gin_stack_items i = fl /\
  gin_items i = map (fun x => gi_with_ids (hresource_ids_of bins x)
    (gi_with_stack (nth x sids 0%nat) (Z.to_nat (nth x spos 0)) (nth x items gdummy_item))) (seq 0 (length items)) /\
  gin_objective i = h_objective b /\ gin_params i = h_params b /\
  (forall t, In t items -> gi_copies_min t <= gi_copies t /\ gi_area t <> 0) /\
  gin_bins i = bins /\
  ((gp_stages (h_params b) = 2 -> gp_min2 (h_params b) = 0 /\ gp_max2 (h_params b) = -1 /\ gp_number2 (h_params b) = -1) /\
    gp_number1 (h_params b) <> 0 /\ gp_number2 (h_params b) <> 0) /\
  (gin_objective i = OOpenDimensionX \/ gin_objective i = OOpenDimensionY -> length (hd_bin_type_ids d) = 1%nat) /\
  d = mkHD (fst (fst (hexpand_bins bins))) (snd (fst (hexpand_bins bins)))
            (fold_left (fun n t => n + gb_copies t * gb_area t) bins 0)
            (fold_left (fun m t => if Qltb m (gb_cost t) then gb_cost t else m) bins 0%Q)
            (fold_left (fun n t => (n + length (gb_defects t))%nat) bins 0%nat)
            (fold_left (fun n t => n + gi_copies t) items 0)
            (fold_left (fun n t => n + gi_copies t * gi_area t) items 0)
            (fold_left (fun n t => (n + inject_Z (gi_copies t) * gi_profit t)%Q) items 0%Q)
            (fold_left (fun m t => if Qltb m (gi_profit t) then gi_profit t else m) items 0%Q)
            (hbest_efficiency items)
            (fold_left (fun m t => if m <? gi_copies t then gi_copies t else m) items 0)
            (forallb (fun t => negb (gi_copies t <? hinfinite_copies (harea_max (h_bins b)) t)) items)
            (forallb gi_oriented items).
Proof.
  pose proof Hbuild as H. unfold h_build in H. cbv zeta in H.
  match type of H with context [if ?c then _ else _] => destruct c eqn:E2; [discriminate|] end.
  match type of H with context [if ?c then _ else _] => destruct c eqn:E0; [discriminate|] end.
  destruct (h_build_stacks (map gi_copies (h_items b)) (h_stacks b)) as [sids spos offsets fl| |] eqn:Es; try discriminate.
  destruct (find _ _) as [t|] eqn:Ef; [destruct (gi_copies t <? gi_copies_min t); discriminate|].
  match type of H with context [if ?c then _ else _] => destruct c eqn:Er; [discriminate|] end.
  match type of H with context [hexpand_bins ?l] => destruct (hexpand_bins l) as [[ids prev] p] eqn:Ex end.
  match type of H with context [if ?c then _ else _] => destruct c eqn:Eo; [discriminate|] end.
  injection H as <- <-. cbn [gin_objective gin_params gin_bins gin_items gin_stack_offsets gin_stack_items hd_number_of_items hd_bin_type_ids].
  exists sids, spos, offsets, fl.
  split; [reflexivity|]. split; [reflexivity|]. split; [reflexivity|]. split; [reflexivity|]. split; [reflexivity|]. split; [reflexivity|]. split.
  { intros t Ht. pose proof (find_none_all _ _ _ Ef t Ht) as F. simpl in F. apply orb_false_iff in F.
    rewrite Z.ltb_ge, Z.eqb_neq in F. exact F. }
  split; [reflexivity|]. split.
  { apply orb_false_iff in E0. rewrite !Z.eqb_neq in E0. split; [|exact E0]. intro H2. rewrite H2 in E2. cbn [Z.eqb Pos.eqb andb] in E2.
    rewrite !orb_false_iff, !negb_false_iff, !Z.eqb_eq in E2. tauto. }
  split.
  { intros [E|E]; rewrite E in Eo; apply negb_false_iff, Z.eqb_eq in Eo; lia. }
  rewrite Ex. reflexivity.
Qed.

Lemma hresolved_nth : forall x, (x < length (h_items b))%nat ->
  nth x items gdummy_item = hresolve_min (h_objective b) (nth x (h_items b) gdummy_item).
Proof.
  intros x Hx.
  rewrite nth_indep with (d' := hresolve_min (h_objective b) gdummy_item) by (rewrite map_length; assumption).
  apply map_nth.
Qed.

Lemma hnth_items : forall (sids : list nat) (spos : list Z) x, (x < length (h_items b))%nat ->
  nth x (map (fun x => gi_with_ids (hresource_ids_of bins x)
    (gi_with_stack (nth x sids 0%nat) (Z.to_nat (nth x spos 0)) (nth x items gdummy_item))) (seq 0 (length items))) gdummy_item =
  gi_with_ids (hresource_ids_of bins x)
    (gi_with_stack (nth x sids 0%nat) (Z.to_nat (nth x spos 0)) (hresolve_min (h_objective b) (nth x (h_items b) gdummy_item))).
Proof.
  intros sids spos x Hx. rewrite map_length.
  rewrite nth_indep with (d' := gi_with_ids (hresource_ids_of bins 0%nat) (gi_with_stack (nth 0%nat sids 0%nat) (Z.to_nat (nth 0%nat spos 0)) (nth 0%nat items gdummy_item)))
    by (rewrite map_length, seq_length; assumption).
  rewrite map_nth with (f := fun x => gi_with_ids (hresource_ids_of bins x) (gi_with_stack (nth x sids 0%nat) (Z.to_nat (nth x spos 0)) (nth x items gdummy_item))).
  rewrite seq_nth by assumption. simpl plus.
  f_equal. f_equal. apply hresolved_nth. assumption.
Qed.

Lemma hitems_nth : exists sids spos, forall x, (x < length (h_items b))%nat ->
  gitem i x = gi_with_ids (hresource_ids_of bins x)
    (gi_with_stack (nth x sids 0%nat) (Z.to_nat (nth x spos 0)) (hresolve_min (h_objective b) (nth x (h_items b) gdummy_item))).
Proof.
  destruct hbuild_eq as (sids & spos & offsets & fl & _ & _ & _ & E & _). exists sids, spos. intros x Hx. unfold gitem. rewrite E.
  apply (hnth_items sids spos x Hx).
Qed.

Lemma hitems_length : length (gin_items i) = length (h_items b).
Proof.
  destruct hbuild_eq as (sids & spos & offsets & fl & _ & _ & _ & E & _). rewrite E, map_length, seq_length, map_length. reflexivity.
Qed.

Lemma hbins_nth : forall t, (t < length (h_bins b))%nat ->
  gbin i t = hresolve_copies (hd_number_of_items d) (nth t (h_bins b) gdummy_bin).
Proof.
  intros t Ht. destruct hbuild_eq as (sids & spos & offsets & fl & _ & _ & _ & _ & _ & _ & _ & E & _). unfold gbin. rewrite E.
  rewrite nth_indep with (d' := hresolve_copies (hd_number_of_items d) gdummy_bin)
    by (rewrite map_length; assumption).
  apply map_nth.
Qed.

Lemma hbins_length : length (gin_bins i) = length (h_bins b).
Proof. destruct hbuild_eq as (sids & spos & offsets & fl & _ & _ & _ & _ & _ & _ & _ & E & _). rewrite E, map_length. reflexivity. Qed.

Lemma gin_items_in : forall t, In t (gin_items i) -> exists x, (x < length (h_items b))%nat /\ t = gitem i x.
Proof.
  intros t Ht. apply In_nth with (d := gdummy_item) in Ht. destruct Ht as (x & Hx & <-).
  rewrite hitems_length in Hx. exists x. split; [assumption|reflexivity].
Qed.

Lemma gin_bins_in : forall t, In t (gin_bins i) -> exists x, (x < length (h_bins b))%nat /\ t = gbin i x.
Proof.
  intros t Ht. apply In_nth with (d := gdummy_bin) in Ht. destruct Ht as (x & Hx & <-).
  rewrite hbins_length in Hx. exists x. split; [assumption|reflexivity].
Qed.

(** A function of the item types that does not look at the resource ids. *)
Lemma hitems_map : forall (B : Type) (f : GItem -> B),
  (forall t l s p, f (gi_with_ids l (gi_with_stack s p t)) = f t) -> map f (gin_items i) = map f items.
Proof.
  intros B f Hf. destruct hitems_nth as (sids & spos & Hnth). apply nth_ext with (d := f gdummy_item) (d' := f gdummy_item).
  - rewrite !map_length. apply hitems_length.
  - intros n Hn. rewrite map_length, hitems_length in Hn. rewrite !map_nth.
    change (nth n (gin_items i) gdummy_item) with (gitem i n). rewrite (Hnth n Hn), Hf.
    f_equal. symmetry. apply hresolved_nth. assumption.
Qed.

Lemma hzsum_items : forall f : GItem -> Z, (forall t l s p, f (gi_with_ids l (gi_with_stack s p t)) = f t) ->
  zsum f items = zsum f (gin_items i).
Proof.
  intros f Hf. rewrite (zsum_as_map _ f items), (zsum_as_map _ f (gin_items i)). f_equal. symmetry. apply hitems_map. assumption.
Qed.

Lemma hqsum_items : forall f : GItem -> Q, (forall t l s p, f (gi_with_ids l (gi_with_stack s p t)) = f t) ->
  qsum f items = qsum f (gin_items i).
Proof.
  intros f Hf. rewrite (qsum_as_map _ f items), (qsum_as_map _ f (gin_items i)). f_equal. symmetry. apply hitems_map. assumption.
Qed.

Lemma gin_map_items : forall (B : Type) (f : GItem -> B), (forall t l s p, f (gi_with_ids l (gi_with_stack s p t)) = f t) ->
  forall y, (exists t, In t (gin_items i) /\ f t = y) <-> (exists t, In t items /\ f t = y).
Proof.
  intros B f Hf y. pose proof (hitems_map B f Hf) as E.
  split; intros (t & Ht & <-); apply (in_map f) in Ht; [rewrite E in Ht|rewrite <- E in Ht];
    apply in_map_iff in Ht; destruct Ht as (u & E1 & Hu); exists u; auto.
Qed.

Lemma hnumber_eq : hd_number_of_items d = zsum gi_copies (h_items b).
Proof.
  destruct hbuild_eq as (sids & spos & offsets & fl & _ & _ & _ & _ & _ & _ & _ & _ & _ & _ & Ed). rewrite Ed at 1. cbn [hd_number_of_items].
  rewrite fold_sum, zsum_map. reflexivity.
Qed.

Lemma hbuild_holds : hholds_data b i.
Proof.
  destruct hbuild_eq as (sids & spos & offsets & fl & _ & _ & _ & _ & Eo & Ep & _). destruct hitems_nth as (sids' & spos' & Hnth). constructor; [assumption|assumption| |].
  - split; [apply hitems_length|]. intros x Hx. cbv zeta. rewrite (Hnth x Hx), Eo. simpl. repeat split; reflexivity.
  - split; [apply hbins_length|]. intros t Ht. cbv zeta. rewrite (hbins_nth t Ht), hnumber_eq. simpl. repeat split; reflexivity.
Qed.

Lemma hbuild_bounded : hwell_bounded i.
Proof.
  destruct hbuild_eq as (_ & _ & _ & _ & _ & _ & _ & _ & Eo & _ & E1 & _).
  destruct hitems_nth as (sids & spos & Hnth).
  destruct Hinv as (I1 & I2 & _).
  constructor.
  - intros t Ht. destruct (gin_items_in t Ht) as (x & Hx & ->). rewrite (Hnth x Hx). simpl.
    assert (Hin : In (hresolve_min (h_objective b) (nth x (h_items b) gdummy_item)) items).
    { apply in_map. apply nth_In. assumption. }
    destruct (E1 _ Hin) as [F1 F2]. unfold gi_area in F2. simpl in F1, F2.
    destruct (I2 (nth x (h_items b) gdummy_item) (nth_In _ _ Hx)) as [G1 G2 G3].
    split; [nia|]. split; [nia|]. split; [assumption|].
    destruct (gi_copies_min (nth x (h_items b) gdummy_item) =? -1) eqn:Em; intro Hc.
    + destruct (h_objective b); lia.
    + apply Z.eqb_neq in Em. lia.
  - intros t Ht. destruct (gin_bins_in t Ht) as (x & Hx & ->). rewrite (hbins_nth x Hx). simpl.
    destruct (I1 (nth x (h_bins b) gdummy_bin) (nth_In _ _ Hx)) as [J1 J2 J3]. tauto.
Qed.

Lemma fold_nsum : forall (A : Type) (f : A -> nat) l n, Z.of_nat (fold_left (fun n t => (n + f t)%nat) l n) = Z.of_nat n + zsum (fun t => Z.of_nat (f t)) l.
Proof.
  intros A f l. induction l as [|a l IH]; intro n; simpl fold_left; [rewrite zsum_nil; lia|].
  rewrite IH, zsum_cons. lia.
Qed.

Lemma hbuild_consistent : hconsistent i d.
Proof.
  destruct hbuild_eq as (sids & spos & offsets & fl & _ & _ & _ & _ & Eobj & Epar & E1 & Eb & Eparams & Eopen & Ed). clear sids spos offsets fl.
  destruct hitems_nth as (sids & spos & Hnth).
  assert (Xd : forall (B : Type) (f : HDerived -> B), f d = f (mkHD (fst (fst (hexpand_bins bins))) (snd (fst (hexpand_bins bins)))
            (fold_left (fun n t => n + gb_copies t * gb_area t) bins 0)
            (fold_left (fun m t => if Qltb m (gb_cost t) then gb_cost t else m) bins 0%Q)
            (fold_left (fun n t => (n + length (gb_defects t))%nat) bins 0%nat)
            (fold_left (fun n t => n + gi_copies t) items 0)
            (fold_left (fun n t => n + gi_copies t * gi_area t) items 0)
            (fold_left (fun n t => (n + inject_Z (gi_copies t) * gi_profit t)%Q) items 0%Q)
            (fold_left (fun m t => if Qltb m (gi_profit t) then gi_profit t else m) items 0%Q)
            (hbest_efficiency items)
            (fold_left (fun m t => if m <? gi_copies t then gi_copies t else m) items 0)
            (forallb (fun t => negb (gi_copies t <? hinfinite_copies (harea_max (h_bins b)) t)) items)
            (forallb gi_oriented items))) by (intros B f; rewrite <- Ed; reflexivity).
  pose proof (Xd _ hd_bin_type_ids) as Dids. pose proof (Xd _ hd_previous) as Dprev. pose proof (Xd _ hd_bin_area) as Dba.
 pose proof (Xd _ hd_largest_cost) as Dlc. pose proof (Xd _ hd_defects) as Ddf.
  pose proof (Xd _ hd_number_of_items) as Dn. pose proof (Xd _ hd_item_area) as Dia.

 pose proof (Xd _ hd_item_profit) as Dip. pose proof (Xd _ hd_largest_profit) as Dlp.
  pose proof (Xd _ hd_largest_efficiency) as Dle. pose proof (Xd _ hd_largest_copies) as Dlk. pose proof (Xd _ hd_all_oriented) as Dor.

  clear Xd Ed. cbn [hd_bin_type_ids hd_previous hd_bin_area hd_largest_cost hd_defects hd_number_of_items hd_item_area
    hd_item_profit hd_largest_profit
    hd_largest_efficiency hd_largest_copies hd_all_oriented] in *.
  rewrite <- Eb in Dids, Dprev, Dba, Dlc, Ddf.
  constructor.
  - rewrite Dn, fold_sum, Z.add_0_l. apply hzsum_items. reflexivity.
  - rewrite Dia, (fold_sum _ (fun t => gi_copies t * gi_area t)), Z.add_0_l. apply hzsum_items. reflexivity.
  - rewrite Dip, (fold_qsum _ (fun t => (inject_Z (gi_copies t) * gi_profit t)%Q)), Qplus_0_l.
    rewrite hqsum_items; [reflexivity|reflexivity].
  - rewrite Dlp. destruct (fold_largest _ gi_profit items) as (L1 & L2 & L3). split; [assumption|]. split.
    + intros t Ht. destruct (proj1 (gin_map_items _ gi_profit (fun _ _ _ _ => eq_refl) (gi_profit t))) as (u & Hu & <-); [eauto|auto].
    + destruct L3 as [L3|L3]; [left; assumption|right].
      apply (gin_map_items _ gi_profit (fun _ _ _ _ => eq_refl)). assumption.
  - rewrite Dlk. destruct (fold_zlargest _ gi_copies items) as (L1 & L2 & L3). split; [assumption|]. split.
    + intros t Ht. destruct (proj1 (gin_map_items _ gi_copies (fun _ _ _ _ => eq_refl) (gi_copies t))) as (u & Hu & <-); [eauto|auto].
    + destruct L3 as [L3|L3]; [left; assumption|right].
      apply (gin_map_items _ gi_copies (fun _ _ _ _ => eq_refl)). assumption.
  - rewrite Dle. pose proof (hbest_efficiency_spec items) as B.
    destruct (hbest_efficiency items) as [k|].
    + destruct B as [B1 B2]. rewrite map_length in B1. rewrite hitems_length. split; [assumption|].
      intros t Ht. rewrite (Hnth k B1). cbn [gi_profit gi_w gi_h gi_with_ids gi_with_stack].
      destruct (proj1 (gin_map_items _ hefficiency (fun _ _ _ _ => eq_refl) (hefficiency t))) as (u & Hu & Eu); [eauto|].
      specialize (B2 u Hu). rewrite Eu in B2. unfold hefficiency in B2.
      rewrite (hresolved_nth k B1) in B2. exact B2.
    + apply map_eq_nil in B. apply length_zero_iff_nil. rewrite hitems_length, B. reflexivity.
  - rewrite Dor, forallb_forall. split.
    + intros A t Ht. destruct (proj1 (gin_map_items _ gi_oriented (fun _ _ _ _ => eq_refl) (gi_oriented t))) as (u & Hu & <-); [eauto|auto].
    + intros A t Ht. destruct (proj2 (gin_map_items _ gi_oriented (fun _ _ _ _ => eq_refl) (gi_oriented t))) as (u & Hu & <-); [eauto|auto].
  - rewrite Dba, (fold_sum _ (fun t => gb_copies t * gb_area t)), Z.add_0_l. apply zsum_ext. intros t _. unfold gb_area, usable_area. ring.
  - rewrite Dlc. apply fold_largest.
  - rewrite Ddf, (fold_nsum _ (fun t => length (gb_defects t))). reflexivity.
  - rewrite Dids. pose proof (hexpand_spec (gin_bins i)) as X.
    destruct (hexpand_bins (gin_bins i)) as [[ids prev] p]. apply X.
  - rewrite Dids, Dprev. pose proof (hexpand_spec (gin_bins i)) as X.
    destruct (hexpand_bins (gin_bins i)) as [[ids prev] p]. simpl. destruct X as (_ & X1 & X2 & _). split; [exact X1|]. intros k Hk. rewrite (X2 k Hk). apply zsum_ext. intros t _. unfold gb_area, usable_area, gbin. ring.
  - intros x t Hx Ht. rewrite hitems_length in Hx. rewrite hbins_length in Ht.
    rewrite (Hnth x Hx). cbn [gi_resource_ids gi_with_ids]. unfold hresource_ids_of.
    assert (Hnth2 : nth t (map (fun t => filter (fun r =>
        match nth x (res_item_consumptions (nth r (gb_resources t) dummy_resource)) [] with [] => false | _ => true end)
        (seq 0 (length (gb_resources t)))) bins) [] =
      filter (fun r =>
        match nth x (res_item_consumptions (nth r (gb_resources (gbin i t)) dummy_resource)) [] with [] => false | _ => true end)
        (seq 0 (length (gb_resources (gbin i t))))).
    { rewrite nth_indep with (d' := filter (fun r =>
        match nth x (res_item_consumptions (nth r (gb_resources gdummy_bin) dummy_resource)) [] with [] => false | _ => true end)
        (seq 0 (length (gb_resources gdummy_bin)))) by (rewrite !map_length; assumption).
      rewrite (map_nth (fun t => filter (fun r =>
        match nth x (res_item_consumptions (nth r (gb_resources t) dummy_resource)) [] with [] => false | _ => true end)
        (seq 0 (length (gb_resources t)))) bins gdummy_bin t).
      unfold gbin. rewrite Eb. reflexivity. }
    rewrite Hnth2. split.
    + apply NoDup_filter. apply seq_NoDup.
    + intro r. rewrite filter_In, in_seq.
      destruct (nth x (res_item_consumptions (nth r (gb_resources (gbin i t)) dummy_resource)) []) as [|q l].
      * split; [intros [_ H]; discriminate|intros [_ H]; congruence].
      * split; [intros [H _]; split; [lia|discriminate]|intros [H _]; split; [lia|reflexivity]].
  - assumption.
  - rewrite Epar. exact Eparams.
Qed.

Lemma hbuild_stacked : (forall t, In t (h_items b) -> 0 <= gi_copies t) -> hstacked (h_stacks b) i.
Proof.
  intro Hpos. destruct hbuild_eq as (sids & spos & offsets & fl & Es & Eo & Ef & Ei & _).
  destruct Hinv as (_ & _ & HL).
  set (copies := map gi_copies (h_items b)) in *.
  assert (Lc : length copies = length (h_items b)) by apply map_length.
  assert (Cn : forall x, nth x copies 0 = gi_copies (nth x (h_items b) gdummy_item)).
  { intro x. unfold copies. change 0 with (gi_copies gdummy_item). apply map_nth. }
  assert (Hp : forall x, 0 <= nth x copies 0).
  { intro x. rewrite Cn. destruct (Nat.lt_ge_cases x (length (h_items b))) as [Hx|Hx].
    - apply Hpos. apply nth_In. exact Hx.
    - rewrite nth_overflow by exact Hx. cbn. lia. }
  pose proof (build_stacks_spec copies (h_stacks b) ltac:(lia) Hp) as B. rewrite Es in B.
  destruct B as (n & B1 & B2 & B3 & B4 & B5 & B6 & B7 & B8). rewrite Lc in B1, B2, B3, B6, B8.
  assert (G : forall x, (x < length (h_items b))%nat -> gitem i x = gi_with_ids (hresource_ids_of bins x)
    (gi_with_stack (nth x sids 0%nat) (Z.to_nat (nth x spos 0)) (hresolve_min (h_objective b) (nth x (h_items b) gdummy_item)))).
  { intros x Hx. unfold gitem. rewrite Ei. apply (hnth_items sids spos x Hx). }
  assert (Gid : forall x, (x < length (h_items b))%nat -> gi_stack_id (gitem i x) = nth x sids 0%nat) by (intros x Hx; rewrite (G x Hx); reflexivity).
  assert (Gc : forall x, (x < length (h_items b))%nat -> gi_copies (gitem i x) = nth x copies 0) by (intros x Hx; rewrite (G x Hx), Cn; reflexivity).
  assert (Gp : forall x, (x < length (h_items b))%nat -> gi_stack_pos (gitem i x) = Z.to_nat (before copies sids x (nth x sids 0%nat))).
  { intros x Hx. rewrite (G x Hx), <- (B6 x Hx). reflexivity. }
  assert (Sz : forall k s, (k <= length (h_items b))%nat -> stack_size (firstn k (gin_items i)) s = before copies sids k s).
  { intros k s Hk. induction k as [|k IH]; [reflexivity|]. rewrite before_S, <- IH by lia.
    rewrite (hfirstn_snoc _ gdummy_item k (gin_items i)) by (rewrite hitems_length; lia).
    unfold stack_size. rewrite zsum_snoc. change (nth k (gin_items i) gdummy_item) with (gitem i k).
    rewrite (Gid k) by lia. rewrite (Gc k) by lia. reflexivity. }
  assert (Sa : forall s, stack_size (gin_items i) s = before copies sids (length copies) s).
  { intro s. rewrite <- Sz by lia. rewrite firstn_all2 by (rewrite hitems_length; lia). reflexivity. }
  assert (On : forall s, (s <= n)%nat -> nth s (gin_stack_offsets i) 0%nat = Z.to_nat (offset copies sids s)).
  { intros s Hs. rewrite Eo. change 0%nat with (Z.to_nat 0) at 1. rewrite map_nth, (B5 s Hs). reflexivity. }
  assert (Lo : length (gin_stack_offsets i) = S n) by (rewrite Eo, map_length; exact B4).
  pose proof (before_nonneg copies sids Hp) as Bn. pose proof (offset_nonneg copies sids Hp) as Fn.
  constructor.
  - rewrite hitems_length. destruct B1 as [[_ B1]|[B1 B1']].
    + left. intros x Hx. rewrite (Gid x Hx). apply B1, Hx.
    + right. split; [exact B1|]. intros x Hx. rewrite (Gid x Hx), B1', seq_nth by exact Hx. reflexivity.
  - rewrite hitems_length, Lo. split; [rewrite (nth_indep _ 1%nat 0%nat) by lia; rewrite (On 0%nat) by lia; reflexivity|]. split; [|split].
    + intros x Hx. rewrite (Gid x Hx). specialize (B2 x Hx). lia.
    + destruct B3 as [->|(x & Hx & ->)]; [left; reflexivity|right]. exists x. split; [exact Hx|]. rewrite (Gid x Hx). reflexivity.
    + intros s Hs. rewrite (On (S s)), (On s) by lia. rewrite !Z2Nat.id by apply Fn. rewrite Sa. apply offset_S.
  - rewrite hitems_length. intros x Hx. rewrite (Gp x Hx), (Gid x Hx), Z2Nat.id by apply Bn. symmetry. apply Sz. lia.
  - rewrite Ef, B7. unfold copies. rewrite <- zsum_as_map.
    transitivity (zsum gi_copies items); [rewrite zsum_map; apply zsum_ext; reflexivity|apply hzsum_items; reflexivity].
  - rewrite hitems_length. intros x c Hx Hc. rewrite (Gid x Hx), (Gp x Hx). rewrite (Gc x Hx) in Hc. unfold gstack_item. rewrite Ef, On by (specialize (B2 x Hx); lia).
    apply B8; assumption.
  - intros s q Hq. rewrite Sa in Hq. destruct (before_cover copies sids (length copies) s (Z.of_nat q) ltac:(lia)) as (x & Hx & Ex & Hb).
    rewrite hitems_length. rewrite Lc in Hx. specialize (Bn x s).
    exists x, (q - Z.to_nat (before copies sids x s))%nat. split; [exact Hx|]. split; [rewrite (Gid x Hx); exact Ex|].
    rewrite (Gc x Hx), (Gp x Hx), Ex. lia.
Qed.

End Build.
