(** * Proofs about sub-instances built from an instance *)

From Coq Require Import List ZArith QArith Bool Lia Lqa Arith.
From Verif Require Import Util Common_Model OneDim_Model OneDim_Spec OneDimBuilder_Model OneDimBuilder_Spec OneDimBuilder_Proof
  OneDimDff_Proof.
Import ListNotations.
Open Scope Z_scope.

Lemma last_ok : forall (A : Type) (l : list A) t, bad_id (Z.of_nat (length l)) (l ++ [t]) = false.
Proof. intros. apply bad_id_false. unfold in_range. rewrite app_length. simpl. lia. Qed.

Lemma last_nth : forall (A : Type) (l : list A) t d, nth (Z.to_nat (Z.of_nat (length l))) (l ++ [t]) d = t.
Proof. intros. rewrite Nat2Z.id, app_nth2, Nat.sub_diag by lia. reflexivity. Qed.

Lemma upd_last : forall (A : Type) (l : list A) t f, upd (length l) f (l ++ [t]) = l ++ [f t].
Proof. intros A l t f. induction l as [|a l IH]; simpl; [reflexivity|]. rewrite IH. reflexivity. Qed.

Lemma on_last_bin : forall o its l t g f,
  on_bin (mkB o its (l ++ [t]) g) (Z.of_nat (length l)) f = BOk (mkB o its (l ++ [f t]) g).
Proof. intros. unfold on_bin, set_bins. simpl. rewrite last_ok, Nat2Z.id, upd_last. reflexivity. Qed.

Lemma on_last_item : forall o l t bs g f,
  on_item (mkB o (l ++ [t]) bs g) (Z.of_nat (length l)) f = BOk (mkB o (l ++ [f t]) bs g).
Proof. intros. unfold on_item, set_items. simpl. rewrite last_ok, Nat2Z.id, upd_last. reflexivity. Qed.

Definition bare_resource (r : Resource) : Resource := mkResource (res_capacity r) [] (res_penalize r) (res_penalty r).
Definition bare (t : BinType) : BinType :=
  mkBT (bt_length t) (bt_cost t) (bt_copies t) (bt_copies_min t) (bt_max_weight t) (bt_eligibility_ids t)
    (map bare_resource (bt_resources t)) [].

Lemma copy_bin_eq : forall i o its l g oid t,
  copyable i -> nth_error (in_bin_types i) oid = Some t ->
  b_copy_bin (mkB o its l g) i oid =
    BOk (mkB o its (l ++ [bare t]) (upd oid (fun _ => Some (length l)) (grow (S oid) None g))).
Proof.
  intros i o its l g oid t [Hc _] Ht. destruct (Hc t (nth_error_In _ _ Ht)) as (C1 & C2 & C3 & C4).
  unfold b_copy_bin. rewrite Ht. cbn [b_bins]. cbv zeta.
  unfold b_add_bin. destruct (bt_length t <=? 0) eqn:E; [apply Z.leb_le in E; lia|]. cbn [bthen].
  unfold set_bins. cbn [b_bins b_objective b_items b_orig_bins].
  unfold b_set_bin_cost. cbn [b_bins]. rewrite last_ok.
  destruct (Qle_bool (bt_cost t) 0) eqn:E1; [apply Qle_bool_iff in E1; lra|]. cbn [andb].
  rewrite on_last_bin. cbn [bthen].
  destruct (Qeq_bool (bt_cost t) (-1)) eqn:E2; [apply Qeq_bool_iff in E2; lra|].
  unfold b_set_bin_copies. cbn [b_bins]. rewrite last_ok, last_nth. cbn [bt_copies_min].
  replace (negb (bt_copies t =? -1) && ((bt_copies t <=? 0) || (bt_copies t <? 0))) with false.
  2: { symmetry. apply andb_false_iff. right. apply orb_false_iff. rewrite Z.leb_gt, Z.ltb_ge. lia. }
  rewrite on_last_bin. cbn [bthen].
  unfold b_set_bin_copies_min. cbn [b_bins]. rewrite last_ok, last_nth. cbn [bt_copies].
  replace (bt_copies_min t <? 0) with false by (symmetry; apply Z.ltb_ge; lia).
  replace (negb (bt_copies t =? -1) && (bt_copies t <? bt_copies_min t)) with false.
  2: { symmetry. apply andb_false_iff. right. apply Z.ltb_ge. lia. }
  rewrite on_last_bin. cbn [bthen].
  unfold b_set_bin_weight. rewrite on_last_bin. cbn [bthen].
  cbn [bt_length bt_cost bt_copies bt_copies_min bt_eligibility_ids bt_resources bt_item_type_ids bt_max_weight].
  assert (He : forall el acc g0,
    fold_left (fun r e => bthen r (fun b => b_add_eligibility b (Z.of_nat (length l)) e)) el
      (BOk (mkB o its (l ++ [mkBT (bt_length t) (bt_cost t) (bt_copies t) (bt_copies_min t) (bt_max_weight t) acc [] []]) g0)) =
    BOk (mkB o its (l ++ [mkBT (bt_length t) (bt_cost t) (bt_copies t) (bt_copies_min t) (bt_max_weight t) (acc ++ el) [] []]) g0)).
  { induction el as [|e el IH]; intros acc g0; cbn [fold_left bthen]; [rewrite app_nil_r; reflexivity|].
    unfold b_add_eligibility at 2. rewrite on_last_bin.
    cbn [bt_length bt_cost bt_copies bt_copies_min bt_eligibility_ids bt_resources bt_item_type_ids bt_max_weight].
    rewrite IH, <- app_assoc. reflexivity. }
  rewrite He. cbn [bthen app].
  assert (Hr : forall rl acc g0,
    fold_left (fun r res => bthen r (fun b => b_add_resource b (Z.of_nat (length l)) (res_capacity res) (res_penalize res) (res_penalty res))) rl
      (BOk (mkB o its (l ++ [mkBT (bt_length t) (bt_cost t) (bt_copies t) (bt_copies_min t) (bt_max_weight t) (bt_eligibility_ids t) acc []]) g0)) =
    BOk (mkB o its (l ++ [mkBT (bt_length t) (bt_cost t) (bt_copies t) (bt_copies_min t) (bt_max_weight t) (bt_eligibility_ids t)
       (acc ++ map bare_resource rl) []]) g0)).
  { induction rl as [|r rl IH]; intros acc g0; cbn [fold_left bthen map]; [rewrite app_nil_r; reflexivity|].
    unfold b_add_resource at 2. rewrite on_last_bin. unfold with_resources.
    cbn [bt_length bt_cost bt_copies bt_copies_min bt_eligibility_ids bt_resources bt_item_type_ids bt_max_weight].
    rewrite IH, <- app_assoc. reflexivity. }
  rewrite Hr. reflexivity.
Qed.

(** ** The map from original to copied bin types *)

(** Entry [x] of the map is the position of [x] among the copied bin types. *)
Definition maps (bs : list nat) (g : list (option nat)) : Prop :=
  (forall k, (k < length bs)%nat -> nth_error g (nth k bs 0%nat) = Some (Some k)) /\
  (forall x k, nth_error g x = Some (Some k) -> (k < length bs)%nat /\ nth k bs 0%nat = x).

Lemma grow_length : forall (A : Type) n (d : A) l, length (grow n d l) = Nat.max n (length l).
Proof. intros. unfold grow. rewrite app_length, repeat_length. lia. Qed.

Lemma grow_nth : forall (A : Type) n (d : A) l k, nth k (grow n d l) d = nth k l d.
Proof.
  intros A n d l k. unfold grow. destruct (lt_dec k (length l)) as [L|L].
  - apply app_nth1. assumption.
  - rewrite app_nth2 by lia. rewrite (nth_overflow l) by lia.
    destruct (lt_dec (k - length l) (n - length l)) as [L'|L'].
    + apply nth_repeat.
    + apply nth_overflow. rewrite repeat_length. lia.
Qed.

Lemma nth_error_some_nth : forall (A : Type) (l : list A) k d x, nth_error l k = Some x <-> (k < length l)%nat /\ nth k l d = x.
Proof.
  intros A l k d x. split.
  - intro H. split; [apply nth_error_Some; congruence|]. apply nth_error_nth. assumption.
  - intros [H1 <-]. apply nth_error_nth'. assumption.
Qed.

Lemma maps_snoc : forall bs g x, maps bs g -> ~ In x bs ->
  maps (bs ++ [x]) (upd x (fun _ => Some (length bs)) (grow (S x) None g)).
Proof.
  intros bs g x [M1 M2] Hx. split.
  - intros k Hk. rewrite app_length in Hk. simpl in Hk.
    apply nth_error_some_nth with (d := None). rewrite upd_length, grow_length.
    destruct (Nat.eq_dec k (length bs)) as [->|Hne].
    + rewrite app_nth2, Nat.sub_diag by lia. simpl nth at 1. split; [lia|].
      simpl. rewrite nth_upd_same by (rewrite grow_length; lia). reflexivity.
    + rewrite app_nth1 by lia. specialize (M1 k ltac:(lia)).
      apply nth_error_some_nth with (d := None) in M1. destruct M1 as [M11 M12]. split; [lia|].
      rewrite nth_upd_other; [rewrite grow_nth; assumption|].
      intro E. apply Hx. rewrite E. apply nth_In. lia.
  - intros y k H. apply nth_error_some_nth with (d := None) in H. rewrite upd_length, grow_length in H.
    destruct H as [H1 H2]. rewrite nth_upd in H2 by (rewrite grow_length; lia). rewrite app_length. simpl.
    destruct (Nat.eqb x y) eqn:E.
    + apply Nat.eqb_eq in E. subst y. injection H2 as <-. split; [lia|].
      rewrite app_nth2, Nat.sub_diag by lia. reflexivity.
    + rewrite grow_nth in H2.
      destruct (lt_dec y (length g)) as [L|L]; [|rewrite nth_overflow in H2 by lia; discriminate].
      destruct (M2 y k) as [K1 K2]; [apply nth_error_some_nth with (d := None); auto|].
      split; [lia|]. rewrite app_nth1 by assumption. assumption.
Qed.

Lemma calls_app : forall b l1 l2, calls_from b (l1 ++ l2) = bthen (calls_from b l1) (fun b' => calls_from b' l2).
Proof.
  intros b l1 l2. unfold calls_from. rewrite fold_left_app.
  assert (Hstuck : forall r, (forall b', r <> BOk b') -> fold_left (fun r c => bthen r (fun b => bstep b c)) l2 r = r).
  { intros r Hr. induction l2 as [|c l2 IH]; [reflexivity|]. simpl.
    destruct r as [b'|b'|]; [exfalso; apply (Hr b'); reflexivity|exact IH|exact IH]. }
  destruct (fold_left _ l1 (BOk b)) as [b'|b'|]; simpl; [reflexivity|apply Hstuck; discriminate|apply Hstuck; discriminate].
Qed.

Lemma copy_bins_ok : forall i o bs, copyable i -> NoDup bs ->
  (forall t, In t bs -> (t < length (in_bin_types i))%nat) ->
  exists g, calls_from (mkB o [] [] []) (map (CopyBinType i) bs) =
    BOk (mkB o [] (map (fun t => bare (bin_type i t)) bs) g) /\ maps bs g.
Proof.
  intros i o bs Hc. induction bs as [|x bs IH] using rev_ind; intros Hn Hr.
  - exists []. split; [reflexivity|]. split; [simpl; intros; lia|]. intros [|x] k H; discriminate.
  - apply NoDup_remove in Hn. rewrite app_nil_r in Hn. destruct Hn as [Hn Hx].
    destruct (IH Hn) as (g & E & M); [intros t Ht; apply Hr; apply in_or_app; left; assumption|].
    eexists. rewrite map_app, calls_app, E. cbn [bthen].
    unfold calls_from. cbn [map fold_left bthen bstep].
    rewrite (copy_bin_eq i o [] _ g x (bin_type i x) Hc).
    + rewrite map_app, map_length. split; [reflexivity|]. apply maps_snoc; assumption.
    + unfold bin_type. apply nth_error_nth'. apply Hr. apply in_elt.
Qed.

(** ** Consumptions *)

Definition sched (b : Builder) (k r x : nat) : list Q :=
  schedule (nth r (bt_resources (nth k (b_bins b) dummy_bin)) dummy_resource) x.

(** Same data except the consumption tables. *)
Record frame (b b' : Builder) : Prop := {
  fr_objective : b_objective b' = b_objective b;
  fr_items : b_items b' = b_items b;
  fr_orig : b_orig_bins b' = b_orig_bins b;
  fr_bins : map bare (b_bins b') = map bare (b_bins b)
}.

Lemma frame_refl : forall b, frame b b.
Proof. intro b. constructor; reflexivity. Qed.
Lemma frame_trans : forall a b c, frame a b -> frame b c -> frame a c.
Proof. intros a b c [A1 A2 A3 A4] [B1 B2 B3 B4]. constructor; congruence. Qed.

Lemma frame_length : forall b b', frame b b' -> length (b_bins b') = length (b_bins b).
Proof. intros b b' [_ _ _ E]. apply (f_equal (@length _)) in E. rewrite !map_length in E. assumption. Qed.

Lemma frame_bare : forall b b' k, frame b b' -> bare (nth k (b_bins b') dummy_bin) = bare (nth k (b_bins b) dummy_bin).
Proof.
  intros b b' k [_ _ _ E]. rewrite <- !(map_nth bare). rewrite E. reflexivity.
Qed.

Lemma bare_resources_length : forall t t', bare t = bare t' -> length (bt_resources t) = length (bt_resources t').
Proof.
  intros t t' H. injection H as _ _ _ _ _ _ H. apply (f_equal (@length _)) in H. rewrite !map_length in H. assumption.
Qed.

Lemma map_upd_same : forall (A B : Type) (h : A -> B) k f l, (forall a, h (f a) = h a) -> map h (upd k f l) = map h l.
Proof.
  intros A B h k f l Hf. revert k. induction l as [|a l IH]; intros [|k]; simpl; try reflexivity.
  - rewrite Hf. reflexivity.
  - rewrite IH. reflexivity.
Qed.

Lemma put_schedule : forall item copy q r x,
  schedule (put_consumption item copy q r) x =
  if Nat.eqb item x then upd copy (fun _ => q) (grow (S copy) 0%Q (schedule r item)) else schedule r x.
Proof.
  intros item copy q r x. unfold schedule, put_consumption. simpl.
  rewrite nth_upd by (rewrite grow_length; lia). rewrite !grow_nth.
  destruct (Nat.eqb item x) eqn:E; [apply Nat.eqb_eq in E; subst x|]; reflexivity.
Qed.

Lemma add_consumption_ok : forall b k r x c q,
  (k < length (b_bins b))%nat -> (r < length (bt_resources (nth k (b_bins b) dummy_bin)))%nat ->
  exists b', b_add_consumption b (Z.of_nat k) (Z.of_nat r) (Z.of_nat x) (Z.of_nat c) q = BOk b' /\
    frame b b' /\
    forall k' r' x', sched b' k' r' x' =
      if Nat.eqb k k' && Nat.eqb r r' && Nat.eqb x x'
      then upd c (fun _ => q) (grow (S c) 0%Q (sched b k r x)) else sched b k' r' x'.
Proof.
  intros b k r x c q Hk Hr. unfold b_add_consumption.
  replace (bad_id (Z.of_nat k) (b_bins b)) with false by (symmetry; apply bad_id_false; unfold in_range; lia).
  rewrite !Nat2Z.id.
  replace (bad_id (Z.of_nat r) (bt_resources (nth k (b_bins b) dummy_bin))) with false
    by (symmetry; apply bad_id_false; unfold in_range; lia).
  replace (Z.of_nat c <? 0) with false by (symmetry; apply Z.ltb_ge; lia).
  replace (Z.of_nat x <? 0) with false by (symmetry; apply Z.ltb_ge; lia).
  unfold on_bin.
  replace (bad_id (Z.of_nat k) (b_bins b)) with false by (symmetry; apply bad_id_false; unfold in_range; lia).
  rewrite Nat2Z.id. eexists. split; [reflexivity|]. split.
  - constructor; simpl; try reflexivity. apply map_upd_same. intro t. unfold bare, with_resources. simpl.
    f_equal. apply map_upd_same. intro res. reflexivity.
  - intros k' r' x'. unfold sched. simpl. rewrite nth_upd by assumption.
    destruct (Nat.eqb k k') eqn:Ek; simpl; [apply Nat.eqb_eq in Ek; subst k'|reflexivity].
    rewrite nth_upd by assumption. destruct (Nat.eqb r r') eqn:Er; simpl; [apply Nat.eqb_eq in Er; subst r'|reflexivity].
    rewrite put_schedule. destruct (Nat.eqb x x'); reflexivity.
Qed.

Lemma fold_snoc : forall (A B : Type) (f : A -> B -> A) l x a, fold_left f (l ++ [x]) a = f (fold_left f l a) x.
Proof. intros. rewrite fold_left_app. reflexivity. Qed.

Lemma grow_put : forall (s : list Q) n q, length s = n -> upd n (fun _ => q) (grow (S n) 0%Q s) = s ++ [q].
Proof.
  intros s n q <-. unfold grow. replace (S (length s) - length s)%nat with 1%nat by lia. simpl. apply upd_last.
Qed.

Lemma combine_nats_snoc : forall (A : Type) (l : list A) x,
  combine (map Z.of_nat (seq 0 (length (l ++ [x])))) (l ++ [x]) =
  combine (map Z.of_nat (seq 0 (length l))) l ++ [(Z.of_nat (length l), x)].
Proof.
  intros A l x. rewrite app_length. simpl length. rewrite Nat.add_1_r, seq_S, map_app. simpl map.
  assert (H : forall (B : Type) (a : list B) (l : list A) b x, length a = length l ->
    combine (a ++ [b]) (l ++ [x]) = combine a l ++ [(b, x)]).
  { intros B a. induction a as [|a0 a IH]; intros [|l0 l'] b y E; simpl in *; try discriminate; [reflexivity|].
    rewrite IH by lia. reflexivity. }
  apply H. rewrite map_length, seq_length. reflexivity.
Qed.

Lemma copy_schedule_ok : forall b k r x s,
  (k < length (b_bins b))%nat -> (r < length (bt_resources (nth k (b_bins b) dummy_bin)))%nat ->
  sched b k r x = [] ->
  exists b', b_copy_schedule b (Z.of_nat k) (Z.of_nat r) (Z.of_nat x) s = BOk b' /\ frame b b' /\
    forall k' r' x', sched b' k' r' x' =
      if Nat.eqb k k' && Nat.eqb r r' && Nat.eqb x x' then s else sched b k' r' x'.
Proof.
  intros b k r x s Hk Hr Hs. unfold b_copy_schedule.
  induction s as [|q s IH] using rev_ind.
  - exists b. split; [reflexivity|]. split; [apply frame_refl|]. intros k' r' x'.
    destruct (Nat.eqb k k' && Nat.eqb r r' && Nat.eqb x x') eqn:E; [|reflexivity].
    apply andb_prop in E. destruct E as [E E3]. apply andb_prop in E. destruct E as [E1 E2].
    apply Nat.eqb_eq in E1, E2, E3. subst. assumption.
  - rewrite combine_nats_snoc, fold_snoc. destruct IH as (b1 & E1 & F1 & S1). rewrite E1. cbn [bthen fst snd].
    destruct (add_consumption_ok b1 k r x (length s) q) as (b2 & E2 & F2 & S2).
    + rewrite (frame_length _ _ F1). assumption.
    + rewrite (bare_resources_length _ _ (frame_bare _ _ k F1)). assumption.
    + exists b2. split; [assumption|]. split; [apply (frame_trans _ _ _ F1 F2)|].
      intros k' r' x'. rewrite S2, !S1, !Nat.eqb_refl. simpl.
      destruct (Nat.eqb k k' && Nat.eqb r r' && Nat.eqb x x'); [|reflexivity].
      apply grow_put. reflexivity.
Qed.

Lemma copy_resources_ok : forall b k x ox rs,
  (k < length (b_bins b))%nat -> length (bt_resources (nth k (b_bins b) dummy_bin)) = length rs ->
  (forall r, sched b k r x = []) ->
  exists b', b_copy_resources b (Z.of_nat k) (Z.of_nat x) ox rs = BOk b' /\ frame b b' /\
    forall k' r' x', sched b' k' r' x' =
      if Nat.eqb k k' && Nat.eqb x x' then schedule (nth r' rs dummy_resource) ox else sched b k' r' x'.
Proof.
  intros b k x ox rs Hk Hlen Hs. unfold b_copy_resources.
  assert (H : forall n, (n <= length rs)%nat ->
    exists b', fold_left (fun r kres => bthen r (fun b =>
      if (ox <? length (res_item_consumptions (snd kres)))%nat
      then b_copy_schedule b (Z.of_nat k) (fst kres) (Z.of_nat x) (nth ox (res_item_consumptions (snd kres)) [])
      else BOk b)) (combine (map Z.of_nat (seq 0 (length (firstn n rs)))) (firstn n rs)) (BOk b) = BOk b' /\ frame b b' /\
    forall k' r' x', sched b' k' r' x' =
      if Nat.eqb k k' && Nat.eqb x x' && (r' <? n)%nat then schedule (nth r' rs dummy_resource) ox else sched b k' r' x').
  { induction n as [|n IH]; intro Hn.
    - exists b. split; [reflexivity|]. split; [apply frame_refl|]. intros k' r' x'.
      rewrite andb_false_r. reflexivity.
    - destruct IH as (b1 & E1 & F1 & S1); [lia|].
      assert (Hf : firstn (S n) rs = firstn n rs ++ [nth n rs dummy_resource]).
      { clear -Hn. revert n Hn. induction rs as [|a rs IHr]; intros n Hn; simpl in Hn; [lia|].
        destruct n as [|n]; [reflexivity|]. simpl. f_equal. apply IHr. lia. }
      rewrite Hf, combine_nats_snoc, fold_snoc, E1. cbn [bthen fst snd].
      rewrite firstn_length, Nat.min_l by lia.
      destruct (ox <? length (res_item_consumptions (nth n rs dummy_resource)))%nat eqn:Eo.
      + destruct (copy_schedule_ok b1 k n x (nth ox (res_item_consumptions (nth n rs dummy_resource)) [])) as (b2 & E2 & F2 & S2).
        * rewrite (frame_length _ _ F1). assumption.
        * rewrite (bare_resources_length _ _ (frame_bare _ _ k F1)). lia.
        * rewrite S1. rewrite Nat.ltb_irrefl, andb_false_r. apply Hs.
        * exists b2. split; [assumption|]. split; [apply (frame_trans _ _ _ F1 F2)|].
          intros k' r' x'. rewrite S2, S1.
          destruct (Nat.eqb k k') eqn:Ek; simpl; [|reflexivity].
          destruct (Nat.eqb x x') eqn:Ex; simpl; [|rewrite andb_false_r; reflexivity]. rewrite andb_true_r.
          destruct (Nat.eqb n r') eqn:Er.
          -- apply Nat.eqb_eq in Er. subst r'. replace (n <? S n)%nat with true by (symmetry; apply Nat.ltb_lt; lia).
             reflexivity.
          -- apply Nat.eqb_neq in Er.
             destruct (r' <? n)%nat eqn:L.
             ++ apply Nat.ltb_lt in L. replace (r' <? S n)%nat with true by (symmetry; apply Nat.ltb_lt; lia). reflexivity.
             ++ apply Nat.ltb_ge in L. replace (r' <? S n)%nat with false by (symmetry; apply Nat.ltb_ge; lia). reflexivity.
      + exists b1. split; [reflexivity|]. split; [assumption|]. intros k' r' x'. rewrite S1.
        apply Nat.ltb_ge in Eo.
        destruct (Nat.eqb k k') eqn:Ek; simpl; [|reflexivity]. apply Nat.eqb_eq in Ek. subst k'.
        destruct (Nat.eqb x x') eqn:Ex; simpl; [|reflexivity]. apply Nat.eqb_eq in Ex. subst x'.
        destruct (Nat.eq_dec n r') as [->|Er].
        * rewrite Nat.ltb_irrefl. replace (r' <? S r')%nat with true by (symmetry; apply Nat.ltb_lt; lia).
          rewrite Hs. unfold schedule. symmetry. apply nth_overflow. assumption.
        * destruct (r' <? n)%nat eqn:L.
          -- apply Nat.ltb_lt in L. replace (r' <? S n)%nat with true by (symmetry; apply Nat.ltb_lt; lia). reflexivity.
          -- apply Nat.ltb_ge in L. replace (r' <? S n)%nat with false by (symmetry; apply Nat.ltb_ge; lia). reflexivity. }
  destruct (H (length rs) (Nat.le_refl _)) as (b' & E & F & S'). rewrite firstn_all in E.
  exists b'. split; [assumption|]. split; [assumption|]. intros k' r' x'. rewrite S'.
  destruct (Nat.eqb k k') eqn:Ek; simpl; [|reflexivity]. apply Nat.eqb_eq in Ek. subst k'.
  destruct (Nat.eqb x x') eqn:Ex; simpl; [|reflexivity]. apply Nat.eqb_eq in Ex. subst x'.
  destruct (r' <? length rs)%nat eqn:L; [reflexivity|]. apply Nat.ltb_ge in L.
  rewrite Hs. rewrite (nth_overflow rs) by assumption. unfold schedule. simpl. destruct ox; reflexivity.
Qed.

(** The builder after the bins [bs] and the items [its]. *)
Record copied (i : Instance) (o : option Objective) (bs its : list nat) (b : Builder) : Prop := {
  cd_objective : b_objective b = o;
  cd_bins : map bare (b_bins b) = map (fun t => bare (bin_type i t)) bs;
  cd_maps : maps bs (b_orig_bins b);
  cd_items : length (b_items b) = length its /\ forall x, (x < length its)%nat ->
    same_item_type (item_type i (nth x its 0%nat)) (nth x (b_items b) dummy_item) /\
    it_copies_min (nth x (b_items b) dummy_item) = -1;
  cd_sched : forall k r x, (k < length bs)%nat -> sched b k r x =
    if (x <? length its)%nat
    then schedule (nth r (bt_resources (bin_type i (nth k bs 0%nat))) dummy_resource) (nth x its 0%nat) else []
}.

Lemma copied_length : forall i o bs its b, copied i o bs its b -> length (b_bins b) = length bs.
Proof. intros i o bs its b H. pose proof (cd_bins _ _ _ _ _ H) as E. apply (f_equal (@length _)) in E. rewrite !map_length in E. assumption. Qed.

Lemma copied_bare : forall i o bs its b k, copied i o bs its b -> (k < length bs)%nat ->
  bare (nth k (b_bins b) dummy_bin) = bare (bin_type i (nth k bs 0%nat)).
Proof.
  intros i o bs its b k H Hk. rewrite <- (map_nth bare), (cd_bins _ _ _ _ _ H).
  rewrite nth_indep with (d' := bare (bin_type i 0%nat)) by (rewrite map_length; assumption).
  apply (map_nth (fun t => bare (bin_type i t))).
Qed.

Lemma copy_consumptions : forall i (Hc : copyable i) bs x ox b,
  (forall t, In t bs -> (t < length (in_bin_types i))%nat) -> NoDup bs ->
  maps bs (b_orig_bins b) ->
  map bare (b_bins b) = map (fun t => bare (bin_type i t)) bs ->
  (forall k r, (k < length bs)%nat -> sched b k r x = []) ->
  exists b', fold_left (fun r ko => bthen r (fun b =>
          match snd ko with
          | None => BOk b
          | Some sub =>
              match nth_error (in_bin_types i) (fst ko) with
              | None => BUndef
              | Some obt => b_copy_resources b (Z.of_nat sub) (Z.of_nat x) ox (bt_resources obt)
              end
          end))
        (combine (seq 0 (length (b_orig_bins b))) (b_orig_bins b)) (BOk b) = BOk b' /\ frame b b' /\
    forall k r x', (k < length bs)%nat -> sched b' k r x' =
      if Nat.eqb x x' then schedule (nth r (bt_resources (bin_type i (nth k bs 0%nat))) dummy_resource) ox else sched b k r x'.
Proof.
  intros i Hc bs x ox b Hr Hnd [M1 M2] Hbare Hs.
  set (g := b_orig_bins b) in *.
  assert (Hlen : length (b_bins b) = length bs).
  { apply (f_equal (@length _)) in Hbare. rewrite !map_length in Hbare. assumption. }
  assert (H : forall n, (n <= length g)%nat ->
    exists b', fold_left (fun r ko => bthen r (fun b =>
          match snd ko with
          | None => BOk b
          | Some sub =>
              match nth_error (in_bin_types i) (fst ko) with
              | None => BUndef
              | Some obt => b_copy_resources b (Z.of_nat sub) (Z.of_nat x) ox (bt_resources obt)
              end
          end)) (combine (seq 0 n) (firstn n g)) (BOk b) = BOk b' /\ frame b b' /\
    forall k r x', (k < length bs)%nat -> sched b' k r x' =
      if Nat.eqb x x' && (nth k bs 0%nat <? n)%nat
      then schedule (nth r (bt_resources (bin_type i (nth k bs 0%nat))) dummy_resource) ox else sched b k r x').
  { induction n as [|n IH]; intro Hn.
    - exists b. split; [reflexivity|]. split; [apply frame_refl|]. intros k r x' Hk. rewrite andb_false_r. reflexivity.
    - destruct IH as (b1 & E1 & F1 & S1); [lia|].
      assert (Hf : firstn (S n) g = firstn n g ++ [nth n g None]).
      { clear -Hn. revert n Hn. induction g as [|a g IHr]; intros n Hn; simpl in Hn; [lia|].
        destruct n as [|n]; [reflexivity|]. simpl. f_equal. apply IHr. lia. }
      assert (Hcomb : combine (seq 0 (S n)) (firstn (S n) g) = combine (seq 0 n) (firstn n g) ++ [(n, nth n g None)]).
      { rewrite Hf, seq_S. simpl plus.
        assert (K : forall (A B : Type) (a : list B) (l : list A) c y, length a = length l ->
          combine (a ++ [c]) (l ++ [y]) = combine a l ++ [(c, y)]).
        { intros A B a. induction a as [|a0 a IHa]; intros [|l0 l'] c y E; simpl in *; try discriminate; [reflexivity|].
          rewrite IHa by lia. reflexivity. }
        apply K. rewrite seq_length, firstn_length. lia. }
      rewrite Hcomb, fold_snoc, E1. cbn [bthen fst snd].
      destruct (nth n g None) as [sub|] eqn:En.
      + assert (Hg : nth_error g n = Some (Some sub)) by (apply nth_error_some_nth with (d := None); split; [lia|assumption]).
        destruct (M2 n sub Hg) as [K1 K2].
        assert (Hin : (n < length (in_bin_types i))%nat) by (apply Hr; rewrite <- K2; apply nth_In; assumption).
        assert (Eo : nth_error (in_bin_types i) n = Some (bin_type i n)) by (apply nth_error_nth'; assumption).
        rewrite Eo.
        destruct (copy_resources_ok b1 sub x ox (bt_resources (bin_type i n))) as (b2 & E2 & F2 & S2).
        * rewrite (frame_length _ _ F1). lia.
        * rewrite (bare_resources_length _ _ (frame_bare _ _ sub F1)).
          apply bare_resources_length. rewrite <- (map_nth bare), Hbare.
          rewrite nth_indep with (d' := bare (bin_type i 0%nat)) by (rewrite map_length; assumption).
          rewrite (map_nth (fun t => bare (bin_type i t))), K2. reflexivity.
        * intro r. rewrite S1 by assumption. rewrite K2, Nat.ltb_irrefl, andb_false_r. apply Hs. assumption.
        * exists b2. split; [assumption|]. split; [apply (frame_trans _ _ _ F1 F2)|].
          intros k r x' Hk. rewrite S2, S1 by assumption.
          destruct (Nat.eqb x x') eqn:Ex; [|rewrite andb_false_r; reflexivity]. rewrite andb_true_r. simpl.
          destruct (Nat.eqb sub k) eqn:Ek.
          -- apply Nat.eqb_eq in Ek. subst k. rewrite K2.
             replace (n <? S n)%nat with true by (symmetry; apply Nat.ltb_lt; lia). reflexivity.
          -- assert (Hne : nth k bs 0%nat <> n).
             { intro E. apply Nat.eqb_neq in Ek. apply Ek.
               apply (proj1 (NoDup_nth bs 0%nat) Hnd); [assumption..|congruence]. }
             destruct (nth k bs 0 <? n)%nat eqn:L.
             ++ apply Nat.ltb_lt in L. replace (nth k bs 0 <? S n)%nat with true by (symmetry; apply Nat.ltb_lt; lia). reflexivity.
             ++ apply Nat.ltb_ge in L. replace (nth k bs 0 <? S n)%nat with false by (symmetry; apply Nat.ltb_ge; lia). reflexivity.
      + exists b1. split; [reflexivity|]. split; [assumption|]. intros k r x' Hk. rewrite S1 by assumption.
        destruct (Nat.eqb x x') eqn:Ex; [|reflexivity]. simpl.
        assert (Hne : nth k bs 0%nat <> n).
        { intro E. specialize (M1 k Hk). rewrite E in M1. apply nth_error_nth with (d := None) in M1. congruence. }
        destruct (nth k bs 0 <? n)%nat eqn:L.
        * apply Nat.ltb_lt in L. replace (nth k bs 0 <? S n)%nat with true by (symmetry; apply Nat.ltb_lt; lia). reflexivity.
        * apply Nat.ltb_ge in L. replace (nth k bs 0 <? S n)%nat with false by (symmetry; apply Nat.ltb_ge; lia). reflexivity. }
  destruct (H (length g) (Nat.le_refl _)) as (b' & E & F & S'). rewrite firstn_all in E.
  exists b'. split; [assumption|]. split; [assumption|]. intros k r x' Hk. rewrite S' by assumption.
  assert (L : (nth k bs 0 < length g)%nat) by (apply nth_error_Some; rewrite (M1 k Hk); discriminate).
  apply Nat.ltb_lt in L. rewrite L, andb_true_r. reflexivity.
Qed.

Lemma copy_item_ok : forall i o bs its b ox, copyable i -> NoDup bs ->
  (forall t, In t bs -> (t < length (in_bin_types i))%nat) ->
  (ox < length (in_item_types i))%nat ->
  copied i o bs its b ->
  exists b', b_copy_item b i ox = BOk b' /\ copied i o bs (its ++ [ox]) b'.
Proof.
  intros i o bs its b ox Hc Hnd Hr Hox C.
  assert (Hcc : 1 <= it_copies (item_type i ox)) by (apply (cp_items i Hc); apply nth_In; assumption).
  unfold b_copy_item.
  assert (Eo : nth_error (in_item_types i) ox = Some (item_type i ox)) by (apply nth_error_nth'; assumption).
  rewrite Eo. set (t := item_type i ox) in *.
  destruct b as [bo bi bb bg]. cbn [b_items]. unfold b_add_item. cbn [bthen].
  unfold set_items. cbn [b_items b_objective b_bins b_orig_bins].
  unfold b_set_item_profit. rewrite on_last_item. cbn [bthen it_length it_profit it_copies it_copies_min it_weight it_nesting it_stackability it_max_weight_after it_eligibility it_resource_ids].
  unfold b_set_item_copies. cbn [b_items]. rewrite last_ok.
  replace (negb (it_copies t =? -1) && (it_copies t <=? 0)) with false
    by (symmetry; apply andb_false_iff; right; apply Z.leb_gt; lia).
  rewrite on_last_item. cbn [bthen it_length it_profit it_copies it_copies_min it_weight it_nesting it_stackability it_max_weight_after it_eligibility it_resource_ids].
  unfold b_set_item_weight. rewrite on_last_item. cbn [bthen it_length it_profit it_copies it_copies_min it_weight it_nesting it_stackability it_max_weight_after it_eligibility it_resource_ids].
  unfold b_set_item_nesting. rewrite on_last_item. cbn [bthen it_length it_profit it_copies it_copies_min it_weight it_nesting it_stackability it_max_weight_after it_eligibility it_resource_ids].
  unfold b_set_item_stackability. rewrite on_last_item. cbn [bthen it_length it_profit it_copies it_copies_min it_weight it_nesting it_stackability it_max_weight_after it_eligibility it_resource_ids].
  unfold b_set_item_weight_after. rewrite on_last_item. cbn [bthen it_length it_profit it_copies it_copies_min it_weight it_nesting it_stackability it_max_weight_after it_eligibility it_resource_ids].
  unfold b_set_item_eligibility. rewrite on_last_item. cbn [bthen it_length it_profit it_copies it_copies_min it_weight it_nesting it_stackability it_max_weight_after it_eligibility it_resource_ids].
  cbn [it_length it_profit it_copies it_copies_min it_weight it_nesting it_stackability it_max_weight_after it_eligibility it_resource_ids].
  match goal with |- context [BOk (mkB bo (bi ++ [?t']) bb bg)] => set (nt := t') end.
  destruct C as [C1 C2 C3 [C4 C5] C6]. cbn [b_objective b_items b_bins b_orig_bins] in C1, C2, C3, C4, C5.
  destruct (copy_consumptions i Hc bs (length bi) ox (mkB bo (bi ++ [nt]) bb bg) Hr Hnd) as (b' & E & F & S').
  - exact C3.
  - exact C2.
  - intros k r Hk. change (sched (mkB bo bi bb bg) k r (length bi) = []). rewrite C6 by assumption.
    rewrite C4, Nat.ltb_irrefl. reflexivity.
  - cbn [b_orig_bins] in E. exists b'. split; [exact E|]. pose proof F as [F1 F2 F3 F4]. simpl in F1, F2, F3, F4. constructor.
    + congruence.
    + rewrite F4. exact C2.
    + rewrite F3. exact C3.
    + rewrite F2, !app_length. simpl. split; [lia|]. intros x Hx.
      destruct (Nat.eq_dec x (length its)) as [->|Hne].
      * rewrite (app_nth2 its), Nat.sub_diag by lia. rewrite <- C4, (app_nth2 bi), Nat.sub_diag by lia. simpl.
        split; [|reflexivity]. unfold same_item_type. fold t. unfold nt; simpl. repeat split; reflexivity.
      * rewrite (app_nth1 its), (app_nth1 bi) by lia. apply C5. lia.
    + intros k r x Hk. rewrite S' by assumption. rewrite app_length. simpl.
      change (sched (mkB bo (bi ++ [nt]) bb bg) k r x) with (sched (mkB bo bi bb bg) k r x). rewrite C6 by assumption.
      rewrite C4. destruct (Nat.eqb (length its) x) eqn:Ex.
      * apply Nat.eqb_eq in Ex. subst x. replace (length its <? length its + 1)%nat with true by (symmetry; apply Nat.ltb_lt; lia).
        rewrite app_nth2, Nat.sub_diag by lia. reflexivity.
      * apply Nat.eqb_neq in Ex. destruct (x <? length its)%nat eqn:L.
        -- apply Nat.ltb_lt in L. replace (x <? length its + 1)%nat with true by (symmetry; apply Nat.ltb_lt; lia).
           rewrite app_nth1 by lia. reflexivity.
        -- apply Nat.ltb_ge in L. replace (x <? length its + 1)%nat with false by (symmetry; apply Nat.ltb_ge; lia). reflexivity.
Qed.

Lemma nth_bare_resources : forall t r x, schedule (nth r (bt_resources (bare t)) dummy_resource) x = [].
Proof.
  intros t r x. unfold bare. simpl. change dummy_resource with (bare_resource dummy_resource).
  rewrite map_nth. unfold schedule. simpl. destruct x; reflexivity.
Qed.

Lemma bare_bare : forall t, bare (bare t) = bare t.
Proof.
  intro t. unfold bare. simpl. f_equal. rewrite map_map. apply map_ext. intro r. reflexivity.
Qed.

Lemma copies_ok : forall i o bs its, copyable i -> NoDup bs ->
  (forall t, In t bs -> (t < length (in_bin_types i))%nat) ->
  (forall x, In x its -> (x < length (in_item_types i))%nat) ->
  exists b, calls_from (mkB o [] [] []) (map (CopyBinType i) bs ++ map (CopyItemType i) its) = BOk b /\ copied i o bs its b.
Proof.
  intros i o bs its Hc Hnd Hb. induction its as [|x its IH] using rev_ind; intro Hi.
  - rewrite app_nil_r. destruct (copy_bins_ok i o bs Hc Hnd Hb) as (g & E & M). eexists. split; [exact E|].
    constructor; simpl; auto.
    + rewrite map_map. apply map_ext. intro t. apply bare_bare.
    + split; [reflexivity|]. intros; lia.
    + intros k r x Hk. unfold sched. simpl.
      rewrite nth_indep with (d' := bare (bin_type i 0%nat)) by (rewrite map_length; assumption).
      rewrite (map_nth (fun t => bare (bin_type i t))). apply nth_bare_resources.
  - destruct IH as (b & E & C); [intros y Hy; apply Hi; apply in_or_app; left; assumption|].
    rewrite map_app, app_assoc, calls_app, E. cbn [bthen]. unfold calls_from. simpl.
    apply copy_item_ok; auto. apply Hi. apply in_elt.
Qed.

Lemma bare_same : forall t t', bare t' = bare t -> same_bin_type t t'.
Proof.
  intros t t' H. pose proof (bare_resources_length _ _ H) as L.
  unfold bare in H. injection H as H1 H2 H3 H4 H5 H6 H7. unfold same_bin_type.
  repeat (split; [assumption|]). intros r Hr. cbv zeta.
  assert (E : bare_resource (nth r (bt_resources t') dummy_resource) = bare_resource (nth r (bt_resources t) dummy_resource)).
  { rewrite <- !(map_nth bare_resource). rewrite H7. reflexivity. }
  injection E as E1 E2 E3. auto.
Qed.

Lemma copied_sub : forall i o bs its b, copied i o bs its b -> sub_instance i bs its b.
Proof.
  intros i o bs its b C. constructor.
  - split; [apply (copied_length _ _ _ _ _ C)|]. intros k Hk. apply bare_same. apply (copied_bare _ _ _ _ _ k C Hk).
  - destruct C as [_ _ _ [C1 C2] _]. split; [assumption|]. intros k Hk. apply C2. assumption.
  - intros k r x Hk Hx Hr. destruct C as [_ _ _ _ C]. change (sched b k r x = schedule (nth r (bt_resources (bin_type i (nth k bs 0%nat))) dummy_resource) (nth x its 0%nat)).
    rewrite C by assumption. apply Nat.ltb_lt in Hx. rewrite Hx. reflexivity.
Qed.

Lemma copied_builds : forall i o bs its b, copyable i ->
  (forall t, In t (in_item_types i) -> it_length t <> 0) ->
  (forall x, In x its -> (x < length (in_item_types i))%nat) ->
  (forall t, In t bs -> (t < length (in_bin_types i))%nat) ->
  (o = OBinPacking -> forall t, In t bs -> bt_copies_min (bin_type i t) = 0) ->
  copied i (Some o) bs its b ->
  exists i', b_build b = Built i' /\ in_objective i' = o /\ is_sub_instance i bs its i'.
Proof.
  intros i o bs its b Hc Hlen Hits Hbs Hbp C.
  assert (Hbuilt : exists i', b_build b = Built i').
  { unfold b_build. rewrite (cd_objective _ _ _ _ _ C). cbv zeta.
    destruct (find _ _) as [t|] eqn:Ef.
    { exfalso. apply find_some in Ef. destruct Ef as [Hin Hbad]. apply in_map_iff in Hin. destruct Hin as (u & <- & Hu).
      apply In_nth with (d := dummy_item) in Hu. destruct Hu as (x & Hx & <-).
      destruct (cd_items _ _ _ _ _ C) as [L D]. rewrite L in Hx. destruct (D x Hx) as [S1 S2].
      destruct S1 as (A1 & A2 & A3 & _). simpl in Hbad. rewrite S2 in Hbad. simpl in Hbad.
      assert (Hin : In (item_type i (nth x its 0%nat)) (in_item_types i)).
      { apply nth_In. apply Hits. apply nth_In. assumption. }
      apply orb_prop in Hbad. rewrite Z.ltb_lt, Z.eqb_eq in Hbad.
      pose proof (cp_items i Hc _ Hin) as P1. pose proof (Hlen _ Hin) as P2.
      destruct o; destruct Hbad; lia. }
    destruct (existsb _ (b_bins b)) eqn:Ec.
    { exfalso. apply existsb_exists in Ec. destruct Ec as (t & Ht & Hbad). destruct o; try discriminate.
      apply Z.ltb_lt in Hbad. apply In_nth with (d := dummy_bin) in Ht. destruct Ht as (k & Hk & <-).
      rewrite (copied_length _ _ _ _ _ C) in Hk.
      pose proof (bare_same _ _ (copied_bare _ _ _ _ _ k C Hk)) as (_ & _ & _ & E & _).
      rewrite (Hbp eq_refl (nth k bs 0%nat)) in E by (apply nth_In; assumption). lia. }
    match goal with |- context [if ?c then _ else _] => destruct c eqn:Er end.
    { exfalso. apply existsb_exists in Er. destruct Er as (t & Ht & Er).
      apply existsb_exists in Er. destruct Er as (r & Hr & Er).
      apply existsb_exists in Er. destruct Er as (x & Hx & Er).
      apply in_seq in Hx. rewrite map_length in Hx.
      apply In_nth with (d := dummy_bin) in Ht. destruct Ht as (k & Hk & <-). rewrite (copied_length _ _ _ _ _ C) in Hk.
      apply In_nth with (d := dummy_resource) in Hr. destruct Hr as (n & Hn & <-).
      pose proof (cd_sched _ _ _ _ _ C k n x Hk) as S1.
      replace (x <? length its)%nat with false in S1.
      2: { symmetry. apply Nat.ltb_ge. destruct (cd_items _ _ _ _ _ C) as [L _]. lia. }
      unfold sched, schedule in S1. rewrite S1 in Er. discriminate. }
    destruct (expand_bins _) as [[ids prev] p]. eauto. }
  destruct Hbuilt as [i' Hb]. exists i'. split; [assumption|].
  pose proof (build_holds b i' Hb) as [H1 [H2 H3] [H4 H5]].
  assert (Ho : in_objective i' = o). { rewrite (cd_objective _ _ _ _ _ C) in H1. congruence. }
  split; [assumption|].
  destruct (cd_items _ _ _ _ _ C) as [L D].
  assert (Hbin : forall k, (k < length bs)%nat -> let bt := bin_type i' k in let e := nth k (b_bins b) dummy_bin in
    same_bin_type (bin_type i (nth k bs 0%nat)) bt /\ bt_resources bt = bt_resources e).
  { intros k Hk. cbv zeta. specialize (H5 k). rewrite (copied_length _ _ _ _ _ C) in H5. specialize (H5 Hk). cbv zeta in H5.
    destruct H5 as (E1 & E2 & E3 & E4 & E5 & E6 & E7).
    pose proof (bare_same _ _ (copied_bare _ _ _ _ _ k C Hk)) as (G1 & G2 & G3 & G4 & G5 & G6 & G7 & G8).
    split; [|assumption].
    destruct (cp_bins i Hc (bin_type i (nth k bs 0%nat))) as (_ & _ & _ & P).
    { apply nth_In. apply Hbs. apply nth_In. assumption. }
    replace (bt_copies (nth k (b_bins b) dummy_bin) =? -1) with false in E7 by (symmetry; apply Z.eqb_neq; lia).
    unfold same_bin_type. rewrite E6, E1, E2, E3, E4, E5, E7. auto 10. }
  constructor.
  - split; [rewrite H4; apply (copied_length _ _ _ _ _ C)|]. intros k Hk. apply Hbin. assumption.
  - split; [lia|]. intros x Hx. specialize (H3 x). rewrite L in H3. specialize (H3 Hx). cbv zeta in H3.
    destruct H3 as (E1 & E2 & E3 & E4 & E5 & E6 & E7 & E8 & E9). destruct (D x Hx) as [(G1 & G2 & G3 & G4 & G5 & G6 & G7 & G8) G9].
    split.
    + unfold same_item_type. rewrite E1, E2, E3, E4, E5, E6, E7, E8. auto 10.
    + rewrite E9, G9. simpl. rewrite G3. reflexivity.
  - intros k r x Hk Hx Hr. destruct (Hbin k Hk) as [_ E]. rewrite E.
    change (sched b k r x = schedule (nth r (bt_resources (bin_type i (nth k bs 0%nat))) dummy_resource) (nth x its 0%nat)).
    rewrite (cd_sched _ _ _ _ _ C) by assumption. apply Nat.ltb_lt in Hx. rewrite Hx. reflexivity.
Qed.
