(** * Proofs about flipping *)

From Coq Require Import List ZArith QArith Bool Lia Lqa Arith.
From Verif Require Import Util Common_Model OneDim_Model OneDim_Spec OneDimBuilder_Model OneDimBuilder_Spec OneDimBuilder_Proof
  OneDimSub_Proof Rect_Model Rect_Spec RectSol_Model RectSol_Spec RectBuilder_Model RectBuilder_Spec RectBuilder_Proof
  RectFlip_Model RectFlip_Spec.
Import ListNotations.
Open Scope Z_scope.

Lemma ucalls_app : forall b l1 l2, ucalls_from b (l1 ++ l2) = uthen (ucalls_from b l1) (fun b' => ucalls_from b' l2).
Proof.
  intros b l1 l2. unfold ucalls_from. rewrite fold_left_app.
  assert (Hstuck : forall r, (forall b', r <> UOk b') -> fold_left (fun r c => uthen r (fun b => ustep b c)) l2 r = r).
  { intros r Hr. induction l2 as [|c l2 IH]; [reflexivity|]. simpl.
    destruct r as [b'|b'|]; [exfalso; apply (Hr b'); reflexivity|exact IH|exact IH]. }
  destruct (fold_left _ l1 (UOk b)) as [b'|b'|]; simpl; [reflexivity|apply Hstuck; discriminate|apply Hstuck; discriminate].
Qed.

Lemma ucalls_cons : forall b c l, ucalls_from b (c :: l) = uthen (ustep b c) (fun b' => ucalls_from b' l).
Proof. intros b c l. apply (ucalls_app b [c] l). Qed.

Lemma uon_last_bin : forall o p its l t g f,
  uon_bin (mkU o p its (l ++ [t]) g) (Z.of_nat (length l)) f = UOk (mkU o p its (l ++ [f t]) g).
Proof. intros. unfold uon_bin, uset_bins. cbn [u_bins u_objective u_params u_items u_orig]. rewrite last_ok, Nat2Z.id, upd_last. reflexivity. Qed.

Lemma uon_last_item : forall o p l t bs g f,
  uon_item (mkU o p (l ++ [t]) bs g) (Z.of_nat (length l)) f = UOk (mkU o p (l ++ [f t]) bs g).
Proof. intros. unfold uon_item, uset_items. cbn [u_bins u_objective u_params u_items u_orig]. rewrite last_ok, Nat2Z.id, upd_last. reflexivity. Qed.

(** ** The bin types *)

Definition flip_bare (t : RBin) : RBin :=
  mkRB (rb_y t) (rb_x t) (rb_cost t) (rb_copies t) (rb_copies_min t) (rb_max_weight t) (rb_truck t) []
    (map swap_defect (rb_defects t)) (map bare_resource (rb_resources t)).

Lemma flip_bin_ok : forall o p its l g t,
  0 < rb_x t -> 0 < rb_y t -> (0 < rb_cost t)%Q -> 0 <= rb_copies_min t <= rb_copies t -> 1 <= rb_copies t ->
  ucalls_from (mkU o p its l g) (flip_bin_calls (Z.of_nat (length l)) t) = UOk (mkU o p its (l ++ [flip_bare t]) g).
Proof.
  intros o p its l g t Hx Hy Hc Hm Hn. unfold flip_bin_calls. rewrite ucalls_app. cbn [app].
  rewrite ucalls_cons. cbn [ustep]. unfold u_add_bin.
  replace (rb_y t <=? 0) with false by (symmetry; apply Z.leb_gt; assumption).
  replace (rb_x t <=? 0) with false by (symmetry; apply Z.leb_gt; assumption).
  unfold uset_bins. cbn [uthen u_bins u_objective u_params u_items u_orig].
  rewrite ucalls_cons. cbn [ustep]. unfold u_set_bin_cost. cbn [u_bins]. rewrite last_ok.
  destruct (Qle_bool (rb_cost t) 0) eqn:E1; [apply Qle_bool_iff in E1; lra|]. cbn [andb].
  rewrite uon_last_bin. cbn [uthen].
  destruct (Qeq_bool (rb_cost t) (-1)) eqn:E2; [apply Qeq_bool_iff in E2; lra|].
  rewrite ucalls_cons. cbn [ustep]. unfold u_set_bin_copies. cbn [u_bins]. rewrite last_ok, last_nth. cbn [rb_copies_min rb_with_cost].
  replace (negb (rb_copies t =? -1) && ((rb_copies t <=? 0) || (rb_copies t <? 0))) with false.
  2: { symmetry. apply andb_false_iff. right. apply orb_false_iff. rewrite Z.leb_gt, Z.ltb_ge. lia. }
  rewrite uon_last_bin. cbn [uthen].
  rewrite ucalls_cons. cbn [ustep]. unfold u_set_bin_copies_min. cbn [u_bins]. rewrite last_ok, last_nth. cbn [rb_copies rb_with_copies].
  replace (rb_copies_min t <? 0) with false by (symmetry; apply Z.ltb_ge; lia).
  replace (negb (rb_copies t =? -1) && (rb_copies t <? rb_copies_min t)) with false.
  2: { symmetry. apply andb_false_iff. right. apply Z.ltb_ge. lia. }
  rewrite uon_last_bin. cbn [uthen].
  rewrite ucalls_cons. cbn [ustep]. unfold u_set_bin_weight. rewrite uon_last_bin. cbn [uthen].
  rewrite ucalls_cons. cbn [ustep]. unfold u_set_bin_truck. rewrite uon_last_bin. cbn [uthen].
  unfold rb_with_cost, rb_with_copies, rb_with_min, rb_with_weight, rb_with_truck.
  cbn [rb_x rb_y rb_cost rb_copies rb_copies_min rb_max_weight rb_truck rb_eligibility_ids rb_defects rb_resources].
  unfold ucalls_from at 1. cbn [fold_left uthen]. rewrite ucalls_app.
  assert (Hd : forall dl acc,
    ucalls_from (mkU o p its (l ++ [mkRB (rb_y t) (rb_x t) (rb_cost t) (rb_copies t) (rb_copies_min t) (rb_max_weight t) (rb_truck t) [] acc []]) g)
      (map (fun d => UAddDefect (Z.of_nat (length l)) (df_y d) (df_x d) (df_ly d) (df_lx d)) dl) =
    UOk (mkU o p its (l ++ [mkRB (rb_y t) (rb_x t) (rb_cost t) (rb_copies t) (rb_copies_min t) (rb_max_weight t) (rb_truck t) []
       (acc ++ map swap_defect dl) []]) g)).
  { induction dl as [|d dl IH]; intro acc; cbn [map]; [rewrite app_nil_r; reflexivity|].
    rewrite ucalls_cons. cbn [ustep]. unfold u_add_defect. rewrite uon_last_bin. cbn [uthen]. unfold rb_with_defects.
    cbn [rb_x rb_y rb_cost rb_copies rb_copies_min rb_max_weight rb_truck rb_eligibility_ids rb_defects rb_resources].
    rewrite IH, <- app_assoc. reflexivity. }
  rewrite Hd. cbn [uthen app].
  assert (Hr : forall rl acc,
    ucalls_from (mkU o p its (l ++ [mkRB (rb_y t) (rb_x t) (rb_cost t) (rb_copies t) (rb_copies_min t) (rb_max_weight t) (rb_truck t) []
        (map swap_defect (rb_defects t)) acc]) g)
      (map (fun r => UAddResource (Z.of_nat (length l)) (res_capacity r) (res_penalize r) (res_penalty r)) rl) =
    UOk (mkU o p its (l ++ [mkRB (rb_y t) (rb_x t) (rb_cost t) (rb_copies t) (rb_copies_min t) (rb_max_weight t) (rb_truck t) []
       (map swap_defect (rb_defects t)) (acc ++ map bare_resource rl)]) g)).
  { induction rl as [|r rl IH]; intro acc; cbn [map]; [rewrite app_nil_r; reflexivity|].
    rewrite ucalls_cons. cbn [ustep]. unfold u_add_resource. rewrite uon_last_bin. cbn [uthen]. unfold rb_with_resources.
    cbn [rb_x rb_y rb_cost rb_copies rb_copies_min rb_max_weight rb_truck rb_eligibility_ids rb_defects rb_resources].
    rewrite IH, <- app_assoc. reflexivity. }
  rewrite Hr. reflexivity.
Qed.

Lemma flip_bins_ok : forall i o p its g n, flippable i -> (n <= length (rin_bins i))%nat ->
  ucalls_from (mkU o p its [] g) (flat_map (fun k => flip_bin_calls (Z.of_nat k) (rbin i k)) (seq 0 n)) =
  UOk (mkU o p its (map (fun k => flip_bare (rbin i k)) (seq 0 n)) g).
Proof.
  intros i o p its g n Hf. induction n as [|n IH]; intro Hn; [reflexivity|].
  rewrite seq_S, flat_map_app, map_app, ucalls_app, IH by lia. cbn [uthen flat_map map plus]. rewrite app_nil_r.
  destruct (fl_bins i Hf (rbin i n)) as (A1 & A2 & A3 & A4 & A5); [apply nth_In; lia|].
  pose proof (flip_bin_ok o p its (map (fun k => flip_bare (rbin i k)) (seq 0 n)) g (rbin i n) A1 A2 A3 A4 A5) as E.
  rewrite map_length, seq_length in E. exact E.
Qed.

(** ** The item types *)

Definition flip_item (t : RItem) : RItem :=
  mkRI (ri_y t) (ri_x t) (ri_profit t) (ri_copies t) (-1) (ri_group t) (ri_oriented t) (ri_weight t) (-1) [].

Lemma flip_item_ok : forall o p l bs g t, 0 < ri_x t -> 0 < ri_y t -> 1 <= ri_copies t ->
  ucalls_from (mkU o p l bs g) (flip_item_calls (Z.of_nat (length l)) t) = UOk (mkU o p (l ++ [flip_item t]) bs g).
Proof.
  intros o p l bs g t Hx Hy Hn. unfold flip_item_calls.
  rewrite ucalls_cons. cbn [ustep]. unfold u_add_item.
  replace (ri_y t <? 0) with false by (symmetry; apply Z.ltb_ge; lia).
  replace (ri_x t <? 0) with false by (symmetry; apply Z.ltb_ge; lia).
  unfold uset_items. cbn [uthen u_bins u_objective u_params u_items u_orig].
  rewrite ucalls_cons. cbn [ustep]. unfold u_set_item_profit. rewrite uon_last_item. cbn [uthen].
  rewrite ucalls_cons. cbn [ustep]. unfold u_set_item_copies. cbn [u_items]. rewrite last_ok.
  replace (negb (ri_copies t =? -1) && (ri_copies t <=? 0)) with false
    by (symmetry; apply andb_false_iff; right; apply Z.leb_gt; lia).
  rewrite uon_last_item. cbn [uthen].
  rewrite ucalls_cons. cbn [ustep]. unfold u_set_item_group. cbn [u_items]. rewrite last_ok.
  replace (Z.of_nat (ri_group t) <? 0) with false by (symmetry; apply Z.ltb_ge; lia).
  rewrite uon_last_item, Nat2Z.id. cbn [uthen].
  rewrite ucalls_cons. cbn [ustep]. unfold u_set_item_weight. rewrite uon_last_item. cbn [uthen].
  reflexivity.
Qed.

Lemma flip_items_ok : forall i o p bs g n, flippable i -> (n <= length (rin_items i))%nat ->
  ucalls_from (mkU o p [] bs g) (flat_map (fun x => flip_item_calls (Z.of_nat x) (ritem i x)) (seq 0 n)) =
  UOk (mkU o p (map (fun x => flip_item (ritem i x)) (seq 0 n)) bs g).
Proof.
  intros i o p bs g n Hf. induction n as [|n IH]; intro Hn; [reflexivity|].
  rewrite seq_S, flat_map_app, map_app, ucalls_app, IH by lia. cbn [uthen flat_map map plus]. rewrite app_nil_r.
  destruct (fl_items i Hf (ritem i n)) as (A1 & A2 & A3); [apply nth_In; lia|].
  pose proof (flip_item_ok o p (map (fun x => flip_item (ritem i x)) (seq 0 n)) bs g (ritem i n) A1 A2 A3) as E.
  rewrite map_length, seq_length in E. exact E.
Qed.

(** ** The consumptions *)

Definition rbare (t : RBin) : RBin := rb_with_resources (map bare_resource (rb_resources t)) t.
Definition rsched (b : RBuilder) (k r x : nat) : list Q :=
  schedule (nth r (rb_resources (nth k (u_bins b) dummy_rbin)) dummy_resource) x.

(** Same data except the consumption tables. *)
Record uframe (b b' : RBuilder) : Prop := {
  uf_objective : u_objective b' = u_objective b;
  uf_params : u_params b' = u_params b;
  uf_items : u_items b' = u_items b;
  uf_orig : u_orig b' = u_orig b;
  uf_bins : map rbare (u_bins b') = map rbare (u_bins b)
}.
Lemma uframe_refl : forall b, uframe b b.
Proof. intro b. constructor; reflexivity. Qed.
Lemma uframe_trans : forall a b c, uframe a b -> uframe b c -> uframe a c.
Proof. intros a b c [A1 A2 A3 A4 A5] [B1 B2 B3 B4 B5]. constructor; congruence. Qed.
Lemma uframe_length : forall b b', uframe b b' -> length (u_bins b') = length (u_bins b).
Proof. intros b b' [_ _ _ _ E]. apply (f_equal (@length _)) in E. rewrite !map_length in E. assumption. Qed.
Lemma uframe_bare : forall b b' k, uframe b b' -> rbare (nth k (u_bins b') dummy_rbin) = rbare (nth k (u_bins b) dummy_rbin).
Proof. intros b b' k [_ _ _ _ E]. rewrite <- !(map_nth rbare). rewrite E. reflexivity. Qed.
Lemma rbare_resources_length : forall t t', rbare t = rbare t' -> length (rb_resources t) = length (rb_resources t').
Proof.
  intros t t' H. apply (f_equal rb_resources) in H. simpl in H. apply (f_equal (@length _)) in H. rewrite !map_length in H. assumption.
Qed.

Lemma uadd_consumption_ok : forall b k r x c q,
  (k < length (u_bins b))%nat -> (r < length (rb_resources (nth k (u_bins b) dummy_rbin)))%nat ->
  exists b', u_add_consumption b (Z.of_nat k) (Z.of_nat r) (Z.of_nat x) (Z.of_nat c) q = UOk b' /\
    uframe b b' /\
    forall k' r' x', rsched b' k' r' x' =
      if Nat.eqb k k' && Nat.eqb r r' && Nat.eqb x x'
      then upd c (fun _ => q) (grow (S c) 0%Q (rsched b k r x)) else rsched b k' r' x'.
Proof.
  intros b k r x c q Hk Hr. unfold u_add_consumption.
  replace (bad_id (Z.of_nat k) (u_bins b)) with false by (symmetry; apply bad_id_false; unfold in_range; lia).
  rewrite !Nat2Z.id.
  replace (bad_id (Z.of_nat r) (rb_resources (nth k (u_bins b) dummy_rbin))) with false
    by (symmetry; apply bad_id_false; unfold in_range; lia).
  replace (Z.of_nat c <? 0) with false by (symmetry; apply Z.ltb_ge; lia).
  replace (Z.of_nat x <? 0) with false by (symmetry; apply Z.ltb_ge; lia).
  unfold uon_bin.
  replace (bad_id (Z.of_nat k) (u_bins b)) with false by (symmetry; apply bad_id_false; unfold in_range; lia).
  rewrite Nat2Z.id. eexists. split; [reflexivity|]. split.
  - constructor; simpl; try reflexivity. apply map_upd_same. intro t. unfold rbare, rb_with_resources. simpl.
    f_equal. apply map_upd_same. intro res. reflexivity.
  - intros k' r' x'. unfold rsched. simpl. rewrite nth_upd by assumption.
    destruct (Nat.eqb k k') eqn:Ek; simpl; [apply Nat.eqb_eq in Ek; subst k'|reflexivity].
    rewrite nth_upd by assumption. destruct (Nat.eqb r r') eqn:Er; simpl; [apply Nat.eqb_eq in Er; subst r'|reflexivity].
    rewrite put_schedule. destruct (Nat.eqb x x'); reflexivity.
Qed.

(** Calls that give the cells [S] their target value [T] and change nothing
    else, from any builder with the data of [b0] and nothing in [S]. *)
Section Blocks.

Variable b0 : RBuilder.
Variable T : nat -> nat -> nat -> list Q.

Definition block (calls : list UCall) (P : nat -> nat -> nat -> bool) : Prop :=
  forall b, uframe b0 b -> (forall k r x, P k r x = true -> rsched b k r x = []) ->
  exists b', ucalls_from b calls = UOk b' /\ uframe b0 b' /\
    forall k r x, rsched b' k r x = if P k r x then T k r x else rsched b k r x.

Lemma block_ext : forall calls P Q, (forall k r x, P k r x = Q k r x) -> block calls P -> block calls Q.
Proof.
  intros calls P Q E H b Hb Hs. destruct (H b Hb) as (b' & E1 & E2 & E3).
  - intros k r x Hp. apply Hs. rewrite <- E. assumption.
  - exists b'. split; [assumption|]. split; [assumption|]. intros k r x. rewrite E3, E. reflexivity.
Qed.

Lemma block_seq : forall (f : nat -> list UCall) (pr : nat -> nat -> nat -> nat) (base : nat -> nat -> nat -> nat -> bool) n,
  (forall m, (m < n)%nat -> block (f m) (fun k r x => Nat.eqb (pr k r x) m && base m k r x)) ->
  block (flat_map f (seq 0 n)) (fun k r x => Nat.ltb (pr k r x) n && base (pr k r x) k r x).
Proof.
  intros f pr base n. induction n as [|n IH]; intro H.
  - intros b Hb Hs. exists b. split; [reflexivity|]. split; [assumption|]. intros. reflexivity.
  - intros b Hb Hs. rewrite seq_S, flat_map_app, ucalls_app. cbn [flat_map plus]. rewrite app_nil_r.
    destruct (IH ltac:(intros m Hm; apply H; lia) b Hb) as (b1 & E1 & F1 & S1).
    { intros k r x Hp. apply Hs. apply andb_prop in Hp. destruct Hp as [Hp1 Hp2]. rewrite Hp2, andb_true_r.
      apply Nat.ltb_lt. apply Nat.ltb_lt in Hp1. lia. }
    rewrite E1. cbn [uthen].
    destruct (H n ltac:(lia) b1 F1) as (b2 & E2 & F2 & S2).
    { intros k r x Hp. apply andb_prop in Hp. destruct Hp as [Hp1 Hp2]. apply Nat.eqb_eq in Hp1.
      rewrite S1, Hp1, Nat.ltb_irrefl. apply Hs. rewrite Hp1, Hp2, andb_true_r. apply Nat.ltb_lt. lia. }
    exists b2. split; [assumption|]. split; [assumption|]. intros k r x. rewrite S2, S1.
    destruct (Nat.eqb (pr k r x) n) eqn:E.
    + apply Nat.eqb_eq in E. rewrite E. rewrite Nat.ltb_irrefl. replace (n <? S n)%nat with true by (symmetry; apply Nat.ltb_lt; lia).
      reflexivity.
    + apply Nat.eqb_neq in E. cbn [andb]. destruct (pr k r x <? n)%nat eqn:L.
      * apply Nat.ltb_lt in L. replace (pr k r x <? S n)%nat with true by (symmetry; apply Nat.ltb_lt; lia). reflexivity.
      * apply Nat.ltb_ge in L. replace (pr k r x <? S n)%nat with false by (symmetry; apply Nat.ltb_ge; lia). reflexivity.
Qed.

Lemma block_schedule : forall k r x,
  (k < length (u_bins b0))%nat -> (r < length (rb_resources (nth k (u_bins b0) dummy_rbin)))%nat ->
  block (flip_schedule_calls k r x (T k r x)) (fun k' r' x' => Nat.eqb x' x && (Nat.eqb k' k && Nat.eqb r' r)).
Proof.
  intros k r x Hk Hr b Hb Hs. unfold flip_schedule_calls.
  assert (H : forall n, (n <= length (T k r x))%nat ->
    exists b', ucalls_from b (map (fun c => UAddConsumption (Z.of_nat k) (Z.of_nat r) (Z.of_nat x) (Z.of_nat c) (nth c (T k r x) 0%Q)) (seq 0 n)) = UOk b'
      /\ uframe b0 b' /\ forall k' r' x', rsched b' k' r' x' =
        if Nat.eqb x' x && (Nat.eqb k' k && Nat.eqb r' r) then firstn n (T k r x) else rsched b k' r' x').
  { induction n as [|n IH]; intro Hn.
    - exists b. split; [reflexivity|]. split; [assumption|]. intros k' r' x'.
      destruct (Nat.eqb x' x && (Nat.eqb k' k && Nat.eqb r' r)) eqn:E; [|reflexivity]. apply Hs. assumption.
    - destruct IH as (b1 & E1 & F1 & S1); [lia|]. rewrite seq_S, map_app, ucalls_app, E1. cbn [uthen map plus].
      destruct (uadd_consumption_ok b1 k r x n (nth n (T k r x) 0%Q)) as (b2 & E2 & F2 & S2).
      + rewrite (uframe_length _ _ F1). assumption.
      + rewrite (rbare_resources_length _ _ (uframe_bare _ _ k F1)). assumption.
      + exists b2. split; [rewrite ucalls_cons; cbn [ustep]; rewrite E2; reflexivity|].
        split; [apply (uframe_trans _ _ _ F1 F2)|]. intros k' r' x'. rewrite S2, !S1, !Nat.eqb_refl. cbn [andb].
        rewrite (Nat.eqb_sym k k'), (Nat.eqb_sym r r'), (Nat.eqb_sym x x').
        replace (Nat.eqb k' k && Nat.eqb r' r && Nat.eqb x' x) with (Nat.eqb x' x && (Nat.eqb k' k && Nat.eqb r' r))
          by (destruct (Nat.eqb x' x), (Nat.eqb k' k), (Nat.eqb r' r); reflexivity).
        destruct (Nat.eqb x' x && (Nat.eqb k' k && Nat.eqb r' r)); [|reflexivity].
        rewrite grow_put by (rewrite firstn_length; lia).
        clear -Hn. revert n Hn. generalize (T k r x) as s. induction s as [|a s IHs]; intros n Hn; simpl in Hn; [lia|].
        destruct n as [|n]; [reflexivity|]. simpl. f_equal. apply IHs. lia. }
  destruct (H (length (T k r x)) (Nat.le_refl _)) as (b' & E & F & S'). exists b'. split; [assumption|]. split; [assumption|].
  intros k' r' x'. rewrite S', firstn_all.
  destruct (Nat.eqb x' x && (Nat.eqb k' k && Nat.eqb r' r)) eqn:E'; [|reflexivity].
  apply andb_prop in E'. destruct E' as [G1 G2]. apply andb_prop in G2. destruct G2 as [G2 G3].
  apply Nat.eqb_eq in G1, G2, G3. subst. reflexivity.
Qed.

End Blocks.

Lemma nth_bare : forall l r, nth r (map bare_resource l) dummy_resource = bare_resource (nth r l dummy_resource).
Proof. intros. change dummy_resource with (bare_resource dummy_resource) at 1. apply map_nth. Qed.

(** The builder before the consumptions. *)
Definition flip_before (i : RInstance) : RBuilder :=
  mkU (flip_objective (rin_objective i)) (flip_params (rin_params i))
    (map (fun x => flip_item (ritem i x)) (seq 0 (length (rin_items i))))
    (map (fun k => flip_bare (rbin i k)) (seq 0 (length (rin_bins i)))) [].

Lemma flip_before_bin : forall i k, (k < length (rin_bins i))%nat -> nth k (u_bins (flip_before i)) dummy_rbin = flip_bare (rbin i k).
Proof.
  intros i k Hk. simpl. rewrite nth_indep with (d' := flip_bare (rbin i 0%nat)) by (rewrite map_length, seq_length; assumption).
  rewrite (map_nth (fun k => flip_bare (rbin i k))), seq_nth by assumption. reflexivity.
Qed.

Lemma flip_before_sched : forall i k r x, rsched (flip_before i) k r x = [].
Proof.
  intros i k r x. unfold rsched. destruct (lt_dec k (length (rin_bins i))) as [L|L].
  - rewrite flip_before_bin by assumption. simpl. rewrite nth_bare. unfold schedule. simpl. destruct x; reflexivity.
  - rewrite (nth_overflow (u_bins (flip_before i))); [|simpl; rewrite map_length, seq_length; lia]. simpl. destruct r; unfold schedule; simpl; destruct x; reflexivity.
Qed.

Definition flip_target (i : RInstance) (k r x : nat) : list Q :=
  schedule (nth r (rb_resources (rbin i k)) dummy_resource) x.

Lemma flip_calls_ok : forall i, flippable i ->
  exists b, ucalls_from u_new (flip_calls i) = UOk b /\ uframe (flip_before i) b /\
    forall k r x, rsched b k r x = flip_target i k r x.
Proof.
  intros i Hf. unfold flip_calls. cbn [app]. rewrite ucalls_cons. cbn [ustep uthen]. rewrite ucalls_cons. cbn [ustep uthen]. unfold uset_params, u_new.
  cbn [u_objective u_params u_items u_bins u_orig].
  rewrite ucalls_app, flip_bins_ok by auto. cbn [uthen].
  rewrite ucalls_app, flip_items_ok by auto. cbn [uthen]. fold (flip_before i).
  assert (B : block (flip_before i) (flip_target i)
     (flat_map (fun k => flip_consumption_calls k (rbin i k)) (seq 0 (length (rin_bins i))))
     (fun k r x => Nat.ltb k (length (rin_bins i)) && (Nat.ltb r (length (rb_resources (rbin i k))) &&
        (Nat.ltb x (length (res_item_consumptions (nth r (rb_resources (rbin i k)) dummy_resource))))))).
  { pose proof (block_seq (flip_before i) (flip_target i) (fun k => flip_consumption_calls k (rbin i k)) (fun k r x => k)
      (fun m k r x => Nat.ltb r (length (rb_resources (rbin i m))) &&
        Nat.ltb x (length (res_item_consumptions (nth r (rb_resources (rbin i m)) dummy_resource)))) (length (rin_bins i))) as H.
    cbv beta in H. apply H. clear H. intros m Hm.
    assert (Hmb : (m < length (u_bins (flip_before i)))%nat) by (simpl; rewrite map_length, seq_length; assumption).
    unfold flip_consumption_calls.
    apply block_ext with (P := fun k r x => Nat.ltb r (length (rb_resources (rbin i m))) && (Nat.eqb k m &&
        Nat.ltb x (length (res_item_consumptions (nth r (rb_resources (rbin i m)) dummy_resource))))).
    { intros. destruct (Nat.eqb k m), (r <? length (rb_resources (rbin i m)))%nat; reflexivity. }
    pose proof (block_seq (flip_before i) (flip_target i)
      (fun r => flip_resource_calls m r (nth r (rb_resources (rbin i m)) dummy_resource)) (fun k r x => r)
      (fun n k r x => Nat.eqb k m && Nat.ltb x (length (res_item_consumptions (nth n (rb_resources (rbin i m)) dummy_resource))))
      (length (rb_resources (rbin i m)))) as H. cbv beta in H. apply H. clear H. intros n Hn.
    unfold flip_resource_calls.
    apply block_ext with (P := fun k r x => Nat.ltb x (length (res_item_consumptions (nth n (rb_resources (rbin i m)) dummy_resource))) &&
        (Nat.eqb k m && Nat.eqb r n)).
    { intros. destruct (Nat.eqb k m), (Nat.eqb r n), (x <? _)%nat; reflexivity. }
    pose proof (block_seq (flip_before i) (flip_target i)
      (fun x => flip_schedule_calls m n x (nth x (res_item_consumptions (nth n (rb_resources (rbin i m)) dummy_resource)) []))
      (fun k r x => x) (fun y k r x => Nat.eqb k m && Nat.eqb r n)
      (length (res_item_consumptions (nth n (rb_resources (rbin i m)) dummy_resource)))) as H. cbv beta in H. apply H. clear H. intros y Hy.
    apply (block_schedule (flip_before i) (flip_target i) m n y).
    - assumption.
    - rewrite flip_before_bin by assumption. simpl. rewrite map_length. assumption. }
  destruct (B (flip_before i) (uframe_refl _)) as (b & E & F & S').
  { intros. apply flip_before_sched. }
  exists b. split; [exact E|]. split; [assumption|]. intros k r x. rewrite S', flip_before_sched.
  destruct (k <? length (rin_bins i))%nat eqn:Ek; cbn [andb].
  - destruct (r <? length (rb_resources (rbin i k)))%nat eqn:Er; cbn [andb].
    + destruct (x <? _)%nat eqn:Ex; [reflexivity|]. apply Nat.ltb_ge in Ex. unfold flip_target, schedule.
      symmetry. apply nth_overflow. assumption.
    + apply Nat.ltb_ge in Er. unfold flip_target. rewrite nth_overflow by assumption. unfold schedule. simpl. destruct x; reflexivity.
  - apply Nat.ltb_ge in Ek. unfold flip_target, rbin. rewrite (nth_overflow (rin_bins i)) by assumption. simpl.
    destruct r; unfold schedule; simpl; destruct x; reflexivity.
Qed.

(** ** build *)

Lemma ids_length : forall bins, (forall t, In t bins -> 0 <= rb_copies t) ->
  Z.of_nat (length (fst (fst (rexpand_bins bins)))) = zsum rb_copies bins.
Proof.
  intros bins H. pose proof (rexpand_spec bins) as X. destruct (rexpand_bins bins) as [[ids prev] p]. cbn [fst].
  destruct X as [-> _].
  assert (G : forall n, (n <= length bins)%nat ->
    Z.of_nat (length (flat_map (fun t => repeat t (Z.to_nat (rb_copies (nth t bins dummy_rbin)))) (seq 0 n))) =
    zsum rb_copies (firstn n bins)).
  { induction n as [|n IH]; intro Hn; [reflexivity|].
    assert (Hf : firstn (S n) bins = firstn n bins ++ [nth n bins dummy_rbin]).
    { clear -Hn. revert n Hn. induction bins as [|a bins IHr]; intros n Hn; simpl in Hn; [lia|].
      destruct n as [|n]; [reflexivity|]. simpl. f_equal. apply IHr. lia. }
    rewrite Hf, zsum_snoc, seq_S, flat_map_app, app_length, Nat2Z.inj_add, IH by lia. cbn [flat_map plus].
    rewrite app_nil_r, repeat_length. specialize (H (nth n bins dummy_rbin) (nth_In _ _ Hn)). lia. }
  rewrite G, firstn_all by lia. reflexivity.
Qed.

Lemma list_nth_map : forall (A B : Type) (f : A -> B) (l : list A) d, map (fun k => f (nth k l d)) (seq 0 (length l)) = map f l.
Proof.
  intros A B f l d. induction l as [|a l IH] using rev_ind; [reflexivity|].
  rewrite app_length. cbn [length]. rewrite Nat.add_1_r, seq_S, !map_app. cbn [map plus].
  rewrite app_nth2, Nat.sub_diag by lia. cbn [nth]. f_equal.
  rewrite <- IH. apply map_ext_in. intros k Hk. apply in_seq in Hk. rewrite app_nth1 by lia. reflexivity.
Qed.

Theorem rflip_ok : forall i, flippable i ->
  exists j d, rflip i = UBuilt j d /\ rin_objective j = flip_objective (rin_objective i) /\
    rp_leftover (rin_params j) = rp_leftover (rin_params i) /\ swapped i j /\ rconsistent j d /\
    (forall x, (x < length (rin_items i))%nat -> ri_eligibility (ritem j x) = -1 /\
       ri_copies_min (ritem j x) = match rin_objective i with OKnapsack => 0 | _ => ri_copies (ritem i x) end).
Proof.
  intros i Hf. destruct (flip_calls_ok i Hf) as (b & E & F & S1).
  unfold rflip. rewrite E.
  pose proof F as [F1 F2 F3 F4 F5]. simpl in F1, F2, F3, F5.
  assert (Lb : length (u_bins b) = length (rin_bins i)).
  { rewrite (uframe_length _ _ F). simpl. rewrite map_length, seq_length. reflexivity. }
  assert (Li : length (u_items b) = length (rin_items i)) by (rewrite F3, map_length, seq_length; reflexivity).
  assert (Bin : forall k, (k < length (rin_bins i))%nat -> rbare (nth k (u_bins b) dummy_rbin) = flip_bare (rbin i k)).
  { intros k Hk. rewrite (uframe_bare _ _ k F), flip_before_bin by assumption. unfold rbare, flip_bare, rb_with_resources. simpl.
    f_equal. rewrite map_map. apply map_ext. reflexivity. }
  assert (Item : forall x, (x < length (rin_items i))%nat -> nth x (u_items b) dummy_ritem = flip_item (ritem i x)).
  { intros x Hx. rewrite F3. rewrite nth_indep with (d' := flip_item (ritem i 0%nat)) by (rewrite map_length, seq_length; assumption).
    rewrite (map_nth (fun x => flip_item (ritem i x))), seq_nth by assumption. reflexivity. }
  assert (Hcop : forall k, (k < length (rin_bins i))%nat -> rb_copies (nth k (u_bins b) dummy_rbin) = rb_copies (rbin i k)).
  { intros k Hk. specialize (Bin k Hk). apply (f_equal rb_copies) in Bin. exact Bin. }
  assert (Hb : exists j d, u_build b = UBuilt j d).
  { unfold u_build. cbv zeta.
    destruct (find _ _) as [t|] eqn:Ef.
    { exfalso. apply find_some in Ef. destruct Ef as [Hin Hbad]. apply in_map_iff in Hin. destruct Hin as (u & <- & Hu).
      apply In_nth with (d := dummy_ritem) in Hu. destruct Hu as (x & Hx & <-). rewrite Li in Hx. rewrite (Item x Hx) in Hbad.
      destruct (fl_items i Hf (ritem i x)) as (A1 & A2 & A3); [apply nth_In; assumption|].
      unfold flip_item, rresolve_min, ri_with_min, ri_area in Hbad. cbn [ri_x ri_y ri_copies ri_copies_min] in Hbad.
      change (-1 =? -1) with true in Hbad. cbv iota in Hbad.
      apply orb_prop in Hbad. rewrite Z.ltb_lt, Z.eqb_eq in Hbad. destruct Hbad as [Hbad|Hbad]; [|nia].
      destruct (u_objective b); lia. }
    match goal with |- context [if ?c then _ else _] => destruct c eqn:Er end.
    { exfalso. apply existsb_exists in Er. destruct Er as (t & Ht & Er).
      apply existsb_exists in Er. destruct Er as (r & Hr & Er).
      apply existsb_exists in Er. destruct Er as (x & Hx & Er).
      apply in_seq in Hx. rewrite map_length, Li in Hx.
      apply In_nth with (d := dummy_rbin) in Ht. destruct Ht as (k & Hk & <-). rewrite Lb in Hk.
      apply In_nth with (d := dummy_resource) in Hr. destruct Hr as (n & Hn & <-).
      pose proof (S1 k n x) as S2. unfold rsched, schedule in S2. rewrite S2 in Er.
      assert (Hn' : (n < length (rb_resources (rbin i k)))%nat).
      { rewrite <- (map_length bare_resource). change (map bare_resource (rb_resources (rbin i k))) with (rb_resources (flip_bare (rbin i k))).
        rewrite <- (Bin k Hk). simpl. rewrite map_length. assumption. }
      unfold flip_target in Er.
      rewrite (fl_schedules i Hf (rbin i k) (nth n (rb_resources (rbin i k)) dummy_resource) x) in Er; [discriminate| | |lia].
      - apply nth_In. assumption.
      - apply nth_In. assumption. }
    match goal with |- context [rexpand_bins ?l] => set (bins := l) end.
    assert (Hz : zsum rb_copies bins = zsum rb_copies (rin_bins i) /\ forall t, In t bins -> 0 <= rb_copies t).
    { assert (Em : map rb_copies bins = map rb_copies (rin_bins i)).
      { subst bins. rewrite map_map. apply nth_ext with (d := 0) (d' := 0).
        - rewrite !map_length. assumption.
        - intros k Hk. rewrite map_length, Lb in Hk.
          match goal with |- nth k (map ?f _) 0 = _ =>
            rewrite nth_indep with (d' := f dummy_rbin) by (rewrite map_length; lia); rewrite (map_nth f) end.
          rewrite nth_indep with (d' := rb_copies dummy_rbin) (l := map rb_copies (rin_bins i)) by (rewrite map_length; lia).
          rewrite (map_nth rb_copies). fold (rbin i k). unfold rresolve_copies. cbn [rb_copies rb_with_copies].
          rewrite (Hcop k Hk). destruct (fl_bins i Hf (rbin i k)) as (_ & _ & _ & _ & A); [apply nth_In; assumption|].
          replace (rb_copies (rbin i k) =? -1) with false by (symmetry; apply Z.eqb_neq; lia). reflexivity. }
      split.
      - rewrite (zsum_as_map _ rb_copies bins), Em, <- (zsum_as_map _ rb_copies). reflexivity.
      - intros t Ht. apply (in_map rb_copies) in Ht. rewrite Em in Ht. apply in_map_iff in Ht. destruct Ht as (u & <- & Hu).
        destruct (fl_bins i Hf u Hu) as (_ & _ & _ & _ & A). lia. }
    destruct Hz as [Hz1 Hz2]. pose proof (ids_length bins Hz2) as Hl.
    destruct (rexpand_bins bins) as [[ids prev] p]. cbn [fst] in Hl.
    match goal with |- context [if ?c then _ else _] => destruct c eqn:Eo end; [|eauto].
    exfalso. rewrite F1 in Eo.
    assert (Ho : rin_objective i = OOpenDimensionX \/ rin_objective i = OOpenDimensionY).
    { destruct (rin_objective i); cbn [flip_objective] in Eo; try discriminate; auto. }
    pose proof (fl_open i Hf Ho) as Hop. rewrite Hl, Hz1, Hop in Eo.
    destruct (flip_objective (rin_objective i)); discriminate. }
  destruct Hb as (j & d & Hb). exists j, d. split; [exact Hb|].
  destruct (rbuild_holds b j d Hb) as [H1 H2 [H3 H4] [H5 H6]].
  rewrite Li in H3, H4. rewrite Lb in H5, H6.
  assert (Ho : rin_objective j = flip_objective (rin_objective i)) by congruence.
  split; [assumption|]. rewrite H2, F2. split; [reflexivity|].
  assert (Hitems : forall x, (x < length (rin_items i))%nat ->
      let t := ritem i x in let t' := ritem j x in
      (ri_x t' = ri_y t /\ ri_y t' = ri_x t /\ ri_profit t' = ri_profit t /\ ri_copies t' = ri_copies t /\
      ri_group t' = ri_group t /\ ri_oriented t' = ri_oriented t /\ ri_weight t' = ri_weight t) /\
      ri_eligibility t' = -1 /\ ri_copies_min t' = match rin_objective i with OKnapsack => 0 | _ => ri_copies t end).
  { intros x Hx. cbv zeta. specialize (H4 x Hx). cbv zeta in H4. rewrite (Item x Hx), Ho in H4.
    destruct H4 as (G1 & G2 & G3 & G4 & G5 & G6 & G7 & G8 & G9). simpl in G1, G2, G3, G4, G5, G6, G7, G8.
    split; [repeat split; assumption|]. split; [assumption|]. rewrite G9. cbn [flip_item ri_copies_min ri_copies].
    change (-1 =? -1) with true. cbv iota. destruct (rin_objective i); reflexivity. }
  split; [|split].
  - constructor.
    + rewrite H2, F2. simpl. destruct (rp_unloading (rin_params i)); reflexivity.
    + rewrite H2, F2. reflexivity.
    + split; [assumption|]. intros x Hx. apply (Hitems x Hx).
    + split; [assumption|]. intros k Hk. cbv zeta. specialize (H6 k Hk). cbv zeta in H6.
      destruct H6 as (G1 & G2 & G3 & G4 & G5 & G6 & G7 & G8 & G9 & G10). pose proof (Bin k Hk) as Bk.
      assert (P : forall (B : Type) (f : RBin -> B), f (rbare (nth k (u_bins b) dummy_rbin)) = f (flip_bare (rbin i k))) by (intros; rewrite Bk; reflexivity).
      pose proof (P _ rb_x) as P1. pose proof (P _ rb_y) as P2. pose proof (P _ rb_cost) as P3. pose proof (P _ rb_copies_min) as P4.
      pose proof (P _ rb_max_weight) as P5. pose proof (P _ rb_truck) as P6. pose proof (P _ rb_defects) as P7. pose proof (P _ rb_resources) as P8.
      simpl in P1, P2, P3, P4, P5, P6, P7, P8. clear P.
      rewrite (Hcop k Hk) in G10. destruct (fl_bins i Hf (rbin i k)) as (_ & _ & _ & _ & A); [apply nth_In; assumption|].
      replace (rb_copies (rbin i k) =? -1) with false in G10 by (symmetry; apply Z.eqb_neq; lia).
      split; [congruence|]. split; [congruence|]. split; [congruence|]. split; [assumption|]. split; [congruence|]. split; [congruence|].
      split; [congruence|]. split; [congruence|]. rewrite G9.
      split.
      { apply (f_equal (@length _)) in P8. rewrite !map_length in P8. assumption. }
      intro r. assert (Pr : bare_resource (nth r (rb_resources (nth k (u_bins b) dummy_rbin)) dummy_resource) =
        bare_resource (nth r (rb_resources (rbin i k)) dummy_resource)).
      { rewrite <- !nth_bare, P8. reflexivity. }
      pose proof (f_equal res_capacity Pr) as Q1. pose proof (f_equal res_penalize Pr) as Q2. pose proof (f_equal res_penalty Pr) as Q3.
      simpl in Q1, Q2, Q3. split; [assumption|]. split; [assumption|]. split; [assumption|].
      intro x. apply (S1 k r x).
  - apply (rbuild_consistent b j d Hb).
  - intros x Hx. apply (Hitems x Hx).
Qed.

(** ** Packings *)

Lemma swap_place_twice : forall p, swap_place (swap_place p) = p.
Proof. intros [t x y r]. reflexivity. Qed.
Lemma swap_desc_twice : forall d, swap_desc (swap_desc d) = d.
Proof.
  intros [t c ps]. unfold swap_desc. simpl. f_equal. rewrite map_map. rewrite <- List.map_id. apply map_ext. apply swap_place_twice.
Qed.
Lemma swap_unloading_twice : forall u, swap_unloading (swap_unloading u) = u.
Proof. intros []; reflexivity. Qed.
Lemma swap_defect_twice : forall d, swap_defect (swap_defect d) = d.
Proof. intros []; reflexivity. Qed.

Lemma swapped_sym : forall i j, swapped i j -> swapped j i.
Proof.
  intros i j [S1 S2 [S3 S4] [S5 S6]]. constructor.
  - rewrite S1, swap_unloading_twice. reflexivity.
  - congruence.
  - split; [congruence|]. intros x Hx. rewrite S3 in Hx. specialize (S4 x Hx). cbv zeta in *. intuition congruence.
  - split; [congruence|]. intros k Hk. rewrite S5 in Hk. specialize (S6 k Hk). cbv zeta in *.
    destruct S6 as (A1 & A2 & A3 & A4 & A5 & A6 & A7 & A8 & A9 & A10).
    repeat (split; [congruence|]). split.
    { rewrite A8, map_map. rewrite <- List.map_id at 1. apply map_ext. intro d. symmetry. apply swap_defect_twice. }
    split; [congruence|]. intro r. specialize (A10 r). destruct A10 as (B1 & B2 & B3 & B4).
    repeat (split; [congruence|]). intro x. symmetry. apply B4.
Qed.

Section Swap.

Variables i j : RInstance.
Hypothesis Hs : swapped i j.

Lemma swap_ends : forall p, (pl_type p < length (rin_items i))%nat ->
  pl_x (swap_place p) = pl_y p /\ pl_y (swap_place p) = pl_x p /\
  pl_w j (swap_place p) = pl_h i p /\ pl_h j (swap_place p) = pl_w i p /\
  pl_xe j (swap_place p) = pl_ye i p /\ pl_ye j (swap_place p) = pl_xe i p.
Proof.
  intros p Hp. destruct Hs as [_ _ [_ S4] _]. specialize (S4 _ Hp). cbv zeta in S4. destruct S4 as (A1 & A2 & _).
  unfold pl_xe, pl_ye, pl_w, pl_h, swap_place. simpl. rewrite A1, A2. auto 10.
Qed.

Lemma swap_count : forall x ps, rcount x (map swap_place ps) = rcount x ps.
Proof.
  intros x ps. unfold rcount. f_equal. induction ps as [|p ps IH]; [reflexivity|]. simpl.
  destruct (Nat.eqb (pl_type p) x); simpl; rewrite IH; reflexivity.
Qed.

Lemma swap_packed : forall x ds, rpacked x (map swap_desc ds) = rpacked x ds.
Proof.
  intros x ds. unfold rpacked. rewrite zsum_map. apply zsum_ext. intros d _. simpl. rewrite swap_count. reflexivity.
Qed.

Lemma swap_geometry : forall k ps, (k < length (rin_bins i))%nat -> geometry_ok i (rbin i k) ps -> geometry_ok j (rbin j k) (map swap_place ps).
Proof.
  intros k ps Hk [G1 G2 G3].
  pose proof Hs as [_ _ [S3 S4] [S5 S6]]. specialize (S6 k Hk). cbv zeta in S6.
  destruct S6 as (A1 & A2 & _ & _ & _ & _ & _ & A8 & _).
  assert (Ht : forall p, In p ps -> (pl_type p < length (rin_items i))%nat) by (intros p Hp; apply (G1 p Hp)).
  constructor.
  - intros q Hq. apply in_map_iff in Hq. destruct Hq as (p & <- & Hp). destruct (G1 p Hp) as [P1 P2 P3 P4].
    destruct (swap_ends p P1) as (B1 & B2 & _ & _ & B5 & B6). constructor.
    + simpl. rewrite S3. assumption.
    + rewrite B1, B5, A1. assumption.
    + rewrite B2, B6, A2. assumption.
    + simpl. intro Hr. specialize (S4 _ P1). cbv zeta in S4. destruct S4 as (_ & _ & _ & _ & _ & O & _). rewrite O. auto.
  - clear G1 G3. induction G2 as [|p ps Hp G2 IH]; simpl; [constructor|].
    constructor; [|apply IH; intros q Hq; apply Ht; right; assumption].
    apply Forall_forall. intros q Hq. apply in_map_iff in Hq. destruct Hq as (p' & <- & Hp').
    rewrite Forall_forall in Hp. specialize (Hp p' Hp').
    destruct (swap_ends p (Ht p (or_introl eq_refl))) as (B1 & B2 & _ & _ & B5 & B6).
    destruct (swap_ends p' (Ht p' (or_intror Hp'))) as (C1 & C2 & _ & _ & C5 & C6).
    unfold disjoint in *. rewrite B1, B2, B5, B6, C1, C2, C5, C6. tauto.
  - intros q d Hq Hd. apply in_map_iff in Hq. destruct Hq as (p & <- & Hp).
    rewrite A8 in Hd. apply in_map_iff in Hd. destruct Hd as (e & <- & He). specialize (G3 p e Hp He).
    destruct (swap_ends p (Ht p Hp)) as (B1 & B2 & _ & _ & B5 & B6).
    unfold avoids in *. rewrite B1, B2, B5, B6. simpl. tauto.
Qed.

Lemma swap_packing : forall ds, packing_ok i ds -> packing_ok j (map swap_desc ds).
Proof.
  intros ds [P1 P2]. pose proof Hs as [_ _ [S3 S4] [S5 S6]]. constructor.
  - intros e He. apply in_map_iff in He. destruct He as (d & <- & Hd). destruct (P1 d Hd) as (Q1 & Q2 & Q3). simpl.
    rewrite S5. split; [assumption|]. split; [assumption|]. apply swap_geometry; assumption.
  - intros x Hx. rewrite S3 in Hx. rewrite swap_packed. specialize (S4 x Hx). cbv zeta in S4.
    destruct S4 as (_ & _ & _ & -> & _). auto.
Qed.

Lemma swap_consumption : forall k r ps, (k < length (rin_bins i))%nat ->
  (rconsumption j (nth r (rb_resources (rbin j k)) dummy_resource) (map swap_place ps) ==
   rconsumption i (nth r (rb_resources (rbin i k)) dummy_resource) ps)%Q.
Proof.
  intros k r ps Hk. pose proof Hs as [_ _ [S3 _] [S5 S6]]. specialize (S6 k Hk). cbv zeta in S6.
  destruct S6 as (_ & _ & _ & _ & _ & _ & _ & _ & _ & A10). destruct (A10 r) as (_ & _ & _ & E).
  unfold rconsumption. rewrite S3. apply qsum_ext. intros x _. rewrite swap_count.
  unfold schedule in E. rewrite E. reflexivity.
Qed.

Lemma qsum_nth : forall (A : Type) (f : A -> Q) (l : list A) d, (qsum f l == qsum (fun k => f (nth k l d)) (seq 0 (length l)))%Q.
Proof.
  intros A f l d. rewrite <- (qsum_map _ _ (fun k => nth k l d) f).
  rewrite (list_nth_map A A (fun a => a) l d). rewrite List.map_id. reflexivity.
Qed.

(** Same profit, penalties and cost. *)
Lemma swap_penalties : forall d, (rd_type d < length (rin_bins i))%nat -> (rpenalties j (swap_desc d) == rpenalties i d)%Q.
Proof.
  intros d Hd. pose proof Hs as [_ _ _ [S5 S6]]. specialize (S6 _ Hd). cbv zeta in S6.
  destruct S6 as (_ & _ & _ & _ & _ & _ & _ & _ & A9 & A10).
  unfold rpenalties. simpl. rewrite !(qsum_nth _ _ _ dummy_resource), A9. apply qsum_ext. intros r _.
  destruct (A10 r) as (B1 & B2 & B3 & _). rewrite B1, B2, B3.
  assert (E : Qltb (res_capacity (nth r (rb_resources (rbin i (rd_type d))) dummy_resource))
      (rconsumption j (nth r (rb_resources (rbin j (rd_type d))) dummy_resource) (map swap_place (rd_items d))) =
     Qltb (res_capacity (nth r (rb_resources (rbin i (rd_type d))) dummy_resource))
      (rconsumption i (nth r (rb_resources (rbin i (rd_type d))) dummy_resource) (rd_items d))).
  { pose proof (swap_consumption (rd_type d) r (rd_items d) Hd) as C. unfold Qltb. f_equal.
    destruct (Qle_bool (rconsumption j _ _) _) eqn:E1; symmetry.
    - apply Qle_bool_iff. apply Qle_bool_iff in E1. rewrite <- C. assumption.
    - apply not_true_iff_false. intro E2. apply Qle_bool_iff in E2. rewrite <- C in E2. apply Qle_bool_iff in E2. congruence. }
  rewrite E. reflexivity.
Qed.

Lemma swap_values : forall ds, packing_ok i ds ->
  (rnet_profit j (map swap_desc ds) == rnet_profit i ds)%Q /\
  (qsum (fun d => inject_Z (rd_copies d) * rb_cost (rbin j (rd_type d))) (map swap_desc ds) ==
   qsum (fun d => inject_Z (rd_copies d) * rb_cost (rbin i (rd_type d))) ds)%Q /\
  rbins_used (map swap_desc ds) = rbins_used ds /\
  (forall t, rused_bins t (map swap_desc ds) = rused_bins t ds).
Proof.
  intros ds [P1 P2]. pose proof Hs as [_ _ [S3 S4] [S5 S6]].
  split; [|split; [|split]].
  - assert (E1 : (rprofit j (map swap_desc ds) == rprofit i ds)%Q).
    { unfold rprofit. rewrite qsum_map. apply qsum_ext. intros d Hd. simpl. rewrite qsum_map.
      apply Qmult_comp; [reflexivity|]. apply qsum_ext. intros p Hp. simpl.
      destruct (P1 d Hd) as (_ & _ & [G _ _]). destruct (G p Hp) as [Ht _ _ _].
      specialize (S4 _ Ht). cbv zeta in S4. destruct S4 as (_ & _ & -> & _). reflexivity. }
    assert (E2 : (qsum (rpenalties j) (map swap_desc ds) == qsum (rpenalties i) ds)%Q).
    { rewrite qsum_map. apply qsum_ext. intros d Hd. apply swap_penalties. apply (P1 d Hd). }
    unfold rnet_profit. rewrite E1, E2. reflexivity.
  - rewrite qsum_map. apply qsum_ext. intros d Hd. simpl. destruct (P1 d Hd) as (Ht & _).
    specialize (S6 _ Ht). cbv zeta in S6. destruct S6 as (_ & _ & -> & _). reflexivity.
  - unfold rbins_used. rewrite zsum_map. reflexivity.
  - intro t. unfold rused_bins. rewrite zsum_map. reflexivity.
Qed.

Lemma swap_extents : forall ps, (forall p, In p ps -> (pl_type p < length (rin_items i))%nat) ->
  rightmost j (map swap_place ps) = topmost i ps /\ topmost j (map swap_place ps) = rightmost i ps.
Proof.
  intros ps H. unfold rightmost, topmost. rewrite !map_map. split; f_equal; apply map_ext_in; intros p Hp;
    destruct (swap_ends p (H p Hp)) as (_ & _ & _ & _ & B5 & B6); assumption.
Qed.

End Swap.

(** ** unflip_solution *)

Lemma unflip_desc : forall bins acc,
  rdesc_run acc (flat_map (fun pos => unflip_bin_calls (length acc + pos) (nth pos bins (rraw_bin 0 0 []))) (seq 0 (length bins))) =
  acc ++ map swap_desc (map rview_bin bins).
Proof.
  assert (Happ : forall l1 l2 ds, rdesc_run ds (l1 ++ l2) = rdesc_run (rdesc_run ds l1) l2).
  { induction l1 as [|c l1 IH]; intros l2 ds; [reflexivity|]. destruct c; simpl; apply IH. }
  intro bins. induction bins as [|b bins IH] using rev_ind; intro acc.
  - simpl. rewrite app_nil_r. reflexivity.
  - rewrite app_length. cbn [length]. rewrite Nat.add_1_r, seq_S, flat_map_app, Happ. cbn [plus flat_map]. rewrite app_nil_r.
    assert (E : flat_map (fun pos => unflip_bin_calls (length acc + pos) (nth pos (bins ++ [b]) (rraw_bin 0 0 []))) (seq 0 (length bins)) =
      flat_map (fun pos => unflip_bin_calls (length acc + pos) (nth pos bins (rraw_bin 0 0 []))) (seq 0 (length bins))).
    { rewrite !flat_map_concat_map. f_equal. apply map_ext_in. intros k Hk. apply in_seq in Hk. rewrite app_nth1 by lia. reflexivity. }
    rewrite E, IH. rewrite app_nth2, Nat.sub_diag by lia. cbn [nth]. rewrite !map_app. cbn [map].
    unfold unflip_bin_calls. cbn [rdesc_run]. rewrite !app_assoc. set (ds := acc ++ map swap_desc (map rview_bin bins)).
    assert (Hl : (length acc + length bins)%nat = length ds) by (subst ds; rewrite app_length, !map_length; reflexivity).
    rewrite Hl. clearbody ds. clear.
    assert (G : forall ps done, rdesc_run (ds ++ [mkRD (rs_type b) (rs_copies b) done])
      (map (fun p => RAddItem (length ds) (mkPl (pl_type p) (pl_y p) (pl_x p) (pl_rot p))) ps) =
      ds ++ [mkRD (rs_type b) (rs_copies b) (done ++ map swap_place ps)]).
    { induction ps as [|p ps IHp]; intro done; simpl; [rewrite app_nil_r; reflexivity|].
      rewrite upd_last. simpl. rewrite IHp, <- app_assoc. reflexivity. }
    rewrite G. reflexivity.
Qed.

Lemma unflip_calls_desc : forall s, rdesc_run [] (unflip_calls s) = map swap_desc (rview s).
Proof. intro s. apply (unflip_desc (rc_bins (rs_core s)) []). Qed.

Lemma rb_run_app : forall i l1 l2 bins, rb_run i bins (l1 ++ l2) =
  match rb_run i bins l1 with Some bins' => rb_run i bins' l2 | None => None end.
Proof.
  intros i l1. induction l1 as [|c l1 IH]; intros l2 bins; [reflexivity|]. simpl.
  destruct (rb_call i bins c); [apply IH|reflexivity].
Qed.

(** The calls are accepted when the ids are in range and no oriented item is
    rotated. *)
Lemma unflip_run : forall i s,
  (forall d, In d (rview s) -> (rd_type d < length (rin_bins i))%nat /\
     forall p, In p (rd_items d) -> (pl_type p < length (rin_items i))%nat /\ (pl_rot p = true -> ri_oriented (ritem i (pl_type p)) = false)) ->
  exists bins, rb_run i [] (unflip_calls s) = Some bins.
Proof.
  intros i s H. unfold unflip_calls, rview in *. set (bs := rc_bins (rs_core s)) in *. clearbody bs. clear s.
  assert (G : forall n, (n <= length bs)%nat -> exists bins,
    rb_run i [] (flat_map (fun pos => unflip_bin_calls pos (nth pos bs (rraw_bin 0 0 []))) (seq 0 n)) = Some bins /\ length bins = n).
  { induction n as [|n IH]; intro Hn; [exists []; split; reflexivity|].
    destruct IH as (bins & E & L); [lia|]. rewrite seq_S, flat_map_app, rb_run_app, E. cbn [flat_map plus]. rewrite app_nil_r.
    set (b := nth n bs (rraw_bin 0 0 [])).
    destruct (H (rview_bin b)) as [H1 H2]; [apply in_map; apply nth_In; lia|]. cbn [rview_bin rd_type rd_items] in H1, H2.
    unfold unflip_bin_calls. cbn [rb_run rb_call]. unfold rb_add_bin, rin_range. cbn [forallb].
    replace (rs_type b <? length (rin_bins i))%nat with true by (symmetry; apply Nat.ltb_lt; assumption). cbn [andb].
    assert (K : forall ps bins', length bins' = S n ->
      (forall p, In p ps -> (pl_type p < length (rin_items i))%nat /\ (pl_rot p = true -> ri_oriented (ritem i (pl_type p)) = false)) ->
      exists bins'', rb_run i bins' (map (fun p => RAddItem n (mkPl (pl_type p) (pl_y p) (pl_x p) (pl_rot p))) ps) = Some bins'' /\ length bins'' = S n).
    { induction ps as [|p ps IHp]; intros bins' L' Hps; [exists bins'; auto|]. cbn [map rb_run rb_call]. unfold rb_add_item. cbn [pl_type pl_rot].
      destruct (Hps p (or_introl eq_refl)) as [K1 K2].
      replace (n <? length bins')%nat with true by (symmetry; apply Nat.ltb_lt; lia).
      replace (pl_type p <? length (rin_items i))%nat with true by (symmetry; apply Nat.ltb_lt; assumption).
      replace (pl_rot p && ri_oriented (ritem i (pl_type p))) with false
        by (destruct (pl_rot p); [rewrite K2 by reflexivity|]; reflexivity).
      cbn [andb negb]. apply IHp; [rewrite upd_length; assumption|]. intros q Hq. apply Hps. right. assumption. }
    apply K; [rewrite app_length; simpl; lia|]. intros p Hp. apply H2. assumption. }
  destruct (G (length bs) (Nat.le_refl _)) as (bins & E & _). eauto.
Qed.
