(** * Proofs about the assignment MILP: every packing gives a point of the same value *)

From Coq Require Import List ZArith QArith Qround Bool Lia Lqa Permutation Sorted.
From Verif Require Import Util Common_Model Common_Spec Common_Proof OneDim_Model OneDim_Spec OneDim_Proof OneDim_Order
  OneDimDff_Proof OneDimBounds_Spec ReducInv_Proof Bar_Proof BarPack_Proof Milp_Model Milp_Spec Milp_Proof MilpPoint_Proof.
Import ListNotations.
Open Scope Z_scope.

(** ** Sorting of the bins *)

Section LoadSort.

Variable i : Instance.
Notation ni := (length (in_item_types i)).
Notation copies x := (it_copies (item_type i x)).

Lemma key_less_asym : forall a b, key_less i a b = true -> key_less i b a = false.
Proof.
  intros [[x n]|] [[y m]|]; cbn [key_less]; try discriminate; try reflexivity. intro H.
  destruct (Z.eqb_spec (copies x) (copies y)) as [E|E]; destruct (Z.eqb_spec (copies y) (copies x)) as [E2|E2]; try lia; cbn [negb] in *.
  - destruct (Nat.eqb_spec x y) as [F|F]; destruct (Nat.eqb_spec y x) as [F2|F2]; try lia; cbn [negb] in *;
      rewrite ?Nat.ltb_lt, ?Nat.ltb_ge in *; lia.
  - rewrite Z.ltb_lt, ?Z.ltb_ge in *. lia.
Qed.

Lemma key_less_trans : forall a b c, key_less i b a = false -> key_less i c b = false -> key_less i c a = false.
Proof.
  intros [[x n]|] [[y m]|] [[z o]|]; cbn [key_less]; try discriminate; try reflexivity. intros H1 H2.
  destruct (Z.eqb_spec (copies y) (copies x)) as [E1|E1]; destruct (Z.eqb_spec (copies z) (copies y)) as [E2|E2];
    destruct (Z.eqb_spec (copies z) (copies x)) as [E3|E3]; try lia; cbn [negb] in *; rewrite ?Z.ltb_ge in *; try lia.
  destruct (Nat.eqb_spec y x) as [F1|F1]; destruct (Nat.eqb_spec z y) as [F2|F2]; destruct (Nat.eqb_spec z x) as [F3|F3]; cbn [negb] in *;
    rewrite ?Nat.ltb_ge in *; lia.
Qed.

Definition load_le (a b : list nat) : Prop := key_less i (sort_key i b) (sort_key i a) = false.

Lemma load_insert_perm : forall l ls, Permutation (l :: ls) (load_insert i l ls).
Proof.
  intros l ls. induction ls as [|m ls IH]; [apply Permutation_refl|]. cbn [load_insert]. destruct (key_less _ _ _); [|apply Permutation_refl].
  eapply Permutation_trans; [apply perm_swap|]. apply perm_skip. exact IH.
Qed.

Lemma load_sort_perm : forall ls, Permutation ls (load_sort i ls).
Proof.
  intro ls. unfold load_sort. induction ls as [|l ls IH]; [constructor|]. cbn [fold_right]. eapply Permutation_trans; [apply perm_skip, IH|]. apply load_insert_perm.
Qed.

Lemma load_insert_sorted : forall l ls, StronglySorted load_le ls -> StronglySorted load_le (load_insert i l ls).
Proof.
  intros l ls H. induction H as [|m ls Hs IH Hm]; [constructor; constructor|]. cbn [load_insert]. destruct (key_less i (sort_key i m) (sort_key i l)) eqn:E.
  - constructor; [exact IH|]. apply Forall_forall. intros x Hx. apply (Permutation_in _ (Permutation_sym (load_insert_perm l ls))) in Hx.
    destruct Hx as [<-|Hx]; [apply key_less_asym; exact E|]. rewrite Forall_forall in Hm. apply Hm. exact Hx.
  - constructor; [constructor; assumption|]. constructor; [exact E|]. rewrite Forall_forall in Hm |- *. intros x Hx. specialize (Hm x Hx).
    unfold load_le in *. eapply key_less_trans; eassumption.
Qed.

Lemma load_sort_sorted : forall ls, StronglySorted load_le (load_sort i ls).
Proof.
  intro ls. unfold load_sort. induction ls as [|l ls IH]; [constructor|]. cbn [fold_right]. apply load_insert_sorted. exact IH.
Qed.

Lemma sorted_nth : forall A (R : A -> A -> Prop) (d : A) l, StronglySorted R l -> forall k j, (k < j < length l)%nat -> R (nth k l d) (nth j l d).
Proof.
  intros A R d l H. induction H as [|a l Hs IH Ha]; intros k j Hkj; [simpl in Hkj; lia|]. destruct j as [|j]; [lia|]. cbn [length] in Hkj. destruct k as [|k]; cbn [nth].
  - rewrite Forall_forall in Ha. apply Ha. apply nth_In. lia.
  - apply IH. lia.
Qed.

(** The key is the smallest item type of the bin. *)
Lemma sort_key_spec : forall items,
  match sort_key i items with
  | None => forall x, In x items -> (x < ni)%nat -> False
  | Some (x, n) => (x < ni)%nat /\ In x items /\ forall y, In y items -> (y < ni)%nat -> order_less i y x = false
  end.
Proof.
  intro items. unfold sort_key. set (F := fun key x => _).
  assert (G : forall n, match fold_left F (seq 0 n) None with
    | None => forall x, In x items -> (x < n)%nat -> False
    | Some (x, m) => (x < n)%nat /\ In x items /\ forall y, In y items -> (y < n)%nat -> order_less i y x = false end).
  { induction n as [|n IH]; [cbn; intros x _ Hx; lia|]. rewrite seq_S, fold_left_app. cbn [fold_left Nat.add].
    set (k0 := fold_left F (seq 0 n) None) in *. unfold F at 1. destruct (Nat.eqb_spec (count_occ Nat.eq_dec items n) 0) as [E|E].
    - apply (count_occ_not_In Nat.eq_dec) in E. destruct k0 as [[x m]|].
      + destruct IH as (I1 & I2 & I3). split; [lia|]. split; [exact I2|]. intros y Hy Hyn. apply I3; [exact Hy|]. destruct (Nat.eq_dec y n); [subst; contradiction|lia].
      + intros x Hx Hxn. apply (IH x Hx). destruct (Nat.eq_dec x n); [subst; contradiction|lia].
    - assert (Hn : In n items) by (apply (count_occ_In Nat.eq_dec); lia). destruct k0 as [[x m]|].
      + destruct IH as (I1 & I2 & I3). destruct (_ || _) eqn:Ec.
        * split; [lia|]. split; [exact Hn|]. intros y Hy Hyn. destruct (Nat.eq_dec y n) as [->|Hne].
          { destruct (order_less i n n) eqn:En; [|reflexivity]. rewrite (order_asym i _ _ En) in En. discriminate. }
          eapply order_trans; [|apply I3; [exact Hy|lia]]. apply order_asym. unfold order_less. apply orb_true_iff in Ec. destruct Ec as [Ec|Ec].
          { apply Z.ltb_lt in Ec. destruct (Z.eqb_spec (copies n) (copies x)); [lia|]. cbn [negb]. apply Z.ltb_lt. exact Ec. }
          { apply andb_true_iff in Ec. destruct Ec as [E1 E2]. rewrite E1. cbn [negb]. exact E2. }
        * split; [lia|]. split; [exact I2|]. intros y Hy Hyn. destruct (Nat.eq_dec y n) as [->|Hne]; [|apply I3; [exact Hy|lia]].
          apply orb_false_iff in Ec. destruct Ec as [E1 E2]. unfold order_less. destruct (Z.eqb_spec (copies n) (copies x)) as [E3|E3]; cbn [negb]; [|exact E1].
          apply andb_false_iff in E2. destruct E2 as [E2|E2]; [discriminate|exact E2].
      + split; [lia|]. split; [exact Hn|]. intros y Hy Hyn. destruct (Nat.eq_dec y n) as [->|Hne].
        * destruct (order_less i n n) eqn:En; [|reflexivity]. rewrite (order_asym i _ _ En) in En. discriminate.
        * exfalso. apply (IH y Hy). lia. }
  apply G.
Qed.

(** Later bins hold no item type before the first of an earlier one. *)
Lemma load_sort_order : forall ls k j x, (forall l y, In l ls -> In y l -> (y < ni)%nat) -> (k < j < length (load_sort i ls))%nat ->
  In x (nth j (load_sort i ls) []) -> exists y, In y (nth k (load_sort i ls) []) /\ order_less i x y = false.
Proof.
  intros ls k j x Hids Hkj Hx. pose proof (sorted_nth _ _ [] _ (load_sort_sorted ls) k j Hkj) as H. unfold load_le in H.
  assert (Hxn : (x < ni)%nat).
  { apply (Hids (nth j (load_sort i ls) [])); [|exact Hx]. apply (Permutation_in _ (Permutation_sym (load_sort_perm ls))). apply nth_In. lia. }
  pose proof (sort_key_spec (nth j (load_sort i ls) [])) as Sj. pose proof (sort_key_spec (nth k (load_sort i ls) [])) as Sk.
  destruct (sort_key i (nth j (load_sort i ls) [])) as [[y' n']|]; [|destruct (Sj x Hx Hxn)]. destruct Sj as (J1 & J2 & J3).
  destruct (sort_key i (nth k (load_sort i ls) [])) as [[y n]|]; [|discriminate H]. destruct Sk as (K1 & K2 & K3).
  exists y. split; [exact K2|]. eapply order_trans; [|apply J3; [exact Hx|exact Hxn]]. cbn [key_less] in H. unfold order_less.
  destruct (Z.eqb_spec (copies y') (copies y)) as [E|E]; cbn [negb] in H |- *; [|exact H]. destruct (Nat.eqb_spec y' y) as [F|F]; cbn [negb] in H; [subst; apply Nat.ltb_irrefl|exact H].
Qed.

End LoadSort.

(** ** Packings *)

Section Packings.

Variable i : Instance.
Notation ni := (length (in_item_types i)).
Notation nb := (length (in_bin_types i)).
Notation it x := (item_type i x).
Notation bt t := (bin_type i t).
Notation count := (count_occ Nat.eq_dec).

Definition desc_bin (d : BinDesc) : nat * Z * list nat := (bd_type d, bd_copies d, bd_items d).
Definition loads_of (ds : list BinDesc) (t : nat) : list (list nat) := load_sort i (type_loads (map desc_bin ds) t).

Lemma type_loads_in : forall ds t l, In l (type_loads (map desc_bin ds) t) -> exists d, In d ds /\ bd_type d = t /\ bd_items d = l /\ 0 < bd_copies d.
Proof.
  intros ds t l H. unfold type_loads in H. apply in_flat_map in H. destruct H as (b & Hb & H). apply in_map_iff in Hb. destruct Hb as (d & <- & Hd). cbn [desc_bin fst snd] in H.
  destruct (Nat.eqb_spec (bd_type d) t) as [E|E]; [|destruct H]. pose proof (repeat_spec _ _ _ H) as Hl. exists d. repeat split; auto.
  destruct (Z.to_nat (bd_copies d)) eqn:En; [destruct H|lia].
Qed.
Lemma loads_of_in : forall ds t l, In l (loads_of ds t) -> exists d, In d ds /\ bd_type d = t /\ bd_items d = l /\ 0 < bd_copies d.
Proof. intros ds t l H. apply type_loads_in. apply (Permutation_in _ (Permutation_sym (load_sort_perm i _))). exact H. Qed.

Lemma qsum_repeat : forall A (f : A -> Q) a n, (qsum f (repeat a n) == inject_Z (Z.of_nat n) * f a)%Q.
Proof.
  intros A f a n. induction n as [|n IH]; [cbn; ring|]. cbn [repeat]. rewrite qsum_cons, IH, Nat2Z.inj_succ. unfold Z.succ. rewrite inject_Z_plus. change (inject_Z 1) with 1%Q. ring.
Qed.

Lemma type_loads_sum : forall (g : list nat -> Q) ds t, (forall d, In d ds -> 0 <= bd_copies d) ->
  (qsum g (loads_of ds t) == qsum (fun d => if Nat.eqb (bd_type d) t then inject_Z (bd_copies d) * g (bd_items d) else 0) ds)%Q.
Proof.
  intros g ds t H. unfold loads_of. rewrite <- (qsum_perm _ _ _ _ (load_sort_perm i _)). unfold type_loads. rewrite qsum_flat_map, qsum_map. apply qsum_ext. intros d Hd. cbn [desc_bin fst snd].
  destruct (Nat.eqb (bd_type d) t); [|reflexivity]. rewrite qsum_repeat, Z2Nat.id by (apply H; exact Hd). reflexivity.
Qed.

Lemma loads_sum : forall (g : nat -> list nat -> Q) ds, (forall d, In d ds -> (bd_type d < nb)%nat /\ 0 <= bd_copies d) ->
  (qsum (fun t => qsum (g t) (loads_of ds t)) (seq 0 nb) == qsum (fun d => inject_Z (bd_copies d) * g (bd_type d) (bd_items d)) ds)%Q.
Proof.
  intros g ds H.
  rewrite (qsum_ext _ _ (fun t => qsum (fun d => if Nat.eqb (bd_type d) t then inject_Z (bd_copies d) * g t (bd_items d) else 0)%Q ds)).
  2:{ intros t _. apply type_loads_sum. intros d Hd. apply H. exact Hd. }
  rewrite qsum_exchange. apply qsum_ext. intros d Hd. destruct (H d Hd) as [Ht _].
  rewrite (qsum_one _ _ _ (bd_type d)); [rewrite Nat.eqb_refl; reflexivity|apply seq_NoDup|apply in_seq; lia|].
  intros t _ Hne. destruct (Nat.eqb_spec (bd_type d) t); [congruence|reflexivity].
Qed.

Lemma injz : forall a b, (inject_Z a == inject_Z b)%Q -> a = b.
Proof. intros a b H. unfold Qeq in H. cbn in H. lia. Qed.

Lemma loads_tot : forall ds x, (forall d, In d ds -> (bd_type d < nb)%nat /\ 0 <= bd_copies d) -> tot i (loads_of ds) x = packed x ds.
Proof.
  intros ds x H. apply injz. unfold tot, packed. rewrite <- !qsum_inject.
  rewrite (qsum_ext _ _ (fun t => qsum (fun l => inject_Z (Z.of_nat (count l x))) (loads_of ds t))) by (intros t _; symmetry; apply qsum_inject).
  rewrite (loads_sum (fun _ l => inject_Z (Z.of_nat (count l x))) ds H). apply qsum_ext. intros d _. rewrite inject_Z_mult. reflexivity.
Qed.

Lemma loads_length : forall ds t, (forall d, In d ds -> 0 <= bd_copies d) -> Z.of_nat (length (loads_of ds t)) = used_bins t ds.
Proof.
  intros ds t H. apply injz. unfold used_bins. rewrite <- qsum_inject. transitivity (qsum (fun _ => 1%Q) (loads_of ds t)).
  - rewrite qsum_const. ring.
  - rewrite type_loads_sum by exact H. apply qsum_ext. intros d _. destruct (Nat.eqb _ _); [ring|reflexivity].
Qed.

Lemma bin_end_no_nesting : no_nesting i -> forall l, bin_end i l = zsum (fun x => it_length (it x)) l.
Proof.
  intros H l. unfold bin_end. rewrite (zsum_ext _ (fun x => it_nesting (it x)) (fun _ => 0) (tl l)) by (intros x _; apply H). rewrite zsum_const0. lia.
Qed.

Lemma bin_milp : sane_instance i -> no_nesting i -> forall d, BinOK i d -> MilpBinOK i d.
Proof.
  intros Hs Hn d H. apply (bin_ok_simple i Hs) in H. constructor.
  - rewrite <- (bin_end_no_nesting Hn). apply (sok_length _ _ H).
  - apply (sok_weight _ _ H).
  - apply (sok_eligibility _ _ H).
  - apply (sok_resources _ _ H).
Qed.

Lemma used_nonneg : forall t ds, (forall d, In d ds -> 0 <= bd_copies d) -> 0 <= used_bins t ds.
Proof. intros t ds H. unfold used_bins. apply zsum_nonneg. intros d Hd. specialize (H d Hd). destruct (Nat.eqb _ _); lia. Qed.

(** Bins that satisfy the constraints of the MILP, for every constraint of the
    instance the MILP knows. *)
Record MilpPacking (prec : list (nat * nat)) (ub : list nat) (ds : list BinDesc) : Prop := {
  mk_types : forall d, In d ds -> (bd_type d < nb)%nat /\ 0 <= bd_copies d;
  mk_items : forall d x, In d ds -> In x (bd_items d) -> (x < ni)%nat;
  mk_bins : forall d, In d ds -> 0 < bd_copies d -> MilpBinOK i d;
  mk_copies : forall x, (x < ni)%nat -> it_copies_min (it x) <= packed x ds <= it_copies (it x);
  mk_used : forall t, (t < nb)%nat -> used_bins t ds <= Z.of_nat (ub_of ub t);
  mk_mandatory : needs_y i = true -> forall t, (t < nb)%nat -> Z.min (bt_copies_min (bt t)) (Z.of_nat (ub_of ub t)) <= used_bins t ds;
  mk_order : is_bin_packing i = true -> forall t u, (t < u < nb)%nat -> 0 < used_bins u ds -> used_bins t ds = Z.of_nat (ub_of ub t);
  mk_prec : PrecOK i prec ds
}.

Lemma packing_loads : forall prec ub ds, MilpPacking prec ub ds -> (forall t, (t < nb)%nat -> Z.of_nat (ub_of ub t) <= bt_copies (bt t)) -> LoadsOK i prec ub (loads_of ds).
Proof.
  intros prec ub ds H Hub. pose proof (mk_types _ _ _ H) as Ht. assert (Hc : forall d, In d ds -> 0 <= bd_copies d) by (intros d Hd; apply Ht; exact Hd). constructor.
  - intros t Htn. pose proof (mk_used _ _ _ H t Htn). pose proof (loads_length ds t Hc). lia.
  - intros t l Htn Hl. apply loads_of_in in Hl. destruct Hl as (d & Hd & Hdt & Hdi & Hdc). destruct (mk_bins _ _ _ H d Hd Hdc) as [B1 B2 B3 B4]. rewrite Hdt, Hdi in *. constructor; assumption.
  - intros t l x Htn Hl Hx. apply loads_of_in in Hl. destruct Hl as (d & Hd & Hdt & Hdi & Hdc). apply (mk_items _ _ _ H d x Hd). rewrite Hdi. exact Hx.
  - intros x Hx. rewrite (loads_tot ds x Ht). apply (mk_copies _ _ _ H x Hx).
  - intros Hy t k Htn Hk Hm. pose proof (mk_mandatory _ _ _ H Hy t Htn). pose proof (loads_length ds t Hc). lia.
  - intros Hb t u Htu Hne. pose proof (loads_length ds t Hc). pose proof (loads_length ds u Hc). assert (0 < used_bins u ds) by (destruct (loads_of ds u); [congruence|cbn [length] in *; lia]).
    pose proof (mk_order _ _ _ H Hb t u Htu ltac:(assumption)). lia.
  - intros a b Hab. rewrite !(loads_tot ds _ Ht). apply (mk_prec _ _ _ H a b Hab).
  - exact Hub.
  - intros t k j x Htn Hkj Hx. apply load_sort_order with (j := j); [|exact Hkj|exact Hx]. intros l y Hl Hy. apply type_loads_in in Hl. destruct Hl as (d & Hd & _ & Hdi & _).
    apply (mk_items _ _ _ H d y Hd). rewrite Hdi. exact Hy.
Qed.

Lemma packing_milp : forall prec ub ds, sane_instance i -> no_nesting i -> Packing i prec ds ->
  (forall t, (t < nb)%nat -> used_bins t ds <= Z.of_nat (ub_of ub t) <= bt_copies (bt t)) -> MilpPacking prec ub ds.
Proof.
  intros prec ub ds Hs Hn H Hub. constructor.
  - apply (pk_types _ _ _ H).
  - apply (pk_items _ _ _ H).
  - intros d Hd _. apply bin_milp; [exact Hs|exact Hn|]. apply (ok_bins _ _ (pk_ok _ _ _ H) d Hd).
  - intros x Hx. split; [apply (ok_copies_min _ _ (pk_ok _ _ _ H) x Hx)|apply (pk_copies _ _ _ H x Hx)].
  - intros t Ht. apply Hub. exact Ht.
  - intros Hy t Ht. pose proof (pk_mandatory _ _ _ H Hy t Ht). lia.
  - intros Hb t u Htu Hu. assert (Ho : in_objective i = OBinPacking) by (unfold is_bin_packing in Hb; destruct (in_objective i); congruence).
    pose proof (pk_order _ _ _ H Ho t u Htu Hu). pose proof (Hub t ltac:(lia)). lia.
  - apply (pk_prec _ _ _ H).
Qed.

End Packings.
