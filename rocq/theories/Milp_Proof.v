(** * Proofs about the assignment MILP: sums, supply, the point of a packing *)

From Coq Require Import List ZArith QArith Qround Bool Lia Lqa Permutation Sorted.
From Verif Require Import Util Common_Model Common_Spec Common_Proof OneDim_Model OneDim_Spec OneDim_Proof OneDim_Order
  OneDimDff_Proof OneDimBounds_Spec ReducInv_Proof Bar_Proof BarPack_Proof Milp_Model Milp_Spec.
Import ListNotations.
Open Scope Z_scope.

(** ** Sums *)

Lemma qsum_indicator : forall (f : nat -> Q) m n, (m <= n)%nat ->
  (qsum (fun c => f c * (if (c <? m)%nat then 1 else 0)) (seq 0 n) == qsum f (seq 0 m))%Q.
Proof.
  intros f m n H. replace n with (m + (n - m))%nat by lia. rewrite seq_app, qsum_app.
  rewrite (qsum_ext _ _ f (seq 0 m)).
  2:{ intros c Hc. apply in_seq in Hc. destruct (Nat.ltb_spec c m); [ring|lia]. }
  rewrite (qsum_zero _ _ (seq (0 + m) (n - m))); [ring|].
  intros c Hc. apply in_seq in Hc. destruct (Nat.ltb_spec c m); [lia|ring].
Qed.

Lemma qsum_const_one : forall n a, (qsum (fun _ : nat => 1) (seq a n) == inject_Z (Z.of_nat n))%Q.
Proof.
  induction n as [|n IH]; intro a; [reflexivity|]. cbn [seq]. rewrite qsum_cons, IH, Nat2Z.inj_succ. unfold Z.succ.
  rewrite inject_Z_plus. change (inject_Z 1) with 1%Q. ring.
Qed.

Lemma qsum_scaled_indicator : forall (q : Q) m n, (m <= n)%nat ->
  (qsum (fun c => q * (if (c <? m)%nat then 1 else 0)) (seq 0 n) == q * inject_Z (Z.of_nat m))%Q.
Proof.
  intros q m n H. rewrite (qsum_indicator (fun _ => q) m n H). rewrite <- (qsum_const_one m 0), <- qsum_scale.
  apply qsum_ext. intros c _. ring.
Qed.

Lemma count_zsum : forall l x, Z.of_nat (count_occ Nat.eq_dec l x) = zsum (fun y => if Nat.eqb y x then 1 else 0) l.
Proof.
  induction l as [|y l IH]; intro x; [reflexivity|]. rewrite zsum_cons. cbn [count_occ].
  destruct (Nat.eq_dec y x) as [E|E]; [subst; rewrite Nat.eqb_refl, Nat2Z.inj_succ, IH; lia|].
  apply Nat.eqb_neq in E. rewrite E, IH. lia.
Qed.

Lemma count_weighted : forall (f : nat -> Q) l n, (forall x, In x l -> (x < n)%nat) ->
  (qsum (fun x => inject_Z (Z.of_nat (count_occ Nat.eq_dec l x)) * f x) (seq 0 n) == qsum f l)%Q.
Proof.
  intros f l n H. rewrite (qsum_ext _ _ (fun x => inject_Z (zsum (fun y => if Nat.eqb y x then 1 else 0)%Z l) * f x)%Q).
  2:{ intros x _. rewrite count_zsum. reflexivity. }
  apply (qsum_by_class nat (fun y => y) f l (seq 0 n)); [apply seq_NoDup|]. intros x Hx. apply in_seq. specialize (H x Hx). lia.
Qed.

Lemma zcount_weighted : forall (f : nat -> Z) l n, (forall x, In x l -> (x < n)%nat) ->
  zsum (fun x => Z.of_nat (count_occ Nat.eq_dec l x) * f x) (seq 0 n) = zsum f l.
Proof.
  intros f l n H. rewrite (zsum_ext _ _ (fun x => zsum (fun y => if Nat.eqb y x then 1 else 0)%Z l * f x)).
  2:{ intros x _. rewrite count_zsum. reflexivity. }
  apply (zsum_by_class nat (fun y => y) f l (seq 0 n)); [apply seq_NoDup|]. intros x Hx. apply in_seq. specialize (H x Hx). lia.
Qed.

Lemma zsum_nth_over : forall A (g : A -> Z) (d : A) l n, (length l <= n)%nat -> g d = 0 ->
  zsum (fun k => g (nth k l d)) (seq 0 n) = zsum g l.
Proof.
  intros A g d l n H Hd. replace n with (length l + (n - length l))%nat by lia. rewrite seq_app, zsum_app, <- zsum_seq_nth.
  rewrite (zsum_ext _ (fun k => g (nth k l d)) (fun _ => 0) (seq (0 + length l) (n - length l))).
  - rewrite zsum_const0. lia.
  - intros k Hk. apply in_seq in Hk. rewrite nth_overflow by lia. exact Hd.
Qed.

Lemma qsum_nth_over : forall A (g : A -> Q) (d : A) l n, (length l <= n)%nat -> (g d == 0)%Q ->
  (qsum (fun k => g (nth k l d)) (seq 0 n) == qsum g l)%Q.
Proof.
  intros A g d l. induction l as [|a l IH]; intros n H Hd.
  - rewrite qsum_zero; [reflexivity|]. intros k _. destruct k; exact Hd.
  - destruct n as [|n]; [simpl in H; lia|]. cbn [seq]. rewrite qsum_cons, qsum_cons. cbn [nth]. rewrite <- seq_shift, qsum_map.
    rewrite <- (IH n); [reflexivity|simpl in H; lia|exact Hd].
Qed.

(** Consumption of a number of copies. *)
Lemma schedule_total_sum : forall r x n,
  (schedule_total (schedule r x) n == qsum (item_consumption r x) (seq 0 n))%Q.
Proof.
  intros r x n. induction n as [|n IH]; [reflexivity|]. rewrite seq_S, qsum_snoc. cbn [schedule_total].
  rewrite IH, item_consumption_nth. reflexivity.
Qed.

(** ** Insertion sorts *)

Section Sort.
Context {A : Type}.
Variable less : A -> A -> bool.
Variable insert : A -> list A -> list A.
Hypothesis insert_perm : forall x l, Permutation (x :: l) (insert x l).
Lemma sort_perm : forall l, Permutation l (fold_right insert [] l).
Proof.
  induction l as [|x l IH]; [constructor|]. cbn [fold_right]. eapply Permutation_trans; [apply perm_skip, IH|]. apply insert_perm.
Qed.
End Sort.

Section Supply.

Variable i : Instance.
Notation ni := (length (in_item_types i)).
Notation copies x := (it_copies (item_type i x)).

Lemma order_insert_perm : forall x l, Permutation (x :: l) (order_insert i x l).
Proof.
  intros x l. induction l as [|y l IH]; [apply Permutation_refl|]. cbn [order_insert]. destruct (order_less i x y); [apply Permutation_refl|].
  eapply Permutation_trans; [apply perm_swap|]. apply perm_skip. exact IH.
Qed.

Lemma order_total : forall x y, order_less i x y = false -> order_less i y x = true \/ x = y.
Proof.
  intros x y. unfold order_less. destruct (Z.eqb_spec (copies x) (copies y)) as [E|E]; destruct (Z.eqb_spec (copies y) (copies x)) as [E2|E2]; try lia; simpl.
  - intro H. apply Nat.ltb_ge in H. destruct (Nat.eq_dec x y); [right; assumption|left]. apply Nat.ltb_lt. lia.
  - intro H. left. apply Z.ltb_ge in H. apply Z.ltb_lt. lia.
Qed.
Lemma order_asym : forall x y, order_less i x y = true -> order_less i y x = false.
Proof.
  intros x y. unfold order_less. destruct (Z.eqb_spec (copies x) (copies y)) as [E|E]; destruct (Z.eqb_spec (copies y) (copies x)) as [E2|E2]; try lia; simpl; intro H.
  - apply Nat.ltb_lt in H. apply Nat.ltb_ge. lia.
  - apply Z.ltb_lt in H. apply Z.ltb_ge. lia.
Qed.
Lemma order_trans : forall x y z, order_less i y x = false -> order_less i z y = false -> order_less i z x = false.
Proof.
  intros x y z. unfold order_less.
  destruct (Z.eqb_spec (copies y) (copies x)) as [E1|E1]; destruct (Z.eqb_spec (copies z) (copies y)) as [E2|E2]; destruct (Z.eqb_spec (copies z) (copies x)) as [E3|E3]; try lia; simpl;
    rewrite ?Nat.ltb_ge, ?Z.ltb_ge; lia.
Qed.

Lemma order_insert_sorted : forall x l, StronglySorted (fun a b => order_less i b a = false) l ->
  StronglySorted (fun a b => order_less i b a = false) (order_insert i x l).
Proof.
  intros x l. induction l as [|y l IH]; intro H; [constructor; constructor|]. cbn [order_insert].
  destruct (order_less i x y) eqn:E.
  - constructor; [exact H|]. inversion H as [|y' l' Hl Hy]; subst. constructor; [apply order_asym; exact E|].
    apply Forall_forall. intros z Hz. rewrite Forall_forall in Hy. apply (order_trans x y z); [apply order_asym; exact E|apply Hy; exact Hz].
  - inversion H as [|y' l' Hl Hy]; subst. constructor; [apply IH; exact Hl|]. apply Forall_forall. intros z Hz.
    apply (Permutation_in _ (Permutation_sym (order_insert_perm x l))) in Hz. destruct Hz as [<-|Hz]; [exact E|]. rewrite Forall_forall in Hy. apply Hy. exact Hz.
Qed.

Lemma order_perm : Permutation (seq 0 ni) (item_type_order i).
Proof. apply sort_perm. apply order_insert_perm. Qed.
Lemma order_sorted : StronglySorted (fun a b => order_less i b a = false) (item_type_order i).
Proof.
  unfold item_type_order. induction (seq 0 ni) as [|x l IH]; [constructor|]. cbn [fold_right]. apply order_insert_sorted. exact IH.
Qed.

Lemma supply_ge : forall t x l acc, (forall y, In y l -> 0 <= copies y) -> NoDup l ->
  StronglySorted (fun a b => order_less i b a = false) l -> In x l -> item_type_fits_bin_type i x t = true ->
  acc + zsum (fun y => copies y) (filter (fun y => item_type_fits_bin_type i y t && negb (order_less i x y)) l) <= supply_walk i t x l acc.
Proof.
  intros t x l. induction l as [|y l IH]; intros acc Hc Hn Hs Hx Hf; [destruct Hx|]. cbn [supply_walk filter].
  inversion Hs as [|y' l' Hl Hy]; subst. inversion Hn as [|y' l' Hny Hnl]; subst. pose proof (Hc y (or_introl eq_refl)) as Hcy.
  assert (Hc' : forall z, In z l -> 0 <= copies z) by (intros z Hz; apply Hc; right; exact Hz).
  destruct (Nat.eqb_spec y x) as [E|E].
  - subst y. rewrite Hf. assert (Hirr : order_less i x x = false) by (destruct (order_less i x x) eqn:E; [rewrite (order_asym _ _ E) in E; discriminate|reflexivity]).
    rewrite Hirr. cbn [andb negb]. rewrite zsum_cons.
    replace (filter _ l) with (@nil nat).
    + rewrite zsum_nil. lia.
    + symmetry. rewrite Forall_forall in Hy. assert (G : forall z, In z l -> item_type_fits_bin_type i z t && negb (order_less i x z) = false).
      { intros z Hz. destruct (order_total z x (Hy z Hz)) as [G|G]; [rewrite G; apply andb_false_r|]. subst z. contradiction. }
      clear -G. induction l as [|z l IH]; [reflexivity|]. cbn [filter]. rewrite G by (left; reflexivity). apply IH. intros w Hw. apply G. right. exact Hw.
  - destruct Hx as [Hx|Hx]; [contradiction|]. destruct (item_type_fits_bin_type i y t); cbn [andb].
    + specialize (IH (acc + copies y) Hc' Hnl Hl Hx Hf). cbv zeta. destruct (negb (order_less i x y)); [rewrite zsum_cons|]; lia.
    + apply IH; assumption.
Qed.

Lemma cumulative_ge : forall t x, (forall y, (y < ni)%nat -> 0 <= copies y) -> (x < ni)%nat -> item_type_fits_bin_type i x t = true ->
  zsum (fun y => copies y) (filter (fun y => item_type_fits_bin_type i y t && negb (order_less i x y)) (seq 0 ni)) <= cumulative_supply i x t.
Proof.
  intros t x Hc Hx Hf. unfold cumulative_supply.
  pose proof (supply_ge t x (item_type_order i) 0) as G. 
  assert (P : forall q, zsum (fun y => copies y) (filter q (seq 0 ni)) = zsum (fun y => copies y) (filter q (item_type_order i))).
  { intro q. rewrite !zsum_filter_if. apply zsum_perm. exact order_perm. }
  rewrite P. apply G.
  - intros y Hy. apply Hc. apply (Permutation_in _ (Permutation_sym order_perm)) in Hy. apply in_seq in Hy. lia.
  - apply (Permutation_NoDup order_perm). apply seq_NoDup.
  - exact order_sorted.
  - apply (Permutation_in _ order_perm). apply in_seq. lia.
  - exact Hf.
Qed.

End Supply.

Lemma zmember : forall A (f : A -> Z) l x, (forall y, In y l -> 0 <= f y) -> In x l -> f x <= zsum f l.
Proof.
  intros A f l x H Hx. apply in_split in Hx. destruct Hx as (l1 & l2 & ->). rewrite zsum_app, zsum_cons.
  assert (0 <= zsum f l1) by (apply zsum_nonneg; intros y Hy; apply H; apply in_or_app; left; exact Hy).
  assert (0 <= zsum f l2) by (apply zsum_nonneg; intros y Hy; apply H; apply in_or_app; right; right; exact Hy). lia.
Qed.

Lemma nodup_app_intro : forall A (l1 l2 : list A), NoDup l1 -> NoDup l2 -> (forall a, In a l1 -> In a l2 -> False) -> NoDup (l1 ++ l2).
Proof.
  intros A l1. induction l1 as [|a l1 IH]; intros l2 H1 H2 H; [exact H2|]. inversion H1 as [|a' l' Ha Hl]; subst. cbn [app]. constructor.
  - intro Hin. apply in_app_or in Hin. destruct Hin as [Hin|Hin]; [contradiction|]. apply (H a); [left; reflexivity|exact Hin].
  - apply IH; [exact Hl|exact H2|]. intros b Hb1 Hb2. apply (H b); [right; exact Hb1|exact Hb2].
Qed.
