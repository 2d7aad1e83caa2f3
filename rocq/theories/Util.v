(** * List helpers shared by the models and the proofs. *)

From Coq Require Import List ZArith QArith Bool Lia Arith Lqa Permutation.
Import ListNotations.

(** [v[n] = f(v[n])] on a vector; out of range leaves it unchanged (the models
    guard every access). *)
Fixpoint upd {A : Type} (n : nat) (f : A -> A) (l : list A) : list A :=
  match l, n with
  | [], _ => []
  | x :: l', O => f x :: l'
  | x :: l', S n' => x :: upd n' f l'
  end.

(** Sums. *)
Definition zsum {A : Type} (f : A -> Z) (l : list A) : Z :=
  fold_right (fun x s => (f x + s)%Z) 0%Z l.

Definition qsum {A : Type} (f : A -> Q) (l : list A) : Q :=
  fold_right (fun x s => (f x + s)%Q) 0%Q l.

(** [P p x] for every element [x] and the list [p] of elements before it. *)
Definition PrefAll {A : Type} (P : list A -> A -> Prop) (l : list A) : Prop :=
  forall p x q, l = p ++ x :: q -> P p x.

Lemma upd_length : forall A n (f : A -> A) l, length (upd n f l) = length l.
Proof.
  intros A n f l. revert n. induction l as [|x l IH]; intros [|n]; simpl; auto.
Qed.

Lemma nth_upd_same : forall A n (f : A -> A) l d, (n < length l)%nat ->
  nth n (upd n f l) d = f (nth n l d).
Proof.
  intros A n f l d. revert n. induction l as [|x l IH]; intros [|n] H; simpl in *; try lia; auto.
  apply IH. lia.
Qed.

Lemma nth_upd_other : forall A n m (f : A -> A) l d, n <> m ->
  nth m (upd n f l) d = nth m l d.
Proof.
  intros A n m f l d H. revert n m H.
  induction l as [|x l IH]; intros [|n] [|m] H; simpl; auto; try lia.
Qed.

Lemma upd_oob : forall A n (f : A -> A) l, (length l <= n)%nat -> upd n f l = l.
Proof.
  intros A n f l. revert n. induction l as [|x l IH]; intros [|n] H; simpl in *; auto; try lia.
  rewrite IH by lia. reflexivity.
Qed.

Lemma nth_upd : forall A n m (f : A -> A) l d, (n < length l)%nat ->
  nth m (upd n f l) d = if Nat.eqb n m then f (nth m l d) else nth m l d.
Proof.
  intros A n m f l d H. destruct (Nat.eqb_spec n m).
  - subst. apply nth_upd_same. assumption.
  - apply nth_upd_other. assumption.
Qed.

Lemma zsum_app : forall A (f : A -> Z) l1 l2, zsum f (l1 ++ l2) = (zsum f l1 + zsum f l2)%Z.
Proof.
  intros A f l1 l2. induction l1 as [|x l1 IH]; simpl; [reflexivity|].
  unfold zsum in *. simpl. rewrite IH. lia.
Qed.

Lemma zsum_cons : forall A (f : A -> Z) x l, zsum f (x :: l) = (f x + zsum f l)%Z.
Proof. reflexivity. Qed.

Lemma zsum_nil : forall A (f : A -> Z), zsum f [] = 0%Z.
Proof. reflexivity. Qed.

Lemma zsum_snoc : forall A (f : A -> Z) l x, zsum f (l ++ [x]) = (zsum f l + f x)%Z.
Proof. intros. rewrite zsum_app. simpl. lia. Qed.

Lemma zsum_ext : forall A (f g : A -> Z) l, (forall x, In x l -> f x = g x) -> zsum f l = zsum g l.
Proof.
  intros A f g l H. induction l as [|x l IH]; [reflexivity|].
  rewrite !zsum_cons, (H x (or_introl eq_refl)), IH; [reflexivity|].
  intros y Hy. apply H. right. assumption.
Qed.

Lemma zsum_plus : forall A (f g : A -> Z) l,
  zsum (fun x => (f x + g x)%Z) l = (zsum f l + zsum g l)%Z.
Proof. intros A f g l. induction l as [|x l IH]; [reflexivity|]. rewrite !zsum_cons, IH. lia. Qed.

Lemma zsum_mult : forall A (f : A -> Z) c l,
  zsum (fun x => (c * f x)%Z) l = (c * zsum f l)%Z.
Proof. intros A f c l. induction l as [|x l IH]; [simpl; lia|]. rewrite !zsum_cons, IH. lia. Qed.

Lemma zsum_le : forall A (f g : A -> Z) l, (forall x, In x l -> (f x <= g x)%Z) ->
  (zsum f l <= zsum g l)%Z.
Proof.
  intros A f g l H. induction l as [|x l IH]; [reflexivity|].
  rewrite !zsum_cons. pose proof (H x (or_introl eq_refl)).
  assert (zsum f l <= zsum g l)%Z by (apply IH; intros; apply H; right; assumption). lia.
Qed.

Lemma zsum_nonneg : forall A (f : A -> Z) l, (forall x, In x l -> (0 <= f x)%Z) -> (0 <= zsum f l)%Z.
Proof.
  intros A f l H. induction l as [|x l IH]; [reflexivity|].
  rewrite zsum_cons. pose proof (H x (or_introl eq_refl)).
  assert (0 <= zsum f l)%Z by (apply IH; intros; apply H; right; assumption). lia.
Qed.

Lemma zsum_map : forall A B (g : A -> B) (f : B -> Z) l, zsum f (map g l) = zsum (fun x => f (g x)) l.
Proof. intros. induction l as [|x l IH]; [reflexivity|]. simpl map. rewrite !zsum_cons, IH. reflexivity. Qed.

Lemma zsum_perm : forall A (f : A -> Z) l1 l2, Permutation l1 l2 -> zsum f l1 = zsum f l2.
Proof.
  intros A f l1 l2 H. induction H; rewrite ?zsum_cons; lia.
Qed.

Lemma zsum_flat_map : forall A B (g : A -> list B) (f : B -> Z) l,
  zsum f (flat_map g l) = zsum (fun x => zsum f (g x)) l.
Proof.
  intros. induction l as [|x l IH]; [reflexivity|].
  simpl flat_map. rewrite zsum_app, zsum_cons, IH. reflexivity.
Qed.

Lemma zsum_repeat : forall A (f : A -> Z) x n, zsum f (repeat x n) = (Z.of_nat n * f x)%Z.
Proof.
  intros. induction n as [|n IH]; [reflexivity|]. simpl repeat. rewrite zsum_cons, IH. lia.
Qed.

Open Scope Q_scope.

Lemma qsum_app : forall A (f : A -> Q) l1 l2, qsum f (l1 ++ l2) == qsum f l1 + qsum f l2.
Proof.
  intros A f l1 l2. induction l1 as [|x l1 IH]; simpl; [ring|].
  change (f x + qsum f (l1 ++ l2) == f x + qsum f l1 + qsum f l2). rewrite IH. ring.
Qed.

Lemma qsum_cons : forall A (f : A -> Q) x l, qsum f (x :: l) = f x + qsum f l.
Proof. reflexivity. Qed.

Lemma qsum_snoc : forall A (f : A -> Q) l x, qsum f (l ++ [x]) == qsum f l + f x.
Proof. intros. rewrite qsum_app. simpl. ring. Qed.

Lemma qsum_ext : forall A (f g : A -> Q) l, (forall x, In x l -> f x == g x) -> qsum f l == qsum g l.
Proof.
  intros A f g l H. induction l as [|x l IH]; [reflexivity|].
  rewrite !qsum_cons. rewrite (H x (or_introl eq_refl)), IH; [reflexivity|].
  intros y Hy. apply H. right. assumption.
Qed.

Lemma qsum_le : forall A (f g : A -> Q) l, (forall x, In x l -> f x <= g x) -> qsum f l <= qsum g l.
Proof.
  intros A f g l H. induction l as [|x l IH]; [apply Qle_refl|].
  rewrite !qsum_cons. apply Qplus_le_compat; [apply H; left; reflexivity|].
  apply IH. intros y Hy. apply H. right. assumption.
Qed.

Lemma qsum_nonneg : forall A (f : A -> Q) l, (forall x, In x l -> 0 <= f x) -> 0 <= qsum f l.
Proof.
  intros A f l H. induction l as [|x l IH]; [apply Qle_refl|].
  rewrite qsum_cons. pose proof (H x (or_introl eq_refl)) as Hx.
  assert (Hl : 0 <= qsum f l) by (apply IH; intros y Hy; apply H; right; assumption). lra.
Qed.

Lemma qsum_plus : forall A (f g : A -> Q) l, qsum (fun x => f x + g x) l == qsum f l + qsum g l.
Proof.
  intros A f g l. induction l as [|x l IH]; [reflexivity|]. rewrite !qsum_cons, IH. ring.
Qed.

Lemma qsum_scale : forall A (f : A -> Q) c l, qsum (fun x => c * f x) l == c * qsum f l.
Proof.
  intros A f c l. induction l as [|x l IH]; [simpl; ring|]. rewrite !qsum_cons, IH. ring.
Qed.

Lemma qsum_zero : forall A (f : A -> Q) l, (forall x, In x l -> f x == 0) -> qsum f l == 0.
Proof.
  intros A f l H. induction l as [|x l IH]; [reflexivity|].
  rewrite qsum_cons, (H x (or_introl eq_refl)), IH; [ring|].
  intros y Hy. apply H. right. assumption.
Qed.

Lemma qsum_map : forall A B (g : A -> B) (f : B -> Q) l, qsum f (map g l) = qsum (fun x => f (g x)) l.
Proof. intros. induction l as [|x l IH]; [reflexivity|]. simpl map. rewrite !qsum_cons, IH. reflexivity. Qed.

Lemma qsum_perm : forall A (f : A -> Q) l1 l2, Permutation l1 l2 -> qsum f l1 == qsum f l2.
Proof.
  intros A f l1 l2 H. induction H; rewrite ?qsum_cons.
  - reflexivity.
  - rewrite IHPermutation. reflexivity.
  - ring.
  - rewrite IHPermutation1. assumption.
Qed.

Lemma qsum_inject : forall A (f : A -> Z) l, qsum (fun x => inject_Z (f x)) l == inject_Z (zsum f l).
Proof.
  intros. induction l as [|x l IH]; [reflexivity|]. rewrite qsum_cons, zsum_cons, IH, inject_Z_plus. reflexivity.
Qed.

Lemma prefall_nil : forall A (P : list A -> A -> Prop), PrefAll P [].
Proof. intros A P p x q H. destruct p; discriminate. Qed.

Lemma prefall_snoc : forall A (P : list A -> A -> Prop) l y,
  PrefAll P (l ++ [y]) <-> PrefAll P l /\ P l y.
Proof.
  intros A P l y. split.
  - intro H. split.
    + intros p x q E. subst l. apply (H p x (q ++ [y])). rewrite <- app_assoc. reflexivity.
    + apply (H l y []). reflexivity.
  - intros [H1 H2] p x q E.
    destruct (exists_last (l := x :: q)) as (q' & z & Hq); [discriminate|].
    rewrite Hq, app_assoc in E. apply app_inj_tail in E. destruct E as [E1 E2]. subst z.
    destruct q' as [|x' q'].
    + simpl in Hq. injection Hq as -> ->. rewrite app_nil_r in E1. subst l. assumption.
    + simpl in Hq. injection Hq as -> ->. apply (H1 p x' q'). assumption.
Qed.

Lemma prefall_app : forall A (P : list A -> A -> Prop) l1 l2,
  PrefAll P (l1 ++ l2) <-> PrefAll P l1 /\ PrefAll (fun p x => P (l1 ++ p) x) l2.
Proof.
  intros A P l1 l2. induction l2 as [|y l2 IH] using rev_ind.
  - rewrite app_nil_r. split; [intro H; split; [assumption|apply prefall_nil]|tauto].
  - rewrite app_assoc, !prefall_snoc, IH. tauto.
Qed.

Lemma prefall_impl : forall A (P Q : list A -> A -> Prop) l,
  (forall p x, P p x -> Q p x) -> PrefAll P l -> PrefAll Q l.
Proof. intros A P Q l H HP p x q E. apply H. eapply HP. eassumption. Qed.

Lemma prefall_const : forall A (P : A -> Prop) l,
  PrefAll (fun _ x => P x) l <-> Forall P l.
Proof.
  intros A P l. induction l as [|y l IH] using rev_ind.
  - split; [constructor|intros _; apply prefall_nil].
  - rewrite prefall_snoc, Forall_app, IH. split; intros [H1 H2]; split; auto.
    inversion H2; assumption.
Qed.

Lemma nodup_app_intro : forall A (l1 l2 : list A), NoDup l1 -> NoDup l2 ->
  (forall x, In x l1 -> In x l2 -> False) -> NoDup (l1 ++ l2).
Proof.
  intros A l1 l2 H1 H2 H. induction H1 as [|x l1 Hx H1 IH]; simpl; [assumption|].
  constructor.
  - intro Hin. apply in_app_or in Hin. destruct Hin as [Hin|Hin]; [contradiction|].
    apply (H x); [left; reflexivity|assumption].
  - apply IH. intros y Hy1 Hy2. apply (H y); [right; assumption|assumption].
Qed.

Lemma exists_last_or_nil : forall A (l : list A), l = [] \/ exists l' x, l = l' ++ [x].
Proof.
  intros A l. destruct l as [|a l]; [left; reflexivity|right].
  destruct (exists_last (l := a :: l)) as (l' & x & E); [discriminate|]. eauto.
Qed.
