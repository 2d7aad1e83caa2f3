(** * Proofs about the block generation loop *)

From Coq Require Import List ZArith QArith Bool Lia Lqa Arith Sorted Permutation.
From Verif Require Import Util Common_Model Common_Proof Block_Model.
Import ListNotations.
Open Scope Z_scope.

(** ** Sparse copies *)

(** Copies of item type [x]. *)
Definition lookup (x : nat) (l : Copies) : Z := zsum (fun e => if Nat.eqb (fst e) x then snd e else 0) l.
Definition sorted_ids (l : Copies) : Prop := StronglySorted lt (map fst l).

Lemma lookup_cons : forall x y c l, lookup x ((y, c) :: l) = (if Nat.eqb y x then c else 0) + lookup x l.
Proof. intros. unfold lookup. rewrite zsum_cons. reflexivity. Qed.

Lemma lookup_not_in : forall x l, ~ In x (map fst l) -> lookup x l = 0.
Proof.
  intros x l. induction l as [|[y c] l IH]; intro H; [reflexivity|]. rewrite lookup_cons. simpl in H.
  destruct (Nat.eqb_spec y x); [subst; tauto|]. rewrite IH by tauto. lia.
Qed.

Lemma lookup_in : forall x c l, sorted_ids l -> In (x, c) l -> lookup x l = c.
Proof.
  intros x c l. induction l as [|[y d] l IH]; intros Hs Hin; [destruct Hin|].
  unfold sorted_ids in Hs. simpl in Hs. apply StronglySorted_inv in Hs. destruct Hs as [Hs1 Hs2]. rewrite Forall_forall in Hs2.
  rewrite lookup_cons. destruct Hin as [E|Hin].
  - injection E as -> ->. rewrite Nat.eqb_refl, lookup_not_in; [lia|]. intro H. apply Hs2 in H. lia.
  - assert (In x (map fst l)) by (apply (in_map fst) in Hin; exact Hin). apply Hs2 in H.
    destruct (Nat.eqb_spec y x); [lia|]. rewrite IH by assumption. lia.
Qed.

Lemma merge_nil_r : forall l, merge_copies l [] = l.
Proof. induction l as [|[x c] l IH]; simpl; [reflexivity|rewrite IH; reflexivity]. Qed.
Lemma merge_nil_l : forall l, merge_copies [] l = l.
Proof. induction l as [|[x c] l IH]; simpl in *; [reflexivity|rewrite IH; reflexivity]. Qed.

Lemma merge_eq : forall x1 c1 r1 x2 c2 r2, merge_copies ((x1, c1) :: r1) ((x2, c2) :: r2) =
  if Nat.ltb x1 x2 then (x1, c1) :: merge_copies r1 ((x2, c2) :: r2)
  else if Nat.ltb x2 x1 then (x2, c2) :: merge_copies ((x1, c1) :: r1) r2
  else (x1, c1 + c2) :: merge_copies r1 r2.
Proof. reflexivity. Qed.

Lemma merge_spec : forall l1 l2,
  (forall x, lookup x (merge_copies l1 l2) = lookup x l1 + lookup x l2) /\
  (forall x, In x (map fst (merge_copies l1 l2)) <-> In x (map fst l1) \/ In x (map fst l2)).
Proof.
  induction l1 as [|[x1 c1] r1 IH1]; intro l2.
  - rewrite merge_nil_l. split; intro x; [reflexivity|simpl; tauto].
  - induction l2 as [|[x2 c2] r2 IH2].
    + rewrite merge_nil_r. split; intro x; [unfold lookup at 3; rewrite zsum_nil; lia|simpl; tauto].
    + rewrite merge_eq. destruct (Nat.ltb_spec x1 x2); [|destruct (Nat.ltb_spec x2 x1)].
      * destruct (IH1 ((x2, c2) :: r2)) as [A1 A2]. split; intro x.
        -- rewrite !lookup_cons, A1, lookup_cons. lia.
        -- cbn [map fst In]. rewrite A2. cbn [map fst In]. tauto.
      * destruct IH2 as [A1 A2]. split; intro x.
        -- rewrite !lookup_cons, A1, lookup_cons. lia.
        -- cbn [map fst In]. rewrite A2. cbn [map fst In]. tauto.
      * assert (x1 = x2) by lia. subst x2. destruct (IH1 r2) as [A1 A2]. split; intro x.
        -- rewrite !lookup_cons, A1. destruct (Nat.eqb x1 x); lia.
        -- cbn [map fst In]. rewrite A2. tauto.
Qed.

Lemma sorted_cons : forall x c l, sorted_ids ((x, c) :: l) <-> sorted_ids l /\ forall y, In y (map fst l) -> (x < y)%nat.
Proof.
  intros x c l. unfold sorted_ids. simpl. split.
  - intro H. apply StronglySorted_inv in H. destruct H as [H1 H2]. rewrite Forall_forall in H2. auto.
  - intros [H1 H2]. constructor; [assumption|]. apply Forall_forall. assumption.
Qed.

Lemma merge_sorted : forall l1 l2, sorted_ids l1 -> sorted_ids l2 -> sorted_ids (merge_copies l1 l2).
Proof.
  induction l1 as [|[x1 c1] r1 IH1]; intros l2 S1 S2; [rewrite merge_nil_l; assumption|].
  induction l2 as [|[x2 c2] r2 IH2]; [rewrite merge_nil_r; assumption|].
  rewrite merge_eq. pose proof S1 as S1'. pose proof S2 as S2'.
  apply sorted_cons in S1'. apply sorted_cons in S2'. destruct S1' as [T1 U1]. destruct S2' as [T2 U2].
  destruct (Nat.ltb_spec x1 x2); [|destruct (Nat.ltb_spec x2 x1)]; apply sorted_cons.
  - split; [apply IH1; assumption|]. intros y Hy. apply (proj2 (merge_spec _ _)) in Hy. destruct Hy as [Hy|Hy]; [auto|].
    simpl in Hy. destruct Hy as [<-|Hy]; [assumption|]. apply U2 in Hy. lia.
  - split; [apply IH2; assumption|]. intros y Hy. apply (proj2 (merge_spec _ _)) in Hy. destruct Hy as [Hy|Hy]; [|auto].
    simpl in Hy. destruct Hy as [<-|Hy]; [assumption|]. apply U1 in Hy. lia.
  - split; [apply IH1; assumption|]. intros y Hy. apply (proj2 (merge_spec _ _)) in Hy. destruct Hy as [Hy|Hy]; [auto|].
    apply U2 in Hy. lia.
Qed.

Lemma valid_eq : forall cap x1 c1 r1 x2 c2 r2, valid_copies cap ((x1, c1) :: r1) ((x2, c2) :: r2) =
  if Nat.ltb x1 x2 then if cap x1 <? c1 then false else valid_copies cap r1 ((x2, c2) :: r2)
  else if Nat.ltb x2 x1 then if cap x2 <? c2 then false else valid_copies cap ((x1, c1) :: r1) r2
  else if cap x1 <? c1 + c2 then false else valid_copies cap r1 r2.
Proof. reflexivity. Qed.

(** The check accepts exactly the merged lists within the numbers of copies. *)
Lemma valid_spec : forall cap l1 l2,
  valid_copies cap l1 l2 = true <-> forall x c, In (x, c) (merge_copies l1 l2) -> c <= cap x.
Proof.
  intro cap.
  assert (Hc : forall x1 c1 (b : bool) (P : Prop) l, (b = true <-> forall x c, In (x, c) l -> c <= cap x) ->
    ((if cap x1 <? c1 then false else b) = true <-> forall x c, In (x, c) ((x1, c1) :: l) -> c <= cap x)).
  { intros x1 c1 b P l H. destruct (Z.ltb_spec (cap x1) c1).
    - split; [discriminate|]. intro K. specialize (K x1 c1 (or_introl eq_refl)). lia.
    - rewrite H. split; intros K x c Hin; [|apply K; right; assumption].
      destruct Hin as [E|Hin]; [injection E as <- <-; assumption|apply K; assumption]. }
  induction l1 as [|[x1 c1] r1 IH1]; intro l2.
  - induction l2 as [|[x2 c2] r2 IH2]; [simpl; split; [intros _ x c []|reflexivity]|].
    change (merge_copies [] ((x2, c2) :: r2)) with ((x2, c2) :: merge_copies [] r2).
    change (valid_copies cap [] ((x2, c2) :: r2)) with (if cap x2 <? c2 then false else valid_copies cap [] r2).
    apply Hc; [exact True|assumption].
  - induction l2 as [|[x2 c2] r2 IH2].
    + change (merge_copies ((x1, c1) :: r1) []) with ((x1, c1) :: merge_copies r1 []).
      change (valid_copies cap ((x1, c1) :: r1) []) with (if cap x1 <? c1 then false else valid_copies cap r1 []).
      apply Hc; [exact True|apply IH1].
    + rewrite merge_eq, valid_eq. destruct (Nat.ltb x1 x2); [|destruct (Nat.ltb x2 x1)]; apply Hc; auto; exact True.
Qed.

Lemma copies_eqb_eq : forall l1 l2, copies_eqb l1 l2 = true <-> l1 = l2.
Proof.
  induction l1 as [|[x1 c1] r1 IH]; intros [|[x2 c2] r2]; simpl; split; intro H; try discriminate; try reflexivity.
  - apply andb_prop in H. destruct H as [H H3]. apply andb_prop in H. destruct H as [H1 H2].
    apply Nat.eqb_eq in H1. apply Z.eqb_eq in H2. apply IH in H3. congruence.
  - injection H as -> -> ->. rewrite Nat.eqb_refl, Z.eqb_refl. simpl. apply IH. reflexivity.
Qed.

(** Finitely many sorted lists with bounded numbers of copies. *)
Lemma finitely_many_copies : forall (cap : nat -> Z) n, exists U : list Copies,
  forall l, sorted_ids l -> (forall x c, In (x, c) l -> (x < n)%nat /\ 0 <= c <= cap x) -> In l U.
Proof.
  intros cap n. 
  assert (H : forall k m, (m + k = n)%nat -> exists U : list Copies,
    forall l, sorted_ids l -> (forall x c, In (x, c) l -> (m <= x < n)%nat /\ 0 <= c <= cap x) -> In l U).
  { induction k as [|k IH]; intros m Hm.
    - exists [[]]. intros [|[x c] l] _ Hl; [left; reflexivity|]. destruct (Hl x c (or_introl eq_refl)). lia.
    - destruct (IH (S m)) as (U & HU); [lia|].
      exists (U ++ flat_map (fun c => map (fun l => (m, Z.of_nat c) :: l) U) (seq 0 (S (Z.to_nat (cap m))))).
      intros l Hs Hl. apply in_or_app. destruct l as [|[x c] l].
      + left. apply HU; [assumption|intros x c []].
      + destruct (Nat.eq_dec x m) as [->|Hx].
        * right. apply in_flat_map. apply sorted_cons in Hs. destruct Hs as [Hs1 Hs2].
          destruct (Hl m c (or_introl eq_refl)) as [_ Hc].
          exists (Z.to_nat c). split; [apply in_seq; lia|]. apply in_map_iff. exists l.
          rewrite Z2Nat.id by lia. split; [reflexivity|]. apply HU; [assumption|].
          intros y d Hin. destruct (Hl y d (or_intror Hin)) as [A1 A2]. split; [|assumption].
          apply (in_map fst) in Hin. apply Hs2 in Hin. simpl in Hin. lia.
        * left. apply HU; [assumption|]. intros y d Hin. destruct (Hl y d Hin) as [A1 A2]. split; [|assumption].
          destruct Hin as [E|Hin]; [injection E as <- <-; lia|].
          apply sorted_cons in Hs. destruct Hs as [_ Hs2]. apply (in_map fst) in Hin. apply Hs2 in Hin. simpl in Hin.
          destruct (Hl x c (or_introl eq_refl)). lia. }
  destruct (H n 0%nat eq_refl) as (U & HU). exists U. intros l Hs Hl. apply HU; [assumption|].
  intros x c Hin. destruct (Hl x c Hin). split; [lia|assumption].
Qed.

(** ** The order of the waiting blocks *)

Lemma rate_less_asym : forall n1 e1 n2 e2, rate_less n1 e1 n2 e2 = true -> rate_less n2 e2 n1 e1 = false.
Proof.
  intros n1 e1 n2 e2. unfold rate_less.
  destruct (Z.eqb_spec n1 1), (Z.eqb_spec n2 1); simpl; try congruence.
  all: destruct (Qeq_bool e1 e2) eqn:E; [apply Qeq_bool_iff in E; assert (E' : Qeq_bool e2 e1 = true) by (apply Qeq_bool_iff; lra); rewrite E'
    |assert (E' : Qeq_bool e2 e1 = false) by (apply not_true_iff_false; intro K; apply Qeq_bool_iff in K; apply not_true_iff_false in E; apply E, Qeq_bool_iff; lra); rewrite E']; simpl.
  all: try (intro H; apply Z.ltb_lt in H; apply Z.ltb_ge; lia).
  all: unfold Qltb; intro H; apply negb_true_iff in H; apply negb_false_iff; apply Qle_bool_iff;
    apply not_true_iff_false in H; rewrite Qle_bool_iff in H; lra.
Qed.

Lemma rate_less_trans : forall n1 e1 n2 e2 n3 e3, rate_less n1 e1 n2 e2 = true -> rate_less n2 e2 n3 e3 = true -> rate_less n1 e1 n3 e3 = true.
Proof.
  assert (Heq : forall a b, Qeq_bool a b = true <-> (a == b)%Q) by (intros; apply Qeq_bool_iff).
  assert (Hneq : forall a b, Qeq_bool a b = false <-> ~ (a == b)%Q).
  { intros a b. rewrite <- Heq. destruct (Qeq_bool a b); split; congruence. }
  assert (Hlt : forall a b, Qltb a b = true <-> (a < b)%Q).
  { intros a b. unfold Qltb. rewrite negb_true_iff. rewrite <- not_true_iff_false, Qle_bool_iff. lra. }
  intros n1 e1 n2 e2 n3 e3. unfold rate_less.
  destruct (Z.eqb_spec n1 1), (Z.eqb_spec n2 1), (Z.eqb_spec n3 1); simpl; try congruence.
  all: destruct (Qeq_bool e1 e2) eqn:E1, (Qeq_bool e2 e3) eqn:E2; simpl;
    [apply Heq in E1; apply Heq in E2; assert (E3 : Qeq_bool e1 e3 = true) by (apply Heq; lra); rewrite E3; simpl; rewrite !Z.ltb_lt; lia
    |apply Heq in E1; apply Hneq in E2; assert (E3 : Qeq_bool e1 e3 = false) by (apply Hneq; lra); rewrite E3; simpl; rewrite !Hlt; intros; lra
    |apply Hneq in E1; apply Heq in E2; assert (E3 : Qeq_bool e1 e3 = false) by (apply Hneq; lra); rewrite E3; simpl; rewrite !Hlt; intros; lra
    |rewrite !Hlt; intros K1 K2; assert (E3 : Qeq_bool e1 e3 = false) by (apply Hneq; lra); rewrite E3; simpl; rewrite !Hlt; lra].
Qed.

(** ** The loop *)

Lemma nodup_app_l : forall (A : Type) (l m : list A), NoDup (l ++ m) -> NoDup l.
Proof.
  intros A l m. induction l as [|a l IH]; intro H; [constructor|]. simpl in H. inversion H. subst. constructor; [|auto].
  intro Hin. apply H2. apply in_or_app. auto.
Qed.
Lemma nodup_app_r : forall (A : Type) (l m : list A), NoDup (l ++ m) -> NoDup m.
Proof. intros A l m. induction l as [|a l IH]; intro H; [assumption|]. simpl in H. inversion H. subst. auto. Qed.

Section Engine.

Context {B K : Type}.
Variable key : B -> K.
Variable key_eqb : K -> K -> bool.
Variable less : B -> B -> bool.
Variable skip : B -> bool.
Variable combine : nat -> B -> nat -> B -> list B.
Variable maximum : Z.

Hypothesis Hkey : forall a b, key_eqb a b = true <-> a = b.

Lemma seen_in_spec : forall k seen, seen_in key_eqb k seen = true <-> In k seen.
Proof.
  intros k seen. unfold seen_in. rewrite existsb_exists. split.
  - intros (x & Hx & E). apply Hkey in E. subst. assumption.
  - intro H. exists k. split; [assumption|]. apply Hkey. reflexivity.
Qed.

Lemma qinsert_perm : forall b q, Permutation (qinsert less b q) (b :: q).
Proof.
  intros b q. induction q as [|c q IH]; simpl; [reflexivity|]. destruct (less b c); [reflexivity|].
  rewrite IH. apply perm_swap.
Qed.

(** Offering a block keeps or drops whole blocks. *)
Lemma enqueue_spec : forall q seen b, exists l, Permutation (b :: q) l /\
  ((enqueue key key_eqb less maximum (q, seen) b = (qinsert less b q, seen) /\ l = qinsert less b q /\
    (maximum <> -1 -> Z.of_nat (length l) <= maximum)) \/
   exists c r, l = c :: r /\ l = qinsert less b q /\ maximum <> -1 /\ maximum < Z.of_nat (length l) /\
     enqueue key key_eqb less maximum (q, seen) b = (r, filter (fun k => negb (key_eqb (key c) k)) seen)).
Proof.
  intros q seen b. exists (qinsert less b q). split; [symmetry; apply qinsert_perm|]. unfold enqueue, capped.
  destruct (Z.eqb_spec maximum (-1)) as [E|E]; cbn [negb andb]; [left; split; [reflexivity|split; [reflexivity|congruence]]|].
  destruct (Z.ltb_spec maximum (Z.of_nat (length (qinsert less b q)))).
  - destruct (qinsert less b q) as [|c r] eqn:Eq.
    + pose proof (qinsert_perm b q) as P. rewrite Eq in P. apply Permutation_nil in P. discriminate.
    + right. exists c, r. auto.
  - left. auto.
Qed.

(** *** Generic invariant *)

Variable Good : list B -> B -> Prop.
Hypothesis Hmono : forall l m b, Good l b -> Good (l ++ m) b.
Hypothesis Hcomb : forall ret b idx e c, nth_error ret idx = Some e -> Good ret b -> Good (firstn idx ret) e ->
  In c (combine (length ret) b idx e) -> Good (ret ++ [b]) c.

(** Waiting blocks [q], [seen] keys, blocks [ret] returned so far, and blocks
    [ctx] that the waiting blocks may refer to. *)
Record inv (ctx : list B) (w : list B * list K) (ret : list B) : Prop := {
  in_nodup : NoDup (map key (fst w ++ ret));
  in_seen : forall b, In b (fst w ++ ret) -> In (key b) (snd w);
  in_seen_nodup : NoDup (snd w);
  in_good : forall b, In b (fst w) -> Good ctx b
}.

Lemma enqueue_inv : forall ctx q seen ret b, inv ctx (q, seen) ret -> ~ In (key b) seen -> Good ctx b ->
  inv ctx (enqueue key key_eqb less maximum (q, key b :: seen) b) ret.
Proof.
  intros ctx q seen ret b [I1 I2 I3 I4] Hn Hg. cbn [fst snd] in *.
  destruct (enqueue_spec q (key b :: seen) b) as (l & P & [(E & -> & _)|(c & r & El & El' & _ & _ & E)]); rewrite E.
  - assert (Hin : forall a, In a (qinsert less b q) <-> a = b \/ In a q).
    { intro a. rewrite (Permutation_in' (eq_refl a) (qinsert_perm b q)). simpl. split; intros [H|H]; auto. }
    constructor; cbn [fst snd].
    + assert (P' : Permutation (map key (qinsert less b q ++ ret)) (key b :: map key (q ++ ret))).
      { change (key b :: map key (q ++ ret)) with (map key ((b :: q) ++ ret)). apply Permutation_map. apply Permutation_app_tail. apply qinsert_perm. }
      rewrite P'. constructor; [|assumption]. intro H. apply in_map_iff in H. destruct H as (a & Ea & Ha). apply Hn. rewrite <- Ea. apply I2. assumption.
    + intros a Ha. apply in_app_or in Ha. rewrite Hin in Ha. destruct Ha as [[->|Ha]|Ha]; [left; reflexivity| |]; right; apply I2; apply in_or_app; auto.
    + constructor; assumption.
    + intros a Ha. apply Hin in Ha. destruct Ha as [->|Ha]; auto.
  - assert (Hin : forall a, In a (c :: r) <-> a = b \/ In a q).
    { intro a. rewrite <- El. rewrite <- (Permutation_in' (eq_refl a) P). simpl. split; intros [H|H]; auto. }
    assert (P' : Permutation (map key ((c :: r) ++ ret)) (key b :: map key (q ++ ret))).
    { change (key b :: map key (q ++ ret)) with (map key ((b :: q) ++ ret)). apply Permutation_map. apply Permutation_app_tail. rewrite <- El. symmetry. assumption. }
    assert (N : NoDup (map key ((c :: r) ++ ret))).
    { rewrite P'. constructor; [|assumption]. intro H. apply in_map_iff in H. destruct H as (a & Ea & Ha). apply Hn. rewrite <- Ea. apply I2. assumption. }
    simpl in N. inversion N as [|? ? N1 N2]. subst. constructor; cbn [fst snd].
    + assumption.
    + intros a Ha. apply filter_In. split.
      * apply in_app_or in Ha. destruct Ha as [Ha|Ha].
        -- assert (Ha' : In a (c :: r)) by (right; assumption). apply Hin in Ha'. destruct Ha' as [->|Ha']; [left; reflexivity|].
           right. apply I2. apply in_or_app. auto.
        -- right. apply I2. apply in_or_app. auto.
      * apply negb_true_iff. apply not_true_iff_false. intro H. apply Hkey in H. apply N1. rewrite H. apply in_map. assumption.
    + apply NoDup_filter. constructor; assumption.
    + intros a Ha. assert (Ha' : In a (c :: r)) by (right; assumption). apply Hin in Ha'. destruct Ha' as [->|Ha']; auto.
Qed.

Lemma offer_inv : forall ctx w ret b, inv ctx w ret -> Good ctx b -> inv ctx (offer key key_eqb less maximum w b) ret.
Proof.
  intros ctx [q seen] ret b I Hg. unfold offer. cbn [fst snd]. destruct (seen_in key_eqb (key b) seen) eqn:E; [assumption|].
  apply enqueue_inv; auto. rewrite <- seen_in_spec, E. discriminate.
Qed.

Lemma offer_combined_inv : forall ctx w ret b, inv ctx w ret -> Good ctx b -> inv ctx (offer_combined key key_eqb less maximum w b) ret.
Proof. intros ctx w ret b I Hg. unfold offer_combined. destruct (_ && _); [assumption|apply offer_inv; assumption]. Qed.

Lemma fold_inv : forall (f : Waiting -> B -> Waiting) ctx ret,
  (forall w b, inv ctx w ret -> Good ctx b -> inv ctx (f w b) ret) ->
  forall l w, inv ctx w ret -> (forall b, In b l -> Good ctx b) -> inv ctx (fold_left f l w) ret.
Proof.
  intros f ctx ret Hf l. induction l as [|b l IH]; intros w I Hl; [assumption|]. simpl. apply IH.
  - apply Hf; [assumption|]. apply Hl. left. reflexivity.
  - intros c Hc. apply Hl. right. assumption.
Qed.

Definition all_good (ret : list B) : Prop := forall n b, nth_error ret n = Some b -> Good (firstn n ret) b.

Lemma all_good_snoc : forall ret b, all_good ret -> Good ret b -> all_good (ret ++ [b]).
Proof.
  intros ret b H Hb n c Hn. destruct (lt_dec n (length ret)) as [L|L].
  - rewrite nth_error_app1 in Hn by assumption. rewrite firstn_app. replace (n - length ret)%nat with 0%nat by lia. simpl.
    rewrite app_nil_r. apply H. assumption.
  - rewrite nth_error_app2 in Hn by lia. destruct (n - length ret)%nat as [|k] eqn:E; simpl in Hn.
    + injection Hn as <-. rewrite firstn_app. replace (n - length ret)%nat with 0%nat by lia. simpl. rewrite app_nil_r, firstn_all2 by lia. assumption.
    + destruct k; discriminate.
Qed.

Lemma all_combined_good : forall ret b, all_good ret -> Good ret b ->
  forall c, In c (all_combined combine ret b) -> Good (ret ++ [b]) c.
Proof.
  intros ret b Hr Hb c Hc. unfold all_combined in Hc. apply in_flat_map in Hc. destruct Hc as (idx & _ & Hc).
  destruct (nth_error ret idx) as [e|] eqn:E; [|destruct Hc]. eapply Hcomb; eauto.
Qed.

Lemma rev_cons_inv : forall (q : list B) b r, rev q = b :: r -> q = rev r ++ [b].
Proof. intros q b r H. rewrite <- (rev_involutive q), H. reflexivity. Qed.

Lemma step_inv : forall q seen ret b r, rev q = b :: r -> inv ret (q, seen) ret -> all_good ret ->
  inv ret (rev r, seen) ret /\ Good ret b /\
  inv (ret ++ [b]) (fold_left (offer_combined key key_eqb less maximum) (all_combined combine ret b) (rev r, seen)) (ret ++ [b]) /\
  all_good (ret ++ [b]).
Proof.
  intros q seen ret b r Hq I Hg. apply rev_cons_inv in Hq. destruct I as [I1 I2 I3 I4]. cbn [fst snd] in *.
  assert (Hb : Good ret b) by (apply I4; rewrite Hq; apply in_or_app; right; left; reflexivity).
  assert (P : Permutation (q ++ ret) (rev r ++ ret ++ [b])).
  { rewrite Hq, <- app_assoc. apply Permutation_app_head. simpl. apply Permutation_cons_append. }
  split; [|split; [assumption|split]].
  - constructor; cbn [fst snd]; auto.
    + assert (N : NoDup (map key (rev r ++ ret ++ [b]))) by (rewrite <- (Permutation_map key P); assumption).
      rewrite app_assoc, map_app in N. apply NoDup_remove_1 with (l' := []) in N. rewrite app_nil_r in N. assumption.
    + intros a Ha. apply I2. rewrite Hq. apply in_app_or in Ha. apply in_or_app. destruct Ha; [left; apply in_or_app; auto|auto].
    + intros a Ha. apply I4. rewrite Hq. apply in_or_app. auto.
  - apply fold_inv.
    + intros w c. apply offer_combined_inv.
    + constructor; cbn [fst snd].
      * rewrite <- (Permutation_map key P). assumption.
      * intros a Ha. apply I2. rewrite (Permutation_in' (eq_refl a) P). assumption.
      * assumption.
      * intros a Ha. apply Hmono. apply I4. rewrite Hq. apply in_or_app. auto.
    + apply all_combined_good; assumption.
  - apply all_good_snoc; assumption.
Qed.

Theorem loop_good : forall fuel q seen ret out,
  blocks_loop key key_eqb less skip combine maximum fuel (q, seen) ret = Some out ->
  inv ret (q, seen) ret -> all_good ret -> (forall b, In b ret -> skip b = false) ->
  (maximum <> -1 -> 0 <= maximum -> Z.of_nat (length ret) <= maximum) ->
  all_good out /\ NoDup (map key out) /\ (forall b, In b out -> skip b = false) /\
  (maximum <> -1 -> 0 <= maximum -> Z.of_nat (length out) <= maximum).
Proof.
  induction fuel as [|fuel IH]; intros q seen ret out H I Hg Hsk Hmax; [discriminate|].
  assert (Hend : forall o, Some ret = Some o -> all_good o /\ NoDup (map key o) /\ (forall b, In b o -> skip b = false) /\
    (maximum <> -1 -> 0 <= maximum -> Z.of_nat (length o) <= maximum)).
  { intros o E. injection E as <-. split; [assumption|]. split; [|split; assumption].
    destruct I as [I1 _ _ _]. cbn [fst] in I1. rewrite map_app in I1. apply nodup_app_r in I1. assumption. }
  cbn [blocks_loop fst snd] in H. destruct (rev q) as [|b r] eqn:Eq; [apply Hend; assumption|].
  destruct (capped maximum && (maximum <=? Z.of_nat (length ret))) eqn:Ec; [apply Hend; assumption|].
  destruct (step_inv q seen ret b r Eq I Hg) as (I1 & Hb & I2 & Hg2).
  destruct (skip b) eqn:Es; [apply (IH _ _ _ _ H); assumption|].
  destruct (fold_left _ _ _) as [q' seen']. apply (IH _ _ _ _ H); try assumption.
  - intros c Hc. apply in_app_or in Hc. destruct Hc as [Hc|[<-|[]]]; auto.
  - intros Hm Hm0. unfold capped in Ec. replace (maximum =? -1) with false in Ec by (symmetry; apply Z.eqb_neq; assumption).
    cbn [negb andb] in Ec. apply Z.leb_gt in Ec. rewrite app_length. simpl. lia.
Qed.

Theorem run_good : forall fuel grids out, (forall b, In b grids -> Good [] b) ->
  blocks_run key key_eqb less skip combine maximum fuel grids = Some out ->
  all_good out /\ NoDup (map key out) /\ (forall b, In b out -> skip b = false) /\
  (maximum <> -1 -> 0 <= maximum -> Z.of_nat (length out) <= maximum).
Proof.
  intros fuel grids out Hgr H. unfold blocks_run in H.
  assert (I : inv [] (fold_left (offer key key_eqb less maximum) grids ([], [])) []).
  { apply fold_inv; [intros w b; apply offer_inv| |assumption].
    constructor; cbn [fst snd]; [constructor|intros b []|constructor|intros b []]. }
  destruct (fold_left _ _ _) as [q seen]. apply (loop_good _ _ _ _ _ H I).
  - intros [|n] b Hn; discriminate.
  - intros b [].
  - simpl. lia.
Qed.

(** *** Termination *)

Lemma offer_combined_unlimited : maximum = -1 -> forall q seen b,
  offer_combined key key_eqb less maximum (q, seen) b =
  if seen_in key_eqb (key b) seen then (q, seen) else (qinsert less b q, key b :: seen).
Proof.
  intros Hm q seen b. assert (Ec : capped maximum = false) by (unfold capped; rewrite Hm; reflexivity).
  unfold offer_combined, offer, enqueue. rewrite Ec. reflexivity.
Qed.

Lemma offers_count : forall l q seen,
  maximum = -1 -> NoDup seen ->
  let w := fold_left (offer_combined key key_eqb less maximum) l (q, seen) in
  (length (fst w) + length seen = length q + length (snd w))%nat.
Proof.
  intros l q seen Hm Hs. cbv zeta. revert q seen Hs. induction l as [|b l IH]; intros q seen Hs; [reflexivity|].
  cbn [fold_left]. rewrite (offer_combined_unlimited Hm). destruct (seen_in key_eqb (key b) seen) eqn:E; [apply IH; assumption|].
  assert (N : NoDup (key b :: seen)).
  { constructor; [|assumption]. rewrite <- seen_in_spec, E. discriminate. }
  specialize (IH (qinsert less b q) (key b :: seen) N).
  pose proof (Permutation_length (qinsert_perm b q)) as L. cbn [length] in L, IH. lia.
Qed.

(** With a limit, the number of returned blocks grows or the queue gets shorter. *)
Lemma capped_terminates : maximum <> -1 -> forall q seen ret, inv ret (q, seen) ret -> all_good ret ->
  exists fuel out, blocks_loop key key_eqb less skip combine maximum fuel (q, seen) ret = Some out.
Proof.
  intros Hm q seen ret I Hg.
  remember (Z.to_nat (maximum - Z.of_nat (length ret))) as n eqn:En. revert q seen ret I Hg En.
  induction n as [n IHn] using lt_wf_ind. intros q seen ret I Hg En.
  remember (length q) as m eqn:Em. revert q seen I Em. induction m as [m IHm] using lt_wf_ind. intros q seen I Em.
  destruct (rev q) as [|b r] eqn:Eq.
  { exists 1%nat, ret. cbn [blocks_loop fst]. rewrite Eq. reflexivity. }
  destruct (capped maximum && (maximum <=? Z.of_nat (length ret))) eqn:Ec.
  { exists 1%nat, ret. cbn [blocks_loop fst]. rewrite Eq, Ec. reflexivity. }
  destruct (step_inv q seen ret b r Eq I Hg) as (I1 & Hb & I2 & Hg2).
  destruct (skip b) eqn:Es.
  + destruct (IHm (length (rev r))) with (q := rev r) (seen := seen) as (fuel & out & E); auto.
    { subst m. apply rev_cons_inv in Eq. subst q. rewrite app_length. simpl. lia. }
    exists (S fuel), out. cbn [blocks_loop fst snd]. rewrite Eq, Ec, Es. assumption.
  + unfold capped in Ec. replace (maximum =? -1) with false in Ec by (symmetry; apply Z.eqb_neq; assumption).
    cbn [negb andb] in Ec. apply Z.leb_gt in Ec.
    destruct (fold_left (offer_combined key key_eqb less maximum) (all_combined combine ret b) (rev r, seen)) as [q' seen'] eqn:Ef.
    destruct (IHn (Z.to_nat (maximum - Z.of_nat (length (ret ++ [b]))))) with (q := q') (seen := seen') (ret := ret ++ [b]) as (fuel & out & E); auto.
    { rewrite app_length. simpl. lia. }
    exists (S fuel), out. cbn [blocks_loop fst snd]. rewrite Eq, Es, Ef.
    replace (capped maximum && (maximum <=? Z.of_nat (length ret))) with false; [assumption|].
    symmetry. apply andb_false_iff. right. apply Z.leb_gt. assumption.
Qed.

(** With a limit, or with finitely many keys. *)
Theorem loop_terminates : (maximum <> -1 \/ exists U, forall l b, Good l b -> In (key b) U) ->
  forall q seen ret, inv ret (q, seen) ret -> all_good ret ->
    (forall k, In k seen -> maximum = -1 -> exists l b, Good l b /\ key b = k) ->
  exists fuel out, blocks_loop key key_eqb less skip combine maximum fuel (q, seen) ret = Some out.
Proof.
  intros [Hm|(U & HU)].
  - intros q seen ret I Hg _. apply capped_terminates; assumption.
  - intros q seen ret I Hg Hseen.
    destruct (Z.eq_dec maximum (-1)) as [Hm|Hm].
    2: { apply capped_terminates; assumption. }
    assert (Hinc : incl seen U).
    { intros k Hk. destruct (Hseen k Hk Hm) as (l & b & Hlb & <-). apply (HU l b Hlb). }
    clear Hseen.
    remember (2 * (length U - length seen) + length q)%nat as n eqn:En. revert q seen ret I Hg Hinc En.
    induction n as [n IHn] using lt_wf_ind. intros q seen ret I Hg Hinc En.
    assert (Hlen : forall s, NoDup s -> incl s U -> (length s <= length U)%nat) by (intros; apply NoDup_incl_length; assumption).
    destruct (rev q) as [|b r] eqn:Eq.
    { exists 1%nat, ret. cbn [blocks_loop fst]. rewrite Eq. reflexivity. }
    assert (Ec : capped maximum = false) by (unfold capped; rewrite Hm; reflexivity).
    destruct (step_inv q seen ret b r Eq I Hg) as (I1 & Hb & I2 & Hg2).
    assert (Lq : length q = S (length (rev r))) by (apply rev_cons_inv in Eq; subst q; rewrite app_length; simpl; lia).
    destruct (skip b) eqn:Es.
    + destruct (IHn (2 * (length U - length seen) + length (rev r))%nat) with (q := rev r) (seen := seen) (ret := ret) as (fuel & out & E); auto; [lia|].
      exists (S fuel), out. cbn [blocks_loop fst snd]. rewrite Eq, Ec, Es. assumption.
    + destruct (fold_left (offer_combined key key_eqb less maximum) (all_combined combine ret b) (rev r, seen)) as [q' seen'] eqn:Ef.
      pose proof (offers_count (all_combined combine ret b) (rev r) seen Hm (in_seen_nodup _ _ _ I)) as C. cbv zeta in C. rewrite Ef in C. cbn [fst snd] in C.
      assert (Hinc' : incl seen' U).
      { assert (G : forall l w, (forall c, In c l -> Good (ret ++ [b]) c) -> incl (snd w) U ->
          incl (snd (fold_left (offer_combined key key_eqb less maximum) l w)) U).
        { induction l as [|c l IHl]; intros [q0 s0] Hl Hi; [assumption|]. cbn [fold_left]. apply IHl; [intros; apply Hl; right; assumption|].
          unfold offer_combined. rewrite Ec. cbn [andb]. unfold offer. cbn [fst snd]. destruct (seen_in key_eqb (key c) s0); [assumption|].
          unfold enqueue. rewrite Ec. cbn [andb snd]. intros k [<-|Hk]; [|apply Hi; assumption].
          apply (HU (ret ++ [b]) c). apply Hl. left. reflexivity. }
        specialize (G (all_combined combine ret b) (rev r, seen) (all_combined_good ret b Hg Hb) Hinc). rewrite Ef in G. exact G. }
      assert (Ls : (length seen <= length seen')%nat).
      { assert (G : forall l w, (length (snd w) <= length (snd (fold_left (offer_combined key key_eqb less maximum) l w)))%nat).
        { induction l as [|c l IHl]; intros [q0 s0]; [simpl; lia|]. cbn [fold_left]. eapply Nat.le_trans; [|apply IHl].
          unfold offer_combined. rewrite Ec. cbn [andb]. unfold offer. cbn [fst snd]. destruct (seen_in key_eqb (key c) s0); [simpl; lia|].
          unfold enqueue. rewrite Ec. cbn [andb snd length]. lia. }
        specialize (G (all_combined combine ret b) (rev r, seen)). rewrite Ef in G. exact G. }
      pose proof (Hlen seen' (in_seen_nodup _ _ _ I2) Hinc') as L1.
      destruct (IHn (2 * (length U - length seen') + length q')%nat) with (q := q') (seen := seen') (ret := ret ++ [b]) as (fuel & out & E); auto; [lia|].
      exists (S fuel), out. cbn [blocks_loop fst snd]. rewrite Eq, Ec, Es, Ef. assumption.
Qed.

Theorem run_terminates : (maximum <> -1 \/ exists U, forall l b, Good l b -> In (key b) U) ->
  forall grids, (forall b, In b grids -> Good [] b) ->
  exists fuel out, blocks_run key key_eqb less skip combine maximum fuel grids = Some out.
Proof.
  intros HU grids Hgr. unfold blocks_run.
  assert (I : inv [] (fold_left (offer key key_eqb less maximum) grids ([], [])) []).
  { apply fold_inv; [intros w b; apply offer_inv| |assumption].
    constructor; cbn [fst snd]; [constructor|intros b []|constructor|intros b []]. }
  assert (Hs : forall k, In k (snd (fold_left (offer key key_eqb less maximum) grids ([], []))) -> maximum = -1 -> exists l b, Good l b /\ key b = k).
  { intros k Hk Hm. assert (G : forall l w, (forall c, In c l -> Good [] c) -> (forall k, In k (snd w) -> exists l b, Good l b /\ key b = k) ->
      forall k, In k (snd (fold_left (offer key key_eqb less maximum) l w)) -> exists l b, Good l b /\ key b = k).
    { induction l as [|c l IHl]; intros [q0 s0] Hl Hi; [assumption|]. cbn [fold_left]. apply IHl; [intros; apply Hl; right; assumption|].
      unfold offer. cbn [fst snd]. destruct (seen_in key_eqb (key c) s0); [assumption|]. unfold enqueue, capped. rewrite Hm. cbn [negb Z.eqb andb snd].
      intros k' [<-|Hk']; [|apply Hi; assumption]. exists [], c. split; [|reflexivity]. apply Hl. left. reflexivity. }
    apply (G grids ([], [])); [assumption|intros k' []|assumption]. }
  destruct (fold_left _ _ _) as [q seen]. apply loop_terminates; auto. intros [|n] b Hn; discriminate.
Qed.

(** More fuel gives the same result. *)
Lemma loop_fuel : forall fuel fuel' w ret out, (fuel <= fuel')%nat ->
  blocks_loop key key_eqb less skip combine maximum fuel w ret = Some out ->
  blocks_loop key key_eqb less skip combine maximum fuel' w ret = Some out.
Proof.
  induction fuel as [|fuel IH]; intros fuel' w ret out Hf H; [discriminate|]. destruct fuel' as [|fuel']; [lia|].
  cbn [blocks_loop] in *. destruct (rev (fst w)) as [|b r]; [assumption|]. destruct (_ && _); [assumption|].
  destruct (skip b); apply IH; try lia; assumption.
Qed.

(** *** The blocks of a single item *)

Hypothesis Hasym : forall a b, less a b = true -> less b a = false.
Hypothesis Htrans : forall a b c, less a b = true -> less b c = true -> less a c = true.
Variable single : B -> bool.
Variable okb : B -> Prop.
Hypothesis Hsingle : forall a b, okb a -> okb b -> single a = true -> single b = false -> less b a = true.
Hypothesis Hsingle_key : forall a b, okb a -> okb b -> key a = key b -> single a = single b.
Hypothesis Hsingle_skip : forall b, okb b -> single b = true -> skip b = false.
Hypothesis Hsingle_comb : forall cur b idx e c, okb b -> okb e -> In c (combine cur b idx e) -> okb c /\ single c = false.

Variable grids : list B.
Hypothesis Hgrids : forall b, In b grids -> okb b.
(** the keys of the single blocks *)
Variable singles : list K.
Hypothesis Hsingles : forall b, In b grids -> single b = true -> In (key b) singles.
Hypothesis Hroom : maximum = -1 \/ Z.of_nat (length singles) <= maximum.

Definition ordered (q : list B) : Prop := StronglySorted (fun a b => less b a = false) q.

Lemma qinsert_ordered : forall b q, ordered q -> ordered (qinsert less b q).
Proof.
  intros b q. unfold ordered. induction q as [|c q IH]; intro H; simpl.
  - constructor; [constructor|constructor].
  - apply StronglySorted_inv in H. destruct H as [H1 H2]. rewrite Forall_forall in H2. destruct (less b c) eqn:E.
    + constructor; [constructor; [assumption|apply Forall_forall; assumption]|]. apply Forall_forall. intros d [<-|Hd]; [apply Hasym; assumption|].
      apply not_true_iff_false. intro K1. specialize (H2 d Hd). rewrite (Htrans d b c K1 E) in H2. discriminate.
    + constructor; [apply IH; assumption|]. apply Forall_forall. intros d Hd. rewrite (Permutation_in' (eq_refl d) (qinsert_perm b q)) in Hd.
      destruct Hd as [<-|Hd]; [assumption|apply H2; assumption].
Qed.

(** [done]: the grids already offered. *)
Record sinv (done : list B) (w : list B * list K) (ret : list B) : Prop := {
  si_order : ordered (fst w);
  si_nodup : NoDup (map key (fst w ++ ret));
  si_known : forall b, In b (fst w ++ ret) -> single b = true -> In (key b) singles;
  si_done : forall s, In s done -> In s grids -> single s = true -> exists b, In b (fst w ++ ret) /\ key b = key s;
  si_first : (exists b, In b (fst w) /\ single b = true) -> forall b, In b ret -> single b = true;
  si_seen : forall k, In k (snd w) -> forall b, okb b -> key b = k -> single b = true -> exists c, In c (fst w ++ ret) /\ key c = k;
  si_seen2 : forall b, In b (fst w ++ ret) -> In (key b) (snd w);
  si_ok : forall b, In b (fst w ++ ret) -> okb b
}.

Lemma singles_count : forall l, NoDup (map key l) -> (forall b, In b l -> single b = true) ->
  (forall b, In b l -> In (key b) singles) -> (length l <= length singles)%nat.
Proof.
  intros l N _ H. rewrite <- (map_length key). apply NoDup_incl_length; [assumption|].
  intros k Hk. apply in_map_iff in Hk. destruct Hk as (b & <- & Hb). apply H. assumption.
Qed.

Lemma enqueue_sinv : forall done q seen ret b, sinv done (q, seen) ret -> okb b -> ~ In (key b) seen ->
  (single b = true -> In b grids /\ ret = []) ->
  sinv done (enqueue key key_eqb less maximum (q, key b :: seen) b) ret /\
  (single b = true -> exists c, In c (fst (enqueue key key_eqb less maximum (q, key b :: seen) b)) /\ key c = key b).
Proof.
  intros done q seen ret b [S1 S2 S3 S4 S5 S6 S7 S8] Hob Hn Hb. cbn [fst snd] in *.
  assert (P : Permutation (qinsert less b q) (b :: q)) by apply qinsert_perm.
  assert (Hin : forall a, In a (qinsert less b q) <-> a = b \/ In a q).
  { intro a. rewrite (Permutation_in' (eq_refl a) P). simpl. split; intros [H|H]; auto. }
  assert (N : NoDup (map key (qinsert less b q ++ ret))).
  { assert (P' : Permutation (map key (qinsert less b q ++ ret)) (key b :: map key (q ++ ret))).
    { change (key b :: map key (q ++ ret)) with (map key ((b :: q) ++ ret)). apply Permutation_map. apply Permutation_app_tail. assumption. }
    rewrite P'. constructor; [|assumption]. intro H. apply in_map_iff in H. destruct H as (a & Ea & Ha). apply Hn. rewrite <- Ea. apply S7. assumption. }
  assert (Hknown : forall a, In a (qinsert less b q ++ ret) -> single a = true -> In (key a) singles).
  { intros a Ha Hsa. apply in_app_or in Ha. rewrite Hin in Ha. destruct Ha as [[->|Ha]|Ha].
    - apply Hsingles; [apply Hb; assumption|assumption].
    - apply S3; [apply in_or_app; auto|assumption].
    - apply S3; [apply in_or_app; auto|assumption]. }
  assert (Hok : forall a, In a (qinsert less b q ++ ret) -> okb a).
  { intros a Ha. apply in_app_or in Ha. rewrite Hin in Ha. destruct Ha as [[->|Ha]|Ha]; [assumption| |]; apply S8; apply in_or_app; auto. }
  pose proof (qinsert_ordered b q S1) as O.
  destruct (enqueue_spec q (key b :: seen) b) as (l & _ & [(E & -> & _)|(c & r & El & El' & Hm & Hlen & E)]); rewrite E; cbn [fst snd].
  - split.
    + constructor; cbn [fst snd].
      * assumption.
      * assumption.
      * assumption.
      * intros s Hs Hgs Hss. destruct (S4 s Hs Hgs Hss) as (a & Ha & Ea). exists a. split; [|assumption].
        apply in_app_or in Ha. apply in_or_app. rewrite Hin. tauto.
      * intros (a & Ha & Hsa) a' Ha'. apply Hin in Ha. destruct Ha as [->|Ha].
        -- destruct (Hb Hsa) as [_ Hr]. subst ret. destruct Ha'.
        -- apply S5; [exists a; auto|assumption].
      * intros k [<-|Hk] a Hoa Ea Hsa.
        -- exists b. split; [apply in_or_app; left; apply Hin; auto|reflexivity].
        -- destruct (S6 k Hk a Hoa Ea Hsa) as (a' & Ha' & Ea'). exists a'. split; [|assumption]. apply in_app_or in Ha'. apply in_or_app. rewrite Hin. tauto.
      * intros a Ha. apply in_app_or in Ha. rewrite Hin in Ha. destruct Ha as [[->|Ha]|Ha]; [left; reflexivity| |]; right; apply S7; apply in_or_app; auto.
      * assumption.
    + intros _. exists b. split; [apply Hin; auto|reflexivity].
  - rewrite <- El', El in *. clear El' El.
    (* the dropped block is not single *)
    assert (Hc : single c = false).
    { apply not_true_iff_false. intro Hc. unfold ordered in O. apply StronglySorted_inv in O. destruct O as [_ O]. rewrite Forall_forall in O.
      assert (All : forall a, In a (c :: r) -> single a = true).
      { intros a [<-|Ha]; [assumption|]. specialize (O a Ha). destruct (single a) eqn:Esa; [reflexivity|]. rewrite (Hsingle c a (Hok c (or_introl eq_refl)) (Hok a (or_intror (in_or_app _ _ _ (or_introl Ha)))) Hc Esa) in O. discriminate. }
      assert (L : (length (c :: r) <= length singles)%nat).
      { apply singles_count; [|assumption|].
        - rewrite map_app in N. apply nodup_app_l in N. assumption.
        - intros a Ha. apply Hknown; [apply in_or_app; left; assumption|apply All; assumption]. }
      destruct Hroom as [Hr|Hr]; [congruence|]. lia. }
    simpl in N. inversion N as [|? ? N1 N2]. subst.
    assert (Hkc : forall a, okb a -> single a = true -> key a <> key c).
    { intros a Hoa Ha Ea. apply Hsingle_key in Ea; [congruence|assumption|]. apply Hok. left. reflexivity. }
    split.
    + constructor; cbn [fst snd].
      * unfold ordered in O. apply StronglySorted_inv in O. apply O.
      * assumption.
      * intros a Ha. apply Hknown. right. assumption.
      * intros s Hs Hgs Hss. destruct (S4 s Hs Hgs Hss) as (a & Ha & Ea). exists a. split; [|assumption].
        apply in_app_or in Ha. apply in_or_app. destruct Ha as [Ha|Ha]; [|auto].
        assert (Ha' : In a (c :: r)) by (apply Hin; auto). destruct Ha' as [<-|Ha']; [|auto].
        exfalso. apply Hsingle_key in Ea; [congruence| |apply Hgrids; assumption]. apply Hok. left. reflexivity.
      * intros (a & Ha & Hsa) a' Ha'. assert (Hx : In a (c :: r)) by (right; assumption). apply Hin in Hx. destruct Hx as [->|Hx].
        -- destruct (Hb Hsa) as [_ Hr]. subst ret. destruct Ha'.
        -- apply S5; [exists a; auto|assumption].
      * intros k Hk a Hoa Ea Hsa. apply filter_In in Hk. destruct Hk as [[<-|Hk] _].
        -- assert (Hx : In b (c :: r)) by (apply Hin; auto). destruct Hx as [<-|Hx].
           ++ exfalso. apply (Hkc a Hoa Hsa). assumption.
           ++ exists b. split; [apply in_or_app; auto|reflexivity].
        -- destruct (S6 k Hk a Hoa Ea Hsa) as (a' & Ha' & Ea'). exists a'. split; [|assumption]. apply in_app_or in Ha'. apply in_or_app.
           destruct Ha' as [Ha'|Ha']; [|auto]. assert (Hx : In a' (c :: r)) by (apply Hin; auto). destruct Hx as [<-|Hx]; [|auto].
           exfalso. apply (Hkc a Hoa Hsa). congruence.
      * intros a Ha. apply filter_In. split.
        -- apply in_app_or in Ha. destruct Ha as [Ha|Ha].
           ++ assert (Hx : In a (c :: r)) by (right; assumption). apply Hin in Hx. destruct Hx as [->|Hx]; [left; reflexivity|].
              right. apply S7. apply in_or_app. auto.
           ++ right. apply S7. apply in_or_app. auto.
        -- apply negb_true_iff. apply not_true_iff_false. intro H. apply Hkey in H. apply N1. rewrite H. apply in_map. assumption.
      * intros a Ha. apply Hok. right. assumption.
    + intro Hsb. assert (Hx : In b (c :: r)) by (apply Hin; auto). destruct Hx as [<-|Hx]; [congruence|]. exists b. auto.
Qed.

Lemma offer_sinv : forall done w b, sinv done w [] -> In b grids -> sinv (done ++ [b]) (offer key key_eqb less maximum w b) [].
Proof.
  intros done [q seen] b H Hb. unfold offer. cbn [fst snd].
  assert (Hadd : forall w', sinv done w' [] -> (single b = true -> exists c, In c (fst w') /\ key c = key b) -> sinv (done ++ [b]) w' []).
  { intros w' [S1 S2 S3 S4 S5 S6 S7 S8] Hc. constructor; auto. intros s Hs Hgs Hss. apply in_app_or in Hs. destruct Hs as [Hs|[<-|[]]]; [auto|].
    destruct (Hc Hss) as (c & Hc1 & Hc2). exists c. split; [apply in_or_app; auto|assumption]. }
  destruct (seen_in key_eqb (key b) seen) eqn:E.
  - apply Hadd; [assumption|]. intro Hsb. apply seen_in_spec in E. destruct (si_seen _ _ _ H (key b) E b (Hgrids b Hb) eq_refl Hsb) as (c & Hc & Ec).
    cbn [fst] in Hc. rewrite app_nil_r in Hc. exists c. auto.
  - assert (Hn : ~ In (key b) seen) by (rewrite <- seen_in_spec, E; discriminate).
    destruct (enqueue_sinv done q seen [] b H (Hgrids b Hb) Hn) as [A1 A2]; [auto|]. apply Hadd; assumption.
Qed.

Lemma offer_combined_sinv : forall done w ret b, sinv done w ret -> okb b -> single b = false ->
  sinv done (offer_combined key key_eqb less maximum w b) ret.
Proof.
  intros done [q seen] ret b H Hob Hb. unfold offer_combined. destruct (_ && _); [assumption|]. unfold offer. cbn [fst snd].
  destruct (seen_in key_eqb (key b) seen) eqn:E; [assumption|].
  apply enqueue_sinv; [assumption|assumption|rewrite <- seen_in_spec, E; discriminate|congruence].
Qed.

Theorem loop_singles : forall fuel q seen ret out,
  blocks_loop key key_eqb less skip combine maximum fuel (q, seen) ret = Some out ->
  sinv grids (q, seen) ret -> (forall s, In s grids -> single s = true -> exists b, In b out /\ key b = key s).
Proof.
  induction fuel as [|fuel IH]; intros q seen ret out H I; [discriminate|].
  cbn [blocks_loop fst snd] in H. destruct (rev q) as [|b r] eqn:Eq.
  { injection H as <-. assert (q = []) by (destruct q as [|a q]; [reflexivity|simpl in Eq; destruct (rev q); discriminate]). subst q.
    intros s Hs Hss. apply (si_done _ _ _ I s Hs Hs Hss). }
  apply rev_cons_inv in Eq.
  destruct I as [S1 S2 S3 S4 S5 S6 S7 S8]. cbn [fst snd] in *.
  (* the last waiting block is single if one is *)
  assert (Hlast : (exists s, In s q /\ single s = true) -> single b = true).
  { intros (s & Hs & Hss). rewrite Eq in Hs, S1. apply in_app_or in Hs. destruct Hs as [Hs|[<-|[]]]; [|assumption].
    destruct (single b) eqn:Eb; [reflexivity|]. exfalso. assert (L : less b s = true).
    { apply Hsingle; auto; apply S8; apply in_or_app; left; rewrite Eq; apply in_or_app; [left; assumption|right; left; reflexivity]. }
    assert (Hso : forall l, ordered (l ++ [b]) -> forall a, In a l -> less b a = false).
    { induction l as [|x l IHl]; intros O a Ha; [destruct Ha|]. unfold ordered in O. simpl in O. apply StronglySorted_inv in O. destruct O as [O1 O2].
      rewrite Forall_forall in O2. destruct Ha as [<-|Ha]; [apply O2; apply in_or_app; right; left; reflexivity|apply IHl; assumption]. }
    rewrite (Hso (rev r) S1 s Hs) in L. discriminate. }
  destruct (capped maximum && (maximum <=? Z.of_nat (length ret))) eqn:Ec.
  { injection H as <-. intros s Hs Hss. destruct (S4 s Hs Hs Hss) as (a & Ha & Ea). apply in_app_or in Ha. destruct Ha as [Ha|Ha]; [|exists a; auto].
    exfalso. assert (Hsa : single a = true) by (rewrite (Hsingle_key a s); auto; apply S8; apply in_or_app; auto).
    assert (Hret : forall c, In c ret -> single c = true) by (apply S5; exists a; auto).
    apply andb_prop in Ec. destruct Ec as [Ec1 Ec2]. apply Z.leb_le in Ec2. unfold capped in Ec1. apply negb_true_iff, Z.eqb_neq in Ec1.
    assert (L : (length (a :: ret) <= length singles)%nat).
    { apply singles_count.
      - simpl. rewrite map_app in S2. constructor.
        + intro K1. apply in_split in Ha. destruct Ha as (l1 & l2 & ->). rewrite map_app in S2. cbn [map] in S2.
          rewrite <- app_assoc in S2. cbn [app] in S2. apply NoDup_remove_2 in S2. apply S2. apply in_or_app. right. apply in_or_app. right. assumption.
        + apply nodup_app_r in S2. assumption.
      - intros c [<-|Hc]; auto.
      - intros c [<-|Hc]; [apply S3; [apply in_or_app; auto|assumption]|apply S3; [apply in_or_app; auto|auto]]. }
    simpl in L. destruct Hroom as [Hr|Hr]; [congruence|]. lia. }
  assert (P : Permutation (q ++ ret) (rev r ++ ret ++ [b])).
  { rewrite Eq, <- app_assoc. apply Permutation_app_head. simpl. apply Permutation_cons_append. }
  assert (Hin : forall a, In a (q ++ ret) <-> In a (rev r ++ ret ++ [b])) by (intro a; apply Permutation_in'; [reflexivity|assumption]).
  assert (Ord : ordered (rev r)).
  { rewrite Eq in S1. clear -S1. unfold ordered in *. induction (rev r) as [|x l IHl]; [constructor|]. simpl in S1. apply StronglySorted_inv in S1.
    destruct S1 as [A1 A2]. constructor; [apply IHl; assumption|]. rewrite Forall_forall in *. intros y Hy. apply A2. apply in_or_app. auto. }
  assert (N : NoDup (map key (rev r ++ ret ++ [b]))) by (rewrite <- (Permutation_map key P); assumption).
  assert (Hob : okb b) by (apply S8; apply Hin; apply in_or_app; right; apply in_or_app; right; left; reflexivity).
  destruct (skip b) eqn:Es.
  - assert (Hb : single b = false) by (destruct (single b) eqn:Eb; [rewrite (Hsingle_skip b Hob Eb) in Es; discriminate|reflexivity]).
    assert (Hkb : forall a, okb a -> single a = true -> key a <> key b) by (intros a Hoa Ha Ea; apply Hsingle_key in Ea; [congruence|assumption|assumption]).
    apply (IH _ _ _ _ H). clear IH H. constructor; cbn [fst snd].
    + assumption.
    + rewrite app_assoc, map_app in N. apply NoDup_remove_1 with (l' := []) in N. rewrite app_nil_r in N. assumption.
    + intros a Ha. apply S3. apply Hin. rewrite app_assoc. apply in_or_app. auto.
    + intros s Hs Hgs Hss. destruct (S4 s Hs Hgs Hss) as (a & Ha & Ea). exists a. split; [|assumption]. apply Hin in Ha. rewrite app_assoc in Ha.
      apply in_app_or in Ha. destruct Ha as [Ha|[<-|[]]]; [assumption|]. apply Hsingle_key in Ea; [congruence|assumption|apply Hgrids; assumption].
    + intros (a & Ha & Hsa) c Hc. apply S5; [exists a; split; [rewrite Eq; apply in_or_app; auto|assumption]|assumption].
    + intros k Hk a Hoa Ea Hsa. destruct (S6 k Hk a Hoa Ea Hsa) as (c & Hc & Ec'). exists c. split; [|assumption]. apply Hin in Hc. rewrite app_assoc in Hc.
      apply in_app_or in Hc. destruct Hc as [Hc|[<-|[]]]; [assumption|]. exfalso. apply (Hkb a Hoa Hsa). congruence.
    + intros a Ha. apply S7. apply Hin. rewrite app_assoc. apply in_or_app. auto.
    + intros a Ha. apply S8. apply Hin. rewrite app_assoc. apply in_or_app. auto.
  - assert (I' : sinv grids (rev r, seen) (ret ++ [b])).
    { constructor; cbn [fst snd].
      - assumption.
      - assumption.
      - intros a Ha. apply S3. apply Hin. assumption.
      - intros s Hs Hgs Hss. destruct (S4 s Hs Hgs Hss) as (a & Ha & Ea). exists a. split; [apply Hin; assumption|assumption].
      - intros (a & Ha & Hsa) c Hc. assert (Hex : exists s, In s q /\ single s = true) by (exists a; split; [rewrite Eq; apply in_or_app; auto|assumption]).
        apply in_app_or in Hc. destruct Hc as [Hc|[<-|[]]]; [apply S5; assumption|apply Hlast; assumption].
      - intros k Hk a Hoa Ea Hsa. destruct (S6 k Hk a Hoa Ea Hsa) as (c & Hc & Ec'). exists c. split; [apply Hin; assumption|assumption].
      - intros a Ha. apply S7. apply Hin. assumption.
      - intros a Ha. apply S8. apply Hin. assumption. }
    assert (I2 : sinv grids (fold_left (offer_combined key key_eqb less maximum) (all_combined combine ret b) (rev r, seen)) (ret ++ [b])).
    { assert (Hc : forall c, In c (all_combined combine ret b) -> okb c /\ single c = false).
      { intros c Hc. unfold all_combined in Hc. apply in_flat_map in Hc. destruct Hc as (idx & _ & Hc).
        destruct (nth_error ret idx) as [e|] eqn:Ee; [|destruct Hc]. eapply Hsingle_comb; [exact Hob| |exact Hc].
        apply S8. apply in_or_app. right. eapply nth_error_In. exact Ee. }
      revert I' Hc. generalize (all_combined combine ret b) as l. generalize (rev r, seen) as w. intros w l. revert w.
      induction l as [|c l IHl]; intros w Iw Hc; [assumption|]. cbn [fold_left]. apply IHl; [|intros; apply Hc; right; assumption].
      apply offer_combined_sinv; [assumption| |]; apply Hc; left; reflexivity. }
    destruct (fold_left _ _ _) as [q' seen']. apply (IH _ _ _ _ H I2).
Qed.

Theorem run_singles : forall fuel out, blocks_run key key_eqb less skip combine maximum fuel grids = Some out ->
  forall s, In s grids -> single s = true -> exists b, In b out /\ key b = key s.
Proof.
  intros fuel out H. unfold blocks_run in H.
  assert (I : forall l, incl l grids -> sinv l (fold_left (offer key key_eqb less maximum) l ([], [])) []).
  { induction l as [|b l IHl] using rev_ind; intro Hi.
    - constructor; cbn [fst snd]; try (intros; contradiction); [constructor|constructor].
    - rewrite fold_left_app. cbn [fold_left]. apply offer_sinv; [|apply Hi; apply in_or_app; right; left; reflexivity].
      apply IHl. intros a Ha. apply Hi. apply in_or_app. auto. }
  specialize (I grids (incl_refl _)). destruct (fold_left _ _ _) as [q seen]. apply (loop_singles _ _ _ _ _ H I).
Qed.

End Engine.
