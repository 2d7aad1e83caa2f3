(** * The subset-row cuts: coefficient, validity, violation *)

From Coq Require Import List ZArith QArith Bool Lia Lqa Sorted Permutation.
From Verif Require Import Util Common_Model OneDim_Model ColGen_Model ColGen_Spec.
Import ListNotations.
Open Scope Z_scope.

(** ** Presence *)

Definition inb (x : nat) (l : list nat) : bool := existsb (Nat.eqb x) l.

Lemma inb_in : forall x l, inb x l = true <-> In x l.
Proof.
  intros x l. unfold inb. rewrite existsb_exists. split.
  - intros (y & Hy & E). apply Nat.eqb_eq in E. subst. exact Hy.
  - intros H. exists x. split; [exact H|apply Nat.eqb_refl].
Qed.

Lemma inb_false : forall x l, inb x l = false <-> ~ In x l.
Proof.
  intros x l. rewrite <- inb_in. destruct (inb x l); split; intro H; congruence.
Qed.

Lemma occ_pos : forall l x, (0 <? occ l x) = inb x l.
Proof.
  intros l x. destruct (inb x l) eqn:E.
  - apply inb_in in E. unfold occ. apply (count_occ_In Nat.eq_dec) in E. apply Z.ltb_lt. lia.
  - apply inb_false in E. unfold occ. apply (count_occ_not_In Nat.eq_dec) in E. rewrite E. reflexivity.
Qed.

Definition two (c : Triple) (l : list nat) : bool :=
  let '(x, y, z) := c in (inb x l && inb y l) || (inb x l && inb z l) || (inb y l && inb z l).

Lemma coefficient_two : forall c col, ccoefficient c col = if two c (cc_items col) then 1%Q else 0%Q.
Proof.
  intros [[x y] z] col. unfold ccoefficient, tmembers, two. cbn [fst snd filter]. rewrite !occ_pos.
  destruct (inb x (cc_items col)), (inb y (cc_items col)), (inb z (cc_items col)); reflexivity.
Qed.

Lemma two_covers : forall c l, proper c -> (two c l = true <-> covers_two c l).
Proof.
  intros [[x y] z] l Hp. unfold proper in Hp. cbn in Hp. unfold two, covers_two, tmembers. cbn [fst snd].
  rewrite !orb_true_iff, !andb_true_iff, !inb_in. split.
  - intros [[[A B]|[A B]]|[A B]].
    + exists x, y. repeat split; cbn; auto; lia.
    + exists x, z. repeat split; cbn; auto; lia.
    + exists y, z. repeat split; cbn; auto; lia.
  - intros (u & v & Hn & Hu & Hv & Iu & Iv). cbn in Hu, Hv.
    destruct Hu as [<-|[<-|[<-|[]]]], Hv as [<-|[<-|[<-|[]]]]; tauto.
Qed.

(** ** Validity *)

Lemma two_double : forall c l, proper c ->
  2 * (if two c l then 1 else 0) <= zsum (occ l) (tmembers c).
Proof.
  intros [[x y] z] l _. unfold tmembers. cbn [fst snd]. rewrite !zsum_cons, zsum_nil.
  pose proof (occ_pos l x) as Ex. pose proof (occ_pos l y) as Ey. pose proof (occ_pos l z) as Ez.
  assert (0 <= occ l x /\ 0 <= occ l y /\ 0 <= occ l z) by (unfold occ; lia).
  unfold two. rewrite <- Ex, <- Ey, <- Ez.
  destruct (Z.ltb_spec 0 (occ l x)), (Z.ltb_spec 0 (occ l y)), (Z.ltb_spec 0 (occ l z)); cbn; lia.
Qed.

(** The left-hand side on a combination of patterns with integer multiplicities. *)
Theorem cut_valid : forall c (sol : list (CCol * Z)), proper c ->
  (forall p, In p sol -> 0 <= snd p) ->
  (forall x, In x (tmembers c) -> zsum (fun p => snd p * occ (cc_items (fst p)) x) sol <= 1) ->
  (qsum (fun p => ccoefficient c (fst p) * inject_Z (snd p)) sol <= 1)%Q.
Proof.
  intros c sol Hp Hn Hu.
  assert (E : (qsum (fun p => ccoefficient c (fst p) * inject_Z (snd p)) sol
               == inject_Z (zsum (fun p => snd p * (if two c (cc_items (fst p)) then 1 else 0))%Z sol))%Q).
  { rewrite <- qsum_inject. apply qsum_ext. intros p _. rewrite coefficient_two, inject_Z_mult.
    destruct (two c (cc_items (fst p))); [change (inject_Z 1) with 1%Q|change (inject_Z 0) with 0%Q]; ring. }
  rewrite E. change 1%Q with (inject_Z 1). rewrite <- Zle_Qle.
  assert (G : 2 * zsum (fun p => snd p * (if two c (cc_items (fst p)) then 1 else 0)) sol
              <= zsum (fun p => snd p * zsum (occ (cc_items (fst p))) (tmembers c)) sol).
  { rewrite <- zsum_mult. apply zsum_le. intros p Hpp. pose proof (two_double c (cc_items (fst p)) Hp). specialize (Hn p Hpp). nia. }
  assert (G2 : zsum (fun p => snd p * zsum (occ (cc_items (fst p))) (tmembers c)) sol
               = zsum (fun x => zsum (fun p => snd p * occ (cc_items (fst p)) x) sol) (tmembers c)).
  { destruct c as [[x y] z]. unfold tmembers. cbn [fst snd]. rewrite !zsum_cons, zsum_nil.
    rewrite Z.add_0_r. rewrite <- !zsum_plus. apply zsum_ext. intros p _. rewrite !zsum_cons, zsum_nil. ring. }
  assert (G3 : zsum (fun x => zsum (fun p => snd p * occ (cc_items (fst p)) x) sol) (tmembers c) <= 3).
  { destruct c as [[x y] z]. unfold tmembers in *. cbn [fst snd] in *. rewrite !zsum_cons, zsum_nil.
    pose proof (Hu x (or_introl eq_refl)). pose proof (Hu y (or_intror (or_introl eq_refl))).
    pose proof (Hu z (or_intror (or_intror (or_introl eq_refl)))). lia. }
  lia.
Qed.

(** ** Pairs of a column *)

Lemma filter_eqb_sorted : forall y l, NoDup l -> filter (fun b => (b =? y)%nat) l = if inb y l then [y] else [].
Proof.
  induction l as [|a l IH]; intros H; [reflexivity|]. inversion H as [|? ? Ha Hl]; subst. cbn [filter]. unfold inb. cbn [existsb].
  fold (inb y l). rewrite (Nat.eqb_sym y a). destruct (Nat.eqb_spec a y) as [->|Hn].
  - rewrite IH by exact Hl. rewrite (proj2 (inb_false y l) Ha). reflexivity.
  - rewrite IH by exact Hl. reflexivity.
Qed.

Lemma cpairs_in : forall l x y, In (x, y) (cpairs l) -> In x l /\ In y l.
Proof.
  induction l as [|a l IH]; intros x y H; [destruct H|]. cbn [cpairs] in H. apply in_app_iff in H. destruct H as [H|H].
  - apply in_map_iff in H. destruct H as (b & E & Hb). injection E as <- <-. split; [left; reflexivity|right; exact Hb].
  - apply IH in H. split; right; apply H.
Qed.

Lemma cpairs_lt : forall l x y, StronglySorted lt l -> In (x, y) (cpairs l) -> (x < y)%nat.
Proof.
  induction l as [|a l IH]; intros x y Hs H; [destruct H|]. inversion Hs as [|? ? Hs' Ha]; subst. cbn [cpairs] in H.
  apply in_app_iff in H. destruct H as [H|H].
  - apply in_map_iff in H. destruct H as (b & E & Hb). injection E as <- <-. rewrite Forall_forall in Ha. apply Ha. exact Hb.
  - apply IH; assumption.
Qed.

Lemma in_cpairs : forall l x y, StronglySorted lt l -> In x l -> In y l -> (x < y)%nat -> In (x, y) (cpairs l).
Proof.
  induction l as [|a l IH]; intros x y Hs Hx Hy H; [destruct Hx|]. inversion Hs as [|? ? Hs' Ha]; subst. cbn [cpairs].
  rewrite Forall_forall in Ha. apply in_app_iff. destruct Hx as [->|Hx].
  - left. apply in_map_iff. exists y. split; [reflexivity|]. destruct Hy as [->|Hy]; [lia|exact Hy].
  - right. destruct Hy as [->|Hy]; [specialize (Ha x Hx); lia|]. apply IH; assumption.
Qed.

Lemma sorted_nodup : forall l, StronglySorted lt l -> NoDup l.
Proof.
  induction l as [|a l IH]; intros H; [constructor|]. inversion H as [|? ? Hs Ha]; subst. constructor; [|apply IH; exact Hs].
  intro Hi. rewrite Forall_forall in Ha. specialize (Ha a Hi). lia.
Qed.

Lemma filter_none : forall A (f : A -> bool) l, (forall x, In x l -> f x = false) -> filter f l = [].
Proof.
  induction l as [|a l IH]; intros H; [reflexivity|]. cbn. rewrite (H a (or_introl eq_refl)). apply IH. intros x Hx. apply H. right. exact Hx.
Qed.

Lemma filter_map_swap : forall A B (f : A -> B) (g : B -> bool) l, filter g (map f l) = map f (filter (fun x => g (f x)) l).
Proof.
  induction l as [|a l IH]; [reflexivity|]. cbn. destruct (g (f a)); cbn; rewrite IH; reflexivity.
Qed.

Definition both (p : nat * nat) (l : list nat) : bool := inb (fst p) l && inb (snd p) l.

Lemma cpairs_filter : forall l x y, StronglySorted lt l -> (x < y)%nat ->
  filter (fun q => pair_eqb q (x, y)) (cpairs l) = if both (x, y) l then [(x, y)] else [].
Proof.
  induction l as [|a l IH]; intros x y Hs Hxy; [reflexivity|]. inversion Hs as [|? ? Hs' Ha]; subst. rewrite Forall_forall in Ha.
  cbn [cpairs]. rewrite filter_app, IH by assumption. rewrite filter_map_swap. unfold pair_eqb at 1. cbn [fst snd].
  unfold both. cbn [fst snd]. unfold inb at 3 4. cbn [existsb]. fold (inb x l) (inb y l).
  destruct (Nat.eqb_spec x a) as [->|Hx].
  - rewrite Nat.eqb_refl. cbn [andb orb].
    rewrite filter_eqb_sorted by (apply sorted_nodup; exact Hs').
    rewrite (proj2 (Nat.eqb_neq y a)) by lia. cbn [orb].
    assert (E : inb a l = false) by (apply inb_false; intro Hi; specialize (Ha a Hi); lia). rewrite E. cbn [andb].
    destruct (inb y l); reflexivity.
  - rewrite filter_none by (intros b _; rewrite (proj2 (Nat.eqb_neq a x)) by congruence; reflexivity). cbn [map app orb].
    destruct (Nat.eqb_spec y a) as [->|Hy]; [|reflexivity]. cbn [orb].
    assert (E : inb x l = false) by (apply inb_false; intro Hi; specialize (Ha x Hi); lia). rewrite E. reflexivity.
Qed.

Definition cols_sorted (cols : list (Q * list nat)) : Prop := forall e, In e cols -> StronglySorted lt (snd e).
Definition wt (P : list nat -> bool) (cols : list (Q * list nat)) : Q := qsum (fun e => if P (snd e) then fst e else 0%Q) cols.

Lemma qsum_filter_if : forall A (g : A -> bool) (f : A -> Q) l, (qsum (fun x => if g x then f x else 0) l == qsum f (filter g l))%Q.
Proof.
  induction l as [|a l IH]; [reflexivity|]. rewrite qsum_cons. cbn [filter]. destruct (g a); [rewrite qsum_cons|]; rewrite IH; ring.
Qed.

Lemma pair_weight_wt : forall cols x y, cols_sorted cols -> (x < y)%nat -> (cpair_weight cols (x, y) == wt (both (x, y)) cols)%Q.
Proof.
  intros cols x y Hs Hxy. unfold cpair_weight, wt. apply qsum_ext. intros e He.
  rewrite (qsum_filter_if _ (fun q => pair_eqb q (x, y)) (fun _ => fst e)), cpairs_filter by (auto).
  destruct (both (x, y) (snd e)); cbn; ring.
Qed.

Lemma flat_map_filter : forall A (g : A -> bool) l, flat_map (fun c => if g c then [c] else []) l = filter g l.
Proof.
  induction l as [|a l IH]; [reflexivity|]. cbn. rewrite IH. destruct (g a); reflexivity.
Qed.

Lemma pair_columns_filter : forall cols x y, cols_sorted cols -> (x < y)%nat ->
  cpair_columns cols (x, y) = filter (fun c => both (x, y) (snd (nth c cols (0%Q, [])))) (seq 0 (length cols)).
Proof.
  intros cols x y Hs Hxy. unfold cpair_columns. rewrite <- flat_map_filter.
  assert (G : forall l, (forall c, In c l -> (c < length cols)%nat) ->
    flat_map (fun c => flat_map (fun q => if pair_eqb q (x, y) then [c] else []) (cpairs (snd (nth c cols (0%Q, []))))) l
    = flat_map (fun c => if both (x, y) (snd (nth c cols (0%Q, []))) then [c] else []) l).
  { induction l as [|c l IH]; intros H; [reflexivity|]. cbn [flat_map]. rewrite IH by (intros d Hd; apply H; right; exact Hd). f_equal.
    assert (Hc : StronglySorted lt (snd (nth c cols (0%Q, [])))) by (apply Hs, nth_In, H; left; reflexivity).
    pose proof (cpairs_filter _ x y Hc Hxy) as E. set (ps := cpairs (snd (nth c cols (0%Q, [])))) in *.
    assert (E2 : flat_map (fun q => if pair_eqb q (x, y) then [c] else []) ps = map (fun _ => c) (filter (fun q => pair_eqb q (x, y)) ps)).
    { clear. induction ps as [|q ps IH]; [reflexivity|]. cbn. destruct (pair_eqb q (x, y)); cbn; rewrite IH; reflexivity. }
    rewrite E2, E. destruct (both _ _); reflexivity. }
  apply G. intros c Hc. apply in_seq in Hc. lia.
Qed.

(** ** The three-way merge *)

Section Merge.
Variable value : nat -> Q.

Definition tsum (ab ac bc : list nat) : Q := qsum (fun v => if inb v ac && inb v bc then value v else 0%Q) ab.

Lemma tsum_nil2 : forall ab bc, (tsum ab [] bc == 0)%Q.
Proof. intros. apply qsum_zero. intros v _. reflexivity. Qed.
Lemma tsum_nil3 : forall ab ac, (tsum ab ac [] == 0)%Q.
Proof. intros. apply qsum_zero. intros v _. cbn. rewrite andb_false_r. reflexivity. Qed.

Lemma tsum_drop1 : forall x ab ac bc, ~ In x ac \/ ~ In x bc -> (tsum (x :: ab) ac bc == tsum ab ac bc)%Q.
Proof.
  intros x ab ac bc H. unfold tsum. rewrite qsum_cons.
  assert (E : inb x ac && inb x bc = false) by (destruct H as [H|H]; apply inb_false in H; rewrite H; [reflexivity|apply andb_false_r]).
  rewrite E. ring.
Qed.
Lemma tsum_drop2 : forall y ab ac bc, ~ In y ab \/ ~ In y bc -> (tsum ab (y :: ac) bc == tsum ab ac bc)%Q.
Proof.
  intros y ab ac bc H. apply qsum_ext. intros v Hv. unfold inb at 1. cbn [existsb]. fold (inb v ac).
  destruct (Nat.eqb_spec v y) as [->|Hn]; [|reflexivity]. destruct H as [H|H]; [contradiction|].
  apply inb_false in H. rewrite H, !andb_false_r. reflexivity.
Qed.
Lemma tsum_drop3 : forall z ab ac bc, ~ In z ab \/ ~ In z ac -> (tsum ab ac (z :: bc) == tsum ab ac bc)%Q.
Proof.
  intros z ab ac bc H. apply qsum_ext. intros v Hv. unfold inb at 2. cbn [existsb]. fold (inb v bc).
  destruct (Nat.eqb_spec v z) as [->|Hn]; [|reflexivity]. destruct H as [H|H]; [contradiction|].
  apply inb_false in H. rewrite H. reflexivity.
Qed.

Lemma not_in_lt : forall x y l, StronglySorted lt (y :: l) -> (x < y)%nat -> ~ In x (y :: l).
Proof.
  intros x y l H Hxy [->|Hi]; [lia|]. inversion H as [|? ? _ Ha]; subst. rewrite Forall_forall in Ha. specialize (Ha x Hi). lia.
Qed.

Lemma ssorted_tail : forall x l, StronglySorted lt (x :: l) -> StronglySorted lt l.
Proof. intros x l H. inversion H; assumption. Qed.

Lemma merge_sum : forall fuel ab ac bc, (length ab + length ac + length bc <= fuel)%nat ->
  StronglySorted lt ab -> StronglySorted lt ac -> StronglySorted lt bc ->
  exists w, cmerge fuel value ab ac bc = Some w /\ (w == tsum ab ac bc)%Q.
Proof.
  induction fuel as [|fuel IH]; intros ab ac bc Hf Sa Sb Sc.
  - destruct ab; [|cbn in Hf; lia]. exists 0%Q. split; [reflexivity|cbn; reflexivity].
  - destruct ab as [|x ab]; [exists 0%Q; split; [reflexivity|cbn; reflexivity]|].
    destruct ac as [|y ac]; [exists 0%Q; split; [reflexivity|rewrite tsum_nil2; reflexivity]|].
    destruct bc as [|z bc]; [exists 0%Q; split; [reflexivity|rewrite tsum_nil3; reflexivity]|].
    cbn [cmerge]. destruct ((x =? y)%nat && (y =? z)%nat) eqn:E.
    + apply andb_true_iff in E. destruct E as [E1 E2]. apply Nat.eqb_eq in E1, E2. subst y z.
      destruct (IH ab ac bc) as (w & -> & Hw); [cbn in Hf; lia|eapply ssorted_tail; eassumption..|].
      exists (value x + w)%Q. split; [reflexivity|]. rewrite Hw.
      unfold tsum at 2. rewrite qsum_cons. unfold inb at 1 2. cbn [existsb]. rewrite Nat.eqb_refl. cbn [orb andb].
      apply Qplus_comp; [reflexivity|]. apply qsum_ext. intros v Hv.
      assert (v <> x) by (intros ->; pose proof (sorted_nodup _ Sa) as ND; inversion ND; contradiction).
      unfold inb. cbn [existsb]. rewrite (proj2 (Nat.eqb_neq v x)) by assumption. reflexivity.
    + set (m := Nat.max x (Nat.max y z)).
      set (ab' := if (x <? m)%nat then ab else x :: ab). set (ac' := if (y <? m)%nat then ac else y :: ac).
      set (bc' := if (z <? m)%nat then bc else z :: bc).
      assert (Hm : (x < m \/ y < m \/ z < m)%nat).
      { apply andb_false_iff in E. rewrite !Nat.eqb_neq in E. unfold m. lia. }
      destruct (IH ab' ac' bc') as (w & Ew & Hw).
      * unfold ab', ac', bc'. cbn [length] in Hf. destruct (Nat.ltb_spec x m), (Nat.ltb_spec y m), (Nat.ltb_spec z m); cbn [length]; lia.
      * unfold ab'. destruct (x <? m)%nat; [eapply ssorted_tail|]; eassumption.
      * unfold ac'. destruct (y <? m)%nat; [eapply ssorted_tail|]; eassumption.
      * unfold bc'. destruct (z <? m)%nat; [eapply ssorted_tail|]; eassumption.
      * exists w. split; [exact Ew|]. rewrite Hw. symmetry.
        assert (S1 : (tsum (x :: ab) (y :: ac) (z :: bc) == tsum ab' (y :: ac) (z :: bc))%Q).
        { unfold ab'. destruct (Nat.ltb_spec x m) as [H|H]; [|reflexivity]. apply tsum_drop1.
          destruct (Nat.lt_ge_cases x y); [left|right]; apply not_in_lt; auto. unfold m in H. lia. }
        assert (Hsub : forall v, In v ab' -> In v (x :: ab)) by (unfold ab'; destruct (x <? m)%nat; intros v Hv; [right|]; exact Hv).
        assert (Hsub2 : forall v, In v ac' -> In v (y :: ac)) by (unfold ac'; destruct (y <? m)%nat; intros v Hv; [right|]; exact Hv).
        assert (S2 : (tsum ab' (y :: ac) (z :: bc) == tsum ab' ac' (z :: bc))%Q).
        { unfold ac'. destruct (Nat.ltb_spec y m) as [H|H]; [|reflexivity]. apply tsum_drop2.
          destruct (Nat.lt_ge_cases y x); [left; intro Hi; apply Hsub in Hi; revert Hi|right]; apply not_in_lt; auto. unfold m in H. lia. }
        assert (S3 : (tsum ab' ac' (z :: bc) == tsum ab' ac' bc')%Q).
        { unfold bc'. destruct (Nat.ltb_spec z m) as [H|H]; [|reflexivity]. apply tsum_drop3.
          destruct (Nat.lt_ge_cases z x); [left; intro Hi; apply Hsub in Hi; revert Hi|right; intro Hi; apply Hsub2 in Hi; revert Hi];
            apply not_in_lt; auto. unfold m in H. lia. }
        rewrite S1, S2. exact S3.
Qed.
End Merge.

Lemma ssorted_seq : forall n k, StronglySorted lt (seq k n).
Proof.
  induction n as [|n IH]; intros k; [constructor|]. cbn. constructor; [apply IH|]. apply Forall_forall. intros x Hx. apply in_seq in Hx. lia.
Qed.
Lemma ssorted_filter : forall (f : nat -> bool) l, StronglySorted lt l -> StronglySorted lt (filter f l).
Proof.
  induction l as [|a l IH]; intros H; [constructor|]. inversion H as [|? ? Hs Ha]; subst. cbn. destruct (f a); [|apply IH; exact Hs].
  constructor; [apply IH; exact Hs|]. rewrite Forall_forall in *. intros x Hx. apply filter_In in Hx. apply Ha, Hx.
Qed.

Lemma qsum_nth : forall A (f : A -> Q) l d, (qsum (fun c => f (nth c l d)) (seq 0 (length l)) == qsum f l)%Q.
Proof.
  intros A f l d. induction l as [|a l IH]; [reflexivity|]. cbn [length seq]. rewrite !qsum_cons. cbn [nth].
  rewrite <- seq_shift, qsum_map. rewrite IH. reflexivity.
Qed.

Lemma wt_if : forall P cols, wt P cols = qsum (fun e => if P (snd e) then fst e else 0%Q) cols.
Proof. reflexivity. Qed.

(** The violation computed is the left-hand side over the columns kept, minus
    one. *)
Theorem violation_wt : forall cols c, cols_sorted cols -> proper c ->
  exists v, cviolation cols c = Some v /\ (v == wt (two c) cols - 1)%Q.
Proof.
  intros cols [[x y] z] Hs Hp. unfold proper in Hp. cbn in Hp. unfold cviolation.
  rewrite !pair_columns_filter by (auto; lia).
  set (d := (0%Q, @nil nat)). set (s := seq 0 (length cols)).
  set (F := fun p => filter (fun c => both p (snd (nth c cols d))) s).
  change (filter (fun c => both (x, y) (snd (nth c cols d))) s) with (F (x, y)).
  change (filter (fun c => both (x, z) (snd (nth c cols d))) s) with (F (x, z)).
  change (filter (fun c => both (y, z) (snd (nth c cols d))) s) with (F (y, z)).
  destruct (merge_sum (fun c => fst (nth c cols d)) (length (F (x, y)) + length (F (x, z)) + length (F (y, z))) (F (x, y)) (F (x, z)) (F (y, z)))
    as (w & Ew & Hw); [lia|apply ssorted_filter, ssorted_seq..|].
  rewrite Ew. cbn [option_map]. eexists. split; [reflexivity|].
  rewrite !pair_weight_wt by (auto; lia).
  assert (Hw2 : (w == wt (fun l => both (x, y) l && (both (x, z) l && both (y, z) l)) cols)%Q).
  { rewrite Hw. unfold tsum, F at 3. rewrite <- qsum_filter_if. unfold wt.
    rewrite <- (qsum_nth _ (fun e => if both (x, y) (snd e) && (both (x, z) (snd e) && both (y, z) (snd e)) then fst e else 0%Q) cols d).
    fold s. apply qsum_ext. intros c Hc.
    assert (EF : forall p, inb c (F p) = both p (snd (nth c cols d))).
    { intros p. destruct (both p (snd (nth c cols d))) eqn:E.
      - apply inb_in. unfold F. apply filter_In. split; assumption.
      - apply inb_false. unfold F. rewrite filter_In. intros [_ G]. congruence. }
    rewrite !EF. destruct (both (x, y) _), (both (x, z) _), (both (y, z) _); reflexivity. }
  rewrite Hw2.
  assert (G : (wt (both (x, y)) cols + wt (both (x, z)) cols + wt (both (y, z)) cols
     == wt (two (x, y, z)) cols + 2 * wt (fun l => both (x, y) l && (both (x, z) l && both (y, z) l)) cols)%Q).
  { rewrite !wt_if, <- qsum_scale, <- !qsum_plus. apply qsum_ext. intros e _. unfold two, both. cbn [fst snd].
    destruct (inb x (snd e)), (inb y (snd e)), (inb z (snd e)); cbn; ring. }
  rewrite G. ring.
Qed.
