(** * The separation of subset-row cuts: sound and complete *)

From Coq Require Import List ZArith QArith Bool Lia Lqa Sorted Permutation.
From Verif Require Import Util Common_Model OneDim_Model ColGen_Model ColGen_Spec ColGenCut_Proof.
Import ListNotations.
Open Scope Z_scope.

(** ** Sorting *)

Lemma nat_insert_perm : forall a l, Permutation (a :: l) (nat_insert a l).
Proof.
  induction l as [|b l IH]; [reflexivity|]. cbn. destruct (a <=? b)%nat; [reflexivity|].
  rewrite perm_swap. constructor. exact IH.
Qed.
Lemma nat_sort_perm : forall l, Permutation l (nat_sort l).
Proof.
  induction l as [|a l IH]; [reflexivity|]. cbn. rewrite <- nat_insert_perm. constructor. exact IH.
Qed.
Lemma nat_insert_sorted : forall a l, StronglySorted lt l -> ~ In a l -> StronglySorted lt (nat_insert a l).
Proof.
  induction l as [|b l IH]; intros H Hn; [constructor; constructor|]. inversion H as [|? ? Hs Hb]; subst. cbn.
  rewrite Forall_forall in Hb. destruct (Nat.leb_spec a b) as [Hl|Hl].
  - assert (a <> b) by (intros ->; apply Hn; left; reflexivity).
    constructor; [exact H|]. apply Forall_forall. intros x [<-|Hx]; [lia|]. specialize (Hb x Hx). lia.
  - constructor; [apply IH; [exact Hs|intro; apply Hn; right; assumption]|]. apply Forall_forall. intros x Hx.
    apply (Permutation_in _ (Permutation_sym (nat_insert_perm a l))) in Hx. destruct Hx as [<-|Hx]; [lia|]. apply Hb. exact Hx.
Qed.
Lemma nat_sort_sorted : forall l, NoDup l -> StronglySorted lt (nat_sort l).
Proof.
  induction l as [|a l IH]; intros H; [constructor|]. inversion H as [|? ? Ha Hl]; subst. cbn. apply nat_insert_sorted; [apply IH; exact Hl|].
  intro Hi. apply Ha. apply (Permutation_in _ (Permutation_sym (nat_sort_perm l))). exact Hi.
Qed.
Lemma nat_sort_in : forall l x, In x (nat_sort l) <-> In x l.
Proof.
  intros l x. split; intro H; [apply (Permutation_in _ (Permutation_sym (nat_sort_perm l)))|apply (Permutation_in _ (nat_sort_perm l))]; exact H.
Qed.

(** Three different numbers sorted. *)
Lemma csort3_proper : forall a b c, (a < b)%nat -> c <> a -> c <> b ->
  proper (csort3 a b c) /\ forall x, In x (tmembers (csort3 a b c)) <-> x = a \/ x = b \/ x = c.
Proof.
  intros a b c H Ha Hb. unfold csort3, nat_sort. cbn [fold_right nat_insert].
  destruct (Nat.leb_spec b c); cbn [nat_insert].
  - destruct (Nat.leb_spec a b); [|lia]. unfold proper, tmembers. cbn. split; [lia|]. intros x. lia.
  - destruct (Nat.leb_spec a c); cbn [nat_insert].
    + unfold proper, tmembers. cbn. split; [lia|]. intros x. lia.
    + destruct (Nat.leb_spec a b); [|lia]. unfold proper, tmembers. cbn. split; [lia|]. intros x. lia.
Qed.
Lemma csort3_last : forall x y z, (x < y < z)%nat -> csort3 y z x = (x, y, z) /\ csort3 x y z = (x, y, z).
Proof.
  intros x y z H. unfold csort3, nat_sort. cbn [fold_right nat_insert]. split.
  - destruct (Nat.leb_spec z x); [lia|]. cbn [nat_insert]. destruct (Nat.leb_spec y x); [lia|]. cbn [nat_insert].
    destruct (Nat.leb_spec y z); [|lia]. reflexivity.
  - destruct (Nat.leb_spec y z); [|lia]. cbn [nat_insert]. destruct (Nat.leb_spec x y); [|lia]. reflexivity.
Qed.

(** ** The columns of the fractional solution *)

Definition single (i : CInst) (x : nat) : Prop := ci_copies (citem i x) = 1.
Definition fractional (i : CInst) (sol : list (CCol * Q)) : Prop :=
  forall p, In p sol -> describes i (fst p) /\ (0 <= snd p)%Q.
(** The columns that are not negligible. *)
Definition significant (sol : list (CCol * Q)) : list (CCol * Q) := filter (fun p => Qle_bool (1 # 1000000) (snd p)) sol.

Lemma occ_one : forall l x, In x l -> 1 <= occ l x.
Proof. intros l x H. unfold occ. apply (count_occ_In Nat.eq_dec) in H. lia. Qed.

Lemma describes_ids : forall i col, describes i col ->
  StronglySorted lt (ccolumn_ids i col) /\ forall x, In x (ccolumn_ids i col) <-> In x (cc_items col) /\ single i x.
Proof.
  intros i col [D1 D2 D3 D4]. unfold ccolumn_ids.
  set (F := fun e : nat * Q => _). assert (HF : forall r q x, In x (F (r, q)) <->
    (cnb i <= r)%nat /\ Qle_bool q (1 # 2) = false /\ x = (r - cnb i)%nat /\ single i x).
  { intros r q x. unfold F. cbn [fst snd]. destruct (Nat.ltb_spec r (cnb i)).
    - split; [intros []|lia].
    - destruct (Qle_bool q (1 # 2)); [split; [intros []|intros (_ & A & _); discriminate]|].
      destruct (Z.eqb_spec (ci_copies (citem i (r - cnb i))) 1) as [E|E].
      + split; [intros [<-|[]]; repeat split; auto|intros (_ & _ & -> & _); left; reflexivity].
      + split; [intros []|intros (_ & _ & -> & S1); elim E; exact S1]. }
  split.
  - apply nat_sort_sorted. revert D3. clear - HF. induction (cc_elements col) as [|[r q] l IH]; intros D; [constructor|].
    cbn [map fst] in D. inversion D as [|? ? Dr Dl]; subst. cbn [flat_map]. apply nodup_app_intro.
    + unfold F. destruct (_ <? _)%nat; [constructor|]. destruct (Qle_bool _ _); [constructor|]. cbv zeta. destruct (_ =? _); repeat constructor. intros [].
    + apply IH. exact Dl.
    + intros x Hx Hy. apply in_flat_map in Hy. destruct Hy as ([r2 q2] & He & Hy). apply HF in Hx, Hy.
      assert (r = r2) by lia. subst r2. apply Dr. apply (in_map fst) in He. exact He.
  - intros x. rewrite nat_sort_in, in_flat_map. split.
    + intros ([r q] & He & Hx). apply HF in Hx. destruct Hx as (A & B & C & S1). split; [|exact S1].
      apply D4 in He. destruct He as [[-> ->]|(y & -> & Hy & ->)]; [lia|].
      replace x with y by lia. exact Hy.
    + intros [Hx S1]. exists ((cnb i + x)%nat, inject_Z (occ (cc_items col) x)). split.
      * apply D4. right. exists x. auto.
      * apply HF. split; [lia|]. split; [|split; [lia|exact S1]].
        apply not_true_is_false. rewrite Qle_bool_iff. intro A.
        assert (B : (inject_Z 1 <= inject_Z (occ (cc_items col) x))%Q) by (rewrite <- Zle_Qle; apply occ_one; exact Hx).
        change (inject_Z 1) with 1%Q in B. lra.
Qed.

Lemma column_items_facts : forall i sol, fractional i sol ->
  cols_sorted (ccolumn_items i sol)
  /\ (forall e, In e (ccolumn_items i sol) -> (0 <= fst e)%Q /\ forall x, In x (snd e) -> (x < cni i)%nat /\ single i x)
  /\ (forall P P2, (forall col, describes i col -> P (ccolumn_ids i col) = P2 (cc_items col)) ->
      (wt P (ccolumn_items i sol) == qsum (fun p => if P2 (cc_items (fst p)) then snd p else 0) (significant sol))%Q).
Proof.
  intros i sol H.
  assert (EQ : ccolumn_items i sol = map (fun p => (snd p, ccolumn_ids i (fst p))) (significant sol)).
  { clear. unfold ccolumn_items, significant. induction sol as [|p sol IH]; [reflexivity|]. cbn [flat_map filter]. rewrite IH.
    unfold Qltb. destruct (Qle_bool _ _); reflexivity. }
  assert (HS : forall p, In p (significant sol) -> describes i (fst p) /\ (0 <= snd p)%Q).
  { intros p Hp. apply filter_In in Hp. apply H. apply Hp. }
  rewrite EQ. split; [|split].
  - intros e He. apply in_map_iff in He. destruct He as (p & <- & Hp). cbn [snd]. apply describes_ids. apply HS. exact Hp.
  - intros e He. apply in_map_iff in He. destruct He as (p & <- & Hp). cbn [fst snd]. split; [apply HS; exact Hp|].
    intros x Hx. apply describes_ids in Hx; [|apply HS; exact Hp]. split; [|apply Hx]. apply (ds_items _ _ (proj1 (HS p Hp))). apply Hx.
  - intros P P2 HP. unfold wt. rewrite qsum_map. apply qsum_ext. intros p Hp. cbn [fst snd]. rewrite HP by (apply HS; exact Hp). reflexivity.
Qed.

Lemma ids_inb : forall i col x, describes i col -> single i x -> inb x (ccolumn_ids i col) = inb x (cc_items col).
Proof.
  intros i col x D S1. apply eq_true_iff_eq. rewrite !inb_in. destruct (describes_ids i col D) as [_ E]. rewrite E. tauto.
Qed.

Lemma activity_wt : forall i sol x y z, fractional i sol -> single i x -> single i y -> single i z ->
  (wt (two (x, y, z)) (ccolumn_items i sol) == cut_activity (x, y, z) (significant sol))%Q.
Proof.
  intros i sol x y z H Sx Sy Sz. destruct (column_items_facts i sol H) as (_ & _ & F).
  rewrite (F (two (x, y, z)) (two (x, y, z))).
  - unfold cut_activity. apply qsum_ext. intros p _. rewrite coefficient_two. destruct (two _ _); ring.
  - intros col D. unfold two. rewrite !(ids_inb i col) by assumption. reflexivity.
Qed.

Lemma significant_le : forall sol (f : CCol * Q -> Q), (forall p, In p sol -> (0 <= f p)%Q) -> (qsum f (significant sol) <= qsum f sol)%Q.
Proof.
  unfold significant. induction sol as [|p sol IH]; intros f H; [cbn; lra|]. cbn [filter].
  specialize (IH f (fun q Hq => H q (or_intror Hq))). pose proof (H p (or_introl eq_refl)).
  destruct (Qle_bool _ _); rewrite !qsum_cons; lra.
Qed.

Lemma item_wt : forall i sol x, fractional i sol -> single i x -> (wt (inb x) (ccolumn_items i sol) <= item_activity x sol)%Q.
Proof.
  intros i sol x H Sx. destruct (column_items_facts i sol H) as (_ & _ & F).
  rewrite (F (inb x) (inb x)) by (intros col D; apply ids_inb; assumption).
  eapply Qle_trans; [apply significant_le|].
  - intros p Hp. destruct (inb x _); [apply H; exact Hp|lra].
  - unfold item_activity. apply qsum_le. intros p Hp. destruct (H p Hp) as [_ Hv].
    destruct (inb x (cc_items (fst p))) eqn:E.
    + apply inb_in, occ_one in E. assert (B : (inject_Z 1 <= inject_Z (occ (cc_items (fst p)) x))%Q) by (rewrite <- Zle_Qle; exact E).
      change (inject_Z 1) with 1%Q in B. nra.
    + apply Qmult_le_0_compat; [|exact Hv]. change 0%Q with (inject_Z 0). rewrite <- Zle_Qle. unfold occ. lia.
Qed.

Lemma cut_significant : forall i sol c, fractional i sol -> (cut_activity c (significant sol) <= cut_activity c sol)%Q.
Proof.
  intros i sol c H. unfold cut_activity. apply significant_le. intros p Hp. rewrite coefficient_two. destruct (H p Hp) as [_ Hv].
  destruct (two _ _); lra.
Qed.

(** ** The item types in fewer than two columns *)

Section Columns.
Variable cols0 : list (Q * list nat).
Hypothesis Hsort : cols_sorted cols0.
Hypothesis Hpos : forall e, In e cols0 -> (0 <= fst e)%Q.

Lemma wt_mono : forall P P2, (forall e, In e cols0 -> P (snd e) = true -> P2 (snd e) = true) -> (wt P cols0 <= wt P2 cols0)%Q.
Proof.
  intros P P2 H. unfold wt. apply qsum_le. intros e He. specialize (H e He). specialize (Hpos e He).
  destruct (P (snd e)); [rewrite H by reflexivity; lra|]. destruct (P2 (snd e)); lra.
Qed.

Lemma few_columns : forall x, cnumber_of_columns cols0 x <= 1 ->
  (forall e, In e cols0 -> ~ In x (snd e))
  \/ (exists e0, In e0 cols0 /\ forall e, In e cols0 -> In x (snd e) -> e = e0).
Proof.
  intros x. unfold cnumber_of_columns. clear. induction cols0 as [|e l IH]; intros H; [left; intros e []|].
  rewrite zsum_cons in H.
  assert (G : 0 <= zsum (fun e => occ (snd e) x) l) by (apply zsum_nonneg; intros; unfold occ; lia).
  assert (G0 : 0 <= occ (snd e) x) by (unfold occ; lia).
  destruct (in_dec Nat.eq_dec x (snd e)) as [Hx|Hx].
  - right. exists e. split; [left; reflexivity|]. intros e2 [<-|He] Hi; [reflexivity|]. exfalso.
    pose proof (occ_one _ _ Hx). apply in_split in He. destruct He as (l1 & l2 & ->). rewrite zsum_app, zsum_cons in H.
    pose proof (occ_one _ _ Hi).
    assert (0 <= zsum (fun e => occ (snd e) x) l1) by (apply zsum_nonneg; intros; unfold occ; lia).
    assert (0 <= zsum (fun e => occ (snd e) x) l2) by (apply zsum_nonneg; intros; unfold occ; lia). lia.
  - destruct IH as [IH|(e0 & I1 & I2)]; [lia| |].
    + left. intros e2 [<-|He]; [exact Hx|apply IH; exact He].
    + right. exists e0. split; [right; exact I1|]. intros e2 [<-|He] Hi; [contradiction|apply I2; assumption].
Qed.

Lemma few_weight : forall x y z, cnumber_of_columns cols0 x <= 1 ->
  (wt (two (x, y, z)) cols0 <= wt (inb y) cols0)%Q \/ (wt (two (x, y, z)) cols0 <= wt (inb z) cols0)%Q.
Proof.
  intros x y z H. destruct (few_columns x H) as [F|(e0 & F1 & F2)].
  - left. apply wt_mono. intros e He. apply F in He. apply inb_false in He. unfold two. rewrite He. cbn [andb orb].
    rewrite andb_true_iff. intros [A _]. exact A.
  - assert (G : forall e, In e cols0 -> two (x, y, z) (snd e) = true -> inb y (snd e) && inb z (snd e) = true \/ e = e0).
    { intros e He. destruct (inb x (snd e)) eqn:E.
      - intros _. right. apply F2; [exact He|]. apply inb_in. exact E.
      - unfold two. rewrite E. cbn [andb orb]. intros A. left. exact A. }
    destruct (inb y (snd e0)) eqn:Ey.
    + left. apply wt_mono. intros e He A. destruct (G e He A) as [B| ->]; [|exact Ey]. apply andb_true_iff in B. apply B.
    + right. apply wt_mono. intros e He A. destruct (G e He A) as [B| ->]; [apply andb_true_iff in B; apply B|].
      unfold two in A. rewrite Ey in A. rewrite andb_false_r in A. cbn [andb orb] in A. rewrite orb_false_r in A.
      apply andb_true_iff in A. apply A.
Qed.

Lemma two_swap : forall x y z l, two (y, x, z) l = two (x, y, z) l /\ two (z, x, y) l = two (x, y, z) l.
Proof. intros x y z l. unfold two. destruct (inb x l), (inb y l), (inb z l); split; reflexivity. Qed.

Lemma wt_ext : forall P P2 cols, (forall e, In e cols -> P (snd e) = P2 (snd e)) -> (wt P cols == wt P2 cols)%Q.
Proof. intros P P2 cols H. unfold wt. apply qsum_ext. intros e He. rewrite (H e He). reflexivity. Qed.

(** A triple heavier than each of its members: its members are in at least two
    columns, and two of its pairs share a column. *)
Lemma heavy : forall x y z B,
  (wt (inb x) cols0 <= B)%Q -> (wt (inb y) cols0 <= B)%Q -> (wt (inb z) cols0 <= B)%Q -> (B < wt (two (x, y, z)) cols0)%Q ->
  (2 <= cnumber_of_columns cols0 x /\ 2 <= cnumber_of_columns cols0 y /\ 2 <= cnumber_of_columns cols0 z)
  /\ (exists e, In e cols0 /\ In y (snd e) /\ In z (snd e)) /\ (exists e, In e cols0 /\ In x (snd e) /\ In z (snd e)).
Proof.
  intros x y z B Bx By Bz H. split; [split; [|split]|].
  - destruct (Z.le_gt_cases 2 (cnumber_of_columns cols0 x)) as [|L]; [assumption|]. exfalso.
    destruct (few_weight x y z) as [A|A]; [lia| |]; lra.
  - destruct (Z.le_gt_cases 2 (cnumber_of_columns cols0 y)) as [|L]; [assumption|]. exfalso.
    assert (E : (wt (two (y, x, z)) cols0 == wt (two (x, y, z)) cols0)%Q) by (apply wt_ext; intros; apply two_swap).
    destruct (few_weight y x z) as [A|A]; [lia| |]; rewrite E in A; lra.
  - destruct (Z.le_gt_cases 2 (cnumber_of_columns cols0 z)) as [|L]; [assumption|]. exfalso.
    assert (E : (wt (two (z, x, y)) cols0 == wt (two (x, y, z)) cols0)%Q) by (apply wt_ext; intros; apply two_swap).
    destruct (few_weight z x y) as [A|A]; [lia| |]; rewrite E in A; lra.
  - assert (G : forall w, (wt (inb w) cols0 <= B)%Q -> exists e, In e cols0 /\ two (x, y, z) (snd e) = true /\ inb w (snd e) = false).
    { intros w Hw. destruct (existsb (fun e => two (x, y, z) (snd e) && negb (inb w (snd e))) cols0) eqn:E.
      - apply existsb_exists in E. destruct E as (e & He & A). apply andb_true_iff in A. exists e. split; [exact He|].
        split; [apply A|]. destruct A as [_ A]. apply negb_true_iff in A. exact A.
      - exfalso. assert (A : (wt (two (x, y, z)) cols0 <= wt (inb w) cols0)%Q).
        { apply wt_mono. intros e He A. destruct (inb w (snd e)) eqn:F; [reflexivity|]. exfalso.
          assert (N : existsb (fun e => two (x, y, z) (snd e) && negb (inb w (snd e))) cols0 = true).
          { apply existsb_exists. exists e. split; [exact He|]. rewrite A, F. reflexivity. }
          congruence. }
        lra. }
    split.
    + destruct (G x Bx) as (e & He & A & F). exists e. unfold two in A. rewrite F in A. cbn [andb orb] in A. apply andb_true_iff in A.
      rewrite !inb_in in A. split; [exact He|exact A].
    + destruct (G y By) as (e & He & A & F). exists e. unfold two in A. rewrite F in A. rewrite andb_false_r in A. cbn [andb orb] in A.
      rewrite orb_false_r in A. apply andb_true_iff in A. rewrite !inb_in in A. split; [exact He|exact A].
Qed.
End Columns.

(** ** The columns kept *)

Lemma kept_sorted : forall cols, cols_sorted cols -> cols_sorted (ckept cols).
Proof.
  intros cols H e He. apply in_map_iff in He. destruct He as (d & <- & Hd). cbn [snd]. apply ssorted_filter, H, Hd.
Qed.

Lemma kept_le : forall cols c, (forall e, In e cols -> (0 <= fst e)%Q) -> (wt (two c) (ckept cols) <= wt (two c) cols)%Q.
Proof.
  intros cols [[x y] z] H. unfold wt, ckept at 1. rewrite qsum_map. apply qsum_le. intros e He. cbn [fst snd]. specialize (H e He).
  set (F := fun x => _). assert (G : forall w, inb w (filter F (snd e)) = true -> inb w (snd e) = true).
  { intros w Hw. apply inb_in in Hw. apply filter_In in Hw. apply inb_in. apply Hw. }
  pose proof (G x). pose proof (G y). pose proof (G z). unfold two.
  destruct (inb x (filter F (snd e))), (inb y (filter F (snd e))), (inb z (filter F (snd e)));
  destruct (inb x (snd e)), (inb y (snd e)), (inb z (snd e)); cbn; try lra;
  repeat match goal with K : true = true -> _ |- _ => specialize (K eq_refl) end; congruence.
Qed.

Lemma kept_in : forall cols e x, In e cols -> In x (snd e) -> 2 <= cnumber_of_columns cols x ->
  In (fst e, filter (fun x => 2 <=? cnumber_of_columns cols x) (snd e)) (ckept cols)
  /\ In x (filter (fun x => 2 <=? cnumber_of_columns cols x) (snd e)).
Proof.
  intros cols e x He Hx H2. split.
  - apply in_map_iff. exists e. split; [reflexivity|exact He].
  - apply filter_In. split; [exact Hx|]. apply Z.leb_le. exact H2.
Qed.

Lemma kept_eq : forall cols x y z, 2 <= cnumber_of_columns cols x -> 2 <= cnumber_of_columns cols y -> 2 <= cnumber_of_columns cols z ->
  (wt (two (x, y, z)) (ckept cols) == wt (two (x, y, z)) cols)%Q.
Proof.
  intros cols x y z Hx Hy Hz. unfold wt, ckept at 1. rewrite qsum_map. apply qsum_ext. intros e He. cbn [fst snd].
  set (F := fun x => _). assert (G : forall w, F w = true -> inb w (filter F (snd e)) = inb w (snd e)).
  { intros w Hw. apply eq_true_iff_eq. rewrite !inb_in, filter_In. tauto. }
  unfold two. rewrite !G by (apply Z.leb_le; assumption). reflexivity.
Qed.

(** ** The candidates *)

Lemma neighbors_in : forall cols x z, In z (cneighbors cols x) <->
  exists e p, In e cols /\ In p (cpairs (snd e)) /\ ((fst p = x /\ snd p = z) \/ (snd p = x /\ fst p = z)).
Proof.
  intros cols x z. unfold cneighbors. rewrite nat_sort_in, nodup_In, in_flat_map. split.
  - intros (e & He & H). apply in_flat_map in H. destruct H as (p & Hp & H). exists e, p. split; [exact He|]. split; [exact Hp|].
    apply in_app_iff in H. destruct H as [H|H].
    + left. destruct (Nat.eqb_spec (fst p) x); [|destruct H]. destruct H as [H|[]]. split; assumption.
    + right. destruct (Nat.eqb_spec (snd p) x); [|destruct H]. destruct H as [H|[]]. split; assumption.
  - intros (e & p & He & Hp & H). exists e. split; [exact He|]. apply in_flat_map. exists p. split; [exact Hp|]. apply in_app_iff.
    destruct H as [[<- <-]|[<- <-]]; [left|right]; rewrite Nat.eqb_refl; left; reflexivity.
Qed.

Lemma attempts_sound : forall cols (R : nat -> Prop), cols_sorted cols -> (forall e x, In e cols -> In x (snd e) -> R x) ->
  forall c, In c (cattempts cols) -> proper c /\ forall x, In x (tmembers c) -> R x.
Proof.
  intros cols R Hs HR c H. unfold cattempts in H. apply in_flat_map in H. destruct H as (e & He & H).
  apply in_flat_map in H. destruct H as ([a b] & Hp & H). apply in_flat_map in H. destruct H as (z & Hz & H). cbn [fst snd] in *.
  destruct (Nat.eqb_spec z a) as [|Na]; [destruct H|]. destruct (Nat.eqb_spec z b) as [|Nb]; [destruct H|]. destruct H as [<-|[]].
  pose proof (cpairs_lt _ _ _ (Hs e He) Hp) as Hlt. destruct (csort3_proper a b z Hlt Na Nb) as [P1 P2]. split; [exact P1|].
  apply cpairs_in in Hp. intros x Hx. apply P2 in Hx. destruct Hx as [-> |[-> | ->]]; [apply (HR e); tauto..|].
  apply in_app_iff in Hz. destruct Hz as [Hz|Hz]; apply neighbors_in in Hz; destruct Hz as (e2 & [u v] & He2 & Hp2 & H2);
    apply cpairs_in in Hp2; cbn in H2; destruct H2 as [[_ <-]|[_ <-]]; apply (HR e2); tauto.
Qed.

Lemma attempts_complete : forall cols x y z, cols_sorted cols -> (x < y < z)%nat ->
  (exists e, In e cols /\ In y (snd e) /\ In z (snd e)) -> (exists e, In e cols /\ In x (snd e) /\ In z (snd e)) ->
  In (x, y, z) (cattempts cols).
Proof.
  intros cols x y z Hs H (e & He & Hy & Hz) (e2 & He2 & Hx & Hz2). unfold cattempts. apply in_flat_map. exists e. split; [exact He|].
  apply in_flat_map. exists (y, z). split; [apply in_cpairs; [apply Hs; exact He|assumption|assumption|lia]|].
  apply in_flat_map. exists x. cbn [fst snd]. split.
  - apply in_app_iff. right. apply neighbors_in. exists e2, (x, z). split; [exact He2|].
    split; [apply in_cpairs; [apply Hs; exact He2|assumption|assumption|lia]|]. right. split; reflexivity.
  - rewrite (proj2 (Nat.eqb_neq x y)), (proj2 (Nat.eqb_neq x z)) by lia. cbn [orb]. left. apply csort3_last. exact H.
Qed.

(** The set of candidates. *)
Definition tlt (c1 c2 : Triple) : Prop := triple_ltb c1 c2 = true.

Lemma tlt_spec : forall a1 b1 d1 a2 b2 d2, tlt (a1, b1, d1) (a2, b2, d2) <->
  (a1 < a2)%nat \/ (a1 = a2 /\ ((b1 < b2)%nat \/ (b1 = b2 /\ (d1 < d2)%nat))).
Proof.
  intros. unfold tlt, triple_ltb. rewrite orb_true_iff, andb_true_iff, orb_true_iff, andb_true_iff, !Nat.ltb_lt, !Nat.eqb_eq. reflexivity.
Qed.
Lemma tlt_trans : forall a b c, tlt a b -> tlt b c -> tlt a c.
Proof. intros [[a1 b1] d1] [[a2 b2] d2] [[a3 b3] d3]. rewrite !tlt_spec. lia. Qed.
Lemma tlt_irrefl : forall a, ~ tlt a a.
Proof. intros [[a b] d]. rewrite tlt_spec. lia. Qed.
Lemma tlt_total : forall a b, triple_ltb a b = false -> triple_ltb b a = false -> a = b.
Proof.
  intros [[a1 b1] d1] [[a2 b2] d2] H1 H2. apply not_true_iff_false in H1, H2.
  change (~ tlt (a1, b1, d1) (a2, b2, d2)) in H1. change (~ tlt (a2, b2, d2) (a1, b1, d1)) in H2. rewrite tlt_spec in H1, H2.
  assert (a1 = a2) by lia. assert (b1 = b2) by lia. assert (d1 = d2) by lia. congruence.
Qed.

Lemma triple_insert_in : forall c l d, In d (triple_insert c l) <-> d = c \/ In d l.
Proof.
  induction l as [|e l IH]; intros d; cbn [triple_insert].
  - cbn. intuition.
  - destruct (triple_ltb c e) eqn:E1; [cbn; intuition|]. destruct (triple_ltb e c) eqn:E2.
    + cbn [In]. rewrite IH. intuition.
    + pose proof (tlt_total _ _ E1 E2). subst e. cbn. intuition.
Qed.
Lemma triple_insert_sorted : forall c l, StronglySorted tlt l -> StronglySorted tlt (triple_insert c l).
Proof.
  induction l as [|e l IH]; intros H; cbn [triple_insert]; [constructor; constructor|].
  inversion H as [|? ? Hs He]; subst. rewrite Forall_forall in He.
  destruct (triple_ltb c e) eqn:E1.
  - constructor; [exact H|]. apply Forall_forall. intros d [<-|Hd]; [exact E1|]. eapply tlt_trans; [exact E1|apply He; exact Hd].
  - destruct (triple_ltb e c) eqn:E2; [|exact H]. constructor; [apply IH; exact Hs|]. apply Forall_forall. intros d Hd.
    apply triple_insert_in in Hd. destruct Hd as [-> |Hd]; [exact E2|apply He; exact Hd].
Qed.
Lemma tsorted_nodup : forall l, StronglySorted tlt l -> NoDup l.
Proof.
  induction l as [|a l IH]; intros H; [constructor|]. inversion H as [|? ? Hs Ha]; subst. constructor; [|apply IH; exact Hs].
  intro Hi. rewrite Forall_forall in Ha. exact (tlt_irrefl a (Ha a Hi)).
Qed.

(** The number of triples over [n] item types. *)
Fixpoint triples (n : nat) : list Triple :=
  match n with O => [] | S m => triples m ++ map (fun p => (fst p, snd p, m)) (cpairs (seq 0 m)) end.

Lemma cpairs_length : forall l, 2 * Z.of_nat (length (cpairs l)) = Z.of_nat (length l) * (Z.of_nat (length l) - 1).
Proof.
  induction l as [|a l IH]; [reflexivity|]. cbn [cpairs]. rewrite app_length, map_length. cbn [length].
  rewrite Nat2Z.inj_add, Nat2Z.inj_succ, Z.mul_add_distr_l, IH. unfold Z.succ. ring.
Qed.
Lemma triples_length : forall n, 6 * Z.of_nat (length (triples n)) = Z.of_nat n * (Z.of_nat n - 1) * (Z.of_nat n - 2).
Proof.
  induction n as [|n IH]; [reflexivity|]. cbn [triples]. rewrite app_length, map_length, Nat2Z.inj_add.
  pose proof (cpairs_length (seq 0 n)) as E. rewrite seq_length in E.
  rewrite Nat2Z.inj_succ, Z.mul_add_distr_l, IH. replace (6 * Z.of_nat (length (cpairs (seq 0 n)))) with (3 * (2 * Z.of_nat (length (cpairs (seq 0 n))))) by ring.
  rewrite E. unfold Z.succ. ring.
Qed.
Lemma triples_in : forall n c, proper c -> (forall x, In x (tmembers c) -> (x < n)%nat) -> In c (triples n).
Proof.
  induction n as [|n IH]; intros [[x y] z] Hp H.
  - specialize (H x (or_introl eq_refl)). lia.
  - cbn [triples]. apply in_app_iff. unfold proper in Hp. cbn in Hp. unfold tmembers in H. cbn [fst snd] in H.
    pose proof (H z (or_intror (or_intror (or_introl eq_refl)))) as Hz.
    destruct (Nat.eq_dec z n) as [-> |Hn].
    + right. apply in_map_iff. exists (x, y). split; [reflexivity|]. apply in_cpairs; [apply ssorted_seq|apply in_seq; lia..|lia].
    + left. apply IH; [unfold proper; cbn; lia|]. intros w [<-|[<-|[<-|[]]]]; cbn [fst snd]; lia.
Qed.

Lemma candidates_facts : forall cap cols n, (forall c, In c (cattempts cols) -> proper c /\ forall x, In x (tmembers c) -> (x < n)%nat) ->
  (forall c, In c (ccandidates cap cols) -> In c (cattempts cols))
  /\ (Z.of_nat n * (Z.of_nat n - 1) * (Z.of_nat n - 2) < 6 * Z.of_nat cap ->
      forall c, In c (cattempts cols) -> In c (ccandidates cap cols)).
Proof.
  intros cap cols n H. unfold ccandidates.
  assert (G : forall l s, (forall c, In c l -> In c (cattempts cols)) -> (forall c, In c s -> In c (cattempts cols)) -> StronglySorted tlt s ->
    (forall c, In c (fold_left (fun set c => if (cap <=? length set)%nat then set else triple_insert c set) l s) -> In c (cattempts cols))
    /\ (Z.of_nat n * (Z.of_nat n - 1) * (Z.of_nat n - 2) < 6 * Z.of_nat cap ->
        forall c, In c l \/ In c s -> In c (fold_left (fun set c => if (cap <=? length set)%nat then set else triple_insert c set) l s))).
  { induction l as [|d l IH]; intros s Hl Hs Ss; cbn [fold_left].
    - split; [exact Hs|]. intros _ c [[]|Hc]. exact Hc.
    - assert (Hlen : (length s <= length (triples n))%nat).
      { apply NoDup_incl_length; [apply tsorted_nodup; exact Ss|]. intros c Hc. apply Hs, H in Hc. apply triples_in; apply Hc. }
      pose proof (triples_length n) as TL.
      destruct (Nat.leb_spec cap (length s)) as [Hc|Hc].
      + destruct (IH s) as [I1 I2]; [intros c Hi; apply Hl; right; exact Hi|exact Hs|exact Ss|]. split; [exact I1|]. intros Hn. exfalso. lia.
      + destruct (IH (triple_insert d s)) as [I1 I2].
        * intros c Hi. apply Hl. right. exact Hi.
        * intros c Hi. apply triple_insert_in in Hi. destruct Hi as [-> |Hi]; [apply Hl; left; reflexivity|apply Hs; exact Hi].
        * apply triple_insert_sorted. exact Ss.
        * split; [exact I1|]. intros Hn c Hi. apply I2; [exact Hn|]. destruct Hi as [[<-|Hi]|Hi].
          -- right. apply triple_insert_in. left. reflexivity.
          -- left. exact Hi.
          -- right. apply triple_insert_in. right. exact Hi. }
  destruct (G (cattempts cols) [] (fun c Hc => Hc)) as [G1 G2]; [intros c []|constructor|]. split; [exact G1|].
  intros Hn c Hc. apply G2; [exact Hn|]. left. exact Hc.
Qed.

(** ** The violated candidates *)

Lemma violated_facts : forall cols l, cols_sorted cols -> (forall c, In c l -> proper c) ->
  exists vs, cviolated cols l = Some vs
    /\ (forall c v, In (c, v) vs -> In c l /\ (v == wt (two c) cols - 1)%Q /\ ((1 # 1000000) < v)%Q)
    /\ (forall c, In c l -> ((1 # 1000000) < wt (two c) cols - 1)%Q -> exists v, In (c, v) vs).
Proof.
  intros cols l Hs. induction l as [|c l IH]; intros H.
  - exists []. split; [reflexivity|]. split; [intros c v []|intros c []].
  - destruct IH as (vs & E & I1 & I2); [intros d Hd; apply H; right; exact Hd|].
    destruct (violation_wt cols c Hs (H c (or_introl eq_refl))) as (v & Ev & Hv).
    cbn [cviolated]. rewrite Ev, E. eexists. split; [reflexivity|].
    destruct (Qltb (1 # 1000000) v) eqn:L; unfold Qltb in L.
    + apply negb_true_iff, not_true_iff_false in L. rewrite Qle_bool_iff in L. apply Qnot_le_lt in L. split.
      * intros d w [Hd|Hd].
        -- injection Hd as <- <-. split; [left; reflexivity|]. split; assumption.
        -- destruct (I1 d w Hd) as (A & B). split; [right; exact A|exact B].
      * intros d [<-|Hd] Hw; [exists v; left; reflexivity|]. destruct (I2 d Hd Hw) as [w Hd2]. exists w. right. exact Hd2.
    + apply negb_false_iff, Qle_bool_iff in L. split.
      * intros d w Hd. destruct (I1 d w Hd) as (A & B). split; [right; exact A|exact B].
      * intros d [<-|Hd] Hw; [exfalso; lra|]. apply I2; assumption.
Qed.

(** ** The separation *)

Section Separation.
Variables (i : CInst) (sol : list (CCol * Q)) (sort : list (Triple * Q) -> list (Triple * Q)) (cap : nat).
Hypothesis Hfrac : fractional i sol.
Hypothesis Hsort : sorts sort.

Let cols0 := ccolumn_items i sol.
Let cols := ckept cols0.

Lemma sep_shape : exists vs,
  cviolated cols (ccandidates cap cols) = Some vs
  /\ cseparate i sort cap sol = Some (match sort vs with [] => [] | v :: _ => [fst v] end)
  /\ (forall c v, In (c, v) vs -> In c (cattempts cols) /\ proper c /\ (forall x, In x (tmembers c) -> (x < cni i)%nat /\ single i x)
        /\ (v == wt (two c) cols - 1)%Q /\ ((1 # 1000000) < v)%Q)
  /\ (Z.of_nat (cni i) * (Z.of_nat (cni i) - 1) * (Z.of_nat (cni i) - 2) < 6 * Z.of_nat cap ->
      forall c, In c (cattempts cols) -> ((1 # 1000000) < wt (two c) cols - 1)%Q -> exists v, In (c, v) vs).
Proof.
  destruct (column_items_facts i sol Hfrac) as (F1 & F2 & _). fold cols0 in F1, F2.
  assert (Hs : cols_sorted cols) by (apply kept_sorted; exact F1).
  assert (HR : forall e x, In e cols -> In x (snd e) -> (x < cni i)%nat /\ single i x).
  { intros e x He Hx. apply in_map_iff in He. destruct He as (d & <- & Hd). cbn [snd] in Hx. apply filter_In in Hx.
    apply (F2 d Hd). apply Hx. }
  pose proof (attempts_sound cols (fun x => (x < cni i)%nat /\ single i x) Hs HR) as HA.
  destruct (candidates_facts cap cols (cni i)) as [C1 C2].
  { intros c Hc. destruct (HA c Hc) as [A B]. split; [exact A|]. intros x Hx. apply B. exact Hx. }
  destruct (violated_facts cols (ccandidates cap cols) Hs) as (vs & E & V1 & V2).
  { intros c Hc. apply HA. apply C1. exact Hc. }
  exists vs. split; [exact E|].
  assert (V : forall c v, In (c, v) vs -> In c (cattempts cols) /\ proper c /\ (forall x, In x (tmembers c) -> (x < cni i)%nat /\ single i x)
        /\ (v == wt (two c) cols - 1)%Q /\ ((1 # 1000000) < v)%Q).
  { intros c v Hc. destruct (V1 c v Hc) as (A & B & C). apply C1 in A. split; [exact A|]. destruct (HA c A) as [P1 P2].
    split; [exact P1|]. split; [exact P2|]. split; assumption. }
  split; [|split; [exact V|]].
  - unfold cseparate. fold cols0 cols. rewrite E. cbn [option_map]. f_equal.
    destruct (Hsort vs) as [HP _]. destruct (sort vs) as [|[[[x y] z] v] r] eqn:ES; [reflexivity|]. cbn [firstn map fst snd]. f_equal.
    assert (Hi : In ((x, y, z), v) vs) by (apply (Permutation_in _ (Permutation_sym HP)); left; reflexivity).
    destruct (V _ _ Hi) as (_ & P1 & _). unfold proper in P1. cbn in P1. apply csort3_last. exact P1.
  - intros Hn c Hc Hw. apply V2; [|exact Hw]. apply C2; assumption.
Qed.

(** At most one cut; it is proper, on single-copy item types, and violated. *)
Theorem separate_sound : exists cuts, cseparate i sort cap sol = Some cuts /\ (length cuts <= 1)%nat
  /\ forall c, In c cuts -> proper c /\ (forall x, In x (tmembers c) -> (x < cni i)%nat /\ single i x)
     /\ (1 + (1 # 1000000) < cut_activity c sol)%Q.
Proof.
  destruct sep_shape as (vs & _ & E & V & _). eexists. split; [exact E|]. destruct (Hsort vs) as [HP _].
  destruct (sort vs) as [|[c v] r]; [split; [cbn; lia|intros c []]|]. split; [cbn; lia|]. intros d [<-|[]]. cbn [fst].
  assert (Hi : In (c, v) vs) by (apply (Permutation_in _ (Permutation_sym HP)); left; reflexivity).
  destruct (V c v Hi) as (_ & P1 & P2 & P3 & P4). split; [exact P1|]. split; [exact P2|].
  destruct (column_items_facts i sol Hfrac) as (F1 & F2 & _).
  assert (G : (wt (two c) cols <= wt (two c) cols0)%Q) by (apply kept_le; intros e He; apply F2; exact He).
  destruct c as [[x y] z].
  assert (G2 : (wt (two (x, y, z)) cols0 == cut_activity (x, y, z) (significant sol))%Q).
  { apply activity_wt; [exact Hfrac|..]; apply P2; cbn; auto. }
  pose proof (cut_significant i sol (x, y, z) Hfrac). lra.
Qed.

(** The cut returned is the most violated one, and one is returned whenever a cut
    is violated. *)
Theorem separate_complete :
  Z.of_nat (cni i) * (Z.of_nat (cni i) - 1) * (Z.of_nat (cni i) - 2) < 6 * Z.of_nat cap ->
  (forall x, (x < cni i)%nat -> single i x -> (item_activity x sol <= 1 + (1 # 1000000))%Q) ->
  forall d, proper d -> (forall x, In x (tmembers d) -> (x < cni i)%nat /\ single i x) ->
  (1 + (1 # 1000000) < cut_activity d (significant sol))%Q ->
  exists c, cseparate i sort cap sol = Some [c] /\ (cut_activity d (significant sol) <= cut_activity c (significant sol))%Q.
Proof.
  intros Hn Hrow [[x y] z] Hp Hm Hv. destruct sep_shape as (vs & _ & E & V & V2).
  destruct (column_items_facts i sol Hfrac) as (F1 & F2 & _). fold cols0 in F1, F2.
  assert (Hpos : forall e, In e cols0 -> (0 <= fst e)%Q) by (intros e He; apply F2; exact He).
  assert (Mx : (x < cni i)%nat /\ single i x) by (apply Hm; left; reflexivity).
  assert (My : (y < cni i)%nat /\ single i y) by (apply Hm; right; left; reflexivity).
  assert (Mz : (z < cni i)%nat /\ single i z) by (apply Hm; right; right; left; reflexivity).
  assert (HA : (wt (two (x, y, z)) cols0 == cut_activity (x, y, z) (significant sol))%Q) by (apply activity_wt; tauto).
  assert (HW : forall w, (w < cni i)%nat /\ single i w -> (wt (inb w) cols0 <= 1 + (1 # 1000000))%Q).
  { intros w [W1 W2]. eapply Qle_trans; [apply item_wt; [exact Hfrac|exact W2]|]. apply Hrow; assumption. }
  destruct (heavy cols0 Hpos x y z (1 + (1 # 1000000))%Q (HW x Mx) (HW y My) (HW z Mz)) as ((Kx & Ky & Kz) & (e1 & A1 & A2 & A3) & (e2 & B1 & B2 & B3)).
  { rewrite HA. exact Hv. }
  assert (HK : (wt (two (x, y, z)) cols == wt (two (x, y, z)) cols0)%Q) by (apply kept_eq; assumption).
  unfold proper in Hp. cbn in Hp.
  assert (Hc : In (x, y, z) (cattempts cols)).
  { apply attempts_complete; [apply kept_sorted; exact F1|exact Hp|..].
    - destruct (kept_in cols0 e1 y A1 A2 Ky) as [K1 K2]. destruct (kept_in cols0 e1 z A1 A3 Kz) as [_ K3].
      eexists. split; [exact K1|]. split; assumption.
    - destruct (kept_in cols0 e2 x B1 B2 Kx) as [K1 K2]. destruct (kept_in cols0 e2 z B1 B3 Kz) as [_ K3].
      eexists. split; [exact K1|]. split; assumption. }
  destruct (V2 Hn (x, y, z) Hc) as [v Hi]; [rewrite HK, HA; lra|].
  destruct (Hsort vs) as [HP HS]. destruct (sort vs) as [|[c w] r] eqn:ES.
  - exfalso. apply (Permutation_in _ HP) in Hi. destruct Hi.
  - exists c. split; [exact E|].
    assert (Hc2 : In (c, w) vs) by (apply (Permutation_in _ (Permutation_sym HP)); left; reflexivity).
    destruct (V c w Hc2) as (_ & _ & M & W & _). destruct (V _ _ Hi) as (_ & _ & _ & W2 & _).
    assert (L : (v <= w)%Q).
    { apply (Permutation_in _ HP) in Hi. destruct Hi as [Hi|Hi]; [injection Hi as _ Hw; rewrite Hw; apply Qle_refl|].
      exact (HS [] r (c, w) ((x, y, z), v) eq_refl Hi). }
    assert (G : (wt (two c) cols <= wt (two c) cols0)%Q) by (apply kept_le; exact Hpos).
    destruct c as [[a b] d].
    assert (G2 : (wt (two (a, b, d)) cols0 == cut_activity (a, b, d) (significant sol))%Q).
    { apply activity_wt; [exact Hfrac|..]; apply M; cbn; auto. }
    lra.
Qed.
End Separation.

Lemma cut_equal_iff : forall c1 c2, ccut_equal c1 c2 = true <-> c1 = c2.
Proof.
  intros [[a b] d] [[a2 b2] d2]. unfold ccut_equal. cbn [fst snd]. rewrite !andb_true_iff, !Nat.eqb_eq. split.
  - intros [[-> ->] ->]. reflexivity.
  - intros E. injection E as -> -> ->. auto.
Qed.
