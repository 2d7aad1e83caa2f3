(** * Solvers that answer rightly, for the examples on the Benders decomposition

    Each solver is given a list of answers and only gives those that a check finds right;
    [master_right], [master_valid], [sub_right], [bar_right] then hold whatever the list. *)

From Coq Require Import List ZArith QArith Qminmax Bool Lia Lqa Arith.
From Verif Require Import Reduc_Props RectTree_Props.
From Verif Require Import Util Common_Model Common_Spec Common_Proof OneDim_Model OneDim_Spec OneDim_Proof
  OneDimBuilder_Model OneDimBounds_Spec Milp_Model Milp_Spec Milp_Props
  Rect_Model Rect_Spec RectDff_Model RectDff_Proof RectDffBound_Proof RectSol_Spec Bar_Spec RectTree_Spec RectBounds_Spec RectBounds_Proof RectBounds_Props
  Benders_Model Benders_Spec Benders_Proof BendersCuts_Proof.
Import ListNotations.
Open Scope Z_scope.

Lemma in_seq_split : forall x n, (x < n)%nat -> exists a b, seq 0 n = a ++ x :: b.
Proof. intros x n H. apply in_split. apply in_seq. lia. Qed.

(** ** The master *)

Definition mbin_check (i : Instance) (d : BinDesc) : bool :=
  (zsum (fun x => it_length (item_type i x)) (bd_items d) <=? bt_length (bin_type i (bd_type d)))
  && within_check (OneDim_Spec.total_weight i (bd_items d)) (bt_max_weight (bin_type i (bd_type d)))
  && forallb (fun x => (it_eligibility (item_type i x) =? -1)
       || existsb (Z.eqb (it_eligibility (item_type i x))) (bt_eligibility_ids (bin_type i (bd_type d)))) (bd_items d)
  && forallb (fun r => res_penalize r || Qle_bool (consumption i r (bd_items d)) (res_capacity r)) (bt_resources (bin_type i (bd_type d))).
Lemma mbin_check_ok : forall i d, mbin_check i d = true -> MilpBinOK i d.
Proof.
  intros i d H. unfold mbin_check in H. rewrite !andb_true_iff, !forallb_forall in H. destruct H as (((H1 & H2) & H3) & H4). constructor.
  - apply Z.leb_le. exact H1.
  - apply within_check_spec. exact H2.
  - intros x Hx. specialize (H3 x Hx). apply orb_true_iff in H3. unfold is_eligible. destruct H3 as [H3|H3]; [left; apply Z.eqb_eq; exact H3|right].
    apply existsb_exists in H3. destruct H3 as (e & He & E). apply Z.eqb_eq in E. rewrite E. exact He.
  - intros r Hr Hp. specialize (H4 r Hr). rewrite Hp in H4. apply Qle_bool_iff. exact H4.
Qed.

Definition valid_check (i : Instance) (sol : list BinDesc) : bool :=
  forallb (fun d => (bd_type d <? length (in_bin_types i))%nat && (1 <=? bd_copies d) && mbin_check i d
    && forallb (fun x => (x <? length (in_item_types i))%nat) (bd_items d)) sol
  && forallb (fun x => packed x sol <=? it_copies (item_type i x)) (seq 0 (length (in_item_types i)))
  && forallb (fun t => used_bins t sol <=? bt_copies (bin_type i t)) (seq 0 (length (in_bin_types i))).

(** One bin type, and one of its resources forbids all the items in one bin. *)
Definition full_consumption (i : Instance) (r : Resource) : Q :=
  qsum (fun x => schedule_total (schedule r x) (Z.to_nat (it_copies (item_type i x)))) (seq 0 (length (in_item_types i))).
Definition conflict_check (i : Instance) : bool :=
  (length (in_bin_types i) =? 1)%nat
  && existsb (fun x => 0 <? it_copies (item_type i x)) (seq 0 (length (in_item_types i)))
  && existsb (fun r => negb (res_penalize r) && forallb (fun x => negb (length (schedule r x) =? 0)%nat) (seq 0 (length (in_item_types i)))
       && Qltb (res_capacity r) (full_consumption i r)) (bt_resources (bin_type i 0)).

Lemma conflict : forall i prec ds, conflict_check i = true -> Packing i prec ds ->
  (forall x, (x < length (in_item_types i))%nat -> packed x ds = it_copies (item_type i x)) -> 2 <= zsum bd_copies ds.
Proof.
  intros i prec ds H [T I [OB _ _] _ _ _ _ _] Hall. unfold conflict_check in H. rewrite !andb_true_iff in H. destruct H as ((H1 & H2) & H3).
  apply Nat.eqb_eq in H1. apply existsb_exists in H2. destruct H2 as (x & Hx & H2). apply in_seq in Hx. apply Z.ltb_lt in H2.
  apply existsb_exists in H3. destruct H3 as (r & Hr & H3). rewrite !andb_true_iff, forallb_forall, negb_true_iff in H3. destruct H3 as ((P & Sc) & F). apply Qltb_lt in F.
  destruct (Z_lt_le_dec (zsum bd_copies ds) 2) as [L|L]; [exfalso|exact L].
  assert (Hd : exists d, In d ds /\ 0 < bd_copies d).
  { destruct (existsb (fun d => 0 <? bd_copies d) ds) eqn:E; [apply existsb_exists in E; destruct E as (d & Hd & E); exists d; split; [exact Hd|apply Z.ltb_lt; exact E]|exfalso].
    assert (Z0 : packed x ds = 0).
    { unfold packed. apply Dff_Axis.zsum_zero. intros d Hd. destruct (T d Hd) as [_ C]. assert (bd_copies d = 0); [|nia].
      destruct (Z.ltb_spec 0 (bd_copies d)) as [Q|Q]; [|lia]. exfalso. assert (E' : existsb (fun d => 0 <? bd_copies d) ds = true) by (apply existsb_exists; exists d; split; [exact Hd|apply Z.ltb_lt; exact Q]). congruence. }
    rewrite (Hall x ltac:(lia)) in Z0. lia. }
  destruct Hd as (d & Hd & Cd). pose proof Hd as Hd'. apply in_split in Hd'. destruct Hd' as (l1 & l2 & E).
  assert (C1 : forall e, In e l1 \/ In e l2 -> 0 <= bd_copies e) by (intros e He; destruct (T e) as [_ C]; [rewrite E; apply in_app_iff; destruct He; [left|right; right]; assumption|exact C]).
  rewrite E, zsum_app, zsum_cons in L.
  assert (G1 : 0 <= zsum bd_copies l1) by (apply zsum_nonneg; intros e He; apply C1; left; exact He).
  assert (G2 : 0 <= zsum bd_copies l2) by (apply zsum_nonneg; intros e He; apply C1; right; exact He).
  assert (Zero : forall l e, (forall e, In e l -> 0 <= bd_copies e) -> zsum bd_copies l = 0 -> In e l -> bd_copies e = 0).
  { clear. intros l e Hl Hz He. apply in_split in He. destruct He as (a & b & ->). rewrite zsum_app, zsum_cons in Hz.
    assert (0 <= zsum bd_copies a) by (apply zsum_nonneg; intros y Hy; apply Hl; apply in_app_iff; left; exact Hy).
    assert (0 <= zsum bd_copies b) by (apply zsum_nonneg; intros y Hy; apply Hl; apply in_app_iff; right; right; exact Hy).
    pose proof (Hl e (in_elt _ _ _)). lia. }
  assert (Cnt : forall y, (y < length (in_item_types i))%nat -> Z.of_nat (count_occ Nat.eq_dec (bd_items d) y) = it_copies (item_type i y)).
  { intros y Hy. rewrite <- (Hall y Hy). unfold packed. rewrite E, zsum_app, zsum_cons.
    rewrite (Dff_Axis.zsum_zero _ _ l1), (Dff_Axis.zsum_zero _ _ l2).
    - assert (bd_copies d = 1) by lia. nia.
    - intros e He. rewrite (Zero l2 e) by (try assumption; try lia; intros z Hz; apply C1; right; exact Hz). lia.
    - intros e He. rewrite (Zero l1 e) by (try assumption; try lia; intros z Hz; apply C1; left; exact Hz). lia. }
  assert (Hnil : bd_items d <> []).
  { intro N. specialize (Cnt x ltac:(lia)). rewrite N in Cnt. cbn in Cnt. lia. }
  destruct (exists_last Hnil) as (p & y & Ep). destruct (T d Hd) as [Td _]. assert (bd_type d = 0%nat) as T0 by lia.
  pose proof (ok_resources i d (OB d Hd) r ltac:(rewrite T0; exact Hr) P p y [] Ep) as R.
  assert (Hy : (y < length (in_item_types i))%nat) by (apply (I d y Hd); rewrite Ep; apply in_app_iff; right; left; reflexivity).
  cbv beta in R. rewrite <- Ep in R.
  assert (R' : (consumption i r (bd_items d) <= res_capacity r)%Q).
  { apply R. intro N. specialize (Sc y ltac:(apply in_seq; lia)). rewrite N in Sc. discriminate Sc. }
  assert (Q : (consumption i r (bd_items d) == full_consumption i r)%Q).
  { unfold consumption, full_consumption. apply qsum_ext. intros z Hz. apply in_seq in Hz. rewrite <- (Cnt z) by lia. rewrite Nat2Z.id. reflexivity. }
  rewrite Q in R'. lra.
Qed.

(** All the items are packed: mandatory, or dominating a mandatory one. *)
Definition forced_check (i : Instance) (prec : list (nat * nat)) : bool :=
  forallb (fun x => (it_copies_min (item_type i x) =? it_copies (item_type i x))
    || existsb (fun ab => Nat.eqb (snd ab) x && (fst ab <? length (in_item_types i))%nat && (0 <? it_copies_min (item_type i (fst ab)))) prec)
    (seq 0 (length (in_item_types i))).
Lemma forced : forall i prec ds, forced_check i prec = true -> Packing i prec ds ->
  forall x, (x < length (in_item_types i))%nat -> packed x ds = it_copies (item_type i x).
Proof.
  intros i prec ds H [_ _ [_ _ Hmin] Hmax _ _ _ Hprec] x Hx. unfold forced_check in H. rewrite forallb_forall in H. specialize (H x ltac:(apply in_seq; lia)).
  apply orb_true_iff in H. destruct H as [H|H].
  - apply Z.eqb_eq in H. specialize (Hmin x Hx). specialize (Hmax x Hx). lia.
  - apply existsb_exists in H. destruct H as ([a b] & Hab & H). cbn [fst snd] in H. rewrite !andb_true_iff, Nat.eqb_eq, Nat.ltb_lt, Z.ltb_lt in H. destruct H as ((-> & Ha) & Hm).
    apply (Hprec a x Hab). specialize (Hmin a Ha). lia.
Qed.

(** One bin type, no penalised resource, and no item can be packed: a resource does not
    allow it, or an item type that has to be packed before cannot be. *)
Definition excluded_check (i : Instance) (x : nat) : bool :=
  existsb (fun r => negb (res_penalize r) && negb (length (schedule r x) =? 0)%nat
    && forallb (forallb (Qle_bool 0)) (res_item_consumptions r)
    && Qltb (res_capacity r) (schedule_total (schedule r x) 1)) (bt_resources (bin_type i 0)).
Definition nothing_check (i : Instance) (prec : list (nat * nat)) : bool :=
  (length (in_bin_types i) =? 1)%nat && forallb (fun r => negb (res_penalize r)) (bt_resources (bin_type i 0))
  && forallb (fun x => excluded_check i x
       || existsb (fun ab => Nat.eqb (fst ab) x && (snd ab <? length (in_item_types i))%nat && (0 <? it_copies (item_type i (snd ab)))
            && excluded_check i (snd ab)) prec) (seq 0 (length (in_item_types i))).

Lemma excluded : forall i prec ds x, length (in_bin_types i) = 1%nat -> excluded_check i x = true -> Packing i prec ds -> (x < length (in_item_types i))%nat ->
  forall d, In d ds -> ~ In x (bd_items d).
Proof.
  intros i prec ds x H1 H P Hx d Hd Hin. unfold excluded_check in H. apply existsb_exists in H. destruct H as (r & Hr & H).
  rewrite !andb_true_iff, !negb_true_iff in H. destruct H as (((Pen & Sc) & Nn) & F). apply Qltb_lt in F.
  destruct (pk_types _ _ _ P d Hd) as [T _]. assert (T0 : bd_type d = 0%nat) by lia.
  apply in_split in Hin. destruct Hin as (p & q & E).
  pose proof (ok_resources i d (ok_bins i ds (pk_ok _ _ _ P) d Hd) r ltac:(rewrite T0; exact Hr) Pen p x q E) as R. cbv beta in R.
  assert (R' : (consumption i r (p ++ [x]) <= res_capacity r)%Q).
  { apply R. intro N. rewrite N in Sc. discriminate Sc. }
  assert (NN : forall l, In l (res_item_consumptions r) -> forall v, In v l -> (0 <= v)%Q).
  { rewrite forallb_forall in Nn. intros l Hl v Hv. specialize (Nn l Hl). rewrite forallb_forall in Nn. apply Qle_bool_iff. apply Nn. exact Hv. }
  assert (Nsch : forall y v, In v (schedule r y) -> (0 <= v)%Q).
  { intros y v Hv. unfold schedule in Hv. destruct (nth_in_or_default y (res_item_consumptions r) []) as [I|I]; [apply (NN _ I v Hv)|rewrite I in Hv; destruct Hv]. }
  assert (Nst : forall y n, (0 <= schedule_total (schedule r y) n)%Q).
  { intros y n. induction n as [|n IH]; [apply Qle_refl|]. cbn [schedule_total]. assert ((0 <= nth n (schedule r y) (last (schedule r y) 0))%Q); [|lra].
    destruct (nth_in_or_default n (schedule r y) (last (schedule r y) 0%Q)) as [I|I]; [apply (Nsch y _ I)|rewrite I].
    destruct (schedule r y) as [|v l] eqn:El; [apply Qle_refl|]. apply (Nsch y). rewrite El. destruct (@exists_last _ (v :: l) ltac:(discriminate)) as (a & w & Ea). rewrite Ea, last_last. apply in_app_iff. right. left. reflexivity. }
  assert (Ge : (schedule_total (schedule r x) 1 <= schedule_total (schedule r x) (count_occ Nat.eq_dec (p ++ [x]) x))%Q).
  { assert (C : (1 <= count_occ Nat.eq_dec (p ++ [x]) x)%nat) by (apply count_occ_In, in_app_iff; right; left; reflexivity).
    induction (count_occ Nat.eq_dec (p ++ [x]) x) as [|n IH]; [lia|]. destruct (le_lt_dec 1 n) as [L|L]; [|assert (n = 0%nat) as -> by lia; apply Qle_refl].
    eapply Qle_trans; [apply IH; exact L|]. cbn [schedule_total]. assert ((0 <= nth n (schedule r x) (last (schedule r x) 0))%Q); [|lra].
    destruct (nth_in_or_default n (schedule r x) (last (schedule r x) 0%Q)) as [I|I]; [apply (Nsch x _ I)|rewrite I].
    destruct (schedule r x) as [|v l] eqn:El; [apply Qle_refl|]. apply (Nsch x). rewrite El. destruct (@exists_last _ (v :: l) ltac:(discriminate)) as (a & w & Ea). rewrite Ea, last_last. apply in_app_iff. right. left. reflexivity. }
  assert (Sum : (schedule_total (schedule r x) (count_occ Nat.eq_dec (p ++ [x]) x) <= consumption i r (p ++ [x]))%Q).
  { unfold consumption. apply in_seq_split in Hx. destruct Hx as (a & b & Es). rewrite Es, qsum_app, qsum_cons.
    assert (0 <= qsum (fun y => schedule_total (schedule r y) (count_occ Nat.eq_dec (p ++ [x]) y)) a)%Q by (apply qsum_nonneg; intros; apply Nst).
    assert (0 <= qsum (fun y => schedule_total (schedule r y) (count_occ Nat.eq_dec (p ++ [x]) y)) b)%Q by (apply qsum_nonneg; intros; apply Nst). lra. }
  lra.
Qed.

Lemma nothing : forall i prec ds, nothing_check i prec = true -> Packing i prec ds -> (net_profit i ds == 0)%Q.
Proof.
  intros i prec ds H P. unfold nothing_check in H. rewrite !andb_true_iff, !forallb_forall in H. destruct H as ((H1 & H2) & H3). apply Nat.eqb_eq in H1.
  assert (No : forall d x, In d ds -> 0 < bd_copies d -> ~ In x (bd_items d)).
  { intros d x Hd Cd Hin. pose proof (pk_items _ _ _ P d x Hd Hin) as Hx. specialize (H3 x ltac:(apply in_seq; lia)). apply orb_true_iff in H3. destruct H3 as [H3|H3].
    - apply (excluded i prec ds x H1 H3 P Hx d Hd Hin).
    - apply existsb_exists in H3. destruct H3 as ([a b] & Hab & H3). cbn [fst snd] in H3. rewrite !andb_true_iff, Nat.eqb_eq, Nat.ltb_lt, Z.ltb_lt in H3. destruct H3 as (((-> & Hb) & Cb) & Ex).
      assert (Pos : 0 < packed x ds).
      { unfold packed. apply in_split in Hd. destruct Hd as (l1 & l2 & ->). rewrite zsum_app, zsum_cons.
        pose proof (pk_types _ _ _ P) as T.
        assert (0 <= zsum (fun d => bd_copies d * Z.of_nat (count_occ Nat.eq_dec (bd_items d) x)) l1) by (apply zsum_nonneg; intros e He; destruct (T e ltac:(apply in_app_iff; left; exact He)); nia).
        assert (0 <= zsum (fun d => bd_copies d * Z.of_nat (count_occ Nat.eq_dec (bd_items d) x)) l2) by (apply zsum_nonneg; intros e He; destruct (T e ltac:(apply in_app_iff; right; right; exact He)); nia).
        pose proof (proj1 (count_occ_In Nat.eq_dec (bd_items d) x) Hin). nia. }
      pose proof (pk_prec _ _ _ P x b Hab Pos) as Eb.
      assert (Z0 : packed b ds = 0); [|lia]. unfold packed. apply Dff_Axis.zsum_zero. intros e He.
      rewrite (proj1 (count_occ_not_In Nat.eq_dec _ _) (excluded i prec ds b H1 Ex P Hb e He)). lia. }
  unfold net_profit. apply qsum_zero. intros d Hd. destruct (pk_types _ _ _ P d Hd) as [T C].
  assert (T0 : bd_type d = 0%nat) by lia.
  assert (Pe : (penalties i d == 0)%Q). { unfold penalties. apply qsum_zero. intros r Hr. rewrite T0 in Hr. specialize (H2 r Hr). apply negb_true_iff in H2. rewrite H2. reflexivity. }
  rewrite Pe. destruct (Z.eq_dec (bd_copies d) 0) as [->|N]; [change (inject_Z 0) with 0%Q; ring|].
  destruct (bd_items d) as [|x l] eqn:El; [change (qsum _ []) with 0%Q; ring|]. exfalso. apply (No d x Hd ltac:(lia)). rewrite El. left. reflexivity.
Qed.

Definition lower_check (i : Instance) (prec : list (nat * nat)) (c : MilpClaim) : bool :=
  match c with
  | BinsBound n => (n <=? 0) || (n <=? 1) && existsb (fun x => 0 <? it_copies_min (item_type i x)) (seq 0 (length (in_item_types i)))
      || (n <=? 2) && conflict_check i && forced_check i prec
  | Infeasible => conflict_check i && forced_check i prec && (bt_copies (bin_type i 0) <=? 1)
  | ProfitBound b => Qle_bool 0 b && nothing_check i prec
  | NoClaim => true
  | _ => false
  end.

Lemma lower_check_ok : forall i prec c, lower_check i prec c = true -> Milp_Spec.claim_right i prec c.
Proof.
  intros i prec c H ds P. destruct c as [q|q|n| |]; cbn [lower_check] in H; try discriminate H; [| |exact Logic.I|].
  - apply andb_true_iff in H. destruct H as [H N]. apply Qle_bool_iff in H. rewrite (nothing i prec ds N P). exact H.
  - pose proof (pk_types _ _ _ P) as T. assert (G : 0 <= zsum bd_copies ds) by (apply zsum_nonneg; intros d Hd; apply (T d Hd)).
    apply orb_true_iff in H. destruct H as [H|H]; [apply orb_true_iff in H; destruct H as [H|H]|].
    + apply Z.leb_le in H. lia.
    + apply andb_true_iff in H. destruct H as [H E]. apply Z.leb_le in H. apply existsb_exists in E. destruct E as (x & Hx & E). apply in_seq in Hx. apply Z.ltb_lt in E.
      pose proof (ok_copies_min i ds (pk_ok _ _ _ P) x ltac:(lia)) as M. destruct (Z_lt_le_dec 0 (zsum bd_copies ds)) as [L|L]; [lia|exfalso].
      assert (Z0 : packed x ds = 0); [|lia]. unfold packed. apply Dff_Axis.zsum_zero. intros d Hd. assert (bd_copies d = 0); [|nia].
      apply in_split in Hd. destruct Hd as (a & b & ->). rewrite zsum_app, zsum_cons in L.
      assert (0 <= zsum bd_copies a) by (apply zsum_nonneg; intros y Hy; apply T; apply in_app_iff; left; exact Hy).
      assert (0 <= zsum bd_copies b) by (apply zsum_nonneg; intros y Hy; apply T; apply in_app_iff; right; right; exact Hy).
      destruct (T d (in_elt _ _ _)) as [_ ?]. lia.
    + apply andb_true_iff in H. destruct H as [H F]. apply andb_true_iff in H. destruct H as [H C]. apply Z.leb_le in H.
      pose proof (conflict i prec ds C P (forced i prec ds F P)). lia.
  - apply andb_true_iff in H. destruct H as [H L]. apply andb_true_iff in H. destruct H as [C F]. apply Z.leb_le in L.
    pose proof (conflict i prec ds C P (forced i prec ds F P)) as G. unfold conflict_check in C. rewrite !andb_true_iff, Nat.eqb_eq in C. destruct C as ((C & _) & _).
    pose proof (pk_bins _ _ _ P 0%nat ltac:(lia)) as B. unfold used_bins in B.
    rewrite (zsum_ext _ (fun d => if Nat.eqb (bd_type d) 0 then bd_copies d else 0) bd_copies) in B; [lia|].
    intros d Hd. destruct (pk_types _ _ _ P d Hd) as [T _]. assert (bd_type d = 0%nat) as -> by lia. reflexivity.
Qed.

(** The master with given answers, by iteration. *)
Definition honest_master (answers : nat -> MilpClaim * list BinDesc) (k : nat) (i1 : Instance) (prec : list (nat * nat)) : MasterOut :=
  let '(c, sol) := answers k in
  mkMO (if lower_check i1 prec c then c else NoClaim) (if valid_check i1 sol then sol else []).

Lemma honest_right : forall answers o, or_master o = honest_master answers -> master_right o.
Proof.
  intros answers o E k i1 prec. rewrite E. unfold honest_master. destruct (answers k) as [c sol]. cbn [mo_claim].
  destruct (lower_check i1 prec c) eqn:L; [apply lower_check_ok; exact L|intros ds _; exact Logic.I].
Qed.
Lemma honest_valid : forall answers o, or_master o = honest_master answers -> master_valid o.
Proof.
  intros answers o E k i1 prec N1 N2. rewrite E. unfold honest_master. destruct (answers k) as [c sol]. cbn [mo_solution].
  destruct (valid_check i1 sol) eqn:V.
  - unfold valid_check in V. rewrite !andb_true_iff, !forallb_forall in V. destruct V as ((V1 & V2) & V3). cbv zeta. split; [|split].
    + intros d Hd. specialize (V1 d Hd). rewrite !andb_true_iff, forallb_forall, Nat.ltb_lt, Z.leb_le in V1. destruct V1 as (((A & B) & C) & D).
      split; [exact A|]. split; [exact B|]. split; [apply mbin_check_ok; exact C|]. intros x Hx. apply Nat.ltb_lt. apply D. exact Hx.
    + intros x Hx. apply Z.leb_le. apply V2. apply in_seq. lia.
    + intros t Ht. apply Z.leb_le. apply V3. apply in_seq. lia.
  - cbv zeta. split; [intros d []|]. split; [intros x Hx; apply (N1 x Hx)|intros t Ht; apply (N2 t Ht)].
Qed.

(** ** The bins *)

(** No constraint but geometry, eligibility and resources. *)
Definition no_extra : nat -> list Place -> Prop := fun _ _ => True.

Definition bin_ok_check (i : RInstance) (t : nat) (ps : list Place) : bool :=
  bin_checks i (mkRD t 1 ps)
  && forallb (fun p => (ri_eligibility (ritem i (pl_type p)) =? -1)
       || existsb (Z.eqb (ri_eligibility (ritem i (pl_type p)))) (rb_eligibility_ids (rbin i t))) ps
  && forallb (fun r => res_penalize r || Qle_bool (rconsumption i r ps) (res_capacity r)) (rb_resources (rbin i t))
  && forallb (fun x => rcount x ps <=? ri_copies (ritem i x)) (seq 0 (length (rin_items i))).
Lemma bin_ok_check_ok : forall i (extra : nat -> list Place -> Prop) t ps, bin_ok_check i t ps = true -> extra t ps -> (t < length (rin_bins i))%nat /\ bin_ok i extra t ps.
Proof.
  intros i extra t ps H X. unfold bin_ok_check in H. rewrite !andb_true_iff, !forallb_forall in H. destruct H as (((H1 & H2) & H3) & H4).
  unfold bin_checks in H1. cbn [rd_type rd_items rd_copies] in H1. rewrite !andb_true_iff, forallb_forall in H1. destruct H1 as ((((A & B) & C) & D) & G). apply Nat.ltb_lt in A. split; [exact A|].
  constructor.
  - constructor.
    + intros p Hp. specialize (C p Hp). unfold place_checks in C. rewrite !andb_true_iff, Nat.ltb_lt, !Z.leb_le, orb_true_iff, !negb_true_iff in C. destruct C as (((((C1 & C2) & C3) & C4) & C5) & C6).
      split; [exact C1|split; assumption|split; assumption|]. intros Hr. destruct C6 as [C6|C6]; [congruence|exact C6].
    + clear - D. induction ps as [|p ps IH]; [constructor|]. cbn [all_apart] in D. apply andb_true_iff in D. destruct D as [D1 D2]. rewrite forallb_forall in D1. constructor; [|apply IH; exact D2].
      apply Forall_forall. intros q Hq. specialize (D1 q Hq). unfold apart_checks in D1. rewrite !orb_true_iff, !Z.leb_le in D1. unfold disjoint. tauto.
    + destruct (rb_defects (rbin i t)); [intros p e _ []|discriminate G].
  - intros p Hp. specialize (H2 p Hp). apply orb_true_iff in H2. destruct H2 as [H2|H2]; [left; apply Z.eqb_eq; exact H2|right].
    apply existsb_exists in H2. destruct H2 as (e & He & E). apply Z.eqb_eq in E. rewrite E. exact He.
  - intros r Hr Hp. specialize (H3 r Hr). rewrite Hp in H3. apply Qle_bool_iff. exact H3.
  - intros x Hx. apply Z.leb_le, H4, in_seq. lia.
  - exact X.
Qed.

(** A packing, by computation. *)
Definition bd_check (i : RInstance) (ds : list RDesc) : bool :=
  forallb (fun d => (1 <=? rd_copies d) && bin_ok_check i (rd_type d) (rd_items d)) ds
  && forallb (fun x => (ri_copies_min (ritem i x) <=? rpacked x ds) && (rpacked x ds <=? ri_copies (ritem i x))) (seq 0 (length (rin_items i)))
  && forallb (fun t => (rb_copies_min (rbin i t) <=? rused_bins t ds) && (rused_bins t ds <=? rb_copies (rbin i t))) (seq 0 (length (rin_bins i)))
  && order_used_checks i ds.
Lemma bd_check_ok : forall i (extra : nat -> list Place -> Prop) ds, bd_check i ds = true -> (forall d, In d ds -> extra (rd_type d) (rd_items d)) -> bd_packing i extra ds.
Proof.
  intros i extra ds H X. unfold bd_check in H. rewrite !andb_true_iff, !forallb_forall in H. destruct H as (((H1 & H2) & H3) & H4). constructor.
  - intros d Hd. specialize (H1 d Hd). apply andb_true_iff in H1. destruct H1 as [A B]. destruct (bin_ok_check_ok i extra _ _ B (X d Hd)) as [C D].
    split; [exact C|]. split; [apply Z.leb_le; exact A|exact D].
  - intros x Hx. specialize (H2 x ltac:(apply in_seq; lia)). apply andb_true_iff in H2. rewrite !Z.leb_le in H2. exact H2.
  - intros t Ht. specialize (H3 t ltac:(apply in_seq; lia)). apply andb_true_iff in H3. rewrite !Z.leb_le in H3. exact H3.
  - intros _. apply order_used_checks_ok. exact H4.
Qed.

(** ** The solve of one bin *)

Definition sel_eqb (a b : list (nat * Z)) : bool :=
  if list_eq_dec (fun p q : nat * Z => match Nat.eq_dec (fst p) (fst q), Z.eq_dec (snd p) (snd q) with
    | left e1, left e2 => left (eq_trans (surjective_pairing p) (eq_trans (f_equal2 pair e1 e2) (eq_sym (surjective_pairing q))))
    | right n, _ => right (fun e => n (f_equal fst e))
    | _, right n => right (fun e => n (f_equal snd e)) end) a b then true else false.

(** A known bin for some selections; without one, the solver gives up; without items,
    there is no bin in the solution, which is full. *)
Definition honest_sub (i : RInstance) (table : list (nat * list (nat * Z) * list Place)) (t : nat) (sel : list (nat * Z)) : SubOut :=
  match sel with
  | [] => mkSO None true false
  | _ =>
      match find (fun e => Nat.eqb (fst (fst e)) t && sel_eqb (snd (fst e)) sel && bin_ok_check i t (snd e)
                    && forallb (fun x => rcount x (snd e) =? selected sel x) (seq 0 (length (rin_items i)))) table with
      | Some e => mkSO (Some (snd e)) true false
      | None => mkSO None false false
      end
  end.
Lemma honest_sub_right : forall i table, sub_right i no_extra (honest_sub i table).
Proof.
  intros i table t sel. unfold honest_sub. destruct sel as [|p sel]; [cbn [so_places so_full so_infeasible]; repeat split; discriminate|].
  destruct (find _ table) as [e|] eqn:E; cbn [so_places so_full so_infeasible]; [|repeat split; discriminate].
  apply find_some in E. destruct E as [_ E]. rewrite !andb_true_iff, forallb_forall in E. destruct E as (((_ & _) & E1) & E2).
  assert (G : forall x, (x < length (rin_items i))%nat -> rcount x (snd e) = selected (p :: sel) x) by (intros x Hx; apply Z.eqb_eq, E2, in_seq; lia).
  split; [|split].
  - intros ps Hps. injection Hps as <-. split; [apply (bin_ok_check_ok i no_extra _ _ E1 Logic.I)|]. intros x Hx. rewrite (G x Hx). lia.
  - intros _ x Hx. symmetry. apply (G x Hx).
  - discriminate.
Qed.

(** ** Instances *)

Definition domain_checks (i : RInstance) : bool :=
  relaxable_checks i
  && forallb (fun it => (0 <=? ri_copies_min it) && (ri_copies_min it <=? ri_copies it)) (rin_items i)
  && forallb (fun bt => match rb_resources bt with [] => true | _ => false end) (rin_bins i).
Lemma domain_checks_ok : forall i, domain_checks i = true -> bd_domain i.
Proof.
  intros i H. unfold domain_checks in H. rewrite !andb_true_iff, !forallb_forall in H. destruct H as ((H1 & H2) & H3). constructor.
  - apply relaxable_checks_ok. exact H1.
  - intros it Hit. specialize (H2 it Hit). apply andb_true_iff in H2. rewrite !Z.leb_le in H2. exact H2.
  - intros bt r Hbt Hr. specialize (H3 bt Hbt). destruct (rb_resources bt); [destruct Hr|discriminate H3].
  - intros bt r Hbt Hr. specialize (H3 bt Hbt). destruct (rb_resources bt); [destruct Hr|discriminate H3].
Qed.

(** ** The bar relaxation *)

(** Without a bound, nothing is lifted. *)
Definition no_bar : RInstance -> option Q := fun _ => None.
Lemma no_bar_right : bar_right no_bar.
Proof. intros sub b H. discriminate H. Qed.
Lemma no_bar_lift : forall i, lifts_at_most_one i no_bar.
Proof.
  intros i t sel _. unfold lift_no_good_cut.
  assert (H : forall inc cs m entries cut, lift_loop i no_bar t inc cs m entries cut = cut).
  { intros inc cs. induction cs as [|j cs IH]; intros m entries cut; [reflexivity|]. cbn [lift_loop no_bar lift_alpha]. change (0 <? 0) with false. cbv iota.
    destruct (inc j || negb (fits_bin i j t)); apply IH. }
  rewrite H. unfold no_good_cut. cbn [ct_consumption]. rewrite map_length. lia.
Qed.

(** The best profit by areas, the items of one bin. *)
Fixpoint best_area (its : list RItem) (area : Z) : option Q :=
  match its with
  | [] => if 0 <=? area then Some 0%Q else None
  | it :: its' =>
      fold_right (fun n best =>
        if (ri_copies_min it <=? Z.of_nat n)
        then match best_area its' (area - Z.of_nat n * ri_area it), best with
             | Some b, Some b' => Some (Qmax (inject_Z (Z.of_nat n) * ri_profit it + b) b')
             | Some b, None => Some (inject_Z (Z.of_nat n) * ri_profit it + b)%Q
             | None, _ => best
             end
        else best) None (seq 0 (S (Z.to_nat (ri_copies it))))
  end.

Lemma best_area_ok : forall its area (counts : nat -> Z) k,
  (forall x, (x < length its)%nat -> 0 <= counts (k + x)%nat /\ ri_copies_min (nth x its dummy_ritem) <= counts (k + x)%nat <= ri_copies (nth x its dummy_ritem)) ->
  zsum (fun x => counts (k + x)%nat * ri_area (nth x its dummy_ritem)) (seq 0 (length its)) <= area ->
  exists b, best_area its area = Some b /\ (qsum (fun x => inject_Z (counts (k + x)%nat) * ri_profit (nth x its dummy_ritem)) (seq 0 (length its)) <= b)%Q.
Proof.
  induction its as [|it its IH]; intros area counts k H A.
  - exists 0%Q. cbn [best_area]. change (zsum _ (seq 0 (length (@nil RItem)))) with 0 in A. destruct (Z.leb_spec 0 area) as [L|L]; [|lia]. split; [reflexivity|apply Qle_refl].
  - cbn [length] in A |- *. rewrite <- cons_seq in A |- *. rewrite zsum_cons in A. rewrite qsum_cons. rewrite <- seq_shift in A |- *. rewrite zsum_map in A. rewrite qsum_map.
    cbn [nth] in A |- *. rewrite Nat.add_0_r in A |- *.
    pose proof (H 0%nat ltac:(cbn [length]; lia)) as H0. rewrite Nat.add_0_r in H0. cbn [nth] in H0.
    destruct (IH (area - counts k * ri_area it) counts (S k)) as (b & Eb & Lb).
    + intros x Hx. specialize (H (S x) ltac:(cbn [length]; lia)). cbn [nth] in H. replace (k + S x)%nat with (S k + x)%nat in H by lia. exact H.
    + rewrite (zsum_ext _ _ (fun x => counts (k + S x)%nat * ri_area (nth x its dummy_ritem))); [lia|]. intros x _. replace (S k + x)%nat with (k + S x)%nat by lia. reflexivity.
    + assert (Lb' : (qsum (fun x => inject_Z (counts (k + S x)%nat) * ri_profit (nth x its dummy_ritem)) (seq 0 (length its)) <= b)%Q).
      { rewrite (qsum_ext _ _ (fun x => (inject_Z (counts (S k + x)%nat) * ri_profit (nth x its dummy_ritem))%Q)); [exact Lb|]. intros x _. replace (S k + x)%nat with (k + S x)%nat by lia. reflexivity. }
      cbn [best_area]. assert (I : In (Z.to_nat (counts k)) (seq 0 (S (Z.to_nat (ri_copies it))))) by (apply in_seq; lia).
      induction (seq 0 (S (Z.to_nat (ri_copies it)))) as [|n l IHl]; [destruct I|]. cbn [fold_right].
      set (rest := fold_right _ None l) in *. destruct I as [->|I].
      * rewrite Z2Nat.id by lia. destruct (Z.leb_spec (ri_copies_min it) (counts k)) as [L|L]; [|lia]. rewrite Eb. destruct rest as [b'|].
        -- exists (Qmax (inject_Z (counts k) * ri_profit it + b) b'). split; [reflexivity|]. eapply Qle_trans; [|apply Q.le_max_l]. lra.
        -- exists (inject_Z (counts k) * ri_profit it + b)%Q. split; [reflexivity|lra].
      * destruct (IHl I) as (b' & Eb' & Lb2). rewrite Eb'. destruct (ri_copies_min it <=? Z.of_nat n); [|exists b'; split; [reflexivity|exact Lb2]].
        destruct (best_area its (area - Z.of_nat n * ri_area it)) as [b2|]; [|exists b'; split; [reflexivity|exact Lb2]].
        exists (Qmax (inject_Z (Z.of_nat n) * ri_profit it + b2) b'). split; [reflexivity|]. eapply Qle_trans; [exact Lb2|apply Q.le_max_r].
Qed.

(** A bound by areas, for knapsack instances with one bin. *)
Definition area_bar (sub : RInstance) : option Q :=
  match rin_bins sub with
  | [bt] => if (rb_copies bt =? 1) && relaxable_checks sub then best_area (rin_items sub) (rb_area bt) else None
  | _ => None
  end.
Lemma area_bar_right : bar_right area_bar.
Proof.
  intros sub b H ds [Hp He Hb Hm]. unfold area_bar in H. destruct (rin_bins sub) as [|bt [|]] eqn:EB; try discriminate H.
  destruct ((rb_copies bt =? 1) && relaxable_checks sub) eqn:C; [|discriminate H]. apply andb_true_iff in C. destruct C as [C R]. apply Z.eqb_eq in C. apply relaxable_checks_ok in R.
  assert (E0 : rbin sub 0 = bt) by (unfold rbin; rewrite EB; reflexivity).
  assert (T0 : forall d, In d ds -> rd_type d = 0%nat) by (intros d Hd; destruct (pa_bins sub ds Hp d Hd) as (T & _); rewrite EB in T; cbn [length] in T; lia).
  pose proof (types_ok sub ds Hp) as Ty.
  destruct (best_area_ok (rin_items sub) (rb_area bt) (fun x => rpacked x ds) 0) as (b' & Eb & Lb).
  - intros x Hx. cbn [Nat.add]. specialize (Hm x Hx). pose proof (pa_copies sub ds Hp x Hx) as Hc. unfold ritem in *. split; [|split; assumption].
    unfold rpacked. apply zsum_nonneg. intros d Hd. destruct (pa_bins sub ds Hp d Hd) as (_ & Q & _). unfold rcount. nia.
  - cbn [Nat.add]. pose proof (rpacked_sum (length (rin_items sub)) ds (fun x => ri_area (ritem sub x)) Ty) as E. unfold ritem in E at 1. cbv beta in E. rewrite E.
    specialize (Hb 0%nat ltac:(cbn; lia)). rewrite E0 in Hb. unfold rused_bins in Hb.
    rewrite (zsum_ext _ (fun d => if Nat.eqb (rd_type d) 0 then rd_copies d else 0) rd_copies) in Hb by (intros d Hd; rewrite (T0 d Hd); reflexivity).
    assert (P : 0 <= rb_area bt). { destruct (re_bins sub R bt) as (X & Y & _); [rewrite EB; left; reflexivity|]. unfold rb_area. nia. }
    eapply Z.le_trans; [apply (zsum_le _ _ (fun d => rd_copies d * rb_area bt))|].
    + intros d Hd. pose proof (area_fits sub R ds Hp d Hd) as Fa. rewrite (T0 d Hd), E0 in Fa. destruct (pa_bins sub ds Hp d Hd) as (_ & Q & _). nia.
    + rewrite (zsum_ext _ (fun d => rd_copies d * rb_area bt) (fun d => rb_area bt * rd_copies d)) by (intros; lia). rewrite zsum_mult. nia.
  - rewrite H in Eb. injection Eb as <-. eapply Qle_trans; [|exact Lb]. cbn [Nat.add].
    apply Qle_lteq. right. unfold rprofit. rewrite (rqpacked_sum (length (rin_items sub)) ds _ Ty). reflexivity.
Qed.
