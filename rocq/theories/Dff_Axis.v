(** * The three families of dual feasible functions along one axis

    The data-dependent function (family 1) is not dual feasible for every list
    of lengths, only for lists that respect the numbers of copies of the items.
    A chain is a list of (item type, length) pairs that fit one after the other
    in the capacity. *)

From Coq Require Import List ZArith QArith Bool Lia Arith Permutation Sorted Psatz.
From Verif Require Import Util Dff_Model Dff_Spec Dff_Proof.
Import ListNotations.
Open Scope Z_scope.

Lemma zsum_single : forall n a (v : Z), (a < n)%nat ->
  zsum (fun j => if Nat.eqb a j then v else 0) (seq 0 n) = v.
Proof.
  intros n a v H.
  assert (G : forall m s, zsum (fun j => if Nat.eqb a j then v else 0) (seq s m)
              = if (Nat.leb s a && Nat.ltb a (s + m))%bool then v else 0).
  { induction m as [|m IH]; intro s.
    - simpl. destruct (Nat.leb_spec s a), (Nat.ltb_spec a (s + 0)); simpl; try reflexivity; lia.
    - simpl seq. rewrite zsum_cons, IH.
      destruct (Nat.eqb_spec a s), (Nat.leb_spec s a), (Nat.leb_spec (Datatypes.S s) a),
        (Nat.ltb_spec a (s + Datatypes.S m)), (Nat.ltb_spec a (Datatypes.S s + m)); simpl; try lia. }
  rewrite G. destruct (Nat.leb_spec 0 a), (Nat.ltb_spec a (0 + n)); simpl; try lia.
Qed.

Lemma zsum_group : forall A (key : A -> nat) (g : A -> Z) n l, (forall x, In x l -> (key x < n)%nat) ->
  zsum (fun j => zsum g (filter (fun x => Nat.eqb (key x) j) l)) (seq 0 n) = zsum g l.
Proof.
  intros A key g n l H. induction l as [|x l IH].
  - simpl. clear. induction (seq 0 n) as [|y s IH]; [reflexivity|]. rewrite zsum_cons, IH. reflexivity.
  - rewrite zsum_cons, <- IH by (intros y Hy; apply H; right; assumption).
    rewrite <- (zsum_single n (key x) (g x)) by (apply H; left; reflexivity).
    rewrite <- zsum_plus. apply zsum_ext. intros j _. cbn [filter].
    destruct (Nat.eqb (key x) j); [rewrite zsum_cons; reflexivity|reflexivity].
Qed.

Lemma zsum_filter_split : forall A (p : A -> bool) (g : A -> Z) l,
  zsum g l = zsum g (filter p l) + zsum g (filter (fun x => negb (p x)) l).
Proof.
  intros A p g l. induction l as [|x l IH]; [reflexivity|].
  cbn [filter]. destruct (p x); cbn [negb]; rewrite !zsum_cons, IH; lia.
Qed.

Lemma zsum_one : forall A (l : list A), zsum (fun _ => 1) l = Z.of_nat (length l).
Proof. intros A l. induction l as [|x l IH]; [reflexivity|]. rewrite zsum_cons, IH. simpl length. lia. Qed.

(** Number of pairs of type [j]. *)
Definition occurrences (j : nat) (ch : list (nat * Z)) : Z :=
  Z.of_nat (length (filter (fun p => Nat.eqb (fst p) j) ch)).

Section Axis.

Variable C : Z.                       (* capacity *)
Variable n : nat.                     (* number of item types *)
Variable cand : nat -> list Z.        (* lengths a type may present on the axis *)
Variable cop : nat -> Z.              (* copies *)
Variable k : Z.                       (* breakpoint *)
Variable plen : nat -> option Z.      (* length of a type in the pool *)

Hypothesis HC : 1 <= C.
Hypothesis Hk : 1 <= k.
Hypothesis Hk2 : 2 * k <= C.
Hypothesis Hcop : forall j, 0 <= cop j.
Hypothesis Hplen : forall j, match plen j with
  | Some m => k <= m /\ forall d, In d (cand j) -> k <= d -> 2 * d <= C -> m <= d
  | None => forall d, In d (cand j) -> k <= d -> 2 * d <= C -> False
  end.

Definition axis_entries : list (Z * Z) :=
  flat_map (fun j => match plen j with Some m => [(m, cop j)] | None => [] end) (seq 0 n).

Variable pool : list (Z * Z).
Hypothesis Hpool : pool = sort_pairs axis_entries.

Record valid_chain (ch : list (nat * Z)) : Prop := {
  vc_type : forall p, In p ch -> (fst p < n)%nat /\ In (snd p) (cand (fst p)) /\ 0 < snd p;
  vc_copies : forall j, (j < n)%nat -> occurrences j ch <= cop j;
  vc_fits : zsum snd ch <= C
}.

Lemma axis_pool_pos : pos_pool pool.
Proof.
  rewrite Hpool. apply Forall_forall. intros p Hp. apply (Permutation_in p (sort_pairs_perm _)) in Hp.
  unfold axis_entries in Hp. apply in_flat_map in Hp. destruct Hp as (j & _ & Hj).
  pose proof (Hplen j) as HP. pose proof (Hcop j). destruct (plen j) as [m|]; [|destruct Hj].
  destruct Hj as [<-|[]]. simpl. lia.
Qed.

Lemma axis_pool_sorted : StronglySorted fst_le pool.
Proof. rewrite Hpool. apply sort_pairs_sorted. Qed.

Definition medium (p : nat * Z) : bool := (k <=? snd p) && (2 * snd p <=? C).

(** At most [gr R pool] medium items fit in [R]. *)
Lemma medium_count : forall ch R, 0 <= R ->
  (forall p, In p ch -> (fst p < n)%nat /\ In (snd p) (cand (fst p)) /\ medium p = true) ->
  (forall j, (j < n)%nat -> occurrences j ch <= cop j) ->
  zsum snd ch <= R -> Z.of_nat (length ch) <= gr R pool.
Proof.
  intros ch R HR Hch Hocc Hfit.
  set (counts := flat_map (fun j => match plen j with Some m => [occurrences j ch] | None => [] end) (seq 0 n)).
  assert (Hsel : selection axis_entries counts).
  { assert (G : forall s, (forall j, In j s -> (j < n)%nat) ->
      selection (flat_map (fun j => match plen j with Some m => [(m, cop j)] | None => [] end) s)
                (flat_map (fun j => match plen j with Some m => [occurrences j ch] | None => [] end) s)).
    { unfold selection. induction s as [|j s IH]; intro Hs; simpl; [constructor|].
      assert (I : (j < n)%nat) by (apply Hs; left; reflexivity).
      specialize (IH (fun x Hx => Hs x (or_intror Hx))).
      destruct (plen j); simpl; [|assumption]. constructor; [|assumption].
      simpl. specialize (Hocc j I). unfold occurrences in *. lia. }
    apply G. intros j Hj. apply in_seq in Hj. lia. }
  assert (Hsize : selection_size counts = Z.of_nat (length ch)).
  { rewrite <- zsum_one. rewrite <- (zsum_group _ fst (fun _ => 1) n ch) by (intros p Hp; apply Hch; assumption).
    unfold selection_size, total, counts. rewrite zsum_flat_map. apply zsum_ext. intros j Hj.
    rewrite zsum_one. pose proof (Hplen j) as HP. destruct (plen j) as [m|].
    - rewrite zsum_cons, zsum_nil. unfold occurrences. lia.
    - rewrite zsum_nil. destruct (filter (fun x => Nat.eqb (fst x) j) ch) as [|p l] eqn:E; [reflexivity|].
      exfalso. assert (Hp : In p (filter (fun x => Nat.eqb (fst x) j) ch)) by (rewrite E; left; reflexivity).
      apply filter_In in Hp. destruct Hp as [Hp1 Hp2]. apply Nat.eqb_eq in Hp2. subst j.
      destruct (Hch p Hp1) as (_ & H2 & H3). unfold medium in H3. apply andb_true_iff in H3. destruct H3 as [H3 H4].
      apply Z.leb_le in H3, H4. apply (HP (snd p)); assumption. }
  assert (Hlen : selection_length axis_entries counts <= R).
  { transitivity (zsum snd ch); [|assumption].
    rewrite <- (zsum_group _ fst snd n ch) by (intros p Hp; apply Hch; assumption).
    unfold axis_entries, counts. clear Hsel Hsize counts. generalize (seq 0 n) as s.
    induction s as [|j s IH]; [unfold selection_length; simpl; lia|].
    rewrite zsum_cons. simpl flat_map. pose proof (Hplen j) as HP. destruct (plen j) as [m|].
    - simpl app. rewrite selection_length_cons. simpl fst.
      assert (m * occurrences j ch <= zsum snd (filter (fun x => Nat.eqb (fst x) j) ch)); [|lia].
      unfold occurrences. rewrite <- zsum_one. rewrite <- zsum_mult. apply zsum_le. intros p Hp.
      apply filter_In in Hp. destruct Hp as [Hp1 Hp2]. apply Nat.eqb_eq in Hp2. subst j.
      destruct (Hch p Hp1) as (_ & H2 & H3). unfold medium in H3. apply andb_true_iff in H3. destruct H3 as [H3 H4].
      apply Z.leb_le in H3, H4. destruct HP as [_ HP]. specialize (HP (snd p) H2 H3 H4). lia.
    - simpl app. assert (0 <= zsum snd (filter (fun x => Nat.eqb (fst x) j) ch)); [|lia].
      apply zsum_nonneg. intros p Hp. apply filter_In in Hp. destruct Hp as [Hp1 _].
      destruct (Hch p Hp1) as (_ & _ & H3). unfold medium in H3. apply andb_true_iff in H3. destruct H3 as [H3 _].
      apply Z.leb_le in H3. lia. }
  destruct (selection_perm axis_entries pool counts) as (counts' & S1 & S2 & S3).
  { rewrite Hpool. symmetry. apply sort_pairs_perm. }
  { assumption. }
  pose proof (gr_upper pool counts' S1 axis_pool_pos axis_pool_sorted R 0 0 HR ltac:(lia) ltac:(lia)) as HU.
  assert (HU' : selection_size counts' <= gr R pool + 0); [|lia].
  apply HU; [|lia]. intros p Hp. pose proof axis_pool_pos as HPP. unfold pos_pool in HPP.
  rewrite Forall_forall in HPP. specialize (HPP p Hp). lia.
Qed.

(** The value of family [fam] on a length. *)
Definition FF (fam : nat) (d : Z) : Z :=
  match fam with
  | O => f_ccm_0 C k d
  | 1%nat => if C / 2 <? d then gr C pool - gr (C - d) pool else if d <? k then 0 else 1
  | _ => F2 C k d
  end.

Definition FF_bin (fam : nat) : Z :=
  match fam with O => C | 1%nat => gr C pool | _ => 2 * (C / k) end.

Lemma zsum_zero : forall A (f : A -> Z) l, (forall x, In x l -> f x = 0) -> zsum f l = 0.
Proof.
  intros A f l H. induction l as [|x l IH]; [reflexivity|]. rewrite zsum_cons, IH, H; [reflexivity|left; reflexivity|].
  intros y Hy. apply H. right. assumption.
Qed.

Lemma occurrences_perm : forall j c1 c2, Permutation c1 c2 -> occurrences j c1 = occurrences j c2.
Proof.
  intros j c1 c2 H. unfold occurrences. rewrite <- !zsum_one.
  induction H; cbn [filter]; try reflexivity.
  - destruct (Nat.eqb (fst x) j); rewrite ?zsum_cons; lia.
  - destruct (Nat.eqb (fst x) j), (Nat.eqb (fst y) j); rewrite ?zsum_cons; lia.
  - congruence.
Qed.

Lemma occurrences_cons : forall j p c, occurrences j c <= occurrences j (p :: c).
Proof. intros j p c. unfold occurrences. simpl. destruct (Nat.eqb (fst p) j); simpl length; lia. Qed.

Lemma occurrences_filter : forall j q c, occurrences j (filter q c) <= occurrences j c.
Proof.
  intros j q c. induction c as [|p c IH]; [reflexivity|]. simpl. unfold occurrences in *.
  destruct (q p); simpl; destruct (Nat.eqb (fst p) j); simpl length; lia.
Qed.

Lemma in_split_perm : forall A (x : A) l, In x l -> exists l', Permutation l (x :: l').
Proof.
  intros A x l H. apply in_split in H. destruct H as (a & b & ->).
  exists (a ++ b). symmetry. apply Permutation_middle.
Qed.

Lemma f1_below_half : forall ch R, 0 <= R ->
  (forall p, In p ch -> (fst p < n)%nat /\ In (snd p) (cand (fst p)) /\ 0 < snd p /\ 2 * snd p <= C) ->
  (forall j, (j < n)%nat -> occurrences j ch <= cop j) ->
  zsum snd ch <= R -> zsum (fun p => FF 1 (snd p)) ch <= gr R pool.
Proof.
  intros ch R HR Hch Hocc Hfit.
  assert (E : zsum (fun p => FF 1 (snd p)) ch = Z.of_nat (length (filter medium ch))).
  { rewrite (zsum_filter_split _ medium). rewrite <- zsum_one.
    rewrite (zsum_zero _ _ (filter (fun x => negb (medium x)) ch)).
    - rewrite Z.add_0_r. apply zsum_ext. intros p Hp. apply filter_In in Hp. destruct Hp as [Hp1 Hp2].
      unfold medium in Hp2. apply andb_true_iff in Hp2. destruct Hp2 as [H1 H2]. apply Z.leb_le in H1, H2.
      unfold FF. pose proof (div2_spec C). destruct (Z.ltb_spec (C / 2) (snd p)); [lia|].
      destruct (Z.ltb_spec (snd p) k); [lia|]. reflexivity.
    - intros p Hp. apply filter_In in Hp. destruct Hp as [Hp1 Hp2]. destruct (Hch p Hp1) as (_ & _ & H3 & H4).
      unfold FF. pose proof (div2_spec C). destruct (Z.ltb_spec (C / 2) (snd p)); [lia|].
      unfold medium in Hp2. destruct (Z.ltb_spec (snd p) k); [reflexivity|].
      destruct (Z.leb_spec k (snd p)); [|lia]. destruct (Z.leb_spec (2 * snd p) C); [discriminate|lia]. }
  rewrite E. apply medium_count; [assumption| | |].
  - intros p Hp. apply filter_In in Hp. destruct Hp as [Hp1 Hp2]. destruct (Hch p Hp1) as (H1 & H2 & _). auto.
  - intros j Hj. pose proof (occurrences_filter j medium ch). specialize (Hocc j Hj). lia.
  - rewrite (zsum_filter_split _ medium) in Hfit.
    assert (0 <= zsum snd (filter (fun x => negb (medium x)) ch)); [|lia].
    apply zsum_nonneg. intros p Hp. apply filter_In in Hp. destruct Hp as [Hp1 _].
    destruct (Hch p Hp1) as (_ & _ & H3 & _). lia.
Qed.

Lemma chain_elem : forall ch (p : nat * Z), (forall q, In q ch -> 0 < snd q) -> In p ch -> snd p <= zsum snd ch.
Proof.
  intros ch p H Hp. destruct (in_split_perm _ p ch Hp) as (ch' & HP).
  rewrite (zsum_perm _ _ _ _ HP), zsum_cons.
  assert (0 <= zsum snd ch'); [|lia]. apply zsum_nonneg. intros q Hq.
  assert (In q ch) by (apply (Permutation_in q (Permutation_sym HP)); right; assumption).
  specialize (H q H0). lia.
Qed.

Lemma f1_chain : forall ch, valid_chain ch -> zsum (fun p => FF 1 (snd p)) ch <= gr C pool.
Proof.
  intros ch [Ht Hc Hf]. pose proof (div2_spec C) as HD.
  assert (Hdec : (exists p, In p ch /\ C < 2 * snd p) \/ forall p, In p ch -> 2 * snd p <= C).
  { clear. induction ch as [|p ch IH]; [right; intros p []|].
    destruct (Z.le_gt_cases (2 * snd p) C); [|left; exists p; split; [left; reflexivity|lia]].
    destruct IH as [(q & Hq & Hb)|IH]; [left; exists q; split; [right; assumption|assumption]|].
    right. intros q [<-|Hq]; auto. }
  destruct Hdec as [(p & Hp & Hb)|Hs].
  - destruct (in_split_perm _ p ch Hp) as (ch' & HP).
    rewrite (zsum_perm _ _ _ _ HP), zsum_cons. rewrite (zsum_perm _ _ _ _ HP), zsum_cons in Hf.
    assert (Hin : forall q, In q ch' -> In q ch).
    { intros q Hq. apply (Permutation_in q (Permutation_sym HP)). right. assumption. }
    assert (Hpos : forall q, In q ch' -> 0 < snd q) by (intros q Hq; apply Ht; auto).
    assert (Hnn : 0 <= zsum snd ch') by (apply zsum_nonneg; intros q Hq; specialize (Hpos q Hq); lia).
    assert (HR : zsum (fun p => FF 1 (snd p)) ch' <= gr (C - snd p) pool).
    { apply f1_below_half; try lia.
      - intros q Hq. destruct (Ht q (Hin q Hq)) as (T1 & T2 & T3). pose proof (chain_elem ch' q Hpos Hq).
        repeat split; try assumption. lia.
      - intros j Hj. specialize (Hc j Hj). rewrite (occurrences_perm j _ _ HP) in Hc.
        pose proof (occurrences_cons j p ch'). lia. }
    unfold FF at 1. destruct (Z.ltb_spec (C / 2) (snd p)); [lia|lia].
  - apply f1_below_half; try assumption; try lia.
    intros p Hp. destruct (Ht p Hp) as (T1 & T2 & T3). auto.
Qed.

(** No chain exceeds the value of the bin. *)
Theorem axis_chain : forall fam ch, valid_chain ch -> zsum (fun p => FF fam (snd p)) ch <= FF_bin fam.
Proof.
  intros fam ch H. destruct fam as [|[|fam]].
  - destruct H as [Ht _ Hf]. unfold FF, FF_bin.
    pose proof (f0_dual_feasible C k ltac:(lia) Hk2 (map snd ch)) as HD. rewrite zsum_map in HD.
    assert (HB : f_ccm_0 C k C = C) by (unfold f_ccm_0; destruct (Z.ltb_spec (C - k) C); [reflexivity|lia]).
    rewrite HB in HD. apply HD.
    + apply Forall_forall. intros x Hx. apply in_map_iff in Hx. destruct Hx as (p & <- & Hp).
      destruct (Ht p Hp) as (_ & _ & ?). lia.
    + unfold total. rewrite zsum_map. assumption.
  - apply f1_chain. assumption.
  - destruct H as [Ht _ Hf]. unfold FF, FF_bin.
    pose proof (f2_dual_feasible C k HC ltac:(lia) (map snd ch)) as HD. rewrite zsum_map in HD.
    rewrite F2_bin in HD by lia. apply HD.
    + apply Forall_forall. intros x Hx. apply in_map_iff in Hx. destruct Hx as (p & <- & Hp).
      destruct (Ht p Hp) as (_ & _ & ?). lia.
    + unfold total. rewrite zsum_map. assumption.
Qed.

Lemma FF_nonneg : forall fam d, 0 <= d <= C -> 0 <= FF fam d.
Proof.
  intros fam d Hd. pose proof (div2_spec C). destruct fam as [|[|fam]]; unfold FF.
  - unfold f_ccm_0. destruct (C - k <? d); [lia|]. destruct (d <? k); lia.
  - destruct (C / 2 <? d).
    + pose proof (gr_mono pool (C - d) C axis_pool_pos axis_pool_sorted ltac:(lia) ltac:(lia)). lia.
    + destruct (d <? k); lia.
  - unfold F2. destruct (C / 2 <? d).
    + assert ((C - d) / k <= C / k) by (apply Z.div_le_mono; lia). lia.
    + destruct (2 * d =? C); [apply Z.div_pos; lia|]. assert (0 <= d / k) by (apply Z.div_pos; lia). lia.
Qed.

Lemma FF_bin_nonneg : forall fam, 0 <= FF_bin fam.
Proof.
  intros [|[|fam]]; unfold FF_bin; [lia|apply gr_nonneg; [apply axis_pool_pos|lia]|].
  assert (0 <= C / k) by (apply Z.div_pos; lia). lia.
Qed.

End Axis.
