(** * The cheap onedimensional bounds are valid *)

From Coq Require Import List ZArith QArith Bool Lia Lqa Arith Permutation Sorted Psatz.
From Verif Require Import Util Common_Model OneDim_Model OneDim_Spec OneDim_Order Dff_Model Dff_Spec Dff_Proof Dff_Axis
  OneDimDff_Model OneDimDff_Spec OneDimDff_Proof OneDimBuilder_Proof OneDimBounds_Model OneDimBounds_Spec Dff_Props.
Import ListNotations.
Open Scope Z_scope.

Section Packing.

Variable i : Instance.
Variable ds : list BinDesc.
Hypothesis Hdom : bound_domain i.
Hypothesis HP : PackingOK i ds.
Hypothesis Hav : available_bins i ds.

Let n := length (in_item_types i).
Let m := length (in_bin_types i).
Let red (j : nat) : Z := reduced_length (item_type i j).
Let flat := map (fun d => mkBD 0 (bd_copies d) (bd_items d)) ds.

Lemma packed_flat : forall x, packed x flat = packed x ds.
Proof. intro x. unfold packed, flat. rewrite zsum_map. reflexivity. Qed.

Lemma flat_bins : forall d, In d flat -> bd_type d = 0%nat /\ 0 <= bd_copies d.
Proof.
  intros d Hd. apply in_map_iff in Hd. destruct Hd as (e & <- & He). simpl. split; [reflexivity|].
  destruct Hav as [H _]. destruct (H e He). lia.
Qed.

Lemma flat_copies : forall d x, In d flat -> In x (bd_items d) -> packed x flat <= it_copies (item_type i x).
Proof.
  intros d x Hd Hx. apply in_map_iff in Hd. destruct Hd as (e & <- & He). simpl in Hx.
  rewrite packed_flat. apply (ok_copies _ _ HP e); assumption.
Qed.

Lemma pk_in_range : forall d x, In d ds -> In x (bd_items d) -> (x < n)%nat.
Proof.
  intros d x Hd Hx.
  apply (item_in_range i flat flat_bins flat_copies (mkBD 0 (bd_copies d) (bd_items d))).
  - apply in_map_iff. exists d. split; [reflexivity|assumption].
  - simpl. apply Hav. assumption.
  - assumption.
Qed.

Lemma sum_packed : forall c, zsum (fun j => packed j ds * c j) (seq 0 n) = zsum (fun d => bd_copies d * zsum c (bd_items d)) ds.
Proof.
  intro c. pose proof (packed_sum i flat flat_bins flat_copies c) as H.
  unfold flat in H at 2. rewrite zsum_map in H. simpl in H. rewrite <- H.
  apply zsum_ext. intros j _. rewrite packed_flat. reflexivity.
Qed.

Lemma qsum_packed : forall (c : nat -> Q),
  (qsum (fun j => inject_Z (packed j ds) * c j) (seq 0 n) == qsum (fun d => inject_Z (bd_copies d) * qsum c (bd_items d)) ds)%Q.
Proof.
  intro c. pose proof (qpacked_sum i flat flat_bins flat_copies c) as H.
  unfold flat in H at 2. rewrite qsum_map in H. simpl in H. rewrite <- H.
  apply qsum_ext. intros j _. rewrite packed_flat. reflexivity.
Qed.

Lemma packed_ge0 : forall j, 0 <= packed j ds.
Proof.
  intro j. unfold packed. apply zsum_nonneg. intros d Hd. destruct Hav as [H _]. destruct (H d Hd). nia.
Qed.

Lemma packed_some : forall j, packed j ds <> 0 -> exists d, In d ds /\ In j (bd_items d).
Proof.
  intros j H. rewrite <- packed_flat in H. destruct (packed_pos flat flat_bins j H) as (d & Hd & _ & Hj).
  apply in_map_iff in Hd. destruct Hd as (e & <- & He). exists e. auto.
Qed.

Lemma copies_ge0 : forall j, 0 <= it_copies (item_type i j).
Proof.
  intro j. unfold item_type. destruct (nth_in_or_default j (in_item_types i) dummy_item) as [H|H].
  - apply (bd_items_ok _ Hdom). assumption.
  - rewrite H. simpl. lia.
Qed.

Lemma packed_at_most : forall j, packed j ds <= it_copies (item_type i j).
Proof.
  intro j. destruct (Z.eq_dec (packed j ds) 0) as [E|N]; [rewrite E; apply copies_ge0|].
  destruct (packed_some j N) as (d & Hd & Hj). apply (ok_copies _ _ HP d); assumption.
Qed.

Lemma red_gt0 : forall j, (j < n)%nat -> 0 < red j.
Proof.
  intros j Hj. destruct (bd_items_ok _ Hdom (item_type i j)) as (H1 & H2 & _).
  - apply nth_In. assumption.
  - unfold red, reduced_length. lia.
Qed.

Lemma bin_in : forall d, In d ds -> In (bin_type i (bd_type d)) (in_bin_types i).
Proof. intros d Hd. apply nth_In. apply Hav. assumption. Qed.

Lemma end_fits : forall d, In d ds -> bin_end i (bd_items d) <= bt_length (bin_type i (bd_type d)).
Proof.
  intros d Hd. pose proof (ok_length _ _ (ok_bins _ _ HP d Hd)) as HL.
  destruct (exists_last_or_nil _ (bd_items d)) as [E|(l & x & E)].
  - rewrite E. unfold bin_end. simpl. destruct (bd_bins_ok _ Hdom _ (bin_in d Hd)). lia.
  - specialize (HL l x [] E). rewrite E, bin_end_snoc'. assumption.
Qed.

Lemma by_type : forall g : nat -> Z,
  zsum (fun d => bd_copies d * g (bd_type d)) ds = zsum (fun t => used_bins t ds * g t) (seq 0 m).
Proof.
  intro g. rewrite <- (zsum_group _ bd_type _ m ds) by (intros d Hd; apply Hav; assumption).
  apply zsum_ext. intros t _. unfold used_bins. clear. induction ds as [|d l IH]; [reflexivity|].
  cbn [filter]. rewrite zsum_cons. destruct (Nat.eqb_spec (bd_type d) t); [rewrite zsum_cons, IH; subst; lia|rewrite IH; lia].
Qed.

Lemma qby_type : forall g : nat -> Q,
  (qsum (fun d => inject_Z (bd_copies d) * g (bd_type d)) ds == qsum (fun t => inject_Z (used_bins t ds) * g t) (seq 0 m))%Q.
Proof.
  intro g. rewrite <- (qsum_group _ bd_type _ m ds) by (intros d Hd; apply Hav; assumption).
  apply qsum_ext. intros t _. unfold used_bins. clear. induction ds as [|d l IH]; [simpl; ring|].
  cbn [filter]. rewrite zsum_cons, inject_Z_plus.
  destruct (Nat.eqb_spec (bd_type d) t); [rewrite qsum_cons, IH; subst; ring|rewrite IH; change (inject_Z 0) with 0%Q; ring].
Qed.

Lemma used_ge0 : forall t, 0 <= used_bins t ds.
Proof.
  intro t. unfold used_bins. apply zsum_nonneg. intros d Hd. destruct Hav as [H _]. destruct (H d Hd).
  destruct (Nat.eqb (bd_type d) t); lia.
Qed.

Lemma packed_length :
  zsum (fun j => packed j ds * red j) (seq 0 n) <= zsum (fun t => used_bins t ds * bt_length (bin_type i t)) (seq 0 m).
Proof.
  rewrite sum_packed, <- by_type. apply zsum_le. intros d Hd.
  pose proof (end_fits d Hd). pose proof (bin_end_reduced i (bd_items d)).
  destruct Hav as [H1 _]. destruct (H1 d Hd). unfold red in *. nia.
Qed.

Lemma capacity_sum : total_capacity i = zsum (fun t => bt_copies (bin_type i t) * bt_length (bin_type i t)) (seq 0 m).
Proof.
  unfold total_capacity. rewrite fold_sum, (zsum_seq_nth _ _ dummy_bin). simpl. apply zsum_ext. intros t _.
  unfold bin_type. lia.
Qed.

Lemma reduced_sum : items_reduced_length i = zsum (fun j => it_copies (item_type i j) * red j) (seq 0 n).
Proof.
  unfold items_reduced_length. rewrite fold_sum, (zsum_seq_nth _ _ dummy_item). simpl. apply zsum_ext. intros t _.
  unfold red, item_type. lia.
Qed.

Lemma bin_at : forall t, (t < m)%nat -> 1 <= bt_length (bin_type i t) /\ 0 <= bt_copies (bin_type i t).
Proof. intros t Ht. apply (bd_bins_ok _ Hdom). apply nth_In. assumption. Qed.

Lemma used_length_le :
  zsum (fun t => used_bins t ds * bt_length (bin_type i t)) (seq 0 m) <= total_capacity i.
Proof.
  rewrite capacity_sum. apply zsum_le. intros t Ht. apply in_seq in Ht.
  destruct (bin_at t) as [H1 _]; [lia|]. destruct Hav as [_ H2]. specialize (H2 t ltac:(lia)). nia.
Qed.

(** ** Penalties *)

Lemma penalties_le : (- qsum (fun d => penalties i d) ds <= instance_negative_penalty_sum i)%Q.
Proof.
  unfold instance_negative_penalty_sum. rewrite fold_qsum.
  assert (EB : (qsum (fun bt => inject_Z (bt_copies bt) * negative_penalty_sum (bt_resources bt)) (in_bin_types i)
    == qsum (fun t => inject_Z (bt_copies (bin_type i t)) * negative_penalty_sum (bt_resources (bin_type i t))) (seq 0 m))%Q).
  { unfold bin_type, m. generalize (in_bin_types i). clear. intro l. induction l as [|b l IH]; [reflexivity|].
    simpl length. simpl seq. rewrite !qsum_cons, <- seq_shift, qsum_map, IH. reflexivity. }
  rewrite EB. clear EB.
  assert (H : (- qsum (fun d => penalties i d) ds
     <= qsum (fun d => inject_Z (bd_copies d) * negative_penalty_sum (bt_resources (bin_type i (bd_type d)))) ds)%Q).
  { destruct Hav as [H1 _]. revert H1. clear. induction ds as [|d l IH]; intro H1; [simpl; lra|].
    rewrite !qsum_cons. specialize (IH (fun e He => H1 e (or_intror He))).
    destruct (H1 d (or_introl eq_refl)) as [_ Hc].
    destruct (negative_sum_le (bt_resources (bin_type i (bd_type d)))
      (fun r => Qltb (res_capacity r) (consumption i r (bd_items d)))) as [N1 N2].
    fold (penalties i d) in N1.
    assert (1 <= inject_Z (bd_copies d))%Q by (change 1%Q with (inject_Z 1); rewrite <- Zle_Qle; assumption).
    nra. }
  rewrite (qby_type (fun t => negative_penalty_sum (bt_resources (bin_type i t)))) in H.
  assert (H2 : (qsum (fun t => inject_Z (used_bins t ds) * negative_penalty_sum (bt_resources (bin_type i t))) (seq 0 m)
    <= qsum (fun t => inject_Z (bt_copies (bin_type i t)) * negative_penalty_sum (bt_resources (bin_type i t))) (seq 0 m))%Q).
  { apply qsum_le. intros t Ht. apply in_seq in Ht. destruct Hav as [_ H2]. specialize (H2 t ltac:(lia)).
    destruct (negative_sum_le (bt_resources (bin_type i t)) (fun _ => true)) as [_ N2].
    rewrite Zle_Qle in H2. nra. }
  lra.
Qed.

Lemma profit_split : (profit_of i ds
  == qsum (fun j => inject_Z (packed j ds) * it_profit (item_type i j)) (seq 0 n) + - qsum (fun d => penalties i d) ds)%Q.
Proof.
  rewrite qsum_packed. unfold profit_of. clear. induction ds as [|d l IH]; [reflexivity|]. rewrite !qsum_cons, IH. ring.
Qed.

(** ** Packed items fit a bin *)

Hypothesis Hsh : shallow_nesting i.

Lemma packed_fits : forall x, packed x ds <> 0 -> fits_some_bin i x = true.
Proof.
  intros x Hx. destruct (packed_some x Hx) as (d & Hd & Hin).
  assert (Hr : forall y, In y (bd_items d) -> (y < n)%nat) by (intros y Hy; apply (pk_in_range d); assumption).
  pose proof (ok_bins _ _ HP d Hd) as HB.
  unfold fits_some_bin. apply existsb_exists. exists (bd_type d). split.
  - apply in_seq. destruct Hav as [H _]. destruct (H d Hd). lia.
  - unfold item_type_fits_bin_type. apply andb_true_iff. split.
    + apply Z.leb_le. pose proof Hin as Hin'. apply in_split in Hin'. destruct Hin' as (a & c & Ex).
      pose proof (ok_length _ _ HB a x c Ex) as HL. cbv beta in HL.
      assert (0 <= start_of i a x); [|lia].
      destruct a as [|y a]; simpl; [lia|].
      assert (Hin2 : forall z, In z (y :: a) -> In (item_type i z) (in_item_types i)).
      { intros z Hz. apply nth_In. apply Hr. rewrite Ex. apply in_app_iff. left. assumption. }
      assert (HF' : it_length (item_type i y) <= bin_end i (y :: a)).
      { apply (bin_end_first i y a). intros z Hz. destruct (bd_items_ok _ Hdom _ (Hin2 z (or_intror Hz))) as (_ & ? & _). lia. }
      assert (Hxin : In (item_type i x) (in_item_types i)) by (apply nth_In; apply Hr; assumption).
      specialize (Hsh _ _ Hxin (Hin2 y (or_introl eq_refl))). lia.
    + pose proof (ok_eligibility _ _ HB x Hin) as HE. unfold eligible.
      apply orb_true_iff. destruct HE as [HE|HE]; [left; apply Z.eqb_eq; assumption|right].
      apply existsb_exists. exists (it_eligibility (item_type i x)). split; [assumption|apply Z.eqb_refl].
Qed.

(** ** Knapsack *)

Definition ditem (j : nat) : DItem := mkDI (it_profit (item_type i j)) (red j) (it_copies (item_type i j)).

Lemma fill_dantzig : forall order remaining bound, (forall j, In j order -> (j < n)%nat) ->
  (trivial_fill i order remaining bound == dantzig_fill (map ditem order) (inject_Z remaining) bound)%Q.
Proof.
  assert (DE : forall l r r' b b', (r == r' -> b == b' -> dantzig_fill l r b == dantzig_fill l r' b')%Q).
  { induction l as [|it l IH]; intros r r' b b' Er Eb; simpl; [assumption|].
    assert (E1 : Qle_bool r 0 = Qle_bool r' 0) by (rewrite Er; reflexivity). rewrite E1.
    destruct (Qle_bool r' 0); [assumption|].
    assert (E2 : Qle_bool (inject_Z (di_volume it * di_copies it)) r = Qle_bool (inject_Z (di_volume it * di_copies it)) r')
      by (rewrite Er; reflexivity). rewrite E2.
    destruct (Qle_bool _ r'); apply IH; rewrite ?Er, ?Eb; reflexivity. }
  induction order as [|j order IH]; intros remaining bound H; [reflexivity|].
  cbn [trivial_fill map dantzig_fill].
  assert (E0 : Qle_bool (inject_Z remaining) 0 = (remaining <=? 0)).
  { change 0%Q with (inject_Z 0). apply eq_true_iff_eq. rewrite Qle_bool_iff, <- Zle_Qle, Z.leb_le. reflexivity. }
  rewrite E0. destruct (Z.leb_spec remaining 0); [reflexivity|].
  pose proof (red_gt0 j (H j (or_introl eq_refl))) as Hr. cbn [ditem di_volume di_copies di_profit]. fold (red j).
  destruct (Z.leb_spec (red j) 0); [lia|].
  assert (E1 : Qle_bool (inject_Z (red j * it_copies (item_type i j))) (inject_Z remaining)
    = (red j * it_copies (item_type i j) <=? remaining)).
  { apply eq_true_iff_eq. rewrite Qle_bool_iff, <- Zle_Qle, Z.leb_le. reflexivity. }
  rewrite E1. destruct (Z.leb_spec (red j * it_copies (item_type i j)) remaining).
  - rewrite IH by (intros k Hk; apply H; right; assumption). apply DE; [|reflexivity].
    unfold Zminus. rewrite inject_Z_plus, inject_Z_opp. reflexivity.
  - rewrite IH by (intros k Hk; apply H; right; assumption). apply DE; reflexivity.
Qed.

Lemma trivial_knapsack_valid : forall order,
  (forall it, In it (in_item_types i) -> (0 <= it_profit it)%Q) ->
  sorted_by (trivial_before i) (trivial_items i) order ->
  (profit_of i ds <= trivial_knapsack_bound i order)%Q.
Proof.
  intros order Hprofit [Hperm Hsort]. rewrite profit_split. pose proof penalties_le as HN.
  unfold trivial_knapsack_bound.
  assert (Hin : forall j, In j order -> (j < n)%nat /\ fits_some_bin i j = true).
  { intros j Hj. apply (Permutation_in j (Permutation_sym Hperm)) in Hj. apply filter_In in Hj.
    destruct Hj as [Hj ?]. apply in_seq in Hj. fold n in Hj. split; [lia|assumption]. }
  rewrite fill_dantzig by (intros j Hj; apply Hin; assumption).
  set (counts := map (fun j => packed j ds) order).
  assert (Ep : (qsum (fun j => inject_Z (packed j ds) * it_profit (item_type i j)) (seq 0 n)
                == choice_profit (map ditem order) counts)%Q).
  { transitivity (qsum (fun j => inject_Z (packed j ds) * it_profit (item_type i j)) order)%Q.
    - rewrite <- (qsum_perm _ _ _ _ Hperm). unfold trivial_items. fold n. generalize (seq 0 n). intro l.
      induction l as [|x l IH]; [reflexivity|]. cbn [filter]. rewrite qsum_cons.
      destruct (fits_some_bin i x) eqn:E; [rewrite qsum_cons, IH; reflexivity|].
      assert (E0 : packed x ds = 0).
      { destruct (Z.eq_dec (packed x ds) 0) as [|N]; [assumption|]. apply packed_fits in N. congruence. }
      rewrite E0, IH. change (inject_Z 0) with 0%Q. ring.
    - unfold choice_profit, counts. clear. induction order as [|j l IH]; [reflexivity|].
      cbn [map combine]. rewrite !qsum_cons, IH. cbn [fst snd ditem di_profit]. ring. }
  assert (Ev : choice_volume (map ditem order) counts = zsum (fun j => packed j ds * red j) order).
  { unfold choice_volume, counts. clear. induction order as [|j l IH]; [reflexivity|].
    cbn [map combine]. rewrite !zsum_cons, IH. cbn [fst snd ditem di_volume]. lia. }
  assert (Hv : choice_volume (map ditem order) counts <= total_capacity i).
  { rewrite Ev. pose proof packed_length as H1. pose proof used_length_le as H2.
    assert (zsum (fun j => packed j ds * red j) order <= zsum (fun j => packed j ds * red j) (seq 0 n)); [|lia].
    rewrite <- (zsum_perm _ _ _ _ Hperm). unfold trivial_items. fold n.
    assert (G : forall l, (forall j, In j l -> (j < n)%nat) ->
      zsum (fun j => packed j ds * red j) (filter (fits_some_bin i) l) <= zsum (fun j => packed j ds * red j) l).
    { induction l as [|x l IH]; intro Hl; [simpl; lia|]. cbn [filter]. rewrite zsum_cons.
      specialize (IH (fun j Hj => Hl j (or_intror Hj))).
      pose proof (packed_ge0 x). pose proof (red_gt0 x (Hl x (or_introl eq_refl))).
      destruct (fits_some_bin i x); [rewrite zsum_cons; lia|nia]. }
    apply G. intros j Hj. apply in_seq in Hj. lia. }
  assert (Hg : good_items (map ditem order)).
  { apply Forall_forall. intros it Hit. apply in_map_iff in Hit. destruct Hit as (j & <- & Hj).
    destruct (Hin j Hj) as [Hj' _]. cbn [ditem di_profit di_volume di_copies]. split; [apply Hprofit; apply nth_In; assumption|].
    split; [apply red_gt0; assumption|apply copies_ge0]. }
  assert (Hc : choice (map ditem order) counts).
  { unfold choice, counts. generalize order. intro o. induction o as [|j l IH]; simpl; constructor; [|assumption].
    cbn [ditem di_copies]. pose proof (packed_ge0 j). pose proof (packed_at_most j). lia. }
  assert (Hs : ratio_sorted (map ditem order)).
  { unfold ratio_sorted. clear -Hsort. induction Hsort as [|x l Hl IH Hx]; simpl; constructor; [assumption|].
    apply Forall_forall. intros b Hb. apply in_map_iff in Hb. destruct Hb as (y & <- & Hy).
    rewrite Forall_forall in Hx. specialize (Hx y Hy). unfold trivial_before in Hx.
    unfold Qltb in Hx. apply negb_false_iff in Hx. apply Qle_bool_iff in Hx. exact Hx. }
  assert (HR : exists rho, (0 <= rho)%Q /\ forall it, In it (map ditem order) -> (di_profit it <= rho * inject_Z (di_volume it))%Q).
  { clear -Hg. induction Hg as [|it l Hit Hg IH].
    - exists 0%Q. split; [lra|]. intros it [].
    - destruct IH as (rho & R1 & R2). destruct Hit as (G1 & G2 & _).
      exists (rho + di_profit it)%Q. split; [lra|].
      assert (V1 : (1 <= inject_Z (di_volume it))%Q) by (change 1%Q with (inject_Z 1); rewrite <- Zle_Qle; lia).
      intros y [<-|Hy]; [nra|]. specialize (R2 y Hy).
      unfold good_items in Hg. rewrite Forall_forall in Hg. destruct (Hg y Hy) as (_ & G3 & _).
      assert (0 < inject_Z (di_volume y))%Q by (apply inj_pos; assumption). nra. }
  destruct HR as (rho & R1 & R2).
  pose proof (choice_volume_nonneg _ _ Hc Hg) as Hv0. rewrite Zle_Qle in Hv.
  assert (HU : (choice_profit (map ditem order) counts
    <= dantzig_fill (map ditem order) (inject_Z (total_capacity i)) 0 + rho * 0)%Q).
  { apply dantzig_fill_upper; try assumption; lra. }
  rewrite Ep. lra.
Qed.

End Packing.

(** ** Bin packing *)

(** Numbers of bins used, type by type: a type is used up before the next. *)
Fixpoint ordered_use (bts : list BinType) (us : list Z) : Prop :=
  match bts, us with
  | [], [] => True
  | bt :: bts', u :: us' =>
      0 <= u <= bt_copies bt /\ (u = bt_copies bt \/ Forall (fun v => v = 0) us') /\ ordered_use bts' us'
  | _, _ => False
  end.

Lemma trivial_bins_done : forall bts remaining bound, remaining <= 0 -> trivial_bins bts remaining bound = bound.
Proof. intros [|bt bts] remaining bound H; simpl; [reflexivity|]. destruct (Z.leb_spec remaining 0); [reflexivity|lia]. Qed.

Lemma ordered_nonneg : forall bts us, ordered_use bts us -> 0 <= zsum (fun u => u) us.
Proof.
  induction bts as [|bt bts IH]; intros [|u us] H; simpl in H; try contradiction; [simpl; lia|].
  destruct H as (H1 & _ & H2). rewrite zsum_cons. specialize (IH us H2). lia.
Qed.

Lemma trivial_bins_le : forall bts us remaining bound, ordered_use bts us ->
  (forall bt, In bt bts -> 1 <= bt_length bt) ->
  remaining <= zsum (fun p => snd p * bt_length (fst p)) (combine bts us) ->
  trivial_bins bts remaining bound <= bound + zsum (fun u => u) us.
Proof.
  induction bts as [|bt bts IH]; intros [|u us] remaining bound H HL Hr; simpl in H; try contradiction.
  - simpl. lia.
  - destruct H as (Hu & Ho & Hrest). pose proof (ordered_nonneg _ _ Hrest) as Hn.
    cbn [combine] in Hr. rewrite zsum_cons in Hr. cbn [fst snd] in Hr. rewrite zsum_cons. cbn [trivial_bins].
    destruct (Z.leb_spec remaining 0) as [|Hpos]; [lia|].
    specialize (HL bt (or_introl eq_refl)) as Hl. destruct (Z.leb_spec (bt_length bt) 0); [lia|].
    rewrite Z.quot_div_nonneg by lia.
    set (L := bt_length bt) in *. set (needed := (remaining + L - 1) / L).
    assert (Hne : remaining <= needed * L /\ (needed - 1) * L < remaining).
    { unfold needed. pose proof (Z.div_mod (remaining + L - 1) L ltac:(lia)).
      pose proof (Z.mod_pos_bound (remaining + L - 1) L ltac:(lia)). nia. }
    destruct (Z_le_gt_dec needed u) as [Hle|Hgt].
    + rewrite Z.min_l by lia. rewrite trivial_bins_done by lia. lia.
    + destruct Ho as [Eu|Hz].
      * rewrite Z.min_r by lia.
        assert (HH := IH us (remaining - bt_copies bt * L) (bound + bt_copies bt) Hrest
          (fun b Hb => HL b (or_intror Hb))). rewrite Eu in Hr. specialize (HH ltac:(lia)). lia.
      * assert (E : zsum (fun p : BinType * Z => snd p * bt_length (fst p)) (combine bts us) = 0).
        { apply zsum_zero. intros [b v] Hv. apply in_combine_r in Hv. rewrite Forall_forall in Hz.
          rewrite (Hz v Hv). simpl. lia. }
        exfalso. nia.
Qed.

Lemma ordered_from : forall i ds, bound_domain i -> available_bins i ds -> OrderOK i ds ->
  forall bts s, (forall k, (k < length bts)%nat -> nth k bts dummy_bin = bin_type i (s + k)) ->
  (s + length bts = length (in_bin_types i))%nat ->
  ordered_use bts (map (fun t => used_bins t ds) (seq s (length bts))).
Proof.
  intros i ds Hdom Hav Ho bts. induction bts as [|bt bts IH]; intros s Hn Hl; [exact I|].
  simpl. simpl in Hl. assert (Eb : bt = bin_type i s).
  { specialize (Hn 0%nat ltac:(simpl; lia)). simpl in Hn. rewrite Nat.add_0_r in Hn. assumption. }
  split; [|split].
  - rewrite Eb. split; [apply (used_ge0 i ds Hav)|]. apply Hav. lia.
  - destruct (Z.eq_dec (used_bins s ds) (bt_copies bt)) as [|N]; [left; assumption|right].
    apply Forall_forall. intros v Hv. apply in_map_iff in Hv. destruct Hv as (t & <- & Ht). apply in_seq in Ht.
    destruct (Z.eq_dec (used_bins t ds) 0) as [|N0]; [assumption|exfalso]. apply N. rewrite Eb.
    apply (Ho s t); [lia|]. pose proof (used_ge0 i ds Hav t). lia.
  - apply IH; [|lia]. intros k Hk. specialize (Hn (Datatypes.S k) ltac:(simpl; lia)). simpl in Hn.
    rewrite Hn. f_equal. lia.
Qed.

Lemma trivial_bin_packing_valid : forall i ds, bound_domain i -> PackingOK i ds -> available_bins i ds ->
  all_packed i ds -> OrderOK i ds -> trivial_bin_packing_bound i <= zsum bd_copies ds.
Proof.
  intros i ds Hdom HP Hav Hall Ho. unfold trivial_bin_packing_bound.
  set (us := map (fun t => used_bins t ds) (seq 0 (length (in_bin_types i)))).
  assert (HU : ordered_use (in_bin_types i) us).
  { apply (ordered_from i ds Hdom Hav Ho); [|reflexivity]. intros k Hk. reflexivity. }
  assert (Es : zsum (fun u => u) us = zsum bd_copies ds).
  { unfold us. rewrite zsum_map. rewrite (zsum_ext _ _ (fun t => used_bins t ds * 1)) by (intros; lia).
    rewrite <- (by_type i ds Hav (fun _ => 1)). apply zsum_ext. intros; lia. }
  rewrite <- Es. change (zsum (fun u => u) us) with (0 + zsum (fun u => u) us) at 1.
  apply trivial_bins_le; [assumption|intros bt Hb; apply (bd_bins_ok _ Hdom); assumption|].
  rewrite reduced_sum.
  pose proof (packed_length i ds Hdom HP Hav) as HL.
  assert (E1 : zsum (fun j => it_copies (item_type i j) * reduced_length (item_type i j)) (seq 0 (length (in_item_types i)))
    = zsum (fun j => packed j ds * reduced_length (item_type i j)) (seq 0 (length (in_item_types i)))).
  { apply zsum_ext. intros j Hj. apply in_seq in Hj. rewrite (Hall j) by lia. reflexivity. }
  rewrite E1. etransitivity; [exact HL|]. unfold us, bin_type.
  apply Z.eq_le_incl.
  rewrite (zsum_seq_nth _ _ (dummy_bin, used_bins 0 ds) (combine _ _)).
  rewrite combine_length, map_length, seq_length, Nat.min_id. apply zsum_ext. intros t Ht. apply in_seq in Ht.
  rewrite combine_nth by (rewrite map_length, seq_length; reflexivity). cbn [fst snd].
  rewrite (map_nth (fun t => used_bins t ds) _ 0%nat), seq_nth by lia. reflexivity.
Qed.

(** ** Variable-sized bin packing *)

Lemma trivial_variable_sized_valid : forall i ds p, bound_domain i -> PackingOK i ds -> available_bins i ds ->
  all_packed i ds -> (forall bt, In bt (in_bin_types i) -> bt_copies_min bt = 0) ->
  at_least_every_selection (kp_items i) (kp_capacity i) p ->
  (trivial_variable_sized_bound i p <= cost_of i ds)%Q.
Proof.
  intros i ds p Hdom HP Hav Hall Hmin Hp. unfold trivial_variable_sized_bound.
  set (m := length (in_bin_types i)).
  set (unused := fun t => bt_copies (bin_type i t) - used_bins t ds).
  set (len := fun t => bt_length (bin_type i t)).
  assert (Hun : forall t, (t < m)%nat -> 0 <= unused t <= bt_copies (bin_type i t) /\ 1 <= len t).
  { intros t Ht. destruct (bin_at i Hdom t Ht). pose proof (used_ge0 i ds Hav t).
    destruct Hav as [_ H2]. specialize (H2 t Ht). unfold unused, len. lia. }
  assert (Em : min_bins_length i = 0).
  { unfold min_bins_length. rewrite fold_sum. rewrite zsum_zero; [reflexivity|]. intros bt Hbt. rewrite Hmin by assumption. lia. }
  assert (HU : zsum (fun t => unused t * len t) (seq 0 m) <= kp_capacity i).
  { unfold kp_capacity. rewrite Em, capacity_sum, reduced_sum.
    pose proof (packed_length i ds Hdom HP Hav) as HL.
    assert (E1 : zsum (fun j => it_copies (item_type i j) * reduced_length (item_type i j)) (seq 0 (length (in_item_types i)))
      = zsum (fun j => packed j ds * reduced_length (item_type i j)) (seq 0 (length (in_item_types i)))).
    { apply zsum_ext. intros j Hj. apply in_seq in Hj. rewrite (Hall j) by lia. reflexivity. }
    rewrite E1. fold m in HL. fold m.
    assert (E2 : zsum (fun t => unused t * len t) (seq 0 m) + zsum (fun t => used_bins t ds * bt_length (bin_type i t)) (seq 0 m)
      = zsum (fun t => bt_copies (bin_type i t) * bt_length (bin_type i t)) (seq 0 m)).
    { rewrite <- zsum_plus. apply zsum_ext. intros t _. unfold unused, len. lia. }
    cbv beta in HL. lia. }
  assert (ET : (total_cost i == qsum (fun t => inject_Z (bt_copies (bin_type i t)) * bt_cost (bin_type i t)) (seq 0 m))%Q).
  { unfold total_cost. rewrite fold_qsum. unfold bin_type, m. generalize (in_bin_types i). clear. intro l.
    rewrite Qplus_0_l. induction l as [|b l IH]; [reflexivity|].
    simpl length. simpl seq. rewrite !qsum_cons, <- seq_shift, qsum_map, IH. simpl. ring. }
  assert (EC : (cost_of i ds == total_cost i - qsum (fun t => inject_Z (unused t) * bt_cost (bin_type i t)) (seq 0 m))%Q).
  { rewrite ET. unfold cost_of. rewrite (qby_type i ds Hav (fun t => bt_cost (bin_type i t))). fold m.
    generalize (seq 0 m). intro l. induction l as [|t l IH]; [reflexivity|]. rewrite !qsum_cons, IH. unfold unused, Zminus.
    rewrite inject_Z_plus, inject_Z_opp. ring. }
  rewrite EC. clear EC ET.
  destruct (Z.leb_spec (kp_capacity i) 0) as [H0|H0].
  - assert (E0 : (qsum (fun t => inject_Z (unused t) * bt_cost (bin_type i t)) (seq 0 m) == 0)%Q).
    { apply qsum_zero. intros t Ht.
      assert (unused t = 0); [|rewrite H; change (inject_Z 0) with 0%Q; ring].
      assert (HS : forall l, (forall x, In x l -> (x < m)%nat) -> In t l -> unused t <= zsum (fun t => unused t * len t) l /\ 0 <= zsum (fun t => unused t * len t) l).
      { clear -Hun. induction l as [|x l IH]; intros Hl Hin; [destruct Hin|]. rewrite zsum_cons.
        destruct (Hun x (Hl x (or_introl eq_refl))) as [U1 U2].
        assert (N : 0 <= zsum (fun t => unused t * len t) l).
        { apply zsum_nonneg. intros y Hy. destruct (Hun y (Hl y (or_intror Hy))). nia. }
        destruct Hin as [->|Hin]; [nia|]. specialize (IH (fun y Hy => Hl y (or_intror Hy)) Hin). nia. }
      destruct (HS (seq 0 m)) as [HS1 _]; [intros x Hx; apply in_seq in Hx; lia|assumption|].
      apply in_seq in Ht. destruct (Hun t); lia. }
    rewrite E0. lra.
  - set (keep := fun bt => negb ((bt_copies bt - bt_copies_min bt <=? 0) || (bt_length bt <=? 0) || (kp_capacity i <? bt_length bt))).
    set (counts := flat_map (fun t => if keep (bin_type i t) then [unused t] else []) (seq 0 m)).
    assert (EK : kp_items i = flat_map (fun t => if keep (bin_type i t)
       then [(bt_cost (bin_type i t), bt_length (bin_type i t), bt_copies (bin_type i t) - bt_copies_min (bin_type i t))] else []) (seq 0 m)).
    { unfold kp_items. rewrite (flat_map_seq_nth _ _ _ dummy_bin). apply flat_map_ext. intro t. fold (bin_type i t).
      unfold keep. destruct ((_ || _) || _)%bool; reflexivity. }
    assert (Hz : forall t, (t < m)%nat -> keep (bin_type i t) = false -> unused t = 0).
    { intros t Ht K. unfold keep in K. apply negb_false_iff in K. destruct (Hun t Ht) as [U1 U2].
      assert (Hb : In (bin_type i t) (in_bin_types i)) by (apply nth_In; assumption).
      rewrite (Hmin _ Hb) in K. fold (len t) in K. apply orb_true_iff in K. rewrite orb_true_iff in K.
      destruct K as [[K|K]|K]; [apply Z.leb_le in K; lia|apply Z.leb_le in K; lia|apply Z.ltb_lt in K].
      assert (HS : unused t * len t <= kp_capacity i).
      { destruct (in_split_perm _ t (seq 0 m)) as (l' & HPm); [apply in_seq; lia|].
        rewrite (zsum_perm _ _ _ _ HPm), zsum_cons in HU.
        assert (0 <= zsum (fun t => unused t * len t) l'); [|lia].
        apply zsum_nonneg. intros y Hy.
        assert (Hy' : In y (seq 0 m)) by (apply (Permutation_in y (Permutation_sym HPm)); right; assumption).
        apply in_seq in Hy'. destruct (Hun y); [lia|]. nia. }
      nia. }
    assert (G : forall l, (forall t, In t l -> (t < m)%nat) ->
      let its := flat_map (fun t => if keep (bin_type i t)
       then [(bt_cost (bin_type i t), bt_length (bin_type i t), bt_copies (bin_type i t) - bt_copies_min (bin_type i t))] else []) l in
      let cs := flat_map (fun t => if keep (bin_type i t) then [unused t] else []) l in
      Forall2 (fun it n => 0 <= n <= snd it) its cs /\
      zsum (fun p => snd (fst (fst p)) * snd p) (combine its cs) = zsum (fun t => unused t * len t) l /\
      (qsum (fun p => fst (fst (fst p)) * inject_Z (snd p)) (combine its cs) == qsum (fun t => inject_Z (unused t) * bt_cost (bin_type i t)) l)%Q).
    { induction l as [|t l IH]; intro Hl; cbn zeta.
      - simpl. split; [constructor|]. split; reflexivity.
      - destruct (IH (fun x Hx => Hl x (or_intror Hx))) as (I1 & I2 & I3). cbn [flat_map].
        pose proof (Hl t (or_introl eq_refl)) as Ht.
        destruct (keep (bin_type i t)) eqn:K.
        + cbn [app combine]. rewrite !zsum_cons, !qsum_cons, I2, I3. cbn [fst snd].
          destruct (Hun t Ht) as [U1 _]. rewrite (Hmin (bin_type i t)) by (apply nth_In; assumption).
          split; [constructor; [cbn [snd]; lia|assumption]|]. split; [unfold len; lia|ring].
        + cbn [app]. rewrite zsum_cons, qsum_cons, I2, I3, (Hz t Ht K). split; [assumption|]. split; [lia|].
          change (inject_Z 0) with 0%Q. ring. }
    destruct (G (seq 0 m)) as (G1 & G2 & G3); [intros t Ht; apply in_seq in Ht; lia|].
    rewrite <- EK in G1, G2, G3. specialize (Hp _ G1). rewrite G2 in Hp. specialize (Hp HU). rewrite G3 in Hp. lra.
Qed.
