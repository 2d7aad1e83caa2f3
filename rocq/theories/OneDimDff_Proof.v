(** * The onedimensional dual feasible functions bounds are valid *)

From Coq Require Import List ZArith QArith Qminmax Bool Lia Lqa Arith Permutation Sorted Psatz.
From Verif Require Import Util Common_Model OneDim_Model OneDim_Spec Dff_Model Dff_Spec Dff_Proof Dff_Axis OneDimDff_Model.
Import ListNotations.
Open Scope Z_scope.

Lemma mapo_some : forall A B (f : A -> option B) (P : A -> B -> Prop) l,
  (forall x, In x l -> exists y, f x = Some y /\ P x y) ->
  exists ys, mapo f l = Some ys /\ Forall2 P l ys.
Proof.
  intros A B f P l H. induction l as [|x l IH]; [exists []; split; [reflexivity|constructor]|].
  destruct (H x (or_introl eq_refl)) as (y & E & Hy).
  destruct IH as (ys & E' & Hys); [intros z Hz; apply H; right; assumption|].
  exists (y :: ys). simpl. rewrite E, E'. split; [reflexivity|constructor; assumption].
Qed.

Lemma map_at_big : forall (g : Z -> Z) l x, In x l -> map_at (map (fun b => (b, g b)) l) x = Some (g x).
Proof.
  intros g l x H. induction l as [|y l IH]; [destruct H|]. simpl.
  destruct (Z.eqb_spec x y); [subst; reflexivity|]. destruct H as [->|H]; [congruence|apply IH; assumption].
Qed.

Lemma mapo_map : forall A B (f : A -> option B) (g : A -> B) l, (forall x, In x l -> f x = Some (g x)) ->
  mapo f l = Some (map g l).
Proof.
  intros A B f g l H. induction l as [|x l IH]; [reflexivity|]. simpl.
  rewrite (H x (or_introl eq_refl)), IH; [reflexivity|]. intros y Hy. apply H. right. assumption.
Qed.

Lemma forall2_nth : forall A B (P : A -> B -> Prop) l1 l2 a b j, Forall2 P l1 l2 -> (j < length l1)%nat ->
  P (nth j l1 a) (nth j l2 b).
Proof.
  intros A B P l1 l2 a b j H. revert j. induction H as [|x y l1 l2 Hxy H IH]; intros j Hj; simpl in Hj; [lia|].
  destruct j; simpl; [assumption|]. apply IH. lia.
Qed.

Lemma forall2_length : forall A B (P : A -> B -> Prop) l1 l2, Forall2 P l1 l2 -> length l1 = length l2.
Proof. intros A B P l1 l2 H. induction H; simpl; congruence. Qed.

Lemma qsum_group : forall A (key : A -> nat) (g : A -> Q) n l, (forall x, In x l -> (key x < n)%nat) ->
  (qsum (fun j => qsum g (filter (fun x => Nat.eqb (key x) j) l)) (seq 0 n) == qsum g l)%Q.
Proof.
  intros A key g n l H.
  assert (HS : forall a (v : Q), (a < n)%nat -> (qsum (fun j => if Nat.eqb a j then v else 0) (seq 0 n) == v)%Q).
  { clear. intros a v Ha.
    assert (G : forall m s, (qsum (fun j => if Nat.eqb a j then v else 0) (seq s m)
              == if (Nat.leb s a && Nat.ltb a (s + m))%bool then v else 0)%Q).
    { induction m as [|m IH]; intro s.
      - simpl. destruct (Nat.leb_spec s a), (Nat.ltb_spec a (s + 0)); simpl; try reflexivity; lia.
      - simpl seq. rewrite qsum_cons, IH.
        destruct (Nat.eqb_spec a s), (Nat.leb_spec s a), (Nat.leb_spec (Datatypes.S s) a),
          (Nat.ltb_spec a (s + Datatypes.S m)), (Nat.ltb_spec a (Datatypes.S s + m)); simpl; try lia; ring. }
    rewrite G. destruct (Nat.leb_spec 0 a), (Nat.ltb_spec a (0 + n)); simpl; try lia. reflexivity. }
  induction l as [|x l IH].
  - simpl. apply qsum_zero. reflexivity.
  - rewrite qsum_cons, <- IH by (intros y Hy; apply H; right; assumption).
    rewrite <- (HS (key x) (g x)) by (apply H; left; reflexivity).
    rewrite <- qsum_plus. apply qsum_ext. intros j _. cbn [filter].
    destruct (Nat.eqb (key x) j); [rewrite qsum_cons; reflexivity|ring].
Qed.

Lemma zsum_seq_nth : forall A (g : A -> Z) (d : A) l,
  zsum g l = zsum (fun j => g (nth j l d)) (seq 0 (length l)).
Proof.
  intros A g d l. induction l as [|x l IH]; [reflexivity|].
  simpl length. simpl seq. rewrite !zsum_cons, <- seq_shift, zsum_map, IH. reflexivity.
Qed.

Lemma flat_map_seq_nth : forall A B (g : A -> list B) (d : A) l,
  flat_map g l = flat_map (fun j => g (nth j l d)) (seq 0 (length l)).
Proof.
  intros A B g d l. induction l as [|x l IH]; [reflexivity|].
  simpl length. simpl seq. simpl. rewrite IH, <- seq_shift. f_equal.
  rewrite !flat_map_concat_map, map_map. reflexivity.
Qed.

Section Proof.

Variable i : Instance.

Let n := length (in_item_types i).
Let C := bt_length (bin_type i 0).
Let red (j : nat) : Z := reduced_length (item_type i j).
Let cop (j : nat) : Z := it_copies (item_type i j).

Hypothesis HC : 1 <= C.
Hypothesis Hred : forall it, In it (in_item_types i) -> 0 < reduced_length it.
Hypothesis Hcopies : forall it, In it (in_item_types i) -> 0 <= it_copies it.

Lemma red_pos : forall j, (j < n)%nat -> 0 < red j.
Proof. intros j Hj. apply Hred. apply nth_In. assumption. Qed.

Lemma cop_nonneg : forall j, 0 <= cop j.
Proof.
  intro j. unfold cop, item_type. destruct (nth_in_or_default j (in_item_types i) dummy_item) as [H|H].
  - apply Hcopies. assumption.
  - rewrite H. simpl. lia.
Qed.

Lemma breakpoint_range : forall k, In k (dff_breakpoints i C) -> 1 <= k /\ 2 * k <= C.
Proof.
  intros k Hk. unfold dff_breakpoints in Hk. rewrite sort_unique_in, in_app_iff in Hk.
  pose proof (div2_spec C) as HD. rewrite quot2 in Hk by lia.
  destruct Hk as [Hk|Hk].
  - apply in_flat_map in Hk. destruct Hk as (it & Hit & Hk). specialize (Hred it Hit).
    unfold fold_breakpoint in Hk. rewrite quot2 in Hk by lia.
    destruct (Z.ltb_spec C (reduced_length it)); [destruct Hk|].
    destruct (Z.eqb_spec (reduced_length it) C); [destruct Hk|].
    destruct (Z.leb_spec (reduced_length it) (C / 2)); destruct Hk as [<-|[]]; lia.
  - destruct (Z.ltb_spec 0 (C / 2)); [|destruct Hk]. destruct Hk as [<-|[]]. lia.
Qed.

Section Breakpoint.

Variable k : Z.
Hypothesis Hk : 1 <= k.
Hypothesis Hk2 : 2 * k <= C.

Definition cand1 (j : nat) : list Z := [red j].
Definition plen1 (j : nat) : option Z :=
  if (k <=? red j) && (red j <=? C / 2) then Some (red j) else None.

Lemma plen1_spec : forall j, match plen1 j with
  | Some m => k <= m /\ forall d, In d (cand1 j) -> k <= d -> 2 * d <= C -> m <= d
  | None => forall d, In d (cand1 j) -> k <= d -> 2 * d <= C -> False
  end.
Proof.
  intro j. unfold plen1, cand1. pose proof (div2_spec C).
  destruct (Z.leb_spec k (red j)), (Z.leb_spec (red j) (C / 2)); cbn [andb].
  - split; [assumption|]. intros d [<-|[]] _ _. lia.
  - intros d [<-|[]] ? ?. lia.
  - intros d [<-|[]] ? ?. lia.
  - intros d [<-|[]] ? ?. lia.
Qed.

Let pool := dff_pool i C k.

Lemma pool1 : pool = sort_pairs (axis_entries n cop plen1).
Proof.
  unfold pool, dff_pool, axis_entries. f_equal.
  rewrite (flat_map_seq_nth _ _ _ dummy_item). apply flat_map_ext. intro j.
  fold (item_type i j). fold (red j). fold (cop j). rewrite quot2 by lia. unfold plen1.
  destruct ((k <=? red j) && (red j <=? C / 2)); reflexivity.
Qed.

Lemma pool1_pos : pos_pool pool.
Proof. apply (axis_pool_pos C n cand1 cop k plen1 Hk cop_nonneg plen1_spec pool pool1). Qed.
Lemma pool1_sorted : StronglySorted fst_le pool.
Proof. apply (axis_pool_sorted n cop plen1 pool pool1). Qed.

Definition excl : list (Z * Z) := map (fun b => (b, gr (C - b) pool)) (dff_big_values i C).

Definition coef (fam : nat) (d c : Z) : Prop := d <= C -> c = FF C k pool fam d.

Lemma item_coefficient_some : forall fam j, (j < n)%nat ->
  exists c, item_coefficient (red j) fam k C (gr C pool) excl = Some c /\ coef fam (red j) c.
Proof.
  intros fam j Hj. pose proof (div2_spec C) as HD. pose proof (red_pos j Hj) as Hp.
  destruct fam as [|[|fam]].
  - eexists. split; [reflexivity|]. intros _. reflexivity.
  - unfold item_coefficient, f_ccm_1. rewrite quot2 by lia.
    destruct (Z.ltb_spec (C / 2) (red j)).
    + assert (HB : In (red j) (dff_big_values i C)).
      { unfold dff_big_values. rewrite sort_unique_in. apply filter_In. split.
        - apply in_map_iff. exists (item_type i j). split; [reflexivity|]. apply nth_In. assumption.
        - rewrite quot2 by lia. apply Z.ltb_lt. assumption. }
      unfold excl. rewrite (map_at_big (fun b => gr (C - b) pool)) by assumption. cbn [bind].
      pose proof (gr_mono pool (C - red j) C pool1_pos pool1_sorted ltac:(lia) ltac:(lia)).
      destruct (Z.ltb_spec (gr C pool - gr (C - red j) pool) 0); [lia|].
      eexists. split; [reflexivity|]. intros _. unfold FF. destruct (Z.ltb_spec (C / 2) (red j)); lia.
    + destruct (Z.ltb_spec (red j) k); eexists; (split; [reflexivity|]); intros _; unfold FF;
        destruct (Z.ltb_spec (C / 2) (red j)); try lia; destruct (Z.ltb_spec (red j) k); lia.
  - destruct (Z.le_gt_cases (red j) C) as [Hle|Hgt].
    + exists (F2 C k (red j)). split; [|intros _; reflexivity].
      unfold item_coefficient. rewrite f_ccm_2_some by lia. reflexivity.
    + unfold item_coefficient, f_ccm_2, cdiv. rewrite quot2 by lia.
      destruct (Z.ltb_spec (C / 2) (red j)); [|lia].
      destruct (Z.eqb_spec k 0); [lia|]. cbn [bind]. eexists. split; [reflexivity|]. intro. lia.
Qed.

Definition combo_ok (fc : Z * list Z) : Prop :=
  exists fam, fst fc = FF_bin C k pool fam /\ length (snd fc) = n /\
    forall j, (j < n)%nat -> coef fam (red j) (nth j (snd fc) 0).

Lemma sweep_some : exists r, dff_sweep_k i C k = Some r /\ Forall combo_ok r.
Proof.
  unfold dff_sweep_k. fold pool. rewrite greedy_some by apply pool1_pos. cbn [bind].
  rewrite (mapo_map _ _ _ (fun b => (b, gr (C - b) pool))).
  2:{ intros b _. rewrite greedy_some by apply pool1_pos. reflexivity. }
  cbn [bind]. fold excl.
  pose proof (div2_spec C) as HD.
  assert (H : exists ys, mapo (fun family : nat =>
      let* f_bin := match family with
        | O => Some (f_ccm_0 C k C)
        | 1%nat => f_ccm_1 C k C (gr C pool)
        | _ => f_ccm_2 C k C
        end in
      let* cs := mapo (fun it => item_coefficient (reduced_length it) family k C (gr C pool) excl)
        (in_item_types i) in
      Some (f_bin, cs)) [0; 1; 2]%nat = Some ys /\ Forall2 (fun (_ : nat) fc => combo_ok fc) [0; 1; 2]%nat ys).
  { apply mapo_some. intros fam Hfam.
    assert (HB : match fam with
        | O => Some (f_ccm_0 C k C)
        | 1%nat => f_ccm_1 C k C (gr C pool)
        | _ => f_ccm_2 C k C
        end = Some (FF_bin C k pool fam)).
    { destruct fam as [|[|fam]].
      - unfold f_ccm_0, FF_bin. destruct (Z.ltb_spec (C - k) C); [reflexivity|lia].
      - unfold f_ccm_1, FF_bin. rewrite quot2 by lia. destruct (Z.ltb_spec (C / 2) C); [|lia].
        pose proof (gr_nonneg pool C pool1_pos ltac:(lia)).
        destruct (Z.ltb_spec (gr C pool) 0); [lia|reflexivity].
      - rewrite f_ccm_2_some by lia. rewrite F2_bin by lia. reflexivity. }
    rewrite HB. cbn [bind].
    destruct (mapo_some _ _ (fun it => item_coefficient (reduced_length it) fam k C (gr C pool) excl)
                (fun it c => coef fam (reduced_length it) c) (in_item_types i)) as (cs & E & Hcs).
    { intros it Hit. destruct (In_nth _ _ dummy_item Hit) as (j & Hj & Ej).
      destruct (item_coefficient_some fam j Hj) as (c & E & Hc).
      unfold red, item_type in E, Hc. rewrite Ej in E, Hc. exists c. auto. }
    rewrite E. cbn [bind]. eexists. split; [reflexivity|]. exists fam. simpl. split; [reflexivity|].
    split; [symmetry; apply (forall2_length _ _ _ _ _ Hcs)|].
    intros j Hj. apply (forall2_nth _ _ _ _ _ dummy_item 0 j Hcs Hj). }
  destruct H as (ys & E & H). exists ys. split; [exact E|].
  clear E. inversion H as [|? y0 ? t0 H0 T0]; subst. inversion T0 as [|? y1 ? t1 H1 T1]; subst.
  inversion T1 as [|? y2 ? t2 H2 T2]; subst. inversion T2; subst. repeat constructor; assumption.
Qed.

End Breakpoint.

Definition any_combo_ok (fc : Z * list Z) : Prop := exists k, 1 <= k /\ 2 * k <= C /\ combo_ok k fc.

Lemma run_some : exists combos,
  (let* r := mapo (dff_sweep_k i C) (dff_breakpoints i C) in Some (concat r)) = Some combos /\ Forall any_combo_ok combos.
Proof.
  destruct (mapo_some _ _ (dff_sweep_k i C) (fun k r => Forall any_combo_ok r) (dff_breakpoints i C)) as (r & E & Hr).
  { intros k Hk. destruct (breakpoint_range k Hk) as [H1 H2].
    destruct (sweep_some k H1 H2) as (r & E & Hr). exists r. split; [assumption|].
    apply Forall_forall. intros fc Hfc. rewrite Forall_forall in Hr. exists k. auto. }
  rewrite E. cbn [bind]. exists (concat r). split; [reflexivity|].
  apply Forall_forall. intros fc Hfc. apply in_concat in Hfc. destruct Hfc as (l & Hl & Hfc).
  assert (HF : Forall (Forall any_combo_ok) r).
  { clear -Hr. induction Hr; constructor; assumption. }
  rewrite Forall_forall in HF. specialize (HF l Hl). rewrite Forall_forall in HF. apply HF. assumption.
Qed.

(** ** Packings *)

Variable ds : list BinDesc.
Hypothesis Hds : forall d, In d ds -> bd_type d = 0%nat /\ 0 <= bd_copies d.
Hypothesis Hlen : forall d, In d ds -> bin_end i (bd_items d) <= C.
Hypothesis Hok : forall d x, In d ds -> In x (bd_items d) -> packed x ds <= it_copies (item_type i x).

Lemma bin_end_reduced : forall items, zsum (fun x => red x) items <= bin_end i items.
Proof.
  intros [|x items]; unfold bin_end; [simpl; lia|]. cbn [tl]. rewrite !zsum_cons.
  assert (zsum (fun x => red x) items <= zsum (fun x => it_length (item_type i x)) items
            - zsum (fun x => it_nesting (item_type i x)) items).
  { induction items as [|y items IH]; [simpl; lia|]. rewrite !zsum_cons.
    unfold red at 1. unfold reduced_length. lia. }
  unfold red at 1. unfold reduced_length. lia.
Qed.

Lemma packed_in : forall d x, In d ds -> bd_copies d * Z.of_nat (count_occ Nat.eq_dec (bd_items d) x) <= packed x ds.
Proof.
  intros d x Hd. unfold packed. destruct (in_split_perm _ d ds Hd) as (ds' & HP).
  rewrite (zsum_perm _ _ _ _ HP), zsum_cons.
  assert (0 <= zsum (fun d0 => bd_copies d0 * Z.of_nat (count_occ Nat.eq_dec (bd_items d0) x)) ds'); [|lia].
  apply zsum_nonneg. intros e He.
  assert (In e ds) by (apply (Permutation_in e (Permutation_sym HP)); right; assumption).
  destruct (Hds e H). nia.
Qed.

Lemma item_in_range : forall d x, In d ds -> 1 <= bd_copies d -> In x (bd_items d) -> (x < n)%nat.
Proof.
  intros d x Hd Hc Hx. destruct (Nat.lt_ge_cases x n) as [|Hge]; [assumption|exfalso].
  pose proof (Hok d x Hd Hx) as H. unfold item_type in H. rewrite nth_overflow in H by assumption. simpl in H.
  pose proof (packed_in d x Hd) as HP. apply (count_occ_In Nat.eq_dec) in Hx. nia.
Qed.

Definition bin_chain (d : BinDesc) : list (nat * Z) := map (fun x => (x, red x)) (bd_items d).

Lemma occurrences_bin : forall d j, occurrences j (bin_chain d) = Z.of_nat (count_occ Nat.eq_dec (bd_items d) j).
Proof.
  intros d j. unfold occurrences, bin_chain. f_equal. induction (bd_items d) as [|x l IH]; [reflexivity|].
  simpl. destruct (Nat.eqb_spec x j), (Nat.eq_dec x j); simpl; try congruence.
Qed.

Lemma bin_valid : forall d, In d ds -> 1 <= bd_copies d -> valid_chain C n cand1 cop (bin_chain d).
Proof.
  intros d Hd Hc. constructor.
  - intros p Hp. unfold bin_chain in Hp. apply in_map_iff in Hp. destruct Hp as (x & <- & Hx). simpl.
    pose proof (item_in_range d x Hd Hc Hx) as Hr. split; [assumption|]. split; [left; reflexivity|].
    apply red_pos. assumption.
  - intros j Hj. rewrite occurrences_bin.
    destruct (in_dec Nat.eq_dec j (bd_items d)) as [Hin|Hin].
    + pose proof (Hok d j Hd Hin). pose proof (packed_in d j Hd). unfold cop. nia.
    + apply (count_occ_not_In Nat.eq_dec) in Hin. rewrite Hin. simpl. apply cop_nonneg.
  - unfold bin_chain. rewrite zsum_map. simpl. pose proof (bin_end_reduced (bd_items d)).
    specialize (Hlen d Hd). lia.
Qed.

(** A packed item is no longer than the bin. *)
Lemma item_fits : forall d x, In d ds -> 1 <= bd_copies d -> In x (bd_items d) -> red x <= C.
Proof.
  intros d x Hd Hc Hx. pose proof (bin_valid d Hd Hc) as [Ht _ Hf].
  pose proof (chain_elem (bin_chain d) (x, red x)) as HE. simpl in HE.
  assert (red x <= zsum snd (bin_chain d)); [|lia]. apply HE.
  - intros q Hq. apply Ht. assumption.
  - unfold bin_chain. apply in_map_iff. exists x. auto.
Qed.

Lemma packed_sum : forall (c : nat -> Z),
  zsum (fun j => packed j ds * c j) (seq 0 n)
  = zsum (fun d => bd_copies d * zsum c (bd_items d)) ds.
Proof.
  intro c. unfold packed.
  assert (G : forall l, (forall d, In d l -> 1 <= bd_copies d -> forall x, In x (bd_items d) -> (x < n)%nat) ->
    (forall d, In d l -> 0 <= bd_copies d) ->
    zsum (fun j => zsum (fun d => bd_copies d * Z.of_nat (count_occ Nat.eq_dec (bd_items d) j)) l * c j) (seq 0 n)
    = zsum (fun d => bd_copies d * zsum c (bd_items d)) l).
  { induction l as [|d l IH]; intros H1 H2.
    - apply zsum_zero. intros j _. reflexivity.
    - rewrite zsum_cons, <- IH by (intros; eauto using in_cons).
      destruct (Z.eq_dec (bd_copies d) 0) as [E0|N0].
      + rewrite E0, Z.mul_0_l, Z.add_0_l. apply zsum_ext. intros j _. rewrite zsum_cons, E0. lia.
      + assert (Hr : forall x, In x (bd_items d) -> (x < n)%nat).
        { apply H1; [left; reflexivity|]. specialize (H2 d (or_introl eq_refl)). lia. }
        rewrite <- (zsum_group _ (fun x => x) c n (bd_items d) Hr), <- zsum_mult, <- zsum_plus.
        apply zsum_ext. intros j _. rewrite zsum_cons.
        assert (E : zsum c (filter (fun x => Nat.eqb x j) (bd_items d))
                    = Z.of_nat (count_occ Nat.eq_dec (bd_items d) j) * c j).
        { clear. induction (bd_items d) as [|x l IH]; [reflexivity|]. cbn [filter count_occ].
          destruct (Nat.eqb_spec x j), (Nat.eq_dec x j); try congruence. subst. rewrite zsum_cons, IH. lia. }
        rewrite E. lia. }
  apply G; [|intros d Hd; apply Hds; assumption].
  intros d Hd Hc x Hx. apply (item_in_range d); assumption.
Qed.

(** Total coefficient of the packed items. *)
Lemma combo_packed : forall fc, any_combo_ok fc ->
  zsum (fun j => packed j ds * nth j (snd fc) 0) (seq 0 n) <= zsum bd_copies ds * fst fc.
Proof.
  intros fc (k & Hk & Hk2 & fam & Ef & El & Ec). rewrite packed_sum.
  rewrite Z.mul_comm, <- zsum_mult. apply zsum_le. intros d Hd.
  destruct (Hds d Hd) as [_ Hc]. destruct (Z.eq_dec (bd_copies d) 0) as [E0|N0]; [rewrite E0; lia|].
  assert (H1 : 1 <= bd_copies d) by lia.
  assert (H : zsum (fun x => nth x (snd fc) 0) (bd_items d) <= fst fc); [|nia].
  pose proof (axis_chain C n cand1 cop k (plen1 k) HC Hk Hk2 cop_nonneg (plen1_spec k) _ (pool1 k) fam _ (bin_valid d Hd H1)) as HA.
  rewrite Ef. etransitivity; [|exact HA]. unfold bin_chain. rewrite zsum_map. simpl snd.
  apply zsum_le. intros x Hx. rewrite Ec; [lia|apply (item_in_range d); assumption|apply (item_fits d); assumption].
Qed.

(** ** Knapsack *)

Hypothesis Hprofit : forall it, In it (in_item_types i) -> (0 <= it_profit it)%Q.
Hypothesis Hfits : forall d x, In d ds -> 1 <= bd_copies d -> In x (bd_items d) -> fits_some_bin i x = true.
Hypothesis Hbins : zsum bd_copies ds <= bt_copies (bin_type i 0).
Hypothesis Hone : length (in_bin_types i) = 1%nat.

Lemma qpacked_sum : forall (c : nat -> Q),
  (qsum (fun j => inject_Z (packed j ds) * c j) (seq 0 n)
  == qsum (fun d => inject_Z (bd_copies d) * qsum c (bd_items d)) ds)%Q.
Proof.
  clear Hone.
  intro c. unfold packed.
  assert (G : forall l, (forall d, In d l -> 1 <= bd_copies d -> forall x, In x (bd_items d) -> (x < n)%nat) ->
    (forall d, In d l -> 0 <= bd_copies d) ->
    (qsum (fun j => inject_Z (zsum (fun d => (bd_copies d * Z.of_nat (count_occ Nat.eq_dec (bd_items d) j))%Z) l) * c j) (seq 0 n)
    == qsum (fun d => inject_Z (bd_copies d) * qsum c (bd_items d)) l)%Q).
  { induction l as [|d l IH]; intros H1 H2.
    - apply qsum_zero. intros j _. simpl. ring.
    - rewrite qsum_cons, <- IH by (intros; eauto using in_cons).
      destruct (Z.eq_dec (bd_copies d) 0) as [E0|N0].
      + rewrite E0. rewrite (qsum_ext _ _ (fun j => inject_Z (zsum (fun d => (bd_copies d * Z.of_nat (count_occ Nat.eq_dec (bd_items d) j))%Z) l) * c j)%Q).
        * ring.
        * intros j _. rewrite zsum_cons, E0. reflexivity.
      + assert (Hr : forall x, In x (bd_items d) -> (x < n)%nat).
        { apply H1; [left; reflexivity|]. specialize (H2 d (or_introl eq_refl)). lia. }
        rewrite <- (qsum_group _ (fun x => x) c n (bd_items d) Hr), <- qsum_scale, <- qsum_plus.
        apply qsum_ext. intros j _. rewrite zsum_cons.
        assert (E : (qsum c (filter (fun x => Nat.eqb x j) (bd_items d))
                    == inject_Z (Z.of_nat (count_occ Nat.eq_dec (bd_items d) j)) * c j)%Q).
        { clear. induction (bd_items d) as [|x l IH]; [simpl; ring|]. cbn [filter count_occ].
          destruct (Nat.eqb_spec x j), (Nat.eq_dec x j); try congruence.
          subst. rewrite qsum_cons, IH. rewrite Nat2Z.inj_succ, <- Z.add_1_l, inject_Z_plus. ring. }
        rewrite E, inject_Z_plus, inject_Z_mult. ring. }
  apply G; [|intros d Hd; apply Hds; assumption].
  intros d Hd Hc x Hx. apply (item_in_range d); assumption.
Qed.

Lemma packed_nonneg : forall j, 0 <= packed j ds.
Proof. intro j. apply zsum_nonneg. intros d Hd. destruct (Hds d Hd). nia. Qed.

Lemma packed_pos : forall j, packed j ds <> 0 -> exists d, In d ds /\ 1 <= bd_copies d /\ In j (bd_items d).
Proof.
  intro j. unfold packed. revert Hds. clear. induction ds as [|d l IH]; intros Hds H; [exfalso; apply H; reflexivity|].
  rewrite zsum_cons in H. destruct (Hds d (or_introl eq_refl)) as [_ Hc].
  destruct (in_dec Nat.eq_dec j (bd_items d)) as [Hin|Hin].
  - destruct (Z.eq_dec (bd_copies d) 0) as [E0|N0].
    + rewrite E0 in H. destruct IH as (e & He & Hec & Hei); [intros; apply Hds; right; assumption|lia|].
      exists e. split; [right; assumption|]. auto.
    + exists d. split; [left; reflexivity|]. split; [lia|assumption].
  - apply (count_occ_not_In Nat.eq_dec) in Hin. rewrite Hin in H.
    destruct IH as (e & He & Hec & Hei); [intros; apply Hds; right; assumption|simpl in H; lia|].
    exists e. split; [right; assumption|]. auto.
Qed.

Lemma packed_le_copies : forall j, packed j ds <= cop j.
Proof.
  intro j. destruct (Z.eq_dec (packed j ds) 0) as [E|N]; [rewrite E; apply cop_nonneg|].
  destruct (packed_pos j N) as (d & Hd & _ & Hin). apply (Hok d); assumption.
Qed.

Lemma not_fits_not_packed : forall j, fits_some_bin i j = false -> packed j ds = 0.
Proof.
  intros j H. destruct (Z.eq_dec (packed j ds) 0) as [E|N]; [assumption|].
  destruct (packed_pos j N) as (d & Hd & Hc & Hin). rewrite (Hfits d j Hd Hc Hin) in H. discriminate.
Qed.

Lemma fits_reduced : forall j, fits_some_bin i j = true -> red j <= C.
Proof.
  intros j H. unfold fits_some_bin in H. rewrite Hone in H. simpl in H. rewrite orb_false_r in H.
  unfold item_type_fits_bin_type in H. apply andb_true_iff in H. destruct H as [H _]. apply Z.leb_le in H.
  unfold red, reduced_length, C. lia.
Qed.

Lemma knapsack_combo_bound : forall fc q, any_combo_ok fc -> In q (knapsack_combo i fc) ->
  (qsum (fun j => inject_Z (packed j ds) * it_profit (item_type i j)) (seq 0 n) <= q)%Q.
Proof.
  intros fc q Hfc Hq. unfold knapsack_combo in Hq. destruct (Z.leb_spec (fst fc) 0); [destruct Hq|].
  destruct Hq as [<-|[]].
  set (cs := snd fc) in *.
  set (its := fun j => if fits_some_bin i j
      then [mkDI (it_profit (item_type i j)) (nth j cs 0) (it_copies (item_type i j))] else []).
  set (cnt := fun j => if fits_some_bin i j then [packed j ds] else []).
  assert (Hrange : forall s, (forall j, In j s -> (j < n)%nat) ->
    choice (flat_map its s) (flat_map cnt s)
    /\ (choice_profit (flat_map its s) (flat_map cnt s) == qsum (fun j => inject_Z (packed j ds) * it_profit (item_type i j)) s)%Q
    /\ choice_volume (flat_map its s) (flat_map cnt s) = zsum (fun j => packed j ds * nth j cs 0) s).
  { unfold choice. induction s as [|j s IH]; intro Hs.
    - split; [constructor|]. split; reflexivity.
    - destruct IH as (I1 & I2 & I3); [intros x Hx; apply Hs; right; assumption|].
      simpl flat_map. rewrite qsum_cons, zsum_cons. unfold its at 1 3 5, cnt at 1 3 5.
      destruct (fits_some_bin i j) eqn:Ef.
      + simpl app. rewrite choice_profit_cons, choice_volume_cons, I2, I3. simpl.
        split; [constructor; [|exact I1]|split; [ring|lia]].
        simpl. pose proof (packed_nonneg j). pose proof (packed_le_copies j). unfold cop in *. lia.
      + simpl app. rewrite (not_fits_not_packed j Ef). split; [exact I1|]. split; [rewrite I2; simpl; ring|lia]. }
  destruct (Hrange (seq 0 n)) as (H1 & H2 & H3); [intros j Hj; apply in_seq in Hj; lia|].
  rewrite <- H2. change (dantzig_items i cs) with (flat_map its (seq 0 n)).
  apply dantzig_upper; [|exact H1| |].
  - apply Forall_forall. intros it Hit. apply in_flat_map in Hit. destruct Hit as (j & Hj & Hit).
    apply in_seq in Hj. unfold its in Hit. destruct (fits_some_bin i j) eqn:Ef; [|destruct Hit].
    destruct Hit as [<-|[]]. simpl. split; [apply Hprofit; apply nth_In; lia|].
    split; [|apply (cop_nonneg j)].
    destruct Hfc as (k & Hk & Hk2 & fam & _ & _ & Ec).
    unfold cs. rewrite Ec; [|lia|apply fits_reduced; assumption].
    apply (FF_nonneg C n cand1 cop k (plen1 k) HC Hk cop_nonneg (plen1_spec k) _ (pool1 k)).
    pose proof (red_pos j ltac:(lia)). pose proof (fits_reduced j Ef). lia.
  - rewrite <- inject_Z_mult. apply inj_nonneg.
    assert (0 <= zsum bd_copies ds) by (apply zsum_nonneg; intros d Hd; apply Hds; assumption). nia.
  - rewrite <- inject_Z_mult, <- Zle_Qle, H3. pose proof (combo_packed fc Hfc) as HP. fold cs in HP. nia.
Qed.

Lemma negative_sum_le : forall rs (f : Resource -> bool),
  (- qsum (fun r => if res_penalize r && f r then res_penalty r else 0) rs <= negative_penalty_sum rs)%Q
  /\ (0 <= negative_penalty_sum rs)%Q.
Proof.
  intros rs f. unfold negative_penalty_sum.
  assert (G : forall b, (b - qsum (fun r => if res_penalize r && f r then res_penalty r else 0) rs
     <= fold_left (fun sum r => if res_penalize r && Qltb (res_penalty r) 0 then sum - res_penalty r else sum) rs b)%Q
     /\ (b <= fold_left (fun sum r => if res_penalize r && Qltb (res_penalty r) 0 then sum - res_penalty r else sum) rs b)%Q).
  { induction rs as [|r rs IH]; intro b.
    - simpl. split; lra.
    - rewrite qsum_cons. cbn [fold_left].
      destruct (res_penalize r); cbn [andb].
      + unfold Qltb. destruct (Qle_bool 0 (res_penalty r)) eqn:E; cbn [negb].
        * apply Qle_bool_iff in E. destruct (IH b) as [I1 I2]. split; [|assumption].
          eapply Qle_trans; [|exact I1]. destruct (f r); lra.
        * assert (res_penalty r < 0)%Q.
          { destruct (Qlt_le_dec (res_penalty r) 0); [assumption|]. apply Qle_bool_iff in q. congruence. }
          destruct (IH (b - res_penalty r)%Q) as [I1 I2]. split.
          -- eapply Qle_trans; [|exact I1]. destruct (f r); lra.
          -- eapply Qle_trans; [|exact I2]. lra.
      + destruct (IH b) as [I1 I2]. split; [|assumption]. eapply Qle_trans; [|exact I1]. lra. }
  destruct (G 0%Q) as [G1 G2]. split; [|assumption]. eapply Qle_trans; [|exact G1]. lra.
Qed.

Lemma penalties_bound : (forall d, In d ds -> 1 <= bd_copies d) ->
  (- qsum (fun d => penalties i d) ds <= instance_negative_penalty_sum i)%Q.
Proof.
  intro Hpos. unfold instance_negative_penalty_sum.
  destruct (in_bin_types i) as [|bt [|bt' l]] eqn:E; simpl in Hone; try discriminate. simpl.
  assert (Ebt : bin_type i 0 = bt) by (unfold bin_type; rewrite E; reflexivity).
  destruct (negative_sum_le (bt_resources bt) (fun _ => true)) as [_ N0].
  assert (HS : (- qsum (fun d => penalties i d) ds <= inject_Z (zsum bd_copies ds) * negative_penalty_sum (bt_resources bt))%Q).
  { revert Hds Hpos. clear -N0 Ebt. induction ds as [|d l IH]; intros Hds Hpos.
    - simpl. change (inject_Z 0) with 0%Q. lra.
    - rewrite qsum_cons, zsum_cons, inject_Z_plus.
      specialize (IH (fun e He => Hds e (or_intror He)) (fun e He => Hpos e (or_intror He))).
      destruct (Hds d (or_introl eq_refl)) as [Et _]. specialize (Hpos d (or_introl eq_refl)).
      assert (HP : (- penalties i d <= negative_penalty_sum (bt_resources bt))%Q).
      { unfold penalties. rewrite Et, Ebt.
        apply (negative_sum_le (bt_resources bt) (fun r => Qltb (res_capacity r) (consumption i r (bd_items d)))). }
      assert (1 <= inject_Z (bd_copies d))%Q by (change 1%Q with (inject_Z 1); rewrite <- Zle_Qle; assumption).
      nra. }
  rewrite Ebt in Hbins.
  assert (inject_Z (zsum bd_copies ds) <= inject_Z (bt_copies bt))%Q by (rewrite <- Zle_Qle; assumption).
  nra.
Qed.

Lemma fold_min_ge : forall l (b : option Q) m, (match b with Some q => (m <= q)%Q | None => True end) ->
  (forall x, In x l -> (m <= x)%Q) ->
  match fold_left min_bound l b with Some q => (m <= q)%Q | None => True end.
Proof.
  induction l as [|x l IH]; intros b m Hb H; simpl; [assumption|]. apply IH.
  - unfold min_bound. specialize (H x (or_introl eq_refl)). destruct b; [apply Q.min_glb; assumption|assumption].
  - intros y Hy. apply H. right. assumption.
Qed.

Lemma knapsack_valid : forall combos q, (forall d, In d ds -> 1 <= bd_copies d) -> Forall any_combo_ok combos ->
  fold_left min_bound (flat_map (knapsack_combo i) combos) None = Some q ->
  (qsum (fun d => inject_Z (bd_copies d) * qsum (fun x => it_profit (item_type i x)) (bd_items d) - penalties i d) ds
   <= q + instance_negative_penalty_sum i)%Q.
Proof.
  intros combos q Hpos H E.
  pose proof (fold_min_ge (flat_map (knapsack_combo i) combos) None
    (qsum (fun j => inject_Z (packed j ds) * it_profit (item_type i j)) (seq 0 n))%Q I) as HM.
  rewrite E in HM.
  assert (HQ : (qsum (fun j => inject_Z (packed j ds) * it_profit (item_type i j)) (seq 0 n) <= q)%Q).
  { apply HM. intros x Hx. apply in_flat_map in Hx. destruct Hx as (fc & Hfc & Hx).
    rewrite Forall_forall in H. apply (knapsack_combo_bound fc); auto. }
  rewrite qpacked_sum in HQ. pose proof (penalties_bound Hpos) as HP.
  assert (ES : (qsum (fun d => inject_Z (bd_copies d) * qsum (fun x => it_profit (item_type i x)) (bd_items d) - penalties i d) ds
    == qsum (fun d => inject_Z (bd_copies d) * qsum (fun x => it_profit (item_type i x)) (bd_items d)) ds + - qsum (fun d => penalties i d) ds)%Q).
  { clear. induction ds as [|d l IH]; [reflexivity|]. rewrite !qsum_cons, IH. ring. }
  rewrite ES. lra.
Qed.

Hypothesis Hall : forall j, (j < n)%nat -> packed j ds = cop j.

Lemma combo_bound : forall fc b, any_combo_ok fc -> In b (bin_packing_combo i fc) -> b <= zsum bd_copies ds.
Proof.
  intros fc b Hfc Hb. unfold bin_packing_combo in Hb. destruct (Z.leb_spec (fst fc) 0); [destruct Hb|].
  destruct Hb as [<-|[]]. apply ceil_div_le; [assumption|].
  pose proof (combo_packed fc Hfc) as HP. etransitivity; [|exact HP].
  destruct Hfc as (k & _ & _ & fam & _ & El & _).
  rewrite (zsum_seq_nth _ _ (dummy_item, 0)).
  assert (EL : length (combine (in_item_types i) (snd fc)) = n) by (rewrite combine_length, El; fold n; lia).
  rewrite EL. apply zsum_le. intros j Hj. apply in_seq in Hj.
  rewrite combine_nth by (rewrite El; reflexivity). simpl. rewrite Hall by lia.
  fold (item_type i j). fold (cop j). lia.
Qed.

Lemma fold_max_le : forall l b m, b <= m -> (forall x, In x l -> x <= m) -> fold_left Z.max l b <= m.
Proof.
  induction l as [|x l IH]; intros b m Hb H; simpl; [assumption|]. apply IH.
  - specialize (H x (or_introl eq_refl)). lia.
  - intros y Hy. apply H. right. assumption.
Qed.

Lemma bound_valid : forall combos, Forall any_combo_ok combos ->
  fold_left Z.max (flat_map (bin_packing_combo i) combos) 0 <= zsum bd_copies ds.
Proof.
  intros combos H. apply fold_max_le.
  - apply zsum_nonneg. intros d Hd. apply Hds. assumption.
  - intros b Hb. apply in_flat_map in Hb. destruct Hb as (fc & Hfc & Hb). rewrite Forall_forall in H.
    apply (combo_bound fc); auto.
Qed.

End Proof.
