(** * C34: dichotomic search *)

From Coq Require Import List ZArith QArith Qround Bool Lia Lqa Permutation.
From Verif Require Import Util Common_Model OneDim_Model ColGen_Model ColGen_Spec ColGenCap_Proof ColGenPrice_Proof Svc_Model Svc_Spec Svc_Proof Dicho_Model Dicho_Spec Dicho_Proof DichoLoop_Proof.
Import ListNotations.
Open Scope Z_scope.

(** The state in which the search stops. *)
Lemma dichotomic_final : forall fuel i o initial ub0 r, dinst_ok i -> dichotomic fuel i o initial ub0 = Some r ->
  exists s1, steps i o initial (dstart ub0) s1 /\ DInv i o s1 /\ Bounds i ub0 s1 /\ DInv i o (final r) /\
    (r = DEnd s1 \/ r = DThrow s1 \/ (dcontinue (ds_lb s1) (ds_ub s1) = true /\ dturn i o initial s1 = inr r /\ ds_ub (final r) = ds_ub s1 /\ (forall e, In e (ds_memory s1) -> In e (ds_memory (final r))))).
Proof.
  intros fuel i o initial ub0 r Hi E. unfold dichotomic in E. pose proof (dinv_start i o ub0) as D0.
  assert (B0 : Bounds i ub0 (dstart ub0)) by (split; left; reflexivity).
  destruct (cni (dbase i) =? 0)%nat.
  - injection E as <-. exists (dstart ub0). split; [constructor|]. split; [exact D0|]. split; [exact B0|]. split; [exact D0|left; reflexivity].
  - destruct (dloop_steps _ _ _ _ _ _ E) as (s1 & St & K). exists s1.
    pose proof (steps_dinv i o initial Hi _ _ St D0) as D1. pose proof (steps_bounds i o initial Hi ub0 _ _ St D0 B0) as B1.
    split; [exact St|]. split; [exact D1|]. split; [exact B1|]. destruct K as [[C ->]|[C T]]; [split; [exact D1|left; reflexivity]|].
    pose proof (dturn_inv i o initial Hi s1 D1) as V. cbv zeta in V. rewrite T in V. destruct r as [s'|s'].
    + destruct V as (D' & V & Hold). split; [exact D'|]. destruct V as [->|[V1 V2]]; [left; reflexivity|]. right. right. split; [exact C|split; [exact T|split; [exact V2|exact Hold]]].
    + subst s'. split; [exact D1|]. right. left. reflexivity.
Qed.

(** Whatever the knapsack solver and the timer do: if the solver of the bin
    packing sub-problems respects them, no reported solution uses a bin type or an
    item type more than the instance allows. *)
Theorem C34_valid : forall fuel i o initial ub0 r, dinst_ok i -> dhonest i o -> dichotomic fuel i o initial ub0 = Some r ->
  forall s, In s (ds_reports (final r)) -> svalid (di_inst i) s.
Proof.
  intros fuel i o initial ub0 r Hi Ho E s Hs. destruct (dichotomic_final _ _ _ _ _ _ Hi E) as (s1 & _ & _ & _ & D & _). exact (di_valid i o _ D Ho s Hs).
Qed.

(** The upper bound is the initial one, or a reported solution packs all the
    items, in at most as many bins as a set of bins which contains the mandatory
    bins and is contained in the bins of the instance. *)
Theorem C34_success : forall fuel i o initial ub0 r, dinst_ok i -> dhonest i o -> dichotomic fuel i o initial ub0 = Some r ->
  ds_ub (final r) <> ub0 ->
  exists sol sel, In sol (ds_reports (final r)) /\ svalid (di_inst i) sol /\ ssol_items sol = cnumber_of_items (dbase i)
    /\ selects i sel /\ total_bins sol <= zsum (fun t => nth t sel 0) (dtypes i).
Proof.
  intros fuel i o initial ub0 r Hi Ho E Hne. destruct (dichotomic_final _ _ _ _ _ _ Hi E) as (s1 & _ & D1 & B & D & K).
  assert (Hub : ds_ub (final r) = ds_ub s1) by (destruct K as [->|[->|(_ & _ & K & _)]]; [reflexivity|reflexivity|exact K]).
  assert (Hm : forall e, In e (ds_memory s1) -> In e (ds_memory (final r))) by (destruct K as [->|[->|(_ & _ & _ & K)]]; [auto|auto|exact K]).
  destruct B as [_ [B|(c & Hc)]]; [congruence|]. apply Hm in Hc. destruct (di_true i o _ D _ Hc Ho) as (sol & S1 & S2 & S3).
  exists sol, (dselection i (dkp i (dcapacity i (ds_ub s1))) c). split; [exact S1|]. split; [exact (di_valid i o _ D Ho sol S1)|]. split; [exact S2|]. split; [exact (di_selects i o _ D _ _ Hc)|exact S3].
Qed.

(** No set of bins is tried twice: there is one solution reported by set of bins
    tried. *)
Theorem C34_memory : forall fuel i o initial ub0 r, dinst_ok i -> dichotomic fuel i o initial ub0 = Some r ->
  NoDup (map fst (ds_memory (final r))) /\ length (ds_reports (final r)) = length (ds_memory (final r)) /\ (forall sel v, In (sel, v) (ds_memory (final r)) -> selects i sel).
Proof.
  intros fuel i o initial ub0 r Hi E. destruct (dichotomic_final _ _ _ _ _ _ Hi E) as (s1 & _ & _ & _ & D & _).
  split; [exact (di_nodup i o _ D)|split; [symmetry; exact (di_count i o _ D)|exact (di_selects i o _ D)]].
Qed.

(** The interval: at every turn the lower bound does not decrease, the upper bound
    does not increase, and once both are finite its width is halved. *)
Theorem C34_interval : forall i o initial ub0 s s', dinst_ok i -> (0 < initial)%Q -> waste_ok ub0 ->
  steps i o initial (dstart ub0) s -> dcontinue (ds_lb s) (ds_ub s) = true -> dturn i o initial s = inl s' ->
  ext_le (Fin 0) (ds_lb s) /\ ext_le (ds_lb s) (ds_lb s') /\ ext_le (ds_ub s') (ds_ub s)
  /\ (forall l u, ds_lb s = Fin l -> ds_ub s = Fin u -> exists l' u', ds_lb s' = Fin l' /\ ds_ub s' = Fin u' /\ (l <= l')%Q /\ (l' <= u')%Q /\ (u' <= u)%Q /\ (u' - l' == (u - l) / 2)%Q).
Proof.
  intros i o initial ub0 s s' Hi Hin Hu St C T.
  assert (D : DInv i o s) by (apply (steps_dinv i o initial Hi _ _ St); apply dinv_start).
  assert (W : waste_ok (ds_lb s) /\ waste_ok (ds_ub s)).
  { cut (DInv i o s /\ waste_ok (ds_lb s) /\ waste_ok (ds_ub s)); [tauto|]. revert St. generalize (conj (dinv_start i o ub0) (conj (Qle_refl 0 : waste_ok (ds_lb (dstart ub0))) (Hu : waste_ok (ds_ub (dstart ub0))))).
    intros K St. revert K. revert St. generalize (dstart ub0), s. clear -Hi Hin.
    apply (steps_inv i o initial (fun s => DInv i o s /\ waste_ok (ds_lb s) /\ waste_ok (ds_ub s))). intros s s' (D & L & U) C T.
    pose proof (dturn_inv i o initial Hi s D) as V. cbv zeta in V. rewrite T in V. destruct V as (D' & _ & (c & V) & _). split; [exact D'|].
    destruct (ds_lb s) as [l|] eqn:El; [|destruct (ds_ub s); discriminate C]. pose proof (dwaste_between initial Hin l (ds_ub s) L U C) as W.
    assert (Hw : waste_ok (dwaste initial (Fin l) (ds_ub s))). { cbn [waste_ok] in L. destruct (dwaste initial (Fin l) (ds_ub s)); cbn [waste_ok]; [lra|exact I]. }
    destruct V as [(_ & V2 & V3)|(_ & V2 & V3)]; rewrite V2, V3; split; assumption. }
  destruct W as [L U]. destruct (ds_lb s) as [l|] eqn:El; [|destruct (ds_ub s); discriminate C].
  pose proof (dwaste_between initial Hin l (ds_ub s) L U C) as W. cbn [waste_ok] in L.
  pose proof (dturn_inv i o initial Hi s D) as V. cbv zeta in V. rewrite T, El in V. destruct V as (_ & _ & (c & V) & _).
  split; [exact L|].
  assert (R : forall e, ext_le e e) by (intros [q|]; cbn; [apply Qle_refl|exact I]).
  split; [|split].
  - destruct V as [(_ & -> & _)|(_ & -> & _)]; [apply R|]. destruct (dwaste initial (Fin l) (ds_ub s)); cbn [ext_le]; [lra|exact I].
  - destruct V as [(_ & _ & ->)|(_ & _ & ->)]; [|apply R]. destruct (dwaste initial (Fin l) (ds_ub s)); destruct (ds_ub s); cbn [ext_le]; try exact I; [lra|destruct W; discriminate].
  - intros l0 u El0 Eu. injection El0 as <-. rewrite Eu in U. apply (finite_halves i o initial Hi Hin s l u s' D El Eu L U); [rewrite <- Eu; exact C|exact T].
Qed.

(** The search ends, for every instance and every solver, in a number of turns
    that depends only on the initial waste and on the initial upper bound: the
    bins have a positive space, the items fill at least one unit, the spaces are
    64-bit integers. *)
Theorem C34_terminates : forall initial ub0, (0 < initial)%Q -> (initial <= dbl_max)%Q -> ext_le (Fin 0) ub0 ->
  exists N, forall i o, dinst_ok i -> (forall t, (t < cnb (dbase i))%nat -> 0 < dspace i t) -> 1 <= di_item_space i -> dbin_space i - dbin_min_space i <= 2 ^ 63 ->
    dichotomic N i o initial ub0 <> None.
Proof.
  intros initial ub0 H1 H2 H0. destruct (turns_bound initial ub0 H1 H2 H0) as [N HN]. exists N. intros i o Hi Hs Hit Hb. unfold dichotomic.
  destruct (cni (dbase i) =? 0)%nat; [discriminate|apply HN; assumption].
Qed.

(** With no initial waste it may not end. *)
Definition zero_inst : DInst := mkDI (mkSI (mkCN OVariableSizedBinPacking [mkCB 1 1 0 []] [mkCI 1 2 2 0] 1 1) [10]) 12.
Definition useless : DOracle := mkDO (fun _ _ _ _ => false) (fun _ _ => []) (fun _ => false).
Theorem C34_zero_initial_refuted : dinst_ok zero_inst /\ dhonest zero_inst useless /\ forall N, dichotomic N zero_inst useless 0 Inf = None.
Proof.
  split; [intros [|[|t]] Ht; cbn in *; lia|]. split.
  - split; [intros ? ? ? []| |].
    + intros c bins p Hp H0. exact H0.
    + intros c bins [|[|x]] Hx; cbn in *; lia.
  - intro N. unfold dichotomic. cbn [cni dbase zero_inst di_inst si_base cn_items length Nat.eqb].
    assert (G : forall N c, dloop N zero_inst useless 0 (mkDS (Fin 0) Inf [([0], false)] [[]] c) = None).
    { clear N. induction N as [|N IH]; intro c; [reflexivity|]. cbn [dloop ds_lb ds_ub dcontinue]. exact (IH (S c)). }
    destruct N as [|N]; [reflexivity|]. exact (G N 1%nat).
Qed.

(** ** The sets of bins tried *)

(** A knapsack solver that respects the capacity. *)
Definition khonest (i : DInst) (o : DOracle) : Prop := forall c capacity kp, 0 <= capacity ->
  zsum (fun p => if do_contains o c capacity kp p then dspace i (nth p kp O) else 0) (seq 0 (length kp)) <= capacity.

Lemma zsum_occ : forall n (f : nat -> Z) l, (forall x, In x l -> (x < n)%nat) -> zsum f l = zsum (fun t => occ l t * f t) (seq 0 n).
Proof.
  intros n f. induction l as [|a l IH]; intros H.
  - symmetry. induction (seq 0 n) as [|b m IHm]; [reflexivity|]. rewrite zsum_cons, IHm. reflexivity.
  - rewrite zsum_cons, IH by (intros; apply H; right; assumption). specialize (H a (or_introl eq_refl)).
    rewrite (zsum_ext _ (fun t => occ (a :: l) t * f t) (fun t => (if (a =? t)%nat then f t else 0) + occ l t * f t)).
    + rewrite zsum_plus. f_equal. symmetry. clear -H.
      assert (G : forall m k, (m <= a < m + k)%nat -> zsum (fun t => if (a =? t)%nat then f t else 0) (seq m k) = f a).
      { intros m k. revert m. induction k as [|k IHk]; intros m Hm; [lia|]. cbn [seq]. rewrite zsum_cons. destruct (Nat.eqb_spec a m) as [->|N].
        - assert (Z0 : forall k m', (m < m')%nat -> zsum (fun t => if (m =? t)%nat then f t else 0) (seq m' k) = 0).
          { induction k0 as [|k0 IH0]; intros m' L; [reflexivity|]. cbn [seq]. rewrite zsum_cons, IH0 by lia. destruct (Nat.eqb_spec m m'); lia. }
          rewrite Z0 by lia. lia.
        - rewrite IHk by lia. lia. }
      apply G. lia.
    + intros t _. rewrite occ_cons. destruct (a =? t)%nat; lia.
Qed.

Definition kept_list (kp : list nat) (contains : nat -> bool) : list nat := map (fun p => nth p kp O) (filter (fun p => negb (contains p)) (seq 0 (length kp))).

Lemma zsum_filter : forall A (f : A -> Z) (q : A -> bool) l, zsum f (filter q l) = zsum (fun x => if q x then f x else 0) l.
Proof. intros A f q. induction l as [|a l IH]; [reflexivity|]. cbn [filter]. rewrite zsum_cons, <- IH. destruct (q a); [apply zsum_cons|lia]. Qed.

Lemma occ_zsum : forall l t, occ l t = zsum (fun a => if (a =? t)%nat then 1 else 0) l.
Proof. induction l as [|a l IH]; intro t; [reflexivity|]. rewrite occ_cons, zsum_cons, IH. destruct (a =? t)%nat; reflexivity. Qed.

Lemma kept_occ : forall kp contains t, occ (kept_list kp contains) t = dkept kp contains t.
Proof.
  intros kp contains t. rewrite occ_zsum. unfold kept_list, dkept. rewrite zsum_map, zsum_filter. apply zsum_ext. intros p _. destruct (nth p kp O =? t)%nat, (contains p); reflexivity.
Qed.

Lemma kept_sum : forall f kp contains, zsum f (kept_list kp contains) + zsum (fun p => if contains p then f (nth p kp O) else 0) (seq 0 (length kp)) = zsum f kp.
Proof.
  intros f kp contains. unfold kept_list. rewrite zsum_map, zsum_filter, <- zsum_plus.
  rewrite (zsum_ext _ _ (fun p => f (nth p kp O))) by (intros p _; destruct (contains p); cbn; lia).
  induction kp as [|a l IH] using rev_ind; [reflexivity|]. rewrite app_length. cbn [length]. rewrite Nat.add_1_r, seq_S, !zsum_snoc. cbn [Nat.add].
  rewrite app_nth2, Nat.sub_diag by lia. cbn [nth]. rewrite <- IH. f_equal. apply zsum_ext. intros p Hp. apply in_seq in Hp. rewrite app_nth1 by lia. reflexivity.
Qed.

Lemma kp_types : forall i capacity x, In x (dkp i capacity) -> (x < cnb (dbase i))%nat /\ dspace i x <= capacity.
Proof.
  intros i capacity x H. unfold dkp in H. apply in_flat_map in H. destruct H as (t & Ht & H). apply in_seq in Ht. destruct (Z.ltb_spec capacity (dspace i t)); [destruct H|].
  apply repeat_spec in H. subst. split; [lia|assumption].
Qed.

Lemma kept_types : forall i capacity contains x, In x (kept_list (dkp i capacity) contains) -> (x < cnb (dbase i))%nat.
Proof.
  intros i capacity contains x H. apply in_map_iff in H. destruct H as (p & <- & Hp). apply filter_In in Hp. destruct Hp as [Hp _]. apply in_seq in Hp.
  apply (kp_types i capacity). apply nth_In. lia.
Qed.

(** The space selected: that of the bins, less that of the bins removed and of
    those that do not fit in the knapsack. *)
Lemma selected_space : forall i capacity contains, dinst_ok i -> (forall t, (t < cnb (dbase i))%nat -> cb_copies_min (cbin (dbase i) t) < cb_copies (cbin (dbase i) t) -> dspace i t <= capacity) ->
  zsum (fun t => nth t (dselection i (dkp i capacity) contains) 0 * dspace i t) (dtypes i)
  = dbin_space i - zsum (fun p => if contains p then dspace i (nth p (dkp i capacity) O) else 0) (seq 0 (length (dkp i capacity))).
Proof.
  intros i capacity contains Hi Hfit.
  pose proof (kept_sum (dspace i) (dkp i capacity) contains) as K.
  rewrite (zsum_occ (cnb (dbase i)) (dspace i) (kept_list _ _)) in K by apply kept_types. rewrite (zsum_occ (cnb (dbase i)) (dspace i) (dkp i capacity)) in K by (intros x Hx; apply (kp_types _ _ _ Hx)).
  rewrite (zsum_ext _ _ (fun t => cb_copies_min (cbin (dbase i) t) * dspace i t + occ (kept_list (dkp i capacity) contains) t * dspace i t) (dtypes i)).
  2:{ intros t Ht. apply in_seq in Ht. rewrite dselection_nth by lia. rewrite kept_occ. lia. }
  rewrite zsum_plus. unfold dtypes.
  assert (E : zsum (fun t => occ (dkp i capacity) t * dspace i t) (seq 0 (cnb (dbase i))) = dbin_space i - dbin_min_space i).
  { unfold dbin_space, dbin_min_space, dtypes.
    rewrite (zsum_ext _ (fun t => cb_copies (cbin (dbase i) t) * dspace i t) (fun t => cb_copies_min (cbin (dbase i) t) * dspace i t + occ (dkp i capacity) t * dspace i t)); [rewrite zsum_plus; lia|].
    intros t Ht. apply in_seq in Ht. rewrite (dkp_occ i Hi) by lia. specialize (Hi t ltac:(lia)). specialize (Hfit t ltac:(lia)).
    destruct (Z.ltb_spec capacity (dspace i t)); [replace (cb_copies (cbin (dbase i) t)) with (cb_copies_min (cbin (dbase i) t)) by lia|]; lia. }
  unfold dbin_min_space, dtypes in E. lia.
Qed.

(** When every bin type with optional copies fits in the knapsack, the bins tried
    for a waste have at least the space of the items increased by this waste. *)
Theorem C34_selection : forall i o c w, dinst_ok i -> khonest i o -> (0 <= w)%Q -> 0 <= di_item_space i -> (forall t, (t < cnb (dbase i))%nat -> 0 <= dspace i t) ->
  let capacity := dcapacity i (Fin w) in
  (forall t, (t < cnb (dbase i))%nat -> cb_copies_min (cbin (dbase i) t) < cb_copies (cbin (dbase i) t) -> dspace i t <= capacity) ->
  let sel := dselection i (dkp i capacity) (do_contains o c capacity (dkp i capacity)) in
  (inject_Z (di_item_space i) * (1 + w) <= inject_Z (zsum (fun t => nth t sel 0%Z * dspace i t)%Z (dtypes i)))%Q
  \/ zsum (fun t => nth t sel 0 * dspace i t) (dtypes i) = dbin_space i.
Proof.
  intros i o c w Hi Hk Hw Hit Hs capacity Hfit sel. unfold sel. rewrite (selected_space i capacity _ Hi Hfit).
  assert (Hc : 0 <= capacity) by (unfold capacity; cbn [dcapacity]; lia). specialize (Hk c capacity (dkp i capacity) Hc).
  set (R := zsum _ (seq 0 (length (dkp i capacity)))) in *.
  assert (R0 : 0 <= R). { apply zsum_nonneg. intros p Hp. destruct (do_contains o c capacity (dkp i capacity) p); [|lia]. apply in_seq in Hp. apply Hs. apply (kp_types i capacity). apply nth_In. lia. }
  assert (Hmin : 0 <= dbin_min_space i). { apply zsum_nonneg. intros t Ht. apply in_seq in Ht. specialize (Hi t ltac:(lia)). specialize (Hs t ltac:(lia)). nia. }
  unfold capacity in Hk. cbn [dcapacity] in Hk. set (x := (inject_Z (dbin_space i - dbin_min_space i) - inject_Z (di_item_space i) * (1 + w))%Q) in *.
  destruct (Z.eq_dec R 0) as [->|Hn]; [right; lia|left].
  assert (Hx : R <= qtrunc x) by lia. assert (Hx' : (inject_Z R <= x)%Q).
  { clear -Hx Hn R0. destruct x as [n d]. unfold qtrunc in Hx. cbn [Qnum Qden] in Hx. unfold Qle. cbn [Qnum Qden inject_Z]. 
    assert (0 <= n). { destruct (Z.le_gt_cases 0 n); [assumption|]. exfalso. replace n with (- (- n)) in Hx by lia. rewrite Z.quot_opp_l in Hx by lia. pose proof (Z.quot_pos (- n) (Zpos d) ltac:(lia) ltac:(lia)). lia. }
    rewrite Z.quot_div_nonneg in Hx by lia. pose proof (Z.mul_div_le n (Zpos d) ltac:(lia)). nia. }
  unfold x in Hx'. unfold Z.sub in *. rewrite !inject_Z_plus, !inject_Z_opp in *.
  assert (Hm : (0 <= inject_Z (dbin_min_space i))%Q) by (change 0%Q with (inject_Z 0); rewrite <- Zle_Qle; exact Hmin). lra.
Qed.

(** ** The search never notices that it cannot succeed *)

Lemma zsum_zero_all : forall A (f : A -> Z) l, (forall x, In x l -> 0 <= f x) -> zsum f l = 0 -> forall x, In x l -> f x = 0.
Proof.
  intros A f. induction l as [|a l IH]; intros H E x Hx; [destruct Hx|]. rewrite zsum_cons in E.
  pose proof (zsum_nonneg _ f l (fun y Hy => H y (or_intror Hy))) as N. pose proof (H a (or_introl eq_refl)) as Ha.
  destruct Hx as [<-|Hx]; [lia|]. apply IH; [intros y Hy; apply H; right; exact Hy|lia|exact Hx].
Qed.

Lemma zsum_list_nth : forall A (f : A -> Z) d l, zsum f l = zsum (fun p => f (nth p l d)) (seq 0 (length l)).
Proof.
  intros A f d. induction l as [|a l IH] using rev_ind; [reflexivity|]. rewrite app_length. cbn [length]. rewrite Nat.add_1_r, seq_S, !zsum_snoc. cbn [Nat.add].
  rewrite app_nth2, Nat.sub_diag by lia. cbn [nth]. rewrite IH. f_equal. apply zsum_ext. intros p Hp. apply in_seq in Hp. rewrite app_nth1 by lia. reflexivity.
Qed.

Lemma removed_sum : forall kp contains, dremoved kp contains = zsum (fun p => if contains p then 1 else 0) (seq 0 (length kp)).
Proof. intros kp contains. unfold dremoved. generalize (seq 0 (length kp)). induction l as [|a l IH]; [reflexivity|]. rewrite zsum_cons, <- IH. cbn [filter]. destruct (contains a); cbn [length]; lia. Qed.

(** The test that stops the search when nothing is found never holds: a knapsack
    of the capacity used cannot remove all the bins. *)
Theorem C34_never_gives_up : forall i o c w, dinst_ok i -> khonest i o -> (0 <= w)%Q -> 1 <= di_item_space i -> (forall t, (t < cnb (dbase i))%nat -> 0 < dspace i t) -> 1 <= cnumber_of_bins (dbase i) ->
  forall waste, waste = Fin w \/ waste = Inf ->
  dremoved (dkp i (dcapacity i waste)) (do_contains o c (dcapacity i waste) (dkp i (dcapacity i waste))) <> cnumber_of_bins (dbase i).
Proof.
  intros i o c w Hi Hk Hw Hit Hs Hb waste Hwaste E. set (capacity := dcapacity i waste) in *. set (kp := dkp i capacity) in *. set (contains := do_contains o c capacity kp) in *.
  assert (Hc : 0 <= capacity) by (unfold capacity; destruct waste; cbn [dcapacity]; lia). specialize (Hk c capacity kp Hc). fold contains in Hk.
  pose proof (kept_sum (dspace i) kp contains) as K1. pose proof (kept_sum (fun _ => 1) kp contains) as K2. rewrite <- removed_sum in K2. rewrite E in K2.
  assert (T1 : forall x, In x (kept_list kp contains) -> (x < cnb (dbase i))%nat) by apply kept_types.
  assert (T2 : forall x, In x kp -> (x < cnb (dbase i))%nat) by (intros x Hx; apply (kp_types _ _ _ Hx)).
  rewrite (zsum_occ (cnb (dbase i)) (dspace i) _ T1), (zsum_occ (cnb (dbase i)) (dspace i) _ T2) in K1.
  rewrite (zsum_occ (cnb (dbase i)) (fun _ => 1) _ T1), (zsum_occ (cnb (dbase i)) (fun _ => 1) _ T2) in K2.
  assert (N : cnumber_of_bins (dbase i) = zsum (fun t => cb_copies (cbin (dbase i) t)) (seq 0 (cnb (dbase i)))) by apply zsum_list_nth.
  assert (Z0 : forall t, (t < cnb (dbase i))%nat -> cb_copies (cbin (dbase i) t) - (occ kp t - occ (kept_list kp contains) t) = 0).
  { intros t Ht. apply (zsum_zero_all _ (fun t => cb_copies (cbin (dbase i) t) - (occ kp t - occ (kept_list kp contains) t)) (seq 0 (cnb (dbase i)))).
    - intros u Hu. apply in_seq in Hu. rewrite kept_occ. pose proof (dkept_le kp contains u) as L. assert (O1 : occ kp u = if capacity <? dspace i u then 0 else cb_copies (cbin (dbase i) u) - cb_copies_min (cbin (dbase i) u)) by (apply (dkp_occ i Hi); lia). rewrite O1 in *. specialize (Hi u ltac:(lia)). destruct (capacity <? dspace i u); lia.
    - rewrite (zsum_ext _ _ (fun t => cb_copies (cbin (dbase i) t) + (-1) * (occ kp t * 1) + occ (kept_list kp contains) t * 1)) by (intros; lia). rewrite !zsum_plus, <- N.
      rewrite (zsum_mult _ (fun x => occ kp x * 1)). lia.
    - apply in_seq. lia. }
  assert (R : zsum (fun p => if contains p then dspace i (nth p kp O) else 0) (seq 0 (length kp)) = dbin_space i).
  { unfold dbin_space, dtypes. rewrite (zsum_ext _ _ (fun t => occ kp t * dspace i t + (-1) * (occ (kept_list kp contains) t * dspace i t)) (seq 0 (cnb (dbase i)))).
    - rewrite zsum_plus. rewrite (zsum_mult _ (fun x => occ (kept_list kp contains) x * dspace i x)). lia.
    - intros t Ht. apply in_seq in Ht. specialize (Z0 t ltac:(lia)). nia. }
  assert (P : cnumber_of_bins (dbase i) <= dbin_space i).
  { rewrite N. unfold dbin_space, dtypes. apply zsum_le. intros t Ht. apply in_seq in Ht. specialize (Hi t ltac:(lia)). specialize (Hs t ltac:(lia)). nia. }
  assert (Hmin : 0 <= dbin_min_space i). { apply zsum_nonneg. intros t Ht. apply in_seq in Ht. specialize (Hi t ltac:(lia)). specialize (Hs t ltac:(lia)). nia. }
  rewrite R in Hk. destruct Hwaste as [-> | ->]; unfold capacity in Hk; cbn [dcapacity] in Hk; [|lia].
  set (x := (inject_Z (dbin_space i - dbin_min_space i) - inject_Z (di_item_space i) * (1 + w))%Q) in *.
  assert (Hx : dbin_space i <= qtrunc x) by lia. assert (Hx' : (inject_Z (dbin_space i) <= x)%Q).
  { clear -Hx Hb P. destruct x as [n d]. unfold qtrunc in Hx. cbn [Qnum Qden] in Hx. unfold Qle. cbn [Qnum Qden inject_Z]. 
    assert (0 <= n). { destruct (Z.le_gt_cases 0 n); [assumption|]. exfalso. replace n with (- (- n)) in Hx by lia. rewrite Z.quot_opp_l in Hx by lia. pose proof (Z.quot_pos (- n) (Zpos d) ltac:(lia) ltac:(lia)). lia. }
    rewrite Z.quot_div_nonneg in Hx by lia. pose proof (Z.mul_div_le n (Zpos d) ltac:(lia)). nia. }
  unfold x in Hx'. unfold Z.sub in *. rewrite !inject_Z_plus, !inject_Z_opp in *.
  assert (Hm : (0 <= inject_Z (dbin_min_space i))%Q) by (change 0%Q with (inject_Z 0); rewrite <- Zle_Qle; exact Hmin).
  assert (Hs1 : (1 <= inject_Z (di_item_space i))%Q) by (change 1%Q with (inject_Z 1); rewrite <- Zle_Qle; exact Hit).
  revert Hx' Hm Hs1. generalize (inject_Z (dbin_space i)), (inject_Z (dbin_min_space i)), (inject_Z (di_item_space i)). intros. nra.
Qed.

Lemma pw_le : forall a b, (a <= b)%nat -> (pw a <= pw b)%Q.
Proof. intros a b L. unfold pw. rewrite <- Zle_Qle. apply Z.pow_le_mono_r; lia. Qed.

(** On an instance whose items do not fit in its bins, the search stops only when
    the waste has doubled beyond the largest number (or when the timer ends it). *)
Theorem C34_infeasible_overflows : forall fuel i o initial s, dinst_ok i -> khonest i o -> (0 < initial)%Q ->
  1 <= di_item_space i -> (forall t, (t < cnb (dbase i))%nat -> 0 < dspace i t) -> 1 <= cnumber_of_bins (dbase i) -> (1 <= cni (dbase i))%nat ->
  (forall c, do_end o c = false) ->
  (forall c bins, ssol_items (do_solve o c bins) <> cnumber_of_items (dbase i)) ->
  dichotomic fuel i o initial Inf = Some (DEnd s) ->
  ds_lb s = Inf /\ ds_ub s = Inf /\ forall k, (initial * pw k <= dbl_max)%Q -> (k < ds_call s)%nat.
Proof.
  intros fuel i o initial s Hi Hk Hin Hit Hs Hb Hni Hend Hfail E. unfold dichotomic in E. rewrite (proj2 (Nat.eqb_neq _ _)) in E by lia.
  set (P := fun s => (forall sel v, In (sel, v) (ds_memory s) -> v = false) /\ ds_ub s = Inf /\
     ((ds_lb s = Fin 0 /\ ds_call s = O) \/ (exists l c, ds_lb s = Fin l /\ (0 < l)%Q /\ ds_call s = S c /\ (l == initial * pw c)%Q)
      \/ (exists c, ds_lb s = Inf /\ ds_call s = S c /\ (dbl_max < initial * pw c)%Q))).
  assert (Turn : forall s, P s -> dcontinue (ds_lb s) (ds_ub s) = true ->
    match dturn i o initial s with inl s' => P s' | inr (DEnd _) => False | inr (DThrow _) => True end).
  { clear s E. intros s (M & U & L) C.
    assert (W : (forall c, dremoved (dkp i (dcapacity i (dwaste initial (ds_lb s) (ds_ub s)))) (do_contains o c (dcapacity i (dwaste initial (ds_lb s) (ds_ub s))) (dkp i (dcapacity i (dwaste initial (ds_lb s) (ds_ub s))))) <> cnumber_of_bins (dbase i))
      /\ ((exists l, dwaste initial (ds_lb s) (ds_ub s) = Fin l /\ (0 < l)%Q /\ (l == initial * pw (ds_call s))%Q) \/ (dwaste initial (ds_lb s) (ds_ub s) = Inf /\ (dbl_max < initial * pw (ds_call s))%Q))).
    { rewrite U in C |- *. destruct L as [[L Lc]|[(l & c & L & Lp & Lc & Le)|(c & L & _)]]; [| |rewrite L in C; discriminate C]; rewrite L, Lc.
      - cbn [dwaste]. change (Qeq_bool 0 0) with true. cbv iota. split; [|left; exists initial; split; [reflexivity|split; [exact Hin|change (pw 0) with 1%Q; ring]]].
        intro c. apply (C34_never_gives_up i o c initial Hi Hk (Qlt_le_weak _ _ Hin) Hit Hs Hb). left. reflexivity.
      - pose proof (dwaste_between initial Hin l Inf (Qlt_le_weak _ _ Lp) I eq_refl) as W. destruct (dwaste initial (Fin l) Inf) as [w|] eqn:Ew.
        + destruct W as [W1 [[W2 _]|(W2 & W3 & W4)]]; [lra|]. split.
          * intro c'. apply (C34_never_gives_up i o c' w Hi Hk ltac:(lra) Hit Hs Hb). left. reflexivity.
          * left. exists w. split; [reflexivity|]. split; [lra|]. rewrite W3, Le, pw_S. ring.
        + destruct W as [_ W]. split.
          * intro c'. apply (C34_never_gives_up i o c' initial Hi Hk (Qlt_le_weak _ _ Hin) Hit Hs Hb). right. reflexivity.
          * right. split; [reflexivity|]. rewrite Le in W. rewrite pw_S. setoid_replace (initial * (2 * pw c))%Q with (initial * pw c * 2)%Q by ring. exact W. }
    destruct W as [W1 W2]. unfold dturn. cbv zeta. rewrite Hend. set (waste := dwaste initial (ds_lb s) (ds_ub s)) in *.
    set (kp := dkp i (dcapacity i waste)) in *. specialize (W1 (ds_call s)). set (contains := do_contains o (ds_call s) (dcapacity i waste) kp) in *.
    set (sel := dselection i kp contains). rewrite (proj2 (Z.eqb_neq _ _) W1).
    assert (New : forall memory reports, (forall sel v, In (sel, v) memory -> v = false) -> P (mkDS waste (ds_ub s) memory reports (S (ds_call s)))).
    { intros memory reports Hm. split; [exact Hm|]. split; [exact U|]. cbn [ds_lb ds_call]. right. destruct W2 as [(l & -> & Wp & We)|[-> We]].
      - left. exists l, (ds_call s). repeat split; assumption.
      - right. exists (ds_call s). repeat split; assumption. }
    destruct (dlookup sel (ds_memory s)) as [v|] eqn:El.
    - apply dlookup_in in El. apply M in El. subst v. apply New. exact M.
    - destruct (dbpp i sel) as [[bins number]|]; [|exact I]. destruct (dtranslate bins (do_solve o (ds_call s) bins)) as [sol|]; [|exact I].
      rewrite (proj2 (Z.eqb_neq _ _) (Hfail _ _)). cbn [andb]. apply New. intros sel' v Hv. apply in_app_or in Hv. destruct Hv as [Hv|[Hv|[]]]; [exact (M _ _ Hv)|]. injection Hv as _ <-. reflexivity. }
  destruct (dloop_steps _ _ _ _ _ _ E) as (s1 & St & K).
  assert (P1 : P s1).
  { apply (steps_inv i o initial P) with (s := dstart Inf); [|exact St|].
    - intros a b Pa C T. specialize (Turn a Pa C). rewrite T in Turn. exact Turn.
    - split; [intros ? ? []|]. split; [reflexivity|]. left. split; reflexivity. }
  destruct K as [[C K]|[C T]]; [|specialize (Turn s1 P1 C); rewrite T in Turn; destruct Turn].
  injection K as ->. destruct P1 as (_ & U & L). rewrite U in C. destruct L as [[L _]|[(l & c & L & _)|(c & L & Lc & Le)]]; [rewrite L in C; discriminate C|rewrite L in C; discriminate C|].
  split; [exact L|]. split; [exact U|]. intros k Hle. rewrite Lc. destruct (Nat.le_gt_cases c k) as [G|G]; [|lia]. exfalso. pose proof (pw_le c k G) as Q1. nra.
Qed.

(** With no mandatory bin, the search throws no exception. *)
Theorem C34_no_exception : forall fuel i o initial ub0 r, dinst_ok i -> dhonest i o -> (forall t, (t < cnb (dbase i))%nat -> cb_copies_min (cbin (dbase i) t) = 0) ->
  dichotomic fuel i o initial ub0 = Some r -> exists s, r = DEnd s.
Proof.
  intros fuel i o initial ub0 r Hi Ho H0 E. unfold dichotomic in E. destruct (cni (dbase i) =? 0)%nat; [injection E as <-; eexists; reflexivity|].
  destruct (dloop_steps _ _ _ _ _ _ E) as (s1 & _ & [[_ ->]|[_ T]]); [eexists; reflexivity|]. unfold dturn in T. cbv zeta in T.
  destruct (do_end o (ds_call s1)); [injection T as <-; eexists; reflexivity|].
  match type of T with match dlookup ?x _ with _ => _ end = _ => set (sel := x) in * end.
  destruct (dlookup sel (ds_memory s1)) as [[|]|].
  - discriminate T.
  - destruct (_ =? _); [injection T as <-; eexists; reflexivity|discriminate T].
  - destruct (dbpp i sel) as [[bins number]|] eqn:Eb.
    + destruct (dtranslate bins (do_solve o (ds_call s1) bins)) as [sol|] eqn:Et.
      * destruct (_ && _); [discriminate T|]. destruct (_ =? _); [injection T as <-; eexists; reflexivity|discriminate T].
      * exfalso. unfold dtranslate in Et. destruct (forallb _ _) eqn:F; [discriminate|]. apply not_true_iff_false in F. apply F. apply forallb_forall. intros b Hbin. apply Nat.ltb_lt. apply (dh_bins i o Ho _ _ _ Hbin).
    + exfalso. unfold dbpp in Eb. destruct (dgroup i (fun t => nth t sel 0)) eqn:E1; [destruct (dgroup i (fun t => cb_copies (cbin (dbase i) t) - nth t sel 0)) eqn:E2; [discriminate|]|].
      * revert E2. apply dgroup_defined. intros t Ht Hp. rewrite H0 by exact Ht. lia.
      * revert E1. apply dgroup_defined. intros t Ht Hp. rewrite H0 by exact Ht. lia.
Qed.

(** A solver that puts one copy of item 0 in the bin at position [p], if there is one. *)
Definition put_at (p : nat) : DOracle :=
  mkDO (fun _ _ _ _ => false) (fun _ bins => if (p <? length bins)%nat && (1 <=? snd (nth p bins (O, 0))) then [(p, 1, [O])] else []) (fun _ => false).

Lemma put_at_honest : forall p i, (1 <= cni (dbase i))%nat -> 1 <= ci_copies (citem (dbase i) O) -> (forall x, (x < cni (dbase i))%nat -> 0 <= ci_copies (citem (dbase i) x)) -> dhonest i (put_at p).
Proof.
  intros p i H1 H2 H3. split; cbn [do_solve put_at].
  - intros c bins b Hb. destruct (Nat.ltb_spec p (length bins)) as [L|L]; [|destruct Hb]. cbn [andb] in Hb. destruct (1 <=? snd (nth p bins (O, 0))); [|destruct Hb]. destruct Hb as [<-|[]].
    unfold b_type, b_copies, b_items. cbn [fst snd]. split; [exact L|]. split; [lia|]. intros x [<-|[]]. lia.
  - intros c bins q Hq H0. destruct (Nat.ltb_spec p (length bins)) as [L|L]; [|exact H0]. cbn [andb]. destruct (Z.leb_spec 1 (snd (nth p bins (O, 0)))) as [K|K]; [|exact H0].
    unfold used_bins. rewrite zsum_cons. unfold b_type, b_copies. cbn [fst snd]. destruct (Nat.eqb_spec p q) as [<-|_]; cbn; lia.
  - intros c bins x Hx. pose proof (H3 x Hx) as H0. destruct (Nat.ltb_spec p (length bins)) as [L|L]; [|exact H0]. cbn [andb]. destruct (Z.leb_spec 1 (snd (nth p bins (O, 0)))) as [K|K]; [|exact H0].
    unfold used_items. rewrite zsum_cons. unfold b_copies, b_items. cbn [fst snd]. rewrite occ_cons. destruct (Nat.eqb_spec 0 x) as [<-|_]; cbn; lia.
Qed.

Lemma khonest_none : forall i p, khonest i (put_at p).
Proof.
  intros i p c capacity kp H. cbn [do_contains put_at]. rewrite (zsum_ext _ _ (fun _ => 0 * 1)) by reflexivity. rewrite (zsum_mult _ (fun _ => 1)). lia.
Qed.

(** A bin type whose space exceeds the capacity of the knapsack counts as removed:
    with one bin of space 10 and one item of space 9, the single solution tried
    packs the item in the bin and is not recognised as a success. *)
Definition skip_inst : DInst := mkDI (mkSI (mkCN OVariableSizedBinPacking [mkCB 1 1 0 []] [mkCI 1 1 1 0] 1 1) [10]) 9.
Theorem C34_skip_refuted : dinst_ok skip_inst /\ dhonest skip_inst (put_at 0) /\ khonest skip_inst (put_at 0)
  /\ exists s, dichotomic 1100 skip_inst (put_at 0) (1 # 10) Inf = Some (DEnd s)
     /\ ds_lb s = Inf /\ ds_ub s = Inf /\ ds_reports s = [[(O, 1, [O])]] /\ ssol_items [(O, 1, [O])] = cnumber_of_items (dbase skip_inst) /\ (1000 < ds_call s)%nat.
Proof.
  split; [intros [|t] Ht; cbn in *; lia|]. split; [apply put_at_honest; [cbn; lia|cbn; lia|intros [|x] Hx; cbn in *; lia]|]. split; [apply khonest_none|].
  destruct (dichotomic 1100 skip_inst (put_at 0) (1 # 10) Inf) as [[s|s]|] eqn:E.
  - exists s. split; [reflexivity|].
    assert (K : match dichotomic 1100 skip_inst (put_at 0) (1 # 10) Inf with Some (DEnd s) => (ds_lb s, ds_ub s, ds_reports s, (1000 <? ds_call s)%nat) | _ => (Inf, Inf, [], false) end = (Inf, Inf, [[(O, 1, [O])]], true)) by (vm_compute; reflexivity).
    rewrite E in K. injection K as K1 K2 K3 K4. apply Nat.ltb_lt in K4. repeat split; assumption.
  - exfalso. assert (K : match dichotomic 1100 skip_inst (put_at 0) (1 # 10) Inf with Some (DEnd s) => true | _ => false end = true) by (vm_compute; reflexivity). rewrite E in K. discriminate.
  - exfalso. assert (K : match dichotomic 1100 skip_inst (put_at 0) (1 # 10) Inf with Some (DEnd s) => true | _ => false end = true) by (vm_compute; reflexivity). rewrite E in K. discriminate.
Qed.

(** Mandatory bins: the second group of bins of the sub-problem may have fewer
    copies than the mandatory ones, and building it throws. *)
Definition throw_inst : DInst := mkDI (mkSI (mkCN OVariableSizedBinPacking [mkCB 1 3 2 []] [mkCI 1 1 1 0] 1 1) [10]) 5.
Theorem C34_throws_refuted : dinst_ok throw_inst /\ dhonest throw_inst (put_at 0) /\ khonest throw_inst (put_at 0)
  /\ exists s, dichotomic 1 throw_inst (put_at 0) (1 # 10) Inf = Some (DThrow s) /\ ds_reports s = [].
Proof.
  split; [intros [|t] Ht; cbn in *; lia|]. split; [apply put_at_honest; [cbn; lia|cbn; lia|intros [|x] Hx; cbn in *; lia]|]. split; [apply khonest_none|].
  eexists. split; [vm_compute; reflexivity|reflexivity].
Qed.

(** Mandatory bins are optional in the sub-problems: a success may leave one out. *)
Definition drop_inst : DInst := mkDI (mkSI (mkCN OVariableSizedBinPacking [mkCB 1 1 1 []; mkCB 1 1 0 []] [mkCI 1 1 1 0] 1 1) [20; 10]) 5.
Theorem C34_mandatory_refuted : dinst_ok drop_inst /\ dhonest drop_inst (put_at 1) /\ khonest drop_inst (put_at 1)
  /\ exists s sol, dichotomic 40 drop_inst (put_at 1) (1 # 10) Inf = Some (DEnd s) /\ In sol (ds_reports s) /\ ds_ub s <> Inf
     /\ ssol_items sol = cnumber_of_items (dbase drop_inst) /\ used_bins sol 0 < cb_copies_min (cbin (dbase drop_inst) 0).
Proof.
  split; [intros [|[|t]] Ht; cbn in *; lia|]. split; [apply put_at_honest; [cbn; lia|cbn; lia|intros [|x] Hx; cbn in *; lia]|]. split; [apply khonest_none|].
  eexists. exists [(1%nat, 1, [O])]. split; [vm_compute; reflexivity|]. split; [left; reflexivity|]. split; [discriminate|]. split; vm_compute; reflexivity.
Qed.

(** The hypotheses of the theorem on infeasible instances hold for one with no
    mandatory bin: two items of space 6, one bin of space 10. *)
Example C34_infeasible_run : dinst_ok zero_inst /\ khonest zero_inst useless /\ 1 <= cnumber_of_bins (dbase zero_inst)
  /\ (forall c bins, ssol_items (do_solve useless c bins) <> cnumber_of_items (dbase zero_inst))
  /\ match dichotomic 1100 zero_inst useless (1 # 10) Inf with Some (DEnd s) => (ds_lb s, ds_call s, length (ds_reports s)) | _ => (Fin 0, O, O) end = (Inf, 1029%nat, 1%nat).
Proof.
  split; [intros [|[|t]] Ht; cbn in *; lia|]. split.
  - intros c capacity kp H. cbn [do_contains useless]. rewrite (zsum_ext _ _ (fun _ => 0 * 1)) by reflexivity. rewrite (zsum_mult _ (fun _ => 1)). lia.
  - split; [cbn; lia|]. split; [intros; discriminate|]. vm_compute. reflexivity.
Qed.

(** A run with a success: three bins of space 10, one item of space 5; one bin is
    kept at the first turn. *)
Definition good_inst : DInst := mkDI (mkSI (mkCN OVariableSizedBinPacking [mkCB 1 3 0 []] [mkCI 1 1 1 0] 1 1) [10]) 5.
Definition keep_one : DOracle := mkDO (fun _ _ _ p => (p <? 2)%nat) (do_solve (put_at 0)) (fun _ => false).
Example C34_good_run : dinst_ok good_inst /\ dhonest good_inst keep_one
  /\ match dichotomic 40 good_inst keep_one (1 # 10) Inf with Some (DEnd s) => (ds_lb s, ds_memory s, ds_reports s, ds_call s) | _ => (Inf, [], [], O) end
     = (Fin 0, [([1], true)], [[(O, 1, [O])]], 15%nat)
  /\ (let capacity := dcapacity good_inst (Fin (1 # 10)) in forall t, (t < 1)%nat -> dspace good_inst t <= capacity).
Proof.
  split; [intros [|[|t]] Ht; cbn in *; lia|]. split.
  - destruct (put_at_honest 0 good_inst) as [A B C]; [cbn; lia|cbn; lia|intros [|x] Hx; cbn in *; lia|]. split; [exact A|exact B|exact C].
  - split; [vm_compute; reflexivity|]. intros capacity [|t] Ht; [vm_compute; discriminate|lia].
Qed.

Print Assumptions C34_valid.
Print Assumptions C34_success.
Print Assumptions C34_memory.
Print Assumptions C34_interval.
Print Assumptions C34_terminates.
Print Assumptions C34_zero_initial_refuted.
Print Assumptions C34_selection.
Print Assumptions C34_never_gives_up.
Print Assumptions C34_infeasible_overflows.
Print Assumptions C34_no_exception.
Print Assumptions C34_skip_refuted.
Print Assumptions C34_throws_refuted.
Print Assumptions C34_mandatory_refuted.
