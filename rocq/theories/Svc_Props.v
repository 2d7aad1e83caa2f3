(** * C31: sequential value correction *)

From Coq Require Import List ZArith QArith Bool Lia Lqa Permutation Sorted.
From Verif Require Import Util Common_Model OneDim_Model ColGen_Model ColGen_Spec ColGenCap_Proof ColGenPrice_Proof Svc_Model Svc_Spec Svc_Proof SvcLoop_Proof SvcHonest_Proof.
From Verif Require OneDimBuilder_Model OneDimSub_Proof OneDimBuilder_Spec.
Import ListNotations.
Open Scope Z_scope.

Lemma zsum_zero' : forall A (f : A -> Z) l, (forall x, In x l -> f x = 0) -> zsum f l = 0.
Proof. intros A f. induction l as [|a l IH]; intros H; [reflexivity|]. rewrite zsum_cons, (H a (or_introl eq_refl)), IH; [reflexivity|]. intros x Hx. apply H. right. exact Hx. Qed.

Lemma svc_good : forall fuel n i o goal reports thrown, sinst_ok i -> solutions o ->
  svc fuel n i o goal = Some (reports, thrown) -> Forall (good i o) reports.
Proof.
  intros fuel n i o goal reports thrown Hi Hs E. unfold svc in E. destruct (cni (si_base i) =? 0)%nat; [injection E as <- _; constructor|].
  eapply siterations_inv; [exact Hi|exact Hs|constructor|exact E].
Qed.

(** Whatever the solver of the sub-problems answers, the timer and the pool: no
    reported solution uses a bin type or an item type more than the instance
    allows. *)
Theorem C31_never_over_uses : forall fuel n i o goal reports thrown, sinst_ok i -> solutions o ->
  svc fuel n i o goal = Some (reports, thrown) -> forall s, In s reports -> svalid i s.
Proof.
  intros fuel n i o goal reports thrown Hi Hs E s Hin. apply (gd_valid i o).
  exact (proj1 (Forall_forall _ _) (svc_good _ _ _ _ _ _ _ Hi Hs E) s Hin).
Qed.

(** Every bin of a reported solution is empty, or a bin the solver returned for
    that bin type; with the variable-sized objective none is left empty. *)
Theorem C31_patterns : forall fuel n i o goal reports thrown, sinst_ok i -> solutions o ->
  svc fuel n i o goal = Some (reports, thrown) -> forall s b, In s reports -> In b s ->
  (cn_objective (si_base i) <> OVariableSizedBinPacking /\ b_items b = []) \/ returned o (b_type b) (b_items b).
Proof.
  intros fuel n i o goal reports thrown Hi Hs E s b Hin Hb.
  pose proof (proj1 (Forall_forall _ _) (svc_good _ _ _ _ _ _ _ Hi Hs E) s Hin) as G.
  destruct (gd_returned i o s G b Hb) as [[V K]|K]; [left|right; exact K]. split; [|exact K]. intro C. apply is_vbpp_true in C. congruence.
Qed.

Lemma space_insert_sorted : forall i a l, (forall b, In b l -> (a < b)%nat) ->
  StronglySorted (fun x y => sspace i x < sspace i y \/ (sspace i x = sspace i y /\ (x < y)%nat)) l ->
  StronglySorted (fun x y => sspace i x < sspace i y \/ (sspace i x = sspace i y /\ (x < y)%nat)) (space_insert i a l).
Proof.
  intros i a. induction l as [|b l IH]; intros Ha S; [constructor; constructor|]. cbn [space_insert].
  inversion S as [|? ? S' F]; subst. destruct (Z.ltb_spec (sspace i b) (sspace i a)) as [K|K].
  - constructor; [apply IH; [intros c Hc; apply Ha; right; exact Hc|exact S']|]. rewrite Forall_forall in *. intros c Hc.
    apply (Permutation_in _ (Permutation_sym (space_insert_perm i a l))) in Hc. destruct Hc as [<-|Hc]; [left; exact K|apply F; exact Hc].
  - constructor; [exact S|]. rewrite Forall_forall in *. intros c [<-|Hc].
    + specialize (Ha b (or_introl eq_refl)). lia.
    + specialize (F c Hc). specialize (Ha c (or_intror Hc)). lia.
Qed.

(** The bins are used in the prescribed order, copy after copy, whatever the
    solver answers. *)
Theorem C31_order : forall fuel n i o goal reports thrown, sinst_ok i -> solutions o ->
  cn_objective (si_base i) <> OVariableSizedBinPacking ->
  svc fuel n i o goal = Some (reports, thrown) ->
  exists order, use_order i order /\ forall s, In s reports -> exists rest, positions_of i order = expand s ++ rest.
Proof.
  intros fuel n i o goal reports thrown Hi Hs V E. exists (sorder i). split.
  - split; [apply sorder_perm|]. split.
    + intros K. unfold sorder. destruct (cn_objective (si_base i)); try reflexivity. congruence.
    + intros K. assert (S : StronglySorted (fun x y => sspace i x < sspace i y \/ (sspace i x = sspace i y /\ (x < y)%nat)) (sorder i)).
      { unfold sorder. rewrite K. generalize (cnb (si_base i)) as m. intro m. generalize 0%nat as a. induction m as [|m IH]; intro a; [constructor|]. cbn [seq fold_right].
        apply space_insert_sorted; [|apply IH]. intros b Hb.
        assert (P : forall l, Permutation l (fold_right (space_insert i) [] l)).
        { induction l as [|c l IHl]; [reflexivity|]. cbn [fold_right]. rewrite IHl at 1. apply space_insert_perm. }
        apply (Permutation_in _ (Permutation_sym (P _))) in Hb. apply in_seq in Hb. lia. }
      intros a b x y Eo Hy. rewrite Eo in S. clear Eo. induction a as [|c a IH]; [|apply IH; inversion S; assumption].
      inversion S as [|? ? _ F]; subst. rewrite Forall_forall in F. apply F. exact Hy.
  - intros s Hin. pose proof (proj1 (Forall_forall _ _) (svc_good _ _ _ _ _ _ _ Hi Hs E) s Hin) as G.
    apply (gd_order i o s G). destruct (is_vbpp i) eqn:Ev; [|reflexivity]. apply is_vbpp_true in Ev. congruence.
Qed.

(** Progress: an iteration takes at most one turn per bin of the instance, plus
    one; with so many turns allowed the function returns, whatever the solver
    answers. *)
Theorem C31_terminates : forall n i o goal fuel, sinst_ok i -> solutions o ->
  cnumber_of_bins (si_base i) < Z.of_nat fuel -> svc fuel n i o goal <> None.
Proof.
  intros n i o goal fuel Hi Hs Hf. unfold svc. destruct (cni (si_base i) =? 0)%nat; [discriminate|].
  apply siterations_ends; [exact Hi|exact Hs|constructor|exact Hf].
Qed.

(** With a solver that respects the sub-problems, and at most one mandatory copy
    per bin type, no exception is raised. *)
Theorem C31_no_exception : forall fuel n i o goal reports thrown, sinst_ok i -> honest i o ->
  (forall t, (t < cnb (si_base i))%nat -> cb_copies_min (cbin (si_base i) t) <= Z.min 1 (cb_copies (cbin (si_base i) t))) ->
  svc fuel n i o goal = Some (reports, thrown) -> thrown = false.
Proof.
  intros fuel n i o goal reports thrown Hi Ho Hm E. unfold svc in E. destruct (cni (si_base i) =? 0)%nat; [injection E as _ <-; reflexivity|].
  eapply siterations_honest; [exact Hi|exact Ho|exact Hm|constructor|exact E].
Qed.

(** The iterations go on until the given number of them, unless the best solution
    found has all the items, the time is over or an exception is raised: with a
    timer that never ends and no complete best solution, every iteration reports
    a solution. *)
Theorem C31_iterations : forall fuel n i o goal reports thrown,
  svc fuel n i o goal = Some (reports, thrown) -> (cni (si_base i) > 0)%nat ->
  (forall k, or_end o k = false) -> (forall l, ssol_items (or_best o l) <> cnumber_of_items (si_base i)) ->
  thrown = true \/ (n <= length reports)%nat.
Proof.
  intros fuel n i o goal reports thrown E Hn Ht Hb. unfold svc in E. destruct (Nat.eqb_spec (cni (si_base i)) 0) as [H0|_]; [lia|].
  assert (G : forall l call rs, siterations l fuel i o goal call rs = Some (reports, thrown) -> thrown = true \/ (length rs + l <= length reports)%nat).
  { induction l as [|l IH]; intros call rs E'; cbn [siterations] in E'; [injection E' as <- <-; right; lia|].
    destruct (siteration fuel i o call rs) as [res|] eqn:Es; [|discriminate]. unfold siteration in Es.
    pose proof (sloop_reports i o Ht fuel [] (fun _ => 0) _ res Es) as R. cbn [st_reports] in R.
    destruct res as [[s st]|r|]; [|destruct R|injection E' as _ <-; left; reflexivity].
    cbv zeta in E'. set (rs' := st_reports st ++ [s]) in *.
    assert (L : (S (length rs) <= length rs')%nat) by (unfold rs'; rewrite app_length; cbn [length]; lia).
    destruct (Z.eqb_spec (ssol_items (or_best o rs')) (cnumber_of_items (si_base i))) as [C|_]; [destruct (Hb _ C)|]. cbn [andb] in E'.
    assert (E2 : siterations l fuel i o goal (st_call st) rs' = Some (reports, thrown)) by (destruct (cn_objective (si_base i)); exact E').
    destruct (IH _ _ E2) as [T|T]; [left; exact T|right; lia]. }
  destruct (G n O [] E) as [T|T]; [left; exact T|right; exact T].
Qed.
Print Assumptions C31_iterations.

(** An iteration ends with all items packed or all bins used, if sizes do not
    vary. *)
Theorem C31_stops : forall fuel i o call s st, sinst_ok i -> solutions o ->
  cn_objective (si_base i) <> OVariableSizedBinPacking ->
  siteration fuel i o call [] = Some (XOk (s, st)) ->
  ssol_items s = cnumber_of_items (si_base i) \/ total_bins s = cnumber_of_bins (si_base i).
Proof.
  intros fuel i o call s st Hi Hs V E. unfold siteration in E.
  assert (Ev : is_vbpp i = false) by (destruct (is_vbpp i) eqn:K; [apply is_vbpp_true in K; congruence|reflexivity]).
  assert (K0 : STInv i o (mkST call (repeat (None, 0%Q) (cnb (si_base i))) [])) by (split; [apply curinv0|constructor]).
  revert E. generalize (inv_nil i o Hi). generalize K0. clear K0. generalize (mkST call (repeat (None, 0%Q) (cnb (si_base i))) []). generalize (@nil (nat * Z * list nat)). generalize (fun _ : nat => 0).
  induction fuel as [|f IH]; intros pf s0 st0 K I E; [discriminate|]. cbn [sloop] in E.
  destruct (or_end o (st_call st0)); [discriminate|].
  destruct (Z.eqb_spec (ssol_items s0) (cnumber_of_items (si_base i))) as [A|_]; [injection E as <- <-; left; exact A|].
  destruct (Z.eqb_spec (total_bins s0) (cnumber_of_bins (si_base i))) as [A|_]; [injection E as <- <-; right; exact A|].
  cbv zeta in E. set (st1 := mkST (S (st_call st0)) (st_cur st0) (st_reports st0)) in E.
  pose proof (stry_all_inv i o Hi Hs s0 pf (stypes i s0) st1 I K ltac:(intros t Ht; apply (stypes_range i o Hi s0 pf t I Ht))) as H.
  destruct (stry_all i o s0 pf (stypes i s0) st1) as [st2|rs|] eqn:E1; try discriminate.
  destruct (sbest i (st_cur st2) (stypes i s0)) as [t|] eqn:Eb.
  - destruct (sbest_in i _ _ _ Eb) as [Hin _]. destruct (stypes_range i o Hi s0 pf t I Hin) as [Ht Hpos].
    destruct (fst (scur (st_cur st2) t)) as [items|] eqn:Ef; [|discriminate].
    assert (Ecur : scur (st_cur st2) t = (Some items, snd (scur (st_cur st2) t))) by (rewrite <- Ef; destruct (scur (st_cur st2) t); reflexivity).
    destruct (cu_some i o _ (proj1 H) _ _ _ Ecur) as [Hx Hret].
    destruct (Z.ltb_spec (scopies i s0 pf t (map (fun x => (x, occ items x)) (seq 0 (cni (si_base i))))) 1) as [Hn|Hn]; [discriminate|].
    destruct (scopies_spec i s0 pf t _ Hn) as [Sn Sx].
    eapply IH; [exact H| |exact E]. apply inv_extend; try assumption; [split; assumption|].
    intros x Xx. apply Sx; [|apply (iv_free i o s0 pf I); exact Xx]. apply in_map_iff. exists x. split; [reflexivity|]. apply in_seq. lia.
  - rewrite Ev in E. destruct (stypes i s0) as [|t ts'] eqn:Ets; [discriminate|].
    eapply IH; [exact H| |exact E]. apply inv_empty; [exact Hi|exact I|exact Ev|]. apply (stypes_range i o Hi s0 pf t I); [rewrite Ets; left; reflexivity|exact Ev].
Qed.

(** Variable sizes, no mandatory bin, positive costs, a solver that finds a
    profitable bin whenever an item fits: at the end of an iteration all items
    are packed, or no item left fits in a bin type left. *)
Theorem C31_maximal : forall fuel i o fits call s st, sinst_ok i -> solutions o -> complete fits o ->
  cn_objective (si_base i) = OVariableSizedBinPacking ->
  (forall t, (t < cnb (si_base i))%nat -> cb_copies_min (cbin (si_base i) t) = 0 /\ (0 < cb_cost (cbin (si_base i) t))%Q /\ cb_fixed (cbin (si_base i) t) = []) ->
  siteration fuel i o call [] = Some (XOk (s, st)) ->
  ssol_items s = cnumber_of_items (si_base i)
  \/ forall t x, (t < cnb (si_base i))%nat -> used_bins s t < cb_copies (cbin (si_base i) t) ->
       (x < cni (si_base i))%nat -> used_items s x < ci_copies (citem (si_base i) x) -> ~ fits t x.
Proof.
  intros fuel i o fits call s st Hi Hs Hc V Hb E. unfold siteration in E. apply (is_vbpp_true i) in V.
  assert (K0 : STInv i o (mkST call (repeat (None, 0%Q) (cnb (si_base i))) [])) by (split; [apply curinv0|constructor]).
  assert (P0 : Pos (repeat (None, 0%Q) (cnb (si_base i)))).
  { intros t items q Eq. exfalso. unfold scur in Eq. destruct (Nat.lt_ge_cases t (cnb (si_base i))) as [H|H]; [rewrite nth_repeat in Eq; discriminate|]. rewrite nth_overflow in Eq by (rewrite repeat_length; exact H). discriminate. }
  pose proof (sloop_inv i o Hi Hs fuel [] (fun _ => 0) _ _ (inv_nil i o Hi) K0 E) as [G _].
  destruct (sloop_stop i o fits Hi Hs Hc fuel [] (fun _ => 0) _ s st (inv_nil i o Hi) K0 (fun _ => P0) E) as [A|[A|(_ & pf & I & Eb & HB)]]; [left; exact A| |].
  - right. intros t x Ht Hu _ _ _. destruct G as [[G1 G2 G3] _ _].
    assert (Hsum : forall l, (forall u, In u l -> (u < cnb (si_base i))%nat) -> In t l -> zsum (used_bins s) l < zsum (fun u => cb_copies (cbin (si_base i) u)) l).
    { induction l as [|u l IH]; intros Hl Hin; [destruct Hin|]. rewrite !zsum_cons.
      assert (zsum (used_bins s) l <= zsum (fun u => cb_copies (cbin (si_base i) u)) l) by (apply zsum_le; intros v Hv; apply G2; apply Hl; right; exact Hv).
      destruct Hin as [->|Hin]; [lia|]. specialize (IH (fun v Hv => Hl v (or_intror Hv)) Hin). specialize (G2 u (Hl u (or_introl eq_refl))). lia. }
    specialize (Hsum (seq 0 (cnb (si_base i))) ltac:(intros u Hu'; apply in_seq in Hu'; lia) ltac:(apply in_seq; lia)).
    rewrite <- (by_type_z (cnb (si_base i)) s) in Hsum by (intros b Hin; apply (G1 b Hin)).
    rewrite A in Hsum. unfold cnumber_of_bins in Hsum. unfold cnb, cbin in Hsum. set (d := mkCB 0 0 0 []) in Hsum.
    rewrite <- (zsum_map _ _ (fun t => nth t (cn_bins (si_base i)) d) cb_copies) in Hsum.
    assert (Em : map (fun t => nth t (cn_bins (si_base i)) d) (seq 0 (length (cn_bins (si_base i)))) = cn_bins (si_base i)).
    { apply nth_ext with (d := d) (d' := d); [rewrite map_length, seq_length; reflexivity|]. rewrite map_length, seq_length. intros m Hm.
      set (F := fun t => nth t (cn_bins (si_base i)) d). rewrite (nth_indep _ d (F O)) by (rewrite map_length, seq_length; exact Hm). rewrite (map_nth F), seq_nth by exact Hm. reflexivity. }
    rewrite Em in Hsum. lia.
  - right. intros t x Ht Hu Hx Hx2 Hf.
    assert (Hts : In t (stypes i s)).
    { rewrite stypes_vbpp by exact V. destruct (smandatory i s) as [u|] eqn:M.
      - exfalso. destruct (smandatory_some i s u M) as [Hut K]. destruct (Hb u Hut) as [B _]. rewrite B in K.
        assert (0 <= used_bins s u). { unfold used_bins. apply zsum_nonneg. intros b Hin. destruct (b_type b =? u)%nat; [|lia]. destruct (iv_bins i o s pf I b Hin) as (_ & ? & _). lia. } lia.
      - apply filter_In. split; [apply in_seq; lia|]. apply negb_true_iff, Z.eqb_neq. lia. }
    assert (Hpf : pf x = 0).
    { pose proof (iv_pf i o s pf I x) as K. assert (Ez : zsum (fun b => b_copies b * sfixed i (b_type b) x) s = 0); [|lia].
      apply zsum_zero'. intros b Hin. destruct (iv_bins i o s pf I b Hin) as (Hbt & _). unfold sfixed. destruct (Hb _ Hbt) as (_ & _ & ->). cbn. lia. }
    assert (Hcf : ci_copies_fixed (citem (si_base i) x) = 0).
    { rewrite (io_fixed i Hi x Hx). apply zsum_zero'.
      intros u Hu'. apply in_seq in Hu'. unfold sfixed. destruct (Hb u ltac:(lia)) as (_ & _ & ->). cbn. lia. }
    assert (Hpos : (0 < snd (scur (st_cur st) t))%Q).
    { apply (HB t Hts). exists x. split; [exact Hx|]. split; [|exact Hf]. unfold sfree, sfixed. destruct (Hb t Ht) as (_ & _ & ->). replace (occ [] x) with 0 by reflexivity. lia. }
    pose proof (sbest_none i _ _ Eb t Hts) as Hr. unfold ratio in Hr. destruct (Hb t Ht) as (_ & Hcost & _).
    destruct (Qeq_bool (cb_cost (cbin (si_base i) t)) 0) eqn:Ec; [apply Qeq_bool_iff in Ec; lra|].
    cbn in Hr. unfold Qltb in Hr. apply negb_false_iff in Hr. apply Qle_bool_iff in Hr.
    assert (0 < snd (scur (st_cur st) t) / cb_cost (cbin (si_base i) t))%Q; [|lra].
    unfold Qdiv. apply Qmult_lt_0_compat; [exact Hpos|]. apply Qinv_lt_0_compat. exact Hcost.
Qed.

(** ** The profits *)

(** The new profits are numbers, except those of the item types a Knapsack
    solution does not pack. *)
Theorem C31_profits : forall i s pf lbs space profit adjusted x,
  0 < ci_copies (citem (si_base i) x) -> ~ (space == 0)%Q ->
  (svc_new_profit i s pf lbs space profit adjusted x = None
   <-> cn_objective (si_base i) = OKnapsack /\ used_items s x = 0).
Proof.
  intros i s pf lbs space profit adjusted x Hc Hsp. unfold svc_new_profit, qdiv. cbv zeta.
  assert (Es : Qeq_bool space 0 = false) by (apply not_true_iff_false; intro K; apply Qeq_bool_iff in K; contradiction). rewrite Es.
  assert (Ec : Qeq_bool (inject_Z (ci_copies (citem (si_base i) x))) 0 = false).
  { apply not_true_iff_false. intro K. apply Qeq_bool_iff in K. unfold Qeq in K. cbn in K. lia. }
  assert (Eu : Qeq_bool (inject_Z (used_items s x)) 0 = true <-> used_items s x = 0).
  { rewrite Qeq_bool_iff. unfold Qeq. cbn. lia. }
  rewrite Ec. destruct (cn_objective (si_base i)); try (split; [discriminate|intros [K _]; discriminate]).
  destruct (Qeq_bool (inject_Z (used_items s x)) 0).
  - split; [intros _; split; [reflexivity|apply Eu; reflexivity]|reflexivity].
  - split; [discriminate|]. intros [_ K]. apply Eu in K. discriminate.
Qed.

(** ** What fails *)

(** Two mandatory copies of a bin type: the sub-instance cannot be built, since
    its number of copies is set to one while its minimum is still two; for any
    solver an exception leaves the function before any solution is reported. *)
Theorem C31_two_mandatory_bins_refuted : forall i t0 n fuel o goal,
  cn_objective (si_base i) = OVariableSizedBinPacking -> smandatory i [] = Some t0 -> 1 < cb_copies_min (cbin (si_base i) t0) ->
  0 < cnumber_of_items (si_base i) -> 0 < cnumber_of_bins (si_base i) -> (0 < cni (si_base i))%nat ->
  or_end o 0 = false -> svc (S fuel) (S n) i o goal = Some ([], true).
Proof.
  intros i t0 n fuel o goal V M Hm Hi Hb Hn Ho. unfold svc. destruct (Nat.eqb_spec (cni (si_base i)) 0) as [K|_]; [lia|].
  cbn [siterations]. unfold siteration. cbn [sloop st_call]. rewrite Ho. cbv zeta.
  destruct (Z.eqb_spec (ssol_items []) (cnumber_of_items (si_base i))) as [K|_]; [cbn in K; lia|].
  destruct (Z.eqb_spec (total_bins []) (cnumber_of_bins (si_base i))) as [K|_]; [cbn in K; lia|].
  apply is_vbpp_true in V. rewrite (stypes_vbpp i [] V), M. cbn [stry_all]. unfold stry. rewrite V. cbn [andb st_cur st_reports].
  assert (Ev : sstill_valid i [] (fun _ => 0) (repeat (None, 0%Q) (cnb (si_base i))) t0 = false).
  { unfold sstill_valid, scur. destruct (Nat.lt_ge_cases t0 (cnb (si_base i))) as [H|H]; [rewrite nth_repeat; reflexivity|]. rewrite nth_overflow by (rewrite repeat_length; exact H). reflexivity. }
  rewrite Ev. apply Z.ltb_lt in Hm. rewrite Hm. reflexivity.
Qed.

(** The same two calls on the one-dimensional builder (the column generation
    pricing makes them too, column_generation.hpp:381-383). *)
Theorem C31_builder_refuted : forall (i : OneDim_Model.Instance) oid t b b',
  OneDimBuilder_Spec.copyable i -> nth_error (in_bin_types i) oid = Some t -> 1 < bt_copies_min t ->
  OneDimBuilder_Model.b_copy_bin b i oid = OneDimBuilder_Model.BOk b' ->
  OneDimBuilder_Model.b_set_bin_copies b' (Z.of_nat (length (OneDimBuilder_Model.b_bins b))) 1 = OneDimBuilder_Model.BThrow b'.
Proof.
  intros i oid t b b' Hc Ht Hm E. destruct b as [ob its l g]. cbn [OneDimBuilder_Model.b_bins].
  rewrite (OneDimSub_Proof.copy_bin_eq i ob its l g oid t Hc Ht) in E. injection E as <-.
  unfold OneDimBuilder_Model.b_set_bin_copies. destruct (OneDimBuilder_Model.bad_id _ _); [reflexivity|].
  cbn [OneDimBuilder_Model.b_bins]. rewrite Nat2Z.id, app_nth2 by lia. rewrite Nat.sub_diag. cbn [nth].
  replace (bt_copies_min (OneDimSub_Proof.bare t)) with (bt_copies_min t) by reflexivity.
  apply Z.ltb_lt in Hm. rewrite Hm. reflexivity.
Qed.

(** A solver that packs the first item that fits, one item per bin. *)
Fixpoint first_pos (f : nat * Z -> bool) (l : list (nat * Z)) : option nat :=
  match l with [] => None | a :: r => if f a then Some O else option_map S (first_pos f r) end.
Definition one_item (fitsb : nat -> nat -> bool) : Oracle :=
  mkOr (fun _ k => match first_pos (fun a => (0 <? snd a) && fitsb (sk_bin k) (fst a)) (sk_items k) with
                   | Some p => mkSA [(1, [p])] 1 | None => mkSA [] 0 end)
       (fun _ => false)
       (fun _ a _ => match sa_bins a with [] => true | _ => false end)
       (fun l => last l []).

Lemma first_pos_some : forall f l p, first_pos f l = Some p -> (p < length l)%nat /\ f (nth p l (O, 0)) = true.
Proof.
  intros f. induction l as [|a l IH]; intros p E; [discriminate|]. cbn [first_pos] in E. destruct (f a) eqn:Ea.
  - injection E as <-. cbn. split; [lia|exact Ea].
  - destruct (first_pos f l) as [q|]; [|discriminate]. injection E as <-. destruct (IH q eq_refl). cbn. split; [lia|assumption].
Qed.
Lemma first_pos_none : forall f l, first_pos f l = None -> forall a, In a l -> f a = false.
Proof.
  intros f. induction l as [|b l IH]; intros E a Ha; [destruct Ha|]. cbn [first_pos] in E. destruct (f b) eqn:Eb; [discriminate|]. destruct Ha as [<-|Ha]; [exact Eb|].
  destruct (first_pos f l); [discriminate|]. apply IH; [reflexivity|exact Ha].
Qed.

Lemma one_item_honest : forall i fitsb, (forall t x, sfixed i t x = 0) -> honest i (one_item fitsb).
Proof.
  intros i fitsb Hf. split; unfold one_item; cbn [or_solve or_less].
  - intros c k. destruct (first_pos _ _); cbn; lia.
  - intros c k b. cbn [or_solve]. destruct (first_pos _ _); cbn; [intros [<-|[]]; cbn; lia|intros []].
  - intros c k b p. destruct (first_pos _ _) as [q|] eqn:E; cbn; [|intros []]. intros [<-|[]]; cbn; intros [<-|[]]. apply (first_pos_some _ _ _ E).
  - intros c k b p. destruct (first_pos _ _) as [q|] eqn:E; cbn [sa_bins]; [|intros []]. intros [<-|[]]; cbn [snd]; intros Hp.
    destruct (first_pos_some _ _ _ E) as [_ K]. apply andb_prop in K. destruct K as [K _]. apply Z.ltb_lt in K. rewrite occ_cons. replace (occ [] p) with 0 by reflexivity.
    destruct (Nat.eqb_spec q p) as [<-|_]; lia.
  - intros. rewrite Hf. apply occ_nonneg.
  - intros c a b Ea _. rewrite Ea. reflexivity.
Qed.

Lemma one_item_complete : forall fitsb, complete (fun t x => fitsb t x = true) (one_item fitsb).
Proof.
  intros fitsb. split; unfold one_item; cbn [or_solve].
  - intros c k b p. destruct (first_pos _ _) as [q|] eqn:E; cbn [sa_bins]; [|intros []]. intros [<-|[]]; cbn [snd]; intros [<-|[]].
    destruct (first_pos_some _ _ _ E) as [Hq K]. split; [exact Hq|]. apply andb_prop in K. destruct K as [_ K].
    unfold sk_ids. replace (nth q (map fst (sk_items k)) O) with (fst (nth q (sk_items k) (O, 0))) by (symmetry; exact (map_nth fst (sk_items k) (O, 0) q)). exact K.
  - intros c k x n Hin Hn Hf. destruct (first_pos _ _) as [q|] eqn:E; [split; [discriminate|reflexivity]|].
    pose proof (first_pos_none _ _ E (x, n) Hin) as K. cbn [fst snd] in K. apply Z.ltb_lt in Hn. rewrite Hn, Hf in K. discriminate.
Qed.

(** A mandatory bin too small for the item: each iteration tries that bin type
    only and gives up, although the other bin type holds the item; the comment at
    :409-413 says that nothing useful is left in that case. *)
Definition stuck_inst : SInst := mkSI (mkCN OVariableSizedBinPacking [mkCB 1 1 1 []; mkCB 2 1 0 []] [mkCI 1 1 1 0] 1 1) [1; 2].
Definition stuck_fits (t x : nat) : bool := (t =? 1)%nat.

Lemma stuck_ok : sinst_ok stuck_inst.
Proof.
  split.
  - intros [|[|t]] H; cbn in *; lia.
  - intros [|x] H; cbn in *; lia.
  - intros [|x] H; cbn in *; lia.
Qed.

Theorem C31_mandatory_stuck_refuted : exists i o fits,
  sinst_ok i /\ honest i o /\ complete fits o /\ cn_objective (si_base i) = OVariableSizedBinPacking
  /\ (forall t, (t < cnb (si_base i))%nat -> 0 <= cb_copies_min (cbin (si_base i) t) <= 1 /\ (0 < cb_cost (cbin (si_base i) t))%Q)
  /\ (exists s, svalid i s /\ ssol_items s = cnumber_of_items (si_base i) /\ forall b x, In b s -> In x (b_items b) -> fits (b_type b) x)
  /\ forall n goal, svc 5 n i o goal = Some (repeat [] n, false).
Proof.
  exists stuck_inst, (one_item stuck_fits), (fun t x => stuck_fits t x = true).
  split; [exact stuck_ok|]. split; [apply one_item_honest; intros [|[|[|t]]] x; reflexivity|]. split; [apply one_item_complete|]. split; [reflexivity|]. split; [|split].
  - intros [|[|t]] H; cbn in *; try lia; (split; [lia|reflexivity]).
  - exists [(0%nat, 1, []); (1%nat, 1, [0%nat])]. split; [|split; [reflexivity|]].
    + split.
      * intros b [<-|[<-|[]]]; cbn; (split; [lia|split; [lia|]]); intros x Hx; [destruct Hx|]. destruct Hx as [<-|[]]. lia.
      * intros [|[|t]] H; cbn in *; try lia.
      * intros [|x] H; cbn in *; try lia.
    + intros b x [<-|[<-|[]]]; cbn; intros Hx; [destruct Hx|]. destruct Hx as [<-|[]]. reflexivity.
  - intros n goal. unfold svc. replace (cni (si_base stuck_inst) =? 0)%nat with false by reflexivity.
    assert (G : forall m call reports, siterations m 5 stuck_inst (one_item stuck_fits) goal call reports = Some (reports ++ repeat [] m, false)).
    { induction m as [|m IH]; intros call reports; [cbn; rewrite app_nil_r; reflexivity|]. cbn [siterations].
      assert (Es : siteration 5 stuck_inst (one_item stuck_fits) call reports = Some (XOk ([], mkST (3 + call) [(None, 0%Q); (None, 0%Q)] reports))) by reflexivity.
      rewrite Es. cbn [st_reports st_call]. cbv zeta. replace (cn_objective (si_base stuck_inst)) with OVariableSizedBinPacking by reflexivity.
      rewrite IH, <- app_assoc. reflexivity. }
    apply (G n O []).
Qed.

(** ** The hypotheses can be met *)

(** Bin packing, two bin types, three items of two types, one item per bin: three
    bins, in order, the first bin type left empty by the solver. *)
Definition run_inst : SInst := mkSI (mkCN OBinPacking [mkCB 1 1 0 []; mkCB 2 4 0 []] [mkCI 1 2 2 0; mkCI 1 1 1 0] 1 1) [1; 2].
Lemma run_ok : sinst_ok run_inst.
Proof.
  split.
  - intros [|[|t]] H; cbn in *; lia.
  - intros [|[|x]] H; cbn in *; lia.
  - intros [|[|x]] H; cbn in *; lia.
Qed.
Example C31_run : sinst_ok run_inst /\ honest run_inst (one_item stuck_fits)
  /\ svc 6 2 run_inst (one_item stuck_fits) 2 = Some ([ [(0%nat, 1, []); (1%nat, 2, [0%nat]); (1%nat, 1, [1%nat])]; [(0%nat, 1, []); (1%nat, 2, [0%nat]); (1%nat, 1, [1%nat])] ], false).
Proof. split; [exact run_ok|]. split; [apply one_item_honest; intros [|[|[|t]]] x; reflexivity|]. reflexivity. Qed.

(** Variable sizes: the cheapest bin per profit first; the solution completed
    during the loop is reported too. *)
Definition run2_inst : SInst := mkSI (mkCN OVariableSizedBinPacking [mkCB 3 1 0 []; mkCB 2 4 0 []] [mkCI 1 2 2 0; mkCI 1 1 1 0] 1 1) [1; 2].
Example C31_run2 :
  svc 6 1 run2_inst (one_item (fun _ _ => true)) 2
  = Some ([ [(1%nat, 2, [0%nat]); (0%nat, 1, [1%nat])]; [(1%nat, 2, [0%nat]); (1%nat, 1, [1%nat])]; [(1%nat, 2, [0%nat]); (1%nat, 1, [1%nat])] ], false).
Proof. reflexivity. Qed.

(** Fixed items: one mandatory copy of a bin type that holds an item of
    type 0, three copies of the item type in all. *)
Definition fix_inst : SInst := mkSI (mkCN OVariableSizedBinPacking [mkCB 3 1 1 [0%nat]; mkCB 2 4 0 []] [mkCI 1 3 3 1] 1 1) [1; 2].
Example C31_fixed_ok : sinst_ok fix_inst.
Proof.
  split.
  - intros [|[|t]] H; cbn in *; lia.
  - intros [|x] H; cbn in *; lia.
  - intros [|x] H; cbn in *; lia.
Qed.
Example C31_fixed_run : svc 6 1 fix_inst (one_item (fun _ _ => true)) 2
  = Some ([ [(0%nat, 1, [0%nat]); (1%nat, 2, [0%nat])]; [(0%nat, 1, [0%nat]); (1%nat, 2, [0%nat])] ], false).
Proof. reflexivity. Qed.

(** Two mandatory copies. *)
Definition two_inst : SInst := mkSI (mkCN OVariableSizedBinPacking [mkCB 3 2 2 []] [mkCI 1 3 3 0] 1 1) [1].
Example C31_two_mandatory : svc 6 1 two_inst (one_item (fun _ _ => true)) 2 = Some ([], true).
Proof. apply (C31_two_mandatory_bins_refuted two_inst 0); try reflexivity. cbn. lia. Qed.

Print Assumptions C31_never_over_uses.
Print Assumptions C31_patterns.
Print Assumptions C31_order.
Print Assumptions C31_terminates.
Print Assumptions C31_no_exception.
Print Assumptions C31_stops.
Print Assumptions C31_maximal.
Print Assumptions C31_profits.
Print Assumptions C31_two_mandatory_bins_refuted.
Print Assumptions C31_builder_refuted.
Print Assumptions C31_mandatory_stuck_refuted.
