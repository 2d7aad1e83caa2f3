(** * C44: the rectangle reduction *)

From Coq Require Import List ZArith QArith Bool Arith Lia.
From Verif Require Import Util Common_Model Rect_Model Rect_Spec Reduc_Model Reduc_Spec Reduc_Proof ReducInv_Proof ReducGroup_Proof
  ReducDed_Proof ReducBoth_Proof ReducOpt_Proof ReducLoop_Proof ReducFinal_Proof.
Import ListNotations.
Open Scope Z_scope.

Notation reducible_by o i := (reducible (ro_solve o) (ro_subset_sum o) (fst (shrunk o i)) (snd (shrunk o i)) i).

Lemma filter_all_true : forall (A : Type) (f : A -> bool) l, (forall x, In x l -> f x = true) -> filter f l = l.
Proof. intros A f l. induction l as [|a l IH]; intros E; [reflexivity|]. cbn [filter]. rewrite (E a (or_introl eq_refl)), IH; [reflexivity|]. intros x Hx. apply E. right. exact Hx. Qed.
Lemma ded_nonneg : forall i W H s, Inv i W H s -> 0 <= dedicated s.
Proof. intros i W H s I. destruct (inv_ded i W H s I) as (D & DR & _). rewrite <- (ded_length _ _ DR). lia. Qed.

Section Reduction.
Variable o : ROracle.
Variable i : RInstance.
Hypothesis Happ : applies i = true.
Hypothesis Hred : reducible_by o i.
Let W := fst (shrunk o i).
Let H := snd (shrunk o i).

Lemma app_bins : length (rin_bins i) = 1%nat /\ rb_defects (rbin i 0) = [].
Proof.
  pose proof Happ as A. unfold applies in A. rewrite !andb_true_iff in A. destruct A as (((((_ & A) & B) & _) & _) & _). split; [apply Nat.eqb_eq; exact A|].
  destruct (rb_defects (rbin i 0)); [reflexivity|discriminate B].
Qed.
Let Hone := proj1 app_bins.
Let Hdef := proj2 app_bins.
Lemma red_dim : 0 <= rb_x (rbin i 0) /\ 0 <= rb_y (rbin i 0).
Proof. destruct (rd_bins _ _ _ _ _ Hred 0%nat) as (A & B & _); [rewrite Hone; lia|]. split; assumption. Qed.

Lemma no_reject : forall s, Inv i W H s -> copies_rejected i s = false.
Proof.
  intros s I. unfold copies_rejected. destruct (existsb _ (rin_bins i)) eqn:E; [|reflexivity]. exfalso. apply existsb_exists in E. destruct E as (bt & Hb & E).
  destruct (In_nth _ _ dummy_rbin Hb) as (t & Ht & Et). destruct (rd_bins _ _ _ _ _ Hred t Ht) as (_ & _ & M). unfold rbin in M. rewrite Et in M.
  repeat (apply andb_true_iff in E; destruct E as [E ?]). lia.
Qed.

Lemma reduce_inv : forall k, exists s, reduce o k i = Some (to_instance i s) /\ Inv i W H s /\ Opt i W H (red0 i) s.
Proof.
  intros k. pose proof (shrunk_bounds o i (rd_positive _ _ _ _ _ Hred) Hone (rd_sums _ _ _ _ _ Hred) red_dim) as [BW BH].
  destruct (rounds_ok o i W H) with (k := k) (s := red0 i) as (s & E & I & O).
  - apply BW.
  - apply BH.
  - apply (rd_solver _ _ _ _ _ Hred).
  - apply (rd_copy _ _ _ _ _ Hred).
  - apply (rd_ways _ _ _ _ _ Hred).
  - apply (red0_inv o); [apply (rd_positive _ _ _ _ _ Hred)|exact Hone].
  - exists s. split; [|split; assumption]. unfold reduce. rewrite Happ. cbn [negb]. fold W H. rewrite E, (no_reject s I). reflexivity.
Qed.

Lemma cap_cases : forall s, Inv i W H s -> forall ds, packing_ok (red_instance i s) ds ->
  0 <= rb_copies (rbin i 0) ->
  rused_bins 0 ds <= rb_copies (rbin (red_instance i s) 0) -> reduced_infeasible i s = false -> (forall d, In d ds -> rd_items d <> []) ->
  rused_bins 0 ds + dedicated s <= rb_copies (rbin i 0).
Proof.
  intros s I ds Pk C U F Ne. destruct (red_bin i Hone s) as [Eb Lb]. rewrite Eb in U. pose proof (in_cap _ _ _ _ I C) as Cap. unfold reduced_bin in U.
  destruct (Z.leb_spec (dedicated s) 0) as [D|D]; [lia|]. cbn [rb_copies] in U. rewrite (proj2 (Z.leb_le _ _) C) in U. cbn [andb] in U.
  destruct (Z.ltb_spec 0 (rb_copies (rbin i 0) - dedicated s)) as [L|L]; [lia|].
  assert (ds = []) as ->; [|cbn in *; lia]. destruct ds as [|d ds]; [reflexivity|]. exfalso. destruct (rd_items d) as [|p ps] eqn:Ep; [apply (Ne d (or_introl eq_refl) Ep)|].
  destruct (pa_bins _ _ Pk d (or_introl eq_refl)) as (_ & _ & G). pose proof (pk_type _ _ _ (ge_places _ _ _ G p ltac:(rewrite Ep; left; reflexivity))) as T.
  rewrite red_items_length in T. unfold reduced_infeasible in F.
  assert (X : 0 < zsum (fun x => ri_copies (ritem i x)) (remaining_ids s)).
  { assert (A : forall x, In x (remaining_ids s) -> 1 <= ri_copies (ritem i x)).
    { intros x Hx. apply (remaining_in o i Hone s x (in_len _ _ _ _ I)) in Hx. destruct Hx as [Hx _]. apply (rd_positive _ _ _ _ _ Hred). apply nth_In. exact Hx. }
    destruct (remaining_ids s) as [|x l]; [cbn in T; lia|]. rewrite zsum_cons. pose proof (A x (or_introl eq_refl)).
    assert (0 <= zsum (fun x => ri_copies (ritem i x)) l) by (apply zsum_nonneg; intros y Hy; pose proof (A y (or_intror Hy)); lia). lia. }
  assert (existsb (fun bt => (0 <? dedicated s) && (0 <=? rb_copies bt) && (rb_copies bt - dedicated s <=? 0) && negb (zsum (fun x => ri_copies (ritem i x)) (remaining_ids s) =? 0)) (rin_bins i) = true); [|congruence].
  apply existsb_exists. exists (rbin i 0). split; [apply nth_In; rewrite Hone; lia|]. rewrite !andb_true_iff, negb_true_iff, Z.ltb_lt, !Z.leb_le, Z.eqb_neq. lia.
Qed.

End Reduction.

(** The construction never ends on an exception or an access out of range. *)
Theorem C44_built : forall o k i, applies i = true -> reducible_by o i -> exists r, reduce o k i = Some r.
Proof. intros o k i A R. destruct (reduce_inv o i A R k) as (s & E & _). exists (to_instance i s). exact E. Qed.

(** A packing of the reduced instance, complete or not, completed by
    [unreduce_solution] is a packing of the original instance, with the dedicated
    bins in addition; a complete one stays complete. *)
Theorem C44_valid : forall o k i r ds, applies i = true -> reducible_by o i -> reduce o k i = Some r -> packing_ok (rr_instance r) ds ->
  exists ds', unreduce r ds = Some ds' /\ packing_ok i ds'
    /\ rbins_used ds' = rbins_used ds + dedicated (rr_state r)
    /\ (rall_packed (rr_instance r) ds -> rall_packed i ds').
Proof.
  intros o k i r ds A R E Pk. destruct (reduce_inv o i A R k) as (s & E' & I & _). assert (r = to_instance i s) as -> by congruence.
  destruct (app_bins i A) as [H1 H2].
  destruct (unreduce_ok o i (rd_positive _ _ _ _ _ R) H1 H2 (rd_sums _ _ _ _ _ R) (red_dim o i A R) s ds I Pk) as (ds' & U & P & B & _ & F). exists ds'. repeat (split; [assumption|]). exact F.
Qed.

(** A solution of the reduced instance (complete, within the numbers of copies of
    the bins, without empty bins) gives a solution of the original one. *)
Theorem C44_solution : forall o k i r ds, applies i = true -> reducible_by o i -> reduce o k i = Some r -> rr_infeasible r = false ->
  solves (rr_instance r) ds -> (forall d, In d ds -> rd_items d <> []) ->
  exists ds', unreduce r ds = Some ds' /\ solves i ds' /\ rbins_used ds' = rbins_used ds + dedicated (rr_state r).
Proof.
  intros o k i r ds A R E Fi (Pk & Full & Cap) Ne. destruct (reduce_inv o i A R k) as (s & E' & I & _). assert (r = to_instance i s) as -> by congruence.
  destruct (app_bins i A) as [H1 H2].
  destruct (unreduce_ok o i (rd_positive _ _ _ _ _ R) H1 H2 (rd_sums _ _ _ _ _ R) (red_dim o i A R) s ds I Pk) as (ds' & U & P & B & B0 & F). exists ds'. split; [exact U|]. split; [|exact B].
  split; [exact P|]. split; [apply F; exact Full|]. intros t Ht C. rewrite H1 in Ht. assert (t = O) as -> by lia. rewrite B0.
  apply (cap_cases o i A R s I ds Pk C); [|exact Fi|exact Ne]. destruct (red_bin i H1 s) as [Eb Lb]. apply Cap; [fold (red_instance i s); rewrite Lb; lia|].
  fold (red_instance i s). rewrite Eb. unfold reduced_bin. destruct (dedicated s <=? 0); [exact C|]. cbn [rb_copies]. destruct ((0 <=? rb_copies (rbin i 0)) && (0 <? rb_copies (rbin i 0) - dedicated s)) eqn:X; [|exact C].
  apply andb_true_iff in X. lia.
Qed.

(** Nothing is lost: a complete packing of the original instance in [m] bins gives
    one of the reduced instance in [m] bins minus the dedicated ones; and if the
    first one respects the number of copies of the bin, so does the second one,
    and the reduction does not claim infeasibility. *)
Theorem C44_optimum : forall o k i r ds, applies i = true -> reducible_by o i -> reduce o k i = Some r ->
  packing_ok i ds -> rall_packed i ds ->
  exists ds', packing_ok (rr_instance r) ds' /\ rall_packed (rr_instance r) ds'
    /\ rbins_used ds' = rbins_used ds - dedicated (rr_state r)
    /\ (solves i ds -> solves (rr_instance r) ds' /\ rr_infeasible r = false).
Proof.
  intros o k i r ds A R E Pk Full. destruct (reduce_inv o i A R k) as (s & E' & I & Op). assert (r = to_instance i s) as -> by congruence.
  destruct (app_bins i A) as [H1 H2].
  pose proof (packs_red0 o i (rd_positive _ _ _ _ _ R) H1 H2 (rd_sums _ _ _ _ _ R) ds Pk Full) as P0.
  pose proof (Op _ P0) as Ps. assert (D0 : dedicated (red0 i) = 0) by reflexivity. rewrite D0, Z.add_0_r in Ps.
  destruct (packs_reduced o i (rd_positive _ _ _ _ _ R) H1 H2 (rd_sums _ _ _ _ _ R) (red_dim o i A R) s _ I Ps) as (ds' & P' & F' & B' & B0). exists ds'. split; [exact P'|]. split; [exact F'|]. split; [exact B'|].
  intros (_ & _ & Cap). destruct (red_bin i H1 s) as [Eb Lb]. pose proof (rused_one i ds H1 Pk) as Us.
  assert (Nn : 0 <= rbins_used ds - dedicated s) by (rewrite <- B'; apply zsum_nonneg; intros d Hd; destruct (pa_bins _ _ P' d Hd) as (_ & C1 & _); lia).
  split.
  - split; [exact P'|]. split; [exact F'|]. intros t Ht C. fold (red_instance i s) in *. rewrite Lb in Ht. assert (t = 0%nat) as -> by lia. rewrite B0. rewrite Eb in *.
    specialize (Cap 0%nat ltac:(rewrite H1; lia)). rewrite Us in Cap. unfold reduced_bin in *. destruct (Z.leb_spec (dedicated s) 0) as [D|D].
    + pose proof (Cap C). pose proof (ded_nonneg i _ _ s I). lia.
    + cbn [rb_copies] in *. destruct (Z.leb_spec 0 (rb_copies (rbin i 0))) as [X|X]; cbn [andb] in *; [|lia]. specialize (Cap X).
      destruct (Z.ltb_spec 0 (rb_copies (rbin i 0) - dedicated s)); lia.
  - cbn [rr_infeasible to_instance]. unfold reduced_infeasible. destruct (existsb _ (rin_bins i)) eqn:X; [|reflexivity]. exfalso. apply existsb_exists in X. destruct X as (bt & Hb & X).
    destruct (In_nth _ _ dummy_rbin Hb) as (t & Ht & Et). rewrite H1 in Ht. assert (t = 0%nat) as -> by lia. unfold rbin in *. fold dummy_rbin in *. 
    rewrite !andb_true_iff, negb_true_iff, Z.ltb_lt, !Z.leb_le, Z.eqb_neq in X. destruct X as (((X1 & X2) & X3) & X4). rewrite <- Et in X2, X3.
    specialize (Cap 0%nat ltac:(rewrite H1; lia) X2). unfold rbin in Cap. rewrite Us in Cap. assert (K0 : rbins_used ds' = 0) by lia.
    assert (ds' = []) as ->. { destruct ds' as [|d l]; [reflexivity|]. exfalso. unfold rbins_used in K0. rewrite zsum_cons in K0. destruct (pa_bins _ _ P' d (or_introl eq_refl)) as (_ & C1 & _).
      assert (0 <= zsum rd_copies l) by (apply zsum_nonneg; intros e He; destruct (pa_bins _ _ P' e (or_intror He)) as (_ & C2 & _); lia). lia. }
    apply X4. destruct (remaining_ids s) as [|x l] eqn:Er; [reflexivity|]. exfalso. specialize (F' 0%nat). fold (red_instance i s) in F'. rewrite red_items_length, Er in F'. specialize (F' ltac:(cbn; lia)).
    rewrite red_item in F' by (rewrite Er; cbn; lia). rewrite Er in F'. unfold rpacked, reduced_item in F'. cbn [nth ri_copies] in F'. rewrite zsum_nil in F'.
    assert (Hx : In x (remaining_ids s)) by (rewrite Er; left; reflexivity). apply (remaining_in o i H1 s x (in_len _ _ _ _ I)) in Hx. destruct Hx as [Hx Lx].
    pose proof (in_types _ _ _ _ I x Hx Lx) as [Cx _ _ _ _]. lia.
Qed.

(** [proven_infeasible] is right. *)
Theorem C44_infeasible : forall o k i r, applies i = true -> reducible_by o i -> reduce o k i = Some r -> rr_infeasible r = true ->
  forall ds, ~ solves i ds.
Proof.
  intros o k i r A R E F ds S. destruct S as (P & Fu & C) eqn:Es. destruct (C44_optimum o k i r ds A R E P Fu) as (ds' & _ & _ & _ & X). destruct (X S) as [_ Y]. congruence.
Qed.

(** Empty bins can be dropped. *)
Definition drop_empty (ds : list RDesc) : list RDesc := filter (fun d => match rd_items d with [] => false | _ => true end) ds.
Lemma drop_empty_ok : forall i ds, solves i ds -> solves i (drop_empty ds) /\ rbins_used (drop_empty ds) <= rbins_used ds /\ forall d, In d (drop_empty ds) -> rd_items d <> [].
Proof.
  intros i ds (P & F & C).
  assert (Cp : forall d, In d ds -> 1 <= rd_copies d) by (intros d Hd; apply (pa_bins _ _ P d Hd)).
  assert (Ex : forall x l, rpacked x (drop_empty l) = rpacked x l).
  { intros x l. induction l as [|d l IH]; [reflexivity|]. unfold rpacked, drop_empty in *. cbn [filter]. destruct (rd_items d) as [|p ps] eqn:Ep; rewrite !zsum_cons, IH; [|reflexivity]. rewrite Ep. cbn. lia. }
  assert (Le : forall (f : RDesc -> Z) l, (forall d, In d l -> 0 <= f d) -> zsum f (drop_empty l) <= zsum f l).
  { intros f l N. induction l as [|d l IH]; [cbn; lia|]. unfold drop_empty in *. cbn [filter]. assert (A := N d (or_introl eq_refl)). assert (B := IH (fun e He => N e (or_intror He))).
    destruct (rd_items d); rewrite !zsum_cons; lia. }
  split; [split; [split|split]|split].
  - intros d Hd. apply filter_In in Hd. apply (pa_bins _ _ P d (proj1 Hd)).
  - intros x Hx. rewrite Ex. apply (pa_copies _ _ P x Hx).
  - intros x Hx. rewrite Ex. apply F. exact Hx.
  - intros t Ht Hc. etransitivity; [|apply (C t Ht Hc)]. apply Le. intros d Hd. specialize (Cp d Hd). destruct (Nat.eqb (rd_type d) t); lia.
  - apply Le. intros d Hd. specialize (Cp d Hd). lia.
  - intros d Hd. apply filter_In in Hd. destruct Hd as [_ Hd]. intros Ee. rewrite Ee in Hd. discriminate Hd.
Qed.

(** The optimum is unchanged: [m] bins is the minimum for the reduced instance if
    and only if [m] plus the number of dedicated bins is for the original one. *)
Theorem C44_minimum : forall o k i r m, applies i = true -> reducible_by o i -> reduce o k i = Some r -> rr_infeasible r = false ->
  (minimum_bins (rr_instance r) m <-> minimum_bins i (m + dedicated (rr_state r))).
Proof.
  intros o k i r m A R E Fi. set (d := dedicated (rr_state r)).
  assert (Up : forall ds, solves (rr_instance r) ds -> exists ds', solves i ds' /\ rbins_used ds' <= rbins_used ds + d).
  { intros ds S. destruct (drop_empty_ok _ ds S) as (S' & L & Ne). destruct (C44_solution o k i r _ A R E Fi S' Ne) as (ds' & _ & S2 & B). exists ds'. split; [exact S2|]. fold d in B. lia. }
  assert (Dn : forall ds, solves i ds -> exists ds', solves (rr_instance r) ds' /\ rbins_used ds' = rbins_used ds - d).
  { intros ds S. destruct S as (P & F & C) eqn:Es. destruct (C44_optimum o k i r ds A R E P F) as (ds' & _ & _ & B & X). exists ds'. split; [apply (X S)|exact B]. }
  split; intros ((ds & S & Em) & Min).
  - destruct (Up ds S) as (ds' & S' & B).
    assert (Lo : forall es, solves i es -> m + d <= rbins_used es) by (intros es Se; destruct (Dn es Se) as (fs & Sf & Bf); specialize (Min fs Sf); lia).
    split; [|exact Lo]. exists ds'. split; [exact S'|]. pose proof (Lo ds' S'). lia.
  - destruct (Dn ds S) as (ds' & S' & B). split; [exists ds'; split; [exact S'|lia]|]. intros es Se. destruct (Up es Se) as (fs & Sf & Bf). specialize (Min fs Sf). lia.
Qed.

(** If the reduction does not apply, the instance is only rebuilt, and
    [unreduce_solution] returns the bins of the solution one by one. *)
Lemma red0_ids : forall i, remaining_ids (red0 i) = seq 0 (length (rin_items i)).
Proof.
  intros i. unfold remaining_ids, red0. cbn [re_types]. rewrite map_length. apply filter_all_true. intros x Hx. apply in_seq in Hx. fold (red0 i). rewrite red0_type by (unfold n_types; lia). reflexivity.
Qed.
Theorem C44_not_applied : forall o k i, applies i = false ->
  (forall x, (x < length (rin_items i))%nat -> ri_copies_min (ritem i x) = match rin_objective i with OKnapsack => 0 | _ => ri_copies (ritem i x) end) ->
  exists r, reduce o k i = Some r /\ rr_instance r = i /\ rr_infeasible r = false
    /\ forall ds, packing_ok i ds -> unreduce r ds = Some (map (fun b => mkRD (fst b) 1 (snd b)) (single_bins ds)).
Proof.
  intros o k i A M. unfold reduce. rewrite A. cbn [negb]. exists (to_instance i (red0 i)). split; [reflexivity|].
  assert (D : dedicated (red0 i) = 0) by reflexivity. assert (Eids := red0_ids i). split; [|split].
  - unfold to_instance. cbn [rr_instance]. destruct i as [ob pa its bs]. cbn [rin_objective rin_params rin_items rin_bins] in *. f_equal.
    + rewrite Eids. apply (nth_ext _ _ (reduced_item (mkRInst ob pa its bs) (red0 (mkRInst ob pa its bs)) O) dummy_ritem); [rewrite map_length, seq_length; reflexivity|]. intros j Hj. rewrite map_length, seq_length in Hj.
      rewrite map_nth, seq_nth by exact Hj. cbn [plus]. unfold reduced_item. rewrite red0_type by exact Hj. cbn [rt_x rt_y rt_copies rin_objective]. rewrite <- (M j Hj). unfold ritem. cbn [rin_items].
      destruct (nth j its dummy_ritem); reflexivity.
    + etransitivity; [|apply List.map_id]. apply map_ext. intros b. unfold reduced_bin. rewrite D. reflexivity.
  - cbn [rr_infeasible to_instance]. unfold reduced_infeasible. rewrite D. destruct (existsb _ (rin_bins i)) eqn:X; [|reflexivity]. apply existsb_exists in X. destruct X as (bt & _ & X). discriminate X.
  - intros ds P. unfold unreduce. cbn [rr_state to_instance]. assert (dedicated_bins (red0 i) = Some []) as -> by reflexivity.
    assert (Ty : forall b p, In b (single_bins ds) -> In p (snd b) -> (pl_type p < length (rin_items i))%nat).
    { intros b p Hb Hp. apply single_bins_in in Hb. destruct Hb as (d & Hd & ->). apply (pk_type _ _ _ (ge_places _ _ _ (proj2 (proj2 (pa_bins _ _ P d Hd))) p Hp)). }
    unfold unreduced_bins. cbn [rr_state rr_ids to_instance]. rewrite Eids. revert Ty. generalize (single_bins ds) as bs. intros bs Ty.
    assert (Ho : forall l cnt, (forall p, In p l -> (pl_type p < length (rin_items i))%nat) ->
      exists cnt', hand_out (fun x k0 => entry (rtype (red0 i) x) k0) cnt (map (fun p => mkComp (nth (pl_type p) (seq 0 (length (rin_items i))) O) (pl_x p) (pl_y p) (pl_rot p) []) l)
        = Some (map (fun p => mkComp (pl_type p) (pl_x p) (pl_y p) (pl_rot p) []) l, cnt')).
    { induction l as [|p l IH]; intros cnt T; [exists cnt; reflexivity|]. cbn [map hand_out]. assert (Tp := T p (or_introl eq_refl)). rewrite seq_nth by exact Tp. cbn [plus]. rewrite (red0_type i _ Tp). cbn [entry rt_comps].
      destruct (IH (bump_at (pl_type p) cnt) (fun q Hq => T q (or_intror Hq))) as (cnt' & E). rewrite E. exists cnt'. reflexivity. }
    assert (Ha : forall l cnt, (forall b p, In b l -> In p (snd b) -> (pl_type p < length (rin_items i))%nat) ->
      exists cnt', hand_out_all (fun x k0 => entry (rtype (red0 i) x) k0) cnt (map (fun b : nat * list Place => map (fun p => mkComp (nth (pl_type p) (seq 0 (length (rin_items i))) O) (pl_x p) (pl_y p) (pl_rot p) []) (snd b)) l)
        = Some (map (fun b => map (fun p => mkComp (pl_type p) (pl_x p) (pl_y p) (pl_rot p) []) (snd b)) l, cnt')).
    { induction l as [|b l IH]; intros cnt T; [exists cnt; reflexivity|]. cbn [map hand_out_all]. destruct (Ho (snd b) cnt (fun p Hp => T b p (or_introl eq_refl) Hp)) as (c1 & E1). rewrite E1.
      destruct (IH c1 (fun b' p Hb' Hp => T b' p (or_intror Hb') Hp)) as (c2 & E2). rewrite E2. exists c2. reflexivity. }
    destruct (Ha bs (fun _ => O) Ty) as (cnt' & E). rewrite E. cbn [option_map fst]. cbn [map]. rewrite app_nil_r. f_equal. clear. induction bs as [|[t ps] bs IH]; [reflexivity|]. cbn [map combine fst snd]. f_equal; [|exact IH].
    f_equal. induction ps as [|[t' x y r] ps IHp]; [reflexivity|]. cbn [map flat_map place_comp app pl_type pl_x pl_y pl_rot]. rewrite IHp. reflexivity.
Qed.

(** ** An exact subset-sum solver, and a sub-solver made honest by checking its
    answers: the hypotheses can be met *)

Fixpoint sums (gs : list (list Z)) : list Z :=
  match gs with [] => [0] | g :: gs' => sums gs' ++ flat_map (fun w => map (Z.add w) (sums gs')) g end.
Definition best_sum (cap : Z) (gs : list (list Z)) : Z :=
  if cap <? 0 then cap else fold_right Z.max 0 (filter (fun v => v <=? cap) (sums gs)).
Lemma picks_sums : forall gs v, picks gs v -> In v (sums gs).
Proof.
  intros gs v P. induction P as [|g gs v P IH|g gs v w Hw P IH]; cbn [sums]; [left; reflexivity|apply in_or_app; left; exact IH|apply in_or_app; right].
  apply in_flat_map. exists w. split; [exact Hw|]. apply in_map. exact IH.
Qed.
Lemma best_sum_honest : subset_sum_honest best_sum.
Proof.
  intros cap gs. unfold best_sum. destruct (Z.ltb_spec cap 0) as [L|L]; [split; [lia|intros v _ Hv; exact Hv]|].
  assert (A : forall l, (forall v, In v l -> v <= cap) -> fold_right Z.max 0 l <= cap /\ forall v, In v l -> v <= fold_right Z.max 0 l).
  { induction l as [|u l IH]; intros B; cbn [fold_right]; [split; [lia|intros v []]|]. destruct (IH (fun v Hv => B v (or_intror Hv))) as [I1 I2]. pose proof (B u (or_introl eq_refl)). split; [lia|].
    intros v [<-|Hv]; [lia|]. specialize (I2 v Hv). lia. }
  destruct (A (filter (fun v => v <=? cap) (sums gs))) as [A1 A2]; [intros v Hv; apply filter_In in Hv; apply Z.leb_le; apply Hv|]. split; [exact A1|]. intros v P Hv. apply A2. apply filter_In. split; [apply picks_sums; exact P|apply Z.leb_le; exact Hv].
Qed.

Definition place_checks (j : RInstance) (bt : RBin) (p : Place) : bool :=
  Nat.ltb (pl_type p) (length (rin_items j)) && (0 <=? pl_x p) && (pl_xe j p <=? rb_x bt) && (0 <=? pl_y p) && (pl_ye j p <=? rb_y bt)
  && (negb (pl_rot p) || negb (ri_oriented (ritem j (pl_type p)))).
Definition apart_checks (j : RInstance) (p q : Place) : bool :=
  (pl_xe j p <=? pl_x q) || (pl_xe j q <=? pl_x p) || (pl_ye j p <=? pl_y q) || (pl_ye j q <=? pl_y p).
Fixpoint all_apart (j : RInstance) (ps : list Place) : bool :=
  match ps with [] => true | p :: ps' => forallb (apart_checks j p) ps' && all_apart j ps' end.
Definition bin_checks (j : RInstance) (d : RDesc) : bool :=
  Nat.ltb (rd_type d) (length (rin_bins j)) && (1 <=? rd_copies d) && forallb (place_checks j (rbin j (rd_type d))) (rd_items d) && all_apart j (rd_items d)
  && match rb_defects (rbin j (rd_type d)) with [] => true | _ => false end.
Definition answer_checks (j : RInstance) (ds : list RDesc) : bool :=
  forallb (bin_checks j) ds
  && forallb (fun x => rpacked x ds =? ri_copies (ritem j x)) (seq 0 (length (rin_items j)))
  && forallb (fun t => (rb_copies (rbin j t) <? 0) || (rused_bins t ds <=? rb_copies (rbin j t))) (seq 0 (length (rin_bins j))).
Definition all_used (j : RInstance) (ds : list RDesc) : bool :=
  forallb (fun t => (rused_bins t ds =? 0) || (rused_bins t ds =? rb_copies (rbin j t))) (seq 0 (length (rin_bins j))).
Definition checked_solver (f : nat -> RInstance -> list RDesc) (all : bool) (c : nat) (j : RInstance) : option (list RDesc) :=
  if answer_checks j (f c j) && (negb all || all_used j (f c j)) then Some (f c j) else None.

Lemma answer_checks_solves : forall j ds, answer_checks j ds = true -> solves j ds.
Proof.
  intros j ds E. unfold answer_checks in E. rewrite !andb_true_iff, !forallb_forall in E. destruct E as ((E1 & E2) & E3).
  assert (F : rall_packed j ds) by (intros x Hx; apply Z.eqb_eq, E2, in_seq; lia). split; [split|split; [exact F|]].
  - intros d Hd. specialize (E1 d Hd). unfold bin_checks in E1. rewrite !andb_true_iff, forallb_forall in E1. destruct E1 as ((((A & B) & C) & D) & G). apply Nat.ltb_lt in A. apply Z.leb_le in B. split; [exact A|]. split; [exact B|]. split.
    + intros p Hp. specialize (C p Hp). unfold place_checks in C. rewrite !andb_true_iff, Nat.ltb_lt, !Z.leb_le, orb_true_iff, !negb_true_iff in C. destruct C as (((((C1 & C2) & C3) & C4) & C5) & C6).
      split; [exact C1|split; assumption|split; assumption|]. intros Hr. destruct C6 as [C6|C6]; [congruence|exact C6].
    + clear - D. induction (rd_items d) as [|p ps IH]; [constructor|]. cbn [all_apart] in D. apply andb_true_iff in D. destruct D as [D1 D2]. rewrite forallb_forall in D1. constructor; [|apply IH; exact D2].
      apply Forall_forall. intros q Hq. specialize (D1 q Hq). unfold apart_checks in D1. rewrite !orb_true_iff, !Z.leb_le in D1. unfold disjoint. tauto.
    + destruct (rb_defects (rbin j (rd_type d))); [intros p e _ []|discriminate G].
  - intros x Hx. rewrite (F x Hx). lia.
  - intros t Ht Hc. specialize (E3 t ltac:(apply in_seq; lia)). apply orb_true_iff in E3. rewrite Z.ltb_lt, Z.leb_le in E3. lia.
Qed.
Lemma checked_honest : forall f all, solver_honest (checked_solver f all).
Proof.
  intros f all c j ds E. unfold checked_solver in E. destruct (answer_checks j (f c j)) eqn:A; [|discriminate E]. destruct (answer_checks_solves _ _ A) as (P & F & C).
  destruct (negb all || all_used j (f c j)); [|discriminate E]. injection E as <-. split; [exact P|]. split; [exact F|exact C].
Qed.
Lemma checked_all : forall f, uses_all_copies (checked_solver f true).
Proof.
  intros f c j ds E t Ht. unfold checked_solver in E. destruct (answer_checks j (f c j)); [|discriminate E]. cbn [negb orb andb] in E. destruct (all_used j (f c j)) eqn:A; [|discriminate E]. injection E as <-.
  unfold all_used in A. rewrite forallb_forall in A. specialize (A t ltac:(apply in_seq; lia)). rewrite orb_true_iff, !Z.eqb_eq in A. exact A.
Qed.

(** ** A concrete case: a 10x10 bin; a 10x10 item; an item 6x10 with an item 4x10
    as its companion; three items 5x5 *)

Definition ex_item (x y copies : Z) (oriented : bool) : RItem := mkRI x y (inject_Z (x * y)) copies copies 0 oriented 0 (-1) [].
Definition ex_bin (x y copies copies_min : Z) : RBin := mkRB x y (inject_Z (x * y)) copies copies_min None no_truck [] [] [].
Definition ex_params : RParams := mkRP UNone LArea [].
Definition ex_o (all : bool) (ans : list RDesc) : ROracle := mkRO (checked_solver (fun _ _ => ans) all) best_sum (fun _ => false).

Definition ex_i : RInstance := mkRInst OBinPacking ex_params
  [ex_item 10 10 1 true; ex_item 6 10 1 true; ex_item 4 10 1 false; ex_item 5 5 3 false] [ex_bin 10 10 4 0].
Definition ex_solver : ROracle := ex_o true [mkRD 0 1 [mkPl 0 0 0 false]].

Lemma ex_reducible : applies ex_i = true /\ reducible_by ex_solver ex_i.
Proof.
  split; [reflexivity|]. assert (Es : shrunk ex_solver ex_i = (10, 10)) by (vm_compute; reflexivity). rewrite Es. cbn [fst snd]. split.
  - intros it [<-|[<-|[<-|[<-|[]]]]]; cbn; lia.
  - intros t Ht. cbn in Ht. assert (t = O) as -> by lia. cbn. lia.
  - apply best_sum_honest.
  - apply checked_honest.
  - left. apply checked_all.
  - intros x Hx Ho. cbn in Hx. do 4 (destruct x as [|x]; [try discriminate Ho; unfold big_both_ways; cbn; lia|]). lia.
Qed.
Example C44_example : exists r ds, reduce ex_solver 3 ex_i = Some r /\ dedicated (rr_state r) = 2
  /\ rin_items (rr_instance r) = [ex_item 5 5 3 false] /\ rr_ids r = [3%nat] /\ rb_copies (rbin (rr_instance r) 0) = 2 /\ rr_infeasible r = false
  /\ solves (rr_instance r) ds
  /\ unreduce r ds = Some [mkRD 0 1 [mkPl 3 0 0 false; mkPl 3 5 0 false; mkPl 3 0 5 true]; mkRD 0 1 [mkPl 0 0 0 false]; mkRD 0 1 [mkPl 1 0 0 false; mkPl 2 6 0 false]]
  /\ minimum_bins (rr_instance r) 1 /\ minimum_bins ex_i 3.
Proof.
  destruct (reduce ex_solver 3 ex_i) as [r|] eqn:E; [|vm_compute in E; discriminate E].
  set (ds := [mkRD 0 1 [mkPl 0 0 0 false; mkPl 0 5 0 false; mkPl 0 0 5 true]]). exists r, ds. split; [reflexivity|].
  assert (E' := E). vm_compute in E'. assert (S : solves (rr_instance r) ds) by (injection E' as <-; apply answer_checks_solves; vm_compute; reflexivity).
  assert (F : rr_infeasible r = false) by (injection E' as <-; reflexivity). assert (D : dedicated (rr_state r) = 2) by (injection E' as <-; reflexivity).
  split; [exact D|]. split; [injection E' as <-; vm_compute; reflexivity|]. split; [injection E' as <-; reflexivity|]. split; [injection E' as <-; reflexivity|]. split; [exact F|]. split; [exact S|].
  split; [injection E' as <-; vm_compute; reflexivity|].
  assert (M : minimum_bins (rr_instance r) 1).
  { split; [exists ds; split; [exact S|reflexivity]|]. intros es (P & Fu & _). destruct es as [|e es].
    - exfalso. specialize (Fu 0%nat). injection E' as <-. specialize (Fu ltac:(cbn; lia)). cbn in Fu. lia.
    - unfold rbins_used. rewrite zsum_cons. destruct (pa_bins _ _ P e (or_introl eq_refl)) as (_ & C & _). assert (0 <= zsum rd_copies es) by (apply zsum_nonneg; intros g Hg; destruct (pa_bins _ _ P g (or_intror Hg)) as (_ & C2 & _); lia). lia. }
  split; [exact M|]. destruct ex_reducible as [A R]. pose proof (proj1 (C44_minimum ex_solver 3 ex_i r 1 A R E F) M) as X. rewrite D in X. exact X.
Qed.

(** ** What the hypotheses exclude *)

(** An item with two copies, of which the sub-solver fills one only: the list of
    companions has one entry instead of two, and is read out of range. *)
Theorem C44_partly_filled_refuted : exists o i k, applies i = true /\ positive_items i /\ positive_bins i /\ solver_honest (ro_solve o) /\ subset_sum_honest (ro_subset_sum o)
  /\ (forall it, In it (rin_items i) -> ri_oriented it = true) /\ rb_copies_min (rbin i 0) = 0 /\ reduce o k i = None.
Proof.
  exists (ex_o false [mkRD 0 1 [mkPl 0 0 0 false]]), (mkRInst OBinPacking ex_params [ex_item 6 10 2 true; ex_item 4 10 1 true] [ex_bin 10 10 4 0]), 1%nat.
  split; [reflexivity|]. split; [intros it [<-|[<-|[]]]; cbn; lia|]. split; [intros it [<-|[]]; cbn; lia|]. split; [apply checked_honest|]. split; [apply best_sum_honest|].
  split; [intros it [<-|[<-|[]]]; reflexivity|]. split; [reflexivity|]. vm_compute. reflexivity.
Qed.

(** Two items 6x5, each larger than the half of the 10x8 bin in both directions,
    fit together in it once turned: the completed solution has three of them. *)
Theorem C44_turned_refuted : exists o i k r ds ds', applies i = true /\ positive_items i /\ positive_bins i /\ solver_honest (ro_solve o) /\ uses_all_copies (ro_solve o) /\ subset_sum_honest (ro_subset_sum o)
  /\ rb_copies_min (rbin i 0) = 0 /\ reduce o k i = Some r /\ solves (rr_instance r) ds /\ unreduce r ds = Some ds' /\ ri_copies (ritem i 0) = 2 /\ rpacked 0 ds' = 3.
Proof.
  exists (mkRO (checked_solver (fun _ _ => [mkRD 0 1 [mkPl 0 0 0 true; mkPl 0 5 0 true; mkPl 1 0 6 false]; mkRD 0 1 []]) true) best_sum (fun _ => false)),
    (mkRInst OBinPacking ex_params [ex_item 6 5 2 false; ex_item 10 2 1 true] [ex_bin 10 8 4 0]), 1%nat.
  eexists. exists [mkRD 0 1 [mkPl 0 0 0 false]]. eexists.
  split; [reflexivity|]. split; [intros it [<-|[<-|[]]]; cbn; lia|]. split; [intros it [<-|[]]; cbn; lia|]. split; [apply checked_honest|]. split; [apply checked_all|]. split; [apply best_sum_honest|].
  split; [reflexivity|]. split; [vm_compute; reflexivity|]. split; [apply answer_checks_solves; vm_compute; reflexivity|]. split; [vm_compute; reflexivity|]. split; [reflexivity|]. vm_compute. reflexivity.
Qed.

(** Mandatory bins: the number of copies is lowered before the number of mandatory
    copies, and the instance builder throws. *)
Theorem C44_mandatory_bins_refuted : exists o i k, applies i = true /\ positive_items i /\ positive_bins i /\ solver_honest (ro_solve o) /\ uses_all_copies (ro_solve o) /\ subset_sum_honest (ro_subset_sum o)
  /\ (forall it, In it (rin_items i) -> ri_oriented it = true) /\ rb_copies_min (rbin i 0) = rb_copies (rbin i 0)
  /\ (exists ds, solves i ds /\ rbins_used ds = rb_copies (rbin i 0)) /\ reduce o k i = None.
Proof.
  exists (ex_o true []), (mkRInst OFeasibility ex_params [ex_item 10 10 1 true; ex_item 3 3 1 true] [ex_bin 10 10 2 2]), 1%nat.
  split; [reflexivity|]. split; [intros it [<-|[<-|[]]]; cbn; lia|]. split; [intros it [<-|[]]; cbn; lia|]. split; [apply checked_honest|]. split; [apply checked_all|]. split; [apply best_sum_honest|].
  split; [intros it [<-|[<-|[]]]; reflexivity|]. split; [reflexivity|]. split.
  - exists [mkRD 0 1 [mkPl 0 0 0 false]; mkRD 0 1 [mkPl 1 0 0 false]]. split; [apply answer_checks_solves; vm_compute; reflexivity|reflexivity].
  - vm_compute. reflexivity.
Qed.

(** Eligibility is ignored: an item that may not be in the bin is put in a
    dedicated bin. *)
Theorem C44_eligibility_refuted : exists o i k r ds ds', applies i = true /\ reducible_by o i /\ reduce o k i = Some r /\ rr_infeasible r = false
  /\ solves (rr_instance r) ds /\ relig_ok (rr_instance r) ds /\ unreduce r ds = Some ds' /\ ~ relig_ok i ds'.
Proof.
  set (i := mkRInst OBinPacking ex_params [mkRI 10 10 100 1 1 0 true 0 7 []] [ex_bin 10 10 4 0]).
  exists (ex_o true []), i, 1%nat. eexists. exists []. eexists. split; [reflexivity|]. split.
  - assert (Es : shrunk (ex_o true []) i = (10, 10)) by (vm_compute; reflexivity). rewrite Es. split.
    + intros it [<-|[]]; cbn; lia.
    + intros t Ht. cbn in Ht. assert (t = O) as -> by lia. cbn. lia.
    + apply best_sum_honest.
    + apply checked_honest.
    + left. apply checked_all.
    + intros x Hx Ho. cbn in Hx. assert (x = O) as -> by lia. discriminate Ho.
  - split; [vm_compute; reflexivity|]. split; [reflexivity|]. split; [apply answer_checks_solves; vm_compute; reflexivity|]. split; [intros d p []|]. split; [vm_compute; reflexivity|].
    intros El. specialize (El _ (mkPl 0 0 0 false) (or_introl eq_refl) (or_introl eq_refl)). cbn in El. destruct El as [El|[]]. discriminate El.
Qed.

(** The rebuilt instance is not the original one if a knapsack item has mandatory
    copies. *)
Theorem C44_rebuild_refuted : exists o k i r, applies i = false /\ positive_items i /\ reduce o k i = Some r /\ rr_instance r <> i
  /\ ri_copies_min (ritem i 0) = 2 /\ ri_copies_min (ritem (rr_instance r) 0) = 0.
Proof.
  exists (ex_o true []), 1%nat, (mkRInst OKnapsack ex_params [mkRI 3 3 9 2 2 0 true 0 (-1) []] [ex_bin 10 10 1 0]). eexists. split; [reflexivity|]. split; [intros it [<-|[]]; cbn; lia|].
  split; [vm_compute; reflexivity|]. split; [discriminate|]. split; reflexivity.
Qed.

Print Assumptions C44_built.
Print Assumptions C44_valid.
Print Assumptions C44_solution.
Print Assumptions C44_optimum.
Print Assumptions C44_infeasible.
Print Assumptions C44_minimum.
Print Assumptions C44_not_applied.
Print Assumptions C44_partly_filled_refuted.
Print Assumptions C44_turned_refuted.
Print Assumptions C44_mandatory_bins_refuted.
Print Assumptions C44_eligibility_refuted.
Print Assumptions C44_rebuild_refuted.
