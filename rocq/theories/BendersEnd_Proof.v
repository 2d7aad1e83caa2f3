(** * Claims, termination and solutions of the Benders decomposition *)

From Coq Require Import List ZArith QArith Bool Lia Lqa Arith Permutation.
From Verif Require Import Util Common_Model Common_Spec Common_Proof OneDim_Model OneDim_Spec OneDim_Proof OneDim_Order
  OneDimBuilder_Model OneDimBuilder_Spec OneDimBuilder_Proof OneDimBounds_Spec Milp_Model Milp_Spec
  Rect_Model Rect_Spec RectDff_Model RectDff_Proof RectDff_Props RectSol_Spec Bar_Spec RectBounds_Model RectBounds_Spec RectBounds_Proof
  Benders_Model Benders_Spec Benders_Proof BendersCuts_Proof BendersLift_Proof BendersMaster_Proof BendersPrec_Proof BendersRun_Proof.
Import ListNotations.
Open Scope Z_scope.

(** ** The whole run *)

Section All.
Variable i : RInstance.
Variable extra : nat -> list Place -> Prop.
Variable o : Oracles.
Let ni := length (rin_items i).
Let nb := length (rin_bins i).
Hypothesis Hdom : bd_domain i.
Hypothesis Hmono : monotone extra.
Hypothesis Hmaster : master_right o.
Hypothesis Hmvalid : master_valid o.
Hypothesis Hsub : forall k, sub_right i extra (or_sub o k).

(** The solutions of the run. *)
Lemma step_solutions : forall k s, cuts_wf i s -> (forall d, In d (bs_solutions s) -> bd_solution i extra d) ->
  forall d, In d (bs_solutions (outcome_state (iteration i o k s))) -> bd_solution i extra d.
Proof.
  intros k s W H. destruct (iteration_step i o k s) as [_|i1 s1 _ ->|i1 s1 dff' _ _ E1|i1 s1 dff' no_good' proven' solution feasible r s2 EB _ E1 E2 Es2 Hr]; cbn [outcome_state].
  - exact H.
  - destruct (bs_proven s); exact H.
  - exact H.
  - assert (H2 : forall d, In d (bs_solutions s2) -> bd_solution i extra d).
    { rewrite Es2. cbn [bs_solutions]. intros d Hd. destruct (0 <? zsum rd_copies solution); [|apply H; exact Hd]. apply in_app_iff in Hd. destruct Hd as [Hd|[<-|[]]]; [apply H; exact Hd|].
      destruct (pass2_cuts i extra o _ _ _ _ _ _ _ _ _ _ E2) as (_ & _ & _ & Es & _). cbn [app] in Es. rewrite Es. apply (descs_solution i extra o Hdom Hmvalid Hsub s k W i1 EB). }
    destruct Hr as [(_ & ->)|[(_ & _ & ->)|(_ & _ & ->)]]; exact H2.
Qed.

Section Proven.
Hypothesis Hbar : forall k, bar_right (or_bar o k).
Hypothesis Hlift : forall k, lifts_at_most_one i (or_bar o k).

Lemma step_valid : forall k s, cuts_wf i s -> cuts_valid i extra s -> cuts_valid i extra (outcome_state (iteration i o k s)).
Proof.
  intros k s W V. pose proof V as [V1 V2]. destruct (iteration_step i o k s) as [_|i1 s1 _ ->|i1 s1 dff' EB _ E1|i1 s1 dff' no_good' proven' solution feasible r s2 EB _ E1 E2 Es2 Hr]; cbn [outcome_state].
  - exact V.
  - destruct (bs_proven s) eqn:P; [|exact V]. constructor; cbn [bs_dff bs_no_good bs_proven]; assumption.
  - constructor; cbn [bs_dff bs_no_good bs_proven]; [|exact V2]. apply (pass1_valid i extra o Hdom s k i1 dff' true V1 E1).
  - assert (H2 : cuts_valid i extra s2).
    { rewrite Es2. constructor; cbn [bs_dff bs_no_good bs_proven]; [exact V1|]. intros P t c Ht Hc.
      destruct (pass2_cuts i extra o _ _ _ _ _ _ _ _ _ _ E2) as (_ & C & Pr & _). destruct (C t c Hc) as [X|X]; [apply (V2 (Pr P) t c Ht X)|].
      rewrite P in X. apply (new_cut_valid i extra o Hdom Hmono Hmvalid Hsub s k W i1 EB t c (Hbar k) (Hlift k) X). }
    destruct Hr as [(_ & ->)|[(_ & _ & ->)|(_ & _ & ->)]]; exact H2.
Qed.

Hypothesis Ho : same_orientation i.
Hypothesis Hplain : rin_objective i = OKnapsack -> plain_items i extra.

Lemma step_claims : forall k s, cuts_wf i s -> cuts_valid i extra s -> (forall c, In c (bs_claims s) -> bd_claim_right i extra c) ->
  forall c, In c (bs_claims (outcome_state (iteration i o k s))) -> bd_claim_right i extra c.
Proof.
  intros k s W V H.
  assert (H1 : forall i1 s1, b_build (master_builder i (bs_dff s) (bs_no_good s)) = Built i1 ->
    s1 = (if bs_proven s then mkBS (bs_dff s) (bs_no_good s) (bs_proven s) (bs_claims s ++ [passed_on i (mo_claim (or_master o k i1 (precedences i)))]) (bs_solutions s) else s) ->
    forall c, In c (bs_claims s1) -> bd_claim_right i extra c).
  { intros i1 s1 EB ->. destruct (bs_proven s) eqn:P; [|exact H]. cbn [bs_claims]. intros c Hc. apply in_app_iff in Hc. destruct Hc as [Hc|[<-|[]]]; [apply H; exact Hc|].
    apply (claim_passes i extra o Hdom Hmono Hmaster s k W i1 EB Ho Hplain V P). }
  destruct (iteration_step i o k s) as [_|i1 s1 EB E|i1 s1 dff' EB E E1|i1 s1 dff' no_good' proven' solution feasible r s2 EB E E1 E2 Es2 Hr]; cbn [outcome_state].
  - exact H.
  - apply (H1 i1 s1 EB E).
  - cbn [bs_claims]. apply (H1 i1 s1 EB E).
  - assert (H2 : forall c, In c (bs_claims s2) -> bd_claim_right i extra c) by (rewrite Es2; cbn [bs_claims]; apply (H1 i1 s1 EB E)).
    destruct Hr as [(_ & ->)|[(_ & _ & ->)|(_ & _ & ->)]]; exact H2.
Qed.

Record good (s : BState) : Prop := {
  gd_wf : cuts_wf i s;
  gd_valid : cuts_valid i extra s;
  gd_claims : forall c, In c (bs_claims s) -> bd_claim_right i extra c
}.

Lemma good_initial : good initial_state.
Proof.
  constructor.
  - constructor; intros t c [].
  - constructor; [intros t c _ []|intros _ t c _ []].
  - intros c [].
Qed.

Lemma step_good : forall k s, good s -> good (outcome_state (iteration i o k s)).
Proof.
  intros k s [A B C]. constructor; [apply (step_wf i extra); exact A|apply step_valid; assumption|apply step_claims; assumption].
Qed.

Lemma iterations_good : forall n k s, good s -> good (outcome_state (iterations i o n k s)).
Proof.
  induction n as [|n IH]; intros k s G; [exact G|]. cbn [iterations]. pose proof (step_good k s G) as G'. destruct (iteration i o k s) as [s'|s'|s']; [apply IH; exact G'|exact G'|exact G'].
Qed.

Lemma run_good : forall n, good (outcome_state (benders i o n)).
Proof. intro n. apply iterations_good. apply good_initial. Qed.

End Proven.

Lemma iterations_solutions : forall n k s, cuts_wf i s -> (forall d, In d (bs_solutions s) -> bd_solution i extra d) ->
  cuts_wf i (outcome_state (iterations i o n k s)) /\ forall d, In d (bs_solutions (outcome_state (iterations i o n k s))) -> bd_solution i extra d.
Proof.
  induction n as [|n IH]; intros k s W H; [split; assumption|]. cbn [iterations]. pose proof (step_wf i extra o k s W) as W'. pose proof (step_solutions k s W H) as H'.
  destruct (iteration i o k s) as [s'|s'|s']; cbn [outcome_state] in *; [apply IH; assumption|split; assumption|split; assumption].
Qed.

Lemma run_solutions : forall n d, In d (bs_solutions (outcome_state (benders i o n))) -> bd_solution i extra d.
Proof. intro n. apply iterations_solutions; [constructor; intros t c []|intros d []]. Qed.

(** The check never fails when the cuts are valid. *)
Lemma cuts_check : forall dff no_good best, (forall t c, (t < nb)%nat -> In c (dff t ++ no_good t) -> cut_valid i extra t c) ->
  bd_solution i extra best -> check_cuts_throws i dff no_good best = false.
Proof.
  intros dff no_good best V [S1 _ _]. unfold check_cuts_throws. destruct (existsb _ _) eqn:E; [|reflexivity]. exfalso.
  apply existsb_exists in E. destruct E as (t & Ht & E). apply in_seq in Ht. fold nb in Ht. apply existsb_exists in E. destruct E as (c & Hc & E).
  unfold cut_violates in E. apply existsb_exists in E. destruct E as (d & Hd & E). apply andb_true_iff in E. destruct E as [E1 E2]. apply Nat.eqb_eq in E1.
  destruct (S1 d Hd) as (_ & _ & Hok). rewrite E1 in Hok. pose proof (V t c ltac:(lia) Hc _ Hok) as L.
  unfold strictly_greater in E2. apply Qltb_lt in E2. assert (0 < tol)%Q by reflexivity. lra.
Qed.

(** ** Termination *)

Section Ends.
Hypothesis Hmax : (1 <= or_maximum o)%nat.

Fixpoint vectors (its : list RItem) : list (list Z) :=
  match its with
  | [] => [[]]
  | it :: its' => flat_map (fun n => map (cons n) (vectors its')) (map Z.of_nat (seq 0 (S (Z.to_nat (ri_copies it)))))
  end.
Definition candidates : list (nat * list Z) := flat_map (fun t => map (pair t) (vectors (rin_items i))) (seq 0 nb).

Lemma vectors_length : forall its, length (vectors its) = fold_right (fun it n => (S (Z.to_nat (ri_copies it)) * n)%nat) 1%nat its.
Proof.
  clear. induction its as [|it its IH]; [reflexivity|]. cbn [vectors fold_right]. rewrite <- IH. generalize (S (Z.to_nat (ri_copies it))) as m. generalize 0%nat as k. intros k m. revert k.
  induction m as [|m IHm]; intro k; [reflexivity|]. cbn [seq map flat_map]. rewrite app_length, map_length, IHm. lia.
Qed.
Lemma candidates_length : length candidates = (nb * fold_right (fun it n => (S (Z.to_nat (ri_copies it)) * n)%nat) 1%nat (rin_items i))%nat.
Proof.
  unfold candidates. rewrite <- vectors_length. generalize nb as m. clear - i. generalize 0%nat as k. intros k m. revert k.
  induction m as [|m IHm]; intro k; [reflexivity|]. cbn [seq flat_map]. rewrite app_length, map_length, IHm. lia.
Qed.

Lemma in_vectors : forall its (f : nat -> Z) k, (forall x, (x < length its)%nat -> 0 <= f (k + x)%nat <= ri_copies (nth x its dummy_ritem)) ->
  In (map f (seq k (length its))) (vectors its).
Proof.
  induction its as [|it its IH]; intros f k H; [left; reflexivity|]. cbn [length seq map vectors]. apply in_flat_map. exists (f k). split.
  - specialize (H 0%nat ltac:(cbn [length]; lia)). rewrite Nat.add_0_r in H. cbn [nth] in H. apply (in_map_iff Z.of_nat (seq 0 (S (Z.to_nat (ri_copies it)))) (f k)). exists (Z.to_nat (f k)). split; [lia|]. apply in_seq. lia.
  - apply in_map. apply IH. intros x Hx. specialize (H (S x) ltac:(cbn [length]; lia)). cbn [nth] in H. replace (k + S x)%nat with (S k + x)%nat in H by lia. exact H.
Qed.

(** Counts of a bin of the master. *)
Definition bin_vector (d : BinDesc) : nat * list Z := (bd_type d, map (cnt (bd_items d)) (seq 0 ni)).

Definition satisfied (s : BState) (tv : nat * list Z) : bool :=
  forallb (fun c => Qle_bool (cut_consumption c (fun x => nth x (snd tv) 0)) (ct_capacity c)) (bs_dff s (fst tv) ++ bs_no_good s (fst tv)).
Definition potential (s : BState) : nat := length (filter (satisfied s) candidates).

Lemma vector_consumption : forall d c, cut_wf ni c ->
  cut_consumption c (fun x => nth x (snd (bin_vector d)) 0) = cut_consumption c (cnt (bd_items d)).
Proof.
  intros d c [_ T]. rewrite !cut_consumption_entries. unfold bin_vector. cbn [snd]. induction (ct_consumption c) as [|e es IH]; [reflexivity|].
  rewrite !qsum_cons, IH by (intros x Hx; apply T; right; exact Hx). f_equal. rewrite (nth_map_seq _ (cnt (bd_items d)) ni (fst e) 0) by (apply T; left; reflexivity). reflexivity.
Qed.

Lemma filter_strict2 : forall (A : Type) (f g : A -> bool) l, (forall y, f y = true -> g y = true) ->
  (length (filter f l) <= length (filter g l))%nat /\ ((exists z, In z l /\ g z = true /\ f z = false) -> (length (filter f l) < length (filter g l))%nat).
Proof.
  intros A f g l H. induction l as [|y l IH]; [split; [cbn; lia|intros (z & [] & _)]|]. destruct IH as [IH1 IH2]. cbn [filter].
  destruct (f y) eqn:Fy; [rewrite (H y Fy); cbn [length]; split; [lia|]|].
  - intros (z & [->|Hz] & G & F); [congruence|]. apply -> Nat.succ_lt_mono. apply IH2. exists z. tauto.
  - destruct (g y) eqn:Gy; cbn [length]; split; try lia.
    intros (z & [->|Hz] & G & F); [congruence|]. apply IH2. exists z. tauto.
Qed.

Lemma potential_decreases : forall k s s' i1 d c, cuts_wf i s -> b_build (master_builder i (bs_dff s) (bs_no_good s)) = Built i1 ->
  In d (mo_solution (or_master o k i1 (precedences i))) ->
  (forall t c, In c (bs_dff s t ++ bs_no_good s t) -> In c (bs_dff s' t ++ bs_no_good s' t)) ->
  In c (bs_dff s' (bd_type d) ++ bs_no_good s' (bd_type d)) -> cut_wf ni c -> ~ (cut_consumption c (cnt (bd_items d)) <= ct_capacity c)%Q ->
  (potential s' < potential s)%nat.
Proof.
  intros k s s' i1 d c W EB Hd Hgrow Hc Hcw Hviol. destruct (master_bins i o Hdom Hmvalid s k W i1 EB d Hd) as (A1 & A2 & A3 & A4 & A5).
  unfold potential. apply filter_strict2.
  - intros tv H. unfold satisfied in *. rewrite forallb_forall in *. intros c0 Hc0. apply H. apply Hgrow. exact Hc0.
  - exists (bin_vector d). split; [|split].
    + unfold candidates, bin_vector. apply in_flat_map. exists (bd_type d). split; [apply in_seq; unfold nb; lia|]. apply in_map. apply (in_vectors (rin_items i) (cnt (bd_items d)) 0).
      intros x Hx. cbn [Nat.add]. specialize (A4 x Hx). unfold cnt, ritem in *. lia.
    + unfold satisfied. apply forallb_forall. intros c0 Hc0. change (fst (bin_vector d)) with (bd_type d) in Hc0.
      assert (I0 : In c0 (static_cuts i (bd_type d) ++ bs_dff s (bd_type d) ++ bs_no_good s (bd_type d))) by (apply in_app_iff; right; exact Hc0).
      rewrite vector_consumption by (apply (store_wf i s W (bd_type d) c0 A1 I0)).
      apply Qle_bool_iff. apply (A5 c0). exact I0.
    + destruct (satisfied s' (bin_vector d)) eqn:E; [|reflexivity]. exfalso. unfold satisfied in E. rewrite forallb_forall in E. specialize (E c Hc).
      rewrite vector_consumption in E by exact Hcw. apply Qle_bool_iff in E. contradiction.
Qed.

Lemma aggregate_sum : forall us (f : nat -> Z), zsum (fun x => cnt us x * f x) (seq 0 ni) = zsum (fun p => snd p * f (fst p)) (aggregate i us).
Proof.
  intros us f. unfold aggregate. fold ni. induction (seq 0 ni) as [|x l IH]; [reflexivity|]. cbn [map filter]. rewrite zsum_cons, IH.
  change (Z.of_nat (count_occ Nat.eq_dec us x)) with (cnt us x). cbn [snd]. destruct (Z.ltb_spec 0 (cnt us x)) as [L|L]; [rewrite zsum_cons; cbn [fst snd]; reflexivity|].
  assert (0 <= cnt us x) by (unfold cnt; lia). replace (cnt us x) with 0 by lia. lia.
Qed.

Lemma step_decreases : forall k s s', cuts_wf i s -> iteration i o k s = Continue s' -> (potential s' < potential s)%nat.
Proof.
  intros k s s' W E. pose proof (step_wf i extra o k s W) as W'. rewrite E in W'. cbn [outcome_state] in W'. destruct W' as [Wd Wn].
  pose proof (iteration_step i o k s) as St. rewrite E in St. inversion St as [|i1 s1|i1 s1 dff' EB E0 E1 Es|i1 s1 dff' no_good' proven' solution feasible r s2 EB E0 E1 E2 Es2 Hr Er].
  - subst s'. destruct (pass1_cuts i extra _ _ _ _ _ E1) as (A & _ & C & _). destruct (C eq_refl) as [X|(d & dc & Hd & F & G & Hin)]; [discriminate|].
    apply (potential_decreases k s _ i1 d (dff_resource i dc) W EB Hd).
    + intros t c Hc. cbn [bs_dff bs_no_good]. apply in_app_iff in Hc. apply in_app_iff. destruct Hc as [Hc|Hc]; [left; apply A; exact Hc|right; exact Hc].
    + cbn [bs_dff bs_no_good]. apply in_app_iff. left. exact Hin.
    + apply dff_wf.
    + destruct (master_bins i o Hdom Hmvalid s k W i1 EB d Hd) as (A1 & _).
      apply (dff_violated i (bd_type d) (aggregate i (bd_items d)) dc (cnt (bd_items d))).
      * apply (re_items i (do_relax i Hdom)).
      * intros bt Hbt. destruct (re_bins i (do_relax i Hdom) bt Hbt) as (X & Y & _). split; assumption.
      * exact A1.
      * exact F.
      * exact G.
      * intro x. unfold cnt. lia.
      * apply (aggregate_sum (bd_items d) (fun x => nth x (cut_coefficients dc) 0)).
  - subst r. destruct Hr as [(_ & X)|[(_ & _ & X)|(_ & Ff & X)]]; [discriminate X|discriminate X|]. injection X as X. subst s'.
    destruct (pass2_cuts i extra o _ _ _ _ _ _ _ _ _ _ E2) as (A & _ & _ & _ & _ & G). destruct (G eq_refl Ff) as (d & Hd & Full & Hall).
    set (subs := minimal_subsets i (or_sub o k) (bd_type d) (aggregate i (bd_items d)) (so_infeasible (or_sub o k (bd_type d) (aggregate i (bd_items d)))) (or_maximum o)) in *.
    assert (N : exists u, In u subs).
    { destruct subs as [|u l] eqn:Eu; [|exists u; left; reflexivity]. exfalso. unfold subs in Eu. unfold minimal_subsets in Eu. apply dfs_length in Eu; [exact Eu|exact Hmax]. }
    destruct N as (u & Hu). specialize (Hall u Hu). destruct (minimal_reported i _ _ _ _ _ _ Hu) as (vs & Ev & Hvs & _).
    apply (potential_decreases k s s2 i1 d (lift_no_good_cut i (or_bar o k) (bd_type d) (no_good_cut (fst u))) W EB Hd).
    + intros t c Hc. rewrite Es2. cbn [bs_dff bs_no_good]. apply in_app_iff in Hc. apply in_app_iff. destruct Hc as [Hc|Hc]; [left; exact Hc|right; apply A; exact Hc].
    + rewrite Es2. cbn [bs_dff bs_no_good]. apply in_app_iff. right. exact Hall.
    + apply lifted_wf; rewrite Ev; [apply aggregate_distinct|]. intros p Hp. apply (aggregate_in i vs p Hp).
    + rewrite lifted_capacity. intro L.
      assert (L' : (cut_consumption (no_good_cut (fst u)) (cnt (bd_items d)) <= ct_capacity (no_good_cut (fst u)))%Q) by (eapply Qle_trans; [apply (lifted_stronger i (or_bar o k) (bd_type d))|exact L]).
      apply (proj1 (no_good_exact (fst u) (cnt (bd_items d)) ltac:(intros p Hp; rewrite Ev in Hp; destruct (aggregate_in i vs p Hp) as (_ & _ & ?); lia) ltac:(intro x; unfold cnt; lia))) in L'.
      apply L'. intros p Hp. rewrite Ev in Hp. destruct (aggregate_in i vs p Hp) as (B1 & B2 & _). rewrite B2. apply Hvs. exact B1.
Qed.

(** The run ends. *)
Lemma iterations_end : forall n k s, cuts_wf i s -> (potential s < n)%nat -> forall s', iterations i o n k s <> Continue s'.
Proof.
  induction n as [|n IH]; intros k s W Hp s'; [lia|]. cbn [iterations]. destruct (iteration i o k s) as [s1|s1|s1] eqn:E; [|discriminate|discriminate].
  pose proof (step_decreases k s s1 W E). pose proof (step_wf i extra o k s W) as W'. rewrite E in W'. apply IH; [exact W'|lia].
Qed.

Lemma run_ends : forall n s', (length candidates < n)%nat -> benders i o n <> Continue s'.
Proof.
  intros n s' Hn. apply iterations_end; [constructor; intros t c []|]. unfold potential.
  assert (L : forall (f : nat * list Z -> bool) l, (length (filter f l) <= length l)%nat) by (intros f l; induction l as [|a l IH]; [reflexivity|]; cbn [filter]; destruct (f a); cbn [length]; lia).
  specialize (L (satisfied initial_state) candidates). lia.
Qed.

End Ends.

(** ** The solution at the end *)

Section Last.
Variable s : BState.
Variable k : nat.
Hypothesis Hw : cuts_wf i s.
Variable i1 : Instance.
Hypothesis Hb1 : b_build (master_builder i (bs_dff s) (bs_no_good s)) = Built i1.
Let sol := mo_solution (or_master o k i1 (precedences i)).
Hypothesis Hfull : forall d, In d sol -> so_full (or_sub o k (bd_type d) (aggregate i (bd_items d))) = true.

Lemma places_items : forall d, In d sol ->
  match so_places (or_sub o k (bd_type d) (aggregate i (bd_items d))) with Some ps => Permutation (map pl_type ps) (bd_items d) | None => bd_items d = [] end.
Proof.
  intros d Hd. destruct (master_bins i o Hdom Hmvalid s k Hw i1 Hb1 d Hd) as (_ & _ & A3 & _).
  destruct (Hsub k (bd_type d) (aggregate i (bd_items d))) as (S1 & S2 & _). specialize (S2 (Hfull d Hd)).
  destruct (so_places (or_sub o k (bd_type d) (aggregate i (bd_items d)))) as [ps|].
  - destruct (S1 ps eq_refl) as [Ok _]. apply (Permutation_count_occ Nat.eq_dec). intro x. destruct (lt_dec x ni) as [L|L].
    + specialize (S2 x L). rewrite (aggregate_selected i _ x L) in S2. rewrite <- count_relax in S2. unfold cnt in S2. lia.
    + rewrite !(proj1 (count_occ_not_In Nat.eq_dec _ x)); [reflexivity| |].
      * intro I. apply L. apply A3. exact I.
      * intro I. apply in_map_iff in I. destruct I as (p & E & Hp). apply L. rewrite <- E. apply (pk_type _ _ _ (ge_places _ _ _ (bo_geometry _ _ _ _ Ok) p Hp)).
  - destruct (bd_items d) as [|x l] eqn:E; [reflexivity|]. exfalso. specialize (A3 x (or_introl eq_refl)). specialize (S2 x A3).
    rewrite (aggregate_selected i _ x A3) in S2. unfold cnt in S2. cbn [count_occ] in S2. destruct (Nat.eq_dec x x) as [_|N]; [lia|contradiction].
Qed.

Lemma last_profit : rin_objective i = OKnapsack -> plain_items i extra -> (bd_profit i (pass2_descs i o k sol) == net_profit i1 sol)%Q.
Proof.
  intros K Pl. unfold bd_profit, net_profit, pass2_descs. rewrite qsum_flat. apply qsum_ext. intros d Hd.
  pose proof (places_items d Hd) as P. destruct (master_bins i o Hdom Hmvalid s k Hw i1 Hb1 d Hd) as (A1 & _ & A3 & _).
  destruct (mbins i Hdom (bs_dff s) (bs_no_good s) i1 Hb1) as [_ B]. destruct (B _ A1) as (_ & _ & _ & _ & _ & _ & E).
  destruct (mitems i Hdom (bs_dff s) (bs_no_good s) i1 Hb1) as [_ I1].
  assert (Er : rb_resources (rbin i (bd_type d)) = []) by (apply (pl_no_resources _ _ Pl); apply nth_In; exact A1).
  assert (Z0 : (penalties i1 d == 0)%Q).
  { unfold penalties. rewrite E, Er. cbn [map]. rewrite app_nil_r, qsum_map. apply qsum_zero. intros c Hc. destruct (cut_resource_ok ni c (store_wf i s Hw _ c A1 Hc)) as (_ & F & _). rewrite F. reflexivity. }
  assert (Pr : (qsum (fun x => it_profit (item_type i1 x)) (bd_items d) == qsum (fun x => ri_profit (ritem i x)) (bd_items d))%Q).
  { apply qsum_ext. intros x Hx. destruct (I1 x (A3 x Hx)) as (_ & _ & F & _). rewrite (F K). reflexivity. }
  rewrite Z0, Pr. destruct (so_places (or_sub o k (bd_type d) (aggregate i (bd_items d)))) as [ps|].
  - rewrite qsum_cons. change (qsum _ []) with 0%Q. cbn [rd_copies rd_items]. unfold rpenalties. cbn [rd_type rd_items]. rewrite Er. change (qsum _ []) with 0%Q.
    rewrite <- (qsum_perm _ (fun x => ri_profit (ritem i x)) _ _ P), qsum_map. ring.
  - rewrite P. change (qsum _ []) with 0%Q. change (qsum (fun x => ri_profit (ritem i x)) []) with 0%Q. ring.
Qed.

Lemma last_bins : rbins_used (pass2_descs i o k sol) <= zsum bd_copies sol.
Proof.
  unfold rbins_used, pass2_descs. rewrite zsum_flat_map. apply zsum_le. intros d Hd. destruct (master_bins i o Hdom Hmvalid s k Hw i1 Hb1 d Hd) as (_ & A2 & _).
  destruct (so_places (or_sub o k (bd_type d) (aggregate i (bd_items d)))) as [ps|]; [rewrite zsum_cons, zsum_nil; cbn [rd_copies]; lia|rewrite zsum_nil; lia].
Qed.

Lemma last_cost : (packing_cost i (pass2_descs i o k sol) <= cost_of i1 sol)%Q.
Proof.
  unfold packing_cost, cost_of, pass2_descs. rewrite qsum_flat. apply qsum_le. intros d Hd. destruct (master_bins i o Hdom Hmvalid s k Hw i1 Hb1 d Hd) as (A1 & A2 & _).
  destruct (mbins i Hdom (bs_dff s) (bs_no_good s) i1 Hb1) as [_ B]. destruct (B _ A1) as (_ & E & _). rewrite E.
  assert (C : (0 <= rb_cost (rbin i (bd_type d)))%Q).
  { assert (I : In (rbin i (bd_type d)) (rin_bins i)) by (apply nth_In; exact A1). destruct (re_bins i (do_relax i Hdom) _ I) as (_ & _ & Hc). destruct Hc as (_ & _ & Hc). apply Qlt_le_weak. exact Hc. }
  assert (N : (0 <= inject_Z (bd_copies d))%Q) by (change 0%Q with (inject_Z 0); rewrite <- Zle_Qle; lia).
  destruct (so_places (or_sub o k (bd_type d) (aggregate i (bd_items d)))) as [ps|].
  - rewrite qsum_cons. change (qsum _ []) with 0%Q. cbn [rd_copies rd_type]. lra.
  - change (qsum _ []) with 0%Q. apply Qmult_le_0_compat; assumption.
Qed.

End Last.

Lemma iterations_wf : forall n k s s', cuts_wf i s -> iterations i o n k s = Continue s' -> cuts_wf i s'.
Proof.
  induction n as [|n IH]; intros k s s' W E; cbn [iterations] in E; [injection E as <-; exact W|].
  destruct (iteration i o k s) as [s1|s1|s1] eqn:E1; [|discriminate E|discriminate E].
  pose proof (step_wf i extra o k s W) as W1. rewrite E1 in W1. apply (IH _ _ _ W1 E).
Qed.

Lemma iterations_last : forall n k s, iterations i o (S n) k s =
  match iterations i o n k s with Continue s' => iteration i o (n + k) s' | r => r end.
Proof.
  induction n as [|n IH]; intros k s.
  - cbn [iterations Nat.add]. destruct (iteration i o k s); reflexivity.
  - change (iterations i o (S (S n)) k s) with (match iteration i o k s with Continue s' => iterations i o (S n) (S k) s' | r => r end).
    change (iterations i o (S n) k s) with (match iteration i o k s with Continue s' => iterations i o n (S k) s' | r => r end).
    destruct (iteration i o k s) as [s1|s1|s1]; [|reflexivity|reflexivity]. rewrite IH. replace (n + S k)%nat with (S n + k)%nat by lia. reflexivity.
Qed.

Lemma stop_optimal : (rin_objective i = OKnapsack -> plain_items i extra) -> forall k s s', cuts_wf i s ->
  (forall i1, b_build (master_builder i (bs_dff s) (bs_no_good s)) = Built i1 -> master_exact i1 (or_master o k i1 (precedences i))) -> iteration i o k s = Stop s' ->
  (bs_proven s' = true -> forall c, In c (bs_claims s') -> bd_claim_right i extra c) ->
  bs_proven s' = true ->
  exists sol, (sol = [] \/ In sol (bs_solutions s')) /\ bd_solution i extra sol /\
    forall ds, bd_packing i extra ds -> bd_as_good i sol ds /\ forall x, (x < ni)%nat -> ri_copies_min (ritem i x) <= rpacked x sol.
Proof.
  intros Hplain k s s' W Hex E Hclaims Hpr. pose proof (iteration_step i o k s) as St. rewrite E in St.
  inversion St as [| |i1 s1 dff' EB E0 E1 Es|i1 s1 dff' no_good' proven' solution feasible r s2 EB E0 E1 E2 Es2 Hr Er]. subst r.
  destruct Hr as [(_ & X)|[(_ & Ff & X)|(_ & _ & X)]]; [discriminate X| |discriminate X]. injection X as X. subst s'.
  destruct (pass2_cuts i extra o _ _ _ _ _ _ _ _ _ _ E2) as (_ & _ & C & Esol & D & _). cbn [app] in Esol. destruct (D Ff) as [_ Hfull].
  rewrite Es2 in Hpr. cbn [bs_proven] in Hpr. specialize (C Hpr).
  set (out := or_master o k i1 (precedences i)) in *.
  assert (Hc : bd_claim_right i extra (passed_on i (mo_claim out))).
  { apply Hclaims; [rewrite Es2; exact Hpr|]. rewrite Es2, E0, C. cbn [bs_claims]. apply in_app_iff. right. left. reflexivity. }
  exists solution. split; [|split].
  - rewrite Es2. cbn [bs_solutions]. destruct (Z.ltb_spec 0 (zsum rd_copies solution)) as [L|L]; [right; apply in_app_iff; right; left; reflexivity|left].
    assert (P : bd_solution i extra solution) by (rewrite Esol; apply (descs_solution i extra o Hdom Hmvalid Hsub s k W i1 EB)).
    destruct solution as [|d ds]; [reflexivity|]. exfalso. rewrite zsum_cons in L.
    destruct (sn_bins _ _ _ P d (or_introl eq_refl)) as (_ & P1 & _).
    assert (0 <= zsum rd_copies ds) by (apply zsum_nonneg; intros e He; destruct (sn_bins _ _ _ P e (or_intror He)) as (_ & ? & _); lia). lia.
  - rewrite Esol. apply (descs_solution i extra o Hdom Hmvalid Hsub s k W i1 EB).
  - intros ds Hds. specialize (Hc ds Hds). destruct (Hex i1 EB) as [X|[Hmin Hval]].
    + exfalso. fold out in X. rewrite X in Hc. exact Hc.
    + fold out in Hmin, Hval. split.
      * unfold bd_as_good. rewrite (mobjective i (bs_dff s) (bs_no_good s) i1 EB) in Hval. rewrite Esol. unfold passed_on in Hc.
        destruct (rin_objective i) eqn:EO; try exact Logic.I; rewrite Hval in Hc; cbn in Hc.
        -- eapply Z.le_trans; [apply (last_bins s k W i1 EB)|exact Hc].
        -- eapply Qle_trans; [exact Hc|]. pose proof (last_profit s k W i1 EB Hfull EO (Hplain eq_refl)) as LP. cbv zeta in LP. apply Qle_lteq. right. symmetry. exact LP.
        -- eapply Qle_trans; [apply (last_cost s k W i1 EB)|exact Hc].
      * intros x Hx. rewrite Esol. pose proof (descs_packed_full i extra o Hsub k i1 Hfull x Hx) as DP. fold out in DP. rewrite DP.
        destruct (mitems i Hdom (bs_dff s) (bs_no_good s) i1 EB) as [L1 I1]. destruct (I1 x Hx) as (_ & _ & _ & _ & _ & _ & _ & F). rewrite <- F. apply Hmin. rewrite L1. exact Hx.
Qed.

End All.
