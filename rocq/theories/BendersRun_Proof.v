(** * Proofs about the main loop of the Benders decomposition *)

From Coq Require Import List ZArith QArith Bool Lia Lqa Arith Permutation.
From Verif Require Import Util Common_Model Common_Spec Common_Proof OneDim_Model OneDim_Spec OneDim_Proof OneDim_Order
  OneDimBuilder_Model OneDimBuilder_Spec OneDimBuilder_Proof OneDimBounds_Spec Milp_Model Milp_Spec
  Rect_Model Rect_Spec RectDff_Model RectDff_Proof RectDff_Props RectSol_Spec Bar_Spec RectBounds_Model RectBounds_Spec RectBounds_Proof
  Benders_Model Benders_Spec Benders_Proof BendersCuts_Proof BendersLift_Proof BendersMaster_Proof BendersPrec_Proof.
Import ListNotations.
Open Scope Z_scope.

Section Run.
Variable i : RInstance.
Variable extra : nat -> list Place -> Prop.
Variable o : Oracles.
Let ni := length (rin_items i).
Let nb := length (rin_bins i).
Hypothesis Hdom : bd_domain i.

(** ** Form of the cuts *)

Lemma static_wf : forall t c, In c (static_cuts i t) -> cut_wf ni c.
Proof.
  intros t c Hc. unfold static_cuts in Hc. apply in_flat_map in Hc. destruct Hc as (x1 & H1 & Hc).
  destruct (negb (fits_bin i x1 t)); [destruct Hc|]. apply in_flat_map in Hc. destruct Hc as (x2 & H2 & Hc).
  apply in_seq in H1, H2. fold ni in H1, H2.
  destruct (negb (fits_bin i x2 t)); [destruct Hc|]. destruct (negb (items_incompatible (ritem i x1) (ritem i x2) (rbin i t))); [destruct Hc|].
  destruct (Nat.eqb_spec x2 x1) as [E|E]; destruct Hc as [<-|[]]; constructor; cbn [ct_consumption map fst].
  - constructor; [intros []|constructor].
  - intros x [<-|[]]. lia.
  - constructor; [intros [X|[]]; congruence|constructor; [intros []|constructor]].
  - intros x [<-|[<-|[]]]; lia.
Qed.

Lemma dff_wf : forall c, cut_wf ni (dff_resource i c).
Proof.
  intro c. unfold dff_resource. fold ni. constructor; cbn [ct_consumption].
  - generalize 0%nat. generalize ni. intro n. induction n as [|n IH]; intro k; [constructor|]. cbn [seq flat_map]. cbv zeta.
    assert (L : forall x, In x (map fst (flat_map (fun x => if nth x (cut_coefficients c) 0 =? 0 then [] else [(x, [inject_Z (nth x (cut_coefficients c) 0)])]) (seq (S k) n))) -> (k < x)%nat).
    { intros x Hx. apply in_map_iff in Hx. destruct Hx as (e & <- & He). apply in_flat_map in He. destruct He as (y & Hy & He). apply in_seq in Hy.
      destruct (nth y (cut_coefficients c) 0 =? 0); [destruct He|]. destruct He as [<-|[]]. cbn [fst]. lia. }
    destruct (nth k (cut_coefficients c) 0 =? 0); [apply IH|]. cbn [app map fst]. constructor; [|apply IH]. intro X. apply L in X. lia.
  - intros x Hx. apply in_map_iff in Hx. destruct Hx as (e & <- & He). apply in_flat_map in He. destruct He as (y & Hy & He). apply in_seq in Hy. cbv zeta in He.
    destruct (nth y (cut_coefficients c) 0 =? 0); [destruct He|]. destruct He as [<-|[]]. cbn [fst]. lia.
Qed.

Lemma nodup_app : forall (A : Type) (a b : list A), NoDup a -> NoDup b -> (forall x, In x a -> In x b -> False) -> NoDup (a ++ b).
Proof.
  intros A a b Ha Hb H. induction Ha as [|x a Hx Ha IH]; [exact Hb|]. cbn [app]. constructor.
  - intro C. apply in_app_iff in C. destruct C as [C|C]; [contradiction|]. apply (H x (or_introl eq_refl) C).
  - apply IH. intros y Hy. apply H. right. exact Hy.
Qed.

Lemma lifted_wf : forall bar t sel, NoDup (map fst sel) -> (forall p, In p sel -> (fst p < ni)%nat) -> cut_wf ni (lift_no_good_cut i bar t (no_good_cut sel)).
Proof.
  intros bar t sel N T. unfold lift_no_good_cut.
  destruct (lift_loop_adds i bar t (fun j => existsb (fun e => Nat.eqb (fst e) j) (ct_consumption (no_good_cut sel))) (seq 0 (length (rin_items i))) (ct_capacity (no_good_cut sel) + 1)
    (map (fun e => mkSE (fst e) (Z.of_nat (length (snd e)) - 1) 1) (ct_consumption (no_good_cut sel))) (no_good_cut sel)) as (_ & added & B & C & D).
  assert (K : map fst (ct_consumption (no_good_cut sel)) = map fst sel) by (unfold no_good_cut; cbn [ct_consumption]; rewrite map_map; reflexivity).
  constructor.
  - rewrite B, map_app. apply nodup_app; [rewrite K; exact N|apply D; apply seq_NoDup|].
    intros x Hx Hy. apply in_map_iff in Hx, Hy. destruct Hx as (e & <- & He). destruct Hy as (f & E & Hf). destruct (C f Hf) as (_ & F & _).
    assert (X : existsb (fun e0 => Nat.eqb (fst e0) (fst f)) (ct_consumption (no_good_cut sel)) = true) by (apply existsb_exists; exists e; split; [exact He|apply Nat.eqb_eq; congruence]).
    congruence.
  - intros x Hx. rewrite B, map_app in Hx. apply in_app_iff in Hx. destruct Hx as [Hx|Hx].
    + rewrite K in Hx. apply in_map_iff in Hx. destruct Hx as (p & <- & Hp). apply T. exact Hp.
    + apply in_map_iff in Hx. destruct Hx as (e & <- & He). destruct (C e He) as (F & _). apply in_seq in F. fold ni in F. lia.
Qed.

(** ** The cuts of the two passes *)

Lemma in_add_at : forall f t cs u c, In c (add_at f t cs u) <-> In c (f u) \/ (u = t /\ In c cs).
Proof.
  intros f t cs u c. unfold add_at. destruct (Nat.eqb_spec u t) as [E|E]; [rewrite in_app_iff; tauto|]. split; [tauto|intros [H|[H _]]; [exact H|contradiction]].
Qed.

(** Cuts found in the first pass. *)
Lemma pass1_cuts : forall bins dff found dff' found', pass1 i bins dff found = Some (dff', found') ->
  (forall t c, In c (dff t) -> In c (dff' t)) /\
  (forall t c, In c (dff' t) -> In c (dff t) \/ exists d dc, In d bins /\ bd_type d = t
     /\ find_most_violated_cut i t (aggregate i (bd_items d)) = Some dc /\ cut_found dc = true /\ c = dff_resource i dc) /\
  (found' = true -> found = true \/ exists d dc, In d bins
     /\ find_most_violated_cut i (bd_type d) (aggregate i (bd_items d)) = Some dc /\ cut_found dc = true /\ In (dff_resource i dc) (dff' (bd_type d))) /\
  (found' = false -> dff' = dff).
Proof.
  intro bins. induction bins as [|d bins IH]; intros dff found dff' found' E; cbn [pass1] in E.
  - injection E as <- <-. split; [tauto|]. split; [tauto|]. split; [intro H; left; exact H|reflexivity].
  - destruct (find_most_violated_cut i (bd_type d) (aggregate i (bd_items d))) as [dc|] eqn:F; [|discriminate].
    destruct (cut_found dc) eqn:G.
    + assert (Sticky : forall bs df df' fo, pass1 i bs df true = Some (df', fo) -> fo = true).
      { intro bs. induction bs as [|b bs IHb]; intros df df' fo E'; cbn [pass1] in E'; [congruence|]. destruct (find_most_violated_cut i (bd_type b) (aggregate i (bd_items b))) as [c|]; [|discriminate].
        destruct (cut_found c); apply (IHb _ _ _ E'). }
      pose proof (Sticky _ _ _ _ E) as Fo. destruct (IH _ _ _ _ E) as (A & B & _ & _).
      split; [|split; [|split]].
      * intros t c Hc. apply A. apply in_add_at. left. exact Hc.
      * intros t c Hc. destruct (B t c Hc) as [H|(e & dc' & H1 & H2)].
        -- apply in_add_at in H. destruct H as [H|[-> [<-|[]]]]; [left; exact H|right]. exists d, dc. split; [left; reflexivity|]. split; [reflexivity|]. split; [exact F|]. split; [exact G|reflexivity].
        -- right. exists e, dc'. split; [right; exact H1|exact H2].
      * intros _. right. exists d, dc. split; [left; reflexivity|]. split; [exact F|]. split; [exact G|]. apply A. apply in_add_at. right. split; [reflexivity|left; reflexivity].
      * intro X. congruence.
    + destruct (IH _ _ _ _ E) as (A & B & C & D). split; [exact A|]. split; [|split; [|exact D]].
      * intros t c Hc. destruct (B t c Hc) as [H|(e & dc' & H1 & H2)]; [left; exact H|right]. exists e, dc'. split; [right; exact H1|exact H2].
      * intro X. destruct (C X) as [H|(e & dc' & H1 & H2)]; [left; exact H|right]. exists e, dc'. split; [right; exact H1|exact H2].
Qed.

(** Cuts of the second pass. *)
Definition new_cut (k : nat) (bins : list BinDesc) (t : nat) (c : RCut) (proven : bool) : Prop :=
  exists d s, In d bins /\ bd_type d = t /\ so_full (or_sub o k t (aggregate i (bd_items d))) = false
    /\ In s (minimal_subsets i (or_sub o k) t (aggregate i (bd_items d)) (so_infeasible (or_sub o k t (aggregate i (bd_items d)))) (or_maximum o))
    /\ c = lift_no_good_cut i (or_bar o k) t (no_good_cut (fst s)) /\ (proven = true -> snd s = true).

Lemma new_cut_cons : forall k d bins t c proven, new_cut k bins t c proven -> new_cut k (d :: bins) t c proven.
Proof. intros k d bins t c proven (e & s & A & B). exists e, s. split; [right; exact A|exact B]. Qed.
Lemma new_cut_weaken : forall k bins t c p q, (q = true -> p = true) -> new_cut k bins t c p -> new_cut k bins t c q.
Proof. intros k bins t c p q H (e & s & A & B & C & D & E & F). exists e, s. repeat (split; [assumption|]). intro Q. apply F. apply H. exact Q. Qed.

(** The solution built by the second pass. *)
Definition pass2_descs (k : nat) (bins : list BinDesc) : list RDesc :=
  flat_map (fun d => match so_places (or_sub o k (bd_type d) (aggregate i (bd_items d))) with
                     | Some ps => [mkRD (bd_type d) (bd_copies d) ps] | None => [] end) bins.

Lemma pass2_cuts : forall k bins no_good proven sol feas no_good' proven' sol' feas',
  pass2 i o k bins no_good proven sol feas = Some (no_good', proven', sol', feas') ->
  (forall t c, In c (no_good t) -> In c (no_good' t)) /\
  (forall t c, In c (no_good' t) -> In c (no_good t) \/ new_cut k bins t c proven') /\
  (proven' = true -> proven = true) /\
  sol' = sol ++ pass2_descs k bins /\
  (feas' = true -> feas = true /\ forall d, In d bins -> so_full (or_sub o k (bd_type d) (aggregate i (bd_items d))) = true) /\
  (feas = true -> feas' = false -> exists d, In d bins /\ so_full (or_sub o k (bd_type d) (aggregate i (bd_items d))) = false
     /\ forall s, In s (minimal_subsets i (or_sub o k) (bd_type d) (aggregate i (bd_items d)) (so_infeasible (or_sub o k (bd_type d) (aggregate i (bd_items d)))) (or_maximum o)) ->
        In (lift_no_good_cut i (or_bar o k) (bd_type d) (no_good_cut (fst s))) (no_good' (bd_type d))).
Proof.
  intros k bins. induction bins as [|d bins IH]; intros no_good proven sol feas no_good' proven' sol' feas' E; cbn [pass2] in E.
  - injection E as <- <- <- <-. split; [tauto|]. split; [tauto|]. split; [tauto|]. split; [cbn; rewrite app_nil_r; reflexivity|]. split; [intro H; split; [exact H|intros d []]|intros; congruence].
  - destruct (1 <? rb_copies_min (rbin i (bd_type d))); [discriminate|]. cbv zeta in E.
    set (out := or_sub o k (bd_type d) (aggregate i (bd_items d))) in *.
    set (sol1 := match so_places out with Some ps => sol ++ [mkRD (bd_type d) (bd_copies d) ps] | None => sol end) in *.
    assert (Esol : forall s2, s2 = sol1 ++ pass2_descs k bins -> s2 = sol ++ pass2_descs k (d :: bins)).
    { intros s2 ->. unfold pass2_descs. cbn [flat_map]. fold out. unfold sol1. destruct (so_places out); [rewrite <- app_assoc|]; reflexivity. }
    destruct (so_full out) eqn:Full.
    + destruct (IH _ _ _ _ _ _ _ _ E) as (A & B & C & D & F & G). split; [exact A|]. split; [|split; [exact C|split; [apply Esol; exact D|split]]].
      * intros t c Hc. destruct (B t c Hc) as [H|H]; [left; exact H|right; apply new_cut_cons; exact H].
      * intro H. destruct (F H) as [F1 F2]. split; [exact F1|]. intros e [<-|He]; [exact Full|apply F2; exact He].
      * intros H1 H2. destruct (G H1 H2) as (e & G1 & G2). exists e. split; [right; exact G1|exact G2].
    + unfold bin_cuts in E. set (subs := minimal_subsets i (or_sub o k) (bd_type d) (aggregate i (bd_items d)) (so_infeasible out) (or_maximum o)) in *.
      destruct (IH _ _ _ _ _ _ _ _ E) as (A & B & C & D & F & G). split; [|split; [|split; [|split; [apply Esol; exact D|split]]]].
      * intros t c Hc. apply A. apply in_add_at. left. exact Hc.
      * intros t c Hc. destruct (B t c Hc) as [H|H]; [|right; apply new_cut_cons; exact H].
        apply in_add_at in H. destruct H as [H|[-> H]]; [left; exact H|right]. apply in_map_iff in H. destruct H as (s & <- & Hs).
        exists d, s. split; [left; reflexivity|]. split; [reflexivity|]. split; [exact Full|]. split; [exact Hs|]. split; [reflexivity|].
        intro P. apply C in P. apply andb_true_iff in P. destruct P as [_ P]. rewrite forallb_forall in P. apply P. exact Hs.
      * intro P. apply C in P. apply andb_true_iff in P. apply P.
      * intro H. destruct (F H) as [F1 _]. discriminate F1.
      * intros _ _. exists d. split; [left; reflexivity|]. split; [exact Full|]. intros s Hs. apply A. apply in_add_at. right. split; [reflexivity|]. apply in_map_iff. exists s. split; [reflexivity|exact Hs].
Qed.

(** ** Invariant *)

Record cuts_wf (s : BState) : Prop := {
  iv_dff : forall t c, In c (bs_dff s t) -> cut_wf ni c;
  iv_no_good : forall t c, In c (bs_no_good s t) -> cut_wf ni c
}.
Record cuts_valid (s : BState) : Prop := {
  va_dff : forall t c, (t < nb)%nat -> In c (bs_dff s t) -> cut_valid i extra t c;
  va_no_good : bs_proven s = true -> forall t c, (t < nb)%nat -> In c (bs_no_good s t) -> cut_valid i extra t c
}.

Lemma store_wf : forall s, cuts_wf s -> forall t c, (t < nb)%nat -> In c (static_cuts i t ++ bs_dff s t ++ bs_no_good s t) -> cut_wf ni c.
Proof.
  intros s [A B] t c _ H. apply in_app_iff in H. destruct H as [H|H]; [apply (static_wf t c H)|]. apply in_app_iff in H. destruct H as [H|H]; [apply (A t c H)|apply (B t c H)].
Qed.

Lemma new_cut_wf : forall k bins t c p, new_cut k bins t c p -> cut_wf ni c.
Proof.
  intros k bins t c p (d & s & _ & _ & _ & Hs & -> & _). destruct (minimal_reported i _ _ _ _ _ _ Hs) as (vs & E & _). apply lifted_wf; rewrite E.
  - apply aggregate_distinct.
  - intros q Hq. apply (aggregate_in i vs q Hq).
Qed.

(** Case analysis of one iteration. *)
Inductive step_of (k : nat) (s : BState) : Outcome -> Prop :=
| St_build : (forall i1, b_build (master_builder i (bs_dff s) (bs_no_good s)) <> Built i1) -> step_of k s (Throw s)
| St_claim : forall i1 s1, b_build (master_builder i (bs_dff s) (bs_no_good s)) = Built i1 ->
    s1 = (if bs_proven s then mkBS (bs_dff s) (bs_no_good s) (bs_proven s) (bs_claims s ++ [passed_on i (mo_claim (or_master o k i1 (precedences i)))]) (bs_solutions s) else s) ->
    step_of k s (Throw s1)
| St_dff : forall i1 s1 dff', b_build (master_builder i (bs_dff s) (bs_no_good s)) = Built i1 ->
    s1 = (if bs_proven s then mkBS (bs_dff s) (bs_no_good s) (bs_proven s) (bs_claims s ++ [passed_on i (mo_claim (or_master o k i1 (precedences i)))]) (bs_solutions s) else s) ->
    pass1 i (mo_solution (or_master o k i1 (precedences i))) (bs_dff s) false = Some (dff', true) ->
    step_of k s (Continue (mkBS dff' (bs_no_good s) (bs_proven s) (bs_claims s1) (bs_solutions s)))
| St_subs : forall i1 s1 dff' no_good' proven' solution feasible r s2, b_build (master_builder i (bs_dff s) (bs_no_good s)) = Built i1 ->
    s1 = (if bs_proven s then mkBS (bs_dff s) (bs_no_good s) (bs_proven s) (bs_claims s ++ [passed_on i (mo_claim (or_master o k i1 (precedences i)))]) (bs_solutions s) else s) ->
    pass1 i (mo_solution (or_master o k i1 (precedences i))) (bs_dff s) false = Some (dff', false) ->
    pass2 i o k (mo_solution (or_master o k i1 (precedences i))) (bs_no_good s) (bs_proven s) [] true = Some (no_good', proven', solution, feasible) ->
    s2 = mkBS (bs_dff s) no_good' proven' (bs_claims s1) (if 0 <? zsum rd_copies solution then bs_solutions s ++ [solution] else bs_solutions s) ->
    (proven' && check_cuts_throws i (bs_dff s) no_good' (or_best o (bs_solutions s2)) = true /\ r = Throw s2
     \/ proven' && check_cuts_throws i (bs_dff s) no_good' (or_best o (bs_solutions s2)) = false /\ feasible = true /\ r = Stop s2
     \/ proven' && check_cuts_throws i (bs_dff s) no_good' (or_best o (bs_solutions s2)) = false /\ feasible = false /\ r = Continue s2) ->
    step_of k s r.

Lemma iteration_step : forall k s, step_of k s (iteration i o k s).
Proof.
  intros k s. unfold iteration. destruct (b_build (master_builder i (bs_dff s) (bs_no_good s))) as [i1| |] eqn:EB; try (apply St_build; intros i1 X; congruence). cbv zeta.
  set (out := or_master o k i1 (precedences i)).
  set (s1 := if bs_proven s then mkBS (bs_dff s) (bs_no_good s) (bs_proven s) (bs_claims s ++ [passed_on i (mo_claim out)]) (bs_solutions s) else s).
  assert (F1 : bs_dff s1 = bs_dff s) by (unfold s1; destruct (bs_proven s); reflexivity).
  assert (F2 : bs_no_good s1 = bs_no_good s) by (unfold s1; destruct (bs_proven s); reflexivity).
  assert (F3 : bs_proven s1 = bs_proven s) by (unfold s1; destruct (bs_proven s) eqn:E; [reflexivity|exact E]).
  assert (F4 : bs_solutions s1 = bs_solutions s) by (unfold s1; destruct (bs_proven s); reflexivity).
  match goal with |- step_of k s (if ?b then _ else _) => destruct b end; [apply (St_claim k s i1 s1 EB eq_refl)|].
  rewrite F1, F2, F3, F4. destruct (pass1 i (mo_solution out) (bs_dff s) false) as [[dff' found]|] eqn:E1; [|apply (St_claim k s i1 s1 EB eq_refl)].
  destruct found; [apply (St_dff k s i1 s1 dff' EB eq_refl E1)|].
  destruct (pass2 i o k (mo_solution out) (bs_no_good s) (bs_proven s) [] true) as [[[[no_good' proven'] solution] feasible]|] eqn:E2; [|apply (St_claim k s i1 s1 EB eq_refl)].
  set (s2 := mkBS (bs_dff s) no_good' proven' (bs_claims s1) (if 0 <? zsum rd_copies solution then bs_solutions s ++ [solution] else bs_solutions s)).
  apply (St_subs k s i1 s1 dff' no_good' proven' solution feasible _ s2 EB eq_refl E1 E2 eq_refl). cbn [bs_solutions s2].
  unfold s2. cbn [bs_solutions].
  destruct (proven' && check_cuts_throws i (bs_dff s) no_good' (or_best o (if 0 <? zsum rd_copies solution then bs_solutions s ++ [solution] else bs_solutions s))); [left; split; reflexivity|].
  right. destruct feasible; [left|right]; repeat split.
Qed.

Lemma dff_store_wf : forall bins dff found dff' found', pass1 i bins dff found = Some (dff', found') ->
  (forall t c, In c (dff t) -> cut_wf ni c) -> forall t c, In c (dff' t) -> cut_wf ni c.
Proof.
  intros bins dff found dff' found' E H t c Hc. destruct (pass1_cuts _ _ _ _ _ E) as (_ & B & _). destruct (B t c Hc) as [X|(d & dc & _ & _ & _ & _ & ->)]; [apply (H t c X)|apply dff_wf].
Qed.

Lemma step_wf : forall k s, cuts_wf s -> cuts_wf (outcome_state (iteration i o k s)).
Proof.
  intros k s W. pose proof W as [A B]. destruct (iteration_step k s) as [_|i1 s1 _ ->|i1 s1 dff' _ _ E1|i1 s1 dff' no_good' proven' solution feasible r s2 _ _ E1 E2 Es2 Hr]; cbn [outcome_state].
  - exact W.
  - destruct (bs_proven s); [constructor; assumption|exact W].
  - constructor; cbn [bs_dff bs_no_good]; [apply (dff_store_wf _ _ _ _ _ E1 A)|exact B].
  - assert (W2 : cuts_wf s2).
    { rewrite Es2. constructor; cbn [bs_dff bs_no_good]; [exact A|]. intros t c Hc. destruct (pass2_cuts _ _ _ _ _ _ _ _ _ _ E2) as (_ & C & _).
      destruct (C t c Hc) as [X|X]; [apply (B t c X)|apply (new_cut_wf _ _ _ _ _ X)]. }
    destruct Hr as [(_ & ->)|[(_ & _ & ->)|(_ & _ & ->)]]; exact W2.
Qed.

(** ** Validity of the cuts and of the claims *)

Hypothesis Hmono : monotone extra.
Hypothesis Hmaster : master_right o.
Hypothesis Hmvalid : master_valid o.
Hypothesis Hsub : forall k, sub_right i extra (or_sub o k).

Lemma count_le_bins : forall (x : nat) sol d, (forall e, In e sol -> 1 <= bd_copies e) -> In d sol ->
  Z.of_nat (count_occ Nat.eq_dec (bd_items d) x) <= packed x sol.
Proof.
  intros x sol d H Hd. apply in_split in Hd. destruct Hd as (l1 & l2 & ->). unfold packed. rewrite zsum_app, zsum_cons.
  assert (P : forall e, In e (l1 ++ d :: l2) -> 0 <= bd_copies e * Z.of_nat (count_occ Nat.eq_dec (bd_items e) x)) by (intros e He; specialize (H e He); nia).
  assert (0 <= zsum (fun e => bd_copies e * Z.of_nat (count_occ Nat.eq_dec (bd_items e) x)) l1) by (apply zsum_nonneg; intros e He; apply P; apply in_app_iff; left; exact He).
  assert (0 <= zsum (fun e => bd_copies e * Z.of_nat (count_occ Nat.eq_dec (bd_items e) x)) l2) by (apply zsum_nonneg; intros e He; apply P; apply in_app_iff; right; right; exact He).
  pose proof (H d (in_elt _ _ _)). nia.
Qed.

Section Master1.
Variable s : BState.
Variable k : nat.
Hypothesis Hw : cuts_wf s.
Variable i1 : Instance.
Hypothesis Hb1 : b_build (master_builder i (bs_dff s) (bs_no_good s)) = Built i1.
Let sol := mo_solution (or_master o k i1 (precedences i)).

Lemma master_copies : (forall x, (x < length (in_item_types i1))%nat -> 0 <= it_copies (item_type i1 x)) /\
  (forall t, (t < length (in_bin_types i1))%nat -> 0 <= bt_copies (bin_type i1 t)).
Proof.
  destruct (mbins i Hdom (bs_dff s) (bs_no_good s) i1 Hb1) as [M1 Bn]. destruct (mitems i Hdom (bs_dff s) (bs_no_good s) i1 Hb1) as [L1 I1]. split.
  - intros x Hx. rewrite L1 in Hx. destruct (I1 x Hx) as (_ & E & _). rewrite E. pose proof (do_min i Hdom (ritem i x) (nth_In _ _ Hx)). lia.
  - intros t Ht. rewrite M1 in Ht. destruct (Bn t Ht) as (_ & _ & E & _). rewrite E. destruct (re_bins i (do_relax i Hdom) (rbin i t) (nth_In _ _ Ht)) as (_ & _ & ? & _). lia.
Qed.

(** The bins of the master. *)
Lemma master_bins : forall d, In d sol -> (bd_type d < nb)%nat /\ 1 <= bd_copies d /\ (forall x, In x (bd_items d) -> (x < ni)%nat)
  /\ (forall x, (x < ni)%nat -> Z.of_nat (count_occ Nat.eq_dec (bd_items d) x) <= ri_copies (ritem i x))
  /\ (forall c, In c (static_cuts i (bd_type d) ++ bs_dff s (bd_type d) ++ bs_no_good s (bd_type d)) ->
       (cut_consumption c (fun x => Z.of_nat (count_occ Nat.eq_dec (bd_items d) x)) <= ct_capacity c)%Q).
Proof.
  intros d Hd. destruct (Hmvalid k i1 (precedences i) (proj1 master_copies) (proj2 master_copies)) as (A & B & _). fold sol in A, B.
  destruct (mbins i Hdom (bs_dff s) (bs_no_good s) i1 Hb1) as [M1 Bn]. destruct (mitems i Hdom (bs_dff s) (bs_no_good s) i1 Hb1) as [L1 I1].
  destruct (A d Hd) as (A1 & A2 & A3 & A4). rewrite M1 in A1. split; [exact A1|]. split; [exact A2|]. split; [intros x Hx; fold ni in L1; rewrite <- L1; apply A4; exact Hx|]. split.
  - intros x Hx. destruct (I1 x Hx) as (_ & E & _). rewrite <- E. eapply Z.le_trans; [apply (count_le_bins x sol d); [intros e He; apply (A e He)|exact Hd]|]. apply B. rewrite L1. exact Hx.
  - intros c Hc. destruct (Bn (bd_type d) A1) as (_ & _ & _ & _ & _ & _ & E).
    pose proof (mb_resources i1 d A3 (cut_resource c)) as V. rewrite E in V.
    destruct (cut_resource_ok ni c (store_wf s Hw _ c A1 Hc)) as (Cap & Pen & _).
    specialize (V (in_or_app _ _ _ (or_introl (in_map cut_resource _ _ Hc))) Pen). rewrite Cap in V.
    rewrite (mcut i Hdom (bs_dff s) (bs_no_good s) (store_wf s Hw) i1 Hb1 (bd_type d) c (bd_items d) A1 Hc) in V. exact V.
Qed.

Lemma pass1_valid : forall dff' found, (forall t c, (t < nb)%nat -> In c (bs_dff s t) -> cut_valid i extra t c) ->
  pass1 i sol (bs_dff s) false = Some (dff', found) -> forall t c, (t < nb)%nat -> In c (dff' t) -> cut_valid i extra t c.
Proof.
  intros dff' found H E t c Ht Hc. destruct (pass1_cuts _ _ _ _ _ E) as (_ & B & _).
  destruct (B t c Hc) as [X|(d & dc & _ & _ & F & G & ->)]; [apply (H t c Ht X)|].
  apply (dff_valid i extra t (aggregate i (bd_items d)) dc).
  - apply (re_items i (do_relax i Hdom)).
  - intros bt Hbt. destruct (re_bins i (do_relax i Hdom) bt Hbt) as (X & Y & _). split; assumption.
  - exact Ht.
  - exact F.
  - exact G.
Qed.

Lemma sub_selection : forall d, In d sol -> forall vs, (forall x, (x < ni)%nat -> cnt vs x <= cnt (bd_items d) x) -> selection_ok i (aggregate i vs).
Proof.
  intros d Hd vs H. apply aggregate_ok. intros x Hx. destruct (master_bins d Hd) as (_ & _ & _ & C & _). specialize (C x Hx). specialize (H x Hx). unfold cnt in *. fold ni. lia.
Qed.

Lemma new_cut_valid : forall t c, bar_right (or_bar o k) -> lifts_at_most_one i (or_bar o k) ->
  new_cut k sol t c true -> cut_valid i extra t c.
Proof.
  intros t c Hbar Hlift (d & u & Hd & <- & _ & Hu & -> & Hp). specialize (Hp eq_refl).
  destruct (minimal_reported i _ _ _ _ _ _ Hu) as (vs & E & Hvs & _).
  pose proof (sub_selection d Hd vs Hvs) as Hok. rewrite <- E in Hok.
  apply (lifted_valid i extra (do_resources i Hdom) Hmono (or_bar o k) (bd_type d) (fst u) Hbar Hok).
  - apply Hlift. exact Hok.
  - apply (minimal_never i extra (do_resources i Hdom) Hmono (or_sub o k) (bd_type d) (bd_items d) (so_infeasible (or_sub o k (bd_type d) (aggregate i (bd_items d)))) (or_maximum o) u (Hsub k)); [tauto|exact Hu|exact Hp].
Qed.

(** The solution of an iteration. *)
Lemma descs_from : forall e, In e (pass2_descs k sol) -> exists d, In d sol /\ rd_type e = bd_type d /\ rd_copies e = bd_copies d
  /\ so_places (or_sub o k (bd_type d) (aggregate i (bd_items d))) = Some (rd_items e).
Proof.
  intros e He. unfold pass2_descs in He. apply in_flat_map in He. destruct He as (d & Hd & He). exists d. split; [exact Hd|].
  destruct (so_places (or_sub o k (bd_type d) (aggregate i (bd_items d)))) as [ps|]; [|destruct He]. destruct He as [<-|[]]. split; [reflexivity|]. split; reflexivity.
Qed.

Lemma descs_packed : forall x, (x < ni)%nat -> rpacked x (pass2_descs k sol) <= packed x sol.
Proof.
  intros x Hx. unfold rpacked, pass2_descs, packed. rewrite zsum_flat_map. apply zsum_le. intros d Hd. destruct (master_bins d Hd) as (_ & C & _).
  destruct (Hsub k (bd_type d) (aggregate i (bd_items d))) as (S1 & _).
  destruct (so_places (or_sub o k (bd_type d) (aggregate i (bd_items d)))) as [ps|]; [|rewrite zsum_nil; nia].
  rewrite zsum_cons, zsum_nil. cbn [rd_copies rd_items]. destruct (S1 ps eq_refl) as [_ L]. specialize (L x Hx). rewrite (aggregate_selected i _ x Hx) in L. unfold cnt in L. nia.
Qed.

Lemma descs_packed_full : (forall d, In d sol -> so_full (or_sub o k (bd_type d) (aggregate i (bd_items d))) = true) ->
  forall x, (x < ni)%nat -> rpacked x (pass2_descs k sol) = packed x sol.
Proof.
  intros Hf x Hx. unfold rpacked, pass2_descs, packed. rewrite zsum_flat_map. apply zsum_ext. intros d Hd.
  destruct (Hsub k (bd_type d) (aggregate i (bd_items d))) as (_ & S2 & _). specialize (S2 (Hf d Hd) x Hx). rewrite (aggregate_selected i _ x Hx) in S2. unfold cnt in S2.
  destruct (so_places (or_sub o k (bd_type d) (aggregate i (bd_items d)))) as [ps|]; [rewrite zsum_cons, zsum_nil; cbn [rd_copies rd_items]; lia|rewrite zsum_nil; lia].
Qed.

Lemma descs_used : forall t, (t < nb)%nat -> rused_bins t (pass2_descs k sol) <= used_bins t sol.
Proof.
  intros t Ht. unfold rused_bins, pass2_descs, used_bins. rewrite zsum_flat_map. apply zsum_le. intros d Hd. destruct (master_bins d Hd) as (_ & C & _).
  destruct (so_places (or_sub o k (bd_type d) (aggregate i (bd_items d)))) as [ps|].
  - rewrite zsum_cons, zsum_nil. cbn [rd_type rd_copies]. destruct (Nat.eqb (bd_type d) t); lia.
  - rewrite zsum_nil. destruct (Nat.eqb (bd_type d) t); lia.
Qed.

Lemma descs_solution : bd_solution i extra (pass2_descs k sol).
Proof.
  destruct (Hmvalid k i1 (precedences i) (proj1 master_copies) (proj2 master_copies)) as (_ & B & C). fold sol in B, C.
  destruct (mbins i Hdom (bs_dff s) (bs_no_good s) i1 Hb1) as [M1 Bn]. destruct (mitems i Hdom (bs_dff s) (bs_no_good s) i1 Hb1) as [L1 I1].
  constructor.
  - intros e He. destruct (descs_from e He) as (d & Hd & -> & -> & P). destruct (master_bins d Hd) as (A1 & A2 & _). split; [exact A1|]. split; [exact A2|].
    destruct (Hsub k (bd_type d) (aggregate i (bd_items d))) as (S1 & _). apply (S1 _ P).
  - intros x Hx. eapply Z.le_trans; [apply (descs_packed x Hx)|]. destruct (I1 x Hx) as (_ & E & _). rewrite <- E. apply B. rewrite L1. exact Hx.
  - intros t Ht. eapply Z.le_trans; [apply (descs_used t Ht)|]. destruct (Bn t Ht) as (_ & _ & E & _). rewrite <- E. apply C. rewrite M1. exact Ht.
Qed.

(** The claim of the master, for the instance. *)
Lemma claim_passes : same_orientation i -> (rin_objective i = OKnapsack -> plain_items i extra) ->
  cuts_valid s -> bs_proven s = true -> bd_claim_right i extra (passed_on i (mo_claim (or_master o k i1 (precedences i)))).
Proof.
  intros Ho Hplain [V1 V2] Hp ds Hds.
  pose proof (Hmaster k i1 (precedences i)) as HM.
  assert (Hv : forall t c, (t < nb)%nat -> In c (static_cuts i t ++ bs_dff s t ++ bs_no_good s t) -> cut_valid i extra t c).
  { intros t c Ht Hc. apply in_app_iff in Hc. destruct Hc as [Hc|Hc]; [apply static_valid; assumption|]. apply in_app_iff in Hc. destruct Hc as [Hc|Hc]; [apply (V1 t c Ht Hc)|apply (V2 Hp t c Ht Hc)]. }
  assert (Hdo : exists ds', bd_packing i extra ds' /\ (rin_objective i <> OKnapsack -> ds' = ds) /\ (rin_objective i = OKnapsack -> (bd_profit i ds <= bd_profit i ds')%Q)
    /\ Milp_Spec.Packing i1 (precedences i) (map relax_desc ds')).
  { destruct (mitems i Hdom (bs_dff s) (bs_no_good s) i1 Hb1) as [_ I1].
    assert (Dec : rin_objective i = OKnapsack \/ rin_objective i <> OKnapsack) by (destruct (rin_objective i); (left; reflexivity) || (right; discriminate)).
    destruct Dec as [K|K].
    - destruct (prec_dominates i extra (Hplain K) K ds Hds) as (ds' & P & Q & R). exists ds'. split; [exact P|]. split; [intro N; contradiction|]. split; [intros _; exact Q|].
      apply (master_relaxes i extra Hdom Hmono (bs_dff s) (bs_no_good s) (store_wf s Hw) i1 Hb1 Hv (precedences i) ds' P).
      intros a b Hab Ha. rewrite packed_relax in *. destruct (in_precedences i K a b Hab) as (_ & Hb & _). destruct (I1 b Hb) as (_ & E & _). rewrite E. apply (R a b Hab Ha).
    - exists ds. split; [exact Hds|]. split; [reflexivity|]. split; [intro N; contradiction|].
      apply (master_relaxes i extra Hdom Hmono (bs_dff s) (bs_no_good s) (store_wf s Hw) i1 Hb1 Hv (precedences i) ds Hds).
      intros a b Hab _. unfold precedences in Hab. destruct (rin_objective i); try (destruct Hab); contradiction. }
  destruct Hdo as (ds' & P & Q1 & Q2 & R). specialize (HM _ R).
  unfold passed_on. destruct (mo_claim (or_master o k i1 (precedences i))) as [b|b|n| |] eqn:EC; cbn [Milp_Spec.claim_right] in HM; destruct (rin_objective i) eqn:EO; cbn; try exact Logic.I; try contradiction.
  - rewrite <- (Q1 ltac:(discriminate)). rewrite <- (master_cost i extra Hdom (bs_dff s) (bs_no_good s) i1 Hb1 ds' P). exact HM.
  - eapply Qle_trans; [apply (Q2 eq_refl)|]. rewrite <- (master_profit i extra Hdom (bs_dff s) (bs_no_good s) (store_wf s Hw) i1 Hb1 ds' EO P). exact HM.
  - rewrite <- (Q1 ltac:(discriminate)). rewrite <- relax_count. exact HM.
Qed.

End Master1.
End Run.
