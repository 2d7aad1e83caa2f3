(** * C25, C26, C27: concurrent reporting, deterministic mode, early stop

    Stated for the onedimensional problem: [lt1 i] is Solution::operator< of
    C11.  The proofs in Formatter_Proof.v and FormatterDet_Proof.v hold for any
    solution type whose comparison is a strict partial order. *)

From Coq Require Import List ZArith QArith Bool Lia Lqa Arith.
From Verif Require Import Util Common_Model Common_Spec Common_Proof
  OneDim_Model OneDim_Spec OneDim_Order OneDim_Props
  Formatter_Model Formatter_Spec Formatter_Proof FormatterDet_Proof.
Import ListNotations.
Open Scope Z_scope.

(** Solution::operator<, as a boolean. *)
Definition lt1 (i : Instance) (a b : Solution) : bool :=
  match sol_lt i a b with Some r => r | None => false end.
(** Solution::full, onedimensional/solution.hpp. *)
Definition full1 (i : Instance) (s : Solution) : bool := c_number_of_items (s_core s) =? in_number_of_items i.
Definition profit1 (s : Solution) : Q := c_item_profit (s_core s).
Definition cost1 (s : Solution) : Q := c_bin_cost (s_core s).
Definition bins1 (s : Solution) : Z := c_number_of_bins (s_core s).
Definition copies1 (s : Solution) : list Z := c_item_copies (s_core s).
Definition zero1 (s : Solution) : Z := 0.
Definition available1 (i : Instance) : Z := Z.of_nat (length (in_bin_type_ids i)).

Notation Call1 := (Call Solution).
(** The formatter of an instance after the calls [h]. *)
Definition run1 (i : Instance) (h : list Call1) : FState Solution :=
  frun Solution (lt1 i) copies1 s_feasible (full1 i) profit1 cost1 bins1 zero1 zero1 (in_objective i) (available1 i)
    (fs_new Solution s_feasible (full1 i) profit1 cost1 bins1 zero1 zero1 (in_objective i) (sol_new i)) h.
Definition incumbent (st : FState Solution) : Solution := fo_best Solution (fs_out Solution st).
Definition bounds_of (st : FState Solution) : Bounds := fo_bounds Solution (fs_out Solution st).

(** Objectives whose comparison is an order (not the default one, see C11). *)
Definition ordered_objective (o : Objective) : Prop :=
  o = OBinPacking \/ o = OBinPackingWithLeftovers \/ o = OKnapsack \/ o = OVariableSizedBinPacking \/ o = OFeasibility.

(** Reported solutions have non-negative profit, cost and number of bins. *)
Definition sane_solution (s : Solution) : Prop := nonneg_values s /\ 0 <= bins1 s.
Definition sane_reports (h : list Call1) : Prop := forall s, In (UpdSolution Solution s) h -> sane_solution s.

Lemma sane_new : forall i, sane_solution (sol_new i).
Proof. intro i. split; [split|]; simpl; try apply Qle_refl. apply Z.le_refl. Qed.

Lemma order1 : forall i, ordered_objective (in_objective i) -> PartialOrderOn sane_solution (lt1 i).
Proof.
  intros i Ho.
  assert (Hswo : integer_objective (in_objective i) = true -> PartialOrderOn sane_solution (lt1 i)).
  { intro H. destruct (sol_lt_swo i H) as [S1 S2 S3]. constructor; [intros a _; apply S1|].
    intros a b c _ _ _. apply S2. }
  assert (Hkp : in_objective i = OKnapsack \/ in_objective i = OVariableSizedBinPacking ->
     PartialOrderOn sane_solution (lt1 i)).
  { intro H. constructor.
    - intros a [Ha _]. destruct (sol_lt_partial i H a a a Ha Ha Ha) as (E & _ & _). exact E.
    - intros a b c [Ha _] [Hb _] [Hc _]. destruct (sol_lt_partial i H a b c Ha Hb Hc) as (_ & _ & E). exact E. }
  destruct Ho as [H|[H|[H|[H|H]]]]; try (apply Hswo; rewrite H; reflexivity); try (apply Hkp; tauto).
  unfold lt1, sol_lt. rewrite H. constructor.
  - intros a _. destruct (s_feasible a); simpl; [apply sgp_irrefl|reflexivity].
  - intros a b c [[Ha _] _] [[Hb _] _] [[Hc _] _].
    destruct (s_feasible a), (s_feasible b), (s_feasible c); simpl; try congruence.
    intros H1 H2. eapply sgp_trans; [| | |exact H2|exact H1]; assumption.
Qed.

Lemma reports_ok : forall h, sane_reports h -> forall c, In c h -> call_ok Solution sane_solution c.
Proof. intros h H c Hc. destruct c as [s| |q|n|q|x|y|]; simpl; auto. Qed.

(** ** C25 *)

Section C25.
Variable i : Instance.
Hypothesis Hi : ordered_objective (in_objective i).
Variable threads : list (list Call1).
Hypothesis Hthreads : forall l, In l threads -> sane_reports l.

Lemma threads_sane : forall h, interleaving threads h -> sane_reports h.
Proof.
  intros h H s Hs. apply (interleaving_in _ _ _ H) in Hs. destruct Hs as (l & Hl & Hs). apply (Hthreads l Hl s Hs).
Qed.
End C25.

(** From one moment of the run to a later one: the incumbent stays or is
    replaced by a strictly better one, the bounds only tighten, the end flag
    stays up. *)
Theorem C25_monotone : forall i threads before after,
  ordered_objective (in_objective i) -> (forall l, In l threads -> sane_reports l) ->
  interleaving threads (before ++ after) ->
  let st := run1 i before in
  let st' := run1 i (before ++ after) in
  (incumbent st' = incumbent st \/ lt1 i (incumbent st) (incumbent st') = true) /\
  tighter (bounds_of st) (bounds_of st') /\
  (fs_end Solution st = true -> fs_end Solution st' = true).
Proof.
  intros i threads before after Hi Ht H st st'.
  pose proof (threads_sane threads Ht _ H) as Hs.
  unfold st', run1. rewrite run_app. apply (run_monotone _ _ _ _ _ _ _ _ _ _ _ _ sane_solution (order1 i Hi)).
  - apply run_inv; [apply order1; assumption|apply inv_new; apply sane_new|].
    apply reports_ok. intros s Hin. apply Hs. apply in_or_app. left. assumption.
  - apply reports_ok. intros s Hin. apply Hs. apply in_or_app. right. assumption.
Qed.
Print Assumptions C25_monotone.

(** At the end of any interleaving: the incumbent is the empty solution or one
    that some thread reported, none of the reported ones beats it, and the
    bounds are exactly the best of the reported ones. *)
Theorem C25_nothing_lost : forall i threads h,
  ordered_objective (in_objective i) -> (forall l, In l threads -> sane_reports l) ->
  interleaving threads h ->
  let b := incumbent (run1 i h) in
  (b = sol_new i \/ exists l, In l threads /\ In (UpdSolution Solution b) l) /\
  (forall l s, In l threads -> In (UpdSolution Solution s) l -> lt1 i b s = false) /\
  best_bounds (available1 i) (concat threads) (bounds_of (run1 i h)).
Proof.
  intros i threads h Hi Ht H b.
  pose proof (threads_sane threads Ht _ H) as Hs.
  pose proof (interleaving_in _ _ _ H) as Hin.
  destruct (run_final_best Solution (lt1 i) copies1 s_feasible (full1 i) profit1 cost1 bins1 zero1 zero1 (in_objective i)
    (available1 i) sane_solution (order1 i Hi) (sol_new i) h (sane_new i) (reports_ok h Hs)) as [B1 B2].
  fold (run1 i h) in B1, B2. fold (incumbent (run1 i h)) in B1, B2. fold b in B1, B2.
  split; [|split].
  - destruct B1 as [B1|B1]; [left; assumption|right]. apply Hin in B1. assumption.
  - intros l s Hl Hls. apply B2. right. apply Hin. exists l. auto.
  - pose proof (run_best_bounds Solution (lt1 i) copies1 s_feasible (full1 i) profit1 cost1 bins1 zero1 zero1
      (in_objective i) (available1 i)
      (fs_new Solution s_feasible (full1 i) profit1 cost1 bins1 zero1 zero1 (in_objective i) (sol_new i)) h eq_refl) as B.
    fold (run1 i h) in B. fold (bounds_of (run1 i h)) in B.
    assert (Hiff : forall c, In c h <-> In c (concat threads)).
    { intro c. rewrite Hin, in_concat. split; intros (l & A & C); exists l; auto. }
    destruct B as [K1 K2 A1 A2 X1 X2 O1 O2 Y1 Y2 F]. constructor.
    + intros q Hq. apply K1. apply Hiff. assumption.
    + rewrite <- Hiff. assumption.
    + intros q Hq. apply A1. apply Hiff. assumption.
    + rewrite <- Hiff. assumption.
    + intros q Hq. apply X1. apply Hiff. assumption.
    + rewrite <- Hiff. assumption.
    + intros q Hq. apply O1. apply Hiff. assumption.
    + rewrite <- Hiff. assumption.
    + intros q Hq. apply Y1. apply Hiff. assumption.
    + rewrite <- Hiff. assumption.
    + rewrite F, Hiff. split; (intros [G|(n & G & G')]; [left; assumption|right; exists n; rewrite ?Hiff in *; auto]).
Qed.
Print Assumptions C25_nothing_lost.

(** Two interleavings of the same threads: neither incumbent beats the other
    and the bounds are the same. *)
Theorem C25_interleaving_independent : forall i threads h h',
  ordered_objective (in_objective i) -> (forall l, In l threads -> sane_reports l) ->
  interleaving threads h -> interleaving threads h' ->
  lt1 i (incumbent (run1 i h)) (incumbent (run1 i h')) = false /\
  tighter (bounds_of (run1 i h)) (bounds_of (run1 i h')) /\
  tighter (bounds_of (run1 i h')) (bounds_of (run1 i h)).
Proof.
  intros i threads h h' Hi Ht H H'.
  assert (Hbb : forall b b', 0 <= bo_bin_packing b' -> (0 <= bo_variable b')%Q -> 0 <= bo_x b' -> 0 <= bo_y b' ->
    best_bounds (available1 i) (concat threads) b -> best_bounds (available1 i) (concat threads) b' -> tighter b b').
  { intros b b' P1 P2 P3 P4 [K1 K2 A1 A2 X1 X2 O1 O2 Y1 Y2 F] [K1' K2' A1' A2' X1' X2' O1' O2' Y1' Y2' F'].
    constructor.
    - destruct K2 as [->|K2]; [destruct (bo_knapsack b'); exact I|]. apply K1'. assumption.
    - destruct A2 as [->|A2]; auto.
    - destruct X2 as [->|X2]; auto.
    - destruct O2 as [->|O2]; auto.
    - destruct Y2 as [->|Y2]; auto.
    - intro E. apply F'. apply F. assumption. }
  assert (Hpos : forall g, interleaving threads g -> tighter no_bounds (bounds_of (run1 i g))).
  { intros g Hg. destruct (C25_monotone i threads [] g Hi Ht Hg) as (_ & T & _). exact T. }
  destruct (C25_nothing_lost i threads h Hi Ht H) as (N1 & N2 & N3).
  destruct (C25_nothing_lost i threads h' Hi Ht H') as (N1' & N2' & N3').
  pose proof (Hpos h H) as [_ p1 p2 p3 p4 _]. pose proof (Hpos h' H') as [_ q1 q2 q3 q4 _]. simpl in *.
  split; [|split; apply Hbb; auto].
  destruct N1' as [->|(l & Hl & Hin)]; [|apply (N2 l); assumption].
  destruct (C25_monotone i threads [] h Hi Ht H) as ([E|E] & _ & _).
  - simpl in E. rewrite E. apply (po_irrefl _ _ (order1 i Hi)). apply sane_new.
  - simpl in E. unfold incumbent in E at 1. unfold run1 in E at 1. simpl in E. unfold fo_best in E at 1. simpl in E.
    destruct (lt1 i (incumbent (run1 i h)) (sol_new i)) eqn:L; [|reflexivity].
    rewrite <- (po_irrefl _ _ (order1 i Hi) (sol_new i) (sane_new i)). symmetry.
    apply (po_trans _ _ (order1 i Hi) _ (incumbent (run1 i h))); try assumption; try apply sane_new.
    destruct N1 as [->|(l & Hl & Hin)]; [apply sane_new|apply (Ht l Hl _ Hin)].
Qed.
Print Assumptions C25_interleaving_independent.

(** The user's callback: each output it receives improves on the previous one,
    and the last one received is the final output. *)
Theorem C25_callbacks : forall i threads h,
  ordered_objective (in_objective i) -> (forall l, In l threads -> sane_reports l) ->
  interleaving threads h ->
  improving_log (lt1 i) (out_new Solution (sol_new i)) (fs_log Solution (run1 i h)) /\
  hd (out_new Solution (sol_new i)) (fs_log Solution (run1 i h)) = fs_out Solution (run1 i h).
Proof.
  intros i threads h Hi Ht H. pose proof (threads_sane threads Ht _ H) as Hs.
  apply (run_log _ _ _ _ _ _ _ _ _ _ _ _ sane_solution (order1 i Hi)); [apply sane_new|].
  apply reports_ok. assumption.
Qed.
Print Assumptions C25_callbacks.

(** Three threads on a knapsack instance. *)
Definition ex_i : Instance := ex_instance OKnapsack false.
Definition ex_s (calls : list BuilderCall) : Solution :=
  match history ex_i accept calls [] with Some s => s | None => sol_new ex_i end.
Definition ex_poor : Solution := ex_s [AddBin 0 1; AddItem 0 1].
Definition ex_good : Solution := ex_s [AddBin 0 1; AddItem 0 0; AddItem 0 1].
Definition ex_threads : list (list Call1) :=
  [[UpdSolution Solution ex_poor; UpdKnapsack Solution (Fin 20)];
   [UpdSolution Solution ex_good]; [UpdKnapsack Solution (Fin 12)]].

Example C25_example :
  s_feasible ex_good = true /\ profit1 ex_good = 12%Q /\
  interleaving ex_threads [UpdSolution Solution ex_good; UpdSolution Solution ex_poor;
     UpdKnapsack Solution (Fin 12); UpdKnapsack Solution (Fin 20)] /\
  interleaving ex_threads [UpdSolution Solution ex_poor; UpdKnapsack Solution (Fin 20);
     UpdSolution Solution ex_good; UpdKnapsack Solution (Fin 12)] /\
  (forall l, In l ex_threads -> sane_reports l) /\
  incumbent (run1 ex_i [UpdSolution Solution ex_poor; UpdKnapsack Solution (Fin 20);
     UpdSolution Solution ex_good; UpdKnapsack Solution (Fin 12)]) = ex_good /\
  fs_end Solution (run1 ex_i [UpdSolution Solution ex_poor; UpdKnapsack Solution (Fin 20);
     UpdSolution Solution ex_good; UpdKnapsack Solution (Fin 12)]) = true.
Proof.
  split; [reflexivity|]. split; [vm_compute; reflexivity|].
  split.
  { unfold ex_threads.
    apply (inter_step [[UpdSolution Solution ex_poor; UpdKnapsack Solution (Fin 20)]] _ [] [[UpdKnapsack Solution (Fin 12)]]).
    apply (inter_step [] _ [UpdKnapsack Solution (Fin 20)] [[]; [UpdKnapsack Solution (Fin 12)]]).
    apply (inter_step [[UpdKnapsack Solution (Fin 20)]; []] _ [] []).
    apply (inter_step [] _ [] [[]; []]).
    apply inter_done. intros l [<-|[<-|[<-|[]]]]; reflexivity. }
  split.
  { unfold ex_threads.
    apply (inter_step [] _ [UpdKnapsack Solution (Fin 20)] [[UpdSolution Solution ex_good]; [UpdKnapsack Solution (Fin 12)]]).
    apply (inter_step [] _ [] [[UpdSolution Solution ex_good]; [UpdKnapsack Solution (Fin 12)]]).
    apply (inter_step [[]] _ [] [[UpdKnapsack Solution (Fin 12)]]).
    apply (inter_step [[]; []] _ [] []).
    apply inter_done. intros l [<-|[<-|[<-|[]]]]; reflexivity. }
  split.
  { intros l [<-|[<-|[<-|[]]]] s Hs; simpl in Hs.
    - destruct Hs as [Hs|[Hs|[]]]; [|discriminate]. injection Hs as <-.
      split; [split|]; vm_compute; discriminate.
    - destruct Hs as [Hs|[]]. injection Hs as <-. split; [split|]; vm_compute; discriminate.
    - destruct Hs as [Hs|[]]. discriminate. }
  split; vm_compute; reflexivity.
Qed.

(** Finding: with the default objective, whose comparison has cycles (C11),
    the final incumbent can be beaten by a solution reported earlier. *)
Theorem C25_default_objective_refuted : exists i h s,
  in_objective i = ODefault /\ sane_reports h /\
  In (UpdSolution Solution s) h /\ lt1 i (incumbent (run1 i h)) s = true.
Proof.
  pose (sol k := match history ex_cycle accept [AddBin 0 1; AddItem 0 k; AddBin 0 1; AddItem 1 3] [] with
             | Some s => s | None => sol_new ex_cycle end).
  exists ex_cycle,
    [UpdSolution Solution (sol 2%nat); UpdSolution Solution (sol 1%nat); UpdSolution Solution (sol 0%nat)], (sol 2%nat).
  split; [reflexivity|]. split; [|split; [left; reflexivity|vm_compute; reflexivity]].
  intros s [H|[H|[H|[]]]]; injection H as <-; split; [split| |split| |split|]; vm_compute; discriminate.
Qed.
Print Assumptions C25_default_objective_refuted.

(** ** C26 *)

(** The tasks [ts], any programs ([tstep]), registered with fresh local
    outputs on the formatter state [st], scheduled in any way. *)
Definition start1 (i : Instance) {T Exc : Type} (st : FState Solution) (ts : list T) : PState Solution T Exc :=
  mkPS Solution T Exc st (register Solution T Exc (sol_new i) ts).
Definition parallel1 (i : Instance) {T Exc : Type} (tstep : T -> bool -> Outcome Solution T Exc)
    (deterministic : bool) (ps : PState Solution T Exc) (schedule : list nat) : PState Solution T Exc :=
  prun Solution (lt1 i) copies1 s_feasible (full1 i) profit1 cost1 bins1 zero1 zero1 (in_objective i) (available1 i)
    T Exc tstep deterministic ps schedule.
Definition result1 (i : Instance) {T Exc : Type} (deterministic : bool) (ps : PState Solution T Exc) : Exc + FState Solution :=
  conclude Solution (lt1 i) copies1 s_feasible (full1 i) profit1 cost1 bins1 zero1 zero1 (in_objective i) (available1 i)
    T Exc deterministic ps.

Theorem C26_schedule_independent : forall i T Exc (tstep : T -> bool -> Outcome Solution T Exc) st ts schedule schedule',
  let ps := parallel1 i tstep true (start1 i st ts) schedule in
  let ps' := parallel1 i tstep true (start1 i st ts) schedule' in
  finished Solution T Exc ps -> finished Solution T Exc ps' ->
  result1 i true ps = result1 i true ps'.
Proof.
  intros i T Exc tstep st ts s s' ps ps' H H'. unfold ps, ps', parallel1 in *.
  rewrite (schedule_independent _ _ _ _ _ _ _ _ _ _ _ _ _ _ tstep _ s s' H H'). reflexivity.
Qed.
Print Assumptions C26_schedule_independent.

Lemma register_nth : forall (T Exc : Type) empty (ts : list T) k t, nth_error ts k = Some t ->
  nth_error (register Solution T Exc empty ts) k = Some (mkTask Solution T Exc (Running T Exc t) (out_new Solution empty)).
Proof. intros. unfold register. rewrite nth_error_map, H. reflexivity. Qed.

(** An exception is rethrown exactly when some task throws, and it is one of
    those thrown. *)
Theorem C26_exceptions : forall i T Exc (tstep : T -> bool -> Outcome Solution T Exc) st ts schedule,
  let ps := parallel1 i tstep true (start1 i st ts) schedule in
  finished Solution T Exc ps ->
  (forall x, result1 i true ps = inl x -> exists t, In t ts /\ throws tstep (fs_end Solution st) t x) /\
  (forall t x, In t ts -> throws tstep (fs_end Solution st) t x -> exists y, result1 i true ps = inl y).
Proof.
  intros i T Exc tstep st ts s ps Hf.
  destruct (prun_det Solution (lt1 i) copies1 s_feasible (full1 i) profit1 cost1 bins1 zero1 zero1 (in_objective i) (available1 i)
    T Exc tstep s (start1 i st ts)) as (_ & Hlen & Hn).
  fold (parallel1 i tstep true (start1 i st ts) s) in Hlen, Hn. fold ps in Hlen, Hn. simpl in Hlen, Hn.
  unfold register in Hlen. rewrite map_length in Hlen.
  split.
  - intros x H. unfold result1, conclude in H.
    destruct (rethrown Solution T Exc (ps_tasks Solution T Exc ps)) as [y|] eqn:E; [|discriminate]. injection H as ->.
    destruct (rethrown_in _ _ _ _ _ E) as (k & Hk & Hs).
    apply In_nth_error in Hk. destruct Hk as [n Hk].
    assert (Hlt : (n < length ts)%nat) by (rewrite <- Hlen; apply nth_error_Some; congruence).
    destruct (nth_error ts n) as [t|] eqn:Et; [|apply nth_error_None in Et; lia].
    exists t. split; [apply nth_error_In with n; assumption|].
    specialize (Hn n _ (register_nth T Exc (sol_new i) ts n t Et)). rewrite Hk in Hn. injection Hn as Hn.
    rewrite <- (iter_throws Solution (lt1 i) copies1 (in_objective i) T Exc tstep (count_occ Nat.eq_dec s n) (fs_end Solution st)
       (mkTask Solution T Exc (Running T Exc t) (out_new Solution (sol_new i))) t eq_refl).
    + rewrite <- Hn. assumption.
    + rewrite <- Hn. apply (Hf k). apply nth_error_In with n. assumption.
  - intros t x Ht Hx. apply In_nth_error in Ht. destruct Ht as [n Et].
    specialize (Hn n _ (register_nth T Exc (sol_new i) ts n t Et)).
    assert (Hin := nth_error_In _ _ Hn).
    pose proof (Hf _ Hin) as Hst.
    destruct (rethrown_some Solution T Exc (ps_tasks Solution T Exc ps) _ Hin) as [y Ey].
    + exists x. apply (iter_throws Solution (lt1 i) copies1 (in_objective i) T Exc tstep (count_occ Nat.eq_dec s n)
        (fs_end Solution st) (mkTask Solution T Exc (Running T Exc t) (out_new Solution (sol_new i))) t eq_refl Hst). assumption.
    + exists y. unfold result1, conclude. rewrite Ey. reflexivity.
Qed.
Print Assumptions C26_exceptions.

(** Every solution found by a task is compared to that task's local best [a],
    which does not lose against it, and the final incumbent does not lose
    against [a], nor against the incumbent before the parallel section; the
    final bounds take all the reported bounds into account. *)
Theorem C26_nothing_lost : forall i T Exc (tstep : T -> bool -> Outcome Solution T Exc) h ts schedule st',
  ordered_objective (in_objective i) -> sane_reports h ->
  let st := run1 i h in
  let ps := parallel1 i tstep true (start1 i st ts) schedule in
  (forall t e, In t ts -> emits tstep (fs_end Solution st) t e -> sane_solution (event_solution e)) ->
  finished Solution T Exc ps -> result1 i true ps = inr st' ->
  lt1 i (incumbent st') (incumbent st) = false /\
  (forall t e, In t ts -> emits tstep (fs_end Solution st) t e ->
     (exists a, (a = sol_new i \/ exists e', emits tstep (fs_end Solution st) t e' /\ a = event_solution e') /\
        lt1 i (incumbent st') a = false /\ lt1 i a (event_solution e) = false) /\
     match e with
     | Found _ _ => True
     | FoundWithBounds _ _ b => covers (in_objective i) (bounds_of st') b
     end).
Proof.
  intros i T Exc tstep h ts s st' Ho Hh st ps Hem Hf Hr.
  pose proof (order1 i Ho) as PO.
  destruct (prun_det Solution (lt1 i) copies1 s_feasible (full1 i) profit1 cost1 bins1 zero1 zero1 (in_objective i) (available1 i)
    T Exc tstep s (start1 i st ts)) as (Hform & Hlen & Hn).
  fold (parallel1 i tstep true (start1 i st ts) s) in Hform, Hlen, Hn. fold ps in Hform, Hlen, Hn. simpl in Hform, Hlen, Hn.
  unfold register in Hlen. rewrite map_length in Hlen.
  unfold result1, conclude in Hr.
  destruct (rethrown Solution T Exc (ps_tasks Solution T Exc ps)) as [y|]; [discriminate|]. injection Hr as Hr.
  rewrite Hform in Hr.
  assert (Hinv : inv Solution sane_solution st).
  { apply run_inv; [assumption|apply inv_new; apply sane_new|apply reports_ok; assumption]. }
  assert (Hiter : forall n t, nth_error ts n = Some t ->
    good Solution sane_solution (tk_local Solution T Exc
      (iter Solution (lt1 i) copies1 (in_objective i) T Exc tstep (count_occ Nat.eq_dec s n) (fs_end Solution st)
         (mkTask Solution T Exc (Running T Exc t) (out_new Solution (sol_new i))))) /\
    forall e, emits tstep (fs_end Solution st) t e ->
      event_covered Solution (lt1 i) (in_objective i) (tk_local Solution T Exc
      (iter Solution (lt1 i) copies1 (in_objective i) T Exc tstep (count_occ Nat.eq_dec s n) (fs_end Solution st)
         (mkTask Solution T Exc (Running T Exc t) (out_new Solution (sol_new i))))) e).
  { intros n t Et.
    destruct (iter_covered Solution (lt1 i) copies1 (in_objective i) T Exc tstep sane_solution PO (count_occ Nat.eq_dec s n)
      (fs_end Solution st) (mkTask Solution T Exc (Running T Exc t) (out_new Solution (sol_new i)))) as (G & _ & C).
    - split; [reflexivity|apply sane_new].
    - intros e He. apply (Hem t); [apply nth_error_In with n; assumption|assumption].
    - split; [exact G|]. intros e He. apply (C (Hf _ (nth_error_In _ _ (Hn n _ (register_nth T Exc (sol_new i) ts n t Et)))) t eq_refl e He). }
  destruct (replay_covers Solution (lt1 i) copies1 s_feasible (full1 i) profit1 cost1 bins1 zero1 zero1 (in_objective i) (available1 i)
    T Exc sane_solution PO (ps_tasks Solution T Exc ps) st Hinv) as (I' & B & C).
  { intros k Hk. apply In_nth_error in Hk. destruct Hk as [n Hk].
    assert (Hlt : (n < length ts)%nat) by (rewrite <- Hlen; apply nth_error_Some; congruence).
    destruct (nth_error ts n) as [t|] eqn:Et; [|apply nth_error_None in Et; lia].
    specialize (Hn n _ (register_nth T Exc (sol_new i) ts n t Et)). rewrite Hk in Hn. injection Hn as ->.
    apply (Hiter n t Et). }
  unfold bounds_of, incumbent. rewrite <- Hr. split; [exact B|].
  intros t e Ht He.
  pose proof Ht as Ht'. apply In_nth_error in Ht. destruct Ht as [n Et].
  destruct (Hiter n t Et) as [G Cov]. destruct (Cov e He) as [L Bd].
  destruct (C _ (nth_error_In _ _ (Hn n _ (register_nth T Exc (sol_new i) ts n t Et)))) as [L2 Bd2]. split.
  - exists (fo_best Solution (tk_local Solution T Exc
      (iter Solution (lt1 i) copies1 (in_objective i) T Exc tstep (count_occ Nat.eq_dec s n) (fs_end Solution st)
         (mkTask Solution T Exc (Running T Exc t) (out_new Solution (sol_new i)))))).
    split; [|split; assumption].
    destruct (iter_best_in Solution (lt1 i) copies1 (in_objective i) T Exc tstep sane_solution PO (count_occ Nat.eq_dec s n)
      (fs_end Solution st) (mkTask Solution T Exc (Running T Exc t) (out_new Solution (sol_new i))) t eq_refl) as [E|E].
    + split; [reflexivity|apply sane_new].
    + intros e' He'. apply (Hem t); assumption.
    + left. exact E.
    + right. exact E.
  - destruct e as [x|x b]; [exact I|]. apply (covers_trans _ _ _ _ Bd2 Bd).
Qed.
Print Assumptions C26_nothing_lost.

(** With the integer objectives the final incumbent does not lose against any
    solution found by any task. *)
Theorem C26_nothing_lost_integer : forall i T Exc (tstep : T -> bool -> Outcome Solution T Exc) h ts schedule st',
  in_objective i = OBinPacking \/ in_objective i = OBinPackingWithLeftovers -> sane_reports h ->
  let st := run1 i h in
  let ps := parallel1 i tstep true (start1 i st ts) schedule in
  (forall t e, In t ts -> emits tstep (fs_end Solution st) t e -> sane_solution (event_solution e)) ->
  finished Solution T Exc ps -> result1 i true ps = inr st' ->
  forall t e, In t ts -> emits tstep (fs_end Solution st) t e -> lt1 i (incumbent st') (event_solution e) = false.
Proof.
  intros i T Exc tstep h ts s st' Ho Hh st ps Hem Hf Hr t e Ht He.
  assert (Ho' : ordered_objective (in_objective i)) by (unfold ordered_objective; tauto).
  destruct (C26_nothing_lost i T Exc tstep h ts s st' Ho' Hh Hem Hf Hr) as [_ C].
  destruct (C t e Ht He) as [(a & _ & L1 & L2) _].
  assert (Hint : integer_objective (in_objective i) = true) by (destruct Ho as [-> | ->]; reflexivity).
  destruct (sol_lt_swo i Hint) as [_ _ S3]. apply (S3 _ a _ L1 L2).
Qed.
Print Assumptions C26_nothing_lost_integer.

(** Tasks given as lists of events. *)
Definition script_step (l : list (Event Solution)) (flag : bool) : Outcome Solution (list (Event Solution)) unit :=
  match l with
  | [] => Done Solution (list (Event Solution)) unit
  | e :: l' => Step Solution (list (Event Solution)) unit l' (Some e)
  end.

(** Profits 1, 1 + 0.9e-6 and 1 + 1.8e-6. *)
Definition ex_close : Instance :=
  mkInst OKnapsack
    [mkIT 10 1 1 0 0 0 9 None (-1) [[]];
     mkIT 9 (1 + (9 # 10000000)) 1 0 0 0 9 None (-1) [[]];
     mkIT 8 (1 + (18 # 10000000)) 1 0 0 0 9 None (-1) [[]]]
    [mkBT 10 10 1 0 None [] [] [0; 1; 2]%nat]
    [0]%nat [0] 10 10 3 27 3 2 None 1 false.
Definition close (k : nat) : Solution :=
  match history ex_close accept [AddBin 0 1; AddItem 0 k] [] with Some s => s | None => sol_new ex_close end.

Example C26_example : let ts := [[Found Solution (close 0); Found Solution (close 1)]; [Found Solution (close 2)]] in
  finished Solution _ unit (parallel1 ex_close script_step true (start1 ex_close (run1 ex_close []) ts) [0; 0; 0; 1; 1]%nat) /\
  finished Solution _ unit (parallel1 ex_close script_step true (start1 ex_close (run1 ex_close []) ts) [1; 0; 0; 1; 0]%nat) /\
  match result1 ex_close true (parallel1 ex_close script_step true (start1 ex_close (run1 ex_close []) ts) [0; 0; 0; 1; 1]%nat) with
  | inr st => incumbent st = close 2
  | inl _ => False
  end.
Proof.
  cbv zeta. split; [|split].
  - intros k Hk. vm_compute in Hk. destruct Hk as [<-|[<-|[]]]; exact I.
  - intros k Hk. vm_compute in Hk. destruct Hk as [<-|[<-|[]]]; exact I.
  - vm_compute. reflexivity.
Qed.

(** Finding: with profits the tolerance is applied twice, in the task and in
    the replay, so the final incumbent can lose against a solution that was
    found (it would not in the other modes, C25_nothing_lost). *)
Theorem C26_nothing_lost_knapsack_refuted : exists i h ts schedule st' t e,
  in_objective i = OKnapsack /\ sane_reports h /\
  let ps := parallel1 i script_step true (start1 i (run1 i h) ts) schedule in
  finished Solution _ unit ps /\ result1 i true ps = inr st' /\
  (forall t e, In t ts -> emits script_step (fs_end Solution (run1 i h)) t e -> sane_solution (event_solution e)) /\
  In t ts /\ emits script_step (fs_end Solution (run1 i h)) t e /\
  lt1 i (incumbent st') (event_solution e) = true.
Proof.
  exists ex_close, [UpdSolution Solution (close 0)], [[Found Solution (close 1); Found Solution (close 2)]], [0; 0; 0]%nat.
  eexists. exists [Found Solution (close 1); Found Solution (close 2)], (Found Solution (close 2)).
  split; [reflexivity|]. split.
  { intros s [H|[]]. injection H as <-. split; [split|]; vm_compute; discriminate. }
  cbv zeta. split.
  { intros k Hk. vm_compute in Hk. destruct Hk as [<-|[]]; exact I. }
  split; [reflexivity|]. split.
  { intros t e [<-|[]] He.
    assert (S0 : sane_solution (close 1)) by (split; [split|]; vm_compute; discriminate).
    assert (S1 : sane_solution (close 2)) by (split; [split|]; vm_compute; discriminate).
    inversion He as [t0 t1 e0 H1|t0 t1 o1 e0 H1 H2]; subst; injection H1 as <- <-; [exact S0|].
    inversion H2 as [t0 t1 e0 H3|t0 t1 o1 e0 H3 H4]; subst; injection H3 as <- <-; [exact S1|].
    inversion H4; discriminate. }
  split; [left; reflexivity|]. split; [|vm_compute; reflexivity].
  apply emits_later with [Found Solution (close 2)] (Some (Found Solution (close 1))); [reflexivity|].
  apply emits_now with []. reflexivity.
Qed.
Print Assumptions C26_nothing_lost_knapsack_refuted.

(** In the other modes the result depends on the schedule. *)
Theorem C26_other_modes_refuted : exists i ts schedule schedule' st st',
  ordered_objective (in_objective i) /\
  let ps := parallel1 i script_step false (start1 i (run1 i []) ts) schedule in
  let ps' := parallel1 i script_step false (start1 i (run1 i []) ts) schedule' in
  finished Solution _ unit ps /\ finished Solution _ unit ps' /\
  result1 i false ps = inr st /\ result1 i false ps' = inr st' /\
  view (incumbent st) <> view (incumbent st').
Proof.
  exists ex_close, [[Found Solution (close 0)]; [Found Solution (close 1)]], [0; 0; 1; 1]%nat, [1; 1; 0; 0]%nat.
  eexists. eexists. split; [unfold ordered_objective; simpl; tauto|]. cbv zeta.
  split; [intros k Hk; vm_compute in Hk; destruct Hk as [<-|[<-|[]]]; exact I|].
  split; [intros k Hk; vm_compute in Hk; destruct Hk as [<-|[<-|[]]]; exact I|].
  split; [reflexivity|]. split; [reflexivity|]. vm_compute. discriminate.
Qed.
Print Assumptions C26_other_modes_refuted.

(** ** C27 *)

(** [ok] is the set of the solutions of the problem: feasible ones, with
    non-negative values; [valid_reports ok h] says that the reported bounds
    are valid for them. *)

(** The end flag goes up only if infeasibility was reported (or more bins are
    needed than available), or the incumbent matched a reported bound. *)
Theorem C27_stop_has_a_proof : forall i h,
  ordered_objective (in_objective i) -> sane_reports h -> ~ In (MemoryStop Solution) h ->
  fs_end Solution (run1 i h) = true ->
  exists before after, h = before ++ after /\
  let s := incumbent (run1 i before) in
  let reported := before in
  ( In (UpdInfeasible Solution) reported
    \/ (exists n, In (UpdBinPacking Solution n) reported /\ available1 i < n)
    \/ match in_objective i with
       | OKnapsack => exists q, In (UpdKnapsack Solution q) reported /\ equal_profit_x q (Fin (profit1 s)) = true
       | OBinPacking => full1 i s = true /\ (bins1 s = 0 \/ In (UpdBinPacking Solution (bins1 s)) reported)
       | OVariableSizedBinPacking => full1 i s = true /\
           exists q, (q = 0%Q \/ In (UpdVariable Solution q) reported) /\ equal_cost q (cost1 s) = true
       | OFeasibility => full1 i s = true /\ s_feasible s = true
       | _ => False
       end ).
Proof.
  intros i h Ho Hs Hm Hend.
  apply (run_end Solution (lt1 i) copies1 s_feasible (full1 i) profit1 cost1 bins1 zero1 zero1 (in_objective i)
    (available1 i) sane_solution (order1 i Ho) (sol_new i) h (sane_new i) (reports_ok h Hs) Hm) in Hend.
  destruct Hend as (h1 & h2 & E & Hopt). exists h1, h2. split; [assumption|]. cbv zeta.
  fold (run1 i h1) in Hopt.
  pose proof (run_best_bounds Solution (lt1 i) copies1 s_feasible (full1 i) profit1 cost1 bins1 zero1 zero1
      (in_objective i) (available1 i)
      (fs_new Solution s_feasible (full1 i) profit1 cost1 bins1 zero1 zero1 (in_objective i) (sol_new i)) h1 eq_refl) as B.
  fold (run1 i h1) in B. destruct B as [K1 K2 A1 A2 X1 X2 O1 O2 Y1 Y2 F].
  unfold is_proven_optimal in Hopt. cbv zeta in Hopt. fold (incumbent (run1 i h1)) in *.
  destruct (bo_infeasible (fo_bounds Solution (fs_out Solution (run1 i h1)))) eqn:Ei.
  { destruct (proj1 F eq_refl) as [G|(n & G1 & _ & G2)]; [left; assumption|right; left; exists n; auto]. }
  right. right. destruct Ho as [E0|[E0|[E0|[E0|E0]]]]; rewrite E0 in Hopt |- *; try discriminate.
  - apply andb_prop in Hopt. destruct Hopt as [H1 H2]. apply Z.eqb_eq in H2. rewrite <- H2.
    split; [assumption|]. destruct A2 as [A2|A2]; auto.
  - destruct K2 as [K2|K2]; [rewrite K2 in Hopt; discriminate|]. eauto.
  - apply andb_prop in Hopt. destruct Hopt as [H1 H2]. split; [assumption|]. eauto.
  - apply andb_prop in Hopt. assumption.
Qed.
Print Assumptions C27_stop_has_a_proof.

(** If the reported bounds are valid, a run whose end flag is up holds an
    optimal solution (or there is no solution). *)
Theorem C27_early_stop_optimal : forall i (ok : Solution -> Prop) h,
  in_objective i = OBinPacking \/ in_objective i = OKnapsack \/
  in_objective i = OVariableSizedBinPacking \/ in_objective i = OFeasibility ->
  sane_reports h -> ~ In (MemoryStop Solution) h ->
  (forall s, ok s -> sane_solution s /\ s_feasible s = true) ->
  valid_reports ok profit1 cost1 bins1 zero1 zero1 (available1 i) h ->
  (in_objective i = OKnapsack -> s_feasible (sol_new i) = true) ->
  (in_objective i <> OKnapsack -> in_number_of_items i <> 0) ->
  (in_objective i = OVariableSizedBinPacking ->
     forall s, In (UpdSolution Solution s) h -> s_feasible s = true -> (tol < cost1 s)%Q) ->
  fs_end Solution (run1 i h) = true ->
  (forall s, ~ ok s) \/
  (s_feasible (incumbent (run1 i h)) = true /\
   forall s, ok s -> as_good_as (in_objective i) profit1 cost1 bins1 zero1 zero1 (incumbent (run1 i h)) s).
Proof.
  intros i ok h Ho Hs Hm Hok Hv Hempty Hitems Hcost Hend.
  assert (Ho' : ordered_objective (in_objective i)) by (unfold ordered_objective; tauto).
  apply (stop_optimal Solution (lt1 i) copies1 s_feasible (full1 i) profit1 cost1 bins1 zero1 zero1 (in_objective i)
    (available1 i) sane_solution (order1 i Ho') ok (sol_new i) h (sane_new i) (reports_ok h Hs) Hm Hok Hv).
  - intros a b H. unfold lt1, sol_lt in H. destruct (s_feasible b); [reflexivity|discriminate].
  - intros a b Ha Hb Fa Fb. unfold lt1, sol_lt. rewrite Fa, Fb. simpl.
    destruct Ho as [-> |[-> |[-> | ->]]]; simpl; split; auto; try tauto.
    + intro H. apply Z.ltb_ge in H. exact H.
    + intros _ H. apply Z.ltb_ge. exact H.
  - intros s [[H1 H2] H3]. unfold zero1, profit1, cost1. repeat split; auto; lia.
  - assumption.
  - destruct Ho as [Ho|[Ho|[Ho|Ho]]]; rewrite Ho in *; auto;
      unfold full1; apply Z.eqb_neq; simpl; intro; apply Hitems; congruence.
  - assumption.
Qed.
Print Assumptions C27_early_stop_optimal.

Example C27_example : let h := [UpdSolution Solution ex_poor; UpdKnapsack Solution (Fin 12); UpdSolution Solution ex_good] in
  let ok s := s = ex_poor \/ s = ex_good in
  in_objective ex_i = OKnapsack /\ sane_reports h /\ (forall s, ok s -> sane_solution s /\ s_feasible s = true) /\
  valid_reports ok profit1 cost1 bins1 zero1 zero1 (available1 ex_i) h /\
  s_feasible (sol_new ex_i) = true /\
  fs_end Solution (run1 ex_i h) = true /\ incumbent (run1 ex_i h) = ex_good.
Proof.
  cbv zeta.
  assert (S1 : sane_solution ex_poor) by (split; [split|]; vm_compute; discriminate).
  assert (S2 : sane_solution ex_good) by (split; [split|]; vm_compute; discriminate).
  split; [reflexivity|]. split.
  { intros s [H|[H|[H|[]]]]; try discriminate; injection H as <-; assumption. }
  split; [intros s [-> | ->]; split; trivial; vm_compute; reflexivity|].
  split.
  { constructor; simpl.
    - intros q s [H|[H|[H|[]]]] [-> | ->]; try discriminate; injection H as <-; vm_compute; discriminate.
    - intros q s [H|[H|[H|[]]]]; discriminate.
    - intros s [-> | ->]; vm_compute; discriminate.
    - intros q s [H|[H|[H|[]]]]; discriminate.
    - intros q s [H|[H|[H|[]]]]; discriminate.
    - intros q s [H|[H|[H|[]]]]; discriminate.
    - intros s [H|[H|[H|[]]]]; discriminate. }
  split; [reflexivity|]. split; vm_compute; reflexivity.
Qed.

(** Finding: a knapsack instance whose only item is mandatory and has profit 0.
    The valid bound 0 equals the profit of the empty, infeasible incumbent: the
    end flag goes up before the feasible solution is looked for. *)
Definition ex_mandatory : Instance :=
  mkInst OKnapsack [mkIT 3 0 1 1 0 0 9 None (-1) [[]]]
    [mkBT 10 10 1 0 None [] [] [0%nat]]
    [0]%nat [0] 10 10 1 3 0 0 None 1 false.

Theorem C27_mandatory_items_refuted : exists i h s,
  in_objective i = OKnapsack /\ sane_reports h /\ ~ In (MemoryStop Solution) h /\
  (exists calls, history i accept calls [] = Some s) /\ sane_solution s /\ s_feasible s = true /\
  valid_reports (fun s' => s' = s) profit1 cost1 bins1 zero1 zero1 (available1 i) h /\
  fs_end Solution (run1 i h) = true /\ s_feasible (incumbent (run1 i h)) = false.
Proof.
  exists ex_mandatory, [UpdKnapsack Solution (Fin 0)]. eexists.
  split; [reflexivity|]. split; [intros s [H|[]]; discriminate|].
  split; [intros [H|[]]; discriminate|].
  split; [exists [AddBin 0 1; AddItem 0 0]; reflexivity|].
  split; [split; [split|]; vm_compute; discriminate|]. split; [reflexivity|].
  split.
  { constructor; simpl.
    - intros q s [H|[]] ->; injection H as <-; vm_compute; discriminate.
    - intros q s [H|[]]; discriminate.
    - intros s ->; vm_compute; discriminate.
    - intros q s [H|[]]; discriminate.
    - intros q s [H|[]]; discriminate.
    - intros q s [H|[]]; discriminate.
    - intros s [H|[]]; discriminate. }
  split; vm_compute; reflexivity.
Qed.
Print Assumptions C27_mandatory_items_refuted.

(** Finding: a bin cost not above the tolerance is considered equal to the
    initial bound 0, so the first complete solution stops the run although a
    cheaper one exists. *)
Definition ex_cheap : Instance :=
  mkInst OVariableSizedBinPacking [mkIT 3 3 1 1 0 0 9 None (-1) [[]; []]]
    [mkBT 10 (1 # 1000000) 1 0 None [] [] [0%nat]; mkBT 5 (1 # 2000000) 1 0 None [] [] [0%nat]]
    [0; 1]%nat [0; 10] 15 (1 # 1000000) 1 3 3 3 None 1 false.

Theorem C27_tiny_costs_refuted : exists i s s',
  in_objective i = OVariableSizedBinPacking /\ sane_solution s /\ sane_solution s' /\
  (exists calls, history i accept calls [] = Some s) /\ (exists calls, history i accept calls [] = Some s') /\
  s_feasible s = true /\ s_feasible s' = true /\
  fs_end Solution (run1 i [UpdSolution Solution s]) = true /\
  lt1 i (incumbent (run1 i [UpdSolution Solution s])) s' = true.
Proof.
  exists ex_cheap. eexists. eexists.
  split; [reflexivity|].
  refine ((fun H1 H2 => conj _ (conj _ (conj (ex_intro _ [AddBin 0 1; AddItem 0 0] H1) (conj (ex_intro _ [AddBin 1 1; AddItem 0 0] H2) _)))) eq_refl eq_refl).
  - split; [split|]; vm_compute; discriminate.
  - split; [split|]; vm_compute; discriminate.
  - split; [reflexivity|]. split; [reflexivity|]. split; vm_compute; reflexivity.
Qed.
Print Assumptions C27_tiny_costs_refuted.
