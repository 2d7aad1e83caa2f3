(** * C69: running the tasks of a solve *)

From Coq Require Import List Bool Arith Lia.
From Verif Require Import Util TaskRun_Model TaskRun_Spec TaskRun_Proof Formatter_Spec.
Import ListNotations.

Section Props.
Variables T R Out X : Type.
Variable op : T -> TaskOp T R X.
Variable body : R -> list (Out -> Out).
Variable throws : R -> Out -> option X.
Variable proven : R -> Out -> bool.
Variables parallel memory_limit : bool.
Notation Execute := (execute op body throws proven parallel memory_limit).
Notation Step := (step op body throws proven parallel memory_limit).

(** Whatever the schedule, whenever nobody holds the mutex the shared output is the result
    of the whole reports made so far, one after another in the order in which they got the
    mutex: no report is lost, split or mixed with another one.  Two tasks are never inside
    a report together. *)
Theorem C69_one_report_at_a_time : forall tasks o e schedule s ev, Execute (run_start tasks o e) schedule = Some (s, ev) ->
  (rs_lock s = None -> rs_output s = one_by_one body o (map snd (acquired ev))) /\
  (forall j k tj tk, nth_error (rs_tasks s) j = Some tj -> nth_error (rs_tasks s) k = Some tk -> in_section _ _ _ _ tj = true -> in_section _ _ _ _ tk = true -> j = k).
Proof.
  intros tasks o e l s ev H. destruct (execute_lock _ _ _ _ _ _ _ _ _ _ _ _ _ _ _ _ H) as [L1 L2]. split.
  - intro L. rewrite L in L2. exact L2.
  - intros j k tj tk Nj Nk Cj Ck. pose proof (L1 j tj Nj Cj) as E1. pose proof (L1 k tk Nk Ck) as E2. congruence.
Qed.

(** When run returns, every task was started exactly once, in the order of the list, and
    ended exactly once; the monitor has ended; and if the callbacks never throw then the
    mutex is free and the output is the result of all the reports. *)
Theorem C69_returns_after_tasks : forall tasks o e schedule s ev, Execute (run_start tasks o e) schedule = Some (s, ev) -> rs_main s = MReturned ->
  started ev = seq 0 (length tasks) /\ NoDup (ended ev) /\ (forall k, In k (ended ev) <-> k < length tasks) /\
  (forall ts, In ts (rs_tasks s) -> exists x, ts = TDone x) /\ length (rs_tasks s) = length tasks /\
  (rs_monitor s = MonOff \/ rs_monitor s = MonEnded) /\
  ((forall r o', throws r o' = None) -> rs_lock s = None /\ rs_output s = one_by_one body o (map snd (acquired ev))).
Proof.
  intros tasks o e l s ev H M. destruct (execute_main _ _ _ _ _ _ _ _ _ _ _ _ _ _ _ _ H) as [(H1 & H2 & H3 & H4 & H5) HL].
  rewrite M in H5. destruct H5 as (B1 & B2 & B3). rewrite HL in *.
  assert (AD : forall ts, In ts (rs_tasks s) -> exists x, ts = TDone x).
  { intros ts I1. apply In_nth_error in I1. destruct I1 as [k N]. assert (K : k < length tasks) by (rewrite <- HL; apply nth_error_Some; rewrite N; discriminate).
    destruct (B2 k K) as (x & N'). rewrite N in N'. injection N' as ->. exists x. reflexivity. }
  split; [exact B1|]. split; [exact H2|]. split; [|split; [exact AD|split; [reflexivity|split; [exact B3|]]]].
  - intro k. split; [apply H3|]. intro K. apply (H1 k K). apply (B2 k K).
  - intro Hth. destruct (execute_lock _ _ _ _ _ _ _ _ _ _ _ _ _ _ _ _ H) as [L1 L2]. destruct (rs_lock s) as [k|]; [|split; [reflexivity|exact L2]].
    exfalso. destruct L2 as (h & r & ts & _ & N & C). destruct (AD ts (nth_error_In _ _ N)) as [x ->]. destruct x as [x|]; [|exact C]. rewrite Hth in C. destruct C as [_ C]. discriminate.
Qed.

(** In the sequential mode the tasks run one at a time, in the order of the list. *)
Theorem C69_sequential_order : forall tasks o e schedule s ev, parallel = false -> Execute (run_start tasks o e) schedule = Some (s, ev) ->
  exists n, ended ev = seq 0 n /\ (started ev = seq 0 n \/ started ev = seq 0 (S n)).
Proof.
  intros tasks o e l s ev HP H.
  assert (G : main_inv _ _ _ _ s (started ev) (ended ev) /\ match rs_main s with MSpawn _ | MLast | MJoin _ => False
    | MAfter | MJoinMonitor | MReturned => ended ev = started ev | _ => True end).
  { revert l s ev H. apply (execute_ind _ _ _ _ _ _ _ _ _ _ (run_start tasks o e) (fun s ev l => main_inv _ _ _ _ s (started ev) (ended ev) /\ match rs_main s with MSpawn _ | MLast | MJoin _ => False
      | MAfter | MJoinMonitor | MReturned => ended ev = started ev | _ => True end)).
    - split; [apply start_main|exact Logic.I].
    - intros s ev l a s' ev' [I1 M] E. rewrite started_app, ended_app.
      assert (I2 : main_inv _ _ _ _ s' (started ev ++ started ev') (ended ev ++ ended ev')).
      { destruct a as [|k|ti me]; cbn in E; [eapply main_main|eapply task_main|eapply monitor_main]; eauto. }
      split; [exact I2|]. destruct a as [|k|ti me]; cbn in E.
      + unfold main_step in E. rewrite HP in E. cbv zeta in E. destruct (rs_main s) as [|k| |k|k|k| | |] eqn:MS; try discriminate; try contradiction.
        * injection E as <- <-. cbn [rs_main set_main]. destruct (Nat.eqb_spec (length (rs_tasks s)) 0) as [Z|]; [|exact Logic.I].
          destruct I1 as (H1 & H2 & H3 & _ & H5). rewrite MS in H5. destruct H5 as [-> _]. cbn. rewrite app_nil_r.
          destruct (ended ev) as [|x en]; [reflexivity|]. exfalso. specialize (H3 x (or_introl eq_refl)). lia.
        * destruct (Nat.ltb_spec k (length (rs_tasks s))); injection E as <- <-; cbn; [exact Logic.I|].
          destruct I1 as (_ & _ & _ & _ & H5). rewrite MS in H5. destruct H5 as (_ & -> & ->). rewrite app_nil_r. reflexivity.
        * destruct (task_done _ _); [|discriminate]. injection E as <- <-. exact Logic.I.
        * destruct (rs_monitor s); injection E as <- <-; cbn; rewrite M, app_nil_r; reflexivity.
        * destruct (rs_monitor s); try discriminate; injection E as <- <-; cbn; rewrite M, app_nil_r; reflexivity.
      + destruct (task_shape _ _ _ _ _ _ _ _ s k s' ev' E) as (ts & ts' & N & C1 & C2 & C3 & ET & EM & _ & ES & EE & _). rewrite EM, ES. destruct (rs_main s) eqn:MS; try exact M;
          exfalso; destruct I1 as (H1 & _ & _ & H4 & H5); rewrite MS in H5;
          assert (K : k < length (rs_tasks s)) by (apply nth_error_Some; rewrite N; discriminate); first [pose proof (proj1 (proj2 H5)) as B2|pose proof (proj2 H5) as B2];
          destruct (B2 k K) as (x & N'); rewrite N in N'; injection N' as ->; discriminate.
      + unfold monitor_step in E. destruct (rs_monitor s); try discriminate; [| | |destruct me]; injection E as <- <-; cbn; rewrite !app_nil_r; exact M. }
  destruct G as [(H1 & H2 & H3 & H4 & H5) M]. destruct (rs_main s) as [|k| |k|k|k| | |]; try contradiction.
  - destruct H5 as [B1 _]. exists 0. rewrite B1. split; [|left; reflexivity]. destruct (ended ev) as [|x en]; [reflexivity|]. exfalso.
    assert (K : x < length (rs_tasks s)) by (apply H3; left; reflexivity). assert (D : is_done _ _ _ _ s x) by (apply (H1 x K); left; reflexivity).
    apply done_started, (H4 x K) in D. rewrite B1 in D. exact D.
  - destruct H5 as (_ & B1 & B2). exists k. split; [exact B2|left; exact B1].
  - destruct H5 as (_ & B1 & [B2|B2]); [exists k; split; [exact B2|right; exact B1]|exists (S k); split; [exact B2|left; exact B1]].
  - exists (length (rs_tasks s)). destruct H5 as (B1 & _). rewrite M, B1. split; [reflexivity|left; reflexivity].
  - exists (length (rs_tasks s)). destruct H5 as (B1 & _). rewrite M, B1. split; [reflexivity|left; reflexivity].
  - exists (length (rs_tasks s)). destruct H5 as (B1 & _). rewrite M, B1. split; [reflexivity|left; reflexivity].
Qed.

(** If the callbacks never throw there is no deadlock: in every reachable state where run
    has not returned, a task or the calling thread can do a step, or the calling thread
    waits for the monitor, the end flag is set and the monitor can do a step. *)
Theorem C69_no_deadlock : forall tasks o e schedule s ev, (forall r o', throws r o' = None) ->
  Execute (run_start tasks o e) schedule = Some (s, ev) -> rs_main s <> MReturned ->
  exists a s' ev', Step s a = Some (s', ev') /\ match a with AMonitor _ _ => rs_main s = MJoinMonitor /\ rs_end s = true | _ => True end.
Proof.
  intros tasks o e l s ev Hth H M. pose proof (execute_lock _ _ _ _ _ _ _ _ _ _ _ _ _ _ _ _ H) as L. destruct (execute_main _ _ _ _ _ _ _ _ _ _ _ _ _ _ _ _ H) as [I1 _].
  apply (progress _ _ _ _ _ _ _ _ _ _ _ _ _ _ _ Hth L I1 M).
Qed.

(** If every task ends whatever it reads, then every execution is finite apart from the
    polling of the monitor: the tasks and the calling thread do at most the sum of the
    steps of the tasks, two steps per task and six steps; and after the end flag is set the
    monitor does at most two steps. *)
Theorem C69_bounded : forall cost tasks o e schedule s ev, bounded_by op body cost -> Execute (run_start tasks o e) schedule = Some (s, ev) ->
  own_steps schedule <= list_sum (map cost tasks) + 2 * length tasks + 6 /\
  (rs_main s <> MStart -> rs_end s = true -> forall schedule' s' ev', Execute s schedule' = Some (s', ev') -> length schedule' <= 2 + own_steps schedule').
Proof.
  intros cost tasks o e l s ev HC H. split.
  - pose proof (execute_work _ _ _ _ _ _ _ _ _ _ cost HC _ _ _ _ _ _ H). lia.
  - intros NS HE l' s' ev' H'. destruct (execute_main _ _ _ _ _ _ _ _ _ _ _ _ _ _ _ _ H) as [I1 _].
    pose proof (monitor_bounded _ _ _ _ _ _ _ _ _ _ _ _ _ _ _ _ I1 NS HE H') as B.
    assert (B2 : monitor_work (rs_monitor s) <= 2) by (destruct (rs_monitor s); cbn; lia).
    assert (S1 : length l' = own_steps l' + length (filter (fun a => match a with AMonitor _ _ => true | _ => false end) l')).
    { clear. unfold own_steps. induction l' as [|a l' IH]; [reflexivity|]. cbn. destruct a; cbn; lia. }
    lia.
Qed.

(** The end flag: between two reports it is set exactly when it was set before the run, or
    one of the reports made so far is a proof of optimality of the output that it left, or
    the monitor saw the memory limit, or run has set it for the monitor after the tasks. *)
Theorem C69_end_flag : forall tasks o e schedule s ev, Execute (run_start tasks o e) schedule = Some (s, ev) -> rs_lock s = None ->
  (rs_end s = true <-> e = true \/ In EMemory ev \/ In ERelease ev \/ proof_in body proven o (map snd (acquired ev))).
Proof.
  intros tasks o e l s ev H L. pose proof (execute_flag _ _ _ _ _ _ _ _ _ _ _ _ _ _ _ _ H) as F. unfold flag_inv, counted in F. rewrite L in F. exact F.
Qed.

(** Exceptions: the exception thrown again after run is the one of the first task of the
    list that threw, and nothing is thrown if no task did. *)
Theorem C69_exceptions : forall (s : RState T R Out X), 
  (forall x, rethrown s = Some x <->
    exists k, nth_error (rs_tasks s) k = Some (TDone (Some x)) /\ forall j y, j < k -> nth_error (rs_tasks s) j <> Some (TDone (Some y))) /\
  (rethrown s = None <-> forall k x, nth_error (rs_tasks s) k <> Some (TDone (Some x))).
Proof.
  intro s. split; [apply rethrown_first|]. split.
  - intros H k. induction k as [k IH] using (well_founded_induction lt_wf). intros x N.
    assert (E : rethrown s = Some x); [|congruence]. apply rethrown_first. exists k. split; [exact N|]. intros j y Hj. apply IH. exact Hj.
  - intro H. destruct (rethrown s) as [x|] eqn:E; [|reflexivity]. exfalso. apply rethrown_first in E. destruct E as (k & N & _). apply (H k x N).
Qed.

(** What ends a task, and with which outcome: a task ends without exception exactly by
    returning, and with the exception [x] exactly by throwing [x] or because the user
    callback of its report throws [x]; the outcome of an ended task never changes, whatever
    the others do. *)
Theorem C69_outcomes : forall (s s' : RState T R Out X) a ev k, Step s a = Some (s', ev) ->
  (forall r, nth_error (rs_tasks s) k = Some (TDone r) -> nth_error (rs_tasks s') k = Some (TDone r)) /\
  ((forall r, nth_error (rs_tasks s) k <> Some (TDone r)) -> forall r, nth_error (rs_tasks s') k = Some (TDone r) <->
     a = ATask k /\
     ((exists t, nth_error (rs_tasks s) k = Some (TRun t) /\ match r with None => op t = OpReturn | Some x => op t = OpThrow x end) \/
      (exists q t x, nth_error (rs_tasks s) k = Some (TCall q t) /\ r = Some x /\ throws q (rs_output s) = Some x))).
Proof.
  intros s s' a ev k H. destruct a as [|j|ti me]; cbn [step] in H.
  - assert (E : nth_error (rs_tasks s') k = nth_error (rs_tasks s) k \/ exists t, nth_error (rs_tasks s) k = Some (TNot t) /\ nth_error (rs_tasks s') k = Some (TRun t)).
    { assert (St : forall j, nth_error (rs_tasks (start_task s j)) k = nth_error (rs_tasks s) k \/ exists t, nth_error (rs_tasks s) k = Some (TNot t) /\ nth_error (rs_tasks (start_task s j)) k = Some (TRun t)).
      { intro j. destruct (start_tasks _ _ _ _ s j) as (_ & _ & _ & _ & _ & E). rewrite (E k). destruct (Nat.eqb_spec k j) as [->|]; [|auto]. destruct (nth_error (rs_tasks s) j) as [[]|]; eauto. }
      unfold main_step in H. destruct (rs_main s) as [|j| |j|j|j| | |];
        repeat match type of H with context [if ?c then _ else _] => destruct c | context [match rs_monitor s with _ => _ end] => destruct (rs_monitor s) end; try discriminate;
        injection H as <- <-; try (left; reflexivity); try apply St. }
    split.
    + intros r Hr. destruct E as [E|(t & E & _)]; congruence.
    + intros N r. split; [|intros [? _]; discriminate]. intro Hr. exfalso. destruct E as [E|(t & _ & E)]; [apply (N r)|]; congruence.
  - unfold task_step in H. destruct (nth_error (rs_tasks s) j) as [ts|] eqn:Ej; [|discriminate].
    assert (K : exists u, nth_error (rs_tasks s') k = if Nat.eqb j k then Some u else nth_error (rs_tasks s) k).
    { assert (U : forall u, nth_error (upd j (fun _ => u) (rs_tasks s)) k = if Nat.eqb j k then Some u else nth_error (rs_tasks s) k).
      { intro u. destruct (Nat.eqb_spec j k) as [<-|Ne]; [apply (nth_error_upd_same _ j (fun _ => u) _ _ Ej)|apply nth_error_upd_other; exact Ne]. }
      destruct ts as [t|t|q t [|f fs]|q t|q t|t|r]; try discriminate;
        repeat match type of H with context [match op t with _ => _ end] => destruct (op t) | context [match rs_lock s with _ => _ end] => destruct (rs_lock s)
          | context [match throws q (rs_output s) with _ => _ end] => destruct (throws q (rs_output s)) end; try discriminate; injection H as <- <-; eexists; apply U. }
    destruct K as (u & K). destruct (Nat.eqb_spec j k) as [->|Ne].
    + rewrite Ej. split.
      * intros r Hr. injection Hr as ->. discriminate.
      * intros N r.
        assert (U : forall v, nth_error (upd k (fun _ => v) (rs_tasks s)) k = Some v) by (intro v; apply (nth_error_upd_same _ k (fun _ => v) _ _ Ej)).
        destruct ts as [t|t|q t [|f fs]|q t|q t|t|r0]; try discriminate; try (exfalso; apply (N r0); reflexivity).
        -- destruct (op t) as [t'|f|q t'| |x] eqn:Eo; [| |destruct (rs_lock s); [discriminate|]| |]; injection H as <- <-; cbn [rs_tasks set_task set_lock]; rewrite U; split;
             try (intro Hr; injection Hr as <-; split; [reflexivity|left; exists t; split; [reflexivity|exact Eo]]); try discriminate;
             intros (_ & [(t0 & E0 & E1)|(q0 & t0 & x0 & E0 & _)]); try discriminate; injection E0 as <-; destruct r as [y|]; try congruence.
        -- injection H as <- <-; cbn [rs_tasks set_task]; rewrite U; split; [discriminate|]. intros (_ & [(t0 & E0 & E1)|(q0 & t0 & x0 & E0 & _)]); discriminate.
        -- injection H as <- <-; cbn [rs_tasks set_task set_output]; rewrite U; split; [discriminate|]. intros (_ & [(t0 & E0 & E1)|(q0 & t0 & x0 & E0 & _)]); discriminate.
        -- destruct (throws q (rs_output s)) as [x|] eqn:Ex; injection H as <- <-; cbn [rs_tasks set_task]; rewrite U; split; try discriminate.
           ++ intro Hr. injection Hr as <-. split; [reflexivity|]. right. exists q, t, x. auto.
           ++ intros (_ & [(t0 & E0 & E1)|(q0 & t0 & x0 & E0 & -> & E2)]); [discriminate|]. injection E0 as <- <-. congruence.
           ++ intros (_ & [(t0 & E0 & E1)|(q0 & t0 & x0 & E0 & -> & E2)]); [discriminate|]. injection E0 as <- <-. congruence.
        -- injection H as <- <-; cbn [rs_tasks set_task set_end]; rewrite U; split; [discriminate|]. intros (_ & [(t0 & E0 & E1)|(q0 & t0 & x0 & E0 & _)]); discriminate.
        -- injection H as <- <-; cbn [rs_tasks set_task set_lock]; rewrite U; split; [discriminate|]. intros (_ & [(t0 & E0 & E1)|(q0 & t0 & x0 & E0 & _)]); discriminate.
    + rewrite K. split; [auto|]. intros N r. split; [intro Hr; exfalso; apply (N r Hr)|]. intros [Ha _]. congruence.
  - assert (E : rs_tasks s' = rs_tasks s).
    { unfold monitor_step in H. destruct (rs_monitor s); try discriminate; repeat match type of H with context [if ?c then _ else _] => destruct c end; injection H as <- <-; reflexivity. }
    rewrite E. split; [auto|]. intros N r. split; [intro Hr; exfalso; apply (N r Hr)|intros [Ha _]; discriminate].
Qed.

End Props.

Print Assumptions C69_one_report_at_a_time.
Print Assumptions C69_returns_after_tasks.
Print Assumptions C69_sequential_order.
Print Assumptions C69_no_deadlock.
Print Assumptions C69_bounded.
Print Assumptions C69_end_flag.
Print Assumptions C69_exceptions.
Print Assumptions C69_outcomes.

(** Tasks given by the lists of their reports, callbacks that never throw: when run returns,
    the output is the result of an interleaving of the lists that keeps the order of each
    list.  This is what C25 assumes of the schedules of the formatter. *)
Theorem C69_reports_interleave : forall (R Out X : Type) body (throws : R -> Out -> option X) proven parallel memory_limit (scripts : list (list R)) (o : Out) e schedule s ev,
  (forall r o', throws r o' = None) ->
  execute (script_op R X) body throws proven parallel memory_limit (run_start scripts o e) schedule = Some (s, ev) -> rs_main s = MReturned ->
  interleaving scripts (map snd (acquired ev)) /\ rs_output s = one_by_one body o (map snd (acquired ev)).
Proof.
  intros R Out X body throws proven par mem scripts o e l s ev Hth H M.
  destruct (C69_returns_after_tasks _ _ _ _ _ _ _ _ _ _ _ _ _ _ _ _ H M) as (_ & _ & _ & AD & _ & _ & B). split; [|apply (B Hth)].
  assert (G := script_execute R Out X body throws proven par mem Hth l (run_start scripts o e) s ev [] H). rewrite app_nil_r in G.
  cbn [run_start rs_tasks] in G. rewrite map_map in G. assert (EM : map (fun x : list R => remaining R Out X (TNot x)) scripts = scripts) by (rewrite <- (map_id scripts) at 2; apply map_ext; reflexivity). rewrite EM in G. apply G. apply inter_done.
  intros x I1. apply in_map_iff in I1. destruct I1 as (ts & <- & I2). destruct (AD ts I2) as [y ->]. reflexivity.
Qed.
Print Assumptions C69_reports_interleave.

(** ** A run: two tasks, reports add to a list in two steps *)

Definition body1 (r : nat) : list (list nat -> list nat) := [fun o => r :: o; fun o => (100 + r) :: o].
Definition never (r : nat) (o : list nat) : option nat := None.
Definition proven1 (r : nat) (o : list nat) : bool := Nat.eqb r 3.
Definition scripts1 : list (list nat) := [[1; 2]; [3]].
Definition rounds (k n : nat) : list Actor := repeat (ATask k) n.
Definition schedule1 : list Actor :=
  [AMain; AMain; ATask 0; AMain] ++ rounds 0 6 ++ [AMonitor false false] ++ rounds 1 8 ++ rounds 0 8 ++ [AMain; AMain; AMain; AMain; AMonitor false false; AMonitor false false; AMain].

Definition final1 := execute (script_op nat nat) body1 never proven1 true true (run_start scripts1 [] false) schedule1.

Example run1_returns : match final1 with
  | Some (s, ev) => rs_main s = MReturned /\ rs_output s = [102; 2; 103; 3; 101; 1] /\ acquired ev = [(0, 1); (1, 3); (0, 2)] /\ ended ev = [1; 0] /\ rs_end s = true
  | None => False
  end.
Proof. vm_compute. repeat split; reflexivity. Qed.

Example bounded1 : bounded_by (script_op nat nat) body1 (fun l => 7 * length l + 1).
Proof. intro l. destruct l; cbn; lia. Qed.

(** ** A callback that throws *)

Definition throwing (r : nat) (o : list nat) : option nat := Some 7.
(** The claim: run returns in every mode, even if the callback of the user throws. *)
Definition run_is_never_stuck : Prop :=
  forall (parallel : bool) scripts schedule s ev,
  execute (script_op nat nat) body1 throwing proven1 parallel false (run_start scripts [] false) schedule = Some (s, ev) ->
  rs_main s = MReturned \/ exists a s' ev', step (script_op nat nat) body1 throwing proven1 parallel false s a = Some (s', ev').

Definition stuck_schedule : list Actor := [AMain; AMain] ++ rounds 0 5 ++ [AMain; AMain].

(** A callback that throws leaves the mutex locked, because update_solution and the
    update_…_bound functions lock and unlock it without a guard: the exception is stored by
    the wrapper of the task, the next report of any task waits for ever, and run never
    returns; in the sequential mode the second task waits for the mutex held by its own
    thread. *)
Theorem C69_throwing_callback_refuted : ~ run_is_never_stuck.
Proof.
  intro C. destruct (execute (script_op nat nat) body1 throwing proven1 false false (run_start [[1]; [2]] [] false) stuck_schedule) as [[s ev]|] eqn:E; [|vm_compute in E; discriminate].
  destruct (C false [[1]; [2]] stuck_schedule s ev E) as [M|(a & s' & ev' & S1)]; vm_compute in E; injection E as <- <-; [discriminate|].
  destruct a as [|k|ti me]; [vm_compute in S1; discriminate| |vm_compute in S1; discriminate].
  destruct k as [|[|[|k]]]; vm_compute in S1; discriminate.
Qed.
Print Assumptions C69_throwing_callback_refuted.

(** The same with threads. *)
Definition stuck_parallel : list Actor := [AMain; AMain; AMain] ++ rounds 0 5.

(** In the parallel mode a task whose callback throws blocks the reports of the other
    tasks for ever. *)
Theorem C69_throwing_callback_parallel_refuted : exists s ev,
  execute (script_op nat nat) body1 throwing proven1 true false (run_start [[1]; [2]] [] false) stuck_parallel = Some (s, ev) /\
  rs_main s <> MReturned /\ forall a, step (script_op nat nat) body1 throwing proven1 true false s a = None.
Proof.
  destruct (execute (script_op nat nat) body1 throwing proven1 true false (run_start [[1]; [2]] [] false) stuck_parallel) as [[s ev]|] eqn:E; [|vm_compute in E; discriminate].
  exists s, ev. split; [reflexivity|]. vm_compute in E; injection E as <- <-. split; [discriminate|].
  intros [|k|ti me]; [reflexivity| |reflexivity]. destruct k as [|[|[|k]]]; reflexivity.
Qed.
Print Assumptions C69_throwing_callback_parallel_refuted.

(** ** With the formatter of C25 *)

From Verif Require Import OneDim_Model Formatter_Model Formatter_Props.

(** A call of the formatter as the effect of a report. *)
Definition report1 (i : Instance) (c : Call1) : list (FState Solution -> FState Solution) :=
  [fun st => fstep Solution (lt1 i) copies1 s_feasible (full1 i) profit1 cost1 bins1 zero1 zero1 (in_objective i) (available1 i) st c].

(** With the calls of the formatter of the onedimensional problem as reports: when run
    returns, the output is the one that C25 describes for an interleaving of the calls of
    the tasks. *)
Theorem C69_formatter : forall X i (throws : Call1 -> FState Solution -> option X) proven parallel memory_limit (scripts : list (list Call1)) e schedule s ev,
  (forall r o, throws r o = None) ->
  execute (script_op Call1 X) (report1 i) throws proven parallel memory_limit (run_start scripts (run1 i []) e) schedule = Some (s, ev) -> rs_main s = MReturned ->
  exists h, interleaving scripts h /\ rs_output s = run1 i h.
Proof.
  intros X i throws proven par mem scripts e l s ev Hth H M. destruct (C69_reports_interleave _ _ _ _ _ _ _ _ _ _ _ _ _ _ Hth H M) as [I1 E].
  exists (map snd (acquired ev)). split; [exact I1|]. rewrite E. unfold run1, frun, one_by_one. cbn [fold_left].
  generalize (map snd (acquired ev)). generalize (fs_new Solution s_feasible (full1 i) profit1 cost1 bins1 zero1 zero1 (in_objective i) (sol_new i)).
  intros st h. revert st. induction h as [|c h IH]; intro st; [reflexivity|]. cbn [fold_left]. apply (IH (whole (report1 i) st c)).
Qed.
Print Assumptions C69_formatter.
