(** * Model of the task runner, the memory monitor and the mutex of the reports

    /repo/src/algorithms/thread_pool.hpp and the locking of
    /repo/src/*/algorithm_formatter.cpp, with one atomic step at a time and any schedule.
    Nothing is assumed of the tasks; what they do is given by [op].  Simplifications: memory
    is sequentially consistent (the flag [end_] is a plain bool read without the mutex,
    algorithm_formatter.hpp:69-86); threads can always be created; a formatter has
    one mutex, the formatters of nested solves are not represented. *)

From Coq Require Import List Bool Arith.
From Verif Require Import Util.
Import ListNotations.

Section Runner.

(** Local states of the tasks, reports, output of the formatter, exceptions. *)
Variables T R Out X : Type.

(** What a task does next: something of its own; read the end flag
    (algorithm_formatter.end_boolean(), or through its timer); report to the formatter
    (update_solution, update_..._bound); return; throw. *)
Inductive TaskOp : Type :=
  | OpLocal (t : T)
  | OpRead (k : bool -> T)
  | OpReport (r : R) (t : T)
  | OpReturn
  | OpThrow (x : X).
Variable op : T -> TaskOp.

(** The critical section of a report, e.g. onedimensional/algorithm_formatter.cpp:195-213:
    its changes of the output one after another, then new_solution_callback (which may
    throw), then the end flag. *)
Variable body : R -> list (Out -> Out).
Variable throws : R -> Out -> option X.
Variable proven : R -> Out -> bool.

(** State of a task: not started; running; in the critical section with some changes left;
    about to call the callback; about to set the end flag; about to unlock; finished, with
    the exception stored by the wrapper (thread_pool.hpp:33-49) if any. *)
Inductive TaskState : Type :=
  | TNot (t : T)
  | TRun (t : T)
  | TLocked (r : R) (t : T) (left : list (Out -> Out))
  | TCall (r : R) (t : T)
  | TFlag (r : R) (t : T)
  | TUnlock (t : T)
  | TDone (x : option X).

(** The calling thread inside run, thread_pool.hpp:61-80 and :174-197. *)
Inductive MainState : Type :=
  | MStart
  | MSpawn (k : nat)
  | MLast
  | MJoin (k : nat)
  | MSeq (k : nat)
  | MSeqWait (k : nat)
  | MAfter
  | MJoinMonitor
  | MReturned.

(** The monitor, :149-163: not created; test of the loop; sleep; test after the sleep;
    reading of the memory; ended. *)
Inductive MonState : Type := MonOff | MonCheck | MonSleep | MonCheck2 | MonMemory | MonEnded.

Record RState : Type := mkRS {
  rs_tasks : list TaskState;
  rs_main : MainState;
  rs_monitor : MonState;
  rs_lock : option nat;
  rs_output : Out;
  rs_end : bool
}.

(** Observable events. *)
Inductive Event : Type :=
  | EStart (k : nat)               (* task [k] starts *)
  | EAcquire (k : nat) (r : R)     (* task [k] gets the mutex for the report [r] *)
  | EFlag (k : nat) (r : R)        (* task [k] sets the end flag if the report is a proof *)
  | EFinish (k : nat)              (* task [k] ends *)
  | EMemory                        (* the monitor sets the end flag *)
  | ERelease.                      (* run sets the end flag after the tasks *)

(** Who does the next step; the monitor reads the timer and the memory. *)
Inductive Actor : Type := AMain | ATask (k : nat) | AMonitor (timer memory : bool).

Variable parallel : bool.        (* optimization_mode != NotAnytimeSequential, :180 *)
Variable memory_limit : bool.    (* memory_limit_megabytes > 0, :183 *)

Definition set_task (s : RState) (k : nat) (ts : TaskState) : RState :=
  mkRS (upd k (fun _ => ts) (rs_tasks s)) (rs_main s) (rs_monitor s) (rs_lock s) (rs_output s) (rs_end s).
Definition set_main (s : RState) (m : MainState) : RState :=
  mkRS (rs_tasks s) m (rs_monitor s) (rs_lock s) (rs_output s) (rs_end s).
Definition set_monitor (s : RState) (m : MonState) : RState :=
  mkRS (rs_tasks s) (rs_main s) m (rs_lock s) (rs_output s) (rs_end s).
Definition set_lock (s : RState) (l : option nat) : RState :=
  mkRS (rs_tasks s) (rs_main s) (rs_monitor s) l (rs_output s) (rs_end s).
Definition set_output (s : RState) (o : Out) : RState :=
  mkRS (rs_tasks s) (rs_main s) (rs_monitor s) (rs_lock s) o (rs_end s).
Definition set_end (s : RState) (b : bool) : RState :=
  mkRS (rs_tasks s) (rs_main s) (rs_monitor s) (rs_lock s) (rs_output s) b.

(** A step of a task: wrapper_impl::wrap, :33-45, around what the task does, and the
    critical section of a report.  [mutex_.lock()] waits while the mutex is held, whoever
    holds it (for the holder itself the standard gives no meaning to the call). *)
Definition task_step (s : RState) (k : nat) : option (RState * list Event) :=
  match nth_error (rs_tasks s) k with
  | Some (TRun t) =>
      match op t with
      | OpLocal t' => Some (set_task s k (TRun t'), [])
      | OpRead f => Some (set_task s k (TRun (f (rs_end s))), [])
      | OpReport r t' =>
          match rs_lock s with
          | None => Some (set_lock (set_task s k (TLocked r t' (body r))) (Some k), [EAcquire k r])
          | Some _ => None
          end
      | OpReturn => Some (set_task s k (TDone None), [EFinish k])
      | OpThrow x => Some (set_task s k (TDone (Some x)), [EFinish k])
      end
  | Some (TLocked r t (f :: fs)) => Some (set_output (set_task s k (TLocked r t fs)) (f (rs_output s)), [])
  | Some (TLocked r t []) => Some (set_task s k (TCall r t), [])
  | Some (TCall r t) =>
      match throws r (rs_output s) with
      | Some x => Some (set_task s k (TDone (Some x)), [EFinish k])
      | None => Some (set_task s k (TFlag r t), [])
      end
  | Some (TFlag r t) =>
      Some (set_end (set_task s k (TUnlock t)) (rs_end s || proven r (rs_output s)), [EFlag k r])
  | Some (TUnlock t) => Some (set_lock (set_task s k (TRun t)) None, [])
  | _ => None
  end.

Definition start_task (s : RState) (k : nat) : RState :=
  match nth_error (rs_tasks s) k with
  | Some (TNot t) => set_task s k (TRun t)
  | _ => s
  end.
Definition task_done (s : RState) (k : nat) : bool :=
  match nth_error (rs_tasks s) k with Some (TDone _) => true | _ => false end.

(** A step of the calling thread.  The last task is run by the calling thread itself:
    while the state is [MLast] or [MSeqWait] the steps of the thread are those of the
    task. *)
Definition main_step (s : RState) : option (RState * list Event) :=
  let n := length (rs_tasks s) in
  match rs_main s with
  | MStart =>
      (* the monitor, :182-187; then :65-66, :68 *)
      let s' := if memory_limit then set_monitor s MonCheck else s in
      Some (set_main s' (if Nat.eqb n 0 then MAfter else if parallel then MSpawn 0 else MSeq 0), [])
  | MSpawn k =>
      (* :74-77 *)
      if Nat.ltb k (n - 1) then Some (set_main (start_task s k) (MSpawn (S k)), [EStart k])
      else Some (set_main (start_task s k) MLast, [EStart k])
  | MLast => if task_done s (n - 1) then Some (set_main s (MJoin 0), []) else None
  | MJoin k =>
      (* :78-79 *)
      if Nat.ltb k (n - 1)
      then (if task_done s k then Some (set_main s (MJoin (S k)), []) else None)
      else Some (set_main s MAfter, [])
  | MSeq k =>
      (* :68-72 *)
      if Nat.ltb k n then Some (set_main (start_task s k) (MSeqWait k), [EStart k])
      else Some (set_main s MAfter, [])
  | MSeqWait k => if task_done s k then Some (set_main s (MSeq (S k)), []) else None
  | MAfter =>
      (* :191-192 *)
      match rs_monitor s with
      | MonOff => Some (set_main s MReturned, [])
      | _ => Some (set_main (set_end s true) MJoinMonitor, [ERelease])
      end
  | MJoinMonitor => match rs_monitor s with MonEnded => Some (set_main s MReturned, []) | _ => None end
  | MReturned => None
  end.

(** A step of monitor_memory, :149-163. *)
Definition monitor_step (s : RState) (timer memory : bool) : option (RState * list Event) :=
  match rs_monitor s with
  | MonCheck => Some (set_monitor s (if rs_end s || timer then MonEnded else MonSleep), [])
  | MonSleep => Some (set_monitor s MonCheck2, [])
  | MonCheck2 => Some (set_monitor s (if rs_end s || timer then MonEnded else MonMemory), [])
  | MonMemory =>
      if memory then Some (set_monitor (set_end s true) MonCheck, [EMemory])
      else Some (set_monitor s MonCheck, [])
  | MonOff | MonEnded => None
  end.

Definition step (s : RState) (a : Actor) : option (RState * list Event) :=
  match a with
  | AMain => main_step s
  | ATask k => task_step s k
  | AMonitor timer memory => monitor_step s timer memory
  end.

(** An execution: the actors in the order of their steps. *)
Fixpoint execute (s : RState) (schedule : list Actor) : option (RState * list Event) :=
  match schedule with
  | [] => Some (s, [])
  | a :: rest =>
      match step s a with
      | Some (s', ev) =>
          match execute s' rest with
          | Some (s'', ev') => Some (s'', ev ++ ev')
          | None => None
          end
      | None => None
      end
  end.

(** The state when run is called. *)
Definition run_start (tasks : list T) (o : Out) (e : bool) : RState :=
  mkRS (map TNot tasks) MStart MonOff None o e.

(** The loop after run, src/box/optimize.cpp:868-870 and the same lines of the other
    problems: the first stored exception in the order of the tasks is thrown again. *)
Definition rethrown (s : RState) : option X :=
  match find (fun ts => match ts with TDone (Some _) => true | _ => false end) (rs_tasks s) with
  | Some (TDone (Some x)) => Some x
  | _ => None
  end.

End Runner.

Arguments OpLocal {T R X}. Arguments OpRead {T R X}. Arguments OpReport {T R X}. Arguments OpReturn {T R X}. Arguments OpThrow {T R X}.
Arguments TNot {T R Out X}. Arguments TRun {T R Out X}. Arguments TLocked {T R Out X}. Arguments TCall {T R Out X}.
Arguments TFlag {T R Out X}. Arguments TUnlock {T R Out X}. Arguments TDone {T R Out X}.
Arguments mkRS {T R Out X}. Arguments rs_tasks {T R Out X}. Arguments rs_main {T R Out X}. Arguments rs_monitor {T R Out X}.
Arguments rs_lock {T R Out X}. Arguments rs_output {T R Out X}. Arguments rs_end {T R Out X}.
Arguments EStart {R}. Arguments EAcquire {R}. Arguments EFlag {R}. Arguments EFinish {R}. Arguments EMemory {R}. Arguments ERelease {R}.
Arguments set_task {T R Out X}. Arguments set_main {T R Out X}. Arguments set_monitor {T R Out X}. Arguments set_lock {T R Out X}.
Arguments set_output {T R Out X}. Arguments set_end {T R Out X}. Arguments start_task {T R Out X}. Arguments task_done {T R Out X}.
Arguments task_step {T R Out X}. Arguments main_step {T R Out X}. Arguments monitor_step {T R Out X}. Arguments step {T R Out X}.
Arguments execute {T R Out X}. Arguments run_start {T R Out X}. Arguments rethrown {T R Out X}.
