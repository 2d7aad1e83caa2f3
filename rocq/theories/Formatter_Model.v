(** * The algorithm formatter and the parallel section of [optimize]

    [src/onedimensional/algorithm_formatter.cpp],
    [include/packingsolver/onedimensional/optimize.hpp],
    [src/rectangle/algorithm_formatter.cpp],
    [include/packingsolver/rectangle/optimize.hpp],
    [src/onedimensional/optimize.cpp:780-936], [src/algorithms/thread_pool.hpp].

    The formatters of the problem types are copies of each other, up to the
    list of bounds; the model has the bounds of the rectangle one (the
    onedimensional one has no open dimension bounds).  Printing, JSON and
    elapsed times are dropped.  Each member function runs under the formatter's
    mutex, so that it is one atomic step.  Not modelled: a callback that throws
    or calls the formatter again. *)

From Coq Require Import List ZArith QArith Bool.
From Verif Require Import Util Common_Model.
Import ListNotations.
Open Scope Z_scope.

(** [<] on doubles that may be infinite. *)
Definition xltb (a b : xQ) : bool :=
  match a, b with
  | Fin p, Fin q => Qltb p q
  | Fin _, PInf => true
  | MInf, MInf => false
  | MInf, _ => true
  | _, _ => false
  end.

(** The bounds of an Output, rectangle/optimize.hpp:19-33. *)
Record Bounds : Type := mkBounds {
  bo_knapsack : xQ;
  bo_bin_packing : Z;
  bo_variable : Q;
  bo_x : Z;
  bo_y : Z;
  bo_infeasible : bool
}.

(** Their initial values. *)
Definition no_bounds : Bounds := mkBounds PInf 0 0%Q 0 0 false.

Section Formatter.

(** A solution type with the members the formatter uses. *)
Variable Sol : Type.
(** operator< *)
Variable lt : Sol -> Sol -> bool.
(** item_copies() *)
Variable copies : Sol -> list Z.
(** feasible(), full(), profit(), cost(), number_of_bins(), x_max(), y_max() *)
Variables feasible full : Sol -> bool.
Variables profit cost : Sol -> Q.
Variables bins x_max y_max : Sol -> Z.
(** Objective and number of bins of the instance. *)
Variable objective : Objective.
Variable instance_bins : Z.

(** Output: solution pool and bounds. *)
Record FOut : Type := mkOut { fo_pool : Pool Sol; fo_bounds : Bounds }.

Definition fo_best (o : FOut) : Sol := pool_best Sol (fo_pool o).

(** Output::Output, common.hpp:483-484: a pool of size 1 holding the empty
    solution. *)
Definition out_new (empty : Sol) : FOut := mkOut (pool_new Sol 1 empty) no_bounds.

(** Output::is_proven_optimal, rectangle/optimize.hpp:36-64. *)
Definition is_proven_optimal (o : FOut) : bool :=
  let b := fo_bounds o in
  let s := fo_best o in
  if bo_infeasible b then true
  else match objective with
  | OKnapsack => equal_profit_x (bo_knapsack b) (Fin (profit s))
  | OBinPacking => full s && (bo_bin_packing b =? bins s)
  | OVariableSizedBinPacking => full s && equal_cost (bo_variable b) (cost s)
  | OOpenDimensionX => full s && (bo_x b =? x_max s)
  | OOpenDimensionY => full s && (bo_y b =? y_max s)
  | OFeasibility => full s && feasible s
  | _ => false
  end.

(** The formatter: output, end flag, and the outputs given to the user's
    [new_solution_callback] so far (latest first). *)
Record FState : Type := mkFS { fs_out : FOut; fs_end : bool; fs_log : list FOut }.

(** Constructor, algorithm_formatter.hpp:18-29. *)
Definition fs_new (empty : Sol) : FState :=
  let o := out_new empty in mkFS o (is_proven_optimal o) [].

(** The calls.  [MemoryStop] is the memory monitor's write of the end flag,
    thread_pool.hpp:157-158 and :187. *)
Inductive Call : Type :=
| UpdSolution (s : Sol)
| UpdInfeasible
| UpdKnapsack (q : xQ)
| UpdBinPacking (n : Z)
| UpdVariable (q : Q)
| UpdX (x : Z)
| UpdY (y : Z)
| MemoryStop.

(** Callback, then [if (output_.is_proven_optimal()) end_ = true]. *)
Definition report (st : FState) (o : FOut) : FState :=
  mkFS o (if is_proven_optimal o then true else fs_end st) (o :: fs_log st).

Definition fstep (st : FState) (c : Call) : FState :=
  let o := fs_out st in
  let b := fo_bounds o in
  match c with
  | UpdSolution s =>
      (* update_solution, rectangle :232-249, onedimensional :184-201 *)
      let (new_best, pool) := pool_add Sol lt copies (fo_pool o) s in
      let o' := mkOut pool b in
      if new_best =? 1 then report st o' else mkFS o' (fs_end st) (fs_log st)
  | UpdInfeasible =>
      (* update_is_proven_infeasible, rectangle :251-262 *)
      if bo_infeasible b then st
      else
        let o' := mkOut (fo_pool o)
          (mkBounds (bo_knapsack b) (bo_bin_packing b) (bo_variable b) (bo_x b) (bo_y b) true) in
        mkFS o' true (o' :: fs_log st)
  | UpdKnapsack q =>
      (* update_knapsack_bound, rectangle :264-278 *)
      if xltb q (bo_knapsack b)
      then report st (mkOut (fo_pool o)
             (mkBounds q (bo_bin_packing b) (bo_variable b) (bo_x b) (bo_y b) (bo_infeasible b)))
      else st
  | UpdBinPacking n =>
      (* update_bin_packing_bound, rectangle :280-300 *)
      if bo_bin_packing b <? n
      then report st (mkOut (fo_pool o)
             (mkBounds (bo_knapsack b) n (bo_variable b) (bo_x b) (bo_y b)
                (if instance_bins <? n then true else bo_infeasible b)))
      else st
  | UpdVariable q =>
      (* update_variable_sized_bin_packing_bound, rectangle :302-316 *)
      if Qltb (bo_variable b) q
      then report st (mkOut (fo_pool o)
             (mkBounds (bo_knapsack b) (bo_bin_packing b) q (bo_x b) (bo_y b) (bo_infeasible b)))
      else st
  | UpdX x =>
      (* update_open_dimension_x_bound, rectangle :318-332 *)
      if bo_x b <? x
      then report st (mkOut (fo_pool o)
             (mkBounds (bo_knapsack b) (bo_bin_packing b) (bo_variable b) x (bo_y b) (bo_infeasible b)))
      else st
  | UpdY y =>
      (* update_open_dimension_y_bound, rectangle :334-348 *)
      if bo_y b <? y
      then report st (mkOut (fo_pool o)
             (mkBounds (bo_knapsack b) (bo_bin_packing b) (bo_variable b) (bo_x b) y (bo_infeasible b)))
      else st
  | MemoryStop => mkFS o true (fs_log st)
  end.

Definition frun (st : FState) (h : list Call) : FState := fold_left fstep h st.

(** update_bounds, rectangle :350-374: not atomic, it is one or two calls. *)
Definition update_bounds_calls (b : Bounds) : list Call :=
  (if bo_infeasible b then [UpdInfeasible] else [])
  ++ match objective with
     | OKnapsack => [UpdKnapsack (bo_knapsack b)]
     | OBinPacking => [UpdBinPacking (bo_bin_packing b)]
     | OVariableSizedBinPacking => [UpdVariable (bo_variable b)]
     | OOpenDimensionX => [UpdX (bo_x b)]
     | OOpenDimensionY => [UpdY (bo_y b)]
     | _ => []
     end.

(** ** The parallel section of [optimize] *)

(** What an algorithm's new solution callback passes on: a solution and,
    for some algorithms, bounds (onedimensional/optimize.cpp:298-308, :352-364,
    :536-546). *)
Inductive Event : Type :=
| Found (s : Sol)
| FoundWithBounds (s : Sol) (b : Bounds).

(** Output::update_bounds, rectangle/optimize.hpp:75-103, the local
    accumulation. *)
Definition tighten (b b' : Bounds) : Bounds :=
  let inf := if bo_infeasible b' then true else bo_infeasible b in
  match objective with
  | OKnapsack =>
      mkBounds (if xltb (bo_knapsack b') (bo_knapsack b) then bo_knapsack b' else bo_knapsack b)
        (bo_bin_packing b) (bo_variable b) (bo_x b) (bo_y b) inf
  | OBinPacking =>
      mkBounds (bo_knapsack b)
        (if bo_bin_packing b <? bo_bin_packing b' then bo_bin_packing b' else bo_bin_packing b)
        (bo_variable b) (bo_x b) (bo_y b) inf
  | OVariableSizedBinPacking =>
      mkBounds (bo_knapsack b) (bo_bin_packing b)
        (if Qltb (bo_variable b) (bo_variable b') then bo_variable b' else bo_variable b)
        (bo_x b) (bo_y b) inf
  | OOpenDimensionX =>
      mkBounds (bo_knapsack b) (bo_bin_packing b) (bo_variable b)
        (if bo_x b <? bo_x b' then bo_x b' else bo_x b) (bo_y b) inf
  | OOpenDimensionY =>
      mkBounds (bo_knapsack b) (bo_bin_packing b) (bo_variable b) (bo_x b)
        (if bo_y b <? bo_y b' then bo_y b' else bo_y b) inf
  | _ => mkBounds (bo_knapsack b) (bo_bin_packing b) (bo_variable b) (bo_x b) (bo_y b) inf
  end.

(** An event received by a task's local output (deterministic mode). *)
Definition local_event (o : FOut) (e : Event) : FOut :=
  match e with
  | Found s => mkOut (snd (pool_add Sol lt copies (fo_pool o) s)) (fo_bounds o)
  | FoundWithBounds s b =>
      mkOut (snd (pool_add Sol lt copies (fo_pool o) s)) (tighten (fo_bounds o) b)
  end.

(** The same event sent to the shared formatter (other modes). *)
Definition shared_event (st : FState) (e : Event) : FState :=
  match e with
  | Found s => fstep st (UpdSolution s)
  | FoundWithBounds s b => frun st (UpdSolution s :: update_bounds_calls b)
  end.

(** A task: a deterministic program that reads the end flag (its timer tests
    [end_boolean]) and reports events.  [T] is its local state. *)
Variable T : Type.
Variable Exc : Type.
Inductive Outcome : Type :=
| Done
| Throw (e : Exc)
| Step (t : T) (e : option Event).
Variable tstep : T -> bool -> Outcome.

(** Status of a task: running, returned, or an exception stored in its
    [exception_ptr] (thread_pool.hpp:34-50). *)
Inductive Status : Type :=
| Running (t : T)
| Returned
| Threw (e : Exc).

Record Task : Type := mkTask { tk_status : Status; tk_local : FOut }.

Record PState : Type := mkPS { ps_formatter : FState; ps_tasks : list Task }.

(** One step of task [k], if it is still running.  [deterministic] selects the
    branch [local_output != nullptr] of the callbacks.  Simplification: an event with
    bounds is one step in the shared mode too, although the formatter could
    serve another thread in the middle. *)
Definition pstep (deterministic : bool) (ps : PState) (k : nat) : PState :=
  match nth_error (ps_tasks ps) k with
  | None => ps
  | Some task =>
      match tk_status task with
      | Running t =>
          match tstep t (fs_end (ps_formatter ps)) with
          | Done => mkPS (ps_formatter ps) (upd k (fun _ => mkTask Returned (tk_local task)) (ps_tasks ps))
          | Throw e => mkPS (ps_formatter ps) (upd k (fun _ => mkTask (Threw e) (tk_local task)) (ps_tasks ps))
          | Step t' None =>
              mkPS (ps_formatter ps) (upd k (fun _ => mkTask (Running t') (tk_local task)) (ps_tasks ps))
          | Step t' (Some e) =>
              if deterministic
              then mkPS (ps_formatter ps)
                     (upd k (fun _ => mkTask (Running t') (local_event (tk_local task) e)) (ps_tasks ps))
              else mkPS (shared_event (ps_formatter ps) e)
                     (upd k (fun _ => mkTask (Running t') (tk_local task)) (ps_tasks ps))
          end
      | _ => ps
      end
  end.

(** A schedule is the list of the threads that make a step. *)
Definition prun (deterministic : bool) (ps : PState) (schedule : list nat) : PState :=
  fold_left (pstep deterministic) schedule ps.

Definition finished (ps : PState) : Prop :=
  forall task, In task (ps_tasks ps) ->
  match tk_status task with Running _ => False | _ => True end.

(** The exception rethrown: the exception pointers are pushed at the front of
    a forward list, so that the last registered task comes first
    (onedimensional/optimize.cpp:919-921). *)
Definition rethrown (tasks : list Task) : option Exc :=
  fold_left (fun found task =>
      match tk_status task with Threw e => Some e | _ => found end) tasks None.

(** Replay of the local outputs in registration order,
    onedimensional/optimize.cpp:926-933. *)
Definition replay (st : FState) (tasks : list Task) : FState :=
  fold_left (fun st task =>
      frun st (UpdSolution (fo_best (tk_local task))
               :: update_bounds_calls (fo_bounds (tk_local task)))) tasks st.

(** End of [optimize] once all the tasks have returned: the exception or the
    final formatter state. *)
Definition conclude (deterministic : bool) (ps : PState) : Exc + FState :=
  match rethrown (ps_tasks ps) with
  | Some e => inl e
  | None => inr (if deterministic then replay (ps_formatter ps) (ps_tasks ps) else ps_formatter ps)
  end.

(** The tasks as they are registered, with fresh local outputs. *)
Definition register (empty : Sol) (ts : list T) : list Task :=
  map (fun t => mkTask (Running t) (out_new empty)) ts.

End Formatter.
