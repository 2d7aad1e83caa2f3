(** * What running the tasks means *)

From Coq Require Import List Bool Arith Lia.
From Verif Require Import Util TaskRun_Model.
Import ListNotations.

Section Spec.
Variables T R Out X : Type.

(** The reports in the order in which they get the mutex. *)
Fixpoint acquired (ev : list (Event R)) : list (nat * R) :=
  match ev with
  | [] => []
  | EAcquire k r :: ev' => (k, r) :: acquired ev'
  | _ :: ev' => acquired ev'
  end.
(** The tasks in the order in which they start. *)
Fixpoint started (ev : list (Event R)) : list nat :=
  match ev with
  | [] => []
  | EStart k :: ev' => k :: started ev'
  | _ :: ev' => started ev'
  end.
(** The tasks in the order in which they end. *)
Fixpoint ended (ev : list (Event R)) : list nat :=
  match ev with
  | [] => []
  | EFinish k :: ev' => k :: ended ev'
  | _ :: ev' => ended ev'
  end.

(** Effect of a whole report, and of reports one after another. *)
Definition whole (body : R -> list (Out -> Out)) (o : Out) (r : R) : Out := fold_left (fun o f => f o) (body r) o.
Definition one_by_one (body : R -> list (Out -> Out)) (o : Out) (rs : list R) : Out := fold_left (whole body) rs o.

(** One of the reports [rs], made one after another from [o], is a proof of optimality. *)
Definition proof_in (body : R -> list (Out -> Out)) (proven : R -> Out -> bool) (o : Out) (rs : list R) : Prop :=
  exists h r rest, rs = h ++ r :: rest /\ proven r (one_by_one body o (h ++ [r])) = true.

(** The number of steps that a task does is at most [cost], whatever it reads. *)
Definition bounded_by (op : T -> TaskOp T R X) (body : R -> list (Out -> Out)) (cost : T -> nat) : Prop :=
  forall t, match op t with
  | OpLocal t' => 1 + cost t' <= cost t
  | OpRead k => forall b, 1 + cost (k b) <= cost t
  | OpReport r t' => 5 + length (body r) + cost t' <= cost t
  | OpReturn => 1 <= cost t
  | OpThrow _ => 1 <= cost t
  end.

(** Steps of the tasks and of the calling thread, and steps of the monitor. *)
Definition own_steps (schedule : list Actor) : nat :=
  length (filter (fun a => match a with AMonitor _ _ => false | _ => true end) schedule).

End Spec.

Arguments acquired {R}. Arguments started {R}. Arguments ended {R}. Arguments whole {R Out}. Arguments one_by_one {R Out}.
Arguments proof_in {R Out}. Arguments bounded_by {T R Out X}.
