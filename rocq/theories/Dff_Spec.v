(** * What the dual feasible function results mean *)

From Coq Require Import List ZArith QArith Bool Lia.
From Verif Require Import Util Dff_Model.
Import ListNotations.
Open Scope Z_scope.

Definition total (l : list Z) : Z := zsum (fun x => x) l.

(** [f] is dual feasible for [capacity]: whatever fits in the capacity still
    fits after replacing every length [x] by [f x] and the capacity by [F]. *)
Definition dual_feasible (capacity F : Z) (f : Z -> Z) : Prop :=
  forall l, Forall (fun x => 0 <= x) l -> total l <= capacity -> zsum f l <= F.

(** A choice of items from a pool of (length, copies): one count per entry. *)
Definition selection (pool : list (Z * Z)) (counts : list Z) : Prop :=
  Forall2 (fun p n => 0 <= n <= snd p) pool counts.
Definition selection_size (counts : list Z) : Z := total counts.
Definition selection_length (pool : list (Z * Z)) (counts : list Z) : Z :=
  zsum (fun pn => fst (fst pn) * snd pn) (combine pool counts).

(** [m] is the largest number of items of the pool that fit in [capacity]. *)
Definition max_cardinality (capacity : Z) (pool : list (Z * Z)) (m : Z) : Prop :=
  (exists counts, selection pool counts /\ selection_length pool counts <= capacity
                  /\ selection_size counts = m) /\
  (forall counts, selection pool counts -> selection_length pool counts <= capacity ->
     selection_size counts <= m).

(** Profit and volume of a choice of copies of the items. *)
Definition choice (items : list DItem) (counts : list Z) : Prop :=
  Forall2 (fun it n => 0 <= n <= di_copies it) items counts.
Definition choice_profit (items : list DItem) (counts : list Z) : Q :=
  qsum (fun p => (di_profit (fst p) * inject_Z (snd p))%Q) (combine items counts).
Definition choice_volume (items : list DItem) (counts : list Z) : Z :=
  zsum (fun p => di_volume (fst p) * snd p) (combine items counts).
