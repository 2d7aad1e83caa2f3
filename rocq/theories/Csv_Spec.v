(** * Cells that contain no separator *)

From Coq Require Import Ascii String List Bool.
From Verif Require Import Csv_Model.
Import ListNotations.

Fixpoint all_chars (P : ascii -> bool) (s : string) : bool :=
  match s with EmptyString => true | String c s' => P c && all_chars P s' end.
Definition plain (c : ascii) : bool := negb (Ascii.eqb c comma) && negb (Ascii.eqb c newline).

Definition plain_cells (cells : list string) : Prop :=
  cells <> [] /\ Forall (fun c => all_chars plain c = true) cells.

(** The last cell is not empty. *)
Definition nonempty_end (cells : list string) : Prop := last cells ""%string <> ""%string.

