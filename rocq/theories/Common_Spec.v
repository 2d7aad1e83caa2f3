(** * Specifications used to state the properties of the common module.

    Nothing here refers to the algorithms of the model, only to its data types. *)

From Coq Require Import List ZArith QArith Bool Sorted.
From Verif Require Import Common_Model.
Import ListNotations.
Open Scope Q_scope.

(** Integer (possibly negative) powers of two. *)
Definition is_power_of_two (q : Q) : Prop := exists k : Z, q == Qpower 2 k.


Section Order.

Variable Sol : Type.
Variable lt : Sol -> Sol -> bool.

(** [lt] is a strict weak order. *)
Record StrictWeakOrder : Prop := {
  swo_irrefl : forall a, lt a a = false;
  swo_trans : forall a b c, lt a b = true -> lt b c = true -> lt a c = true;
  swo_neg : forall a b c, lt a b = false -> lt b c = false -> lt a c = false
}.


Variable copies : Sol -> list Z.

(** [a] and [b] have the same quality and the same item copies. *)
Definition ties (a b : Sol) : Prop :=
  lt a b = false /\ lt b a = false /\ copies a = copies b.

(** Best first, no two ties. *)
Definition best_first_distinct (l : list Sol) : Prop :=
  StronglySorted (fun a b => lt a b = false /\ ~ ties a b) l.

End Order.

Section Patterns.

Variable B : Type.
Variable beq : B -> B -> bool.

(** Total number of copies of pattern [b]. *)
Definition copies_of (b : B) (bins : list (B * Z)) : Z :=
  fold_right (fun bc acc => ((if beq (fst bc) b then snd bc else 0) + acc)%Z) 0%Z bins.

(** Sum of a quantity weighted by the copies. *)
Definition weighted_sum (f : B -> Q) (bins : list (B * Z)) : Q :=
  fold_right (fun bc acc => inject_Z (snd bc) * f (fst bc) + acc) 0 bins.

(** Order of first occurrence. *)
Fixpoint first_occurrences (seen : list B) (l : list B) : list B :=
  match l with
  | [] => []
  | b :: l' =>
      if existsb (beq b) seen then first_occurrences seen l'
      else b :: first_occurrences (b :: seen) l'
  end.


End Patterns.

Section PhysicalBins.

Variable C : Type.

(** The physical bins of a solution: one (type, content) pair per copy. *)
Definition physical (bins : list (ebin C)) : list (nat * C) :=
  flat_map (fun b => repeat (eb_type C b, eb_content C b) (eb_copies C b)) bins.

(** Contents of the physical bins of type [t], in order. *)
Definition of_type (t : nat) (l : list (nat * C)) : list C :=
  map snd (filter (fun p => Nat.eqb (fst p) t) l).


End PhysicalBins.

(** Consumption of the copies number 0 .. n-1 of an item whose schedule is
    [schedule]: the listed entries, then the last one repeated. *)
Fixpoint schedule_total (schedule : list Q) (n : nat) : Q :=
  match n with
  | O => 0
  | S n' => schedule_total schedule n' + nth n' schedule (last schedule 0)
  end.
