(** * Conservative scales

    src/rectangle/conservative_scales.cpp.

    Doubles are exact rationals, with the tolerances of the code.  The LP solver
    and the knapsack solver are external: they receive which computation they are
    called for (iteration, axis, turn), and the knapsack solver answers with the
    ids of the rectangle item types (the renaming by kp_to_item_type is not
    modelled). *)

From Coq Require Import List ZArith QArith Qround Bool.
From Verif Require Import Util Common_Model OneDim_Model Rect_Model.
Import ListNotations.
Open Scope Z_scope.

(** An item type of the separation knapsack: id, length, profit, copies. *)
Record KItem : Type := mkKI { ki_id : nat; ki_len : Z; ki_value : Q; ki_copies : Z }.

Definition Call : Type := nat * bool * nat.
Record LOracle : Type := mkLO {
  lo_lp : Call -> list Q -> list (list Z) -> list Q;     (** objective, rows: value of each item type *)
  lo_kp : Call -> Z -> list KItem -> nat -> Z;           (** capacity, items: copies selected of each id *)
  lo_end : nat -> bool
}.

Definition scale_tol : Q := 1 # 1000000.

Section Lp.
Variables (o : LOracle) (i : RInstance) (dims : list Z) (cap : Z) (obj : list Q).
Definition snum : nat := length (rin_items i).
Definition sdim (x : nat) : Z := nth x dims 0.

(** :48-54. *)
Definition eligible_ids : list nat := filter (fun x => sdim x <=? cap) (seq 0 snum).

(** The items of the knapsack, :108-124. *)
Definition kp_items (sol : list Q) : list KItem :=
  map (fun x => mkKI x (sdim x) (nth x sol 0%Q) (ri_copies (ritem i x)))
    (filter (fun x => negb (Qle_bool (nth x sol 0%Q) 0)) eligible_ids).

(** selected_copies, :128-143. *)
Definition selected (sol : list Q) (answer : nat -> Z) : list Z :=
  map (fun x => if existsb (fun k => (ki_id k =? x)%nat) (kp_items sol) then answer x else 0) (seq 0 snum).

(** achieved, :144-146. *)
Definition achieved (sol : list Q) (sel : list Z) : Q :=
  qsum (fun x => inject_Z (nth x sel 0%Z) * nth x sol 0)%Q eligible_ids.

(** Values for the eligible item types, 0 for the others, :148-154 and :172-174. *)
Definition on_eligible (f : nat -> Q) : list Q :=
  map (fun x => if sdim x <=? cap then f x else 0%Q) (seq 0 snum).

(** The cutting-plane loop, :80-169, with the number of turns allowed (10000 in
    the code), the current turn and the rows.  The second component is the rows
    at the end. *)
Fixpoint scale_loop (turns : nat) (it : nat) (axis : bool) (turn : nat) (rows : list (list Z)) : list Q * list (list Z) :=
  match turns with
  | O => (on_eligible (fun x => inject_Z (sdim x)), rows)
  | S f =>
      let sol := lo_lp o (it, axis, turn) obj rows in
      let ks := kp_items sol in
      let answer := match ks with [] => fun _ => 0 | _ => lo_kp o (it, axis, turn) cap ks end in
      let sel := selected sol answer in
      if Qle_bool (achieved sol sel) (inject_Z cap + scale_tol)
      then (on_eligible (fun x => nth x sol 0%Q), rows)
      else scale_loop f it axis (S turn) (rows ++ [sel])
  end.

(** [solve_conservative_scale_lp], :41-175. *)
Definition scale_lp (turns it : nat) (axis : bool) : list Q :=
  match eligible_ids with
  | [] => repeat 0%Q snum
  | _ => fst (scale_loop turns it axis 0 [])
  end.
End Lp.

(** [bound_for_pair], :177-193. *)
Definition pair_sum (i : RInstance) (a b : list Q) : Q :=
  qsum (fun x => inject_Z (ri_copies (ritem i x)) * nth x a 0 * nth x b 0)%Q (seq 0 (length (rin_items i))).
Definition bound_for_pair (i : RInstance) (a b : list Q) (area : Q) : Z := Qceiling (pair_sum i a b / area - scale_tol)%Q.

(** Equality of vectors of doubles, :289-290. *)
Fixpoint qlist_eqb (a b : list Q) : bool :=
  match a, b with
  | [], [] => true
  | x :: a', y :: b' => Qeq_bool x y && qlist_eqb a' b'
  | _, _ => false
  end.

Section Main.
Variables (o : LOracle) (i : RInstance) (turns : nat).
Definition sbin : RBin := rbin i 0.
Definition sarea : Q := (inject_Z (rb_x sbin) * inject_Z (rb_y sbin))%Q.
Definition swidths : list Z := map ri_x (rin_items i).
Definition sheights : list Z := map ri_y (rin_items i).
Definition to_q (l : list Z) : list Q := map inject_Z l.

(** The alternating iterations, :248-294: the bounds computed, in order. *)
Fixpoint cs_loop (n it : nat) (widths heights : list (list Q)) : list Z :=
  match n with
  | O => []
  | S m =>
      if lo_end o it then []
      else
        let new_w := scale_lp o i swidths (rb_x sbin) (nth (it - 1) heights []) turns it false in
        let widths' := widths ++ [new_w] in
        let new_h := scale_lp o i sheights (rb_y sbin) (nth (it - 1) widths' []) turns it true in
        let heights' := heights ++ [new_h] in
        map (fun h => bound_for_pair i new_w h sarea) heights
        ++ map (fun w => bound_for_pair i new_h w sarea) widths'
        ++ (if qlist_eqb (nth it widths' []) (nth (it - 1) widths' []) && qlist_eqb (nth it heights' []) (nth (it - 1) heights' [])
            then [] else cs_loop m (S it) widths' heights')
  end.

(** [conservative_scales], :195-301.  [None]: invalid_argument.  The bounds are
    given to update_bin_packing_bound (bin packing), or compared with the number
    of bins (feasibility). *)
Inductive CsResult : Type := CsBounds (bounds : list Z) | CsInfeasible (proven : bool).
Definition conservative_scales (iterations : nat) : option CsResult :=
  if negb (length (rin_bins i) =? 1)%nat then None
  else if negb (all_oriented i) then None
  else
    let bounds := bound_for_pair i (to_q swidths) (to_q sheights) sarea
                  :: cs_loop iterations 1 [to_q swidths] [to_q sheights] in
    match rin_objective i with
    | OBinPacking => Some (CsBounds bounds)
    | OFeasibility => Some (CsInfeasible (existsb (fun b => rnumber_of_bins i <? b) bounds))
    | _ => None
    end.
End Main.
