(** * What the cheap onedimensional bounds claim *)

From Coq Require Import List ZArith QArith Bool Sorted Permutation.
From Verif Require Import Util Common_Model OneDim_Model OneDim_Spec OneDimDff_Model OneDimBounds_Model.
Import ListNotations.
Open Scope Z_scope.

(** The bins of [ds] are bins of the instance, not more than available. *)
Definition available_bins (i : Instance) (ds : list BinDesc) : Prop :=
  (forall d, In d ds -> (bd_type d < length (in_bin_types i))%nat /\ 1 <= bd_copies d) /\
  (forall t, (t < length (in_bin_types i))%nat -> used_bins t ds <= bt_copies (bin_type i t)).

(** Items take some room even when nested, copies are not negative. *)
Record bound_domain (i : Instance) : Prop := {
  bd_bins_ok : forall bt, In bt (in_bin_types i) -> 1 <= bt_length bt /\ 0 <= bt_copies bt;
  bd_items_ok : forall it, In it (in_item_types i) ->
    0 < it_length it /\ it_nesting it < it_length it /\ 0 <= it_copies it
}.

(** What std::sort guarantees. *)
Definition sorted_by (before : nat -> nat -> bool) (items order : list nat) : Prop :=
  Permutation items order /\ StronglySorted (fun x y => before y x = false) order.

(** Cost of a packing. *)
Definition cost_of (i : Instance) (ds : list BinDesc) : Q :=
  qsum (fun d => (inject_Z (bd_copies d) * bt_cost (bin_type i (bd_type d)))%Q) ds.

(** [p] is at least the profit of every selection of the knapsack items
    (profit, length, copies) within the capacity. *)
Definition at_least_every_selection (items : list (Q * Z * Z)) (capacity : Z) (p : Q) : Prop :=
  forall counts, Forall2 (fun it n => 0 <= n <= snd it) items counts ->
    zsum (fun p => snd (fst (fst p)) * snd p) (combine items counts) <= capacity ->
    (qsum (fun p => fst (fst (fst p)) * inject_Z (snd p)) (combine items counts) <= p)%Q.

(** 0-1 knapsack: a selection, its profit and its weight. *)
Definition selected_profit (items : list (Q * Z)) (selected : list bool) : Q :=
  qsum (fun p => if fst p : bool then fst (snd p) else 0%Q) (combine selected items).
Definition selected_weight (items : list (Q * Z)) (selected : list bool) : Z :=
  zsum (fun p => if fst p : bool then snd (snd p) else 0) (combine selected items).

(** An exact solver. *)
Definition exact_solver (solver : list (Q * Z) -> Z -> list bool) : Prop :=
  forall items capacity, 0 <= capacity -> (forall it, In it items -> 0 <= snd it) ->
    length (solver items capacity) = length items /\
    selected_weight items (solver items capacity) <= capacity /\
    forall selected, length selected = length items -> selected_weight items selected <= capacity ->
      (selected_profit items selected <= selected_profit items (solver items capacity))%Q.

(** A single bin, whose list of item types is the list of eligible ones (as
    [build] computes it, see C13). *)
Record one_bin (i : Instance) : Prop := {
  ob_types : length (in_bin_types i) = 1%nat;
  ob_copies : bt_copies (bin_type i 0) = 1;
  ob_distinct : NoDup (bt_item_type_ids (bin_type i 0));
  ob_ids : forall x, In x (bt_item_type_ids (bin_type i 0)) <->
    (x < length (in_item_types i))%nat /\ is_eligible i x 0
}.

(** No resource of the bin is penalised. *)
Definition no_penalty (i : Instance) : Prop :=
  forall r, In r (bt_resources (bin_type i 0)) -> res_penalize r = false.

(** Nothing but lengths, copies and eligibility restricts the packings. *)
Record only_lengths (i : Instance) : Prop := {
  ol_resources : bt_resources (bin_type i 0) = [];
  ol_max_weight : bt_max_weight (bin_type i 0) = None;
  ol_items : forall it, In it (in_item_types i) ->
    it_nesting it = 0 /\ it_copies_min it <= 0 /\ it_max_weight_after it = None
    /\ zsum it_copies (in_item_types i) <= it_stackability it
}.
