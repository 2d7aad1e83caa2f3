(** * What the onedimensional dual feasible functions bounds claim *)

From Coq Require Import List ZArith QArith Bool.
From Verif Require Import Util Common_Model OneDim_Model OneDim_Spec.
Import ListNotations.
Open Scope Z_scope.

(** One bin type, and items that take some room even when nested. *)
Record dff_domain (i : Instance) : Prop := {
  dd_one : length (in_bin_types i) = 1%nat;
  dd_bin : 1 <= bt_length (bin_type i 0);
  dd_items : forall it, In it (in_item_types i) ->
    0 < it_length it /\ it_nesting it < it_length it /\ 0 <= it_copies it
}.

(** The bins [ds] are bins of the instance's bin type. *)
Definition bins_of (ds : list BinDesc) (minimum : Z) : Prop :=
  forall d, In d ds -> bd_type d = 0%nat /\ minimum <= bd_copies d.

(** Every copy of every item type is packed. *)
Definition all_packed (i : Instance) (ds : list BinDesc) : Prop :=
  forall x, (x < length (in_item_types i))%nat -> packed x ds = it_copies (item_type i x).

(** Reported profit of a packing: item profits minus penalties. *)
Definition profit_of (i : Instance) (ds : list BinDesc) : Q :=
  qsum (fun d => (inject_Z (bd_copies d) * qsum (fun x => it_profit (item_type i x)) (bd_items d)
                  - penalties i d)%Q) ds.

(** No item nests deeper than the whole of another item. *)
Definition shallow_nesting (i : Instance) : Prop :=
  forall it1 it2, In it1 (in_item_types i) -> In it2 (in_item_types i) -> it_nesting it1 <= it_length it2.
