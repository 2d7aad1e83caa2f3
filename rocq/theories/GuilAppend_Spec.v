(** * What appending bins to a guillotine solution should do *)

From Coq Require Import List ZArith QArith Bool.
From Verif Require Import Util Common_Model OneDim_Model Guil_Model Guil_Spec GuilSol_Model GuilSol_Spec.
Import ListNotations.
Open Scope Z_scope.

(** The residual of a bin that is not the last any more is waste. *)
Definition gsettle_node (n : GNode) : GNode := if gn_item n =? -3 then gn_with_item n (-1) else n.
Definition gsettle_view (v : GView) : GView :=
  mkGV (gv_type v) (gv_copies v) (gv_orient v) (map gsettle_node (gv_nodes v)).

(** What is shown of a sequence of bins: only the last one has a residual. *)
Definition shown (hs : list GView) : list GView :=
  match rev hs with [] => [] | v :: r => map gsettle_view (rev r) ++ [v] end.

(** An item type or bin type of the source instance in the target instance: the
    identity when no list is given. *)
Definition gmaps (ids : list nat) (x y : nat) : Prop :=
  (ids = [] /\ y = x) \/ (ids <> [] /\ nth_error ids x = Some y).

(** The copy [n'] of a node [n], in a bin of type [t]. *)
Definition gnode_copy (item_type_ids : list nat) (t : nat) (n n' : GNode) : Prop :=
  gn_f n' = gn_f n /\ gn_d n' = gn_d n /\ grect n' = grect n /\ gn_children n' = gn_children n
  /\ match gn_f n with
     | None => gn_item n' = Z.of_nat t
     | Some _ => (gn_item n < 0 /\ gn_item n' = gn_item n)
         \/ (0 <= gn_item n /\ exists y, gmaps item_type_ids (Z.to_nat (gn_item n)) y /\ gn_item n' = Z.of_nat y)
     end.

(** [v'] is [v] with [copies] copies, in the types of the target instance. *)
Definition gview_copy (bin_type_ids item_type_ids : list nat) (copies : Z) (v v' : GView) : Prop :=
  gmaps bin_type_ids (gv_type v) (gv_type v') /\ gv_copies v' = copies /\ gv_orient v' = gv_orient v
  /\ Forall2 (gnode_copy item_type_ids (gv_type v')) (gv_nodes v) (gv_nodes v').

(** The source [j] and the target [i] agree on what a bin [v] of the source uses:
    the thickness of the cuts, the plate, its trims and the items. *)
Record gfits (j i : GInstance) (bin_type_ids item_type_ids : list nat) (v : GView) : Prop := {
  ft_ct : gp_ct (gin_params i) = gp_ct (gin_params j);
  ft_plate : exists t, gmaps bin_type_ids (gv_type v) t /\ (t < length (gin_bins i))%nat
    /\ gb_w (gbin i t) = gb_w (gbin j (gv_type v)) /\ gb_h (gbin i t) = gb_h (gbin j (gv_type v))
    /\ gb_left (gbin i t) = gb_left (gbin j (gv_type v)) /\ gb_right (gbin i t) = gb_right (gbin j (gv_type v))
    /\ gb_bottom (gbin i t) = gb_bottom (gbin j (gv_type v)) /\ gb_top (gbin i t) = gb_top (gbin j (gv_type v));
  ft_items : forall x, In x (gv_items v) -> exists y, gmaps item_type_ids x y /\ (y < length (gin_items i))%nat
    /\ gi_w (gitem i y) = gi_w (gitem j x) /\ gi_h (gitem i y) = gi_h (gitem j x);
  ft_positive : 0 <= gb_h (gbin j (gv_type v)) /\ usable_b (gbin j (gv_type v)) <= usable_t (gbin j (gv_type v))
}.
