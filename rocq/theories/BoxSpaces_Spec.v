(** * Placed blocks as a box packing *)

From Coq Require Import List ZArith.
From Verif Require Import Box_Model Box_Spec Space_Model BoxBlock_Model BoxBlock_Spec BoxSpaces_Model.
Import ListNotations.
Open Scope Z_scope.

Definition vec_of (l : list Z) : Vec := mkV (nth 0 l 0) (nth 1 l 0) (nth 2 l 0).

(** The items of the placed blocks of a node. *)
Definition xsp_items (out : list XBlock) (n : SNode) : list BPlace :=
  flat_map (fun pb => xput (nth (fst pb) out dummy_xblock) (vec_of (snd pb))) (sn_placed n).

(** The same items in the same orientation, maybe elsewhere. *)
Definition same_boxes (ps ps' : list BPlace) : Prop := Forall2 (fun p q => bp_type p = bp_type q /\ bp_rot p = bp_rot q) ps ps'.
