(** * Placed blocks as a packing *)

From Coq Require Import List ZArith.
From Verif Require Import Rect_Spec Space_Model RectBlock_Model RectBlock_Spec RectSpaces_Model.
Import ListNotations.
Open Scope Z_scope.

(** The items of the placed blocks of a node. *)
Definition rs_items (out : list RBlock) (n : SNode) : list Place :=
  flat_map (fun pb => put (nth (fst pb) out dummy_rblock) (nth 0 (snd pb) 0) (nth 1 (snd pb) 0)) (sn_placed n).

(** The same items in the same orientation, maybe elsewhere. *)
Definition same_items (ps ps' : list Place) : Prop := Forall2 (fun p q => pl_type p = pl_type q /\ pl_rot p = pl_rot q) ps ps'.
