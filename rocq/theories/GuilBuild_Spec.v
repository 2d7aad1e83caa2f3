(** * Specification of the reconstruction of guillotine cuts *)

From Coq Require Import List ZArith Bool Permutation Sorted.
From Verif Require Import Util Guil_Model GuilBuild_Model.
Import ListNotations.
Open Scope Z_scope.

(** A sort by the left (bottom) sides, with any order of equal sides. *)
Definition Sorts (srt : bool -> list Placement -> list Placement) : Prop :=
  forall v l, Permutation (srt v l) l /\ StronglySorted (fun a b => pl_start v a <= pl_start v b) (srt v l).

(** Items with a positive size inside a rectangle. *)
Definition Inside (l r b t : Z) (items : list Placement) : Prop :=
  forall p, In p items -> l <= pl_l p /\ pl_l p < pl_r p /\ pl_r p <= r /\ b <= pl_b p /\ pl_b p < pl_t p /\ pl_t p <= t.

(** No straight cut of thickness [ct] separates the items: there is no position
    with every item on one side of the cut and an item on each side. *)
Definition NoCut (ct : Z) (v : bool) (items : list Placement) : Prop :=
  forall x, (forall p, In p items -> pl_end v p <= x \/ x + ct <= pl_start v p) ->
    (exists p, In p items /\ pl_end v p <= x) -> (exists p, In p items /\ x + ct <= pl_start v p) -> False.

(** Guillotine-cuttable items: whatever the items kept, if there are two or more,
    a straight cut separates them. *)
Definition Cuttable (ct : Z) (items : list Placement) : Prop :=
  forall kept others, Permutation items (kept ++ others) -> (2 <= length kept)%nat ->
    exists v x, (forall p, In p kept -> pl_end v p <= x \/ x + ct <= pl_start v p)
      /\ (exists p, In p kept /\ pl_end v p <= x) /\ (exists p, In p kept /\ x + ct <= pl_start v p).

(** No item starts just after the position [lo], too near for a cut in between. *)
Definition ClearOf (ct lo : Z) (v : bool) (items : list Placement) : Prop :=
  forall q, In q items -> ~ (lo < pl_start v q <= lo + ct).

(** No item starts just after the start of another one, or just after a cut along
    another one. *)
Definition Clear (ct : Z) (v : bool) (items : list Placement) : Prop :=
  forall p, In p items -> ClearOf ct (pl_start v p) v items /\ ClearOf ct (pl_end v p + ct) v items.

(** The items have the size of their type, possibly turned. *)
Definition Sized (i : GInstance) (items : list Placement) : Prop :=
  forall p, In p items -> (pl_item p < length (gin_items i))%nat
    /\ ((pl_r p - pl_l p = gi_w (gitem i (pl_item p)) /\ pl_t p - pl_b p = gi_h (gitem i (pl_item p)))
        \/ (pl_r p - pl_l p = gi_h (gitem i (pl_item p)) /\ pl_t p - pl_b p = gi_w (gitem i (pl_item p)))).
