(** * What a block is, independently of how blocks are generated *)

From Coq Require Import List ZArith QArith Bool Sorted.
From Verif Require Import Util Common_Model Rect_Model Rect_Spec Block_Model RectBlock_Model.
Import ListNotations.
Open Scope Z_scope.

Section Spec.

Variable i : RInstance.

(** The items can be separated by edge-to-edge cuts. *)
Inductive guillotine : list Place -> Prop :=
| gu_one : forall p, guillotine [p]
| gu_vertical : forall c l r, guillotine l -> guillotine r ->
    (forall p, In p l -> pl_xe i p <= c) -> (forall p, In p r -> c <= pl_x p) -> guillotine (l ++ r)
| gu_horizontal : forall c l r, guillotine l -> guillotine r ->
    (forall p, In p l -> pl_ye i p <= c) -> (forall p, In p r -> c <= pl_y p) -> guillotine (l ++ r).

(** A block for bin type [bt]. *)
Record block_ok (bt : RBin) (b : RBlock) : Prop := {
  (* the envelope fits in the bin *)
  bo_x : 0 < bk_x b <= rb_x bt;
  bo_y : 0 < bk_y b <= rb_y bt;
  (* the items are items of the instance, inside the envelope *)
  bo_items : forall p, In p (bk_items b) -> (pl_type p < length (rin_items i))%nat
    /\ (pl_rot p = true -> ri_oriented (ritem i (pl_type p)) = false)
    /\ 0 <= pl_x p /\ pl_xe i p <= bk_x b /\ 0 <= pl_y p /\ pl_ye i p <= bk_y b;
  (* they do not overlap, and form a guillotine pattern *)
  bo_guillotine : guillotine (bk_items b);
  (* the envelope is the smallest one *)
  bo_tight : (exists p, In p (bk_items b) /\ pl_x p = 0) /\ (exists p, In p (bk_items b) /\ pl_xe i p = bk_x b)
    /\ (exists p, In p (bk_items b) /\ pl_y p = 0) /\ (exists p, In p (bk_items b) /\ pl_ye i p = bk_y b);
  (* the numbers of copies, sorted by item type *)
  bo_sorted : StronglySorted lt (map fst (bk_copies b));
  bo_copies : forall x c, In (x, c) (bk_copies b) <-> 0 < c /\ c = rcount x (bk_items b);
  (* no item type used more than its number of copies *)
  bo_available : forall x, (x < length (rin_items i))%nat -> rcount x (bk_items b) <= Z.max 0 (ri_copies (ritem i x));
  (* the totals *)
  bo_number : bk_number b = Z.of_nat (length (bk_items b));
  bo_area : bk_area b = zsum (fun p => ri_x (ritem i (pl_type p)) * ri_y (ritem i (pl_type p))) (bk_items b);
  bo_profit : (bk_profit b == qsum (fun p => ri_profit (ritem i (pl_type p))) (bk_items b))%Q;
  bo_weight : (bk_weight b == qsum (fun p => ri_weight (ritem i (pl_type p))) (bk_items b))%Q
}.

(** The items of the block put at position ([px], [py]). *)
Definition put (b : RBlock) (px py : Z) : list Place :=
  map (fun p => mkPl (pl_type p) (px + pl_x p) (py + pl_y p) (pl_rot p)) (bk_items b).

(** A length that can be made by stacking items along an axis: [a x] copies of item
    type [x] not rotated and [r x] copies rotated. *)
Definition stackable (side : nat -> bool -> Z) (v : Z) : Prop :=
  exists a r : nat -> Z,
    (forall x, (x < length (rin_items i))%nat -> 0 <= a x /\ 0 <= r x /\ a x + r x <= ri_copies (ritem i x)
      /\ (ri_oriented (ritem i x) = true -> r x = 0))
    /\ v = zsum (fun x => a x * side x false + r x * side x true) (seq 0 (length (rin_items i))).

Definition nonneg_items : Prop := forall it, In it (rin_items i) -> 0 <= ri_x it /\ 0 <= ri_y it /\ 0 <= ri_copies it.

End Spec.
