(** * What a box block is, independently of how blocks are generated *)

From Coq Require Import List ZArith QArith Bool Sorted.
From Verif Require Import Util Common_Model Box_Model Box_Spec Block_Model BoxBlock_Model.
Import ListNotations.
Open Scope Z_scope.

Section Spec.

Variable i : BInstance.

(** The items can be separated by face-to-face cuts. *)
Inductive bguillotine : list BPlace -> Prop :=
| bgu_one : forall p, bguillotine [p]
| bgu_cut : forall a c l r, bguillotine l -> bguillotine r ->
    (forall p, In p l -> bp_end i p a <= c) -> (forall p, In p r -> c <= vat (bp_pos p) a) -> bguillotine (l ++ r).

(** A block for bin type [bt]. *)
Record xblock_ok (bt : BBin) (b : XBlock) : Prop := {
  (* the envelope fits in the bin *)
  xo_box : forall a, 0 < vat (xk_box b) a <= vat (bn_box bt) a;
  (* the items are items of the instance, in an allowed orientation, inside the envelope *)
  xo_items : forall p, In p (xk_items b) -> (bp_type p < length (bx_items i))%nat
    /\ In (bp_rot p) (bi_rotations (bxitem i (bp_type p)))
    /\ forall a, 0 <= vat (bp_pos p) a /\ bp_end i p a <= vat (xk_box b) a;
  (* they form a guillotine pattern, thus do not overlap *)
  xo_guillotine : bguillotine (xk_items b);
  (* the envelope is the smallest one *)
  xo_tight : forall a, (exists p, In p (xk_items b) /\ vat (bp_pos p) a = 0)
    /\ (exists p, In p (xk_items b) /\ bp_end i p a = vat (xk_box b) a);
  (* the numbers of copies, sorted by item type *)
  xo_sorted : StronglySorted lt (map fst (xk_copies b));
  xo_copies : forall x c, In (x, c) (xk_copies b) <-> 0 < c /\ c = bcount x (xk_items b);
  (* no item type used more than its number of copies *)
  xo_available : forall x, (x < length (bx_items i))%nat -> bcount x (xk_items b) <= Z.max 0 (bi_copies (bxitem i x));
  (* the totals *)
  xo_number : xk_number b = Z.of_nat (length (xk_items b));
  xo_volume : xk_volume b = zsum (fun p => bi_vol (bxitem i (bp_type p))) (xk_items b);
  xo_profit : (xk_profit b == qsum (fun p => bi_profit (bxitem i (bp_type p))) (xk_items b))%Q;
  xo_weight : (xk_weight b == qsum (fun p => bi_weight (bxitem i (bp_type p))) (xk_items b))%Q
}.

(** The items of the block put at position [v]. *)
Definition xput (b : XBlock) (v : Vec) : list BPlace :=
  map (fun p => mkBP (bp_type p) (mkV (v_x v + v_x (bp_pos p)) (v_y v + v_y (bp_pos p)) (v_z v + v_z (bp_pos p))) (bp_rot p)) (xk_items b).

(** A length that can be made along axis [a] by stacking copies of the items, each
    in an allowed orientation. *)
Definition xstackable (a : Axis) (v : Z) : Prop :=
  exists ps : list BPlace,
    (forall p, In p ps -> (bp_type p < length (bx_items i))%nat /\ In (bp_rot p) (bi_rotations (bxitem i (bp_type p))))
    /\ (forall x, (x < length (bx_items i))%nat -> bcount x ps <= bi_copies (bxitem i x))
    /\ v = zsum (fun p => bp_size i p a) ps.

End Spec.
