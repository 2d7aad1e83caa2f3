(** * The maximal-space search on a rectangle instance

    /repo/src/rectangle/tree_search_maximal_spaces.cpp; the search itself is in
    Space_Model.v. *)

From Coq Require Import List ZArith QArith Bool.
From Verif Require Import Util Common_Model Rect_Model Rect_Spec RectSol_Model Block_Model RectBlock_Model Space_Model.
Import ListNotations.
Open Scope Z_scope.

(** What the search uses of a block; [number_of_items += block.items.size()], :424. *)
Definition rs_sblock (b : RBlock) : SBlock :=
  mkSBlock [bk_x b; bk_y b] (bk_copies b) (bk_weight b) (Z.of_nat (length (bk_items b))).

Definition rs_defect (f : Defect) : list (Z * Z) := [(df_x f, df_lx f); (df_y f, df_ly f)].

(** The constructor, :52-68: the bin is clipped to the largest reachable lengths.
    [t] is [bin_type_id(0)], the type of the first bin, and [out] the blocks of this
    bin type. *)
Definition rs_data (i : RInstance) (t : nat) (out : list RBlock) : SData :=
  mkSD [nth (Z.to_nat (rb_x (rbin i t))) (max_reachable_x i) 0; nth (Z.to_nat (rb_y (rbin i t))) (max_reachable_y i) 0]
    (map rs_defect (rb_defects (rbin i t))) (map rs_sblock out) (rb_max_weight (rbin i t))
    (map ri_copies (rin_items i)) (map ri_profit (rin_items i)).

Definition dummy_rblock : RBlock := mkRBlock 0 0 0 0 0 false 0 false [] [] 0.

(** The calls to the solution builder, :539-553. *)
Definition rs_calls (t : nat) (out : list RBlock) (n : SNode) : list RBuilderCall :=
  RAddBin t 1 :: flat_map (fun pb => map (fun p =>
      RAddItem 0 (mkPl (pl_type p) (nth 0 (snd pb) 0 + pl_x p) (nth 1 (snd pb) 0 + pl_y p) (pl_rot p)))
    (bk_items (nth (fst pb) out dummy_rblock))) (sn_placed n).

(** to_solution, :529-556 *)
Definition rs_to_solution (i : RInstance) (cb : RCallback) (t : nat) (out : list RBlock)
    (score : SNode -> nat * list Z -> Q) (fuel : nat) (n : SNode) : option RSolution :=
  match greedy (rs_data i t out) score fuel n with
  | None => None
  | Some n' => rhistory i cb (rs_calls t out n') []
  end.
