(** * The maximal-space search on a box instance

    /repo/src/box/tree_search_maximal_spaces.cpp; the search itself is in
    Space_Model.v. *)

From Coq Require Import List ZArith QArith Bool.
From Verif Require Import Util Common_Model Box_Model Box_Spec BoxSol_Model Block_Model BoxBlock_Model Space_Model.
Import ListNotations.
Open Scope Z_scope.

(** What the search uses of a block; [number_of_items += block.items.size()], :568. *)
Definition xsp_sblock (b : XBlock) : SBlock :=
  mkSBlock [v_x (xk_box b); v_y (xk_box b); v_z (xk_box b)] (xk_copies b) (xk_weight b) (Z.of_nat (length (xk_items b))).

(** The constructor, :106-123: the bin is clipped to the largest reachable lengths.
    [t] is [bin_type_id(0)], the type of the first bin, and [out] the blocks of this
    bin type.  A box bin has no defects. *)
Definition xsp_data (i : BInstance) (t : nat) (out : list XBlock) : SData :=
  mkSD [nth (Z.to_nat (v_x (bn_box (bxbin i t)))) (xmax_reachable i AX) 0;
        nth (Z.to_nat (v_y (bn_box (bxbin i t)))) (xmax_reachable i AY) 0;
        nth (Z.to_nat (v_z (bn_box (bxbin i t)))) (xmax_reachable i AZ) 0]
    [] (map xsp_sblock out) (bn_max_weight (bxbin i t))
    (map bi_copies (bx_items i)) (map bi_profit (bx_items i)).

Definition dummy_xblock : XBlock := mkXBlock (mkV 0 0 0) 0 0 0 false 0 None [] [] 0.

(** The calls to the solution builder, :680-696. *)
Definition xsp_calls (t : nat) (out : list XBlock) (n : SNode) : list XBuilderCall :=
  XAddBin t 1 :: flat_map (fun pb => map (fun p =>
      XAddItem 0 (mkBP (bp_type p)
        (mkV (nth 0 (snd pb) 0 + v_x (bp_pos p)) (nth 1 (snd pb) 0 + v_y (bp_pos p)) (nth 2 (snd pb) 0 + v_z (bp_pos p))) (bp_rot p)))
    (xk_items (nth (fst pb) out dummy_xblock))) (sn_placed n).

(** to_solution, :670-699 *)
Definition xsp_to_solution (i : BInstance) (cb : XCallback) (t : nat) (out : list XBlock)
    (score : SNode -> nat * list Z -> Q) (fuel : nat) (n : SNode) : option XSolution :=
  match greedy (xsp_data i t out) score fuel n with
  | None => None
  | Some n' => xhistory i cb (xsp_calls t out n') []
  end.
