(** * Model of the reconstruction of guillotine cuts from item positions
    (/repo/include/packingsolver/rectangleguillotine/post_process.hpp,
    /repo/src/rectangleguillotine/post_process.cpp:19-303).

    The recursion of the code has no bound: the model has a fuel, and a run that
    needs more is [GRFuel].  [std::sort] leaves the order of equal keys open: the
    sort is an argument, any function returning a sorted permutation. *)

From Coq Require Import List ZArith QArith Bool.
From Verif Require Import Util Common_Model OneDim_Model Guil_Model GuilSol_Model.
Import ListNotations.
Open Scope Z_scope.

(** ItemPlacement, post_process.hpp:29-33.  A negative item type id throws in
    set_last_node_item, as does a too large one. *)
Record Placement : Type := mkPl { pl_item : nat; pl_l : Z; pl_r : Z; pl_b : Z; pl_t : Z }.

(** [is_vertical? item.l: item.b], [is_vertical? item.r: item.t], :71-72. *)
Definition pl_start (v : bool) (p : Placement) : Z := if v then pl_l p else pl_b p.
Definition pl_end (v : bool) (p : Placement) : Z := if v then pl_r p else pl_t p.

(** CutGroup, :31-35. *)
Record CutGroup : Type := mkCG { cg_cut : Z; cg_items : list Placement }.

(** The body of the loop of find_groups, :70-87; -1 is the cut position of a
    group without item. *)
Definition group_step (ct : Z) (v : bool) (acc : list CutGroup * CutGroup) (p : Placement) : list CutGroup * CutGroup :=
  let '(groups, cur) := acc in
  if cg_cut cur <? 0 then (groups, mkCG (pl_end v p) (cg_items cur ++ [p]))
  else if cg_cut cur + ct <=? pl_start v p then (groups ++ [cur], mkCG (pl_end v p) [p])
  else (groups, mkCG (if cg_cut cur <? pl_end v p then pl_end v p else cg_cut cur) (cg_items cur ++ [p])).

(** find_groups, :48-93. *)
Definition find_groups (srt : bool -> list Placement -> list Placement) (ct : Z) (v : bool) (items : list Placement) : list CutGroup :=
  let '(groups, cur) := fold_left (group_step ct v) (srt v items) ([], mkCG (-1) []) in
  match cg_items cur with [] => groups | _ => groups ++ [cur] end.

(** Outcome of a run: no fuel left, an exception, undefined behaviour, or the
    bins of the builder. *)
Inductive GRegion : Type := GRFuel | GRThrow | GRBad | GROk (bins : list GBin).
Definition gof (r : GResult) : GRegion :=
  match r with GOk bins => GROk bins | GThrow _ => GRThrow | GUndef => GRBad end.

(** "single item exactly filling the region", :117-128. *)
Definition exact_item (l r b t : Z) (items : list Placement) : option nat :=
  match items with
  | [p] => if (pl_l p =? l) && (pl_r p =? r) && (pl_b p =? b) && (pl_t p =? t) then Some (pl_item p) else None
  | _ => None
  end.

(** The body of the loop on the groups, :142-172, with the recursive call [rec];
    the state is the outcome so far and [prev_pos]. *)
Definition region_step (i : GInstance) (v : bool) (l r b t depth : Z)
    (rec : Z -> Z -> Z -> Z -> list Placement -> Z -> list GBin -> GRegion)
    (acc : GRegion * Z) (g : CutGroup) : GRegion * Z :=
  let ct := gp_ct (gin_params i) in
  match fst acc with
  | GROk bins =>
      let start := match cg_items g with p :: _ => pl_start v p | [] => 0 end in
      let '(first, prev) :=
        if snd acc <? start - ct then (gof (gadd_node i bins depth (start - ct)), start) else (GROk bins, snd acc) in
      match first with
      | GROk bins =>
          match gof (gadd_node i bins depth (cg_cut g)) with
          | GROk bins =>
              (rec (if v then prev else l) (if v then cg_cut g else r) (if v then b else prev) (if v then t else cg_cut g)
                 (cg_items g) (depth + 1) bins, cg_cut g + ct)
          | x => (x, prev)
          end
      | x => (x, prev)
      end
  | _ => acc
  end.

(** build_region, :105-175.  The code returns [true] or does not return. *)
Fixpoint build_region (srt : bool -> list Placement -> list Placement) (i : GInstance) (o : GOrient) (fuel : nat)
    (l r b t : Z) (items : list Placement) (depth : Z) (bins : list GBin) {struct fuel} : GRegion :=
  match items with
  | [] => GROk bins
  | _ =>
      match (if 1 <? depth then exact_item l r b t items else None) with
      | Some x => gof (gset_item i bins x)
      | None =>
          match fuel with
          | O => GRFuel
          | S fuel =>
              let v := gvertical o depth in
              fst (fold_left (region_step i v l r b t depth (build_region srt i o fuel))
                     (find_groups srt (gp_ct (gin_params i)) v items) (GROk bins, if v then l else b))
          end
      end
  end.

(** The usable region of try_build, :192-199. *)
Definition use_l (bt : GBinType) : Z := if gt_hard (gb_left bt) then gt_length (gb_left bt) else 0.
Definition use_r (bt : GBinType) : Z := gb_w bt - (if gt_hard (gb_right bt) then gt_length (gb_right bt) else 0).
Definition use_b (bt : GBinType) : Z := if gt_hard (gb_bottom bt) then gt_length (gb_bottom bt) else 0.
Definition use_t (bt : GBinType) : Z := gb_h bt - (if gt_hard (gb_top bt) then gt_length (gb_top bt) else 0).

(** try_build, :183-212: before [builder.build()]. *)
Definition try_region (srt : bool -> list Placement -> list Placement) (i : GInstance) (fuel : nat) (t : nat)
    (items : list Placement) (o : GOrient) : GRegion :=
  if Nat.ltb t (length (gin_bins i)) then
    match gadd_bin i [] t 1 o with
    | GOk bins =>
        build_region srt i o fuel (use_l (gbin i t)) (use_r (gbin i t)) (use_b (gbin i t)) (use_t (gbin i t)) items 1 bins
    | x => gof x
    end
  else GRBad.

(** The result of build_guillotine_solutions. *)
Inductive GBuilds : Type := GBFuel | GBBad | GBExit | GBList (l : list GSolution).

(** try_orientation, :282-291: the exceptions are caught. *)
Definition try_orientation (srt : bool -> list Placement -> list Placement) (i : GInstance) (cb : GCallback) (fuel : nat)
    (t : nat) (items : list Placement) (o : GOrient) : GBuilds :=
  match try_region srt i fuel t items o with
  | GRFuel => GBFuel
  | GRBad => GBBad
  | GRThrow => GBList []
  | GROk bins =>
      match gbuild i cb bins with
      | GDone s => GBList [s]
      | GExit => GBExit
      | GBad => GBBad
      end
  end.

(** build_guillotine_solutions, :274-303. *)
Definition build_guillotine_solutions (srt : bool -> list Placement -> list Placement) (i : GInstance) (cb : GCallback)
    (fuel : nat) (t : nat) (items : list Placement) : GBuilds :=
  match gp_first (gin_params i) with
  | GVertical => try_orientation srt i cb fuel t items GVertical
  | GHorizontal => try_orientation srt i cb fuel t items GHorizontal
  | GAny =>
      match try_orientation srt i cb fuel t items GVertical with
      | GBList l1 =>
          match try_orientation srt i cb fuel t items GHorizontal with
          | GBList l2 => GBList (l1 ++ l2)
          | x => x
          end
      | x => x
      end
  end.

(** build_guillotine_solution, :216-234: [None] if there is no solution; the code
    returns a solution without bins. *)
Definition build_guillotine_solution (sols : list GSolution) : option GSolution :=
  match sols with
  | [] => None
  | [s] => Some s
  | s0 :: s1 :: _ => Some (if gc_stages (gs_core s0) <=? gc_stages (gs_core s1) then s0 else s1)
  end.

(** The placements minimize_number_of_stages reads in a bin, :247-259. *)
Definition node_placement (n : GNode) : list Placement :=
  match gn_f n with
  | Some _ => if 0 <=? gn_item n then [mkPl (Z.to_nat (gn_item n)) (gn_l n) (gn_r n) (gn_b n) (gn_t n)] else []
  | None => []
  end.
Definition bin_placements (ns : list GNode) : list Placement := flat_map node_placement ns.

(** minimize_number_of_stages, :236-272, on the given positions; [None]: no fuel
    left or undefined behaviour or end of the process. *)
Fixpoint minimize_from (srt : bool -> list Placement -> list Placement) (i : GInstance) (cb : GCallback) (fuel : nat)
    (source result : GSolution) (positions : list nat) : option GSolution :=
  match positions with
  | [] => Some result
  | pos :: rest =>
      match nth_error (gc_bins (gs_core source)) pos with
      | None => None
      | Some b =>
          match build_guillotine_solutions srt i cb fuel (gs_type b) (bin_placements (gs_nodes b)) with
          | GBList sols =>
              match (match build_guillotine_solution sols with
                     | Some s => gappend_bin i cb result s 0 (gs_copies b) [] []
                     | None => gappend_bin i cb result source pos (gs_copies b) [] []
                     end) with
              | GDone result => minimize_from srt i cb fuel source result rest
              | _ => None
              end
          | _ => None
          end
      end
  end.
Definition minimize_number_of_stages (srt : bool -> list Placement -> list Placement) (i : GInstance) (cb : GCallback)
    (fuel : nat) (source : GSolution) : option GSolution :=
  minimize_from srt i cb fuel source (gsol_new i) (seq 0 (length (gc_bins (gs_core source)))).
