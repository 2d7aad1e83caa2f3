(** * Model of the Benders decomposition of the rectangle solver

    /repo/src/rectangle/benders_decomposition.cpp.  A onedimensional master problem
    assigns items to bins, a rectangle subproblem checks each bin, infeasible
    selections are cut off.  The solvers called (onedimensional optimize, rectangle
    optimize, bar relaxation) are parameters; they may answer differently from one
    iteration to the next.  Doubles are rationals.  Left out: the timer (a run may
    be read as cut after any number of iterations), the maximum number of
    iterations, the printing. *)

From Coq Require Import List ZArith QArith Bool Qround.
From Verif Require Import Util Common_Model OneDim_Model OneDim_Spec OneDimBuilder_Model Milp_Model Rect_Model Rect_Spec RectDff_Model.
Import ListNotations.
Open Scope Z_scope.

(** ResourceCut, :36-40. *)
Record RCut : Type := mkRC { ct_capacity : Q; ct_consumption : list (nat * list Q) }.

(** threshold_schedule, :52-57. *)
Definition threshold_schedule (threshold : Z) : list Q := repeat 1%Q (Z.to_nat threshold) ++ [0%Q].

(** Rectangle::min and max. *)
Definition ri_min (it : RItem) : Z := Z.min (ri_x it) (ri_y it).
Definition ri_max (it : RItem) : Z := Z.max (ri_x it) (ri_y it).

(** items_incompatible, :66-88. *)
Definition items_incompatible (it1 it2 : RItem) (bt : RBin) : bool :=
  negb (ri_oriented it1) && negb (ri_oriented it2) && (Z.max (rb_x bt) (rb_y bt) <? ri_min it1 + ri_min it2)
  || ri_oriented it1 && ri_oriented it2 && (rb_x bt <? ri_x it1 + ri_x it2) && (rb_y bt <? ri_y it1 + ri_y it2)
  || negb (ri_oriented it1) && ri_oriented it2 && (rb_x bt <? ri_max it1 + ri_x it2) && (rb_y bt <? ri_max it1 + ri_y it2)
  || ri_oriented it1 && negb (ri_oriented it2) && (rb_x bt <? ri_x it1 + ri_max it2) && (rb_y bt <? ri_y it1 + ri_max it2).

(** item_type_fits_footprint_of, :102-124. *)
Definition footprints (it : RItem) : list (Z * Z) :=
  (ri_x it, ri_y it) :: (if ri_oriented it then [] else [(ri_y it, ri_x it)]).
Definition fits_footprint_of (it2 it1 : RItem) : bool :=
  forallb (fun f =>
    (ri_x it2 <=? fst f) && (ri_y it2 <=? snd f)
    || negb (ri_oriented it2) && (ri_y it2 <=? fst f) && (ri_x it2 <=? snd f)) (footprints it1).

Section Benders.
Variable i : RInstance.

Let ni := length (rin_items i).
Let nb := length (rin_bins i).

Definition fits_bin (x t : nat) : bool := ritem_fits (ritem i x) (rbin i t).

(** ** Lifting, :186-270 *)

(** SEntry, :193-198. *)
Record SEntry : Type := mkSE { se_type : nat; se_copies : Z; se_profit : Q }.

(** The knapsack instance, :223-243: the entries, then the candidate, forced in.
    Simplification: the resources of the bin type are dropped (the bar relaxation
    only uses the negative penalties, which raise its bound). *)
Definition sub_item (x : nat) (profit : Q) (copies copies_min : Z) : RItem :=
  let it := ritem i x in
  mkRI (ri_x it) (ri_y it) profit copies copies_min (ri_group it) (ri_oriented it) (ri_weight it) (ri_eligibility it) [].
Definition sub_bin (t : nat) : RBin :=
  let bt := rbin i t in
  mkRB (rb_x bt) (rb_y bt) (rb_cost bt) 1 0 (rb_max_weight bt) (rb_truck bt) (rb_eligibility_ids bt) (rb_defects bt) [].
Definition lift_instance (t : nat) (entries : list SEntry) (candidate : nat) : RInstance :=
  mkRInst OKnapsack (rin_params i)
    (map (fun e => sub_item (se_type e) (se_profit e) (se_copies e) 0) entries ++ [sub_item candidate 0 1 1])
    [sub_bin t].

(** [alpha_rounded], :251-260; [None]: the infinite initial bound. *)
Definition lift_alpha (m : Q) (bound : option Q) : Z :=
  match bound with
  | None => 0
  | Some s =>
      let alpha := (m - 1 - s)%Q in
      if Qltb 0 alpha then Qfloor (alpha + (1 # 1000000)) else 0
  end.

(** The loop on the candidates, :211-268.  [bar]: the knapsack bound of the bar
    relaxation. *)
Fixpoint lift_loop (bar : RInstance -> option Q) (t : nat) (in_cut : nat -> bool) (candidates : list nat)
  (m : Q) (entries : list SEntry) (cut : RCut) : RCut :=
  match candidates with
  | [] => cut
  | j :: candidates' =>
      if in_cut j || negb (fits_bin j t) then lift_loop bar t in_cut candidates' m entries cut
      else
        let alpha := lift_alpha m (bar (lift_instance t entries j)) in
        if 0 <? alpha
        then lift_loop bar t in_cut candidates' (m + inject_Z alpha) (entries ++ [mkSE j 1 (inject_Z alpha)])
               (mkRC (ct_capacity cut) (ct_consumption cut ++ [(j, threshold_schedule alpha)]))
        else lift_loop bar t in_cut candidates' m entries cut
  end.

Definition lift_no_good_cut (bar : RInstance -> option Q) (t : nat) (cut : RCut) : RCut :=
  lift_loop bar t (fun j => existsb (fun e => Nat.eqb (fst e) j) (ct_consumption cut)) (seq 0 ni)
    (ct_capacity cut + 1)
    (map (fun e => mkSE (fst e) (Z.of_nat (length (snd e)) - 1) 1) (ct_consumption cut)) cut.

(** ** Feasibility of a selection *)

(** What the rectangle solve of one bin returns: the items of its first bin (with
    the item types of the instance: the renumbering of append_bin is part of
    RectSol_Model), [full()], [is_proven_infeasible]. *)
Record SubOut : Type := mkSO { so_places : option (list Place); so_full : bool; so_infeasible : bool }.

(** SelectionFeasibility, :280-285. *)
Inductive Feasibility : Type := Feasible | ProvenNot | Unknown.

(** selection_feasibility, :293-336. *)
Definition selection_feasibility (sub : nat -> list (nat * Z) -> SubOut) (t : nat) (selected : list (nat * Z)) : Feasibility :=
  let kept := filter (fun p => 0 <? snd p) selected in
  match kept with
  | [] => Feasible
  | _ =>
      let out := sub t kept in
      if so_full out then Feasible else if so_infeasible out then ProvenNot else Unknown
  end.

(** aggregate_units, :342-362, and aggregate_bin_items, :738-758. *)
Definition aggregate (units : list nat) : list (nat * Z) :=
  filter (fun p => 0 <? snd p) (map (fun x => (x, Z.of_nat (count_occ Nat.eq_dec units x))) (seq 0 ni)).

(** enumerate_minimal_infeasible_subsets_dfs, :402-437.  The units before the
    position that are not removed are [kept], [rest] are the units from the position
    on, none of them removed.  The first function is the loop, with
    [any_child_infeasible]. *)
Fixpoint dfs_loop (feas : list (nat * Z) -> Feasibility) (maximum : nat) (kept rest : list nat) (proven any : bool)
  (cuts : list (list (nat * Z) * bool)) : bool * list (list (nat * Z) * bool) :=
  match rest with
  | [] => (any, cuts)
  | u :: rest' =>
      if (maximum <=? length cuts)%nat then (any, cuts)
      else match feas (aggregate (kept ++ rest')) with
      | Feasible => dfs_loop feas maximum (kept ++ [u]) rest' proven any cuts
      | f =>
          let proven' := proven && match f with ProvenNot => true | _ => false end in
          let '(any', cuts') := dfs_loop feas maximum kept rest' proven' false cuts in
          let cuts'' := if negb any' && (length cuts' <? maximum)%nat
                        then cuts' ++ [(aggregate (kept ++ rest'), proven')] else cuts' in
          dfs_loop feas maximum (kept ++ [u]) rest' proven true cuts''
      end
  end.
Definition dfs (feas : list (nat * Z) -> Feasibility) (maximum : nat) (units : list nat) (proven : bool) : list (list (nat * Z) * bool) :=
  let '(any, cuts) := dfs_loop feas maximum [] units proven false [] in
  if negb any && (length cuts <? maximum)%nat then cuts ++ [(aggregate units, proven)] else cuts.

(** std::stable_sort by increasing area, :458-465, as an insertion sort. *)
Fixpoint insert_unit (x : nat) (l : list nat) : list nat :=
  match l with
  | [] => [x]
  | y :: l' => if ri_area (ritem i x) <=? ri_area (ritem i y) then x :: l else y :: insert_unit x l'
  end.
Definition sort_units (l : list nat) : list nat := fold_right insert_unit [] l.

(** enumerate_minimal_infeasible_subsets, :439-475. *)
Definition minimal_subsets (sub : nat -> list (nat * Z) -> SubOut) (t : nat) (selected : list (nat * Z)) (proven : bool)
  (maximum : nat) : list (list (nat * Z) * bool) :=
  dfs (selection_feasibility sub t) maximum
    (sort_units (flat_map (fun p => repeat (fst p) (Z.to_nat (snd p))) selected)) proven.

(** The no-good cut of a selection, :1054-1062. *)
Definition no_good_cut (items : list (nat * Z)) : RCut :=
  mkRC (inject_Z (zsum snd items) - 1) (map (fun p => (fst p, threshold_schedule (snd p))) items).

(** The resource of a dual feasible function cut, :975-987. *)
Definition dff_resource (c : DffCut) : RCut :=
  mkRC (inject_Z (cut_bound c))
    (flat_map (fun x => let q := nth x (cut_coefficients c) 0 in if q =? 0 then [] else [(x, [inject_Z q])]) (seq 0 ni)).

(** ** The master problem *)

(** compute_static_bin_type_resources, :488-524, for one bin type. *)
Definition static_cuts (t : nat) : list RCut :=
  flat_map (fun x1 =>
    if negb (fits_bin x1 t) then [] else
    flat_map (fun x2 =>
      if negb (fits_bin x2 t) then []
      else if negb (items_incompatible (ritem i x1) (ritem i x2) (rbin i t)) then []
      else if Nat.eqb x2 x1 then [mkRC 1 [(x1, threshold_schedule 2)]]
      else [mkRC 1 [(x1, threshold_schedule 1); (x2, threshold_schedule 1)]]) (seq x1 (ni - x1))) (seq 0 ni).

(** compute_item_type_precedences, :551-593. *)
Definition precedence (x1 x2 : nat) : bool :=
  let it1 := ritem i x1 in
  let it2 := ritem i x2 in
  negb (Nat.eqb x2 x1)
  && negb (Qltb (ri_profit it2) (ri_profit it1))
  && fits_footprint_of it2 it1
  && negb (Qeq_bool (ri_profit it2) (ri_profit it1) && fits_footprint_of it1 it2 && (x1 <=? x2)%nat)
  && existsb (fun t => fits_bin x1 t) (seq 0 nb)
  && forallb (fun t => negb (fits_bin x1 t) || fits_bin x2 t) (seq 0 nb).
Definition precedences : list (nat * nat) :=
  match rin_objective i with
  | OKnapsack => flat_map (fun x1 => map (fun x2 => (x1, x2)) (filter (precedence x1) (seq 0 ni))) (seq 0 ni)
  | _ => []
  end.

(** The calls of add_resource_consumption for one schedule, and for a new resource,
    :596-615, 665-691. *)
Definition put_schedule (r : Resource) (x : nat) (s : list Q) : Resource :=
  fold_left (fun r kq => put_consumption x (fst kq) (snd kq) r) (combine (seq 0 (length s)) s) r.
Definition cut_resource (c : RCut) : Resource :=
  fold_left (fun r e => put_schedule r (fst e) (snd e)) (ct_consumption c) (mkResource (ct_capacity c) [] false 0).
Definition copied_resource (r : Resource) : Resource :=
  fold_left (fun r' e => put_schedule r' (fst e) (snd e))
    (combine (seq 0 (length (res_item_consumptions r))) (res_item_consumptions r))
    (mkResource (res_capacity r) [] (res_penalize r) (res_penalty r)).

(** Eligibility ids of the master, :696-725. *)
Definition fits_all (x : nat) : bool := forallb (fits_bin x) (seq 0 nb).
Definition master_eligibility (x : nat) : Z :=
  if fits_all x then -1 else Z.of_nat (length (filter (fun y => negb (fits_all y)) (seq 0 x))).

(** build_master_instance, :622-735: the builder before [build()]; the checks of its
    calls (ids in range, positive costs and numbers of copies), which the values of an
    instance pass, are left out. *)
Definition master_bin (dff no_good : nat -> list RCut) (t : nat) : BinType :=
  let bt := rbin i t in
  mkBT (rb_area bt) (rb_cost bt) (rb_copies bt) (rb_copies_min bt) None
    (map master_eligibility (filter (fun x => negb (fits_all x) && fits_bin x t) (seq 0 ni)))
    (map cut_resource (static_cuts t ++ dff t ++ no_good t) ++ map copied_resource (rb_resources bt)) [].
Definition master_item (x : nat) : ItemType :=
  let it := ritem i x in
  mkIT (ri_area it) (match rin_objective i with OKnapsack => ri_profit it | _ => inject_Z (ri_area it) end)
    (ri_copies it) (ri_copies_min it) 0 0 max_item_pos None (master_eligibility x) [].
Definition master_builder (dff no_good : nat -> list RCut) : Builder :=
  mkB (Some (rin_objective i)) (map master_item (seq 0 ni)) (map (master_bin dff no_good) (seq 0 nb)) [].

(** ** The check of the cuts *)

(** resource_cut_consumption, :767-783. *)
Definition cut_consumption (c : RCut) (count : nat -> Z) : Q :=
  qsum (fun e => qsum (fun k => nth k (snd e) (last (snd e) 0%Q)) (seq 0 (Z.to_nat (count (fst e))))) (ct_consumption c).

(** cut_violates_solution, :789-808. *)
Definition cut_violates (t : nat) (c : RCut) (ds : list RDesc) : bool :=
  existsb (fun d => Nat.eqb (rd_type d) t
    && strictly_greater (cut_consumption c (fun x => rcount x (rd_items d))) (ct_capacity c)) ds.

(** check_cuts_against_best_solution, :824-848: [true] if it throws. *)
Definition check_cuts_throws (dff no_good : nat -> list RCut) (best : list RDesc) : bool :=
  existsb (fun t => existsb (fun c => cut_violates t c best) (dff t ++ no_good t)) (seq 0 nb).

(** ** The main loop, :850-1122 *)

(** What the onedimensional solve of the master returns: what it claims (infeasible, or
    its bound for the objective), the bins of its best solution. *)
Record MasterOut : Type := mkMO { mo_claim : MilpClaim; mo_solution : list BinDesc }.

(** The answers of the solvers, by iteration; the maximum number of no-good cuts per
    bin; the choice of the best solution of the pool among the solutions found. *)
Record Oracles : Type := mkOr {
  or_master : nat -> Instance -> list (nat * nat) -> MasterOut;
  or_sub : nat -> nat -> list (nat * Z) -> SubOut;
  or_bar : nat -> RInstance -> option Q;
  or_maximum : nat;
  or_best : list (list RDesc) -> list RDesc
}.

(** Cuts by bin type, [all_cuts_proven_infeasible]; what has been given to the
    algorithm formatter: claims and solutions. *)
Record BState : Type := mkBS {
  bs_dff : nat -> list RCut;
  bs_no_good : nat -> list RCut;
  bs_proven : bool;
  bs_claims : list MilpClaim;
  bs_solutions : list (list RDesc)
}.
Definition initial_state : BState := mkBS (fun _ => []) (fun _ => []) true [] [].

Definition add_at (f : nat -> list RCut) (t : nat) (cs : list RCut) : nat -> list RCut :=
  fun u => if Nat.eqb u t then f u ++ cs else f u.

(** The claims passed on, :899-916. *)
Definition passed_on (c : MilpClaim) : MilpClaim :=
  match c, rin_objective i with
  | Infeasible, _ => Infeasible
  | ProfitBound _, OKnapsack => c
  | BinsBound _, OBinPacking => c
  | CostBound _, OVariableSizedBinPacking => c
  | _, _ => NoClaim
  end.

(** Pass 1, :959-992: the cuts found, by bin of the master; [None]: undefined
    behaviour. *)
Fixpoint pass1 (bins : list BinDesc) (dff : nat -> list RCut) (found : bool) : option ((nat -> list RCut) * bool) :=
  match bins with
  | [] => Some (dff, found)
  | d :: bins' =>
      match find_most_violated_cut i (bd_type d) (aggregate (bd_items d)) with
      | None => None
      | Some c =>
          if cut_found c then pass1 bins' (add_at dff (bd_type d) [dff_resource c]) true
          else pass1 bins' dff found
      end
  end.

(** The cuts of one infeasible bin, :1043-1074: cuts, all proven. *)
Definition bin_cuts (o : Oracles) (k t : nat) (selected : list (nat * Z)) (proven : bool) : list RCut * bool :=
  let subsets := minimal_subsets (or_sub o k) t selected proven (or_maximum o) in
  (map (fun s => lift_no_good_cut (or_bar o k) t (no_good_cut (fst s))) subsets, forallb snd subsets).

(** Pass 2, :1001-1078: no-good cuts, proven, solution, [all_bins_feasible].  [None]: an
    exception, :1017: set_bin_type_copies(1) on the copy of a bin type with more than one
    mandatory copy. *)
Fixpoint pass2 (o : Oracles) (k : nat) (bins : list BinDesc) (no_good : nat -> list RCut) (proven : bool)
  (solution : list RDesc) (feasible : bool) : option ((nat -> list RCut) * bool * list RDesc * bool) :=
  match bins with
  | [] => Some (no_good, proven, solution, feasible)
  | d :: bins' =>
      let t := bd_type d in
      if 1 <? rb_copies_min (rbin i t) then None
      else
        let selected := aggregate (bd_items d) in
        let out := or_sub o k t selected in
        let solution' := match so_places out with
          | Some ps => solution ++ [mkRD t (bd_copies d) ps]
          | None => solution
          end in
        if so_full out then pass2 o k bins' no_good proven solution' feasible
        else
          let '(cs, all) := bin_cuts o k t selected (so_infeasible out) in
          pass2 o k bins' (add_at no_good t cs) (proven && all) solution' false
  end.

Inductive Outcome : Type := Continue (s : BState) | Stop (s : BState) | Throw (s : BState).

(** One iteration, :881-1119. *)
Definition iteration (o : Oracles) (k : nat) (s : BState) : Outcome :=
  match b_build (master_builder (bs_dff s) (bs_no_good s)) with
  | Built i1 =>
      let out := or_master o k i1 precedences in
      let s1 := if bs_proven s
        then mkBS (bs_dff s) (bs_no_good s) (bs_proven s) (bs_claims s ++ [passed_on (mo_claim out)]) (bs_solutions s)
        else s in
      if (zsum bd_copies (mo_solution out) =? 0) && (0 <? rnumber_of_items i)
         && match rin_objective i with OKnapsack => false | _ => true end
      then Throw s1
      else match pass1 (mo_solution out) (bs_dff s1) false with
      | None => Throw s1
      | Some (dff', true) => Continue (mkBS dff' (bs_no_good s1) (bs_proven s1) (bs_claims s1) (bs_solutions s1))
      | Some (dff', false) =>
          match pass2 o k (mo_solution out) (bs_no_good s1) (bs_proven s1) [] true with
          | None => Throw s1
          | Some (no_good', proven', solution, feasible) =>
              let solutions' := if 0 <? zsum rd_copies solution then bs_solutions s1 ++ [solution] else bs_solutions s1 in
              let s2 := mkBS (bs_dff s1) no_good' proven' (bs_claims s1) solutions' in
              if proven' && check_cuts_throws (bs_dff s1) no_good' (or_best o solutions') then Throw s2
              else if feasible then Stop s2 else Continue s2
          end
      end
  | _ => Throw s
  end.

(** [n] iterations at most, from iteration [k] on. *)
Fixpoint iterations (o : Oracles) (n k : nat) (s : BState) : Outcome :=
  match n with
  | O => Continue s
  | S n' =>
      match iteration o k s with
      | Continue s' => iterations o n' (S k) s'
      | r => r
      end
  end.
Definition benders (o : Oracles) (n : nat) : Outcome := iterations o n 0 initial_state.
Definition outcome_state (r : Outcome) : BState := match r with Continue s | Stop s | Throw s => s end.

End Benders.
