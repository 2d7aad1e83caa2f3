(** * Model of the rectangleguillotine instance, solution builder and solution
    (/repo/include/packingsolver/rectangleguillotine/instance.hpp,
    /repo/include/packingsolver/rectangleguillotine/solution.hpp,
    /repo/src/rectangleguillotine/solution_builder.cpp,
    /repo/src/rectangleguillotine/solution.cpp).

    Integers are unbounded, doubles are exact rationals.  Node ids are naturals;
    the father [-1] of a root is [None].  An exception leaves the builder in the
    state reached when it is thrown, and this state is kept. *)

From Coq Require Import List ZArith QArith Bool.
From Verif Require Import Util Common_Model OneDim_Model.
Import ListNotations.
Open Scope Z_scope.

(** CutType, CutOrientation, TrimType, instance.hpp:12-25.  A trim is a length
    and whether it is [Hard]. *)
Inductive GCutType : Type := GRoadef2018 | GNonExact | GExact | GHomogenous.
Inductive GOrient : Type := GHorizontal | GVertical | GAny.

(** CutCost, instance.hpp:98-110. *)
Record GCutCost : Type := mkGCC { gcc_fixed : Z; gcc_variable : Z }.

(** Parameters, instance.hpp:110-176. *)
Record GParams : Type := mkGP {
  gp_stages : Z;
  gp_cut_type : GCutType;
  gp_first : GOrient;
  gp_min1 : Z;
  gp_max1 : Z;
  gp_min2 : Z;
  gp_max2 : Z;
  gp_min_waste : Z;
  gp_number1 : Z;
  gp_number2 : Z;
  gp_through_defects : bool;
  gp_ct : Z;
  gp_costs : list GCutCost;
  gp_waste_cost : Z
}.

(** Defect, instance.hpp:181-204. *)
Record GDefect : Type := mkGD { gd_x : Z; gd_y : Z; gd_w : Z; gd_h : Z }.
Definition gd_left (d : GDefect) : Z := gd_x d.
Definition gd_right (d : GDefect) : Z := gd_x d + gd_w d.
Definition gd_bottom (d : GDefect) : Z := gd_y d.
Definition gd_top (d : GDefect) : Z := gd_y d + gd_h d.

(** A trim: its length and whether its type is [Hard]. *)
Record GTrim : Type := mkGT { gt_length : Z; gt_hard : bool }.

(** BinType, instance.hpp:219-281; fixed items are not modelled. *)
Record GBinType : Type := mkGBT {
  gb_cost : Q;
  gb_copies : Z;
  gb_copies_min : Z;
  gb_w : Z;
  gb_h : Z;
  gb_defects : list GDefect;
  gb_bottom : GTrim;
  gb_top : GTrim;
  gb_left : GTrim;
  gb_right : GTrim;
  gb_resources : list Resource
}.

(** BinType::area, instance.hpp:271. *)
Definition gb_area (bt : GBinType) : Z :=
  (gb_h bt - gt_length (gb_top bt) - gt_length (gb_bottom bt))
  * (gb_w bt - gt_length (gb_right bt) - gt_length (gb_left bt)).

(** ItemType, instance.hpp:290-350. *)
Record GItem : Type := mkGI {
  gi_profit : Q;
  gi_copies : Z;
  gi_copies_min : Z;
  gi_w : Z;
  gi_h : Z;
  gi_stack_id : nat;
  gi_stack_pos : nat;
  gi_oriented : bool;
  gi_resource_ids : list (list nat)
}.
Definition gi_area (it : GItem) : Z := gi_w it * gi_h it.

(** Instance: the parts the solution uses.  [gin_stack_items] is
    [item_type_ids_], [gin_stack_offsets] is [stack_offsets_]. *)
Record GInstance : Type := mkGIn {
  gin_objective : Objective;
  gin_params : GParams;
  gin_bins : list GBinType;
  gin_items : list GItem;
  gin_stack_offsets : list nat;
  gin_stack_items : list nat
}.

Definition gdummy_trim : GTrim := mkGT 0 false.
Definition gdummy_bin : GBinType :=
  mkGBT 0 0 0 0 0 [] gdummy_trim gdummy_trim gdummy_trim gdummy_trim [].
Definition gdummy_item : GItem := mkGI 0 0 0 0 0 0 0 false [].
Definition gbin (i : GInstance) (t : nat) : GBinType := nth t (gin_bins i) gdummy_bin.
Definition gitem (i : GInstance) (x : nat) : GItem := nth x (gin_items i) gdummy_item.

(** Instance::item, instance.hpp:455. *)
Definition gstack_item (i : GInstance) (s pos : nat) : nat :=
  nth (nth s (gin_stack_offsets i) 0%nat + pos) (gin_stack_items i) 0%nat.

(** rect_intersects_defect, instance.hpp:657-682, as the test [!= -1]. *)
Definition gdefect_hit (l r b t : Z) (d : GDefect) : bool :=
  negb (r <=? gd_left d) && negb (gd_right d <=? l) && negb (t <=? gd_bottom d) && negb (gd_top d <=? b).
Definition grect_defect (l r b t : Z) (bt : GBinType) : bool := existsb (gdefect_hit l r b t) (gb_defects bt).

(** y_intersects_defect, instance.hpp:697-720, as the test [!= -1]. *)
Definition gy_defect (l r y : Z) (bt : GBinType) : bool :=
  existsb (fun d => negb ((gd_right d <=? l) || (r <=? gd_left d))
                    && negb ((y <=? gd_bottom d) || (gd_top d <=? y))) (gb_defects bt).

(** x_intersects_defect, instance.hpp:722-745, as the test [!= -1]. *)
Definition gx_defect (x b t : Z) (bt : GBinType) : bool :=
  existsb (fun d => negb ((gd_top d <=? b) || (t <=? gd_bottom d))
                    && negb ((x <=? gd_left d) || (gd_right d <=? x))) (gb_defects bt).

(** ** Solutions *)

(** SolutionNode, solution.hpp:22-33.  [gn_item]: an item type, [-1] waste,
    [-2] cut again, [-3] residual; for a root, the bin type. *)
Record GNode : Type := mkGN {
  gn_f : option nat;
  gn_d : Z;
  gn_l : Z;
  gn_r : Z;
  gn_b : Z;
  gn_t : Z;
  gn_children : list nat;
  gn_item : Z
}.

Definition gdummy_node : GNode := mkGN None 0 0 0 0 0 [] (-1).
Definition gnode (ns : list GNode) (id : nat) : GNode := nth id ns gdummy_node.

Definition gn_with_item (n : GNode) (x : Z) : GNode :=
  mkGN (gn_f n) (gn_d n) (gn_l n) (gn_r n) (gn_b n) (gn_t n) (gn_children n) x.
Definition gn_add_child (n : GNode) (id : nat) : GNode :=
  mkGN (gn_f n) (gn_d n) (gn_l n) (gn_r n) (gn_b n) (gn_t n) (gn_children n ++ [id]) (gn_item n).

(** SolutionBin, solution.hpp:38-73. *)
Record GBin : Type := mkGB {
  gs_type : nat;
  gs_copies : Z;
  gs_orient : GOrient;
  gs_nodes : list GNode;
  gs_stages : Z;
  gs_stages_real : Z;
  gs_non_exact : bool;
  gs_roadef : bool;
  gs_resources : list Q
}.

Definition gwith_nodes (b : GBin) (ns : list GNode) : GBin :=
  mkGB (gs_type b) (gs_copies b) (gs_orient b) ns (gs_stages b) (gs_stages_real b)
    (gs_non_exact b) (gs_roadef b) (gs_resources b).

(** ** SolutionBuilder *)

(** The trim flags of add_bin, solution_builder.cpp:39-42. *)
Definition gtrim (t : GTrim) : bool := gt_hard t && (0 <? gt_length t).

Definition gtrim_node (l r b t : Z) : GNode := mkGN (Some 0%nat) (-1) l r b t [] (-1).

(** The region left by the hard trims, solution_builder.cpp:152-156. *)
Definition gin_l (bt : GBinType) : Z := if gtrim (gb_left bt) then gt_length (gb_left bt) else 0.
Definition gin_r (bt : GBinType) : Z := if gtrim (gb_right bt) then gb_w bt - gt_length (gb_right bt) else gb_w bt.
Definition gin_b (bt : GBinType) : Z := if gtrim (gb_bottom bt) then gt_length (gb_bottom bt) else 0.
Definition gin_t (bt : GBinType) : Z := if gtrim (gb_top bt) then gb_h bt - gt_length (gb_top bt) else gb_h bt.

(** add_bin, solution_builder.cpp:45-148: the nodes of the trims.  The corner
    right-top tests the length of the top trim and not its flag (:87). *)
Definition gtrims (bt : GBinType) : list GNode :=
  let w := gb_w bt in
  let h := gb_h bt in
  let ll := gt_length (gb_left bt) in
  let lr := gt_length (gb_right bt) in
  let lb := gt_length (gb_bottom bt) in
  let lt := gt_length (gb_top bt) in
  let fl := gtrim (gb_left bt) in
  let fr := gtrim (gb_right bt) in
  let fb := gtrim (gb_bottom bt) in
  let ft := gtrim (gb_top bt) in
  (if fl && fb then [gtrim_node 0 ll 0 lb] else [])
  ++ (if fl && ft then [gtrim_node 0 ll (h - lt) h] else [])
  ++ (if fr && fb then [gtrim_node (w - lr) w 0 lb] else [])
  ++ (if fr && negb (lt =? 0) then [gtrim_node (w - lr) w (h - lt) h] else [])
  ++ (if fl then [gtrim_node 0 ll (gin_b bt) (gin_t bt)] else [])
  ++ (if fb then [gtrim_node (gin_l bt) (gin_r bt) 0 lb] else [])
  ++ (if fr then [gtrim_node (w - lr) w (gin_b bt) (gin_t bt)] else [])
  ++ (if ft then [gtrim_node (gin_l bt) (gin_r bt) (h - lt) h] else []).

Definition ghas_trims (bt : GBinType) : bool :=
  gtrim (gb_left bt) || gtrim (gb_right bt) || gtrim (gb_bottom bt) || gtrim (gb_top bt).

(** add_bin, solution_builder.cpp:29-160: the first nodes.  The children pushed
    on the local [root] after it was copied in the bin are lost. *)
Definition ginit_nodes (bt : GBinType) (t : nat) : list GNode :=
  mkGN None 0 0 (gb_w bt) 0 (gb_h bt) [] (Z.of_nat t)
  :: (if ghas_trims bt
      then gtrims bt ++ [mkGN (Some 0%nat) 0 (gin_l bt) (gin_r bt) (gin_b bt) (gin_t bt) [] (-1)]
      else []).

(** A call of the builder: it returns, it throws an exception leaving the
    bins in some state, or its behaviour is undefined. *)
Inductive GResult : Type :=
| GOk (bins : list GBin)
| GThrow (bins : list GBin)
| GUndef.

(** [bins.back()] and the others. *)
Definition gback (bins : list GBin) : option (list GBin * GBin) :=
  match rev bins with [] => None | b :: r => Some (rev r, b) end.

(** add_bin, solution_builder.cpp:8-163.  Negative ids are rejected as well. *)
Definition gadd_bin (i : GInstance) (bins : list GBin) (t : nat) (copies : Z) (o : GOrient) : GResult :=
  if Nat.ltb t (length (gin_bins i))
  then GOk (bins ++ [mkGB t copies o (ginit_nodes (gbin i t) t) 0 0 false false []])
  else GThrow bins.

(** set_last_node_item, solution_builder.cpp:165-207. *)
Definition gset_item (i : GInstance) (bins : list GBin) (x : nat) : GResult :=
  match gback bins with
  | None => GThrow bins
  | Some (front, b) =>
      if Nat.ltb x (length (gin_items i)) then
        let it := gitem i x in
        let last := (length (gs_nodes b) - 1)%nat in
        let n := gnode (gs_nodes b) last in
        if ((gn_r n - gn_l n =? gi_w it) && (gn_t n - gn_b n =? gi_h it))
           || ((gn_r n - gn_l n =? gi_h it) && (gn_t n - gn_b n =? gi_w it))
        then GOk (front ++ [gwith_nodes b (upd last (fun n => gn_with_item n (Z.of_nat x)) (gs_nodes b))])
        else GThrow bins
      else GThrow bins
  end.

(** [parent.children.push_back(nodes.size()); nodes.push_back(child)]. *)
Definition gpush_child (ns : list GNode) (p : nat) (child : GNode) : list GNode :=
  upd p (fun n => gn_add_child n (length ns)) ns ++ [child].

(** "Add a final child to the last node if necessary",
    solution_builder.cpp:241-270 and :476-505. *)
Definition gfinish (ct : Z) (ns : list GNode) (p : nat) : list GNode :=
  let parent := gnode ns p in
  match rev (gn_children parent) with
  | [] => ns
  | c :: _ =>
      let brother := gnode ns c in
      if gn_r brother + ct <? gn_r parent then
        gpush_child ns p (mkGN (Some p) (gn_d parent + 1) (gn_r brother + ct) (gn_r parent)
          (gn_b parent) (gn_t parent) [] (-1))
      else if gn_t brother + ct <? gn_t parent then
        gpush_child ns p (mkGN (Some p) (gn_d parent + 1) (gn_l parent) (gn_r parent)
          (gn_t brother + ct) (gn_t parent) [] (-1))
      else ns
  end.

(** The loop [while (bin.nodes[parent_id].d != depth - 1)],
    solution_builder.cpp:239-273.  [None]: no fuel left, or the father of a
    root is read (out of bounds). *)
Fixpoint gclimb (fuel : nat) (ct : Z) (ns : list GNode) (p : nat) (depth : Z) : option (list GNode * nat) :=
  if gn_d (gnode ns p) =? depth - 1 then Some (ns, p)
  else
    match fuel with
    | O => None
    | S fuel =>
        match gn_f (gnode (gfinish ct ns p) p) with
        | Some q => gclimb fuel ct (gfinish ct ns p) q depth
        | None => None
        end
    end.

(** Whether the cuts of a depth are vertical, solution_builder.cpp:288-291. *)
Definition gvertical (o : GOrient) (depth : Z) : bool :=
  match o with
  | GVertical => depth mod 2 =? 1
  | GHorizontal => depth mod 2 =? 0
  | GAny => false
  end.

(** add_node, solution_builder.cpp:209-345, on the last bin.  The result says
    whether the call returns. *)
Definition gadd_node_in (ct : Z) (o : GOrient) (ns : list GNode) (depth cut : Z) : option (list GNode * bool) :=
  let last := (length ns - 1)%nat in
  if gn_d (gnode ns last) + 1 <? depth then Some (ns, false)
  else
    match gclimb (length ns) ct ns last depth with
    | None => None
    | Some (ns, p) =>
        let parent := gnode ns p in
        let is_root := match gn_f parent with None => true | Some _ => false end in
        if negb is_root && (0 <=? gn_item parent) then Some (ns, false)
        else
          let ns := if is_root then ns else upd p (fun n => gn_with_item n (-2)) ns in
          if gvertical o depth then
            let l := match rev (gn_children parent) with
                     | [] => gn_l parent | c :: _ => gn_r (gnode ns c) + ct end in
            if cut <=? l then Some (ns, false)
            else if gn_r parent <? cut then Some (ns, false)
            else Some (gpush_child ns p
                         (mkGN (Some p) (gn_d parent + 1) l cut (gn_b parent) (gn_t parent) [] (-1)), true)
          else
            let b := match rev (gn_children parent) with
                     | [] => gn_b parent | c :: _ => gn_t (gnode ns c) + ct end in
            if cut <=? b then Some (ns, false)
            else if gn_t parent <? cut then Some (ns, false)
            else Some (gpush_child ns p
                         (mkGN (Some p) (gn_d parent + 1) (gn_l parent) (gn_r parent) b cut [] (-1)), true)
    end.

Definition gadd_node (i : GInstance) (bins : list GBin) (depth cut : Z) : GResult :=
  match gback bins with
  | None => GThrow bins
  | Some (front, b) =>
      if depth <? 1 then GThrow bins
      else
        match gadd_node_in (gp_ct (gin_params i)) (gs_orient b) (gs_nodes b) depth cut with
        | None => GUndef
        | Some (ns, true) => GOk (front ++ [gwith_nodes b ns])
        | Some (ns, false) => GThrow (front ++ [gwith_nodes b ns])
        end
  end.

Inductive GCall : Type :=
| GAddBin (t : nat) (copies : Z) (o : GOrient)
| GAddNode (depth cut : Z)
| GSetItem (x : nat).

Definition gcall (i : GInstance) (bins : list GBin) (c : GCall) : GResult :=
  match c with
  | GAddBin t copies o => gadd_bin i bins t copies o
  | GAddNode depth cut => gadd_node i bins depth cut
  | GSetItem x => gset_item i bins x
  end.

(** A history of calls; the exceptions are caught by the caller, who goes on. *)
Fixpoint grun (i : GInstance) (bins : list GBin) (calls : list GCall) : option (list GBin) :=
  match calls with
  | [] => Some bins
  | c :: rest =>
      match gcall i bins c with
      | GOk bins' | GThrow bins' => grun i bins' rest
      | GUndef => None
      end
  end.

(** A history none of whose calls throws. *)
Fixpoint gaccepted (i : GInstance) (bins : list GBin) (calls : list GCall) : bool :=
  match calls with
  | [] => true
  | c :: rest =>
      match gcall i bins c with
      | GOk bins' => gaccepted i bins' rest
      | _ => false
      end
  end.

(** "Finish bins", solution_builder.cpp:466-509: the loop on the ancestors of
    the last node of a bin. *)
Fixpoint gclose (fuel : nat) (ct : Z) (ns : list GNode) (p : nat) : option (list GNode) :=
  match fuel with
  | O => None
  | S fuel =>
      match gn_f (gnode (gfinish ct ns p) p) with
      | Some q => gclose fuel ct (gfinish ct ns p) q
      | None => Some (gfinish ct ns p)
      end
  end.
Definition gclose_bin (ct : Z) (b : GBin) : option GBin :=
  option_map (gwith_nodes b) (gclose (length (gs_nodes b)) ct (gs_nodes b) (length (gs_nodes b) - 1)).

(** "Set residual", solution_builder.cpp:511-516. *)
Definition gresidual_bin (b : GBin) : GBin :=
  let last := (length (gs_nodes b) - 1)%nat in
  let n := gnode (gs_nodes b) last in
  if (gn_item n =? -1) && (gn_d n =? 1)
  then gwith_nodes b (upd last (fun n => gn_with_item n (-3)) (gs_nodes b)) else b.
Definition gresidual (bins : list GBin) : list GBin :=
  match gback bins with None => bins | Some (front, b) => front ++ [gresidual_bin b] end.

Fixpoint gmapo {A B : Type} (f : A -> option B) (l : list A) : option (list B) :=
  match l with
  | [] => Some []
  | x :: l' => match f x, gmapo f l' with Some y, Some r => Some (y :: r) | _, _ => None end
  end.

(** The bins [build] computes the indicators of, solution_builder.cpp:462-516. *)
Definition gfinish_bins (i : GInstance) (bins : list GBin) : option (list GBin) :=
  option_map gresidual (gmapo (gclose_bin (gp_ct (gin_params i))) bins).
