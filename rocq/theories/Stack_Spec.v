(** * What the indicators of a boxstacks solution mean *)

From Coq Require Import List ZArith QArith Bool.
From Verif Require Import Util Common_Model OneDim_Model Rect_Model RectSol_Spec Box_Model Stack_Model.
Import ListNotations.
Open Scope Z_scope.

(** A stack: its base and, from bottom to top, its items with their orientation. *)
Record KSDesc : Type := mkKSD { sd_x : Z; sd_xe : Z; sd_y : Z; sd_ye : Z; sd_items : list (nat * Rotation) }.
(** A bin: type, number of copies, stacks. *)
Record KDesc : Type := mkKD { kd_type : nat; kd_copies : Z; kd_stacks : list KSDesc }.
Definition kd_items (d : KDesc) : list (nat * Rotation) := flat_map sd_items (kd_stacks d).

(** What the getters [bin(bin_pos)] show. *)
Definition kview_stack (s : KStack) : KSDesc := mkKSD (ks_x s) (ks_xe s) (ks_y s) (ks_ye s) (map (fun p => (kp_type p, kp_rot p)) (ks_items s)).
Definition kview_bin (b : KSBin) : KDesc := mkKD (kn_type b) (kn_copies b) (map kview_stack (kn_stacks b)).
Definition kview (s : KSolution) : list KDesc := map kview_bin (kc_bins (ksol_core s)).

(** ** What the calls of a history ask for *)

Fixpoint kdesc_run (ds : list KDesc) (calls : list KBuilderCall) : list KDesc :=
  match calls with
  | [] => ds
  | KAddBin t copies :: rest => kdesc_run (ds ++ [mkKD t copies []]) rest
  | KAddStack pos x xe y ye :: rest =>
      kdesc_run (upd pos (fun d => mkKD (kd_type d) (kd_copies d) (kd_stacks d ++ [mkKSD x xe y ye []])) ds) rest
  | KAddItem pos stack p :: rest =>
      kdesc_run (upd pos (fun d => mkKD (kd_type d) (kd_copies d)
        (upd stack (fun s => mkKSD (sd_x s) (sd_xe s) (sd_y s) (sd_ye s) (sd_items s ++ [p])) (kd_stacks d))) ds) rest
  end.

Definition kmapped (ids : list nat) (id : nat) : nat :=
  match ids with [] => id | _ => nth id ids 0%nat end.
Definition kmapped_desc (bids iids : list nat) (copies : Z) (d : KDesc) : KDesc :=
  mkKD (kmapped bids (kd_type d)) copies
    (map (fun s => mkKSD (sd_x s) (sd_xe s) (sd_y s) (sd_ye s)
       (map (fun p => (kmapped iids (fst p), snd p)) (sd_items s))) (kd_stacks d)).

Definition kcall_bins (c : KSolutionCall) : list KDesc :=
  match c with
  | KAppendBin source pos copies bids iids =>
      match nth_error (kview source) pos with
      | Some d => [kmapped_desc bids iids copies d] | None => [] end
  | KAppendBins source bids iids =>
      map (fun d => kmapped_desc bids iids (kd_copies d) d) (kview source)
  | KAppendEmpty t copies => [mkKD t copies []]
  end.

(** Occurrences of an item type. *)
Definition kcount (x : nat) (ps : list (nat * Rotation)) : Z := zsum (fun p => if Nat.eqb (fst p) x then 1 else 0) ps.
Definition kpacked (x : nat) (ds : list KDesc) : Z := zsum (fun d => kd_copies d * kcount x (kd_items d)) ds.
Definition kused (t : nat) (ds : list KDesc) : Z := zsum (fun d => if Nat.eqb (kd_type d) t then kd_copies d else 0) ds.

Section Spec.

Variable i : KInstance.

Definition kheight (p : nat * Rotation) : Z := v_z (rotate (ki_box (kitem i (fst p))) (snd p)).
Definition kweight (p : nat * Rotation) : Q := ki_weight (kitem i (fst p)).
Definition kprofit (p : nat * Rotation) : Q := ki_profit (kitem i (fst p)).

(** Every item but the lowest one is nested in the item below it. *)
Definition stack_height (ps : list (nat * Rotation)) : Z :=
  zsum kheight ps - zsum (fun p => ki_nesting (kitem i (fst p))) (tl ps).

Definition base (s : KSDesc) : Z := (sd_xe s - sd_x s) * (sd_ye s - sd_y s).
(** Abscissa of the centre of the base. *)
Definition mid (s : KSDesc) : Q := (inject_Z (sd_x s + sd_xe s) / 2)%Q.

(** Weight of the items of group [g] and after (unloaded after the groups before). *)
Definition gweight (g : nat) (ps : list (nat * Rotation)) : Q :=
  qsum (fun p => if Nat.leb g (ki_group (kitem i (fst p))) then kweight p else 0%Q) ps.
Definition bin_gweight (g : nat) (d : KDesc) : Q := qsum (fun s => gweight g (sd_items s)) (kd_stacks d).
Definition bin_gmoment (g : nat) (d : KDesc) : Q := qsum (fun s => mid s * gweight g (sd_items s))%Q (kd_stacks d).

(** The indicators of a solution with bins [ds]. *)
Record KIndicators (ds : list KDesc) (c : KCore) : Prop := {
  kq_bins : kc_number_of_bins c = zsum kd_copies ds;
  kq_stacks : kc_number_of_stacks c = zsum (fun d => kd_copies d * Z.of_nat (length (kd_stacks d))) ds;
  kq_nitems : kc_number_of_items c = zsum (fun d => kd_copies d * Z.of_nat (length (kd_items d))) ds;
  kq_bin_volume : kc_bin_volume c = zsum (fun d => kd_copies d * vol (kb_box (kbin i (kd_type d)))) ds;
  kq_bin_area : kc_bin_area c
    = zsum (fun d => kd_copies d * (v_x (kb_box (kbin i (kd_type d))) * v_y (kb_box (kbin i (kd_type d))))) ds;
  kq_stack_area : kc_stack_area c = zsum (fun d => kd_copies d * zsum base (kd_stacks d)) ds;
  kq_bin_weight : match kc_bin_weight c with
    | Some w => (forall d, In d ds -> kb_max_weight (kbin i (kd_type d)) <> None) /\
        (w == qsum (fun d => inject_Z (kd_copies d)
            * match kb_max_weight (kbin i (kd_type d)) with Some m => m | None => 0 end) ds)%Q
    | None => exists d, In d ds /\ kb_max_weight (kbin i (kd_type d)) = None
    end;
  kq_cost : (kc_bin_cost c == qsum (fun d => inject_Z (kd_copies d) * kb_cost (kbin i (kd_type d))) ds)%Q;
  kq_item_volume : kc_item_volume c
    = zsum (fun d => kd_copies d * zsum (fun s => base s * zsum kheight (sd_items s)) (kd_stacks d)) ds;
  kq_item_weight : (kc_item_weight c == qsum (fun d => inject_Z (kd_copies d) * qsum kweight (kd_items d)) ds)%Q;
  kq_item_profit : (kc_item_profit c == qsum (fun d => inject_Z (kd_copies d) * qsum kprofit (kd_items d)) ds)%Q;
  kq_bin_copies : forall t, (t < length (kx_bins i))%nat -> nth t (kc_bin_copies c) 0 = kused t ds;
  kq_item_copies : forall x, (x < length (kx_items i))%nat -> nth x (kc_item_copies c) 0 = kpacked x ds
}.

(** The indicators of a stack: its height, the position of each item (its top is the
    height of the stack made of it and the items below), weights, moments, profit. *)
Record KStackOk (s : KStack) : Prop := {
  so_height : ks_z s = stack_height (sd_items (kview_stack s));
  so_items : forall k p, nth_error (ks_items s) k = Some p ->
    kp_z p + kheight (kp_type p, kp_rot p) = stack_height (firstn (S k) (sd_items (kview_stack s)));
  so_weight : length (ks_weight s) = kgroups i /\
    forall g, (g < kgroups i)%nat -> (nth g (ks_weight s) 0 == gweight g (sd_items (kview_stack s)))%Q;
  so_moment : length (ks_moment s) = kgroups i /\
    forall g, (g < kgroups i)%nat -> (nth g (ks_moment s) 0 == mid (kview_stack s) * gweight g (sd_items (kview_stack s)))%Q;
  so_profit : (ks_profit s == qsum kprofit (sd_items (kview_stack s)))%Q
}.
Record KBinOk (b : KSBin) : Prop := {
  bo_stacks : forall s, In s (kn_stacks b) -> KStackOk s;
  bo_weight : length (kn_weight b) = kgroups i /\
    forall g, (g < kgroups i)%nat -> (nth g (kn_weight b) 0 == bin_gweight g (kview_bin b))%Q;
  bo_moment : length (kn_moment b) = kgroups i /\
    forall g, (g < kgroups i)%nat -> (nth g (kn_moment b) 0 == bin_gmoment g (kview_bin b))%Q;
  bo_profit : (kn_profit b == qsum kprofit (kd_items (kview_bin b)))%Q
}.

(** ** Feasibility *)

Definition kcopies_ok (ds : list KDesc) : Prop :=
  forall x, (x < length (kx_items i))%nat ->
    ki_copies_min (kitem i x) <= kpacked x ds <= ki_copies (kitem i x).

Definition most (q : Q) (m : option Q) : Prop := match m with Some m => (q <= m * PSTOL)%Q | None => True end.

Definition total_ok (d : KDesc) : Prop :=
  most (qsum kweight (kd_items d)) (kb_max_weight (kbin i (kd_type d))).

(** The truck whose load is what remains for group [g] is in equilibrium with axle
    weights that are not too large. *)
Definition axles_ok (d : KDesc) : Prop :=
  let truck := kb_truck (kbin i (kd_type d)) in
  tr_is truck = true -> forall g, (g < kgroups i)%nat -> kcheck_weight i g = true -> ~ (bin_gweight g d == 0)%Q ->
  forall middle rear, balanced truck (bin_gmoment g d) (bin_gweight g d) middle rear ->
    most middle (tr_middle_maximum truck) /\ most rear (tr_rear_maximum truck).

(** The trucks of the instance: the distances that divide are not zero. *)
Definition trucks_ok : Prop := forall bt, In bt (kx_bins i) -> tr_is (kb_truck bt) = true ->
  tr_harness_rear (kb_truck bt) <> 0 /\ tr_front_middle (kb_truck bt) <> 0.

(** Maximum weights are non-negative (a bin that is no truck has zero axle weights). *)
Definition maxima_ok : Prop := forall bt, In bt (kx_bins i) -> tr_is (kb_truck bt) = false ->
  (forall m, tr_middle_maximum (kb_truck bt) = Some m -> (0 <= m)%Q) /\
  (forall m, tr_rear_maximum (kb_truck bt) = Some m -> (0 <= m)%Q).

(** Ids in range. *)
Definition kdesc_ok (d : KDesc) : Prop :=
  (kd_type d < length (kx_bins i))%nat /\ forall p, In p (kd_items d) -> (fst p < length (kx_items i))%nat.

(** Largest coordinate of a bin. *)
Definition far (f : KSDesc -> Z) (d : KDesc) : Z := fold_right Z.max 0 (map f (kd_stacks d)).

(** ** Stacks *)

(** What the parameters of the item types allow: height, density, number of items, and
    for each item the weight of the items above it. *)
Record stack_ok (t : nat) (ps : list (nat * Rotation)) : Prop := {
  sk_height : forall k, (k <= length ps)%nat -> stack_height (firstn k ps) <= v_z (kb_box (kbin i t));
  sk_density : forall d p, kb_max_density (kbin i t) = Some d -> In p ps ->
    (qsum kweight ps <= d * inject_Z (v_x (rotate (ki_box (kitem i (fst p))) (snd p)) * v_y (rotate (ki_box (kitem i (fst p))) (snd p))))%Q;
  sk_number : forall p, In p ps -> Z.of_nat (length ps) <= ki_max_stackability (kitem i (fst p));
  sk_above : forall below p above w, ps = below ++ p :: above -> ki_max_above (kitem i (fst p)) = Some w ->
    (qsum kweight above <= w)%Q
}.

End Spec.

(** ** Geometry *)

(** Stacks on the floor of the bin, apart from each other, not too high. *)
Definition sapart (s1 s2 : KSDesc) : Prop :=
  sd_xe s1 <= sd_x s2 \/ sd_xe s2 <= sd_x s1 \/ sd_ye s1 <= sd_y s2 \/ sd_ye s2 <= sd_y s1.
Record kgeom (i : KInstance) (d : KDesc) : Prop := {
  kg_inside : forall s, In s (kd_stacks d) -> 0 <= sd_x s < sd_xe s /\ sd_xe s <= v_x (kb_box (kbin i (kd_type d)))
    /\ 0 <= sd_y s < sd_ye s /\ sd_ye s <= v_y (kb_box (kbin i (kd_type d)));
  kg_high : forall s, In s (kd_stacks d) -> stack_height i (sd_items s) <= v_z (kb_box (kbin i (kd_type d)));
  kg_apart : ForallOrdPairs sapart (kd_stacks d)
}.

(** Items that are not nested. *)
Definition flat_items (i : KInstance) : Prop := forall it, In it (kx_items i) -> ki_nesting it = 0.
