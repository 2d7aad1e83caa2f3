(** * What the indicators of an irregular solution mean *)

From Coq Require Import List ZArith QArith Bool.
From Verif Require Import Util Common_Model Common_Spec OneDim_Model Irr_Model.
Import ListNotations.
Open Scope Z_scope.

(** What the getters [bin(bin_pos)] show. *)
Record IrDesc : Type := mkIrD { ird_type : nat; ird_copies : Z; ird_items : list IrPlace }.
Definition irview_bin (b : IrSBin) : IrDesc := mkIrD (irs_type b) (irs_copies b) (irs_items b).
Definition irview (s : IrSolution) : list IrDesc := map irview_bin (irc_bins (irsol_core s)).

(** ** What the calls of a history ask for *)

Fixpoint irdesc_run (ds : list IrDesc) (calls : list IrBuilderCall) : list IrDesc :=
  match calls with
  | [] => ds
  | IrAddBin t copies :: rest => irdesc_run (ds ++ [mkIrD t copies []]) rest
  | IrAddItem pos p :: rest =>
      irdesc_run (upd pos (fun d => mkIrD (ird_type d) (ird_copies d) (ird_items d ++ [p])) ds) rest
  end.

Definition irmapped (ids : list nat) (id : nat) : nat :=
  match ids with [] => id | _ => nth id ids 0%nat end.
Definition irmapped_desc (bids iids : list nat) (copies : Z) (d : IrDesc) : IrDesc :=
  mkIrD (irmapped bids (ird_type d)) copies
    (map (fun p => mkIrP (irmapped iids (ip_type p)) (ip_x p) (ip_y p) (ip_angle p) (ip_mirror p) (ip_fixed p)) (ird_items d)).

Definition ircall_bins (c : IrSolutionCall) : list IrDesc :=
  match c with
  | IrAppendBin source pos copies bids iids =>
      match nth_error (irview source) pos with
      | Some d => [irmapped_desc bids iids copies d] | None => [] end
  | IrAppendBins source bids iids =>
      map (fun d => irmapped_desc bids iids (ird_copies d) d) (irview source)
  | IrAppendEmpty t copies => [mkIrD t copies []]
  end.

(** Copies given to the calls. *)
Definition ircopies_nonneg (calls1 : list IrBuilderCall) (calls2 : list IrSolutionCall) : Prop :=
  forall d, In d (irdesc_run [] calls1 ++ flat_map ircall_bins calls2) -> 0 <= ird_copies d.

Section Spec.

Variable i : IrInstance.

Definition ircount (x : nat) (ps : list IrPlace) : Z :=
  Z.of_nat (length (filter (fun p => Nat.eqb (ip_type p) x) ps)).
Definition irpacked (x : nat) (ds : list IrDesc) : Z := zsum (fun d => ird_copies d * ircount x (ird_items d)) ds.
Definition irused_bins (t : nat) (ds : list IrDesc) : Z :=
  zsum (fun d => if Nat.eqb (ird_type d) t then ird_copies d else 0) ds.

Definition irprofit (ds : list IrDesc) : Q :=
  qsum (fun d => (inject_Z (ird_copies d) * qsum (fun p => ii_profit (iritem i (ip_type p))) (ird_items d))%Q) ds.
(** Area of the items of a bin. *)
Definition irarea (ps : list IrPlace) : Q := qsum (fun p => ii_area (iritem i (ip_type p))) ps.

(** Consumption of a resource by the items of a bin: for each item type, its
    first [n] schedule entries, [n] being the number of copies in the bin. *)
Definition irconsumption (r : Resource) (ps : list IrPlace) : Q :=
  qsum (fun x => schedule_total (nth x (res_item_consumptions r) []) (Z.to_nat (ircount x ps)))
    (seq 0 (length (ir_items i))).

(** Every penalized resource used above its capacity in a bin of the solution
    costs its penalty once. *)
Definition irpenalties (d : IrDesc) : Q :=
  qsum (fun r => if res_penalize r && Qltb (res_capacity r) (irconsumption r (ird_items d)) then res_penalty r else 0%Q)
    (ib_resources (irbin i (ird_type d))).

(** The profit the objective counts. *)
Definition irnet_profit (ds : list IrDesc) : Q := (irprofit ds - qsum irpenalties ds)%Q.

(** Well-formedness of a built instance: [resource_ids] lists, for each item
    and bin type, the resources with a schedule for the item. *)
Definition irwf_resources : Prop :=
  forall x t, (x < length (ir_items i))%nat -> (t < length (ir_bins i))%nat ->
    NoDup (nth t (ii_resource_ids (iritem i x)) []) /\
    forall r, In r (nth t (ii_resource_ids (iritem i x)) []) <->
      (r < length (ib_resources (irbin i t)))%nat
      /\ nth x (res_item_consumptions (nth r (ib_resources (irbin i t)) dummy_resource)) [] <> [].

(** Non-negative capacities and consumptions. *)
Definition irsane_resources : Prop :=
  forall bt r, In bt (ir_bins i) -> In r (ib_resources bt) ->
    (0 <= res_capacity r)%Q /\ forall s q, In s (res_item_consumptions r) -> In q s -> (0 <= q)%Q.

(** The indicators of a solution with bins [ds]. *)
Record IrIndicators (ds : list IrDesc) (c : IrCore) : Prop := {
  iri_bins : irc_number_of_bins c = zsum ird_copies ds;
  iri_nitems : irc_number_of_items c = zsum (fun d => ird_copies d * Z.of_nat (length (ird_items d))) ds;
  iri_bin_area : (irc_bin_area c == qsum (fun d => inject_Z (ird_copies d) * ib_area (irbin i (ird_type d))) ds)%Q;
  iri_item_area : (irc_item_area c == qsum (fun d => inject_Z (ird_copies d) * irarea (ird_items d)) ds)%Q;
  iri_cost : (irc_bin_cost c == qsum (fun d => inject_Z (ird_copies d) * ib_cost (irbin i (ird_type d))) ds)%Q;
  iri_net : irsane_resources -> (irc_item_profit c == irnet_profit ds)%Q;
  iri_bin_copies : forall t, (t < length (ir_bins i))%nat -> nth t (irc_bin_copies c) 0 = irused_bins t ds;
  iri_item_copies : forall x, (x < length (ir_items i))%nat -> nth x (irc_item_copies c) 0 = irpacked x ds
}.

(** Smallest and largest value of [f] on a list. *)
Definition LeastOf (f : IrPlace -> Q) (ps : list IrPlace) (v : option Q) : Prop :=
  match v with
  | None => ps = []
  | Some q => (exists p, In p ps /\ f p == q)%Q /\ forall p, In p ps -> (q <= f p)%Q
  end.
Definition LargestOf (f : IrPlace -> Q) (ps : list IrPlace) (v : option Q) : Prop :=
  match v with
  | None => ps = []
  | Some q => (exists p, In p ps /\ f p == q)%Q /\ forall p, In p ps -> (f p <= q)%Q
  end.

(** Bounding box of a placed item. *)
Definition place_box (p : IrPlace) : IrBox :=
  let b := ii_aabb (iritem i (ip_type p)) (ip_angle p) (ip_mirror p) in
  mkIrBox (ip_x p + ix_min b) (ip_x p + ix_max b) (ip_y p + iy_min b) (ip_y p + iy_max b).

(** The bounds [e] are those of the items [ps]. *)
Definition ExtOf (ps : list IrPlace) (e : IrExt) : Prop :=
  LeastOf (fun p => ix_min (place_box p)) ps (ie_xmin e) /\
  LargestOf (fun p => ix_max (place_box p)) ps (ie_xmax e) /\
  LeastOf (fun p => iy_min (place_box p)) ps (ie_ymin e) /\
  LargestOf (fun p => iy_max (place_box p)) ps (ie_ymax e).

(** Item area and bounds of each bin. *)
Definition ireach (c : IrCore) : Prop := forall b, In b (irc_bins c) ->
  (irs_area b == irarea (irs_items b))%Q /\ ExtOf (irs_items b) (irs_ext b).

(** Capacity constraints of the resources without penalty, at every point of
    the loading ... *)
Definition irresources_ok (d : IrDesc) : Prop :=
  forall r, In r (ib_resources (irbin i (ird_type d))) -> res_penalize r = false ->
    PrefAll (fun before p => nth (ip_type p) (res_item_consumptions r) [] <> [] ->
      (irconsumption r (before ++ [p]) <= res_capacity r)%Q) (ird_items d).
(** ... and for the whole bin. *)
Definition irresources_ok_end (d : IrDesc) : Prop :=
  forall r, In r (ib_resources (irbin i (ird_type d))) -> res_penalize r = false ->
    (irconsumption r (ird_items d) <= res_capacity r)%Q.

(** Numbers of copies. *)
Definition ircopies_ok (ds : list IrDesc) : Prop :=
  forall x, (x < length (ir_items i))%nat ->
    ii_copies_min (iritem i x) <= irpacked x ds <= ii_copies (iritem i x).

(** ** Boxes *)

Definition box_area (b : IrBox) : Q := ((ix_max b - ix_min b) * (iy_max b - iy_min b))%Q.
(** [b] is inside [c]. *)
Definition box_in (b c : IrBox) : Prop :=
  (ix_min c <= ix_min b /\ ix_max b <= ix_max c /\ iy_min c <= iy_min b /\ iy_max b <= iy_max c)%Q.
Definition box_proper (b : IrBox) : Prop := (ix_min b <= ix_max b /\ iy_min b <= iy_max b)%Q.

(** The rectangle [r] lies against the sides of [b] named by the mode: the two
    sides of a corner, or one side and the whole length along it. *)
Definition anchored (m : LeftoverMode) (b r : IrBox) : Prop :=
  match m with
  | LBottomLeft => (ix_min r == ix_min b /\ iy_min r == iy_min b)%Q
  | LBottomRight => (ix_max r == ix_max b /\ iy_min r == iy_min b)%Q
  | LTopLeft => (ix_min r == ix_min b /\ iy_max r == iy_max b)%Q
  | LTopRight => (ix_max r == ix_max b /\ iy_max r == iy_max b)%Q
  | LLeft => (ix_min r == ix_min b /\ iy_min r == iy_min b /\ iy_max r == iy_max b)%Q
  | LRight => (ix_max r == ix_max b /\ iy_min r == iy_min b /\ iy_max r == iy_max b)%Q
  | LBottom => (iy_min r == iy_min b /\ ix_min r == ix_min b /\ ix_max r == ix_max b)%Q
  | LTop => (iy_max r == iy_max b /\ ix_min r == ix_min b /\ ix_max r == ix_max b)%Q
  end.

(** [v] is the area of the box [b] outside the smallest rectangle of [b] placed as the
    mode says and holding all the boxes [bs]. *)
Definition LeftoverOf (m : LeftoverMode) (b : IrBox) (bs : list IrBox) (v : Q) : Prop :=
  (exists r, anchored m b r /\ box_in r b /\ (forall c, In c bs -> box_in c r) /\ (v == box_area b - box_area r)%Q) /\
  forall r, anchored m b r -> box_in r b -> (forall c, In c bs -> box_in c r) -> (box_area b - box_area r <= v)%Q.

End Spec.
