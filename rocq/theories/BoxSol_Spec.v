(** * What the indicators of a box solution mean *)

From Coq Require Import List ZArith QArith Bool.
From Verif Require Import Util Common_Model OneDim_Model Box_Model Box_Spec BoxSol_Model.
Import ListNotations.
Open Scope Z_scope.

(** What the getters [bin(bin_pos)] show. *)
Definition xview_bin (b : XSBin) : XDesc := mkXD (xs_type b) (xs_copies b) (xs_items b).
Definition xview (s : XSolution) : list XDesc := map xview_bin (xc_bins (xsol_core s)).

(** ** What the calls of a history ask for *)

Fixpoint xdesc_run (ds : list XDesc) (calls : list XBuilderCall) : list XDesc :=
  match calls with
  | [] => ds
  | XAddBin t copies :: rest => xdesc_run (ds ++ [mkXD t copies []]) rest
  | XAddItem pos p :: rest =>
      xdesc_run (upd pos (fun d => mkXD (xd_type d) (xd_copies d) (xd_items d ++ [p])) ds) rest
  end.

Definition xmapped (ids : list nat) (id : nat) : nat :=
  match ids with [] => id | _ => nth id ids 0%nat end.
Definition xmapped_desc (bids iids : list nat) (copies : Z) (d : XDesc) : XDesc :=
  mkXD (xmapped bids (xd_type d)) copies
    (map (fun p => mkBP (xmapped iids (bp_type p)) (bp_pos p) (bp_rot p)) (xd_items d)).

Definition xcall_bins (c : XSolutionCall) : list XDesc :=
  match c with
  | XAppendBin source pos copies bids iids =>
      match nth_error (xview source) pos with
      | Some d => [xmapped_desc bids iids copies d] | None => [] end
  | XAppendBins source bids iids =>
      map (fun d => xmapped_desc bids iids (xd_copies d) d) (xview source)
  | XAppendEmpty t copies => [mkXD t copies []]
  end.

(** Copies given to the calls. *)
Definition xcopies_nonneg (calls1 : list XBuilderCall) (calls2 : list XSolutionCall) : Prop :=
  forall d, In d (xdesc_run [] calls1 ++ flat_map xcall_bins calls2) -> 0 <= xd_copies d.

Section Spec.

Variable i : BInstance.

(** Well-formedness of a built instance: [resource_ids] lists, for each item
    and bin type, the resources with a schedule for the item
    (/repo/src/box/instance_builder.cpp:1005-1028). *)
Definition xwf_resources : Prop :=
  forall x t, (x < length (bx_items i))%nat -> (t < length (bx_bins i))%nat ->
    NoDup (nth t (bi_resource_ids (bxitem i x)) []) /\
    forall r, In r (nth t (bi_resource_ids (bxitem i x)) []) <->
      (r < length (bn_resources (bxbin i t)))%nat
      /\ nth x (res_item_consumptions (nth r (bn_resources (bxbin i t)) dummy_resource)) [] <> [].

(** Non-negative capacities and consumptions. *)
Definition xsane_resources : Prop :=
  forall bt r, In bt (bx_bins i) -> In r (bn_resources bt) ->
    (0 <= res_capacity r)%Q /\ forall s q, In s (res_item_consumptions r) -> In q s -> (0 <= q)%Q.

(** The indicators of a solution with bins [ds]. *)
Record XIndicators (ds : list XDesc) (c : XCore) : Prop := {
  xi_bins : xc_number_of_bins c = zsum xd_copies ds;
  xi_nitems : xc_number_of_items c = zsum (fun d => xd_copies d * Z.of_nat (length (xd_items d))) ds;
  xi_bin_volume : xc_bin_volume c
    = zsum (fun d => xd_copies d * bn_vol (bxbin i (xd_type d))) ds;
  xi_item_volume : xc_item_volume c
    = zsum (fun d => xd_copies d * zsum (fun p => bi_vol (bxitem i (bp_type p))) (xd_items d)) ds;
  xi_bin_area : xc_bin_area c
    = zsum (fun d => xd_copies d * (v_x (bn_box (bxbin i (xd_type d))) * v_y (bn_box (bxbin i (xd_type d))))) ds;
  xi_bin_weight : match xc_bin_weight c with
    | Some w => (forall d, In d ds -> bn_max_weight (bxbin i (xd_type d)) <> None) /\
        (w == qsum (fun d => inject_Z (xd_copies d)
            * match bn_max_weight (bxbin i (xd_type d)) with Some m => m | None => 0 end) ds)%Q
    | None => exists d, In d ds /\ bn_max_weight (bxbin i (xd_type d)) = None
    end;
  xi_cost : (xc_bin_cost c == qsum (fun d => inject_Z (xd_copies d) * bn_cost (bxbin i (xd_type d))) ds)%Q;
  xi_item_weight : (xc_item_weight c
    == qsum (fun d => inject_Z (xd_copies d) * qsum (fun p => bi_weight (bxitem i (bp_type p))) (xd_items d)) ds)%Q;
  xi_net : xsane_resources -> (xc_item_profit c == bnet_profit i ds)%Q;
  xi_bin_copies : forall t, (t < length (bx_bins i))%nat -> nth t (xc_bin_copies c) 0 = bused_bins t ds;
  xi_item_copies : forall x, (x < length (bx_items i))%nat -> nth x (xc_item_copies c) 0 = bpacked x ds
}.

(** Weight and profit of each bin. *)
Definition xeach (c : XCore) : Prop := forall b, In b (xc_bins c) ->
  (xs_weight b == qsum (fun p => bi_weight (bxitem i (bp_type p))) (xs_items b)
   /\ xs_profit b == qsum (fun p => bi_profit (bxitem i (bp_type p))) (xs_items b))%Q.

(** Capacity constraints of the resources without penalty, at every point of
    the loading ... *)
Definition xresources_ok (d : XDesc) : Prop :=
  forall r, In r (bn_resources (bxbin i (xd_type d))) -> res_penalize r = false ->
    PrefAll (fun before p => nth (bp_type p) (res_item_consumptions r) [] <> [] ->
      (bconsumption i r (before ++ [p]) <= res_capacity r)%Q) (xd_items d).
(** ... and for the whole bin. *)
Definition xresources_ok_end (d : XDesc) : Prop :=
  forall r, In r (bn_resources (bxbin i (xd_type d))) -> res_penalize r = false ->
    (bconsumption i r (xd_items d) <= res_capacity r)%Q.

(** Numbers of copies. *)
Definition xcopies_ok (ds : list XDesc) : Prop :=
  forall x, (x < length (bx_items i))%nat ->
    bi_copies_min (bxitem i x) <= bpacked x ds <= bi_copies (bxitem i x).


End Spec.
