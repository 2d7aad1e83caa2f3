(** * What a onedimensional packing is, independently of the solution class *)

From Coq Require Import List ZArith QArith Bool.
From Verif Require Import Util Common_Model Common_Spec OneDim_Model.
Import ListNotations.
Open Scope Z_scope.

(** A bin of the solution: type, number of copies, item types in order. *)
Record BinDesc : Type := mkBD { bd_type : nat; bd_copies : Z; bd_items : list nat }.

(** What the getters [bin(bin_pos)] show. *)
Definition view_bin (b : SBin) : BinDesc :=
  mkBD (sb_type b) (sb_copies b) (map si_type (sb_items b)).
Definition view (s : Solution) : list BinDesc := map view_bin (c_bins (s_core s)).

Section Spec.

Variable i : Instance.

Notation len x := (it_length (item_type i x)).
Notation nest x := (it_nesting (item_type i x)).
Notation weight x := (it_weight (item_type i x)).
Notation profit x := (it_profit (item_type i x)).

(** Items follow each other; an item that is not first is pulled back by its
    nesting length. *)
Definition bin_end (items : list nat) : Z :=
  zsum (fun x => len x) items - zsum (fun x => nest x) (tl items).
Definition start_of (before : list nat) (x : nat) : Z :=
  match before with [] => 0 | _ => bin_end before - nest x end.

Definition total_weight (items : list nat) : Q := qsum (fun x => weight x) items.

(** Schedule of item type [x] for a resource. *)
Definition schedule (r : Resource) (x : nat) : list Q := nth x (res_item_consumptions r) [].

(** Consumption of a set of items: for each item type, its first [n] schedule
    entries, [n] being the number of copies in the set. *)
Definition consumption (r : Resource) (items : list nat) : Q :=
  qsum (fun x => schedule_total (schedule r x) (count_occ Nat.eq_dec items x))
    (seq 0 (length (in_item_types i))).

Definition within (q : Q) (maximum : option Q) : Prop :=
  match maximum with None => True | Some m => (q <= m)%Q end.

Definition is_eligible (x t : nat) : Prop :=
  it_eligibility (item_type i x) = -1
  \/ In (it_eligibility (item_type i x)) (bt_eligibility_ids (bin_type i t)).

(** The constraints on one bin.  Lengths, weights and resources are required at
    every point of the loading. *)
Record BinOK (d : BinDesc) : Prop := {
  ok_length : PrefAll (fun p x => start_of p x + len x <= bt_length (bin_type i (bd_type d))) (bd_items d);
  ok_weight : PrefAll (fun p x => within (total_weight (p ++ [x])) (bt_max_weight (bin_type i (bd_type d)))) (bd_items d);
  ok_stackability : forall x, In x (bd_items d) ->
    Z.of_nat (length (bd_items d)) <= it_stackability (item_type i x);
  ok_weight_after : forall a x m b, bd_items d = a ++ x :: m ++ b ->
    within (total_weight m) (it_max_weight_after (item_type i x));
  ok_eligibility : forall x, In x (bd_items d) -> is_eligible x (bd_type d);
  ok_resources : forall r, In r (bt_resources (bin_type i (bd_type d))) -> res_penalize r = false ->
    PrefAll (fun p x => schedule r x <> [] -> (consumption r (p ++ [x]) <= res_capacity r)%Q) (bd_items d)
}.

(** Number of copies of item type [x] packed. *)
Definition packed (x : nat) (ds : list BinDesc) : Z :=
  zsum (fun d => bd_copies d * Z.of_nat (count_occ Nat.eq_dec (bd_items d) x)) ds.

(** Number of bins of type [t]. *)
Definition used_bins (t : nat) (ds : list BinDesc) : Z :=
  zsum (fun d => if Nat.eqb (bd_type d) t then bd_copies d else 0) ds.

(** The constraints [feasible()] stands for, without the user callback. *)
Record PackingOK (ds : list BinDesc) : Prop := {
  ok_bins : forall d, In d ds -> BinOK d;
  ok_copies : forall d x, In d ds -> In x (bd_items d) -> packed x ds <= it_copies (item_type i x);
  ok_copies_min : forall x, (x < length (in_item_types i))%nat ->
    it_copies_min (item_type i x) <= packed x ds
}.

(** Penalties of a bin: each penalised resource whose capacity is exceeded
    costs its penalty once. *)
Definition penalties (d : BinDesc) : Q :=
  qsum (fun r => if res_penalize r && Qltb (res_capacity r) (consumption r (bd_items d))
                 then res_penalty r else 0%Q)
    (bt_resources (bin_type i (bd_type d))).

(** Resources with non-negative capacities and consumptions. *)
Definition sane_resources : Prop :=
  forall bt r, In bt (in_bin_types i) -> In r (bt_resources bt) ->
    (0 <= res_capacity r)%Q /\ forall s q, In s (res_item_consumptions r) -> In q s -> (0 <= q)%Q.

(** Position of the end of the last non-empty bin when bins are laid out one
    after the other. *)
Definition length_is (ds : list BinDesc) (l : Z) : Prop :=
  (l = 0 /\ forall d, In d ds -> bd_items d = []) \/
  (exists pre d post, ds = pre ++ d :: post /\ bd_items d <> [] /\
     (forall d', In d' post -> bd_items d' = []) /\
     l = zsum (fun d => bd_copies d * bt_length (bin_type i (bd_type d))) (pre ++ [d])
         - bt_length (bin_type i (bd_type d)) + bin_end (bd_items d)).

(** The indicators of a solution with bins [ds]. *)
Record Indicators (ds : list BinDesc) (c : Core) : Prop := {
  ind_bins : c_number_of_bins c = zsum bd_copies ds;
  ind_items : c_number_of_items c = zsum (fun d => bd_copies d * Z.of_nat (length (bd_items d))) ds;
  ind_bin_length : c_bin_length c = zsum (fun d => bd_copies d * bt_length (bin_type i (bd_type d))) ds;
  ind_item_length : c_item_length c = zsum (fun d => bd_copies d * zsum (fun x => len x) (bd_items d)) ds;
  ind_cost : (c_bin_cost c == qsum (fun d => inject_Z (bd_copies d) * bt_cost (bin_type i (bd_type d))) ds)%Q;
  ind_profit : sane_resources ->
    (c_item_profit c == qsum (fun d => inject_Z (bd_copies d) * qsum (fun x => profit x) (bd_items d)
                                       - penalties d) ds)%Q;
  ind_bin_copies : forall t, (t < length (in_bin_types i))%nat -> nth t (c_bin_copies c) 0 = used_bins t ds;
  ind_item_copies : forall x, (x < length (in_item_types i))%nat -> nth x (c_item_copies c) 0 = packed x ds;
  ind_length : length_is ds (c_length c)
}.

(** Every item starts where it should; end, weight and resource consumptions of
    the bin are those of its items. *)
Definition positions_ok (b : SBin) : Prop :=
  PrefAll (fun p y => si_start y = start_of (map si_type p) (si_type y)) (sb_items b)
  /\ sb_end b = bin_end (map si_type (sb_items b))
  /\ (sb_weight b == total_weight (map si_type (sb_items b)))%Q
  /\ forall r, (r < length (bt_resources (bin_type i (sb_type b))))%nat ->
       (nth r (sb_resources b) 0 == consumption (nth r (bt_resources (bin_type i (sb_type b))) dummy_resource)
                                      (map si_type (sb_items b)))%Q.

(** Instances with non-negative sizes, weights and limits. *)
Record sane_instance : Prop := {
  sane_res : sane_resources;
  sane_items : forall x, 0 <= len x /\ nest x <= len x /\ (0 <= weight x)%Q
    /\ within 0 (it_max_weight_after (item_type i x));
  sane_bins : forall t, 0 <= bt_length (bin_type i t) /\ within 0 (bt_max_weight (bin_type i t))
}.

(** The same constraints as [BinOK] read on the whole bin only. *)
Record SimpleBinOK (d : BinDesc) : Prop := {
  sok_length : bin_end (bd_items d) <= bt_length (bin_type i (bd_type d));
  sok_weight : within (total_weight (bd_items d)) (bt_max_weight (bin_type i (bd_type d)));
  sok_stackability : forall x, In x (bd_items d) ->
    Z.of_nat (length (bd_items d)) <= it_stackability (item_type i x);
  sok_weight_after : forall a x after, bd_items d = a ++ x :: after ->
    within (total_weight after) (it_max_weight_after (item_type i x));
  sok_eligibility : forall x, In x (bd_items d) -> is_eligible x (bd_type d);
  sok_resources : forall r, In r (bt_resources (bin_type i (bd_type d))) -> res_penalize r = false ->
    (consumption r (bd_items d) <= res_capacity r)%Q
}.

(** No bin type is used before the previous ones are used up. *)
Definition OrderOK (ds : list BinDesc) : Prop :=
  forall t u, (t < u < length (in_bin_types i))%nat -> 0 < used_bins u ds ->
    used_bins t ds = bt_copies (bin_type i t).

End Spec.

(** Well-formedness of a built instance: [resource_ids] lists, for each item
    and bin type, the resources with a schedule for the item. *)
Definition wf_resource_ids (i : Instance) : Prop :=
  forall x t, (x < length (in_item_types i))%nat -> (t < length (in_bin_types i))%nat ->
    NoDup (nth t (it_resource_ids (item_type i x)) []) /\
    forall r, In r (nth t (it_resource_ids (item_type i x)) []) <->
      (r < length (bt_resources (bin_type i t)))%nat
      /\ schedule (nth r (bt_resources (bin_type i t)) dummy_resource) x <> [].

(** ** What the calls of a history ask for *)

(** Builder calls. *)
Fixpoint desc_run (ds : list BinDesc) (calls : list BuilderCall) : list BinDesc :=
  match calls with
  | [] => ds
  | AddBin t copies :: rest => desc_run (ds ++ [mkBD t copies []]) rest
  | AddItem pos id :: rest =>
      desc_run (upd pos (fun d => mkBD (bd_type d) (bd_copies d) (bd_items d ++ [id])) ds) rest
  end.

(** Mapping of ids by [append_bin]. *)
Definition mapped (ids : list nat) (id : nat) : nat :=
  match ids with [] => id | _ => nth id ids 0%nat end.

Definition mapped_desc (bids iids : list nat) (copies : Z) (d : BinDesc) : BinDesc :=
  mkBD (mapped bids (bd_type d)) copies (map (mapped iids) (bd_items d)).

(** Copies given to the calls. *)
Definition call_ok (c : SolutionCall) : Prop :=
  match c with
  | AppendBin _ _ copies _ _ => 0 <= copies
  | AppendBins source _ _ => forall d, In d (view source) -> 0 <= bd_copies d
  | AppendEmptyBin _ copies => 0 <= copies
  end.

(** The bins a call appends. *)
Definition call_bins (c : SolutionCall) : list BinDesc :=
  match c with
  | AppendBin source pos copies bids iids =>
      match nth_error (view source) pos with
      | Some d => [mapped_desc bids iids copies d] | None => [] end
  | AppendBins source bids iids =>
      map (fun d => mapped_desc bids iids (bd_copies d) d) (view source)
  | AppendEmptyBin t copies => [mkBD t copies []]
  end.


(** No call asks for a negative number of copies. *)
Definition copies_nonneg (calls1 : list BuilderCall) (calls2 : list SolutionCall) : Prop :=
  (forall d, In d (desc_run [] calls1) -> 0 <= bd_copies d) /\ (forall c, In c calls2 -> call_ok c).

(** Solutions with non-negative objective values. *)
Definition nonneg_values (s : Solution) : Prop :=
  (0 <= c_item_profit (s_core s))%Q /\ (0 <= c_bin_cost (s_core s))%Q.
