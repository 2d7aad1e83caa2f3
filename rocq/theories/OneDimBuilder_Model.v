(** * Model of the onedimensional instance builder

    [src/onedimensional/instance_builder.cpp].  Not modelled: the files readers
    ([read], [read_bin_types], [read_item_types], [read_parameters]: they only
    call the functions below), item type precedences (:347-372, :437-447,
    :848-854), fixed items (:975-993: no function of this problem type adds
    any), the parameters and the user callback.  Integers do not overflow. *)

From Coq Require Import List ZArith QArith Qminmax Bool.
From Verif Require Import Util Common_Model OneDim_Model.
Import ListNotations.
Open Scope Z_scope.

(** The builder: the data entered so far and, for [add_bin_type] from another
    instance, the map [orig_to_sub_bin_type_ids_] (instance_builder.hpp:246-249).
    [b_objective] is [None] until [set_objective] is called: the field is not
    initialized. *)
Record Builder : Type := mkB {
  b_objective : option Objective;
  b_items : list ItemType;
  b_bins : list BinType;
  b_orig_bins : list (option nat)
}.

Definition b_new : Builder := mkB None [] [] [].

(** Result of a call: normal return, [invalid_argument] thrown, or undefined
    behaviour (out of range access, integer division by zero); with the state
    the builder is left in. *)
Inductive BRes : Type :=
| BOk (b : Builder)
| BThrow (b : Builder)
| BUndef.

Definition bthen (r : BRes) (f : Builder -> BRes) : BRes :=
  match r with BOk b => f b | _ => r end.

(** [id < 0 || id >= size]. *)
Definition bad_id {A : Type} (id : Z) (l : list A) : bool := (id <? 0) || (Z.of_nat (length l) <=? id).

Definition set_items (b : Builder) (l : list ItemType) : Builder := mkB (b_objective b) l (b_bins b) (b_orig_bins b).
Definition set_bins (b : Builder) (l : list BinType) : Builder := mkB (b_objective b) (b_items b) l (b_orig_bins b).

(** Update of one bin (item) type after the range check. *)
Definition on_bin (b : Builder) (id : Z) (f : BinType -> BinType) : BRes :=
  if bad_id id (b_bins b) then BThrow b else BOk (set_bins b (upd (Z.to_nat id) f (b_bins b))).
Definition on_item (b : Builder) (id : Z) (f : ItemType -> ItemType) : BRes :=
  if bad_id id (b_items b) then BThrow b else BOk (set_items b (upd (Z.to_nat id) f (b_items b))).

(** add_bin_type(length), :16-33. *)
Definition b_add_bin (b : Builder) (length : Z) : BRes :=
  if length <=? 0 then BThrow b
  else BOk (set_bins b (b_bins b ++ [mkBT length (inject_Z length) 1 0 None [] [] []])).

(** set_bin_type_cost, :35-55. *)
Definition b_set_bin_cost (b : Builder) (id : Z) (cost : Q) : BRes :=
  if bad_id id (b_bins b) then BThrow b
  else if Qle_bool cost 0 && negb (Qeq_bool cost (-1)) then BThrow b
  else on_bin b id (fun t =>
    mkBT (bt_length t) (if Qeq_bool cost (-1) then inject_Z (bt_length t) else cost)
      (bt_copies t) (bt_copies_min t) (bt_max_weight t) (bt_eligibility_ids t) (bt_resources t) (bt_item_type_ids t)).

(** set_bin_type_maximum_weight, :57-70. *)
Definition b_set_bin_weight (b : Builder) (id : Z) (w : option Q) : BRes :=
  on_bin b id (fun t =>
    mkBT (bt_length t) (bt_cost t) (bt_copies t) (bt_copies_min t) w (bt_eligibility_ids t) (bt_resources t) (bt_item_type_ids t)).

(** add_bin_type_eligibility, :72-85. *)
Definition b_add_eligibility (b : Builder) (id : Z) (e : Z) : BRes :=
  on_bin b id (fun t =>
    mkBT (bt_length t) (bt_cost t) (bt_copies t) (bt_copies_min t) (bt_max_weight t)
      (bt_eligibility_ids t ++ [e]) (bt_resources t) (bt_item_type_ids t)).

Definition with_resources (t : BinType) (l : list Resource) : BinType :=
  mkBT (bt_length t) (bt_cost t) (bt_copies t) (bt_copies_min t) (bt_max_weight t)
    (bt_eligibility_ids t) l (bt_item_type_ids t).

(** add_bin_type_resource, :87-110. *)
Definition b_add_resource (b : Builder) (id : Z) (capacity : Q) (penalize : bool) (penalty : Q) : BRes :=
  on_bin b id (fun t => with_resources t (bt_resources t ++ [mkResource capacity [] penalize penalty])).

(** [vector::resize], growing only. *)
Definition grow {A : Type} (n : nat) (d : A) (l : list A) : list A := l ++ repeat d (n - length l).

(** The end of add_resource_consumption, :144-150. *)
Definition put_consumption (item copy : nat) (q : Q) (r : Resource) : Resource :=
  mkResource (res_capacity r)
    (upd item (fun s => upd copy (fun _ => q) (grow (S copy) 0%Q s)) (grow (S item) [] (res_item_consumptions r)))
    (res_penalize r) (res_penalty r).

(** add_resource_consumption, :112-151.  The item type id is not checked: a
    negative one is an out of range access. *)
Definition b_add_consumption (b : Builder) (id rid item copy : Z) (q : Q) : BRes :=
  if bad_id id (b_bins b) then BThrow b
  else if bad_id rid (bt_resources (nth (Z.to_nat id) (b_bins b) dummy_bin)) then BThrow b
  else if copy <? 0 then BThrow b
  else if item <? 0 then BUndef
  else on_bin b id (fun t =>
    with_resources t (upd (Z.to_nat rid) (put_consumption (Z.to_nat item) (Z.to_nat copy) q) (bt_resources t))).

(** set_bin_type_copies, :193-223. *)
Definition b_set_bin_copies (b : Builder) (id copies : Z) : BRes :=
  if bad_id id (b_bins b) then BThrow b
  else if negb (copies =? -1)
          && ((copies <=? 0) || (copies <? bt_copies_min (nth (Z.to_nat id) (b_bins b) dummy_bin))) then BThrow b
  else on_bin b id (fun t =>
    mkBT (bt_length t) (bt_cost t) copies (bt_copies_min t) (bt_max_weight t)
      (bt_eligibility_ids t) (bt_resources t) (bt_item_type_ids t)).

(** set_bin_type_copies_min, :225-253. *)
Definition b_set_bin_copies_min (b : Builder) (id copies_min : Z) : BRes :=
  if bad_id id (b_bins b) then BThrow b
  else if copies_min <? 0 then BThrow b
  else if negb (bt_copies (nth (Z.to_nat id) (b_bins b) dummy_bin) =? -1)
          && (bt_copies (nth (Z.to_nat id) (b_bins b) dummy_bin) <? copies_min) then BThrow b
  else on_bin b id (fun t =>
    mkBT (bt_length t) (bt_cost t) (bt_copies t) copies_min (bt_max_weight t)
      (bt_eligibility_ids t) (bt_resources t) (bt_item_type_ids t)).

(** set_bin_types_infinite_copies, :255-262. *)
Definition b_bins_infinite (b : Builder) : BRes :=
  BOk (set_bins b (map (fun t =>
    mkBT (bt_length t) (bt_cost t) (-1) (bt_copies_min t) (bt_max_weight t)
      (bt_eligibility_ids t) (bt_resources t) (bt_item_type_ids t)) (b_bins b))).

(** set_bin_types_unweighted, :264-271. *)
Definition b_bins_unweighted (b : Builder) : BRes :=
  BOk (set_bins b (map (fun t =>
    mkBT (bt_length t) (inject_Z (bt_length t)) (bt_copies t) (bt_copies_min t) (bt_max_weight t)
      (bt_eligibility_ids t) (bt_resources t) (bt_item_type_ids t)) (b_bins b))).

(** numeric_limits<ItemPos>::max(), ItemPos is int32_t. *)
Definition max_item_pos : Z := 2147483647.

(** add_item_type(length), :277-287; other fields: defaults of instance.hpp:35-116. *)
Definition b_add_item (b : Builder) (length : Z) : BRes :=
  BOk (set_items b (b_items b ++ [mkIT length (inject_Z length) 1 (-1) 0 0 max_item_pos None (-1) []])).

(** set_item_type_*, :289-345, :450-505. *)
Definition b_set_item_weight (b : Builder) (id : Z) (w : Q) : BRes :=
  on_item b id (fun t => mkIT (it_length t) (it_profit t) (it_copies t) (it_copies_min t) w (it_nesting t)
    (it_stackability t) (it_max_weight_after t) (it_eligibility t) (it_resource_ids t)).
Definition b_set_item_nesting (b : Builder) (id n : Z) : BRes :=
  on_item b id (fun t => mkIT (it_length t) (it_profit t) (it_copies t) (it_copies_min t) (it_weight t) n
    (it_stackability t) (it_max_weight_after t) (it_eligibility t) (it_resource_ids t)).
Definition b_set_item_stackability (b : Builder) (id n : Z) : BRes :=
  on_item b id (fun t => mkIT (it_length t) (it_profit t) (it_copies t) (it_copies_min t) (it_weight t) (it_nesting t)
    n (it_max_weight_after t) (it_eligibility t) (it_resource_ids t)).
Definition b_set_item_weight_after (b : Builder) (id : Z) (w : option Q) : BRes :=
  on_item b id (fun t => mkIT (it_length t) (it_profit t) (it_copies t) (it_copies_min t) (it_weight t) (it_nesting t)
    (it_stackability t) w (it_eligibility t) (it_resource_ids t)).
Definition b_set_item_eligibility (b : Builder) (id e : Z) : BRes :=
  on_item b id (fun t => mkIT (it_length t) (it_profit t) (it_copies t) (it_copies_min t) (it_weight t) (it_nesting t)
    (it_stackability t) (it_max_weight_after t) e (it_resource_ids t)).
Definition b_set_item_profit (b : Builder) (id : Z) (p : Q) : BRes :=
  on_item b id (fun t => mkIT (it_length t) p (it_copies t) (it_copies_min t) (it_weight t) (it_nesting t)
    (it_stackability t) (it_max_weight_after t) (it_eligibility t) (it_resource_ids t)).

(** set_item_type_copies, :465-485. *)
Definition b_set_item_copies (b : Builder) (id copies : Z) : BRes :=
  if bad_id id (b_items b) then BThrow b
  else if negb (copies =? -1) && (copies <=? 0) then BThrow b
  else on_item b id (fun t => mkIT (it_length t) (it_profit t) copies (it_copies_min t) (it_weight t) (it_nesting t)
    (it_stackability t) (it_max_weight_after t) (it_eligibility t) (it_resource_ids t)).

(** set_item_type_copies_min, :487-505. *)
Definition b_set_item_copies_min (b : Builder) (id copies_min : Z) : BRes :=
  if bad_id id (b_items b) then BThrow b
  else if copies_min <? -1 then BThrow b
  else on_item b id (fun t => mkIT (it_length t) (it_profit t) (it_copies t) copies_min (it_weight t) (it_nesting t)
    (it_stackability t) (it_max_weight_after t) (it_eligibility t) (it_resource_ids t)).

(** set_item_types_unweighted, :507-514. *)
Definition b_items_unweighted (b : Builder) : BRes :=
  BOk (set_items b (map (fun t =>
    mkIT (it_length t) (inject_Z (it_length t)) (it_copies t) (it_copies_min t) (it_weight t) (it_nesting t)
      (it_stackability t) (it_max_weight_after t) (it_eligibility t) (it_resource_ids t)) (b_items b))).

(** compute_bin_types_length_max, :516-527. *)
Definition length_max (bins : list BinType) : Z := fold_left (fun m t => Z.max m (bt_length t)) bins 0.

(** [(bin_types_length_max - 1) / item_type.length + 1]. *)
Definition infinite_copies (lmax : Z) (t : ItemType) : Z := Z.quot (lmax - 1) (it_length t) + 1.

(** set_item_types_infinite_copies, :529-539; division by zero when a length
    is 0. *)
Definition b_items_infinite (b : Builder) : BRes :=
  if existsb (fun t => it_length t =? 0) (b_items b) then BUndef
  else BOk (set_items b (map (fun t =>
    mkIT (it_length t) (it_profit t) (infinite_copies (length_max (b_bins b)) t) (it_copies_min t) (it_weight t) (it_nesting t)
      (it_stackability t) (it_max_weight_after t) (it_eligibility t) (it_resource_ids t)) (b_items b))).

(** add_bin_type(original_instance, id), :153-191. *)
Definition b_copy_bin (b : Builder) (i : Instance) (oid : nat) : BRes :=
  match nth_error (in_bin_types i) oid with
  | None => BUndef
  | Some t =>
      let id := length (b_bins b) in
      let zid := Z.of_nat id in
      bthen (b_add_bin b (bt_length t)) (fun b =>
      let b := mkB (b_objective b) (b_items b) (b_bins b)
                 (upd oid (fun _ => Some id) (grow (S oid) None (b_orig_bins b))) in
      bthen (b_set_bin_cost b zid (bt_cost t)) (fun b =>
      bthen (b_set_bin_copies b zid (bt_copies t)) (fun b =>
      bthen (b_set_bin_copies_min b zid (bt_copies_min t)) (fun b =>
      bthen (b_set_bin_weight b zid (bt_max_weight t)) (fun b =>
      bthen (fold_left (fun r e => bthen r (fun b => b_add_eligibility b zid e)) (bt_eligibility_ids t) (BOk b)) (fun b =>
      fold_left (fun r res => bthen r (fun b => b_add_resource b zid (res_capacity res) (res_penalize res) (res_penalty res)))
        (bt_resources t) (BOk b)))))))
  end.

(** The copy of one schedule, :421-431. *)
Definition b_copy_schedule (b : Builder) (zid rid item : Z) (s : list Q) : BRes :=
  fold_left (fun r kq => bthen r (fun b => b_add_consumption b zid rid item (fst kq) (snd kq)))
    (combine (map Z.of_nat (seq 0 (length s))) s) (BOk b).

(** The resources of one bin type, :411-432. *)
Definition b_copy_resources (b : Builder) (zid item : Z) (oitem : nat) (rs : list Resource) : BRes :=
  fold_left (fun r kres => bthen r (fun b =>
      if (oitem <? length (res_item_consumptions (snd kres)))%nat
      then b_copy_schedule b zid (fst kres) item (nth oitem (res_item_consumptions (snd kres)) [])
      else BOk b))
    (combine (map Z.of_nat (seq 0 (length rs))) rs) (BOk b).

(** add_item_type(original_instance, id), :374-448, without the precedences.
    [copies_min] is not copied. *)
Definition b_copy_item (b : Builder) (i : Instance) (oid : nat) : BRes :=
  match nth_error (in_item_types i) oid with
  | None => BUndef
  | Some t =>
      let id := Z.of_nat (length (b_items b)) in
      bthen (b_add_item b (it_length t)) (fun b =>
      bthen (b_set_item_profit b id (it_profit t)) (fun b =>
      bthen (b_set_item_copies b id (it_copies t)) (fun b =>
      bthen (b_set_item_weight b id (it_weight t)) (fun b =>
      bthen (b_set_item_nesting b id (it_nesting t)) (fun b =>
      bthen (b_set_item_stackability b id (it_stackability t)) (fun b =>
      bthen (b_set_item_weight_after b id (it_max_weight_after t)) (fun b =>
      bthen (b_set_item_eligibility b id (it_eligibility t)) (fun b =>
      fold_left (fun r ko => bthen r (fun b =>
          match snd ko with
          | None => BOk b
          | Some sub =>
              match nth_error (in_bin_types i) (fst ko) with
              | None => BUndef
              | Some obt => b_copy_resources b (Z.of_nat sub) id oid (bt_resources obt)
              end
          end))
        (combine (seq 0 (length (b_orig_bins b))) (b_orig_bins b)) (BOk b)))))))))
  end.

(** The calls of the public interface. *)
Inductive BCall : Type :=
| SetObjective (o : Objective)
| AddBinType (length : Z)
| SetBinCost (id : Z) (cost : Q)
| SetBinMaxWeight (id : Z) (w : option Q)
| AddBinEligibility (id e : Z)
| AddBinResource (id : Z) (capacity : Q) (penalize : bool) (penalty : Q)
| AddConsumption (id rid item copy : Z) (q : Q)
| SetBinCopies (id copies : Z)
| SetBinCopiesMin (id copies_min : Z)
| SetBinsInfinite
| SetBinsUnweighted
| AddItemType (length : Z)
| SetItemWeight (id : Z) (w : Q)
| SetItemNesting (id n : Z)
| SetItemStackability (id n : Z)
| SetItemWeightAfter (id : Z) (w : option Q)
| SetItemEligibility (id e : Z)
| SetItemProfit (id : Z) (p : Q)
| SetItemCopies (id copies : Z)
| SetItemCopiesMin (id copies_min : Z)
| SetItemsUnweighted
| SetItemsInfinite
| CopyBinType (i : Instance) (id : nat)
| CopyItemType (i : Instance) (id : nat).

Definition bstep (b : Builder) (c : BCall) : BRes :=
  match c with
  | SetObjective o => BOk (mkB (Some o) (b_items b) (b_bins b) (b_orig_bins b))
  | AddBinType l => b_add_bin b l
  | SetBinCost id q => b_set_bin_cost b id q
  | SetBinMaxWeight id w => b_set_bin_weight b id w
  | AddBinEligibility id e => b_add_eligibility b id e
  | AddBinResource id q p y => b_add_resource b id q p y
  | AddConsumption id rid x k q => b_add_consumption b id rid x k q
  | SetBinCopies id n => b_set_bin_copies b id n
  | SetBinCopiesMin id n => b_set_bin_copies_min b id n
  | SetBinsInfinite => b_bins_infinite b
  | SetBinsUnweighted => b_bins_unweighted b
  | AddItemType l => b_add_item b l
  | SetItemWeight id w => b_set_item_weight b id w
  | SetItemNesting id n => b_set_item_nesting b id n
  | SetItemStackability id n => b_set_item_stackability b id n
  | SetItemWeightAfter id w => b_set_item_weight_after b id w
  | SetItemEligibility id e => b_set_item_eligibility b id e
  | SetItemProfit id p => b_set_item_profit b id p
  | SetItemCopies id n => b_set_item_copies b id n
  | SetItemCopiesMin id n => b_set_item_copies_min b id n
  | SetItemsUnweighted => b_items_unweighted b
  | SetItemsInfinite => b_items_infinite b
  | CopyBinType i id => b_copy_bin b i id
  | CopyItemType i id => b_copy_item b i id
  end.

(** A caller that catches the exceptions and goes on; [None] after undefined
    behaviour. *)
Definition brun (calls : list BCall) : option Builder :=
  fold_left (fun ob c => match ob with
    | None => None
    | Some b => match bstep b c with BOk b' | BThrow b' => Some b' | BUndef => None end
    end) calls (Some b_new).

(** ** build, :839-997 *)

(** Resolution of copies_min, :863-867. *)
Definition resolve_min (o : Objective) (t : ItemType) : ItemType :=
  mkIT (it_length t) (it_profit t) (it_copies t)
    (if it_copies_min t =? -1 then (match o with OKnapsack => 0 | _ => it_copies t end) else it_copies_min t)
    (it_weight t) (it_nesting t) (it_stackability t) (it_max_weight_after t) (it_eligibility t) (it_resource_ids t).

(** :884-890, exact division; only reached with non-zero lengths, see
    [b_build]. *)
Definition efficiency (t : ItemType) : Q := (it_profit t / inject_Z (it_length t))%Q.
Definition best_efficiency (items : list ItemType) : option nat :=
  fold_left (fun best k =>
      match best with
      | None => Some k
      | Some j => if Qltb (efficiency (nth j items dummy_item)) (efficiency (nth k items dummy_item)) then Some k else best
      end) (seq 0 (length items)) None.

(** Resolution of the copies of a bin type, :921-922. *)
Definition resolve_copies (n : Z) (t : BinType) : BinType :=
  mkBT (bt_length t) (bt_cost t) (if bt_copies t =? -1 then n else bt_copies t) (bt_copies_min t)
    (bt_max_weight t) (bt_eligibility_ids t) (bt_resources t) (bt_item_type_ids t).

(** bin_type_ids_ and previous_bins_length_, :926-930. *)
Definition expand_bins (bins : list BinType) : list nat * list Z * Z :=
  fold_left (fun acc k =>
      let t := nth k bins dummy_bin in
      fold_left (fun acc _ =>
          let '(ids, prev, p) := acc in (ids ++ [k], prev ++ [p], p + bt_length t))
        (repeat tt (Z.to_nat (bt_copies t))) acc)
    (seq 0 (length bins)) ([], [], 0).

(** bin_type.item_type_ids, :936-953. *)
Definition with_item_ids (items : list ItemType) (t : BinType) : BinType :=
  mkBT (bt_length t) (bt_cost t) (bt_copies t) (bt_copies_min t) (bt_max_weight t) (bt_eligibility_ids t) (bt_resources t)
    (filter (fun x => eligible (nth x items dummy_item) t) (seq 0 (length items))).

(** item_type.resource_ids, :955-979. *)
Definition resource_ids_of (bins : list BinType) (x : nat) : list (list nat) :=
  map (fun t => filter (fun r =>
      match nth x (res_item_consumptions (nth r (bt_resources t) dummy_resource)) [] with [] => false | _ => true end)
    (seq 0 (length (bt_resources t)))) bins.
Definition with_resource_ids (bins : list BinType) (x : nat) (t : ItemType) : ItemType :=
  mkIT (it_length t) (it_profit t) (it_copies t) (it_copies_min t) (it_weight t) (it_nesting t)
    (it_stackability t) (it_max_weight_after t) (it_eligibility t) (resource_ids_of bins x).

Inductive BuildRes : Type :=
| Built (i : Instance)
| BuildThrow
| BuildUndef.

Definition b_build (b : Builder) : BuildRes :=
  match b_objective b with
  | None => BuildUndef
  | Some o =>
      let lmax := length_max (b_bins b) in
      let items := map (resolve_min o) (b_items b) in
      (* the loop :860-898 stops at the first item type that throws (test of
         copies_min) or whose length is 0 (integer division) *)
      match find (fun t => (it_copies t <? it_copies_min t) || (it_length t =? 0)) items with
      | Some t => if it_copies t <? it_copies_min t then BuildThrow else BuildUndef
      | None =>
          let number_of_items := fold_left (fun n t => n + it_copies t) items 0 in
          if existsb (fun t => match o with OBinPacking => 0 <? bt_copies_min t | _ => false end) (b_bins b)
          then BuildThrow
          else if existsb (fun t => existsb (fun r => existsb (fun x =>
                   match nth x (res_item_consumptions r) [] with [] => false | _ => true end)
                   (seq (length items) (length (res_item_consumptions r) - length items))) (bt_resources t)) (b_bins b)
          then BuildUndef (* :971-972 with an item type id out of range *)
          else
            let bins := map (with_item_ids items) (map (resolve_copies number_of_items) (b_bins b)) in
            let '(ids, prev, _) := expand_bins bins in
            Built (mkInst o
              (map (fun x => with_resource_ids bins x (nth x items dummy_item)) (seq 0 (length items)))
              bins ids prev
              (fold_left (fun n t => n + bt_copies t * bt_length t) bins 0)
              (fold_left (fun m t => if Qltb m (bt_cost t) then bt_cost t else m) bins 0%Q)
              number_of_items
              (fold_left (fun n t => n + it_copies t * it_length t) items 0)
              (fold_left (fun n t => (n + inject_Z (it_copies t) * it_profit t)%Q) items 0%Q)
              (fold_left (fun m t => if Qltb m (it_profit t) then it_profit t else m) items 0%Q)
              (best_efficiency items)
              (fold_left (fun m t => if m <? it_copies t then it_copies t else m) items 0)
              (forallb (fun t => negb (it_copies t <? infinite_copies lmax t)) items))
      end
  end.
