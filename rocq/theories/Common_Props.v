(** * Properties of the common module (C01 - C05, C07, C08) *)

From Coq Require Import Ascii String List ZArith QArith Bool Sorted Lia Arith.
From Verif Require Import Common_Model Common_Spec Common_Proof.
Import ListNotations.
Open Scope Q_scope.

(** ** C01: comparators *)

(** On non-negative values the profit comparator is "v2 is below v1 by more
    than the relative tolerance": a strict order finer than [<]. *)
Theorem C01_profit_comparator :
  (forall v1 v2, 0 <= v1 -> 0 <= v2 ->
     (strictly_greater_profit v1 v2 = true <-> v2 < (1 - tol) * v1)) /\
  (forall v, strictly_greater_profit v v = false) /\
  (forall a b, 0 <= a -> 0 <= b ->
     strictly_greater_profit a b = true -> strictly_greater_profit b a = false) /\
  (forall a b c, 0 <= a -> 0 <= b -> 0 <= c ->
     strictly_greater_profit a b = true -> strictly_greater_profit b c = true ->
     strictly_greater_profit a c = true) /\
  (forall a b, 0 <= a -> 0 <= b -> strictly_greater_profit a b = true -> b < a).
Proof. exact (conj sgp_iff (conj sgp_irrefl (conj sgp_asym (conj sgp_trans sgp_sound)))). Qed.
Print Assumptions C01_profit_comparator.

Example C01_profit_example :
  strictly_greater_profit 10 9 = true /\ strictly_greater_profit (10 + (1 # 1000000)) 10 = false.
Proof. vm_compute. auto. Qed.

Theorem C01_cost_comparator :
  (forall v1 v2, 0 <= v1 -> 0 <= v2 ->
     (strictly_greater_cost v1 v2 = true
      <-> (v2 == 0 /\ tol < v1) \/ (0 < v2 /\ (1 + tol) * v2 < v1))) /\
  (forall v, strictly_greater_cost v v = false) /\
  (forall a b, 0 <= a -> 0 <= b ->
     strictly_greater_cost a b = true -> strictly_greater_cost b a = false) /\
  (forall a b c, 0 <= a -> 0 <= b -> 0 <= c ->
     strictly_greater_cost a b = true -> strictly_greater_cost b c = true ->
     strictly_greater_cost a c = true) /\
  (forall a b, 0 <= a -> 0 <= b -> strictly_greater_cost a b = true -> b < a).
Proof. exact (conj sgc_iff (conj sgc_irrefl (conj sgc_asym (conj sgc_trans sgc_sound)))). Qed.
Print Assumptions C01_cost_comparator.

Example C01_cost_example :
  strictly_greater_cost 10 9 = true /\ strictly_greater_cost 0 1 = false
  /\ strictly_greater_cost 1 0 = true.
Proof. vm_compute. auto. Qed.

(** Absolute comparators: exactly one verdict for every pair. *)
Theorem C01_absolute_trichotomy : forall a b,
  strictly_lesser a b = true /\ strictly_greater a b = false /\ equal_abs a b = false
  \/ strictly_lesser a b = false /\ strictly_greater a b = true /\ equal_abs a b = false
  \/ strictly_lesser a b = false /\ strictly_greater a b = false /\ equal_abs a b = true.
Proof. exact abs_trichotomy. Qed.
Print Assumptions C01_absolute_trichotomy.

Theorem C01_absolute_meaning :
  (forall a b, strictly_lesser a b = true <-> a + tol < b) /\
  (forall a b, strictly_greater a b = true <-> b + tol < a) /\
  (forall a b, equal_abs a b = true <-> a - b <= tol /\ b - a <= tol).
Proof. exact (conj strictly_lesser_iff (conj strictly_greater_iff equal_abs_iff)). Qed.
Print Assumptions C01_absolute_meaning.

(** Finding: on negative values the relative comparator ranks the smaller
    profit first. *)
Theorem C01_negative_profit_refuted :
  exists v1 v2, v1 < v2 /\ strictly_greater_profit v1 v2 = true.
Proof. exists (-2), (-1). vm_compute. auto. Qed.
Print Assumptions C01_negative_profit_refuted.

(** Finding: equality up to tolerance is not transitive, so [operator<] of the
    solution classes is not a strict weak order for profits and costs in
    general. *)
Theorem C01_equal_transitive_refuted :
  exists a b c, 0 <= a /\ 0 <= b /\ 0 <= c /\
    equal_profit a b = true /\ equal_profit b c = true /\ equal_profit a c = false.
Proof.
  exists 1, (1 + (9 # 10000000)), (1 + (18 # 10000000)). vm_compute.
  repeat split; discriminate.
Qed.
Print Assumptions C01_equal_transitive_refuted.

(** ** C02: pool *)

Theorem C02_pool_history : forall Sol (lt : Sol -> Sol -> bool) copies,
  StrictWeakOrder Sol lt -> (forall a b, length (copies a) = length (copies b)) ->
  forall n empty h, (1 <= n)%nat ->
  let p := pool_run Sol lt copies (pool_new Sol n empty) h in
  let kept := pool_solutions Sol p in
  (1 <= length kept <= n)%nat /\
  best_first_distinct Sol lt copies kept /\
  hd_error kept = Some (pool_best Sol p) /\
  last kept empty = pool_worst Sol p /\
  (forall e, In e kept -> e = empty \/ In e h) /\
  (forall s, s = empty \/ In s h -> lt (pool_best Sol p) s = false) /\
  (forall s, s = empty \/ In s h ->
     (exists e, In e kept /\ ties Sol lt copies s e)
     \/ (length kept = n /\ forall e, In e kept -> lt e s = false)).
Proof. exact pool_history. Qed.
Print Assumptions C02_pool_history.

(** Solutions are (quality, item copies); capacity 2. *)
Definition ex_lt (a b : Z * list Z) : bool := Z.ltb (fst a) (fst b).

Lemma ex_lt_swo : StrictWeakOrder (Z * list Z) ex_lt.
Proof.
  unfold ex_lt. constructor; intros;
    repeat match goal with
    | H : Z.ltb _ _ = true |- _ => apply Z.ltb_lt in H
    | H : Z.ltb _ _ = false |- _ => apply Z.ltb_ge in H
    end; try (apply Z.ltb_lt); try (apply Z.ltb_ge); lia.
Qed.

Example C02_pool_example :
  pool_solutions _ (pool_run _ ex_lt snd (pool_new _ 2 (0, [0])%Z)
     [(5, [1]); (3, [1]); (5, [1]); (7, [2]); (5, [0])]%Z) = [(7, [2]); (5, [1])]%Z.
Proof. reflexivity. Qed.

(** ** C03: return code *)

Theorem C03_pool_code : forall Sol (lt : Sol -> Sol -> bool) copies,
  StrictWeakOrder Sol lt -> (forall a b, length (copies a) = length (copies b)) ->
  forall n empty h s c p', (1 <= n)%nat ->
  let p := pool_run Sol lt copies (pool_new Sol n empty) h in
  pool_add Sol lt copies p s = (c, p') ->
  (c = -1 \/ c = 0 \/ c = 1)%Z /\
  (c = (-1)%Z <-> pool_solutions Sol p' = pool_solutions Sol p) /\
  (c = (-1)%Z -> p' = p) /\
  (c <> (-1)%Z -> In s (pool_solutions Sol p')) /\
  (c = 1%Z -> pool_best Sol p' = s /\ ~ ties Sol lt copies s (pool_best Sol p) /\ lt s (pool_best Sol p) = false) /\
  (c <> 1%Z -> pool_best Sol p' = pool_best Sol p) /\
  (lt (pool_best Sol p) s = true -> c = 1%Z).
Proof. exact pool_code. Qed.
Print Assumptions C03_pool_code.

Example C03_example :
  let p := pool_run _ ex_lt snd (pool_new _ 2 (0, [0])%Z) [(5, [1])]%Z in
  fst (pool_add _ ex_lt snd p (6, [1])%Z) = 1%Z /\ fst (pool_add _ ex_lt snd p (5, [0])%Z) = 1%Z
  /\ fst (pool_add _ ex_lt snd p (5, [2])%Z) = 0%Z /\ fst (pool_add _ ex_lt snd p (5, [1])%Z) = (-1)%Z.
Proof. vm_compute. auto. Qed.

(** ** C04: merging identical bins *)

Theorem C04_group_identical_bins : forall B (beq : B -> B -> bool),
  (forall a b, beq a b = true <-> a = b) ->
  forall bins,
  let res := group_identical_bins B beq bins in
  (forall b, copies_of B beq b res = copies_of B beq b bins) /\
  map fst res = first_occurrences B beq [] (map fst bins) /\
  NoDup (map fst res) /\
  (forall f, weighted_sum B f res == weighted_sum B f bins) /\
  group_identical_bins B beq res = res.
Proof.
  exact (fun B beq H bins => conj (group_copies B beq H bins)
    (conj (group_fst B beq H bins)
    (conj (eq_ind_r (@NoDup B) (proj1 (first_occurrences_nodup B beq H _ [])) (group_fst B beq H bins))
    (conj (fun f => group_weighted B beq H f bins)
          (group_nodup_id B beq H _
             (eq_ind_r (@NoDup B) (proj1 (first_occurrences_nodup B beq H _ [])) (group_fst B beq H bins))))))).
Qed.
Print Assumptions C04_group_identical_bins.

Example C04_example :
  group_identical_bins nat Nat.eqb [(7%nat, 1%Z); (8%nat, 2%Z); (7%nat, 3%Z)] = [(7%nat, 4%Z); (8%nat, 2%Z)]
  /\ (forall a b, Nat.eqb a b = true <-> a = b).
Proof. split; [reflexivity|exact Nat.eqb_eq]. Qed.

(** ** C05: bin type order *)

Theorem C05_enforce_bin_type_order : forall C (empty : C) copies bins,
  (forall t, length (of_type C t (physical C bins)) <= copies t)%nat ->
  let res := physical C (enforce_bin_type_order C empty copies bins) in
  (bins <> [] -> StronglySorted le (map fst res)) /\
  forall last, last_used_bin_type C bins = Some last ->
  forall t,
    (t < last -> of_type C t res = of_type C t (physical C bins)
        ++ repeat empty (copies t - length (of_type C t (physical C bins))) /\
      length (of_type C t res) = copies t)%nat /\
    (t = last -> of_type C t res = of_type C t (physical C bins)) /\
    ((last < t)%nat -> of_type C t res = [] /\ of_type C t (physical C bins) = []).
Proof. exact enforce_spec. Qed.
Print Assumptions C05_enforce_bin_type_order.

(** [last_used_bin_type] is the largest type id occurring in the solution. *)
Theorem C05_last_used : forall C bins last, last_used_bin_type C bins = Some last ->
  (forall b, In b bins -> (eb_type C b <= last)%nat) /\ (exists b, In b bins /\ eb_type C b = last).
Proof. exact last_used_some. Qed.
Print Assumptions C05_last_used.

Example C05_example :
  physical nat (enforce_bin_type_order nat 0%nat (fun _ => 2%nat)
    [mkEbin nat 2 9 1; mkEbin nat 0 5 1; mkEbin nat 2 8 1]%nat)
  = [(0, 5); (0, 0); (1, 0); (1, 0); (2, 9); (2, 8)]%nat.
Proof. reflexivity. Qed.

(** Finding: if a bin type before the last one is used more often than it has
    copies (such solutions exist, [feasible()] does not forbid them), packed
    bins are dropped. *)
Theorem C05_overused_refuted :
  exists (copies : nat -> nat) (bins : list (ebin nat)),
    In (0, 7)%nat (physical nat bins) /\
    ~ In (0, 7)%nat (physical nat (enforce_bin_type_order nat 0%nat copies bins)).
Proof.
  exists (fun _ => 1%nat), [mkEbin nat 0 5 1; mkEbin nat 0 7 1; mkEbin nat 1 3 1]%nat.
  simpl. split; [auto|]. intros [H|[H|[]]]; discriminate.
Qed.
Print Assumptions C05_overused_refuted.

(** ** C06 (schedule part; see OneDim_Props.v for the accumulation) *)

Theorem C06_item_consumption : forall r i copy,
  item_consumption r i copy =
  match nth_error (res_item_consumptions r) i with
  | None => 0
  | Some schedule => nth copy schedule (last schedule 0)
  end.
Proof. exact item_consumption_spec. Qed.
Print Assumptions C06_item_consumption.

Example C06_example :
  let r := mkResource 10 [[]; [5; 3]] false 0 in
  map (item_consumption r 1) [0; 1; 2; 7]%nat = [5; 3; 3; 3]
  /\ item_consumption r 0 4 = 0 /\ item_consumption r 9 0 = 0.
Proof. vm_compute. auto. Qed.

(** ** C07: powers of two *)

Theorem C07_powers_of_two : forall v, 0 < v ->
  (exists n r, largest_power_of_two_lesser_or_equal n v = Some r) /\
  (forall n r, largest_power_of_two_lesser_or_equal n v = Some r ->
     is_power_of_two r /\ r <= v /\ v <= r * 2) /\
  (exists n r, smallest_power_of_two_greater_or_equal n v = Some r) /\
  (forall n r, smallest_power_of_two_greater_or_equal n v = Some r ->
     is_power_of_two r /\ v <= r /\ r <= v * 2).
Proof.
  exact (fun v Hv => conj (largest_pow2_spec v Hv)
    (conj (fun n r => largest_pow2_value n v r Hv)
    (conj (smallest_pow2_spec v Hv) (fun n r => smallest_pow2_value n v r Hv)))).
Qed.
Print Assumptions C07_powers_of_two.

Example C07_example :
  largest_power_of_two_lesser_or_equal 9 5 = Some (1 * 2 * 2) /\
  smallest_power_of_two_greater_or_equal 9 5 = Some (1 * 2 * 2 * 2).
Proof. vm_compute. auto. Qed.

(** Finding: on an exact power of two >= 2 the "largest power of two lesser or
    equal" is half of the value. *)
Theorem C07_largest_exact_power_refuted :
  exists n v r, is_power_of_two v /\ largest_power_of_two_lesser_or_equal n v = Some r /\ r < v.
Proof. exists 9%nat, 4, (1 * 2). split; [exists 2%Z; reflexivity|]. vm_compute. auto. Qed.
Print Assumptions C07_largest_exact_power_refuted.

(** ** C08: names *)

Theorem C08_names_round_trip :
  (forall o, parse_objective (print_objective o) = Some o) /\
  (forall t, parse_problem_type (print_problem_type t) = Some t).
Proof. split; intros []; reflexivity. Qed.
Print Assumptions C08_names_round_trip.

(** Finding: the printed name of every non-anytime mode is rejected. *)
Theorem C08_mode_round_trip_refuted :
  forall m, m <> Anytime -> parse_mode (print_mode m) = None.
Proof. intros [] H; [contradiction|reflexivity..]. Qed.
Print Assumptions C08_mode_round_trip_refuted.

Example C08_mode_anytime : parse_mode (print_mode Anytime) = Some Anytime.
Proof. reflexivity. Qed.
