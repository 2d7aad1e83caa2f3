(** * Sequential value correction

    src/algorithms/sequential_value_correction.hpp, [sequential_value_correction]
    (:85-557).

    As in ColGen_Model, the template only looks at an instance through numbers of
    copies, costs and spaces, and at a bin of a solution through its type, its
    number of copies and its items.  The solver of the sub-problems, the timer,
    the comparison of the two solutions of the last bin and the solution pool are
    external: they are the fields of [Oracle], and each of them also receives the
    number of the call, so that an oracle may answer differently to the same
    question.  The profits given to the sub-problems are not part of the
    sub-problem of the model: an oracle that ignores them or depends on the call
    number covers every sequence of profits.  Their update is [svc_new_profit].
    Doubles are exact rationals; a quotient by zero is an infinity or a NaN. *)

From Coq Require Import List ZArith QArith Bool Lia.
From Verif Require Import Util Common_Model OneDim_Model ColGen_Model ColGen_Spec.
Import ListNotations.
Open Scope Z_scope.

(** The instance: costs, copies and fixed items of the bin types, copies of the
    item types, space() of each bin type. *)
Record SInst : Type := mkSI { si_base : CInst; si_spaces : list Z }.
Definition sspace (i : SInst) (t : nat) : Z := nth t (si_spaces i) 0.

(** The sub-problem of a bin type, :243-266: one bin of the type, the item types
    (original id, number of copies).  [sk_objective] is Knapsack, or
    BinPackingWithLeftovers for the re-optimisation of the last bin, :318-333. *)
Record SKp : Type := mkSK { sk_objective : Objective; sk_bin : nat; sk_items : list (nat * Z) }.
Definition sk_ids (k : SKp) : list nat := map fst (sk_items k).

(** The best solution of the pool returned for a sub-problem: its bins (copies,
    items as positions in the sub-problem) and its profit. *)
Record SAns : Type := mkSA { sa_bins : list (Z * list nat); sa_profit : Q }.
Definition sa_items (a : SAns) : Z := zsum (fun b => fst b * Z.of_nat (length (snd b))) (sa_bins a).

Record Oracle : Type := mkOr {
  or_solve : nat -> SKp -> SAns;
  or_end : nat -> bool;             (** parameters.timer.needs_to_end() *)
  or_less : nat -> SAns -> SAns -> bool;   (** bppl_solution < kp_solution_tmp *)
  or_best : list CBins -> CBins     (** output.solution_pool.best() *)
}.

(** ** Solutions *)

Definition ssol_items (s : CBins) : Z := zsum (fun b => b_copies b * Z.of_nat (length (b_items b))) s.

(** copies - copies_fixed - (item_copies - partial_fixed_copies), :292-294. *)
Definition sfree (i : SInst) (s : CBins) (pf : nat -> Z) (x : nat) : Z :=
  ci_copies (citem (si_base i) x) - ci_copies_fixed (citem (si_base i) x) - (used_items s x - pf x).
Definition sfixed (i : SInst) (t x : nat) : Z := occ (cb_fixed (cbin (si_base i) t)) x.

(** The item types of the sub-problem of bin type [t], :249-264. *)
Definition skp (i : SInst) (s : CBins) (pf : nat -> Z) (t : nat) : SKp :=
  mkSK OKnapsack t
    (flat_map (fun x =>
       let copies := sfree i s pf x + sfixed i t x in
       if copies <=? 0 then [] else [(x, copies)]) (seq 0 (cni (si_base i)))).

(** The number of copies of the pattern to add, :284-304 and :431-448, from the
    (item type, number of copies in the pattern) pairs. *)
Definition scopies (i : SInst) (s : CBins) (pf : nat -> Z) (t : nat) (packed : list (nat * Z)) : Z :=
  fold_left (fun n xp =>
    let p := snd xp - sfixed i t (fst xp) in
    if 0 <? p then Z.min n (Z.quot (sfree i s pf (fst xp)) p) else n) packed
    (cb_copies (cbin (si_base i) t) - used_bins s t).

(** The sub-problem of the last bin, :321-333. *)
Definition sbppl (i : SInst) (s : CBins) (pf : nat -> Z) (k : SKp) (n : Z) : SKp :=
  mkSK OBinPackingWithLeftovers (sk_bin k)
    (map (fun x => (x, Z.quot (sfree i s pf x) n + sfixed i (sk_bin k) x)) (sk_ids k)).

(** ** Bin types to try *)

(** bin_type_ids_by_position, :128-151.  std::stable_sort by space. *)
Fixpoint space_insert (i : SInst) (a : nat) (l : list nat) : list nat :=
  match l with [] => [a] | b :: r => if sspace i b <? sspace i a then b :: space_insert i a r else a :: b :: r end.
Definition sorder (i : SInst) : list nat :=
  match cn_objective (si_base i) with
  | OKnapsack => fold_right (space_insert i) [] (seq 0 (cnb (si_base i)))
  | _ => seq 0 (cnb (si_base i))
  end.
Definition spositions (i : SInst) : list nat :=
  flat_map (fun t => repeat t (Z.to_nat (cb_copies (cbin (si_base i) t)))) (sorder i).

(** The smallest bin type whose minimum number of copies is not reached,
    :179-193. *)
Definition smandatory (i : SInst) (s : CBins) : option nat :=
  fold_left (fun best t =>
    if cb_copies_min (cbin (si_base i) t) <=? used_bins s t then best
    else match best with
         | None => Some t
         | Some u => if sspace i t <? sspace i u then Some t else best
         end) (seq 0 (cnb (si_base i))) None.

(** :176-208.  The position past the last bin is out of range: no type. *)
Definition stypes (i : SInst) (s : CBins) : list nat :=
  match cn_objective (si_base i) with
  | OVariableSizedBinPacking =>
      match smandatory i s with
      | Some t => [t]
      | None => filter (fun t => negb (used_bins s t =? cb_copies (cbin (si_base i) t))) (seq 0 (cnb (si_base i)))
      end
  | _ => match nth_error (spositions i) (Z.to_nat (total_bins s)) with Some t => [t] | None => [] end
  end.

(** ** One bin type *)

(** solutions_cur: for each bin type the pattern found, if any, and its profit. *)
Definition SCur := list (option (list nat) * Q).
Definition scur (c : SCur) (t : nat) : option (list nat) * Q := nth t c (None, 0%Q).

(** [XThrow]: an exception, or an access out of the bounds of a vector.
    [XTime]: the timer asked to end, with the solutions reported so far. *)
Inductive SRes (A : Type) : Type := XOk (a : A) | XTime (reports : list CBins) | XThrow.
Arguments XOk {A} a.
Arguments XTime {A} reports.
Arguments XThrow {A}.

(** The number of calls made to the oracle, solutions_cur and the solutions
    reported (in order). *)
Record STry : Type := mkST { st_call : nat; st_cur : SCur; st_reports : list CBins }.

(** :218-238. *)
Definition sstill_valid (i : SInst) (s : CBins) (pf : nat -> Z) (c : SCur) (t : nat) : bool :=
  match fst (scur c t) with
  | None | Some [] => false
  | Some items => forallb (fun x => occ items x <=? sfree i s pf x + sfixed i t x) (seq 0 (cni (si_base i)))
  end.

Definition is_vbpp (i : SInst) : bool :=
  match cn_objective (si_base i) with OVariableSizedBinPacking => true | _ => false end.
Definition is_bppl (i : SInst) : bool :=
  match cn_objective (si_base i) with OBinPackingWithLeftovers => true | _ => false end.

(** The loop body of :211-376.  The sub-instance keeps the minimum number of
    copies of the bin type when its number of copies is set to one, :246-247:
    set_bin_type_copies throws if the minimum is larger. *)
Definition stry (i : SInst) (o : Oracle) (s : CBins) (pf : nat -> Z) (st : STry) (t : nat) : SRes STry :=
  if is_vbpp i && sstill_valid i s pf (st_cur st) t then XOk st
  else if 1 <? cb_copies_min (cbin (si_base i) t) then XThrow
  else
    let k := skp i s pf t in
    let a := or_solve o (st_call st) k in
    if or_end o (S (st_call st)) then XTime (st_reports st)
    else match sa_bins a with
    | [] => XOk (mkST (2 + st_call st) (upd t (fun _ => (None, 0%Q)) (st_cur st)) (st_reports st))
    | _ :: _ =>
        let n := scopies i s pf t (map (fun p => (nth p (sk_ids k) O, ksol_copies (sa_bins a) p)) (seq 0 (length (sk_ids k)))) in
        if n <? 1 then XThrow
        else
          let chosen :=
            if is_bppl i && (ssol_items s + n * sa_items a =? cnumber_of_items (si_base i))
            then
              let b := or_solve o (2 + st_call st) (sbppl i s pf k n) in
              if or_end o (3 + st_call st) then XTime (st_reports st)
              else XOk (if or_less o (4 + st_call st) b (mkSA (firstn 1 (sa_bins a)) (sa_profit a)) then a else b)
            else XOk a in
          match chosen with
          | XTime r => XTime r
          | XThrow => XThrow
          | XOk c =>
              match sa_bins c with
              | [] => XThrow
              | (_, positions) :: _ =>
                  if forallb (fun p => (p <? length (sk_ids k))%nat) positions then
                    let items := map (fun p => nth p (sk_ids k) O) positions in
                    let reports :=
                      if is_vbpp i && (ssol_items s + n * sa_items c =? cnumber_of_items (si_base i))
                      then st_reports st ++ [s ++ [(t, n, items)]]
                      else st_reports st in
                    XOk (mkST (5 + st_call st) (upd t (fun _ => (Some items, sa_profit c)) (st_cur st)) reports)
                  else XThrow
              end
          end
    end.

Fixpoint stry_all (i : SInst) (o : Oracle) (s : CBins) (pf : nat -> Z) (ts : list nat) (st : STry) : SRes STry :=
  match ts with
  | [] => XOk st
  | t :: r => match stry i o s pf st t with XOk st' => stry_all i o s pf r st' | e => e end
  end.

(** ** The best ratio, :379-397 *)

Inductive Ratio : Type := RNan | RMinf | RFin (q : Q) | RInf.
Definition ratio (profit cost : Q) : Ratio :=
  if Qeq_bool cost 0
  then if Qltb 0 profit then RInf else if Qltb profit 0 then RMinf else RNan
  else RFin (profit / cost)%Q.
Definition ratio_lt (a b : Ratio) : bool :=
  match a, b with
  | RNan, _ | _, RNan => false
  | RMinf, RMinf => false | RMinf, _ => true
  | RFin _, RMinf => false | RFin p, RFin q => Qltb p q | RFin _, RInf => true
  | RInf, _ => false
  end.
Definition sbest (i : SInst) (c : SCur) (ts : list nat) : option nat :=
  snd (fold_left (fun best t =>
    let r := ratio (snd (scur c t)) (cb_cost (cbin (si_base i) t)) in
    if ratio_lt (fst best) r then (r, Some t) else best) ts (RFin 0, None)).

(** ** One iteration: the loop of :170-482 *)

(** A bin is added to the solution [s] at each turn.  With [fuel] too small:
    [None]. *)
Fixpoint sloop (fuel : nat) (i : SInst) (o : Oracle) (s : CBins) (pf : nat -> Z) (st : STry) : option (SRes (CBins * STry)) :=
  match fuel with
  | O => None
  | S f =>
      if or_end o (st_call st) then Some (XTime (st_reports st))
      else
      let st := mkST (S (st_call st)) (st_cur st) (st_reports st) in
      if ssol_items s =? cnumber_of_items (si_base i) then Some (XOk (s, st))
      else if total_bins s =? cnumber_of_bins (si_base i) then Some (XOk (s, st))
      else
        let ts := stypes i s in
        match stry_all i o s pf ts st with
        | XTime r => Some (XTime r)
        | XThrow => Some XThrow
        | XOk st =>
            match sbest i (st_cur st) ts with
            | None =>
                if is_vbpp i then Some (XOk (s, st))
                else match ts with
                     | [] => Some XThrow
                     | t :: _ => sloop f i o (s ++ [(t, 1, [])]) pf st
                     end
            | Some t =>
                match fst (scur (st_cur st) t) with
                | None => Some XThrow
                | Some items =>
                    let n := scopies i s pf t (map (fun x => (x, occ items x)) (seq 0 (cni (si_base i)))) in
                    if n <? 1 then Some XThrow
                    else sloop f i o (s ++ [(t, n, items)]) (fun x => pf x + n * sfixed i t x) st
                end
            end
        end
  end.

Definition siteration (fuel : nat) (i : SInst) (o : Oracle) (call : nat) (reports : list CBins) : option (SRes (CBins * STry)) :=
  sloop fuel i o [] (fun _ => 0) (mkST call (repeat (None, 0%Q) (cnb (si_base i))) reports).

(** ** The iterations, :153-552 *)

(** The solutions reported, in order, and whether an exception left the
    function. *)
Fixpoint siterations (left fuel : nat) (i : SInst) (o : Oracle) (goal : Z) (call : nat) (reports : list CBins)
    : option (list CBins * bool) :=
  match left with
  | O => Some (reports, false)
  | S l =>
      match siteration fuel i o call reports with
      | None => None
      | Some XThrow => Some (reports, true)
      | Some (XTime r) => Some (r, false)
      | Some (XOk (s, st)) =>
          let reports := st_reports st ++ [s] in
          let best := or_best o reports in
          let full := ssol_items best =? cnumber_of_items (si_base i) in
          match cn_objective (si_base i) with
          | OBinPacking => if full && (total_bins best <=? Z.max goal 2) then Some (reports, false)
                           else siterations l fuel i o goal (st_call st) reports
          | OKnapsack => if full then Some (reports, false) else siterations l fuel i o goal (st_call st) reports
          | _ => siterations l fuel i o goal (st_call st) reports
          end
      end
  end.

(** [maximum_number_of_iterations] iterations are allowed. *)
Definition svc (fuel : nat) (maximum_number_of_iterations : nat) (i : SInst) (o : Oracle) (goal : Z) : option (list CBins * bool) :=
  if (cni (si_base i) =? 0)%nat then Some ([], false)
  else siterations maximum_number_of_iterations fuel i o goal O [].

(** ** The profits, :525-550 *)

(** The new profit of an item type from its adjusted space, before averaging
    with the old one; [None]: the quotient by zero of two doubles.
    [lbs]: largest_bin_space. *)
Definition qdiv (a b : Q) : option Q := if Qeq_bool b 0 then None else Some (a / b)%Q.
Definition svc_new_profit (i : SInst) (s : CBins) (pf : nat -> Z) (lbs item_space profit adjusted : Q) (x : nat) : option Q :=
  let adjusted := (adjusted + 100 * lbs * inject_Z (sfree i s pf x))%Q in
  match cn_objective (si_base i) with
  | OKnapsack =>
      match qdiv profit item_space with
      | Some e => qdiv (e * adjusted)%Q (inject_Z (used_items s x))
      | None => None
      end
  | _ => qdiv adjusted (inject_Z (ci_copies (citem (si_base i) x)))
  end.
