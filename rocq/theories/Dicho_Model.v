(** * Dichotomic search on the waste

    src/algorithms/dichotomic_search.hpp, [dichotomic_search] (:82-292).

    The instance is seen as in Svc_Model, with the total space of the items.  The
    knapsack solver, the solver of the bin packing sub-problems and the timer are
    external: [DOracle]; they receive the number of the call.  Spaces are
    integers.  The waste percentages are doubles: exact rationals here, except
    that doubling beyond the largest double gives infinity, which is what ends
    the loop on some instances; the sum of the two bounds does not overflow, and
    the conversion of an out of range double to an integer (undefined in C++,
    the smallest integer in practice) gives a capacity of zero.  std::sort is the
    stable sort of Svc_Model. *)

From Coq Require Import List ZArith QArith Bool Lia.
From Verif Require Import Util Common_Model OneDim_Model ColGen_Model ColGen_Spec Svc_Model.
Import ListNotations.
Open Scope Z_scope.

Record DInst : Type := mkDI { di_inst : SInst; di_item_space : Z }.
Definition dbase (i : DInst) : CInst := si_base (di_inst i).
Definition dspace (i : DInst) (t : nat) : Z := sspace (di_inst i) t.
Definition dtypes (i : DInst) : list nat := seq 0 (cnb (dbase i)).

Record DOracle : Type := mkDO {
  do_contains : nat -> Z -> list nat -> nat -> bool;   (** call, capacity, bin type of each knapsack item *)
  do_solve : nat -> list (nat * Z) -> CBins;           (** call, bin types (original id, copies): bins with positions as types *)
  do_end : nat -> bool
}.

(** bin_min_space and bin_space, :105-120. *)
Definition dbin_min_space (i : DInst) : Z := zsum (fun t => cb_copies_min (cbin (dbase i) t) * dspace i t) (dtypes i).
Definition dbin_space (i : DInst) : Z := zsum (fun t => cb_copies (cbin (dbase i) t) * dspace i t) (dtypes i).

(** sorted_bin_types, :121-132. *)
Definition dsorted (i : DInst) : list nat := fold_right (space_insert (di_inst i)) [] (dtypes i).

(** Doubles that may be infinite. *)
Inductive Ext : Type := Fin (q : Q) | Inf.
Definition dbl_max : Q := inject_Z (2 ^ 1024 - 2 ^ 971).
Definition double2 (q : Q) : Ext := if Qle_bool (q * 2) dbl_max then Fin (q * 2) else Inf.

(** The test of the loop, :136. *)
Definition dtolerance : Q := 1 # 100000.
Definition dcontinue (lb ub : Ext) : bool :=
  match ub, lb with
  | Inf, Fin _ => true
  | Fin u, Fin l => Qltb dtolerance (u - l)
  | _, Inf => false
  end.

(** :138-147. *)
Definition dwaste (initial : Q) (lb ub : Ext) : Ext :=
  match ub, lb with
  | Inf, Fin l => if Qeq_bool l 0 then Fin initial else double2 l
  | Fin u, Fin l => Fin ((l + u) / 2)%Q
  | _, Inf => Inf
  end.

(** :161-164. *)
Definition dcapacity (i : DInst) (waste : Ext) : Z :=
  match waste with
  | Inf => 0
  | Fin w => Z.max 0 (qtrunc (inject_Z (dbin_space i - dbin_min_space i) - inject_Z (di_item_space i) * (1 + w))%Q)
  end.

(** The bins that may be removed, :167-178. *)
Definition dkp (i : DInst) (capacity : Z) : list nat :=
  flat_map (fun t => if capacity <? dspace i t then []
    else repeat t (Z.to_nat (cb_copies (cbin (dbase i) t) - cb_copies_min (cbin (dbase i) t)))) (dtypes i).

(** The bins kept, :207-219, and the number of bins removed. *)
Definition dkept (kp : list nat) (contains : nat -> bool) (t : nat) : Z :=
  zsum (fun p => if (nth p kp O =? t)%nat && negb (contains p) then 1 else 0) (seq 0 (length kp)).
Definition dselection (i : DInst) (kp : list nat) (contains : nat -> bool) : list Z :=
  map (fun t => cb_copies_min (cbin (dbase i) t) + dkept kp contains t) (dtypes i).
Definition dremoved (kp : list nat) (contains : nat -> bool) : Z := Z.of_nat (length (filter contains (seq 0 (length kp)))).

(** The bin types of the sub-problem, :221-246: first the bins kept, then the
    others.  [None]: set_bin_type_copies throws, since the minimum number of
    copies is still the one of the instance. *)
Definition dgroup (i : DInst) (number : nat -> Z) : option (list (nat * Z)) :=
  fold_left (fun acc t =>
    match acc with
    | None => None
    | Some l => if number t <=? 0 then Some l
                else if number t <? cb_copies_min (cbin (dbase i) t) then None
                else Some (l ++ [(t, number t)])
    end) (dsorted i) (Some []).
Definition dbpp (i : DInst) (sel : list Z) : option (list (nat * Z) * Z) :=
  match dgroup i (fun t => nth t sel 0), dgroup i (fun t => cb_copies (cbin (dbase i) t) - nth t sel 0) with
  | Some a, Some b => Some (a ++ b, zsum snd a)
  | _, _ => None
  end.

(** Solution::append_bins with the bin types of the instance, :251-255. *)
Definition dtranslate (bins : list (nat * Z)) (s : CBins) : option CBins :=
  if forallb (fun b => (b_type b <? length bins)%nat) s
  then Some (map (fun b => (fst (nth (b_type b) bins (O, 0)), b_copies b, b_items b)) s)
  else None.

Record DState : Type := mkDS {
  ds_lb : Ext; ds_ub : Ext;
  ds_memory : list (list Z * bool);
  ds_reports : list CBins;
  ds_call : nat
}.

Fixpoint zlist_eqb (a b : list Z) : bool :=
  match a, b with
  | [], [] => true
  | x :: a', y :: b' => (x =? y) && zlist_eqb a' b'
  | _, _ => false
  end.
Fixpoint dlookup (sel : list Z) (m : list (list Z * bool)) : option bool :=
  match m with [] => None | (k, v) :: r => if zlist_eqb sel k then Some v else dlookup sel r end.

Inductive DRes : Type := DEnd (s : DState) | DThrow (s : DState).

(** One turn of the loop, :148-286: [inl] the loop goes on. *)
Definition dturn (i : DInst) (o : DOracle) (initial : Q) (s : DState) : DState + DRes :=
  let waste := dwaste initial (ds_lb s) (ds_ub s) in
  let call := ds_call s in
  if do_end o call then inr (DEnd s)
  else
    let capacity := dcapacity i waste in
    let kp := dkp i capacity in
    let contains := do_contains o call capacity kp in
    let sel := dselection i kp contains in
    let next (memory : list (list Z * bool)) (reports : list CBins) (found : bool) : DState + DRes :=
      if found then inl (mkDS (ds_lb s) waste memory reports (S call))
      else
        let s' := mkDS waste (ds_ub s) memory reports (S call) in
        if dremoved kp contains =? cnumber_of_bins (dbase i) then inr (DEnd s') else inl s' in
    match dlookup sel (ds_memory s) with
    | Some found => next (ds_memory s) (ds_reports s) found
    | None =>
        match dbpp i sel with
        | None => inr (DThrow s)
        | Some (bins, number) =>
            let b := do_solve o call bins in
            match dtranslate bins b with
            | None => inr (DThrow s)
            | Some sol =>
                let found := (ssol_items b =? cnumber_of_items (dbase i)) && (total_bins b <=? number) in
                next (ds_memory s ++ [(sel, found)]) (ds_reports s ++ [sol]) found
            end
        end
    end.

(** The loop, :136-287.  [None]: not enough turns allowed. *)
Fixpoint dloop (fuel : nat) (i : DInst) (o : DOracle) (initial : Q) (s : DState) : option DRes :=
  match fuel with
  | O => None
  | S f =>
      if dcontinue (ds_lb s) (ds_ub s)
      then match dturn i o initial s with inl s' => dloop f i o initial s' | inr r => Some r end
      else Some (DEnd s)
  end.

(** [dichotomic_search], from the initial waste percentage and the initial upper
    bound. *)
Definition dstart (initial_ub : Ext) : DState := mkDS (Fin 0) initial_ub [] [] O.
Definition dichotomic (fuel : nat) (i : DInst) (o : DOracle) (initial : Q) (initial_ub : Ext) : option DRes :=
  if (cni (dbase i) =? 0)%nat then Some (DEnd (dstart initial_ub)) else dloop fuel i o initial (dstart initial_ub).
