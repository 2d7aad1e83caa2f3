(** * Conservative scales: what is asked of them *)

From Coq Require Import List ZArith QArith Bool.
From Verif Require Import Util Common_Model OneDim_Model Rect_Model Rect_Spec ColGen_Model Scale_Model.
Import ListNotations.
Open Scope Z_scope.

(** Lengths [scale] replace lengths [dims]: items (each item type at most as many
    times as its copies) that fit side by side in [cap] fit in [cap + slack]. *)
Definition conservative (i : RInstance) (dims : list Z) (cap : Z) (slack : Q) (scale : list Q) : Prop :=
  forall s : list nat, (forall x, In x s -> (x < length (rin_items i))%nat) ->
    (forall x, (x < length (rin_items i))%nat -> occ s x <= ri_copies (ritem i x)) ->
    zsum (fun x => nth x dims 0) s <= cap ->
    (qsum (fun x => nth x scale 0) s <= inject_Z cap + slack)%Q.

Definition nonneg_scale (scale : list Q) : Prop := forall x, (0 <= nth x scale 0)%Q.

(** A selection of items of a knapsack. *)
Definition kp_feasible (cap : Z) (ks : list KItem) (s : nat -> Z) : Prop :=
  (forall k, In k ks -> 0 <= s (ki_id k) <= ki_copies k) /\ zsum (fun k => ki_len k * s (ki_id k)) ks <= cap.
Definition kp_value (ks : list KItem) (s : nat -> Z) : Q := qsum (fun k => ki_value k * inject_Z (s (ki_id k)))%Q ks.

(** A knapsack solver that returns optimal selections. *)
Definition kp_exact (o : LOracle) : Prop := forall c cap ks, 0 <= cap -> NoDup (map ki_id ks) ->
  (forall k, In k ks -> 0 < ki_len k /\ 0 <= ki_copies k) ->
  kp_feasible cap ks (lo_kp o c cap ks) /\ forall s, kp_feasible cap ks s -> (kp_value ks s <= kp_value ks (lo_kp o c cap ks))%Q.

(** An LP solver that returns non-negative values. *)
Definition lp_nonneg (o : LOracle) : Prop := forall c obj rows, nonneg_scale (lo_lp o c obj rows).

(** An LP solver whose solutions satisfy the rows up to the tolerance. *)
Definition lp_rows (o : LOracle) (i : RInstance) (cap : Z) : Prop := forall c obj rows row, In row rows ->
  (qsum (fun x => inject_Z (nth x row 0%Z) * nth x (lo_lp o c obj rows) 0) (seq 0 (length (rin_items i))) <= inject_Z cap + scale_tol)%Q.
