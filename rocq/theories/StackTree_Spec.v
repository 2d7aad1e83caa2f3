(** * Specification for the boxstacks branching scheme *)

From Coq Require Import List ZArith QArith Bool.
From Verif Require Import Util Common_Model OneDim_Model Rect_Model Box_Model Stack_Model Stack_Spec StackTree_Model.
Import ListNotations.
Open Scope Z_scope.

(** Rotations that keep the vertical axis. *)
Definition upright (r : Rotation) : Prop := r = XYZ \/ r = YXZ.

Section Spec.
Variable i : KInstance.

Definition item_size (p : nat * Rotation) : Vec := rotate (ki_box (kitem i (fst p))) (snd p).
Definition item_group (p : nat * Rotation) : nat := ki_group (kitem i (fst p)).

(** A stack of a bin of type [t]: at least one item, all cover the base and have the same
    stackability id and group; height, density (up to the relative tolerance), number of
    items and weight above each item.  The number of items is only checked when an item is
    put above another one. *)
Record vstack_ok (t : nat) (s : KSDesc) : Prop := {
  vk_ne : sd_items s <> [];
  vk_item : forall p, In p (sd_items s) -> (fst p < length (kx_items i))%nat /\ In (snd p) (ki_rotations (kitem i (fst p)))
    /\ v_x (item_size p) = sd_xe s - sd_x s /\ v_y (item_size p) = sd_ye s - sd_y s;
  vk_same : forall p q, In p (sd_items s) -> In q (sd_items s) ->
    ki_stackability (kitem i (fst p)) = ki_stackability (kitem i (fst q)) /\ item_group p = item_group q;
  vk_height : forall k, (k <= length (sd_items s))%nat -> stack_height i (firstn k (sd_items s)) <= v_z (kb_box (kbin i t));
  vk_density : forall d, kb_max_density (kbin i t) = Some d -> (qsum (kweight i) (sd_items s) <= d * PSTOL * inject_Z (base s))%Q;
  vk_number : (2 <= length (sd_items s))%nat -> forall p, In p (sd_items s) ->
    Z.of_nat (length (sd_items s)) <= ki_max_stackability (kitem i (fst p));
  vk_above : forall below p above w, sd_items s = below ++ p :: above -> above <> [] -> ki_max_above (kitem i (fst p)) = Some w ->
    (qsum (kweight i) above <= w)%Q
}.

(** Unloading: stacks that share a row and follow each other along x are unloaded from the
    far end, by increasing groups. *)
Definition rows_meet (a b : KSDesc) : Prop := sd_y a < sd_ye b /\ sd_y b < sd_ye a.
Definition columns_meet (a b : KSDesc) : Prop := sd_x a < sd_xe b /\ sd_x b < sd_xe a.
Definition later_first (a b : KSDesc) : Prop := forall p q, In p (sd_items a) -> In q (sd_items b) -> (item_group q <= item_group p)%nat.
Definition unloading_ok (un : Unloading) (st : list KSDesc) : Prop :=
  match un with
  | UOnlyX => forall a b, In a st -> In b st -> rows_meet a b -> sd_xe a <= sd_x b -> later_first a b
  | UOnlyY => forall a b, In a st -> In b st -> columns_meet a b -> sd_ye a <= sd_y b -> later_first a b
  | _ => True
  end.
Definition increasing_ok (un : Unloading) (st : list KSDesc) : Prop :=
  match un with
  | UIncreasingX => forall a b p q, In a st -> In b st -> In p (sd_items a) -> In q (sd_items b) -> (item_group p < item_group q)%nat -> sd_x b <= sd_x a
  | UIncreasingY => forall a b p q, In a st -> In b st -> In p (sd_items a) -> In q (sd_items b) -> (item_group p < item_group q)%nat -> sd_y b <= sd_y a
  | _ => True
  end.

Definition off_defect (s : KSDesc) (f : Defect) : Prop :=
  sd_xe s <= df_x f \/ df_x f + df_lx f <= sd_x s \/ sd_ye s <= df_y f \/ df_y f + df_ly f <= sd_y s.

(** A bin. *)
Record vbin_ok (un : Unloading) (d : KDesc) : Prop := {
  vb_geom : kgeom i d;
  vb_defects : forall s f, In s (kd_stacks d) -> In f (kb_defects (kbin i (kd_type d))) -> off_defect s f;
  vb_stacks : forall s, In s (kd_stacks d) -> vstack_ok (kd_type d) s;
  vb_weight : kd_stacks d <> [] -> total_ok i d;
  vb_unloading : unloading_ok un (kd_stacks d);
  (** only without defects: C61_increasing_refuted *)
  vb_increasing : kb_defects (kbin i (kd_type d)) = [] -> increasing_ok un (kd_stacks d)
}.

(** Items that can be in a stack (same stackability id and group) and have the same size
    along one of the two horizontal axes have the same base. *)
Definition same_bases : Prop := forall p q,
  (fst p < length (kx_items i))%nat -> (fst q < length (kx_items i))%nat ->
  In (snd p) (ki_rotations (kitem i (fst p))) -> In (snd q) (ki_rotations (kitem i (fst q))) ->
  ki_stackability (kitem i (fst p)) = ki_stackability (kitem i (fst q)) -> item_group p = item_group q ->
  (v_x (item_size p) = v_x (item_size q) <-> v_y (item_size p) = v_y (item_size q)).

(** Volume of the bins of a list of bin types. *)
Definition bins_volume (ds : list KDesc) : Z := zsum (fun d => vol (kb_box (kbin i (kd_type d)))) ds.

(** Volume of the items of a bin, nested parts counted once. *)
Definition packed_volume (d : KDesc) : Z := zsum (fun s => base s * stack_height i (sd_items s)) (kd_stacks d).
End Spec.

(** The schemes of the theorems. *)
Record vdomain (s : VScheme) : Prop := {
  vd_items : forall it, In it (kx_items (vs_i s)) -> 0 < v_x (ki_box it) /\ 0 < v_y (ki_box it) /\ 0 < v_z (ki_box it) /\ 0 <= ki_copies it;
  vd_bins : forall bt, In bt (kx_bins (vs_i s)) -> 0 < v_x (kb_box bt) /\ 0 < v_y (kb_box bt) /\ 0 < v_z (kb_box bt);
  vd_defects : forall bt f, In bt (kx_bins (vs_i s)) -> In f (kb_defects bt) -> 0 <= df_x f + df_lx f /\ 0 <= df_y f + df_ly f;
  vd_bases : same_bases (vs_i s);
  vd_upright : vs_direction s = Some false \/ forall it r, In it (kx_items (vs_i s)) -> In r (ki_rotations it) -> upright r
}.
