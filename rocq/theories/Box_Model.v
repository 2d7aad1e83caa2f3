(** * Model of the box instance
    [include/packingsolver/box/instance.hpp], [src/box/instance.cpp].

    Integers are unbounded, doubles are exact rationals, an infinite weight is
    [None].  Fixed items and the feasibility callback are not part of the
    instance here. *)

From Coq Require Import List ZArith QArith Bool.
From Verif Require Import Util Common_Model OneDim_Model.
Import ListNotations.
Open Scope Z_scope.

(** Direction, instance.hpp:25, without [Any]. *)
Inductive Axis : Type := AX | AY | AZ.
Definition axes : list Axis := [AX; AY; AZ].
Definition axis_eqb (a b : Axis) : bool :=
  match a, b with AX, AX | AY, AY | AZ, AZ => true | _, _ => false end.

(** Point and Box, instance.hpp:60-117. *)
Record Vec : Type := mkV { v_x : Z; v_y : Z; v_z : Z }.
Definition vat (v : Vec) (a : Axis) : Z := match a with AX => v_x v | AY => v_y v | AZ => v_z v end.
Definition vol (v : Vec) : Z := v_x v * v_y v * v_z v.
Definition veqb (v w : Vec) : bool := (v_x v =? v_x w) && (v_y v =? v_y w) && (v_z v =? v_z w).

(** Rotation, instance.hpp:30-38, in the order of the values. *)
Inductive Rotation : Type := XYZ | YXZ | ZYX | YZX | XZY | ZXY.
Definition rot_eqb (r s : Rotation) : bool :=
  match r, s with
  | XYZ, XYZ | YXZ, YXZ | ZYX, ZYX | YZX, YZX | XZY, XZY | ZXY, ZXY => true
  | _, _ => false
  end.

(** Box::rotate, instance.hpp:96-111. *)
Definition rotate (b : Vec) (r : Rotation) : Vec :=
  match r with
  | XYZ => mkV (v_x b) (v_y b) (v_z b)
  | YXZ => mkV (v_y b) (v_x b) (v_z b)
  | ZYX => mkV (v_z b) (v_y b) (v_x b)
  | YZX => mkV (v_y b) (v_z b) (v_x b)
  | XZY => mkV (v_x b) (v_z b) (v_y b)
  | ZXY => mkV (v_z b) (v_x b) (v_y b)
  end.

(** ItemType, instance.hpp:129-181.  [bi_copies_min] is resolved. *)
Record BItem : Type := mkBI {
  bi_box : Vec;
  bi_profit : Q;
  bi_copies : Z;
  bi_copies_min : Z;
  bi_rotations : list Rotation;
  bi_weight : Q;
  bi_resource_ids : list (list nat)
}.

(** ItemType::can_rotate, instance.hpp:166-171. *)
Definition can_rotate (it : BItem) (r : Rotation) : bool := existsb (fun s => rot_eqb s r) (bi_rotations it).

(** BinType, instance.hpp:206-249. *)
Record BBin : Type := mkBB {
  bn_box : Vec;
  bn_cost : Q;
  bn_copies : Z;
  bn_copies_min : Z;
  bn_max_weight : option Q;
  bn_resources : list Resource
}.

(** Instance, instance.hpp:274-512.  Parameters is empty (:259-261). *)
Record BInstance : Type := mkBInst { bx_objective : Objective; bx_items : list BItem; bx_bins : list BBin }.

Definition dummy_bitem : BItem := mkBI (mkV 0 0 0) 0 0 0 [] 0 [].
Definition dummy_bbin : BBin := mkBB (mkV 0 0 0) 0 0 0 None [].
Definition bxitem (i : BInstance) (id : nat) : BItem := nth id (bx_items i) dummy_bitem.
Definition bxbin (i : BInstance) (id : nat) : BBin := nth id (bx_bins i) dummy_bbin.

(** Instance::fits_some_bin, instance.cpp:134-155. *)
Definition bfits (it : BItem) (bt : BBin) : bool :=
  existsb (fun r => forallb (fun a => vat (rotate (bi_box it) r) a <=? vat (bn_box bt) a) axes) (bi_rotations it).
Definition bfits_some_bin (i : BInstance) (id : nat) : bool := existsb (bfits (bxitem i id)) (bx_bins i).
