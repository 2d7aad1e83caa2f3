(** * What the guillotine knapsack algorithms compute, independently of them *)

From Coq Require Import List ZArith QArith Bool.
From Verif Require Import Util Common_Model Guil_Model Guil_Spec.
Import ListNotations.
Open Scope Z_scope.

(** A rectangle that is a copy of item type [x], turned only if allowed. *)
Definition piece (i : GInstance) (R : GRect) (x : nat) : Prop :=
  (x < length (gin_items i))%nat /\
  ((rr R - rl R = gi_w (gitem i x) /\ rt R - rb R = gi_h (gitem i x))
   \/ (gi_oriented (gitem i x) = false /\ rr R - rl R = gi_h (gitem i x) /\ rt R - rb R = gi_w (gitem i x))).

(** The items [xs] are cut out of a plate of dimensions [w], [h], each cut
    being edge to edge and destroying a strip of width [ct] ([cuttable]). *)
Definition cut_from_plate (i : GInstance) (ct w h : Z) (xs : list nat) : Prop :=
  exists L, cuttable ct (mkGR 0 w 0 h) L /\ Forall2 (piece i) L xs.

Definition copies_of (x : nat) (xs : list nat) : Z := Z.of_nat (count_occ Nat.eq_dec xs x).
(** No item type is used more often than it has copies. *)
Definition within_copies (i : GInstance) (xs : list nat) : Prop :=
  forall x, In x xs -> copies_of x xs <= gi_copies (gitem i x).

Definition items_profit (i : GInstance) (xs : list nat) : Q := qsum (fun x => gi_profit (gitem i x)) xs.

(** The part of the first plate the algorithms use: the plate without its trims,
    hard or soft. *)
Definition plate_w (i : GInstance) : Z :=
  gb_w (gbin i 0) - gt_length (gb_left (gbin i 0)) - gt_length (gb_right (gbin i 0)).
Definition plate_h (i : GInstance) : Z :=
  gb_h (gbin i 0) - gt_length (gb_bottom (gbin i 0)) - gt_length (gb_top (gbin i 0)).

(** Instances of positive dimensions, non-negative trims and cut thickness. *)
Record hyper_instance (i : GInstance) : Prop := {
  hi_bin : gin_bins i <> [];
  hi_w : 1 <= plate_w i;
  hi_h : 1 <= plate_h i;
  hi_ct : 0 <= gp_ct (gin_params i);
  hi_trims : 0 <= gt_length (gb_left (gbin i 0)) /\ 0 <= gt_length (gb_right (gbin i 0))
    /\ 0 <= gt_length (gb_bottom (gbin i 0)) /\ 0 <= gt_length (gb_top (gbin i 0));
  hi_items : forall it, In it (gin_items i) -> 1 <= gi_w it /\ 1 <= gi_h it
}.

(** The instances the reconstruction handles: first cuts vertical or free, and
    no soft trim below or above the plate. *)
Record hyper_supported (i : GInstance) : Prop := {
  hu_first : gp_first (gin_params i) <> GHorizontal;
  hu_bottom : gt_hard (gb_bottom (gbin i 0)) = true \/ gt_length (gb_bottom (gbin i 0)) = 0;
  hu_top : gt_hard (gb_top (gbin i 0)) = true \/ gt_length (gb_top (gbin i 0)) = 0
}.

(** What a user sees of a solution given to the builder by the calls [calls]: no
    call throws, there is one copy of one bin, of the first type, and its items
    are [xs]. *)
Definition solution_with (i : GInstance) (calls : list GCall) (xs : list nat) : Prop :=
  gaccepted i [] calls = true /\
  exists b, grun i [] calls = Some [b] /\ gs_type b = 0%nat /\ gs_copies b = 1 /\
    map (fun n => Z.to_nat (gn_item n)) (item_nodes (gs_nodes b)) = xs.
