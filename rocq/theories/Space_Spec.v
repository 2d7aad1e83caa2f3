(** * Free boxes *)

From Coq Require Import List ZArith QArith Bool.
From Verif Require Import Util Block_Model Space_Model.
Import ListNotations.
Open Scope Z_scope.

(** [r] is inside [s]. *)
Definition within (r s : Space) : Prop :=
  Forall2 (fun a b => fst b <= fst a /\ fst a + snd a <= fst b + snd b) r s.

(** Along some axis [r] ends before [s] starts, or the converse: their insides do not
    meet. *)
Inductive apart : Space -> Space -> Prop :=
| ap_here : forall a b r s, fst a + snd a <= fst b \/ fst b + snd b <= fst a -> apart (a :: r) (b :: s)
| ap_next : forall a b r s, apart r s -> apart (a :: r) (b :: s).

Definition positive (r : Space) : Prop := Forall (fun a => 0 < snd a) r.

(** A box inside the bin that meets no obstacle. *)
Definition free (bin : Space) (obstacles : list Space) (r : Space) : Prop :=
  positive r /\ within r bin /\ forall o, In o obstacles -> apart r o.

(** A free box that is not inside a larger one. *)
Definition maximal_free (bin : Space) (obstacles : list Space) (r : Space) : Prop :=
  free bin obstacles r /\ forall r', free bin obstacles r' -> within r r' -> r' = r.

(** A block of sides [dims] can be put inside [s]. *)
Definition has_room (dims : list Z) (s : Space) : Prop := Forall2 (fun l a => l <= snd a) dims s.

(** Copies of item type [x] in a block. *)
Definition content (b : SBlock) (x : nat) : Z := zsum (fun e => if Nat.eqb (fst e) x then snd e else 0) (sb_copies b).

(** What the search receives. *)
Record sdata_ok (d : SData) : Prop := {
  (* every box has one length per axis *)
  da_defects : forall o, In o (sd_defects d) -> length o = length (sd_bin d);
  da_dims : forall b, In b (sd_blocks d) -> length (sb_dims b) = length (sd_bin d) /\ Forall (fun l => 0 < l) (sb_dims b);
  (* the blocks hold available copies of the items *)
  da_copies : forall b x c, In b (sd_blocks d) -> In (x, c) (sb_copies b) ->
    (x < length (sd_copies d))%nat /\ 0 < c <= nth x (sd_copies d) 0;
  da_nodup : forall b, In b (sd_blocks d) -> NoDup (map fst (sb_copies b)) /\ sb_copies b <> [];
  da_number : forall b, In b (sd_blocks d) -> sb_number b = zsum snd (sb_copies b);
  (* a bin with no room for any item along an axis has no block *)
  da_bin : Forall (fun l => 0 < l) (sd_bin d) \/ sd_blocks d = [];
  da_available : forall c, In c (sd_copies d) -> 0 <= c
}.

(** The box occupied by a placed block. *)
Definition occupied (d : SData) (p : nat * list Z) : Space := combine (snd p) (sb_dims (sblock d (fst p))).

(** Copies of item type [x] in the placed blocks. *)
Definition placed_copies (d : SData) (n : SNode) (x : nat) : Z := zsum (fun p => content (sblock d (fst p)) x) (sn_placed n).

(** One more block of this kind can be made of the copies left. *)
Definition available (d : SData) (n : SNode) (id : nat) : Prop :=
  (id < length (sd_blocks d))%nat /\
  forall x, (x < length (sd_copies d))%nat -> placed_copies d n x + content (sblock d id) x <= nth x (sd_copies d) 0.

(** What blocks in the bin must satisfy, and what the search knows about them. *)
Record node_ok (d : SData) (n : SNode) : Prop := {
  (* the placed blocks are inside the bin, off the defects, and do not overlap *)
  nk_inside : forall p, In p (sn_placed n) -> (fst p < length (sd_blocks d))%nat /\ within (occupied d p) (bin_space d);
  nk_defects : forall p o, In p (sn_placed n) -> In o (sd_defects d) -> apart (occupied d p) o;
  nk_apart : ForallOrdPairs (fun p q => apart (occupied d p) (occupied d q)) (sn_placed n);
  (* numbers of copies, weight *)
  nk_copies : forall x, (x < length (sd_copies d))%nat -> placed_copies d n x <= nth x (sd_copies d) 0;
  nk_max_weight : forall w, sd_max_weight d = Some w -> sn_placed n = [] \/
    (qsum (fun p => sb_weight (sblock d (fst p))) (sn_placed n) <= w)%Q;
  (* the totals the node carries *)
  nk_counts : length (sn_copies n) = length (sd_copies d)
    /\ forall x, (x < length (sd_copies d))%nat -> nth x (sn_copies n) 0 = placed_copies d n x;
  nk_weight : (sn_weight n == qsum (fun p => sb_weight (sblock d (fst p))) (sn_placed n))%Q;
  nk_profit : (sn_profit n == qsum (fun p => qsum (fun e => nth (fst e) (sd_profits d) 0 * inject_Z (snd e)) (sb_copies (sblock d (fst p)))) (sn_placed n))%Q;
  nk_items : sn_items n = zsum (fun p => sb_number (sblock d (fst p))) (sn_placed n);
  (* the valid blocks are the available ones *)
  nk_valid : NoDup (sn_valid n) /\ forall id, In id (sn_valid n) <-> available d n id
}.

(** The spaces of a node: distinct maximal free boxes, all those with room for an
    available block, and every free position of such a block is inside one. *)
Record spaces_ok (d : SData) (n : SNode) : Prop := {
  so_nodup : NoDup (sn_spaces n);
  so_maximal : forall s, In s (sn_spaces n) -> maximal_free (bin_space d) (sd_defects d ++ map (occupied d) (sn_placed n)) s;
  so_complete : forall s id, maximal_free (bin_space d) (sd_defects d ++ map (occupied d) (sn_placed n)) s ->
    available d n id -> has_room (sb_dims (sblock d id)) s -> In s (sn_spaces n);
  so_covers : forall pos id, available d n id -> length pos = length (sd_bin d) ->
    within (combine pos (sb_dims (sblock d id))) (bin_space d) ->
    (forall o, In o (sd_defects d ++ map (occupied d) (sn_placed n)) -> apart (combine pos (sb_dims (sblock d id))) o) ->
    exists s, In s (sn_spaces n) /\ within (combine pos (sb_dims (sblock d id))) s
}.
