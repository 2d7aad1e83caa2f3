(** * C23, C35: rectangle blocks and reachable lengths *)

From Coq Require Import List ZArith QArith Bool Lia Arith Sorted.
From Verif Require Import Util Common_Model Rect_Model Rect_Spec Block_Model Block_Proof RectBlock_Model RectBlock_Spec RectBlock_Proof.
Import ListNotations.
Open Scope Z_scope.

(** ** C23 *)

(** Every generated block is a valid guillotine partial packing that fits in the
    bin and describes its content. *)
Theorem C23_blocks_valid : forall i bt maximum fuel out, nonneg_items i ->
  compute_blocks_for_bin i bt maximum fuel = Blocks out ->
  forall b, In b out -> block_ok i bt b.
Proof. intros i bt maximum fuel out Hn H. apply (blocks_ok i Hn bt maximum fuel out H). Qed.
Print Assumptions C23_blocks_valid.

(** No two blocks have the same envelope and content; the limit on their number is
    respected; with at most three item types no block has waste. *)
Theorem C23_blocks_distinct : forall i bt maximum fuel out, nonneg_items i ->
  compute_blocks_for_bin i bt maximum fuel = Blocks out ->
  NoDup (map (fun b => (bk_x b, bk_y b, bk_copies b)) out) /\
  (0 <= maximum -> Z.of_nat (length out) <= maximum) /\
  ((length (rin_items i) <= 3)%nat -> forall b, In b out -> bk_area b = bk_x b * bk_y b).
Proof.
  intros i bt maximum fuel out Hn H. destruct (blocks_ok i Hn bt maximum fuel out H) as (A1 & A2 & A3 & A4).
  split; [exact A2|]. split; [intro Hm; apply A4; lia|]. intros Hl b Hb.
  apply (proj1 (skip_spec i bt b (A1 b Hb)) (A3 b Hb) Hl).
Qed.
Print Assumptions C23_blocks_distinct.

(** The generation ends, with or without a limit, unless an item has a zero side. *)
Theorem C23_terminates : forall i bt maximum,
  (forall it, In it (rin_items i) -> 0 < ri_x it /\ 0 < ri_y it /\ 0 <= ri_copies it) ->
  exists n out, forall fuel, (n <= fuel)%nat -> compute_blocks_for_bin i bt maximum fuel = Blocks out.
Proof.
  intros i bt maximum Hpos.
  assert (Hn : nonneg_items i) by (intros it Hit; destruct (Hpos it Hit) as (A & B & C); lia).
  apply blocks_terminate; [assumption|]. unfold grids.
  assert (G : forall l, (forall o, In o l -> o <> None) -> concat_all (A := RBlock) l <> None).
  { induction l as [|o l IH]; intro Hl; [discriminate|]. cbn [concat_all].
    destruct o as [a|]; [|exfalso; apply (Hl None); [left; reflexivity|reflexivity]].
    destruct (concat_all l) eqn:E; [discriminate|]. exfalso. apply IH; [|reflexivity]. intros o Ho. apply Hl. right. assumption. }
  apply G. intros o Ho. apply in_flat_map in Ho. destruct Ho as (x & Hx & Ho). apply in_seq in Hx.
  assert (Hr : forall rot, grids_rot i bt x rot <> None).
  { intro rot. destruct (Hpos (ritem i x)) as (A & B & _); [apply nth_In; lia|]. unfold grids_rot, side_x, side_y. cbv zeta.
    destruct rot; repeat match goal with |- context [?a =? 0] => destruct (Z.eqb_spec a 0); [lia|] end; discriminate. }
  destruct (ri_copies (ritem i x) <? 1); [destruct Ho|]. destruct (ri_oriented (ritem i x)); simpl in Ho.
  - destruct Ho as [<-|[]]. apply Hr.
  - destruct Ho as [<-|[<-|[]]]; apply Hr.
Qed.
Print Assumptions C23_terminates.

(** Every item that fits alone in the bin, in an allowed orientation, has its own
    block, provided the limit leaves room for two blocks per item type. *)
Theorem C23_single_items : forall i bt maximum fuel out, nonneg_items i ->
  compute_blocks_for_bin i bt maximum fuel = Blocks out ->
  maximum = -1 \/ 2 * Z.of_nat (length (rin_items i)) <= maximum ->
  forall x rot, (x < length (rin_items i))%nat -> (rot = true -> ri_oriented (ritem i x) = false) ->
    1 <= ri_copies (ritem i x) ->
    let p := mkPl x 0 0 rot in 0 < pl_w i p <= rb_x bt -> 0 < pl_h i p <= rb_y bt ->
  exists b q, In b out /\ bk_items b = [q] /\ pl_type q = x /\ pl_x q = 0 /\ pl_y q = 0 /\ pl_w i q = pl_w i p /\ pl_h i q = pl_h i p.
Proof. intros i bt maximum fuel out Hn H Hm x rot Hx Ho Hc. cbv zeta. apply (blocks_singles i Hn bt maximum fuel out H Hm x rot Hx Ho Hc). Qed.
Print Assumptions C23_single_items.

(** Adding a block to a valid bin, where its envelope is inside the bin, meets no
    item and no defect, gives a valid bin. *)
Theorem C23_placement : forall i bt bt' ps b px py, block_ok i bt' b -> geometry_ok i bt ps ->
  0 <= px -> px + bk_x b <= rb_x bt -> 0 <= py -> py + bk_y b <= rb_y bt ->
  (forall p, In p ps -> pl_xe i p <= px \/ px + bk_x b <= pl_x p \/ pl_ye i p <= py \/ py + bk_y b <= pl_y p) ->
  (forall d, In d (rb_defects bt) -> px + bk_x b <= df_x d \/ df_x d + df_lx d <= px \/ py + bk_y b <= df_y d \/ df_y d + df_ly d <= py) ->
  geometry_ok i bt (ps ++ put b px py).
Proof. exact put_geometry. Qed.
Print Assumptions C23_placement.

(** A concrete case: two item types, in a 7 x 5 bin. *)
Definition ex_block_instance : RInstance :=
  mkRInst OKnapsack default_params
    [ {| ri_x := 3; ri_y := 2; ri_profit := 6%Q; ri_copies := 4; ri_copies_min := 0; ri_group := 0%nat; ri_oriented := false;
         ri_weight := 1%Q; ri_eligibility := -1; ri_resource_ids := [] |};
      {| ri_x := 1; ri_y := 2; ri_profit := 3%Q; ri_copies := 3; ri_copies_min := 0; ri_group := 0%nat; ri_oriented := true;
         ri_weight := 0%Q; ri_eligibility := -1; ri_resource_ids := [] |} ]
    [ {| rb_x := 7; rb_y := 5; rb_cost := 35%Q; rb_copies := 1; rb_copies_min := 0; rb_max_weight := None;
         rb_truck := no_truck; rb_eligibility_ids := []; rb_defects := []; rb_resources := [] |} ].

Example C23_example :
  nonneg_items ex_block_instance /\
  exists out b, compute_blocks_for_bin ex_block_instance (rbin ex_block_instance 0) 20 200 = Blocks out /\
    length out = 20%nat /\ In b out /\ bk_copies b = [(0%nat, 2); (1%nat, 1)] /\ bk_x b = 7 /\ bk_y b = 2 /\ bk_simple b = false.
Proof.
  split.
  - intros it [<-|[<-|[]]]; simpl; lia.
  - destruct (compute_blocks_for_bin ex_block_instance (rbin ex_block_instance 0) 20 200) as [| |out] eqn:E; [vm_compute in E; discriminate|vm_compute in E; discriminate|].
    pose (f := fun b => (bk_x b =? 7) && (bk_y b =? 2) && copies_eqb (bk_copies b) [(0%nat, 2); (1%nat, 1)] && negb (bk_simple b)).
    assert (K : match find f out with Some _ => True | None => False end /\ length out = 20%nat).
    { assert (E' := E). vm_compute in E'. injection E' as <-. split; vm_compute; auto. }
    destruct K as [K L]. destruct (find f out) as [b|] eqn:Ef; [|destruct K]. apply find_some in Ef. destruct Ef as [Hin Hf].
    exists out, b. unfold f in Hf. apply andb_prop in Hf. destruct Hf as [Hf H4]. apply andb_prop in Hf. destruct Hf as [Hf H3].
    apply andb_prop in Hf. destruct Hf as [H1 H2]. apply Z.eqb_eq in H1. apply Z.eqb_eq in H2. apply copies_eqb_eq in H3. apply negb_true_iff in H4.
    auto 10.
Qed.

(** An item with a zero side, which the instance builder accepts, makes the
    generation divide by zero. *)
Theorem C23_zero_side_refuted :
  let i := mkRInst OKnapsack default_params
    [ {| ri_x := 0; ri_y := 2; ri_profit := 6%Q; ri_copies := 1; ri_copies_min := 0; ri_group := 0%nat; ri_oriented := true;
         ri_weight := 0%Q; ri_eligibility := -1; ri_resource_ids := [] |} ] [rbin ex_block_instance 0] in
  nonneg_items i /\ forall maximum fuel, compute_blocks_for_bin i (rbin i 0) maximum fuel = Crashed.
Proof.
  cbv zeta. split.
  - intros it [<-|[]]; simpl; lia.
  - intros. reflexivity.
Qed.
Print Assumptions C23_zero_side_refuted.

(** With a limit that leaves less room, items lose their blocks: here the limit is
    one and the second item type has no block, although it fits. *)
Theorem C23_single_items_refuted :
  exists out, compute_blocks_for_bin ex_block_instance (rbin ex_block_instance 0) 1 200 = Blocks out /\
    forall b p, In b out -> In p (bk_items b) -> pl_type p <> 0%nat.
Proof.
  destruct (compute_blocks_for_bin ex_block_instance (rbin ex_block_instance 0) 1 200) as [| |out] eqn:E; [vm_compute in E; discriminate|vm_compute in E; discriminate|].
  exists out. split; [reflexivity|]. vm_compute in E. injection E as <-. intros b p Hb Hp.
  repeat (destruct Hb as [<-|Hb]; [repeat (destruct Hp as [<-|Hp]; [discriminate|]); destruct Hp|]). destruct Hb.
Qed.
Print Assumptions C23_single_items_refuted.

(** ** C35 *)

(** The table is defined up to the longest bin, and gives at [v] the largest
    length at most [v] that can be made with copies of the items placed side by
    side. *)
Theorem C35_max_reachable_lengths : forall i, nonneg_items i ->
  let check := fun (side : nat -> bool -> Z) (f : RBin -> Z) (res : list Z) =>
    (forall bt, In bt (rin_bins i) -> (Z.to_nat (f bt) < length res)%nat) /\
    forall v, (v < length res)%nat ->
      stackable i side (nth v res 0) /\ nth v res 0 <= Z.of_nat v /\
      (forall u, stackable i side u -> u <= Z.of_nat v -> u <= nth v res 0) in
  check (fun x rot => pl_w i (mkPl x 0 0 rot)) rb_x (max_reachable_x i) /\
  check (fun x rot => pl_h i (mkPl x 0 0 rot)) rb_y (max_reachable_y i).
Proof.
  intros i Hn. cbv zeta.
  assert (G : forall side f, (forall x rot, (x < length (rin_items i))%nat -> 0 <= side x rot) ->
    (forall bt, In bt (rin_bins i) -> (Z.to_nat (f bt) < length (max_reachable i side f))%nat) /\
    forall v, (v < length (max_reachable i side f))%nat ->
      stackable i side (nth v (max_reachable i side f) 0) /\ nth v (max_reachable i side f) 0 <= Z.of_nat v /\
      (forall u, stackable i side u -> u <= Z.of_nat v -> u <= nth v (max_reachable i side f) 0)).
  { intros side f Hs. destruct (max_reachable_spec i Hn side f Hs) as [L H]. cbv zeta in *. destruct (max_side_spec i f) as (M0 & M1 & _). split.
    - intros bt Hb. rewrite L. specialize (M1 bt Hb). lia.
    - intros v Hv. rewrite L in Hv. specialize (H (Z.of_nat v)). rewrite Nat2Z.id in H. apply H. lia. }
  split; apply G; intros x rot Hx; apply (sides_nonneg i Hn x rot Hx).
Qed.
Print Assumptions C35_max_reachable_lengths.

Example C35_example : max_reachable_x ex_block_instance = [0; 1; 2; 3; 4; 5; 6; 7] /\
  max_reachable_y ex_block_instance = [0; 0; 2; 3; 4; 5].
Proof. split; vm_compute; reflexivity. Qed.
