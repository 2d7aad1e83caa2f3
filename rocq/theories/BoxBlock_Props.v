(** * C41, C35: box blocks and reachable lengths *)

From Coq Require Import List ZArith QArith Bool Lia Arith Sorted.
From Verif Require Import Util Common_Model Block_Model Block_Proof RectBlock_Model RectBlock_Proof Box_Model Box_Spec BoxBlock_Model BoxBlock_Spec BoxBlock_Proof.
Import ListNotations.
Open Scope Z_scope.

(** ** C41 *)

(** Every generated block is a valid guillotine partial packing that fits in the
    bin and describes its content. *)
Theorem C41_blocks_valid : forall i bt maximum fuel out, bnonneg_items i ->
  xcompute_blocks_for_bin i bt maximum fuel = XBlocks out ->
  forall b, In b out -> xblock_ok i bt b.
Proof. intros i bt maximum fuel out Hn H. apply (xblocks_ok i Hn bt maximum fuel out H). Qed.
Print Assumptions C41_blocks_valid.

(** The items of a guillotine pattern do not overlap. *)
Theorem C41_blocks_disjoint : forall i bt b, xblock_ok i bt b -> ForallOrdPairs (bdisjoint i) (xk_items b).
Proof. intros i bt b H. apply bguillotine_disjoint. apply (xo_guillotine _ _ _ H). Qed.
Print Assumptions C41_blocks_disjoint.

(** No two blocks have the same envelope and content; the limit on their number is
    respected; with at most three item types no block has waste. *)
Theorem C41_blocks_distinct : forall i bt maximum fuel out, bnonneg_items i ->
  xcompute_blocks_for_bin i bt maximum fuel = XBlocks out ->
  NoDup (map (fun b => (xk_box b, xk_copies b)) out) /\
  (0 <= maximum -> Z.of_nat (length out) <= maximum) /\
  ((length (bx_items i) <= 3)%nat -> forall b, In b out -> xk_volume b = v_x (xk_box b) * v_y (xk_box b) * v_z (xk_box b)).
Proof.
  intros i bt maximum fuel out Hn H. destruct (xblocks_ok i Hn bt maximum fuel out H) as (A1 & A2 & A3 & A4).
  split; [exact A2|]. split; [intro Hm; apply A4; lia|]. intros Hl b Hb.
  apply (proj1 (xskip_spec i bt b (A1 b Hb)) (A3 b Hb) Hl).
Qed.
Print Assumptions C41_blocks_distinct.

(** The generation ends, with or without a limit, unless an item has a zero side. *)
Theorem C41_terminates : forall i bt maximum,
  (forall it, In it (bx_items i) -> (forall a, 0 < vat (bi_box it) a) /\ 0 <= bi_copies it) ->
  exists n out, forall fuel, (n <= fuel)%nat -> xcompute_blocks_for_bin i bt maximum fuel = XBlocks out.
Proof.
  intros i bt maximum Hpos.
  assert (Hn : bnonneg_items i) by (intros it Hit; destruct (Hpos it Hit) as (A & B); split; [intro a; specialize (A a); lia|assumption]).
  apply xblocks_terminate; [assumption|]. unfold xgrids.
  assert (G : forall l, (forall o, In o l -> o <> None) -> concat_all (A := XBlock) l <> None).
  { induction l as [|o l IH]; intro Hl; [discriminate|]. cbn [concat_all].
    destruct o as [a|]; [|exfalso; apply (Hl None); [left; reflexivity|reflexivity]].
    destruct (concat_all l) eqn:E; [discriminate|]. exfalso. apply IH; [|reflexivity]. intros o Ho. apply Hl. right. assumption. }
  apply G. intros o Ho. apply in_flat_map in Ho. destruct Ho as (x & Hx & Ho). apply in_seq in Hx.
  destruct (bi_copies (bxitem i x) <? 1); [destruct Ho|]. apply in_map_iff in Ho. destruct Ho as (r & <- & _).
  destruct (Hpos (bxitem i x)) as [A _]; [apply nth_In; lia|]. pose proof (A AX) as A1. pose proof (A AY) as A2. pose proof (A AZ) as A3. cbn [vat] in A1, A2, A3.
  assert (K : 0 < v_x (rbox i x r) /\ 0 < v_y (rbox i x r) /\ 0 < v_z (rbox i x r)) by (unfold rbox; destruct r; cbn [rotate v_x v_y v_z]; auto).
  unfold xgrids_rot. cbv zeta.
  destruct (Z.eqb_spec (v_x (rbox i x r)) 0); [lia|]. destruct (_ <? 1); [discriminate|].
  destruct (Z.eqb_spec (v_y (rbox i x r)) 0); [lia|]. destruct (_ <? 1); [discriminate|].
  destruct (Z.eqb_spec (v_z (rbox i x r)) 0); [lia|]. discriminate.
Qed.
Print Assumptions C41_terminates.

(** Every item that fits alone in the bin, in an allowed orientation, has its own
    block, provided the limit leaves room for six blocks per item type. *)
Theorem C41_single_items : forall i bt maximum fuel out, bnonneg_items i ->
  xcompute_blocks_for_bin i bt maximum fuel = XBlocks out ->
  maximum = -1 \/ 6 * Z.of_nat (length (bx_items i)) <= maximum ->
  forall x r, (x < length (bx_items i))%nat -> In r (bi_rotations (bxitem i x)) ->
    1 <= bi_copies (bxitem i x) ->
    let p := mkBP x (mkV 0 0 0) r in (forall a, 0 < bp_size i p a <= vat (bn_box bt) a) ->
  exists b q, In b out /\ xk_items b = [q] /\ bp_type q = x /\ bp_pos q = mkV 0 0 0 /\ forall a, bp_size i q a = bp_size i p a.
Proof.
  intros i bt maximum fuel out Hn H Hm x r Hx Hr Hc p Hf.
  assert (Es : forall a, vat (rbox i x r) a = bp_size i p a) by (intro a; apply (BoxSol_Proof.rotate_at i p a)).
  destruct (xblocks_singles i Hn bt maximum fuel out H Hm x r Hx Hr Hc) as (b & q & B1 & B2 & B3 & B4).
  { intro a. rewrite Es. apply Hf. }
  exists b, q. split; [assumption|]. split; [assumption|]. split; [assumption|]. split.
  - apply vec_ext. intro a. rewrite (proj1 (B4 a)). destruct a; reflexivity.
  - intro a. rewrite (proj2 (B4 a)). apply Es.
Qed.
Print Assumptions C41_single_items.

(** Adding a block to a valid bin, where its envelope is inside the bin and meets no
    item, gives a valid bin. *)
Theorem C41_placement : forall i bt bt' ps b v, xblock_ok i bt' b -> bgeometry_ok i bt ps ->
  (forall a, 0 <= vat v a /\ vat v a + vat (xk_box b) a <= vat (bn_box bt) a) ->
  (forall p, In p ps -> exists a, bp_end i p a <= vat v a \/ vat v a + vat (xk_box b) a <= vat (bp_pos p) a) ->
  bgeometry_ok i bt (ps ++ xput b v).
Proof. exact xput_geometry. Qed.
Print Assumptions C41_placement.

(** A concrete case: two item types, in a 4 x 3 x 2 bin. *)
Definition ex_xblock_instance : BInstance :=
  mkBInst OKnapsack
    [ mkBI (mkV 2 3 1) 6 3 0 [XYZ; YXZ] 1 []; mkBI (mkV 1 1 2) 3 4 0 [XYZ] 0 [] ]
    [ mkBB (mkV 4 3 2) 24 1 0 None [] ].

Example C41_example :
  bnonneg_items ex_xblock_instance /\
  exists out b, xcompute_blocks_for_bin ex_xblock_instance (bxbin ex_xblock_instance 0) 30 300 = XBlocks out /\
    In b out /\ xk_copies b = [(0%nat, 2); (1%nat, 3)] /\ xk_box b = mkV 3 3 2 /\ xk_simple b = false.
Proof.
  split.
  - intros it [<-|[<-|[]]]; split; try (intros []; simpl; lia); simpl; lia.
  - destruct (xcompute_blocks_for_bin ex_xblock_instance (bxbin ex_xblock_instance 0) 30 300) as [| |out] eqn:E; [vm_compute in E; discriminate|vm_compute in E; discriminate|].
    pose (f := fun b => veqb (xk_box b) (mkV 3 3 2) && copies_eqb (xk_copies b) [(0%nat, 2); (1%nat, 3)] && negb (xk_simple b)).
    assert (K : match find f out with Some _ => True | None => False end).
    { assert (E' := E). vm_compute in E'. injection E' as <-. vm_compute. auto. }
    destruct (find f out) as [b|] eqn:Ef; [|destruct K]. apply find_some in Ef. destruct Ef as [Hin Hf].
    exists out, b. unfold f in Hf. apply andb_prop in Hf. destruct Hf as [Hf H3]. apply andb_prop in Hf. destruct Hf as [H1 H2].
    apply veqb_eq in H1. apply copies_eqb_eq in H2. apply negb_true_iff in H3. auto.
Qed.

(** An item with a zero side, which the instance builder accepts, makes the
    generation divide by zero as soon as the other sides fit. *)
Theorem C41_zero_side_refuted :
  let i := mkBInst OKnapsack [ mkBI (mkV 1 2 0) 0 1 0 [XYZ] 0 [] ] (bx_bins ex_xblock_instance) in
  bnonneg_items i /\ forall maximum fuel, xcompute_blocks_for_bin i (bxbin i 0) maximum fuel = XCrashed.
Proof.
  cbv zeta. split.
  - intros it [<-|[]]; split; try (intros []; simpl; lia); simpl; lia.
  - intros. reflexivity.
Qed.
Print Assumptions C41_zero_side_refuted.

(** ** C35 *)

(** Along each axis, the table is defined up to the longest bin, and gives at [v]
    the largest length at most [v] that can be made with copies of the items placed
    side by side. *)
Theorem C35_box_max_reachable_lengths : forall i a, bnonneg_items i ->
  (forall bt, In bt (bx_bins i) -> (Z.to_nat (vat (bn_box bt) a) < length (xmax_reachable i a))%nat) /\
  forall v, (v < length (xmax_reachable i a))%nat ->
    xstackable i a (nth v (xmax_reachable i a) 0) /\ nth v (xmax_reachable i a) 0 <= Z.of_nat v /\
    (forall u, xstackable i a u -> u <= Z.of_nat v -> u <= nth v (xmax_reachable i a) 0).
Proof.
  intros i a Hn. destruct (xmax_reachable_spec i Hn a) as [L H]. destruct (xmax_side_spec i a) as (M0 & M1 & _). split.
  - intros bt Hb. rewrite L. specialize (M1 bt Hb). lia.
  - intros v Hv. rewrite L in Hv. apply H. lia.
Qed.
Print Assumptions C35_box_max_reachable_lengths.

Example C35_box_example : xmax_reachable ex_xblock_instance AX = [0; 1; 2; 3; 4] /\
  xmax_reachable ex_xblock_instance AY = [0; 1; 2; 3] /\ xmax_reachable ex_xblock_instance AZ = [0; 1; 2].
Proof. repeat split; vm_compute; reflexivity. Qed.
