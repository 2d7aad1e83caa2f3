(** * Theorems about the sort of the subplates *)

From Coq Require Import List ZArith QArith Bool Lia Arith Permutation Sorted.
From Verif Require Import Util Common_Model OneDim_Model Guil_Model GuilSol_Model GuilBuild_Model GuilBuild_Spec GuilBuild_Proof GuilBuild_Props
  GuilSort_Model GuilSort_Spec GuilSort_Proof.
Import ListNotations.
Open Scope Z_scope.

(** The comparison of two products of 64-bit values without 128-bit integers is
    exact. *)
Theorem C76_products : forall a b c d, 0 <= a < 2 ^ 64 -> 0 <= b < 2 ^ 64 -> 0 <= c < 2 ^ 64 -> 0 <= d < 2 ^ 64 ->
  mul_less a b c d = true <-> a * b < c * d.
Proof. intros a b c d Ha Hb Hc Hd. rewrite mul_less_exact by assumption. apply Z.ltb_lt. Qed.
Print Assumptions C76_products.

Example C76_products_nonvacuous :
  mul_less (2 ^ 63 - 1) (2 ^ 63 - 1) (2 ^ 63 - 2) (2 ^ 63) = false /\ mul_less (2 ^ 63 - 2) (2 ^ 63) (2 ^ 63 - 1) (2 ^ 63 - 1) = true
  /\ (2 ^ 63 - 2) * 2 ^ 63 < (2 ^ 63 - 1) * (2 ^ 63 - 1).
Proof. repeat split; vm_compute; reflexivity. Qed.

(** The order of two subplates is the documented one, for every list of criteria;
    no two subplates come both first, and subplates not ordered with a third one
    are not ordered: [std::stable_sort] is called with a strict weak order. *)
Theorem C76_order : forall cs,
  (forall a b, Fits64 a -> Fits64 b -> subplate_less cs a b = true <-> Comes_first cs a b)
  /\ (forall a b, Fits64 a -> Fits64 b -> subplate_less cs a b = true -> subplate_less cs b a = false)
  /\ (forall a b c, Fits64 a -> Fits64 b -> Fits64 c -> subplate_less cs a b = true -> subplate_less cs b c = true ->
        subplate_less cs a c = true)
  /\ (forall a b c, Fits64 a -> Fits64 b -> Fits64 c -> subplate_less cs a b = false -> subplate_less cs b a = false ->
        subplate_less cs b c = false -> subplate_less cs c b = false ->
        subplate_less cs a c = false /\ subplate_less cs c a = false).
Proof.
  intros cs. split; [intros; apply less_first; assumption|]. split; [intros; apply less_asym; assumption|]. split.
  - intros a b c Ha Hb Hc H1 H2. destruct (subplate_less cs a c) eqn:E; [reflexivity|].
    rewrite (less_neg_trans cs a c b Ha Hc Hb E (less_asym _ _ _ Hb Hc H2)) in H1. discriminate.
  - intros a b c Ha Hb Hc H1 H2 H3 H4. split; [apply (less_neg_trans cs a b c)|apply (less_neg_trans cs c b a)]; assumption.
Qed.
Print Assumptions C76_order.

(** The measures of the nodes are those documented: item content in the two
    directions, area, and waste below the node. *)
Theorem C76_measures : forall o ns,
  (forall id c, (id < length ns)%nat -> In c (gn_children (gnode ns id)) -> (id < c)%nat) ->
  Measured ns (fun id => nth id (compute_node_lengths o ns) le_zero).
Proof.
  intros o ns Hc id Hid n. rewrite (lengths_fix o ns Hc id Hid). fold n. set (res := compute_node_lengths o ns). unfold node_lengths. cbv zeta.
  pose proof (lengths_children res (gn_children n) (mkLe 0 0 0 ((gn_r n - gn_l n) * (gn_t n - gn_b n))) (Z.le_refl 0)) as L. cbv zeta in L.
  cbn [le_1 le_2 le_waste le_area] in L. destruct L as (L1 & L2 & L3 & L4).
  assert (Mx : 0 <= zmax_by (fun c => le_2 (nth c res le_zero)) (gn_children n)).
  { unfold zmax_by. clear. induction (gn_children n); cbn [fold_right]; lia. }
  destruct (0 <=? gn_item n) eqn:E0; [apply Z.leb_le in E0|apply Z.leb_gt in E0].
  - destruct o; match goal with |- context [if ?c then mkLe _ _ _ _ else _] => destruct c end; cbn [le_1 le_2 le_waste le_area];
      (repeat split; try lia; tauto).
  - destruct (gn_item n =? -2) eqn:E2; [apply Z.eqb_eq in E2|apply Z.eqb_neq in E2].
    + unfold lengths_of_children. rewrite L1, L2, L3, L4. repeat split; lia.
    + cbn [le_1 le_2 le_waste le_area]. repeat split; lia.
Qed.
Print Assumptions C76_measures.

(** The children of a node are the ones that are not waste, the documented first
    ones first, and in the order of the nodes if none of two comes first. *)
Theorem C76_sorted : forall o ns cs id,
  let m := fun k => nth k (compute_node_lengths o ns) le_zero in
  let sorted := sorted_kids ns (compute_node_lengths o ns) cs id in
  (forall k, In k (content_kids ns id) -> Fits64 (m k)) ->
  Permutation sorted (content_kids ns id)
  /\ StronglySorted (fun a b => Comes_first cs (m a) (m b) \/ ~ Comes_first cs (m b) (m a) /\ (a < b)%nat) sorted.
Proof.
  intros o ns cs id m sorted Hf. split; [apply sorted_kids_perm|].
  assert (S : StronglySorted (fun a b => subplate_less cs (m a) (m b) = true \/ subplate_less cs (m b) (m a) = false /\ (a < b)%nat) sorted).
  { unfold sorted, sorted_kids, kids_of. rewrite filter_filter.
    apply (stable_sort_stable (fun a b => subplate_less cs (m a) (m b)) (fun k => Fits64 (m k))).
    - intros a b Ha Hb. apply less_asym; assumption.
    - intros a b c Ha Hb Hc. apply less_neg_trans; assumption.
    - apply Forall_forall. intros k Hk. apply Hf. exact Hk.
    - apply filter_seq_sorted. }
  assert (F : forall k, In k sorted -> Fits64 (m k)) by (intros k Hk; apply Hf; apply (Permutation_in _ (sorted_kids_perm _ _ _ _) Hk)).
  clearbody sorted. clear Hf. induction S as [|a l S IH HF]; [constructor|]. constructor; [apply IH; intros; apply F; right; assumption|].
  rewrite Forall_forall in *. intros b Hb. assert (Fa := F a (or_introl eq_refl)). assert (Fb := F b (or_intror Hb)).
  destruct (HF b Hb) as [H|[H Hlt]]; [left; apply less_first; assumption|]. right. split; [|exact Hlt].
  intros C. apply less_first in C; [congruence|assumption|assumption].
Qed.
Print Assumptions C76_sorted.

(** Sorting keeps the plates, their types and copies, and the items of each plate
    with their widths and heights. *)
Theorem C76_keeps : forall i cb cs s r, (forall b, In b (gc_bins (gs_core s)) -> Sortable i b) ->
  sort_subplates i cb cs s = Some r ->
  length (gc_bins (gs_core r)) = length (gc_bins (gs_core s))
  /\ forall pos b b', nth_error (gc_bins (gs_core s)) pos = Some b -> nth_error (gc_bins (gs_core r)) pos = Some b' ->
    gs_type b' = gs_type b /\ gs_copies b' = gs_copies b
    /\ Permutation (map pl_size (bin_placements (gs_nodes b'))) (map pl_size (bin_placements (gs_nodes b))).
Proof.
  intros i cb cs s r HS H. destruct (sort_from_sound i cb cs _ _ _ HS H) as (keys & K & F). cbn in K.
  assert (G : forall bins' bins ks, map bin_key bins' = ks -> Forall2 key_of ks bins -> length bins' = length bins
    /\ forall pos b b', nth_error bins pos = Some b -> nth_error bins' pos = Some b' -> key_of (bin_key b') b).
  { clear. induction bins' as [|x bins' IH]; intros bins ks <- F; inversion F as [|? ? ? ? H1 H2]; subst; [split; [reflexivity|intros [|?]; discriminate]|].
    destruct (IH _ _ eq_refl H2) as [L N]. split; [simpl; congruence|]. intros [|pos] b b' Hb Hb'; cbn in Hb, Hb'.
    - inversion Hb; inversion Hb'; subst. exact H1.
    - eapply N; eassumption. }
  destruct (G _ _ _ K F) as [L N]. split; [exact L|]. intros pos b b' Hb Hb'. destruct (N _ _ _ Hb Hb') as [K1 K2].
  unfold bin_key in K1, K2. cbn [fst snd] in K1, K2. inversion K1. auto.
Qed.
Print Assumptions C76_keeps.

(** The plate of the reconstruction, cut in three stages: two columns, the second
    one wider. *)
Definition b76_sort (cs : list SortCriterion) : option (list (nat * Z * list Placement)) :=
  match b75_two with
  | Some s => option_map (fun s => map bin_key (gc_bins (gs_core s))) (sort_subplates (b75_in GAny) b75_cb cs s)
  | None => None
  end.
Definition b76_bins : list GBin :=
  Eval vm_compute in match b75_two with Some s => gc_bins (gs_core s) | None => [] end.
Definition b76_bin : GBin := Eval vm_compute in hd (mkGB 0 0 GAny [] 0 0 false false []) b76_bins.
Definition b76_lens : list Lengths := Eval vm_compute in compute_node_lengths (gs_orient b76_bin) (gs_nodes b76_bin).

Lemma b76_pattern : Pattern GHorizontal (gs_nodes b76_bin) 2.
Proof.
  assert (K : forall id, content_kids (gs_nodes b76_bin) id =
    match id with 0 => [2] | 2 => [3] | 3 => [4; 5] | 5 => [6; 7] | _ => [] end%nat).
  { intros id. do 9 (destruct id as [|id]; [vm_compute; reflexivity|]). vm_compute. reflexivity. }
  split; [reflexivity|]. intros id kid Hr Hk. rewrite K in Hk.
  do 9 (destruct id as [|id]; [cbn [In] in Hk; try lia; try contradiction; repeat (destruct Hk as [<-|Hk]; [repeat split; try lia; try reflexivity; auto; right; reflexivity|]); contradiction|]).
  contradiction.
Qed.

Lemma b76_root : UsableRoot (gs_nodes b76_bin) 2.
Proof.
  split; [vm_compute; lia|]. split; [reflexivity|]. split; [discriminate|]. intros k Hk Hd Hf. cbn [length gs_nodes b76_bin] in Hk.
  do 11 (destruct k as [|k]; [vm_compute in Hd, Hf; congruence|]). lia.
Qed.

Lemma b76_rooted : Rooted (gs_nodes b76_bin) 2.
Proof.
  split; [right; reflexivity|]. intros k f Hk [C1 C2] Hf Hr. cbn [length gs_nodes b76_bin] in Hk.
  do 11 (destruct k as [|k]; [vm_compute in C1, C2, Hf; try congruence; inversion Hf; subst f;
    (split; [vm_compute; lia|]); first [left; reflexivity|right; split; [split; discriminate|discriminate]]|]).
  lia.
Qed.

Example C76_keeps_nonvacuous :
  b76_sort [SLength1] = Some [(0%nat, 1, [mkPl 1 1 6 0 4; mkPl 1 1 6 5 9; mkPl 0 7 11 0 10])]
  /\ b76_sort [SDensity; SLength2; SLength1] = Some [(0%nat, 1, [mkPl 0 1 5 0 10; mkPl 1 6 11 0 4; mkPl 1 6 11 5 9])]
  /\ option_map (fun s => gc_bins (gs_core s)) b75_two = Some [b76_bin] /\ Sortable (b75_in GAny) b76_bin
  /\ map pl_size (bin_placements (gs_nodes b76_bin)) = [(0%nat, 4, 10); (1%nat, 5, 4); (1%nat, 5, 4)].
Proof.
  split; [vm_compute; reflexivity|]. split; [vm_compute; reflexivity|]. split; [vm_compute; reflexivity|]. split; [|vm_compute; reflexivity].
  split; [discriminate|]. split; [repeat split; vm_compute; discriminate|]. exists 2%nat.
  split; [exact b76_root|]. split; [exact b76_pattern|].
  split; [exact b76_rooted|repeat split; vm_compute; reflexivity].
Qed.

Example C76_sorted_nonvacuous :
  compute_node_lengths (gs_orient b76_bin) (gs_nodes b76_bin) = b76_lens /\ content_kids (gs_nodes b76_bin) 3 = [4; 5]%nat
  /\ sorted_kids (gs_nodes b76_bin) b76_lens [SLength1] 3 = [5; 4]%nat
  /\ sorted_kids (gs_nodes b76_bin) b76_lens [SDensity] 3 = [4; 5]%nat
  /\ Fits64 (nth 4 b76_lens le_zero) /\ Fits64 (nth 5 b76_lens le_zero).
Proof.
  split; [vm_compute; reflexivity|]. split; [vm_compute; reflexivity|]. split; [vm_compute; reflexivity|]. split; [vm_compute; reflexivity|].
  unfold Fits64, b76_lens. cbn [nth le_waste le_area]. lia.
Qed.

(** ** Refutations *)

Definition b76_plate (defects : list GDefect) : GBinType := mkGBT 1 1 0 10 10 defects b75_free b75_free b75_free b75_free [].
Definition b76_par : GParams := mkGP 3 GNonExact GVertical 0 (-1) 0 (-1) 0 (-1) (-1) false 0 [] 0.
(** A defect near the left side, and an item 5 x 10. *)
Definition b76_defect : GInstance :=
  mkGIn OKnapsack b76_par [b76_plate [mkGD 1 2 1 1]] [mkGI 40 1 0 5 10 0 0 true [[]]] [0; 1]%nat [0]%nat.
(** An item 3 x 10 that must be cut before an item 5 x 10. *)
Definition b76_stack : GInstance :=
  mkGIn OKnapsack b76_par [b76_plate []] [mkGI 40 1 0 3 10 0 0 true [[]]; mkGI 40 1 0 5 10 0 1 true [[]]] [0; 2]%nat [0; 1]%nat.
Definition b76_of (i : GInstance) (items : list Placement) : GSolution :=
  match build_guillotine_solutions sort_pl i b75_cb 9 0 items with GBList [s] => s | _ => gsol_new i end.

(** A feasible solution stays feasible: no, the waste over a defect is dropped and
    the item after it slides on the defect. *)
Theorem C76_keeps_feasible_refuted :
  ~ (forall i cb cs s r, gp_through_defects (gin_params i) = false -> gs_feasible s = true -> sort_subplates i cb cs s = Some r -> gs_feasible r = true).
Proof.
  intros H. assert (E := H b76_defect b75_cb [SDensity; SLength2; SLength1] (b76_of b76_defect [mkPl 0 2 7 0 10])).
  assert (X : option_map gs_feasible (sort_subplates b76_defect b75_cb [SDensity; SLength2; SLength1] (b76_of b76_defect [mkPl 0 2 7 0 10])) = Some false) by (vm_compute; reflexivity).
  destruct (sort_subplates b76_defect b75_cb [SDensity; SLength2; SLength1] (b76_of b76_defect [mkPl 0 2 7 0 10])) as [r|] eqn:Er; [|discriminate].
  assert (F : gs_feasible r = true) by (apply E; [reflexivity|vm_compute; reflexivity|reflexivity]).
  cbn in X. congruence.
Qed.
Print Assumptions C76_keeps_feasible_refuted.

(** On plates without defect a feasible solution stays feasible: no, the order of
    the items of a stack is not looked at. *)
Theorem C76_keeps_stack_order_refuted :
  ~ (forall i cb cs s r, (forall t, gb_defects (gbin i t) = []) -> gs_feasible s = true -> sort_subplates i cb cs s = Some r -> gs_feasible r = true).
Proof.
  intros H. assert (E := H b76_stack b75_cb [SDensity; SLength2; SLength1] (b76_of b76_stack [mkPl 0 0 3 0 10; mkPl 1 3 8 0 10])).
  assert (X : option_map gs_feasible (sort_subplates b76_stack b75_cb [SDensity; SLength2; SLength1] (b76_of b76_stack [mkPl 0 0 3 0 10; mkPl 1 3 8 0 10])) = Some false) by (vm_compute; reflexivity).
  destruct (sort_subplates b76_stack b75_cb [SDensity; SLength2; SLength1] (b76_of b76_stack [mkPl 0 0 3 0 10; mkPl 1 3 8 0 10])) as [r|] eqn:Er; [|discriminate].
  assert (F : gs_feasible r = true).
  { apply E; [|vm_compute; reflexivity|reflexivity]. intros [|[|t]]; vm_compute; reflexivity. }
  cbn in X. congruence.
Qed.
Print Assumptions C76_keeps_stack_order_refuted.
