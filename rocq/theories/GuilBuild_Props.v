(** * C75: guillotine cuts rebuilt from the positions of the items *)

From Coq Require Import List ZArith QArith Bool Lia Arith Permutation Sorted.
From Verif Require Import Util Common_Model OneDim_Model Guil_Model GuilSol_Model GuilBuild_Model GuilBuild_Spec GuilBuild_Proof.
Import ListNotations.
Open Scope Z_scope.

(** The region of a plate left by its hard trims. *)
Definition InPlate (bt : GBinType) (items : list Placement) : Prop :=
  Inside (use_l bt) (use_r bt) (use_b bt) (use_t bt) items.

(** Every solution returned has one plate, of the given type, with the given
    items at the given positions and no other item; there is at most one solution
    if the orientation of the first stage is fixed, with this orientation, at most
    two otherwise, one of each orientation.  It holds for each order [std::sort] may leave between equal keys. *)
Theorem C75_positions : forall srt i cb fuel t items sols, Sorts srt -> TrimsNonneg (gbin i t) ->
  build_guillotine_solutions srt i cb fuel t items = GBList sols ->
  (length sols <= match gp_first (gin_params i) with GAny => 2 | _ => 1 end)%nat
  /\ (forall s, In s sols -> exists b, gc_bins (gs_core s) = [b] /\ gs_type b = t /\ gs_copies b = 1
       /\ (gp_first (gin_params i) = GAny \/ gs_orient b = gp_first (gin_params i))
       /\ Permutation (bin_placements (gs_nodes b)) items)
  /\ forall s1 s2, sols = [s1; s2] -> forall b1 b2, gc_bins (gs_core s1) = [b1] -> gc_bins (gs_core s2) = [b2] ->
       gs_orient b1 = GVertical /\ gs_orient b2 = GHorizontal.
Proof. exact builds_sound. Qed.
Print Assumptions C75_positions.

(** The single solution asked for is one of them, with the fewest stages; there is
    none only if no solution was found. *)
Theorem C75_fewest_stages : forall srt i cb fuel t items sols, Sorts srt -> TrimsNonneg (gbin i t) ->
  build_guillotine_solutions srt i cb fuel t items = GBList sols ->
  match build_guillotine_solution sols with
  | Some s => In s sols /\ forall s', In s' sols -> gc_stages (gs_core s) <= gc_stages (gs_core s')
  | None => sols = []
  end.
Proof.
  intros srt i cb fuel t items sols Hs Ht H. destruct (build_guillotine_solution sols) as [s|] eqn:Hb.
  2: destruct sols as [|s0 [|s1 l]]; [reflexivity|discriminate|discriminate].
  split; [apply solution_in; exact Hb|].
  destruct (builds_sound _ _ _ _ _ _ _ Hs Ht H) as (L & _).
  assert (L2 : (length sols <= 2)%nat) by (destruct (gp_first _); lia).
  destruct sols as [|s0 [|s1 [|s2 l]]]; try discriminate; [| |simpl in L2; lia]; simpl in Hb.
  - inversion Hb. intros s' [<-|[]]. lia.
  - destruct (_ <=? _) eqn:E; inversion Hb; subst s; intros s' [<-|[<-|[]]]; try apply Z.leb_le in E; try apply Z.leb_gt in E; lia.
Qed.
Print Assumptions C75_fewest_stages.

(** Recomputing a solution with fewer stages keeps, plate by plate, the type, the
    copies and the positions of the items. *)
Theorem C75_minimize_keeps : forall srt i cb fuel s r, Sorts srt ->
  (forall b, In b (gc_bins (gs_core s)) -> TrimsNonneg (gbin i (gs_type b))) ->
  minimize_number_of_stages srt i cb fuel s = Some r ->
  length (gc_bins (gs_core r)) = length (gc_bins (gs_core s))
  /\ forall pos b b', nth_error (gc_bins (gs_core s)) pos = Some b -> nth_error (gc_bins (gs_core r)) pos = Some b' ->
    gs_type b' = gs_type b /\ gs_copies b' = gs_copies b
    /\ Permutation (bin_placements (gs_nodes b')) (bin_placements (gs_nodes b)).
Proof.
  intros srt i cb fuel s r Hs Ht H.
  destruct (minimize_from_sound srt i cb fuel s Hs Ht _ _ _ H) as (keys & K & F). cbn in K.
  assert (L : length (gc_bins (gs_core r)) = length (gc_bins (gs_core s))).
  { rewrite <- (map_length bin_key), K. assert (FL : forall {A B} (R : A -> B -> Prop) l l', Forall2 R l l' -> length l = length l') by (clear; intros A B R l l' F; induction F; simpl; congruence).
    apply FL in F. rewrite <- F. apply seq_length. }
  split; [exact L|]. intros pos b b' Hb Hb'.
  assert (Hlt : (pos < length (gc_bins (gs_core s)))%nat) by (apply nth_error_Some; congruence).
  assert (P : nth_error keys pos = Some (bin_key b')) by (rewrite <- K; apply map_nth_error; exact Hb').
  assert (G : forall l ks n x y, Forall2 (fun pos k => exists b, nth_error (gc_bins (gs_core s)) pos = Some b /\ same_key k (bin_key b)) l ks ->
    nth_error l n = Some x -> nth_error ks n = Some y -> exists b, nth_error (gc_bins (gs_core s)) x = Some b /\ same_key y (bin_key b)).
  { clear. induction l as [|a l IH]; intros ks [|n] x y HF Hx Hy; inversion HF; subst; try discriminate; cbn in Hx, Hy.
    - inversion Hx; inversion Hy; subst. assumption.
    - eapply IH; eassumption. }
  assert (Hseq : nth_error (seq 0 (length (gc_bins (gs_core s)))) pos = Some pos).
  { rewrite (nth_error_nth' _ 0%nat) by (rewrite seq_length; exact Hlt). rewrite seq_nth by exact Hlt. reflexivity. }
  destruct (G _ _ _ _ _ F Hseq P) as (b0 & Hb0 & [S1 S2]). rewrite Hb in Hb0. inversion Hb0; subst b0.
  unfold bin_key in S1, S2. cbn [fst snd] in S1, S2. inversion S1. auto.
Qed.
Print Assumptions C75_minimize_keeps.

(** Items that no straight cut separates, whatever its direction: the call never
    returns. *)
Theorem C75_never_returns : forall srt i cb fuel t items, Sorts srt -> (t < length (gin_bins i))%nat -> TrimsNonneg (gbin i t) ->
  0 <= gp_ct (gin_params i) -> InPlate (gbin i t) items -> (2 <= length items)%nat ->
  (forall v, NoCut (gp_ct (gin_params i)) v items) ->
  build_guillotine_solutions srt i cb fuel t items = GBFuel.
Proof. intros srt i cb fuel t items Hs Ht Htr Hct Hin Hlen Hno. apply builds_hang; try assumption. left. exact Hlen. Qed.
Print Assumptions C75_never_returns.

(** Neither does it for one item nearer to the left or bottom side of the plate
    than the thickness of a cut, or at that distance. *)
Theorem C75_border_never_returns : forall srt i cb fuel t q, Sorts srt -> (t < length (gin_bins i))%nat -> TrimsNonneg (gbin i t) ->
  0 <= gp_ct (gin_params i) -> InPlate (gbin i t) [q] ->
  use_l (gbin i t) < pl_l q <= use_l (gbin i t) + gp_ct (gin_params i)
  \/ use_b (gbin i t) < pl_b q <= use_b (gbin i t) + gp_ct (gin_params i) ->
  build_guillotine_solutions srt i cb fuel t [q] = GBFuel.
Proof.
  intros srt i cb fuel t q Hs Ht Htr Hct Hin Hb. apply builds_hang; try assumption.
  - intros v x _ (p & [<-|[]] & H1) (p' & [<-|[]] & H2). specialize (Hin q (or_introl eq_refl)).
    unfold pl_start, pl_end in *. destruct v; lia.
  - right. exists q. split; [reflexivity|exact Hb].
Qed.
Print Assumptions C75_border_never_returns.

(** ** Examples *)

(** A sort by insertion. *)
Fixpoint insert_pl (v : bool) (p : Placement) (l : list Placement) : list Placement :=
  match l with [] => [p] | q :: l' => if pl_start v p <=? pl_start v q then p :: l else q :: insert_pl v p l' end.
Definition sort_pl (v : bool) (l : list Placement) : list Placement := fold_right (insert_pl v) [] l.

Lemma insert_pl_perm : forall v p l, Permutation (insert_pl v p l) (p :: l).
Proof.
  intros v p. induction l as [|q l IH]; [reflexivity|]. simpl. destruct (_ <=? _); [reflexivity|].
  rewrite IH. apply perm_swap.
Qed.

Lemma sort_pl_sorts : Sorts sort_pl.
Proof.
  intros v l. induction l as [|p l [IH1 IH2]]; [split; [reflexivity|constructor]|]. simpl. split.
  - rewrite insert_pl_perm, IH1. reflexivity.
  - clear IH1. induction IH2 as [|q s Hs IH Hall]; [repeat constructor|]. simpl. destruct (_ <=? _) eqn:E.
    + apply Z.leb_le in E. constructor; [constructor; assumption|]. constructor; [exact E|].
      eapply Forall_impl; [|exact Hall]. intros a Ha. simpl in Ha. lia.
    + apply Z.leb_gt in E. constructor; [exact IH|]. eapply Permutation_Forall; [apply Permutation_sym, insert_pl_perm|].
      constructor; [lia|exact Hall].
Qed.

Definition b75_free : GTrim := mkGT 0 false.
(** A plate 11 x 10 with a left hard trim of 1; cuts of thickness 1. *)
Definition b75_in (first : GOrient) : GInstance :=
  mkGIn OKnapsack (mkGP 3 GNonExact first 0 (-1) 0 (-1) 0 (-1) (-1) false 1 [] 0)
    [mkGBT 1 1 0 11 10 [] b75_free b75_free (mkGT 1 true) b75_free []]
    [mkGI 40 1 0 4 10 0 0 true [[]]; mkGI 20 2 0 4 5 1 0 false [[]]] [0; 1; 3]%nat [0; 1; 1]%nat.
Definition b75_items : list Placement := [mkPl 1 6 11 5 9; mkPl 0 1 5 0 10; mkPl 1 6 11 0 4].
Definition b75_cb : GCallback := fun _ => true.

Definition b75_found (first : GOrient) : list (list (nat * Z * list Placement)) :=
  match build_guillotine_solutions sort_pl (b75_in first) b75_cb 9 0 b75_items with
  | GBList l => map (fun s => map bin_key (gc_bins (gs_core s))) l
  | _ => []
  end.

Example C75_positions_nonvacuous :
  (let k := [(0%nat, 1, [mkPl 0 1 5 0 10; mkPl 1 6 11 0 4; mkPl 1 6 11 5 9])] in
   b75_found GVertical = [k] /\ b75_found GHorizontal = [k] /\ b75_found GAny = [k; k])
  /\ option_map (fun s => gc_stages (gs_core s))
       (match build_guillotine_solutions sort_pl (b75_in GAny) b75_cb 9 0 b75_items with
        | GBList l => build_guillotine_solution l | _ => None end) = Some 2
  /\ TrimsNonneg (gbin (b75_in GAny) 0) /\ InPlate (gbin (b75_in GAny) 0) b75_items.
Proof.
  split; [vm_compute; repeat split|]. split; [vm_compute; reflexivity|]. split.
  - repeat split; vm_compute; discriminate.
  - intros p [<-|[<-|[<-|[]]]]; vm_compute; repeat split; discriminate || reflexivity.
Qed.

(** The second solution, with a first stage more, is rebuilt with two stages. *)
Definition b75_two : option GSolution :=
  match build_guillotine_solutions sort_pl (b75_in GAny) b75_cb 9 0 b75_items with
  | GBList (_ :: s :: _) => Some s
  | _ => None
  end.
Example C75_minimize_nonvacuous :
  option_map (fun s => (gc_stages (gs_core s), map bin_key (gc_bins (gs_core s)))) b75_two
    = Some (3, [(0%nat, 1, [mkPl 0 1 5 0 10; mkPl 1 6 11 0 4; mkPl 1 6 11 5 9])])
  /\ option_map (fun s => (gc_stages (gs_core s), map bin_key (gc_bins (gs_core s))))
       (match b75_two with Some s => minimize_number_of_stages sort_pl (b75_in GAny) b75_cb 9 s | None => None end)
    = Some (2, [(0%nat, 1, [mkPl 0 1 5 0 10; mkPl 1 6 11 0 4; mkPl 1 6 11 5 9])]).
Proof. split; vm_compute; reflexivity. Qed.

(** ** Refutations *)

(** A plate 3 x 3 and four items 2 x 1 turning around a hole. *)
Definition b75_wheel_in : GInstance :=
  mkGIn OKnapsack (mkGP 3 GNonExact GVertical 0 (-1) 0 (-1) 0 (-1) (-1) false 0 [] 0)
    [mkGBT 1 1 0 3 3 [] b75_free b75_free b75_free b75_free []]
    [mkGI 2 4 0 2 1 0 0 false [[]]] [0; 4]%nat [0; 0; 0; 0]%nat.
Definition b75_wheel : list Placement := [mkPl 0 0 2 0 1; mkPl 0 2 3 0 2; mkPl 0 1 3 2 3; mkPl 0 0 1 1 3].

Lemma b75_wheel_uncut : forall v, NoCut 0 v b75_wheel.
Proof.
  intros v x Ha (p & Hp & Hp') (q & Hq & Hq').
  assert (A1 := Ha _ (or_introl eq_refl)). assert (A2 := Ha _ (or_intror (or_introl eq_refl))).
  assert (A3 := Ha _ (or_intror (or_intror (or_introl eq_refl)))). assert (A4 := Ha _ (or_intror (or_intror (or_intror (or_introl eq_refl))))).
  unfold b75_wheel in Hp, Hq. cbn [In] in Hp, Hq.
  destruct Hp as [<-|[<-|[<-|[<-|[]]]]]; destruct Hq as [<-|[<-|[<-|[<-|[]]]]]; unfold pl_start, pl_end in *; destruct v; cbn in *; lia.
Qed.

Lemma b75_wheel_inside : InPlate (gbin b75_wheel_in 0) b75_wheel.
Proof. intros p [<-|[<-|[<-|[<-|[]]]]]; vm_compute; repeat split; discriminate || reflexivity. Qed.

(** "Returns an empty vector if the placement is not guillotine-cuttable": four
    items around a hole make the call recurse without end. *)
Theorem C75_empty_if_uncuttable_refuted :
  ~ (forall srt i cb t items, Sorts srt -> (t < length (gin_bins i))%nat -> TrimsNonneg (gbin i t) -> 0 <= gp_ct (gin_params i) ->
     InPlate (gbin i t) items -> (2 <= length items)%nat -> (forall v, NoCut (gp_ct (gin_params i)) v items) ->
     exists fuel, build_guillotine_solutions srt i cb fuel t items = GBList []).
Proof.
  intros H. destruct (H sort_pl b75_wheel_in b75_cb 0%nat b75_wheel) as (fuel & E); try exact sort_pl_sorts; try (vm_compute; lia); try (vm_compute; discriminate).
  - repeat split; vm_compute; discriminate.
  - exact b75_wheel_inside.
  - exact b75_wheel_uncut.
  - rewrite C75_never_returns in E; try exact sort_pl_sorts; try (vm_compute; lia); try (vm_compute; discriminate); try discriminate.
    + repeat split; vm_compute; discriminate.
    + exact b75_wheel_inside.
    + exact b75_wheel_uncut.
Qed.
Print Assumptions C75_empty_if_uncuttable_refuted.

(** An item 4 x 10 in a plate 5 x 10, at one cut of the left side. *)
Definition b75_side_in : GInstance :=
  mkGIn OKnapsack (mkGP 3 GNonExact GVertical 0 (-1) 0 (-1) 0 (-1) (-1) false 1 [] 0)
    [mkGBT 1 1 0 5 10 [] b75_free b75_free b75_free b75_free []]
    [mkGI 40 1 0 4 10 0 0 true [[]]] [0; 1]%nat [0]%nat.

(** One item with the size of its type, with the place of a cut on its left, is
    not always found: the call does not return. *)
Theorem C75_single_item_refuted :
  ~ (forall srt i cb t q, Sorts srt -> (t < length (gin_bins i))%nat -> TrimsNonneg (gbin i t) -> 0 <= gp_ct (gin_params i) ->
     InPlate (gbin i t) [q] -> pl_r q - pl_l q = gi_w (gitem i (pl_item q)) -> pl_t q - pl_b q = gi_h (gitem i (pl_item q)) ->
     use_l (gbin i t) + gp_ct (gin_params i) <= pl_l q -> pl_b q = use_b (gbin i t) ->
     exists fuel sols, build_guillotine_solutions srt i cb fuel t [q] = GBList sols).
Proof.
  intros H.
  assert (HI : InPlate (gbin b75_side_in 0) [mkPl 0 1 5 0 10]) by (intros p [<-|[]]; vm_compute; repeat split; discriminate || reflexivity).
  destruct (H sort_pl b75_side_in b75_cb 0%nat (mkPl 0 1 5 0 10)) as (fuel & sols & E); try exact sort_pl_sorts; try exact HI; try (vm_compute; lia);
    try reflexivity; try (vm_compute; discriminate).
  - repeat split; vm_compute; discriminate.
  - rewrite C75_border_never_returns in E; try exact sort_pl_sorts; try exact HI; try (vm_compute; lia); try (vm_compute; discriminate); try discriminate.
    + repeat split; vm_compute; discriminate.
    + left. vm_compute. split; [reflexivity|discriminate].
Qed.
Print Assumptions C75_single_item_refuted.
