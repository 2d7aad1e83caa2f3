(** * C20, C21, C55: the rectangle branching scheme *)

From Coq Require Import List ZArith QArith Bool Lia Lqa Arith Permutation.
From Verif Require Import Util Common_Model Common_Spec Common_Proof OneDim_Model OneDim_Spec Tree1D_Spec
  Rect_Model Rect_Spec RectSol_Model RectSol_Spec RectSol_Proof RectSol_Props RectBuilder_Model RectBuilder_Spec RectBuilder_Proof RectBuilder_Props RectFlip_Model RectFlip_Spec RectFlip_Proof
  RectTree_Model RectTree_Spec RectSky_Proof RectTree_Proof RectTreeRes_Proof RectTreeNode_Proof RectTreeBound_Proof Reduc_Props.
Import ListNotations.
Open Scope Z_scope.

(** ** Schemes from calls to the instance builder *)

Definition scheme_of (calls : list UCall) (dir : option bool) (strategy : nat) : option Scheme :=
  match urun calls with
  | Some b =>
      match u_build b with
      | UBuilt i d => match rflip i with UBuilt j dj => Some (mkScheme i d j dj dir strategy) | _ => None end
      | _ => None
      end
  | None => None
  end.

(** Checks of the domain by computation. *)
Definition flippableb (i : RInstance) : bool :=
  forallb (fun t => (0 <? rb_x t) && (0 <? rb_y t) && Qltb 0 (rb_cost t) && (0 <=? rb_copies_min t) && (rb_copies_min t <=? rb_copies t) && (1 <=? rb_copies t)
    && forallb (fun r => forallb (fun q => match q with [] => true | _ => false end) (skipn (length (rin_items i)) (res_item_consumptions r))) (rb_resources t)) (rin_bins i)
  && forallb (fun t => (0 <? ri_x t) && (0 <? ri_y t) && (1 <=? ri_copies t)) (rin_items i)
  && match rin_objective i with OOpenDimensionX | OOpenDimensionY => zsum rb_copies (rin_bins i) =? 1 | _ => true end.
Definition saneb (i : RInstance) : bool :=
  forallb (fun t => forallb (fun r => Qle_bool 0 (res_capacity r) && forallb (forallb (Qle_bool 0)) (res_item_consumptions r)) (rb_resources t)) (rin_bins i).
Definition reachb (i : RInstance) : bool :=
  forallb (fun t => forallb (fun f => (0 <=? df_x f + df_lx f) && (0 <=? df_y f + df_ly f)) (rb_defects t)) (rin_bins i).
Definition domainb (i : RInstance) : bool := flippableb i && saneb i && reachb i.

Lemma flippableb_ok : forall i, flippableb i = true -> flippable i.
Proof.
  intros i H1. unfold flippableb in H1. apply andb_true_iff in H1. destruct H1 as [H1 HO]. apply andb_true_iff in H1. destruct H1 as [HB HI]. rewrite forallb_forall in HB, HI. constructor.
  + intros t Ht. specialize (HB t Ht). rewrite !andb_true_iff, !Z.ltb_lt, !Z.leb_le in HB. destruct HB as ((((((A1 & A2) & A3) & A4) & A5) & A6) & _). apply Qltb_lt in A3. repeat split; assumption.
  + intros t Ht. specialize (HI t Ht). rewrite !andb_true_iff, !Z.ltb_lt, !Z.leb_le in HI. tauto.
  + intros t r x Ht Hr Hx. specialize (HB t Ht). rewrite !andb_true_iff in HB. destruct HB as [_ HB]. rewrite forallb_forall in HB. specialize (HB r Hr). rewrite forallb_forall in HB. unfold schedule.
    destruct (le_lt_dec (length (res_item_consumptions r)) x) as [L|L]; [apply nth_overflow; exact L|].
    specialize (HB (nth x (res_item_consumptions r) [])). destruct (nth x (res_item_consumptions r) []) as [|q l] eqn:E; [reflexivity|]. exfalso. assert (X : false = true); [|discriminate]. apply HB. rewrite <- E.
    rewrite <- (firstn_skipn (length (rin_items i)) (res_item_consumptions r)) at 1. rewrite app_nth2 by (rewrite firstn_length; lia). apply nth_In. rewrite firstn_length, skipn_length. lia.
  + intros Ho. destruct Ho as [Ho|Ho]; rewrite Ho in HO; apply Z.eqb_eq; exact HO.
Qed.

Lemma domainb_ok : forall calls dir k s, scheme_of calls dir k = Some s -> domainb (sc_i s) = true -> rtree_domain s.
Proof.
  intros calls dir k s H Hd. unfold scheme_of in H. destruct (urun calls) as [b|] eqn:Eb; [|discriminate]. destruct (u_build b) as [i d| |] eqn:Ei; try discriminate. destruct (rflip i) as [j dj| |] eqn:Ej; try discriminate. injection H as <-. cbn [sc_i] in Hd.
  destruct (C48_built calls b i d Eb Ei) as (Hc & _ & _). unfold domainb in Hd. apply andb_true_iff in Hd. destruct Hd as [Hd H3]. apply andb_true_iff in Hd. destruct Hd as [H1 H2].
  constructor; cbn [sc_i sc_d sc_j sc_dj]; try assumption.
  - apply flippableb_ok, H1.
  - intros t r Ht Hr. unfold saneb in H2. rewrite forallb_forall in H2. specialize (H2 t Ht). rewrite forallb_forall in H2. specialize (H2 r Hr). apply andb_true_iff in H2. destruct H2 as [A B]. apply Qle_bool_iff in A. split; [exact A|].
    intros q v Hq Hv. rewrite forallb_forall in B. specialize (B q Hq). rewrite forallb_forall in B. apply Qle_bool_iff, B, Hv.
  - intros t f Ht Hf. unfold reachb in H3. rewrite forallb_forall in H3. specialize (H3 t Ht). rewrite forallb_forall in H3. specialize (H3 f Hf). rewrite andb_true_iff, !Z.leb_le in H3. exact H3.
Qed.

(** Nodes by choice of insertions; all the nodes below a node. *)
Fixpoint rwalk (s : Scheme) (n : RNode) (ks : list nat) : option RNode :=
  match ks with
  | [] => Some n
  | k :: rest =>
      match rinsertions s n with
      | Some l => match nth_error l k with Some ins => match rchild s n ins with Some m => rwalk s m rest | None => None end | None => None end
      | None => None
      end
  end.

Lemma rbelow_first : forall s n l ins c m, rinsertions s n = Some l -> In ins l -> rchild s n ins = Some c -> rbelow s c m -> rbelow s n m.
Proof. intros s n l ins c m Hl Hin Hc H. eapply rbelow_trans; [|exact H]. exact (rbelow_child s n n l ins c (rbelow_refl s n) Hl Hin Hc). Qed.

Lemma rwalk_below : forall s ks n m, rwalk s n ks = Some m -> rbelow s n m.
Proof.
  induction ks as [|k ks IH]; intros n m H; cbn [rwalk] in H; [injection H as <-; constructor|]. destruct (rinsertions s n) as [l|] eqn:El; [|discriminate]. destruct (nth_error l k) as [ins|] eqn:Ek; [|discriminate]. destruct (rchild s n ins) as [c|] eqn:Ec; [|discriminate].
  eapply rbelow_first; [exact El|exact (nth_error_In _ _ Ek)|exact Ec|apply IH, H].
Qed.

Fixpoint rexplore (fuel : nat) (s : Scheme) (n : RNode) : option (list RNode) :=
  match fuel with
  | O => None
  | S fuel =>
      match rinsertions s n with
      | None => Some [n]
      | Some l =>
          option_map (cons n) (oconcat (map (fun ins => match rchild s n ins with Some c => rexplore fuel s c | None => Some [] end) l))
      end
  end.

Lemma rbelow_cases : forall s n m, rbelow s n m -> m = n \/ exists l ins c, rinsertions s n = Some l /\ In ins l /\ rchild s n ins = Some c /\ rbelow s c m.
Proof.
  intros s n m H. induction H as [|m l ins m' H IH Hl Hin Hc]; [left; reflexivity|right]. destruct IH as [->|(l0 & ins0 & c & A & B & C & D)].
  - exists l, ins, m'. repeat split; try assumption. constructor.
  - exists l0, ins0, c. repeat split; try assumption. exact (rbelow_child s c m l ins m' D Hl Hin Hc).
Qed.

Lemma rexplore_all : forall fuel s n l, rexplore fuel s n = Some l -> forall m, rbelow s n m -> In m l.
Proof.
  induction fuel as [|fuel IH]; intros s n l H m Hm; cbn [rexplore] in H; [discriminate|]. destruct (rinsertions s n) as [li|] eqn:El.
  - destruct (oconcat _) as [rest|] eqn:Er; [|discriminate]. cbn [option_map] in H. injection H as <-. destruct (rbelow_cases s n m Hm) as [->|(l0 & ins & c & A & B & C & D)]; [left; reflexivity|right]. rewrite El in A. injection A as <-.
    clear El. revert rest Er. induction li as [|i0 li IHl]; intros rest Er; [destruct B|]. cbn [map oconcat] in Er. destruct B as [->|B].
    + rewrite C in Er. destruct (rexplore fuel s c) as [a|] eqn:Ea; [|discriminate]. destruct (oconcat (map _ li)) as [b|]; [|discriminate]. injection Er as <-. apply in_or_app. left. apply (IH s c a Ea m D).
    + destruct (match rchild s n i0 with Some c0 => rexplore fuel s c0 | None => Some [] end) as [a|]; [|discriminate]. destruct (oconcat (map _ li)) as [b|] eqn:Eb; [|discriminate]. injection Er as <-. apply in_or_app. right. apply (IHl B b eq_refl).
  - injection H as <-. destruct (rbelow_cases s n m Hm) as [->|(l0 & ins & c & A & _)]; [left; reflexivity|]. congruence.
Qed.

Definition ex_tree_calls : list UCall :=
  [USetObjective OBinPacking; UAddBin 10 8; UAddDefect 0 4 0 1 1; USetBinWeight 0 (Some 9%Q); USetBinCopies 0 2; UAddBin 12 8; USetBinCopies 1 1; UAddResource 0 3 false 0;
   UAddItem 4 3 false; USetItemCopies 0 3; USetItemWeight 0 2; UAddItem 5 5 true; USetItemCopies 1 2; USetItemWeight 1 3; UAddConsumption 0 0 1 0 2; UAddConsumption 0 0 1 1 1].

Definition no_scheme : Scheme :=
  let i := mkRInst ODefault (mkRP UNone LX []) [] [] in
  let d := mkDv [] [] 0 None 0 0%nat 0 0 0 0 None None 0 0 0 None 0 false [] [] in mkScheme i d i d None 0.
Definition the_scheme (calls : list UCall) (dir : option bool) : Scheme := match scheme_of calls dir 0 with Some s => s | None => no_scheme end.
(** Node reached by the choices [ks] of insertions. *)
Definition the_node (s : Scheme) (ks : list nat) : RNode := match rwalk s (rroot s) ks with Some n => n | None => rroot s end.

Ltac dom calls dir := apply (domainb_ok calls dir 0); vm_compute; reflexivity.
Ltac walk ks := apply (rwalk_below _ ks); vm_compute; reflexivity.

(** ** C20 *)

(** Every node of the tree becomes a solution; its bins are valid (the weight and the
    resources without penalty up to the tolerance), no item type and no bin type is used
    more than its copies. *)
Theorem C20_solutions : forall s cb n, rtree_domain s -> rreachable s n -> exists sol, rto_solution s cb n = Some sol /\
  packing_ok (sc_i s) (rview sol) /\ (forall d, In d (rview sol) -> rtol_bin_ok (sc_i s) d) /\
  (forall t, (t < length (rin_bins (sc_i s)))%nat -> rused_bins t (rview sol) <= rb_copies (rbin (sc_i s) t)).
Proof.
  intros s cb n Hd Hn. destruct (rnode_inv s Hd n Hn) as [ds NI]. destruct (rsolution_ok s Hd cb n ds NI) as (sol & E & _ & V & _). exists sol. split; [exact E|]. rewrite V.
  assert (Ht : forall d, In d ds -> (rd_type d < length (rin_bins (sc_i s)))%nat).
  { intros d Hdd. apply (in_map rd_type) in Hdd. rewrite (nv_types s n ds NI) in Hdd. assert (X : In (rd_type d) (rts_bins (sc_i s))) by (rewrite <- (firstn_skipn (rn_bins n) (rts_bins (sc_i s))); apply in_or_app; left; exact Hdd).
    apply (In_nth _ _ 0%nat) in X. destruct X as (k & Hk & <-). apply rts_bins_nth, Hk. }
  split; [|split].
  - constructor; [|intros x Hx; apply (nv_copies s n ds NI x Hx)]. intros d Hdd. split; [apply Ht, Hdd|]. split; [rewrite (nv_one s n ds NI d Hdd); lia|]. apply (rk_geometry _ _ (nv_ok s n ds NI d Hdd)).
  - apply (nv_ok s n ds NI).
  - intros t Htt. etransitivity; [|apply (rused_bound s Hd (rn_bins n) t Htt)]. rewrite <- (nv_types s n ds NI). pose proof (nv_one s n ds NI) as Ho. clear - Ho. unfold rused_bins. induction ds as [|d ds IH]; [cbn; lia|]. rewrite zsum_cons. cbn [map count_occ].
    specialize (IH (fun d' H => Ho d' (or_intror H))). rewrite (Ho d (or_introl eq_refl)). destruct (Nat.eqb_spec (rd_type d) t) as [E|E]; destruct (Nat.eq_dec (rd_type d) t); try contradiction; lia.
Qed.
Print Assumptions C20_solutions.

Example C20_solutions_example : let s := the_scheme ex_tree_calls None in rtree_domain s /\ rreachable s (the_node s [0; 0; 0; 0; 0]%nat) /\
  exists sol, rto_solution s raccept (the_node s [0; 0; 0; 0; 0]%nat) = Some sol /\ length (rview sol) = 3%nat /\ rall_packed (sc_i s) (rview sol).
Proof.
  cbv zeta. split; [dom ex_tree_calls (@None bool)|]. split; [walk [0; 0; 0; 0; 0]%nat|]. eexists. split; [vm_compute; reflexivity|]. split; [vm_compute; reflexivity|]. intros [|[|x]] Hx; try (vm_compute; reflexivity). vm_compute in Hx. lia.
Qed.

(** In the direction X items are only packed in bins they are eligible for. *)
Theorem C20_eligible : forall s cb n sol, rtree_domain s -> rreachable s n -> sc_direction s = Some false -> rto_solution s cb n = Some sol -> relig_ok (sc_i s) (rview sol).
Proof.
  intros s cb n sol Hd Hn Hdir E. destruct (rnode_inv s Hd n Hn) as [ds NI]. destruct (rsolution_ok s Hd cb n ds NI) as (sol' & E' & _ & V & _). rewrite E in E'. injection E' as <-. rewrite V.
  intros d p Hdd Hp. destruct (nv_elig s n ds NI Hdir) as [_ G]. specialize (G d p Hdd Hp).
  assert (Ht : (rd_type d < length (rin_bins (sc_i s)))%nat). { destruct (C20_solutions s cb n Hd Hn) as (sol' & E2 & P & _). rewrite E in E2. injection E2 as <-. rewrite V in P. apply (pa_bins _ _ P d Hdd). }
  apply (proj2 (rc_item_type_ids _ _ (rd_consistent s Hd)) _ Ht) in G. tauto.
Qed.
Print Assumptions C20_eligible.

Definition ex_eligible_calls : list UCall :=
  [USetObjective OBinPacking; UAddBin 10 10; UAddEligibility 0 1; UAddBin 8 8; UAddEligibility 1 2; UAddItem 4 5 true; USetItemEligibility 0 2; UAddItem 5 5 true].
Example C20_eligible_example : let s := the_scheme ex_eligible_calls (Some false) in rtree_domain s /\ rreachable s (the_node s [0; 0]%nat) /\ rleaf s (the_node s [0; 0]%nat) = true /\
  exists sol, rto_solution s raccept (the_node s [0; 0]%nat) = Some sol /\ rview sol = [mkRD 0 1 [mkPl 1 0 0 false]; mkRD 1 1 [mkPl 0 0 0 false]].
Proof. cbv zeta. split; [dom ex_eligible_calls (Some false)|]. split; [walk [0; 0]%nat|]. split; [vm_compute; reflexivity|]. eexists. split; vm_compute; reflexivity. Qed.

(** In the direction Y the eligibilities are lost: the flipped instance has none, so an
    item is packed in a bin it is not eligible for. *)
Theorem C20_eligible_y_refuted : exists s n sol, rtree_domain s /\ sc_direction s = Some true /\ rreachable s n /\ rleaf s n = true /\ rto_solution s raccept n = Some sol /\ ~ relig_ok (sc_i s) (rview sol).
Proof.
  set (calls := [USetObjective OBinPacking; UAddBin 10 10; UAddEligibility 0 1; UAddItem 4 5 true; USetItemEligibility 0 2]). exists (the_scheme calls (Some true)), (the_node (the_scheme calls (Some true)) [0%nat]). eexists.
  split; [dom calls (Some true)|]. split; [vm_compute; reflexivity|]. split; [walk [0%nat]|]. split; [vm_compute; reflexivity|]. split; [vm_compute; reflexivity|].
  intro H. specialize (H (mkRD 0 1 [mkPl 0 0 0 false]) (mkPl 0 0 0 false)). vm_compute in H. destruct H as [H|[H|[]]]; [left; reflexivity|left; reflexivity|discriminate|discriminate].
Qed.
Print Assumptions C20_eligible_y_refuted.

(** With defects the order of the groups along X may be violated: it is checked before
    the item is moved to the right of a defect. *)
Theorem C20_increasing_refuted : exists s n sol d, rtree_domain s /\ sc_direction s = Some false /\ rreachable s n /\ rleaf s n = true /\ rto_solution s raccept n = Some sol /\
  In d (rview sol) /\ ~ increasing_ok (sc_i s) (rd_items d).
Proof.
  set (calls := [USetObjective OBinPacking; USetUnloading UIncreasingX; UAddBin 10 10; UAddDefect 0 0 6 1 1; UAddItem 4 5 true; USetItemGroup 0 0; UAddItem 4 5 true; USetItemGroup 1 1]).
  exists (the_scheme calls (Some false)), (the_node (the_scheme calls (Some false)) [0; 0]%nat). eexists. eexists.
  split; [dom calls (Some false)|]. split; [vm_compute; reflexivity|]. split; [walk [0; 0]%nat|]. split; [vm_compute; reflexivity|]. split; [vm_compute; reflexivity|]. split; [vm_compute; left; reflexivity|].
  assert (E : rp_unloading (rin_params (sc_i (the_scheme calls (Some false)))) = UIncreasingX) by (vm_compute; reflexivity).
  intro H. unfold increasing_ok in H. rewrite E in H. assert (G : 1 <= 0); [|lia]. apply (H (mkPl 0 0 0 false) (mkPl 1 1 5 false)); [left; reflexivity|right; left; reflexivity|vm_compute; lia].
Qed.
Print Assumptions C20_increasing_refuted.

(** Without the condition on the defects items may leave the bin: an item is put right
    above a defect that lies below the bin. *)
Theorem C20_defect_outside_refuted : exists s n sol, rconsistent (sc_i s) (sc_d s) /\ flippable (sc_i s) /\ rreachable s n /\ rto_solution s raccept n = Some sol /\ ~ packing_ok (sc_i s) (rview sol).
Proof.
  set (calls := [USetObjective OBinPacking; UAddBin 10 10; UAddDefect 0 0 (-10) 1 2; UAddItem 4 5 true]).
  assert (X : exists b i d, urun calls = Some b /\ u_build b = UBuilt i d /\ sc_i (the_scheme calls (Some false)) = i /\ sc_d (the_scheme calls (Some false)) = d) by (eexists; eexists; eexists; split; [vm_compute; reflexivity|]; split; [vm_compute; reflexivity|split; vm_compute; reflexivity]).
  exists (the_scheme calls (Some false)), (the_node (the_scheme calls (Some false)) [1%nat]). eexists.
  split; [destruct X as (b & i & d & E1 & E2 & -> & ->); apply (C48_built calls b i d E1 E2)|]. split; [apply flippableb_ok; vm_compute; reflexivity|]. split; [walk [1%nat]|]. split; [vm_compute; reflexivity|].
  intros [H _]. specialize (H (mkRD 0 1 [mkPl 0 0 (-8) false])). cbn [rd_items rd_type] in H. destruct H as (_ & _ & H); [vm_compute; left; reflexivity|]. pose proof (ge_places _ _ _ H (mkPl 0 0 (-8) false) (or_introl eq_refl)) as [_ _ P _]. cbn in P. lia.
Qed.
Print Assumptions C20_defect_outside_refuted.

(** ** C21 *)

(** The values of a node are those of its solution. *)
Theorem C21_values : forall s cb n sol, rtree_domain s -> rreachable s n -> rto_solution s cb n = Some sol ->
  let i := sc_i s in let ds := rview sol in
  Z.of_nat (rn_bins n) = rbins_used ds /\
  rn_items n = zsum (fun d => Z.of_nat (length (rd_items d))) ds /\
  rn_area n = zsum (fun d => items_area i (rd_items d)) ds /\
  (rn_profit n == rnet_profit i ds)%Q /\
  (forall x, (x < length (rin_items i))%nat -> nth x (rn_copies n) 0 = rpacked x ds) /\
  (rleaf s n = true <-> rall_packed i ds) /\
  0 <= rn_waste n.
Proof.
  intros s cb n sol Hd Hn E i ds. destruct (rnode_inv s Hd n Hn) as [ds' NI]. destruct (rsolution_ok s Hd cb n ds' NI) as (sol' & E' & _ & V & _). rewrite E in E'. injection E' as <-. unfold ds. rewrite V. clear ds.
  split; [|split; [apply (nv_items s n ds' NI)|split; [apply (nv_area s n ds' NI)|split; [|split; [intros x Hx; apply (nv_copies s n ds' NI x Hx)|split; [|apply (nv_waste s n ds' NI)]]]]]].
  - rewrite <- (nv_len s n ds' NI). unfold rbins_used. pose proof (nv_one s n ds' NI) as Ho. clear - Ho. induction ds' as [|d ds IH]; [reflexivity|]. rewrite zsum_cons, <- IH by (intros d' Hd'; apply Ho; right; exact Hd'). rewrite (Ho d (or_introl eq_refl)). cbn [length]. lia.
  - rewrite (nv_profit s n ds' NI). unfold rnet_profit, rprofit. pose proof (nv_one s n ds' NI) as Ho. fold i. clear - Ho. induction ds' as [|d ds IH]; [cbn; ring|]. rewrite !qsum_cons, IH by (intros d' Hd'; apply Ho; right; exact Hd'). rewrite (Ho d (or_introl eq_refl)). change (inject_Z 1) with 1%Q. ring.
  - unfold rleaf. rewrite Z.eqb_eq. apply (inv_items_le s Hd n ds' NI).
Qed.
Print Assumptions C21_values.

Lemma dom_leftover : forall s, rtree_domain s -> forall dir, rp_leftover (rin_params (sinst s dir)) = rp_leftover (rin_params (sc_i s)).
Proof.
  intros s Hd [|]; [|reflexivity]. cbn [sinst]. destruct (rflip_ok (sc_i s) (rd_flippable s Hd)) as (j & d & E & _ & E2 & _). rewrite (rd_flip s Hd) in E. injection E as <- <-. exact E2.
Qed.

(** The last bin of a node: weight, resources and extents; its leftover is the one of
    the solution when the scheme fills the bin along the axis of the leftover. *)
Theorem C21_last_bin : forall s cb n sol, rtree_domain s -> rreachable s n -> rto_solution s cb n = Some sol -> rn_bins n <> 0%nat ->
  exists ds d, rview sol = ds ++ [d] /\ rd_items d <> [] /\
    let i := sc_i s in
    (rn_weight n == rweight i (rd_items d))%Q /\
    (forall r, (r < length (rb_resources (rbin i (rd_type d))))%nat -> (nth r (rn_resources n) 0 == rconsumption i (nth r (rb_resources (rbin i (rd_type d))) dummy_resource) (rd_items d))%Q) /\
    (rn_xe_max n = if rn_dir n then topmost i (rd_items d) else rightmost i (rd_items d)) /\
    (rn_ye_max n = if rn_dir n then rightmost i (rd_items d) else topmost i (rd_items d)) /\
    (match rp_leftover (rin_params i) with LArea => True | LX => rn_dir n = false | LY => rn_dir n = true end -> rn_leftover n = rc_leftover (rs_core sol)).
Proof.
  intros s cb n sol Hd Hn E Hb. destruct (rnode_inv s Hd n Hn) as [ds' NI]. destruct (rsolution_ok s Hd cb n ds' NI) as (sol' & E' & Hh & V & Hc). rewrite E in E'. injection E' as <-.
  destruct (nv_last s n ds' NI) as [(E0 & _)|(pre & ps & _ & Eds & BS & AS)]; [contradiction|]. cbv zeta in BS, AS, Eds. set (k := (rn_bins n - 1)%nat) in *. set (t := nth k (rts_bins (sc_i s)) 0%nat) in *.
  assert (Ht : (t < length (rin_bins (sc_i s)))%nat) by (apply rts_bins_nth; pose proof (nv_bound s n ds' NI); unfold k; lia).
  exists pre, (mkRD t 1 (map (place_of (rn_dir n)) ps)). rewrite V. split; [exact Eds|]. cbn [rd_items rd_type]. assert (Hne : map (place_of (rn_dir n)) ps <> []) by (intro X; apply map_eq_nil in X; exact (bs_ne _ _ _ _ BS X)). split; [exact Hne|].
  assert (Hr : forall q, In q ps -> (pl_type q < length (rin_items (sc_i s)))%nat). { intros q Hq. destruct (dom_lengths s Hd (rn_dir n)) as [<- _]. apply (ge_places _ _ _ (rk_geometry _ _ (bs_ok _ _ _ _ BS)) q Hq). }
  pose proof (dir_extents s Hd (rn_dir n) ps Hr) as X. pose proof (bs_xe _ _ _ _ BS) as Xx. pose proof (bs_ye _ _ _ _ BS) as Xy.
  cbv zeta. split; [|split; [|split; [|split]]].
  - rewrite (bs_weight _ _ _ _ BS). unfold rweight. symmetry. apply (dir_sum s (rn_dir n) ri_weight ps Hr). intros x Hx. apply (dom_item s Hd (rn_dir n) x Hx).
  - intros r Hrr. destruct (dom_bin s Hd (rn_dir n) t Ht) as (_ & _ & _ & _ & Lr). 
    rewrite (rs_val _ _ _ _ _ (bs_res _ _ _ _ BS)) by (rewrite Lr; exact Hrr). destruct (rn_dir n); [|rewrite place_of_false; reflexivity]. rewrite place_of_true. cbn [sinst]. destruct (dom_swapped s Hd) as [Hs _]. symmetry. apply (swap_consumption _ _ (swapped_sym _ _ Hs)). destruct (dom_lengths s Hd true) as [_ L2]. cbn [sinst] in L2. lia.
  - destruct (rn_dir n); [destruct X as [<- _]|destruct X as [<- _]]; exact Xx.
  - destruct (rn_dir n); [destruct X as [_ <-]|destruct X as [_ <-]]; exact Xy.
  - intros Hl. destruct (C42_last_bin (sc_i s) cb (rpath_calls s 0 (rn_path n)) [] sol pre _ (rc_resource_ids _ _ (rd_consistent s Hd)) Hc Hh (eq_trans V Eds) Hne) as (_ & _ & _ & L). cbv zeta in L. cbn [rd_type rd_items] in L. rewrite L, (as_leftover _ _ _ _ _ _ AS).
    rewrite (dom_leftover s Hd (rn_dir n)). destruct (dom_bin s Hd (rn_dir n) t Ht) as (_ & _ & Ea & _).
    destruct (rp_leftover (rin_params (sc_i s))); [|rewrite Hl in *; destruct X as [<- _]; cbn [sinst]; reflexivity|rewrite Hl in *; destruct X as [<- _]; cbn [sinst]; destruct (dom_swapped s Hd) as [[_ _ _ [_ A]] _]; specialize (A t Ht); cbv zeta in A; destruct A as (-> & _); reflexivity].
    rewrite Ea. destruct (rn_dir n); destruct X as [-> ->]; lia.
Qed.
Print Assumptions C21_last_bin.

(** Generated insertions never end in the exception of a negative waste nor in an index
    out of range; the tree is finite: the depth of a node is its number of items. *)
Theorem C21_children : forall s n l ins, rtree_domain s -> rreachable s n -> rinsertions s n = Some l -> In ins l -> exists m, rchild s n ins = Some m /\ rn_items m = rn_items n + 1.
Proof.
  intros s n l ins Hd Hn Hl Hin. destruct (rnode_inv s Hd n Hn) as [ds NI]. destruct (rnode_step s Hd n ds l ins NI Hl Hin) as (m & ds' & E & _ & St). exists m. split; [exact E|apply (st_items _ _ _ St)].
Qed.
Print Assumptions C21_children.

Theorem C21_depth : forall s n, rtree_domain s -> rreachable s n -> Z.of_nat (length (rn_path n)) = rn_items n /\ rn_items n <= zsum ri_copies (rin_items (sc_i s)) /\ (rn_bins n <= length (dv_bin_type_ids (sc_d s)))%nat.
Proof.
  intros s n Hd Hn. destruct (rnode_inv s Hd n Hn) as [ds NI]. split; [apply (path_items s Hd n Hn)|]. split; [|rewrite <- (rts_bins_length _ _ (rd_consistent s Hd)); apply (nv_bound s n ds NI)]. rewrite <- (rc_number_of_items _ _ (rd_consistent s Hd)). apply (inv_items_le s Hd n ds NI).
Qed.
Print Assumptions C21_depth.

Example C21_example : let s := the_scheme ex_tree_calls None in let n := the_node s [0; 0; 0; 0; 0]%nat in rtree_domain s /\ rreachable s n /\
  rn_bins n = 3%nat /\ rn_items n = 5 /\ rn_area n = 86 /\ rn_waste n = 114 /\ rleaf s n = true /\ exists l, rinsertions s (rroot s) = Some l /\ length l = 4%nat.
Proof. cbv zeta. split; [dom ex_tree_calls (@None bool)|]. split; [walk [0; 0; 0; 0; 0]%nat|]. do 5 (split; [vm_compute; reflexivity|]). eexists. split; vm_compute; reflexivity. Qed.

(** The search throws at the root when the unloading constraint is along Y and the
    objective opens the dimension X: the objective decides the direction. *)
Theorem C21_unloading_throws_refuted : exists s, rtree_domain s /\ sc_direction s = Some false /\ rin_objective (sc_i s) = OOpenDimensionX /\ rinsertions s (rroot s) = None.
Proof.
  set (calls := [USetObjective OOpenDimensionX; USetUnloading UOnlyY; UAddBin 10 10; UAddItem 4 5 true]). exists (the_scheme calls (Some false)). split; [dom calls (Some false)|]. repeat split; vm_compute; reflexivity.
Qed.
Print Assumptions C21_unloading_throws_refuted.

(** ** C55: nodes cut by the bounds *)

(** A node cut by the bound has no node below it better than the solution. *)
Theorem C55_leftovers : forall s n1 n2 m, rtree_domain s -> rreachable s n1 -> rin_objective (sc_i s) = OBinPackingWithLeftovers ->
  rbound s n1 n2 = Some true -> rbelow s n1 m -> rbetter s m n2 = Some false.
Proof. intros s n1 n2 m Hd H. apply (leftovers_cut s Hd n1 n2 m H). Qed.
Print Assumptions C55_leftovers.

Theorem C55_open_dimension_x : forall s n1 n2 m, rtree_domain s -> rreachable s n1 -> rin_objective (sc_i s) = OOpenDimensionX -> sc_direction s = Some false ->
  rbound s n1 n2 = Some true -> rbelow s n1 m -> rbetter s m n2 = Some false.
Proof. intros s n1 n2 m Hd H Ho Hdir. apply (open_cut s Hd n1 n2 m false H (or_introl Ho) Hdir). cbn [sinst]. lia. Qed.
Print Assumptions C55_open_dimension_x.

(** The bound divides by the height of the bin whatever the direction: in the direction Y
    it is valid if the bin is not wider than its height plus one. *)
Theorem C55_open_dimension_y_partial : forall s n1 n2 m, rtree_domain s -> rreachable s n1 -> rin_objective (sc_i s) = OOpenDimensionY -> sc_direction s = Some true ->
  rb_x (rbin (sc_i s) 0) <= rb_y (rbin (sc_i s) 0) + 1 ->
  rbound s n1 n2 = Some true -> rbelow s n1 m -> rbetter s m n2 = Some false.
Proof.
  intros s n1 n2 m Hd H Ho Hdir Hy. apply (open_cut s Hd n1 n2 m true H (or_intror Ho) Hdir). destruct (one_bin_type s Hd (or_intror Ho)) as [L E]. pose proof (rts_bins_nth (sc_i s) 0 ltac:(lia)) as A. rewrite E in A.
  cbn [sinst]. destruct (dom_swapped s Hd) as [[_ _ _ [_ B]] _]. specialize (B 0%nat A). cbv zeta in B. destruct B as (_ & -> & _). exact Hy.
Qed.
Print Assumptions C55_open_dimension_y_partial.

(** Profits and penalties are not negative and the solution pays no penalty. *)
Theorem C55_knapsack_partial : forall s cb n1 n2 sol2 m, rtree_domain s -> rreachable s n1 -> rreachable s n2 -> rto_solution s cb n2 = Some sol2 ->
  rin_objective (sc_i s) = OKnapsack \/ rin_objective (sc_i s) = OFeasibility ->
  (forall t, In t (rin_items (sc_i s)) -> (0 <= ri_profit t)%Q) ->
  (forall t r, In t (rin_bins (sc_i s)) -> In r (rb_resources t) -> (0 <= res_penalty r)%Q) ->
  (qsum (rpenalties (sc_i s)) (rview sol2) == 0)%Q ->
  rbound s n1 n2 = Some true -> rbelow s n1 m -> rbetter s m n2 = Some false.
Proof.
  intros s cb n1 n2 sol2 m Hd H1 H2 E Ho Hp Hr H0 Hb Hm. destruct (rnode_inv s Hd n2 H2) as [ds NI]. destruct (rsolution_ok s Hd cb n2 ds NI) as (sol & E' & _ & V & _). rewrite E in E'. injection E' as <-. rewrite V in H0.
  apply (knapsack_cut s Hd n1 n2 m ds H1 NI Ho Hp Hr H0 Hb Hm).
Qed.
Print Assumptions C55_knapsack_partial.

(** The waste of the node does not come from the rule of the extra bin. *)
Theorem C55_bin_packing_partial : forall s n1 n2 m, rtree_domain s -> rreachable s n1 -> rin_objective (sc_i s) = OBinPacking \/ rin_objective (sc_i s) = OVariableSizedBinPacking ->
  rn_waste n1 <= own_waste s n1 -> rbound s n1 n2 = Some true -> rbelow s n1 m -> rbetter s m n2 = Some false.
Proof. intros s n1 n2 m Hd H. apply (bin_packing_cut s Hd n1 n2 m H). Qed.
Print Assumptions C55_bin_packing_partial.

(** When the node fills the last bin there is no extra bin. *)
Theorem C55_bin_packing_last_partial : forall s n1 n2 m, rtree_domain s -> rreachable s n1 -> rin_objective (sc_i s) = OBinPacking \/ rin_objective (sc_i s) = OVariableSizedBinPacking ->
  rn_bins n1 = length (dv_bin_type_ids (sc_d s)) -> rbound s n1 n2 = Some true -> rbelow s n1 m -> rbetter s m n2 = Some false.
Proof. intros s n1 n2 m Hd H Ho Hl. destruct (rnode_inv s Hd n1 H) as [ds NI]. apply (bin_packing_cut s Hd n1 n2 m H Ho). apply (last_own s n1 ds NI). auto. Qed.
Print Assumptions C55_bin_packing_last_partial.

(** The hypotheses are met: a cut node, a solution and a node below. *)
Example C55_leftovers_example : let s := the_scheme [USetObjective OBinPackingWithLeftovers; USetLeftover LX; UAddBin 10 10; USetBinCopies 0 2; UAddItem 6 6 true; UAddItem 4 4 true; USetItemCopies 1 2] (Some false) in
  rtree_domain s /\ exists n1 n2 m, rreachable s n1 /\ rreachable s n2 /\ rbound s n1 n2 = Some true /\ rbelow s n1 m /\ n1 <> m /\ rleaf s n2 = true.
Proof.
  cbv zeta. set (calls := [USetObjective OBinPackingWithLeftovers; USetLeftover LX; UAddBin 10 10; USetBinCopies 0 2; UAddItem 6 6 true; UAddItem 4 4 true; USetItemCopies 1 2]). split; [dom calls (Some false)|].
  exists (the_node (the_scheme calls (Some false)) [1; 0]%nat), (the_node (the_scheme calls (Some false)) [0; 1; 1]%nat), (the_node (the_scheme calls (Some false)) [1; 0; 0]%nat).
  split; [walk [1; 0]%nat|]. split; [walk [0; 1; 1]%nat|]. split; [vm_compute; reflexivity|]. split; [walk [0%nat]|]. split; [intro E; apply (f_equal rn_items) in E; vm_compute in E; discriminate|vm_compute; reflexivity].
Qed.

Definition ex_open_calls (x : bool) : list UCall :=
  [USetObjective (if x then OOpenDimensionX else OOpenDimensionY); UAddBin 10 10; UAddItem 6 6 true; UAddItem 4 4 true; USetItemCopies 1 2].
Example C55_open_dimension_example : forall x, let s := the_scheme (ex_open_calls x) (Some (negb x)) in
  rtree_domain s /\ rb_x (rbin (sc_i s) 0) <= rb_y (rbin (sc_i s) 0) + 1 /\ exists n1 n2 m, rreachable s n1 /\ rreachable s n2 /\ rbound s n1 n2 = Some true /\ rbelow s n1 m /\ n1 <> m /\ rleaf s n2 = true.
Proof.
  assert (G : forall x, let s := the_scheme (ex_open_calls x) (Some (negb x)) in rtree_domain s -> rb_x (rbin (sc_i s) 0) <= rb_y (rbin (sc_i s) 0) + 1 -> forall n1 n2 m, rwalk s (rroot s) [0; 0]%nat = Some n1 -> rwalk s (rroot s) [0; 1; 1]%nat = Some n2 -> rwalk s n1 [0%nat] = Some m -> rbound s n1 n2 = Some true -> rn_items m <> rn_items n1 -> rleaf s n2 = true ->
    rtree_domain s /\ rb_x (rbin (sc_i s) 0) <= rb_y (rbin (sc_i s) 0) + 1 /\ exists n1 n2 m, rreachable s n1 /\ rreachable s n2 /\ rbound s n1 n2 = Some true /\ rbelow s n1 m /\ n1 <> m /\ rleaf s n2 = true).
  { intros x s A B n1 n2 m E1 E2 E3 E4 E5 E6. split; [exact A|]. split; [exact B|]. exists n1, n2, m. repeat split; try assumption; try (eapply rwalk_below; eassumption). congruence. }
  intros [|]; cbv zeta; eapply G; try (vm_compute; reflexivity); try (vm_compute; discriminate); [dom (ex_open_calls true) (Some false)|dom (ex_open_calls false) (Some true)].
Qed.

Definition ex_knapsack_calls : list UCall := [USetObjective OKnapsack; UAddBin 10 10; UAddResource 0 3 true 10; UAddItem 4 5 true; USetItemCopies 0 2; USetItemProfit 0 1; UAddConsumption 0 0 0 0 1].
Example C55_knapsack_example : let s := the_scheme ex_knapsack_calls (Some false) in
  rtree_domain s /\ exists n1 n2 sol2 m, rreachable s n1 /\ rreachable s n2 /\ rto_solution s raccept n2 = Some sol2 /\ (qsum (rpenalties (sc_i s)) (rview sol2) == 0)%Q /\
    (forall t, In t (rin_items (sc_i s)) -> (0 <= ri_profit t)%Q) /\ (forall t r, In t (rin_bins (sc_i s)) -> In r (rb_resources t) -> (0 <= res_penalty r)%Q) /\
    rbound s n1 n2 = Some true /\ rbelow s n1 m /\ n1 <> m.
Proof.
  cbv zeta. split; [dom ex_knapsack_calls (Some false)|]. set (s := the_scheme ex_knapsack_calls (Some false)). exists (rroot s), (the_node s [0; 0]%nat). eexists. exists (the_node s [0%nat]).
  split; [constructor|]. split; [walk [0; 0]%nat|]. split; [vm_compute; reflexivity|]. split; [vm_compute; reflexivity|]. split; [|split].
  - intros t Ht. vm_compute in Ht. destruct Ht as [<-|[]]. cbn. lra.
  - intros t r Ht Hr. vm_compute in Ht. destruct Ht as [<-|[]]. destruct Hr as [<-|[]]. cbn. lra.
  - split; [vm_compute; reflexivity|]. split; [walk [0%nat]|]. intro E. apply (f_equal rn_items) in E. vm_compute in E. discriminate.
Qed.

Definition ex_packing_calls (copies : Z) : list UCall := [USetObjective OBinPacking; UAddBin 10 10; USetBinCopies 0 copies; UAddItem 10 6 true; UAddItem 5 4 true; USetItemCopies 1 2].
Example C55_bin_packing_example : let s := the_scheme (ex_packing_calls 2) (Some false) in
  rtree_domain s /\ exists n1 n2 m, rreachable s n1 /\ rreachable s n2 /\ rn_waste n1 <= own_waste s n1 /\ rbound s n1 n2 = Some true /\ rbelow s n1 m /\ rleaf s m = true /\ rn_bins m = 2%nat /\ rn_bins n2 = 1%nat.
Proof.
  cbv zeta. split; [dom (ex_packing_calls 2) (Some false)|]. set (s := the_scheme (ex_packing_calls 2) (Some false)). exists (rroot s), (the_node s [0; 0; 0]%nat), (the_node s [1; 2; 0]%nat).
  split; [constructor|]. split; [walk [0; 0; 0]%nat|]. split; [vm_compute; discriminate|]. split; [vm_compute; reflexivity|]. split; [walk [1; 2; 0]%nat|]. repeat split; vm_compute; reflexivity.
Qed.
Example C55_bin_packing_last_example : let s := the_scheme (ex_packing_calls 1) (Some false) in
  rtree_domain s /\ exists n1 n2 m, rreachable s n1 /\ rreachable s n2 /\ rn_bins n1 = length (dv_bin_type_ids (sc_d s)) /\ rbound s n1 n2 = Some true /\ rbelow s n1 m /\ n1 <> m.
Proof.
  cbv zeta. split; [dom (ex_packing_calls 1) (Some false)|]. set (s := the_scheme (ex_packing_calls 1) (Some false)). exists (the_node s [1%nat]), (the_node s [0; 0; 0]%nat), (the_node s [1; 0; 0]%nat).
  split; [walk [1%nat]|]. split; [walk [0; 0; 0]%nat|]. split; [vm_compute; reflexivity|]. split; [vm_compute; reflexivity|]. split; [walk [0; 0]%nat|]. intro E. apply (f_equal rn_items) in E. vm_compute in E. discriminate.
Qed.

(** The rule of the extra bin tests whether an item type still fits with the height of
    the item just inserted instead of its own: after a 10 x 6 item in a 10 x 10 bin, the
    5 x 4 items are thought to need another bin, and the node that leads to one bin is
    cut because of a solution with two. *)
Theorem C55_bin_packing_refuted : exists s n1 n2 m, rtree_domain s /\ rin_objective (sc_i s) = OBinPacking /\ rreachable s n1 /\ rreachable s n2 /\
  rbound s n1 n2 = Some true /\ rbelow s n1 m /\ rbetter s m n2 = Some true /\ rn_bins m = 1%nat /\ rn_bins n2 = 2%nat.
Proof.
  set (s := the_scheme (ex_packing_calls 2) (Some false)). exists s, (the_node s [0%nat]), (the_node s [1; 2; 0]%nat), (the_node s [0; 0; 0]%nat).
  split; [dom (ex_packing_calls 2) (Some false)|]. split; [vm_compute; reflexivity|]. split; [walk [0%nat]|]. split; [walk [1; 2; 0]%nat|]. split; [vm_compute; reflexivity|]. split; [walk [0; 0]%nat|]. repeat split; vm_compute; reflexivity.
Qed.
Print Assumptions C55_bin_packing_refuted.

(** In the direction Y the bound of the open dimension still divides by the height of the
    bin: with a bin 100 wide and 10 high the root is cut by a solution of height 6
    although a solution of height 4 is below. *)
Theorem C55_open_dimension_y_refuted : exists s n1 n2 m, rtree_domain s /\ rin_objective (sc_i s) = OOpenDimensionY /\ sc_direction s = Some true /\ rreachable s n1 /\ rreachable s n2 /\
  rbound s n1 n2 = Some true /\ rbelow s n1 m /\ rbetter s m n2 = Some true /\ rn_xe_max m = 4 /\ rn_xe_max n2 = 6.
Proof.
  set (calls := [USetObjective OOpenDimensionY; UAddBin 100 10; UAddItem 100 2 true; UAddItem 50 2 true; USetItemCopies 1 2]). set (s := the_scheme calls (Some true)). exists s, (rroot s), (the_node s [0; 0; 0]%nat), (the_node s [0; 0; 1]%nat).
  split; [dom calls (Some true)|]. split; [vm_compute; reflexivity|]. split; [vm_compute; reflexivity|]. split; [constructor|]. split; [walk [0; 0; 0]%nat|]. split; [vm_compute; reflexivity|]. split; [walk [0; 0; 1]%nat|]. repeat split; vm_compute; reflexivity.
Qed.
Print Assumptions C55_open_dimension_y_refuted.

(** The knapsack bound cuts everything once all the items are packed, although with
    penalties a solution with fewer items may be better. *)
Theorem C55_knapsack_penalty_refuted : exists s n1 n2 m, rtree_domain s /\ rin_objective (sc_i s) = OKnapsack /\ rreachable s n1 /\ rreachable s n2 /\
  rbound s n1 n2 = Some true /\ rbelow s n1 m /\ rbetter s m n2 = Some true.
Proof.
  set (calls := [USetObjective OKnapsack; UAddBin 10 10; UAddResource 0 1 true 10; UAddItem 4 5 true; USetItemCopies 0 2; USetItemProfit 0 1; UAddConsumption 0 0 0 0 1;  UAddConsumption 0 0 0 1 1]).
  set (s := the_scheme calls (Some false)). exists s, (rroot s), (the_node s [0; 0]%nat), (the_node s [0%nat]).
  split; [dom calls (Some false)|]. split; [vm_compute; reflexivity|]. split; [constructor|]. split; [walk [0; 0]%nat|]. split; [vm_compute; reflexivity|]. split; [walk [0%nat]|]. vm_compute; reflexivity.
Qed.
Print Assumptions C55_knapsack_penalty_refuted.

(** Dominance does not compare the weights of the last bins: the node that dominates
    leads to no complete solution, the dominated one does. *)
Theorem C55_dominance_refuted : exists s n1 n2 m, rtree_domain s /\ rreachable s n1 /\ rreachable s n2 /\ rn_copies n1 = rn_copies n2 /\ rdominates n1 n2 = true /\
  (forall k, rbelow s n1 k -> rleaf s k = false) /\ rbelow s n2 m /\ rleaf s m = true.
Proof.
  set (calls := [USetObjective OBinPacking; UAddBin 10 10; USetBinCopies 0 2; USetBinWeight 0 (Some 10%Q); UAddItem 7 5 true; USetItemWeight 0 6; UAddItem 10 5 true; USetItemWeight 1 1; UAddItem 8 5 true; USetItemWeight 2 4; UAddItem 9 5 true; USetItemWeight 3 9]).
  set (s := the_scheme calls (Some false)). exists s, (the_node s [1; 1; 0]%nat), (the_node s [0; 1; 0]%nat), (the_node s [0; 1; 0; 0]%nat).
  split; [dom calls (Some false)|]. split; [walk [1; 1; 0]%nat|]. split; [walk [0; 1; 0]%nat|]. split; [vm_compute; reflexivity|]. split; [vm_compute; reflexivity|]. split; [|split; [walk [0%nat]|vm_compute; reflexivity]].
  intros k Hk. destruct (rexplore 3 s (the_node s [1; 1; 0]%nat)) as [l|] eqn:E; [|vm_compute in E; discriminate]. pose proof (rexplore_all _ _ _ _ E k Hk) as Hin. assert (X : forallb (fun n => negb (rleaf s n)) l = true).
  { assert (Y : option_map (forallb (fun n => negb (rleaf s n))) (rexplore 3 s (the_node s [1; 1; 0]%nat)) = Some true) by (vm_compute; reflexivity). rewrite E in Y. cbn [option_map] in Y. injection Y as Y. exact Y. }
  rewrite forallb_forall in X. apply negb_true_iff, X, Hin.
Qed.
Print Assumptions C55_dominance_refuted.

(** ** C55: claims of the search when it is exhausted *)

Lemma explore_none : forall s fuel (P : RNode -> bool), option_map (forallb P) (rexplore fuel s (rroot s)) = Some true -> forall n, rreachable s n -> P n = true.
Proof.
  intros s fuel P H n Hn. destruct (rexplore fuel s (rroot s)) as [l|] eqn:E; [|discriminate]. cbn [option_map] in H. injection H as H. rewrite forallb_forall in H. apply H, (rexplore_all _ _ _ _ E n Hn).
Qed.

(** Checks of a packing by computation, in bins without defects and resources. *)
Definition order_checks (i : RInstance) (p q : Place) : bool :=
  match rp_unloading (rin_params i) with
  | UOnlyX => negb ((pl_y p <? pl_ye i q) && (pl_y q <? pl_ye i p) && (pl_xe i p <=? pl_x q)) || (pl_group i q <=? pl_group i p)%nat
  | UIncreasingX => negb (pl_group i p <? pl_group i q)%nat || (pl_x q <=? pl_x p)
  | UNone => true
  | _ => false
  end.
Definition tol_checks (i : RInstance) (d : RDesc) : bool :=
  bin_checks i d && match rb_resources (rbin i (rd_type d)) with [] => true | _ => false end
  && match rb_max_weight (rbin i (rd_type d)) with None => true | Some w => Qle_bool (rweight i (rd_items d)) w && Qle_bool 0 w end
  && forallb (fun p => forallb (order_checks i p) (rd_items d)) (rd_items d).
Definition packing_checks (i : RInstance) (ds : list RDesc) : bool :=
  forallb (tol_checks i) ds && forallb (fun x => (0 <=? rpacked x ds) && (rpacked x ds <=? ri_copies (ritem i x))) (seq 0 (length (rin_items i)))
  && forallb (fun t => rused_bins t ds <=? rb_copies (rbin i t)) (seq 0 (length (rin_bins i))).

Lemma tol_checks_ok : forall i d, tol_checks i d = true -> (rd_type d < length (rin_bins i))%nat /\ 1 <= rd_copies d /\ rtol_bin_ok i d.
Proof.
  intros i d H. unfold tol_checks in H. rewrite !andb_true_iff in H. destruct H as (((H1 & H2) & H3) & H4). unfold bin_checks in H1. rewrite !andb_true_iff, forallb_forall in H1. destruct H1 as ((((A & B) & C) & D) & G). apply Nat.ltb_lt in A. apply Z.leb_le in B. split; [exact A|]. split; [exact B|].
  rewrite forallb_forall in H4. assert (O : forall p q, In p (rd_items d) -> In q (rd_items d) -> order_checks i p q = true). { intros p q Hp Hq. specialize (H4 p Hp). rewrite forallb_forall in H4. apply H4, Hq. }
  constructor.
  - constructor.
    + intros p Hp. specialize (C p Hp). unfold place_checks in C. rewrite !andb_true_iff, Nat.ltb_lt, !Z.leb_le, orb_true_iff, !negb_true_iff in C. destruct C as (((((C1 & C2) & C3) & C4) & C5) & C6).
      split; [exact C1|split; assumption|split; assumption|]. intros Hr. destruct C6 as [C6|C6]; [congruence|exact C6].
    + clear - D. induction (rd_items d) as [|p ps IH]; [constructor|]. cbn [all_apart] in D. apply andb_true_iff in D. destruct D as [D1 D2]. rewrite forallb_forall in D1. constructor; [|apply IH; exact D2].
      apply Forall_forall. intros q Hq. specialize (D1 q Hq). unfold apart_checks in D1. rewrite !orb_true_iff, !Z.leb_le in D1. unfold disjoint. tauto.
    + destruct (rb_defects (rbin i (rd_type d))); [intros p e _ []|discriminate G].
  - intros _. unfold within_tol. destruct (rb_max_weight (rbin i (rd_type d))) as [w|]; [|exact I]. apply andb_true_iff in H3. destruct H3 as [H3 H5]. apply Qle_bool_iff in H3, H5. unfold PSTOL. lra.
  - destruct (rb_resources (rbin i (rd_type d))); [intros r []|discriminate H2].
  - unfold only_movements_ok, order_checks in *. destruct (rp_unloading (rin_params i)); try exact I.
    + intros p q Hp Hq [S1 S2] Hx. specialize (O p q Hp Hq). rewrite orb_true_iff, negb_true_iff, !andb_false_iff, !Z.ltb_ge, Z.leb_gt, Nat.leb_le in O. destruct O as [O|O]; [lia|exact O].
    + intros p q Hp. exfalso. specialize (O p p Hp Hp). discriminate.
  - intros _. unfold increasing_ok, order_checks in *. destruct (rp_unloading (rin_params i)); try exact I.
    + intros p q Hp Hq Hg. specialize (O p q Hp Hq). rewrite orb_true_iff, negb_true_iff, Nat.ltb_ge, Z.leb_le in O. lia.
    + intros p q Hp. exfalso. specialize (O p p Hp Hp). discriminate.
Qed.

(** A valid packing within the copies. *)
Definition rvalid (i : RInstance) (ds : list RDesc) : Prop :=
  packing_ok i ds /\ (forall d, In d ds -> rtol_bin_ok i d) /\ (forall t, (t < length (rin_bins i))%nat -> rused_bins t ds <= rb_copies (rbin i t)).

Lemma packing_checks_ok : forall i ds, packing_checks i ds = true -> rvalid i ds.
Proof.
  intros i ds H. unfold packing_checks in H. rewrite !andb_true_iff, !forallb_forall in H. destruct H as ((H1 & H2) & H3). split; [|split].
  - constructor; [intros d Hd; destruct (tol_checks_ok i d (H1 d Hd)) as (A & B & C); split; [exact A|]; split; [exact B|]; apply (rk_geometry _ _ C)|]. intros x Hx. specialize (H2 x ltac:(apply in_seq; lia)). rewrite andb_true_iff, !Z.leb_le in H2. apply H2.
  - intros d Hd. apply (tol_checks_ok i d (H1 d Hd)).
  - intros t Ht. apply Z.leb_le, H3, in_seq. lia.
Qed.

(** The order between item types of the same size ignores their weights: the more
    profitable one fits in no bin, so the other one is never packed, and the bound 0 is
    claimed although a solution of profit 5 exists. *)
Theorem C55_exhausted_knapsack_refuted : exists s ds, rtree_domain s /\ rin_objective (sc_i s) = OKnapsack /\ (forall n, rreachable s n -> (rn_profit n == 0)%Q) /\
  rvalid (sc_i s) ds /\ (rnet_profit (sc_i s) ds == 5)%Q.
Proof.
  set (calls := [USetObjective OKnapsack; UAddBin 10 10; USetBinWeight 0 (Some 50%Q); UAddItem 6 6 true; USetItemProfit 0 10; USetItemWeight 0 100; UAddItem 6 6 true; USetItemProfit 1 5; USetItemWeight 1 1]).
  set (s := the_scheme calls (Some false)). exists s, [mkRD 0 1 [mkPl 1 0 0 false]].
  split; [dom calls (Some false)|]. split; [vm_compute; reflexivity|]. split; [|split; [apply packing_checks_ok; vm_compute; reflexivity|vm_compute; reflexivity]].
  intros n Hn. assert (X : Qeq_bool (rn_profit n) 0 = true) by (apply (explore_none s 2 (fun n => Qeq_bool (rn_profit n) 0)); [vm_compute; reflexivity|exact Hn]). apply Qeq_bool_iff, X.
Qed.
Print Assumptions C55_exhausted_knapsack_refuted.

(** The unloading check of the first item of a new bin looks at the items of the previous
    bin: no complete solution is reached and the instance is claimed infeasible although
    it is feasible. *)
Theorem C55_infeasible_only_x_refuted : exists s ds, rtree_domain s /\ sc_direction s = Some false /\ rin_objective (sc_i s) = OBinPacking /\ rp_unloading (rin_params (sc_i s)) = UOnlyX /\
  (forall n, rreachable s n -> rleaf s n = false) /\ rvalid (sc_i s) ds /\ rall_packed (sc_i s) ds.
Proof.
  set (calls := [USetObjective OBinPacking; USetUnloading UOnlyX; UAddBin 10 10; UAddBin 20 10; UAddItem 10 10 true; USetItemGroup 0 0;  UAddItem 20 10 true; USetItemGroup 1 1]).
  set (s := the_scheme calls (Some false)). exists s, [mkRD 0 1 [mkPl 0 0 0 false]; mkRD 1 1 [mkPl 1 0 0 false]].
  split; [dom calls (Some false)|]. do 3 (split; [vm_compute; reflexivity|]). split; [|split; [apply packing_checks_ok; vm_compute; reflexivity|intros [|[|x]] Hx; [vm_compute; reflexivity|vm_compute; reflexivity|vm_compute in Hx; lia]]].
  intros n Hn. apply negb_true_iff. apply (explore_none s 3 (fun n => negb (rleaf s n))); [vm_compute; reflexivity|exact Hn].
Qed.
Print Assumptions C55_infeasible_only_x_refuted.

(** The extents of the groups are not reset in a new bin: the same wrong claim with the
    increasing order along X. *)
Theorem C55_infeasible_increasing_x_refuted : exists s ds, rtree_domain s /\ sc_direction s = Some false /\ rin_objective (sc_i s) = OBinPacking /\ rp_unloading (rin_params (sc_i s)) = UIncreasingX /\
  (forall n, rreachable s n -> rleaf s n = false) /\ rvalid (sc_i s) ds /\ rall_packed (sc_i s) ds.
Proof.
  set (calls := [USetObjective OBinPacking; USetUnloading UIncreasingX; UAddBin 10 10; USetBinCopies 0 2; UAddItem 5 10 true; USetItemGroup 0 1; USetItemCopies 0 2;  UAddItem 10 10 true; USetItemGroup 1 0]).
  set (s := the_scheme calls (Some false)). exists s, [mkRD 0 1 [mkPl 0 0 0 false; mkPl 0 5 0 false]; mkRD 0 1 [mkPl 1 0 0 false]].
  split; [dom calls (Some false)|]. do 3 (split; [vm_compute; reflexivity|]). split; [|split; [apply packing_checks_ok; vm_compute; reflexivity|intros [|[|x]] Hx; [vm_compute; reflexivity|vm_compute; reflexivity|vm_compute in Hx; lia]]].
  intros n Hn. apply negb_true_iff. apply (explore_none s 4 (fun n => negb (rleaf s n))); [vm_compute; reflexivity|exact Hn].
Qed.
Print Assumptions C55_infeasible_increasing_x_refuted.

