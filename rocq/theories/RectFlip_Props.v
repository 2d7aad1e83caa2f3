(** * C22: flipping a rectangle instance *)

From Coq Require Import List ZArith QArith Bool Lia Lqa Arith.
From Verif Require Import Util Common_Model OneDim_Model OneDim_Spec OneDimBuilder_Model OneDimBuilder_Spec OneDimBuilder_Proof
  OneDimSub_Proof Rect_Model Rect_Spec RectSol_Model RectSol_Spec RectSol_Proof RectSol_Props RectBuilder_Model RectBuilder_Spec
  RectBuilder_Proof RectFlip_Model RectFlip_Spec RectFlip_Proof.
Import RectSol_Model.
Import ListNotations.
Open Scope Z_scope.

(** ** flip *)

(** Flipping succeeds and gives a consistent instance with the two axes
    exchanged; an open dimension Y becomes an open dimension X. *)
Theorem C22_flip : forall i, flippable i -> exists j d, rflip i = UBuilt j d /\ swapped i j /\ rconsistent j d /\
  (rin_objective i = OOpenDimensionY -> rin_objective j = OOpenDimensionX) /\
  (rin_objective i <> OOpenDimensionY -> rin_objective j = rin_objective i) /\
  (forall x, (x < length (rin_items i))%nat -> ri_eligibility (ritem j x) = -1 /\
     ri_copies_min (ritem j x) = match rin_objective i with OKnapsack => 0 | _ => ri_copies (ritem i x) end).
Proof.
  intros i Hf. destruct (rflip_ok i Hf) as (j & d & E & O & _ & S & C & M). exists j, d.
  split; [exact E|]. split; [exact S|]. split; [exact C|]. rewrite O. split; [intros ->; reflexivity|].
  split; [|exact M]. intro Ho. destruct (rin_objective i); try reflexivity. contradiction.
Qed.
Print Assumptions C22_flip.

(** Every built instance whose bin types have positive dimensions, costs and at
    least one copy (limited copies always do, C48_bin_minimum) can be flipped. *)
Theorem C22_built : forall calls b i d, urun calls = Some b -> u_build b = UBuilt i d ->
  positive_bins i ->
  (forall t, In t (rin_bins i) -> (0 < rb_cost t)%Q /\ rb_copies_min t <= rb_copies t /\ 1 <= rb_copies t) ->
  (forall t, In t (rin_items i) -> 1 <= ri_copies t) ->
  exists j d', rflip i = UBuilt j d' /\ swapped i j.
Proof.
  intros calls b i d Hb Hi Hp Hbins Hitems. pose proof (urun_inv calls b Hb) as Hinv.
  pose proof (rbuild_bounded b i d Hi Hinv) as [W1 W2]. pose proof (rbuild_consistent b i d Hi) as C.
  assert (Hf : flippable i).
  { constructor.
    - intros t Ht. destruct (Hp t Ht). destruct (Hbins t Ht) as (A1 & A2 & A3). pose proof (W2 t Ht). split; [lia|]. split; [lia|]. auto.
    - intros t Ht. destruct (W1 t Ht) as (A1 & A2 & _). auto.
    - intros t r x Ht Hr Hx. destruct (rbuild_holds b i d Hi) as [_ _ [L _] [_ H5]].
      pose proof Hi as B. unfold u_build in B. cbv zeta in B. destruct (find _ _) in B; [destruct (_ <? _) in B; discriminate|].
      match goal with _ : (if ?c then _ else _) = _ |- _ => destruct c eqn:E in B; [discriminate|] end.
      apply In_nth with (d := dummy_rbin) in Ht. destruct Ht as (k & Hk & <-). fold (rbin i k) in Hr.
      assert (Lk : length (rin_bins i) = length (u_bins b)) by (destruct (rbuild_holds b i d Hi) as [_ _ _ [G _]]; exact G).
      rewrite Lk in Hk. specialize (H5 k Hk). cbv zeta in H5. destruct H5 as (_ & _ & _ & _ & _ & _ & _ & _ & G & _).
      rewrite G in Hr.
      unfold schedule. destruct (nth x (res_item_consumptions r) []) as [|q l] eqn:Es; [reflexivity|exfalso].
      assert (Hxl : (x < length (res_item_consumptions r))%nat).
      { destruct (lt_dec x (length (res_item_consumptions r))) as [K|K]; [exact K|].
        rewrite nth_overflow in Es by lia. discriminate. }
      apply not_true_iff_false in E. apply E. clear E B.
      apply existsb_exists. exists (nth k (u_bins b) dummy_rbin). split; [apply nth_In; assumption|].
      apply existsb_exists. exists r. split; [assumption|]. apply existsb_exists. exists x. split; [|rewrite Es; reflexivity].
      rewrite map_length. apply in_seq. lia.
    - intro Ho. pose proof (rc_open i d C Ho) as L1. rewrite (rc_bin_type_ids i d C) in L1.
      pose proof (ids_length (rin_bins i)) as L2. pose proof (rexpand_spec (rin_bins i)) as X.
      destruct (rexpand_bins (rin_bins i)) as [[ids prev] p]. cbn [fst] in L2. destruct X as [X _]. rewrite X in L2.
      rewrite <- L2; [|intros t Ht; destruct (Hbins t Ht) as (_ & _ & A); lia].
      unfold rbin in L1. rewrite L1. reflexivity. }
  destruct (rflip_ok i Hf) as (j & d' & E & _ & _ & S & _). exists j, d'. auto.
Qed.
Print Assumptions C22_built.

(** ** The packings of the two instances *)

(** The packings of the flipped instance are exactly the packings of the
    original one with the axes exchanged... *)
Theorem C22_packings : forall i j ds, swapped i j -> (packing_ok j (map swap_desc ds) <-> packing_ok i ds).
Proof.
  intros i j ds Hs. split; intro H; [|apply (swap_packing i j Hs), H].
  apply (swap_packing j i (swapped_sym i j Hs)) in H. rewrite map_map in H.
  rewrite (map_ext _ (fun d => d)), List.map_id in H by apply swap_desc_twice. exact H.
Qed.
Print Assumptions C22_packings.

(** ... with the same numbers of copies, profit and cost, the extents being
    exchanged. *)
Theorem C22_values : forall i j ds, swapped i j -> packing_ok i ds ->
  (forall x, rpacked x (map swap_desc ds) = rpacked x ds) /\
  (forall t, rused_bins t (map swap_desc ds) = rused_bins t ds) /\
  (rnet_profit j (map swap_desc ds) == rnet_profit i ds)%Q /\
  (qsum (fun d => inject_Z (rd_copies d) * rb_cost (rbin j (rd_type d))) (map swap_desc ds) ==
   qsum (fun d => inject_Z (rd_copies d) * rb_cost (rbin i (rd_type d))) ds)%Q /\
  forall d, In d ds -> rightmost j (rd_items (swap_desc d)) = topmost i (rd_items d) /\
    topmost j (rd_items (swap_desc d)) = rightmost i (rd_items d).
Proof.
  intros i j ds Hs Hok. destruct (swap_values i j Hs ds Hok) as (V1 & V2 & V3 & V4).
  split; [intro; apply swap_packed|]. split; [exact V4|]. split; [exact V1|]. split; [exact V2|].
  intros d Hd. apply (swap_extents i j Hs). intros p Hp. destruct Hok as [P _]. destruct (P d Hd) as (_ & _ & [G _ _]). apply (G p Hp).
Qed.
Print Assumptions C22_values.

(** ** unflip_solution *)

(** A solution of the flipped instance that is a packing is converted into a
    solution of the original instance: same bins, axes exchanged, a packing again,
    same indicators, and exchanged extents of the last bin. *)
Theorem C22_unflip : forall i j cb cbj calls1 calls2 s, swapped i j ->
  rwf_resources i -> rwf_resources j -> rcopies_nonneg calls1 calls2 ->
  rhistory j cbj calls1 calls2 = Some s -> packing_ok j (rview s) ->
  exists s', unflip_solution i cb s = Some s' /\ rview s' = map swap_desc (rview s) /\ packing_ok i (rview s') /\
    rc_number_of_bins (rs_core s') = rc_number_of_bins (rs_core s) /\
    rc_number_of_items (rs_core s') = rc_number_of_items (rs_core s) /\
    rc_bin_area (rs_core s') = rc_bin_area (rs_core s) /\
    rc_item_area (rs_core s') = rc_item_area (rs_core s) /\
    (rc_bin_cost (rs_core s') == rc_bin_cost (rs_core s))%Q /\
    (rsane_resources i -> rsane_resources j -> (rc_item_profit (rs_core s') == rc_item_profit (rs_core s))%Q) /\
    (forall x, (x < length (rin_items i))%nat -> nth x (rc_item_copies (rs_core s')) 0 = nth x (rc_item_copies (rs_core s)) 0) /\
    (forall t, (t < length (rin_bins i))%nat -> nth t (rc_bin_copies (rs_core s')) 0 = nth t (rc_bin_copies (rs_core s)) 0) /\
    (forall ds d, rview s = ds ++ [d] -> rd_items d <> [] ->
       rc_x_max (rs_core s') = rc_y_max (rs_core s) /\ rc_y_max (rs_core s') = rc_x_max (rs_core s)).
Proof.
  intros i j cb cbj calls1 calls2 s Hs Hwi Hwj Hc Hh Hok.
  pose proof (swapped_sym i j Hs) as Hs'.
  pose proof Hs as [_ _ [S3 S4] [S5 S6]].
  destruct (C42_indicators j cbj calls1 calls2 s Hwj Hc Hh) as [_ I].
  pose proof (swap_packing j i Hs' _ Hok) as Hok'.
  assert (Hr : exists bins, rb_run i [] (unflip_calls s) = Some bins).
  { apply unflip_run. intros d Hd. destruct Hok as [P _]. destruct (P d Hd) as (T & _ & [G _ _]). rewrite S5 in T. split; [exact T|].
    intros p Hp. destruct (G p Hp) as [T1 _ _ T2]. rewrite S3 in T1. split; [exact T1|]. intro Hrot. specialize (T2 Hrot).
    destruct (S4 _ T1) as (_ & _ & _ & _ & _ & O & _). congruence. }
  destruct Hr as (bins & Hr).
  assert (Hex : exists s', unflip_solution i cb s = Some s') by (unfold unflip_solution, rhistory; rewrite Hr; eexists; reflexivity).
  destruct Hex as (s' & E). exists s'. split; [exact E|].
  assert (Hc' : rcopies_nonneg (unflip_calls s) []).
  { intros d Hd. cbn [flat_map] in Hd. rewrite app_nil_r, unflip_calls_desc in Hd.
    apply in_map_iff in Hd. destruct Hd as (e & <- & He). cbn [swap_desc rd_copies]. destruct Hok as [P _]. destruct (P e He) as (_ & Q & _). lia. }
  destruct (C42_indicators i cb (unflip_calls s) [] s' Hwi Hc' E) as [V I'].
  cbn [flat_map] in V. rewrite app_nil_r, unflip_calls_desc in V.
  split; [exact V|]. split; [rewrite V; exact Hok'|].
  destruct (swap_values j i Hs' (rview s) Hok) as (V1 & V2 & V3 & V4).
  rewrite V in I'.
  split. { rewrite (ri_bins _ _ _ I), (ri_bins _ _ _ I'), zsum_map. reflexivity. }
  split. { rewrite (ri_nitems _ _ _ I), (ri_nitems _ _ _ I'), zsum_map. apply zsum_ext. intros d _. simpl. rewrite map_length. reflexivity. }
  split. { rewrite (ri_bin_area _ _ _ I), (ri_bin_area _ _ _ I'), zsum_map. apply zsum_ext. intros d Hd. simpl.
    destruct Hok as [P _]. destruct (P d Hd) as (T & _). rewrite S5 in T. destruct (S6 _ T) as (A1 & A2 & _). rewrite A1, A2. ring. }
  split. { rewrite (ri_item_area _ _ _ I), (ri_item_area _ _ _ I'), zsum_map. apply zsum_ext. intros d Hd. simpl. rewrite zsum_map. f_equal.
    apply zsum_ext. intros p Hp. simpl. destruct Hok as [P _]. destruct (P d Hd) as (_ & _ & [G _ _]). destruct (G p Hp) as [T _ _ _].
    rewrite S3 in T. destruct (S4 _ T) as (A1 & A2 & _). rewrite A1, A2. ring. }
  split. { rewrite (ri_cost _ _ _ I), (ri_cost _ _ _ I'). exact V2. }
  split. { intros Ni Nj. rewrite (ri_net _ _ _ I Nj), (ri_net _ _ _ I' Ni). exact V1. }
  split. { intros x Hx. rewrite (ri_item_copies _ _ _ I' x Hx), (ri_item_copies _ _ _ I x) by lia. apply swap_packed. }
  split. { intros t Ht. rewrite (ri_bin_copies _ _ _ I' t Ht), (ri_bin_copies _ _ _ I t) by lia. apply V4. }
  intros ds d Hv Hne.
  destruct (C42_last_bin j cbj calls1 calls2 s ds d Hwj Hc Hh Hv Hne) as (X1 & Y1 & _).
  assert (Hv' : rview s' = map swap_desc ds ++ [swap_desc d]) by (rewrite V, Hv, map_app; reflexivity).
  assert (Hne' : rd_items (swap_desc d) <> []) by (simpl; destruct (rd_items d); [contradiction|discriminate]).
  destruct (C42_last_bin i cb (unflip_calls s) [] s' (map swap_desc ds) (swap_desc d) Hwi Hc' E Hv' Hne') as (X2 & Y2 & _).
  rewrite X1, Y1, X2, Y2. cbn [swap_desc rd_items].
  assert (Hty : forall p, In p (rd_items d) -> (pl_type p < length (rin_items j))%nat).
  { intros p Hp. destruct Hok as [P _]. destruct (P d) as (_ & _ & [G _ _]); [rewrite Hv; apply in_or_app; right; left; reflexivity|].
    apply (G p Hp). }
  apply (swap_extents j i Hs' (rd_items d) Hty).
Qed.
Print Assumptions C22_unflip.

(** Flipping twice gives back geometry, weights, profits, costs, copies and
    resources. *)
Theorem C22_twice : forall i j k, swapped i j -> swapped j k ->
  rp_unloading (rin_params k) = rp_unloading (rin_params i) /\
  length (rin_items k) = length (rin_items i) /\ length (rin_bins k) = length (rin_bins i) /\
  (forall x, (x < length (rin_items i))%nat -> ri_x (ritem k x) = ri_x (ritem i x) /\ ri_y (ritem k x) = ri_y (ritem i x) /\
     ri_copies (ritem k x) = ri_copies (ritem i x) /\ ri_profit (ritem k x) = ri_profit (ritem i x) /\
     ri_oriented (ritem k x) = ri_oriented (ritem i x)) /\
  (forall t, (t < length (rin_bins i))%nat -> rb_x (rbin k t) = rb_x (rbin i t) /\ rb_y (rbin k t) = rb_y (rbin i t) /\
     rb_copies (rbin k t) = rb_copies (rbin i t) /\ rb_cost (rbin k t) = rb_cost (rbin i t) /\ rb_defects (rbin k t) = rb_defects (rbin i t)).
Proof.
  intros i j k [A1 A2 [A3 A4] [A5 A6]] [B1 B2 [B3 B4] [B5 B6]].
  split; [rewrite B1, A1; apply swap_unloading_twice|]. split; [congruence|]. split; [congruence|]. split.
  - intros x Hx. specialize (A4 x Hx). specialize (B4 x ltac:(lia)). cbv zeta in *. intuition congruence.
  - intros t Ht. specialize (A6 t Ht). specialize (B6 t ltac:(lia)). cbv zeta in *.
    destruct A6 as (C1 & C2 & C3 & C4 & C5 & C6 & C7 & C8 & _). destruct B6 as (D1 & D2 & D3 & D4 & D5 & D6 & D7 & D8 & _).
    repeat (split; [congruence|]). rewrite D8, C8, map_map. rewrite <- List.map_id. apply map_ext. apply swap_defect_twice.
Qed.
Print Assumptions C22_twice.

(** ** An example *)

Lemma ex_flippable : forall o, o <> OOpenDimensionX -> o <> OOpenDimensionY -> flippable (ex_rinstance o).
Proof.
  intros o H1 H2. constructor.
  - intros t [<-|[<-|[]]]; simpl; unfold Qlt; simpl; lia.
  - intros t [<-|[<-|[<-|[]]]]; simpl; lia.
  - intros t r x [<-|[<-|[]]] Hr Hx; simpl in Hr, Hx; [|destruct Hr]. destruct Hr as [<-|[]]. unfold schedule. simpl.
    destruct x as [|[|[|[|x]]]]; try reflexivity; lia.
  - simpl. intros [H|H]; contradiction.
Qed.

Example C22_example : exists j d s s', rflip (ex_rinstance OBinPacking) = UBuilt j d /\ swapped (ex_rinstance OBinPacking) j /\
  map (fun t => (rb_x t, rb_y t)) (rin_bins j) = [(8, 10); (8, 20)] /\
  map (fun t => (ri_x t, ri_y t)) (rin_items j) = [(3, 4); (6, 2); (5, 5)] /\
  rhistory j raccept [RAddBin 0 2; RAddItem 0 (mkPl 0 0 0 false); RAddItem 0 (mkPl 1 0 4 false);
     RAddBin 1 1; RAddItem 1 (mkPl 1 0 0 true); RAddItem 1 (mkPl 2 2 0 false)] [] = Some s /\
  unflip_solution (ex_rinstance OBinPacking) raccept s = Some s' /\
  rview s' = rdesc_run [] ex_rcalls.
Proof.
  destruct (C22_flip (ex_rinstance OBinPacking) (ex_flippable OBinPacking ltac:(discriminate) ltac:(discriminate))) as (j & d & E & S & _).
  assert (E' := E). vm_compute in E'. injection E' as Ej Ed. subst j d. eexists. eexists. eexists. eexists.
  split; [exact E|]. split; [exact S|]. clear E S.
  split; [vm_compute; reflexivity|]. split; [vm_compute; reflexivity|]. split; [vm_compute; reflexivity|]. split; [vm_compute; reflexivity|].
  vm_compute. reflexivity.
Qed.

(** ** What flipping does not preserve *)

(** The eligibility of the items is dropped: a packing of the flipped instance can
    put an item in a bin it is not eligible for. *)
Theorem C22_eligibility_refuted : exists i j d ds, flippable i /\ rflip i = UBuilt j d /\
  packing_ok j ds /\ relig_ok j ds /\ ~ relig_ok i (map swap_desc ds).
Proof.
  exists (ex_rinstance OBinPacking).
  destruct (C22_flip (ex_rinstance OBinPacking) (ex_flippable OBinPacking ltac:(discriminate) ltac:(discriminate))) as (j & d & E & S & _ & _ & _ & M).
  exists j, d, (map swap_desc [mkRD 1 1 [mkPl 2 0 0 false]]).
  split; [apply ex_flippable; discriminate|]. split; [exact E|]. split; [|split].
  - apply (C22_packings _ _ _ S). split.
    + intros e [<-|[]]. simpl. split; [lia|]. split; [lia|]. split.
      * intros p [<-|[]]. split; simpl; unfold pl_xe, pl_ye, pl_w, pl_h; simpl; first [lia|discriminate].
      * repeat constructor.
      * intros p df [<-|[]] [].
    + intros x Hx. simpl in Hx. destruct x as [|[|[|x]]]; [| | |lia]; vm_compute; discriminate.
  - intros e p [<-|[]] [<-|[]]. left. apply (M 2%nat). simpl. lia.
  - intro H. specialize (H (mkRD 1 1 [mkPl 2 0 0 false]) (mkPl 2 0 0 false)). simpl in H.
    destruct H as [H|H]; [left; reflexivity|left; reflexivity|discriminate|contradiction].
Qed.
Print Assumptions C22_eligibility_refuted.

(** The minimum numbers of copies are dropped: a feasible solution of the flipped
    instance can be unflipped into a solution that is not feasible. *)
Definition ex_min : RInstance :=
  mkRInst OKnapsack (mkRP UNone LX []) [mkRI 4 3 12 2 1 0 false 0 (-1) [[]]] [mkRB 10 8 80 1 0 None no_truck [] [] []].
Theorem C22_copies_min_refuted : exists i j d s s', rflip i = UBuilt j d /\
  rhistory j raccept [RAddBin 0 1] [] = Some s /\ rs_feasible s = true /\
  unflip_solution i raccept s = Some s' /\ rs_feasible s' = false.
Proof.
  exists ex_min. eexists. eexists. eexists. eexists. split; [vm_compute; reflexivity|].
  split; [vm_compute; reflexivity|]. split; [reflexivity|]. split; [vm_compute; reflexivity|]. reflexivity.
Qed.
Print Assumptions C22_copies_min_refuted.

(** An open dimension X is not exchanged: the flipped instance then asks for the
    smallest extent along the other axis, and the two orders can be opposite. *)
Definition ex_open (o : Objective) : RInstance :=
  mkRInst o (mkRP UNone LX []) [mkRI 4 3 12 1 1 0 false 0 (-1) [[]]] [mkRB 10 8 80 1 0 None no_truck [] [] []].
Theorem C22_open_dimension_refuted : exists i j d ds1 ds2, rflip i = UBuilt j d /\
  rin_objective i = OOpenDimensionX /\ rin_objective j = OOpenDimensionX /\
  packing_ok i [ds1] /\ packing_ok i [ds2] /\
  rightmost i (rd_items ds1) < rightmost i (rd_items ds2) /\
  rightmost j (rd_items (swap_desc ds2)) < rightmost j (rd_items (swap_desc ds1)).
Proof.
  exists (ex_open OOpenDimensionX). eexists. eexists. exists (mkRD 0 1 [mkPl 0 0 0 true]), (mkRD 0 1 [mkPl 0 0 0 false]).
  split; [vm_compute; reflexivity|]. split; [reflexivity|]. split; [reflexivity|].
  split; [|split; [|split; vm_compute; reflexivity]].
  all: split; [intros e [<-|[]]; simpl; split; [lia|]; split; [lia|]; split;
    [intros p [<-|[]]; split; simpl; unfold pl_xe, pl_ye, pl_w, pl_h; simpl; first [lia|reflexivity|discriminate]
    |repeat constructor|intros p df [<-|[]] []]
   |intros x Hx; simpl in Hx; destruct x as [|x]; [vm_compute; discriminate|lia]].
Qed.
Print Assumptions C22_open_dimension_refuted.

(** Flipping can throw on a built instance: unlimited copies of a bin type become
    the number of items, which may be smaller than the minimum number of bins that
    was accepted. *)
Theorem C22_throws_refuted : exists calls b i d, ucalls_from u_new calls = UOk b /\ u_build b = UBuilt i d /\
  rflip i = UBuildThrow.
Proof.
  exists [USetObjective OBinPacking; UAddBin 10 8; USetBinCopies 0 (-1); USetBinCopiesMin 0 2; UAddItem 4 3 false].
  eexists. eexists. eexists. split; [vm_compute; reflexivity|]. split; [vm_compute; reflexivity|]. vm_compute. reflexivity.
Qed.
Print Assumptions C22_throws_refuted.
