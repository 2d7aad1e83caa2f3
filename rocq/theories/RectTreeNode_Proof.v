(** * The nodes of the rectangle branching scheme describe packings *)

From Coq Require Import List ZArith QArith Bool Lia Lqa Arith Permutation.
From Verif Require Import Util Common_Model Common_Spec Common_Proof OneDim_Model OneDim_Spec OneDim_Proof OneDimBuilder_Spec RectDff_Proof Tree1D_Model Tree1D_Spec Tree1D_Proof Tree1DNode_Proof
  Rect_Model Rect_Spec RectSol_Model RectSol_Spec RectSol_Proof RectBuilder_Model RectBuilder_Spec RectFlip_Model RectFlip_Spec RectFlip_Proof
  RectTree_Model RectTree_Spec RectSky_Proof RectTree_Proof RectTreeRes_Proof.
Import ListNotations.
Open Scope Z_scope.

(** The last bin of a node. *)
Record BinState (inst : RInstance) (t : nat) (n : RNode) (ps : list Place) : Prop := {
  bs_ne : ps <> [];
  bs_ok : rtol_bin_ok inst (mkRD t 1 ps);
  bs_sky : Sky inst (rb_x (rbin inst t)) (rb_y (rbin inst t)) (rn_pieces n) ps;
  bs_weight : (rn_weight n == rweight inst ps)%Q;
  bs_res : ResState inst t (rn_resources n) (rn_last_copies n) ps;
  bs_xe : rn_xe_max n = rightmost inst ps;
  bs_ye : rn_ye_max n = topmost inst ps;
  bs_groups : rp_unloading (rin_params inst) = UIncreasingX -> forall p, In p ps ->
    pl_x p <= nth (pl_group inst p) (rn_xmax n) 0 /\ exists v, nth (pl_group inst p) (rn_xmin n) None = Some v /\ v <= pl_x p
}.

Lemma empty_tol : forall inst t c, rsane_resources inst -> (t < length (rin_bins inst))%nat -> rtol_bin_ok inst (mkRD t c []).
Proof.
  intros inst t c Hs Ht. constructor; cbn [rd_type rd_items].
  - constructor; [intros p []|constructor|intros p d []].
  - intro H. contradiction.
  - apply hard_nil; assumption.
  - unfold only_movements_ok. destruct (rp_unloading _); try exact I; intros p q [].
  - intros _. unfold increasing_ok. destruct (rp_unloading _); try exact I; intros p q [].
Qed.

Lemma fop_snoc : forall (A : Type) (R : A -> A -> Prop) l x, ForallOrdPairs R l -> (forall y, In y l -> R y x) -> ForallOrdPairs R (l ++ [x]).
Proof.
  intros A R l x H Hx. induction H as [|y l Hy H IH]; cbn [app]; [constructor; constructor|]. constructor.
  - apply Forall_app. split; [exact Hy|]. constructor; [apply Hx; left; reflexivity|constructor].
  - apply IH. intros z Hz. apply Hx. right. exact Hz.
Qed.

Lemma pieces_area_le : forall l a b m, tiles a b l -> (forall u, In u l -> pc_xe u <= m) -> pieces_area l <= m * (b - a).
Proof.
  induction l as [|u l IH]; intros a b m H Hm; cbn in H; [subst; cbn; lia|]. destruct H as (E1 & E2 & E3). unfold pieces_area in *. rewrite zsum_cons. specialize (IH _ _ m E3 (fun v Hv => Hm v (or_intror Hv))).
  specialize (Hm u (or_introl eq_refl)). rewrite E1. nia.
Qed.

Lemma row_end_snoc : forall inst ps p y, row_end inst (ps ++ [p]) y = Z.max (row_end inst ps y) (if (pl_y p <=? y) && (y <? pl_ye inst p) then pl_xe inst p else 0).
Proof. intros inst ps p y. unfold row_end. rewrite map_app. cbn [map]. apply fold_max_snoc. Qed.

Lemma shadow_snoc : forall inst bt ps p, (forall q, In q ps -> same_rows inst q p -> pl_xe inst q <= pl_x p) -> 0 <= pl_y p -> pl_ye inst p <= rb_y bt -> 0 <= pl_x p -> 0 <= pl_w inst p -> 0 < pl_h inst p ->
  shadow inst bt ps + pl_w inst p * pl_h inst p <= shadow inst bt (ps ++ [p]).
Proof.
  intros inst bt ps p Hleft Hy Hye Hx Hw Hh. unfold shadow. assert (Ee : pl_ye inst p = pl_y p + pl_h inst p) by reflexivity. assert (Ex : pl_xe inst p = pl_x p + pl_w inst p) by reflexivity.
  rewrite (rows_split 0 (pl_y p) (rb_y bt)) by lia. rewrite (rows_split (pl_y p) (pl_ye inst p) (rb_y bt)) by lia. rewrite !zsum_app.
  assert (A : forall l, zsum (row_end inst ps) l <= zsum (row_end inst (ps ++ [p])) l) by (intros l; apply zsum_le; intros y _; rewrite row_end_snoc; lia).
  pose proof (A (rows 0 (pl_y p))). pose proof (A (rows (pl_ye inst p) (rb_y bt))).
  assert (B : zsum (fun y => row_end inst ps y + pl_w inst p) (rows (pl_y p) (pl_ye inst p)) <= zsum (row_end inst (ps ++ [p])) (rows (pl_y p) (pl_ye inst p))).
  { apply zsum_le. intros y Hyy. apply rows_in in Hyy. rewrite row_end_snoc. destruct (Z.leb_spec (pl_y p) y); [|lia]. destruct (Z.ltb_spec y (pl_ye inst p)); [|lia]. cbn [andb].
    assert (C : row_end inst ps y <= pl_x p); [|lia]. unfold row_end. destruct (fold_max_cases (map (fun q => if (pl_y q <=? y) && (y <? pl_ye inst q) then pl_xe inst q else 0) ps)) as [_ [->|I1]]; [exact Hx|].
    apply in_map_iff in I1. destruct I1 as (q & <- & Hq). destruct (Z.leb_spec (pl_y q) y); cbn [andb]; [|exact Hx]. destruct (Z.ltb_spec y (pl_ye inst q)); [|exact Hx]. apply Hleft; [exact Hq|]. split; lia. }
  rewrite zsum_plus in B. rewrite (zsum_ext _ (fun _ => pl_w inst p) (fun _ => pl_w inst p * 1)) in B by (intros; lia). rewrite zsum_mult in B.
  assert (C : zsum (fun _ : Z => 1) (rows (pl_y p) (pl_ye inst p)) = pl_h inst p). { rewrite <- (Z.add_simpl_l (pl_y p) (pl_h inst p)), <- Ee, <- rows_length by lia. generalize (rows (pl_y p) (pl_ye inst p)). clear. induction l as [|a l IH]; [reflexivity|]. rewrite zsum_cons, IH. cbn [length]. lia. }
  rewrite C in B. lia.
Qed.

(** What the step from a node to a child does, the items of the last bin apart. *)
Record ChildStep (s : Scheme) (n n' : RNode) (x : nat) (p : Place) (k : nat) (dir new : bool) (penalty : Q) : Prop := {
  cs_path : rn_path n' = rn_path n ++ [(S k, dir, p)];
  cs_dir : rn_dir n' = dir;
  cs_copies : rn_copies n' = upd x (fun c => c + 1) (rn_copies n);
  cs_bins : rn_bins n' = S k;
  cs_items : rn_items n' = rn_items n + 1;
  cs_area : rn_area n' = rn_area n + ri_area (ritem (sinst s dir) x);
  cs_profit : (rn_profit n' == rn_profit n + ri_profit (ritem (sinst s dir) x) - penalty)%Q;
  cs_xmin : length (rn_xmin n') = length (rn_xmin n);
  cs_xmax : length (rn_xmax n') = length (rn_xmax n)
}.

(** Areas of a node with bin type [t] at position [k] and items [ps]. *)
Record AreaState (s : Scheme) (n : RNode) (k : nat) (inst : RInstance) (t : nat) (ps : list Place) : Prop := {
  as_current : rn_current n = rts_previous (sc_i s) k
    + (if rn_items n =? dv_number_of_items (sc_d s) then rightmost inst ps * rb_y (rbin inst t) else shadow inst (rbin inst t) ps);
  as_waste : Z.max (rn_current n - rn_area n) (rts_previous (sc_i s) k + rightmost inst ps * rb_y (rbin inst t) - dv_item_area (sc_d s)) <= rn_waste n;
  as_last : S k = length (dv_bin_type_ids (sc_d s)) ->
    rn_waste n = Z.max (rn_current n - rn_area n) (rts_previous (sc_i s) k + rightmost inst ps * rb_y (rbin inst t) - dv_item_area (sc_d s));
  as_leftover : rn_leftover n = match rp_leftover (rin_params inst) with
    | LArea => rb_x (rbin inst t) * rb_y (rbin inst t) - rightmost inst ps * topmost inst ps
    | _ => rb_x (rbin inst t) - rightmost inst ps end
}.

Section Step.
Variable s : Scheme.
Hypothesis Hd : rtree_domain s.

Lemma dom_totals : forall dir, dv_number_of_items (sder s dir) = dv_number_of_items (sc_d s) /\ dv_item_area (sder s dir) = dv_item_area (sc_d s)
  /\ length (dv_bin_type_ids (sder s dir)) = length (dv_bin_type_ids (sc_d s)).
Proof.
  intros [|]; cbn [sder]; [|auto]. destruct (dom_swapped s Hd) as [Hs Hj]. pose proof (rd_consistent s Hd) as Hi. destruct (dom_lengths s Hd true) as [L1 L2]. cbn [sinst] in L1, L2.
  assert (G : forall (f : RItem -> Z), (forall x, (x < length (rin_items (sc_i s)))%nat -> f (ritem (sc_j s) x) = f (ritem (sc_i s) x)) -> zsum f (rin_items (sc_j s)) = zsum f (rin_items (sc_i s))).
  { intros f Hf. rewrite <- (List.map_id (rin_items (sc_j s))), <- (List.map_id (rin_items (sc_i s))). rewrite <- (list_nth_map _ _ (fun a => a) (rin_items (sc_j s)) dummy_ritem), <- (list_nth_map _ _ (fun a => a) (rin_items (sc_i s)) dummy_ritem).
    rewrite !zsum_map, L1. apply zsum_ext. intros x Hx. apply in_seq in Hx. apply Hf. lia. }
  split; [|split].
  - rewrite (rc_number_of_items _ _ Hi), (rc_number_of_items _ _ Hj). apply G. intros x Hx. apply (dom_item s Hd true x Hx).
  - rewrite (rc_item_area _ _ Hi), (rc_item_area _ _ Hj). apply G. intros x Hx. destruct (dom_item s Hd true x Hx) as (_ & A & _ & _ & _ & B & _). cbn [sinst] in A, B. rewrite A, B. reflexivity.
  - rewrite (rc_bin_type_ids _ _ Hi), (rc_bin_type_ids _ _ Hj), L2. f_equal. rewrite !flat_map_concat_map. f_equal. apply map_ext_in. intros t Ht. apply in_seq in Ht. f_equal. f_equal.
    destruct Hs as [_ _ _ [_ A]]. specialize (A t ltac:(lia)). cbv zeta in A. tauto.
Qed.

Lemma dom_group : forall dir x, (x < length (rin_items (sc_i s)))%nat -> (ri_group (ritem (sinst s dir) x) < length (dv_groups (sc_d s)))%nat.
Proof. intros dir x Hx. destruct (dom_item s Hd dir x Hx) as (_ & _ & -> & _). apply (rc_groups_all _ _ (rd_consistent s Hd)). apply nth_In. exact Hx. Qed.

Lemma child_step : forall n x rot new ins ps, InsCase s n x rot new ins -> (ins_pos n new < length (rts_bins (sc_i s)))%nat ->
  length (rn_xmin n) = length (dv_groups (sc_d s)) -> length (rn_xmax n) = length (dv_groups (sc_d s)) ->
  match new with Some _ => ps = [] | None => BinState (sinst s (ins_dir n new)) (nth (ins_pos n new) (rts_bins (sc_i s)) 0%nat) n ps end ->
  rn_area n <= rts_previous (sc_i s) (ins_pos n new) + items_area (sinst s (ins_dir n new)) ps ->
  exists n', rchild s n ins = Some n'
    /\ BinState (sinst s (ins_dir n new)) (nth (ins_pos n new) (rts_bins (sc_i s)) 0%nat) n' (ps ++ [mkPl x (in_x ins) (in_y ins) rot])
    /\ ChildStep s n n' x (mkPl x (in_x ins) (in_y ins) rot) (ins_pos n new) (ins_dir n new) (match new with Some _ => true | None => false end)
         (rpen (sinst s (ins_dir n new)) (nth (ins_pos n new) (rts_bins (sc_i s)) 0%nat) (ps ++ [mkPl x (in_x ins) (in_y ins) rot]) - rpen (sinst s (ins_dir n new)) (nth (ins_pos n new) (rts_bins (sc_i s)) 0%nat) ps)
    /\ AreaState s n' (ins_pos n new) (sinst s (ins_dir n new)) (nth (ins_pos n new) (rts_bins (sc_i s)) 0%nat) (ps ++ [mkPl x (in_x ins) (in_y ins) rot])
    /\ 0 <= rn_waste n'
    /\ shadow (sinst s (ins_dir n new)) (rbin (sinst s (ins_dir n new)) (nth (ins_pos n new) (rts_bins (sc_i s)) 0%nat)) ps + ri_area (ritem (sinst s (ins_dir n new)) x)
       <= shadow (sinst s (ins_dir n new)) (rbin (sinst s (ins_dir n new)) (nth (ins_pos n new) (rts_bins (sc_i s)) 0%nat)) (ps ++ [mkPl x (in_x ins) (in_y ins) rot]).
Proof.
  intros n x rot new ins ps [C1 C2 C3 C4 (src & C5 & C6)] Hpos Hxmin Hxmax Hps Harea.
  assert (Enb : (match new with Some (p, _) => S p | None => rn_bins n end) = S (ins_pos n new)) by (destruct new as [[q d]|]; cbn [ins_pos]; [reflexivity|lia]).
  set (dir := ins_dir n new) in *. set (k := ins_pos n new) in *. pose proof (rts_bins_nth (sc_i s) k Hpos) as Ht. destruct C6 as [I1 I2 I3 I4 I5 I6 I7]. fold dir k in I1, I2, I3, I4, I5, I6, I7.
  set (t := nth k (rts_bins (sc_i s)) 0%nat) in *. set (inst := sinst s dir) in *. set (bt := rbin inst t) in *. set (p := mkPl x (in_x ins) (in_y ins) rot).
  destruct (dom_lengths s Hd dir) as [L1 L2]. fold inst in L1, L2. pose proof (dom_consistent s Hd dir) as Hco. fold inst in Hco. pose proof (dom_sane s Hd dir) as Hsane. fold inst in Hsane.
  assert (Hx : (x < length (rin_items inst))%nat). { apply (rc_item_type_ids _ _ Hco) in C2; [tauto|lia]. }
  assert (Hx' : (x < length (rin_items (sc_i s)))%nat) by lia. destruct (dom_item s Hd dir x Hx') as (_ & _ & _ & _ & _ & _ & P1 & P2 & _). fold inst in P1, P2.
  destruct (dom_bin s Hd dir t Ht) as (B1 & B2 & B3 & _ & _). fold inst bt in B1, B2, B3.
  assert (Ht' : (t < length (rin_bins inst))%nat) by lia.
  set (xj := ri_width (ritem inst x) rot) in *. set (yj := ri_height (ritem inst x) rot) in *.
  assert (Ew : pl_w inst p = xj) by reflexivity. assert (Eh : pl_h inst p = yj) by reflexivity.
  assert (Hw : 0 < xj) by (unfold xj, ri_width; destruct rot; assumption). assert (Hh : 0 < yj) by (unfold yj, ri_height; destruct rot; assumption).
  assert (Exe : pl_xe inst p = in_x ins + xj) by reflexivity. assert (Eye : pl_ye inst p = in_y ins + yj) by reflexivity.
  (* the state before *)
  set (l0 := match new with Some _ => [free_piece 0 (rb_y bt)] | None => rn_pieces n end).
  assert (K0 : Sky inst (rb_x bt) (rb_y bt) l0 ps). { unfold l0. destruct new as [pd|]; [subst ps; apply sky_empty; lia|apply (bs_sky _ _ _ _ Hps)]. }
  assert (T0 : rtol_bin_ok inst (mkRD t 1 ps)). { destruct new as [pd|]; [subst ps; apply empty_tol; assumption|apply (bs_ok _ _ _ _ Hps)]. }
  assert (R0 : match new with Some _ => ps = [] | None => ResState inst t (rn_resources n) (rn_last_copies n) ps end) by (destruct new as [pd|]; [exact Hps|apply (bs_res _ _ _ _ Hps)]).
  destruct T0 as [T1 T2 T3 T4 T5]. cbn [rd_type rd_items] in T1, T2, T3, T4, T5. fold bt in T1, T2, T3, T5.
  assert (G0 : forall q, In q ps -> 0 <= pl_x q /\ 0 < pl_w inst q /\ 0 < pl_h inst q /\ 0 <= pl_y q /\ pl_ye inst q <= rb_y bt /\ (pl_type q < length (rin_items inst))%nat).
  { intros q Hq. destruct (ge_places _ _ _ T1 q Hq) as [Q1 Q2 Q3 Q4]. rewrite L1 in Q1. destruct (dom_item s Hd dir _ Q1) as (_ & _ & _ & _ & _ & _ & S1 & S2 & _). fold inst in S1, S2.
    split; [lia|]. split; [unfold pl_w; destruct (pl_rot q); assumption|]. split; [unfold pl_h; destruct (pl_rot q); assumption|]. split; [lia|]. split; [apply Q3|lia]. }
  (* the new item *)
  assert (Hy0 : 0 <= in_y ins).
  { rewrite I1. cbn [in_y]. unfold src_ys. destruct src as [[|pos]|e]; cbn [ins_sources] in C5.
    - lia.
    - destruct C5 as [En Hp]. subst new. destruct (tiles_in _ _ _ _ (sk_tiles _ _ _ _ _ K0) (nth_In _ dummy_piece Hp)) as (A & _). exact A.
    - apply (dom_defects s Hd dir t); [exact Ht|]. fold inst bt. apply nth_In. exact C5. }
  destruct (avoid_spec xj (in_y ins) (in_y ins + yj) (rb_defects bt) (S (length (rb_defects bt))) (left_xs n new (in_y ins) (in_y ins + yj))) as [V1 V2].
  { pose proof (ahead_length (rb_defects bt) (left_xs n new (in_y ins) (in_y ins + yj))). lia. }
  rewrite <- I6 in V1, V2. destruct (left_xs_spec n new (in_y ins) (in_y ins + yj)) as [X1 X2].
  assert (F : Fits inst (rb_x bt) (rb_y bt) l0 p).
  { constructor.
    - rewrite Exe. cbn [pl_x p]. lia.
    - rewrite Eye. cbn [pl_y p]. lia.
    - exact Hw.
    - exact Hh.
    - rewrite Eye. cbn [pl_y pl_x p]. intros u Hu H1 H2. unfold l0 in Hu. destruct new as [pd|]; [destruct Hu as [<-|[]]; cbn; lia|]. specialize (X2 eq_refl u Hu H1 H2). lia.
    - rewrite Eye. cbn [pl_y p]. intros Hun u t' Hu Et H1 H2. unfold l0 in Hu. destruct new as [pd|]; [destruct Hu as [<-|[]]; discriminate|]. unfold unloading_allows in I5. rewrite Hun in I5. injection I5 as I5. rewrite forallb_forall in I5. specialize (I5 u Hu).
      assert (E : overlaps (in_y ins) (in_y ins + yj) u = true). { unfold overlaps. destruct (Z.leb_spec (pc_ye u) (in_y ins)); [lia|]. destruct (Z.leb_spec (in_y ins + yj) (pc_ys u)); [lia|]. reflexivity. }
      rewrite E, Et in I5. cbn [negb orb] in I5. apply negb_true_iff, Nat.ltb_ge in I5. exact I5. }
  set (l1 := flat_map (clip_below (pl_y p)) l0 ++ [piece_of inst p] ++ flat_map (clip_above (pl_ye inst p)) l0).
  assert (K1 : Sky inst (rb_x bt) (rb_y bt) l1 (ps ++ [p])). { apply sky_step; [exact K0| |exact F]. intros q Hq. destruct (G0 q Hq) as (A1 & A2 & A3 & A4 & A5 & _). auto. }
  assert (Hleft : forall q, In q ps -> same_rows inst q p -> pl_xe inst q <= pl_x p).
  { intros q Hq Hr. destruct (G0 q Hq) as (A1 & A2 & A3 & A4 & A5 & _). destruct (fits_left inst _ _ l0 ps p q K0 F Hq A3 A4 A5 Hr) as (u & _ & _ & _ & _ & _ & U1 & U2). lia. }
  assert (Geo : geometry_ok inst bt (ps ++ [p])).
  { destruct T1 as [Q1 Q2 Q3]. constructor.
    - intros q Hq. apply in_app_or in Hq. destruct Hq as [Hq|[<-|[]]]; [apply Q1, Hq|]. constructor; [exact Hx|apply (fi_x _ _ _ _ _ F)|apply (fi_y _ _ _ _ _ F)|exact C4].
    - apply fop_snoc; [exact Q2|]. intros q Hq. unfold disjoint. destruct (Z.le_gt_cases (pl_ye inst q) (pl_y p)) as [|N1]; [tauto|]. destruct (Z.le_gt_cases (pl_ye inst p) (pl_y q)) as [|N2]; [tauto|]. left. apply Hleft; [exact Hq|]. split; assumption.
    - intros q f Hq Hf. apply in_app_or in Hq. destruct Hq as [Hq|[<-|[]]]; [apply Q3; assumption|]. specialize (V2 f Hf). unfold clear_of, df_xe, df_ye in V2. unfold avoids. rewrite Exe, Eye. cbn [pl_x pl_y p]. tauto. }
  assert (Only : only_movements_ok inst (ps ++ [p])).
  { unfold only_movements_ok in *. destruct (rp_unloading (rin_params inst)) eqn:Eu; try exact I; [|unfold unloading_allows in I5; rewrite Eu in I5; discriminate].
    intros a b Ha Hb Hr Hab. apply in_app_or in Ha, Hb. destruct Ha as [Ha|[<-|[]]]; destruct Hb as [Hb|[<-|[]]].
    - apply T4; assumption.
    - destruct (G0 a Ha) as (A1 & A2 & A3 & A4 & A5 & _). destruct (fits_left inst _ _ l0 ps p a K0 F Ha A3 A4 A5 Hr) as (u & Hu & U1 & U2 & U3 & U4 & U5 & U6).
      destruct (pc_type u) as [t'|] eqn:Et; [|pose proof (sk_none _ _ _ _ _ K0 u Hu Et); unfold pl_xe in *; lia].
      pose proof (fi_group _ _ _ _ _ F Eu u t' Hu Et U1 U2). pose proof (sk_group _ _ _ _ _ K0 Eu u t' a Hu Et Ha U3 U4). lia.
    - exfalso. assert (Hr' : same_rows inst b p) by (destruct Hr; split; assumption). pose proof (Hleft b Hb Hr'). destruct (G0 b Hb) as (A1 & A2 & _). unfold pl_xe in *. cbn [pl_x p] in *. lia.
    - exfalso. rewrite Exe in Hab. cbn [pl_x p] in Hab. lia. }
  assert (Incr : rb_defects bt = [] -> increasing_ok inst (ps ++ [p])).
  { intros En. specialize (T5 En). unfold increasing_ok in *. destruct (rp_unloading (rin_params inst)) eqn:Eu; try exact I; [|unfold unloading_allows in I5; rewrite Eu in I5; discriminate].
    unfold unloading_allows in I5. rewrite Eu in I5. injection I5 as I5. apply andb_true_iff in I5. destruct I5 as [I5a I5b]. rewrite forallb_forall in I5a, I5b. rewrite En, avoid_none in I6.
    set (g := ri_group (ritem inst x)) in *. assert (Eg : pl_group inst p = g) by reflexivity.
    intros a b Ha Hb Hg. apply in_app_or in Ha, Hb. destruct Ha as [Ha|[<-|[]]]; destruct Hb as [Hb|[<-|[]]].
    - apply T5; assumption.
    - destruct new as [pd|]; [subst ps; destruct Ha|]. destruct (bs_groups _ _ _ _ Hps Eu a Ha) as [_ (v & Ev & Hv)]. rewrite Eg in Hg. specialize (I5b (pl_group inst a) ltac:(apply in_seq; lia)). cbv beta in I5b. rewrite Ev in I5b. apply negb_true_iff, Z.ltb_ge in I5b. cbn [pl_x p]. lia.
    - destruct new as [pd|]; [subst ps; destruct Hb|]. destruct (bs_groups _ _ _ _ Hps Eu b Hb) as [Hv _]. rewrite Eg in Hg. destruct (G0 b Hb) as (_ & _ & _ & _ & _ & A6). rewrite L1 in A6. pose proof (dom_group dir _ A6) as Hgl. fold inst in Hgl. change (ri_group (ritem inst (pl_type b))) with (pl_group inst b) in Hgl.
      specialize (I5a (pl_group inst b) ltac:(apply in_seq; rewrite Hxmax; lia)). cbv beta in I5a. apply negb_true_iff, Z.ltb_ge in I5a. cbn [pl_x p]. lia.
    - lia. }
  assert (Weight : (match new with Some _ => ri_weight (ritem inst x) | None => rn_weight n + ri_weight (ritem inst x) end == rweight inst (ps ++ [p]))%Q).
  { unfold rweight. rewrite qsum_snoc. cbn [pl_type p]. destruct new as [pd|]; [subst ps; cbn; ring|]. rewrite (bs_weight _ _ _ _ Hps). reflexivity. }
  assert (Tol : rtol_bin_ok inst (mkRD t 1 (ps ++ [p]))).
  { constructor; cbn [rd_type rd_items]; fold bt.
    - exact Geo.
    - intros _. eapply within_tol_compat; [exact Weight|exact I3].
    - exact (hard_step inst _ Hco n new t ps p Ht' Hx R0 T3 (fun r Hr Hp => I4 r Hr Hp)).
    - exact Only.
    - exact Incr. }
  assert (Epieces : (match new with Some _ => new_pieces (mkPc (Some x) (in_x ins) (in_x ins + xj) (in_x ins + xj) (in_y ins) (in_y ins + yj)) (rb_y bt)
    | None => fold_left (cover_step (mkPc (Some x) (in_x ins) (in_x ins + xj) (in_x ins + xj) (in_y ins) (in_y ins + yj))) (rn_pieces n) ([], None) end)
    = (l1, Some (length (flat_map (clip_below (pl_y p)) l0)))).
  { change (mkPc (Some x) (in_x ins) (in_x ins + xj) (in_x ins + xj) (in_y ins) (in_y ins + yj)) with (piece_of inst p). destruct new as [pd|].
    - rewrite new_pieces_eq by (cbn [piece_of pc_ys pc_ye]; rewrite ?Eye; cbn [pl_y p]; lia). reflexivity.
    - pose proof (cover_eq (piece_of inst p) (rn_pieces n) 0 (rb_y bt) [] (sk_tiles _ _ _ _ _ K0)) as E. cbn [app piece_of pc_ys pc_ye] in E. rewrite E by (rewrite ?Eye; cbn [pl_y p]; lia). reflexivity. }
  assert (Ety : in_type ins = x) by (rewrite I1; reflexivity). assert (Ero : in_rotate ins = rot) by (rewrite I1; reflexivity). assert (Ene : in_new ins = new) by (rewrite I1; reflexivity).
  destruct (dom_totals dir) as (D1 & D2 & D3).
  pose proof (child_resources_spec inst _ Hco Hsane n new t ps p (rn_profit n + ri_profit (ritem inst x))%Q Ht' Hx R0) as CR.
  cbn [pl_type] in CR. change (pl_type p) with x in CR. fold bt in CR. destruct (child_resources n new inst bt t x (rn_profit n + ri_profit (ritem inst x))%Q) as [[res lc] prof] eqn:Ecr. destruct CR as [CR1 CR2].
  unfold rchild. rewrite Ety, Ero, Ene. rewrite Enb. change (match new with Some (_, d) => d | None => rn_dir n end) with dir. cbv zeta. replace (S k - 1)%nat with k by lia.
  fold inst. fold t. fold bt. fold xj yj. rewrite Epieces.
  set (kk := length (flat_map (clip_below (pl_y p)) l0)). set (l2 := if below_smallest (rb_y bt - (in_y ins + yj)) _ then raise_after kk (in_x ins + xj) l1 else l1). set (l3 := if below_smallest (in_y ins) _ then raise_before kk (in_x ins + xj) l2 else l2).
  assert (E3 : map erase l1 = map erase l3). { transitivity (map erase l2); [unfold l2; destruct (below_smallest (rb_y bt - (in_y ins + yj)) _); [symmetry; apply raise_after_like|reflexivity]|unfold l3; destruct (below_smallest (in_y ins) _); [symmetry; apply raise_before_like|reflexivity]]. }
  assert (K3 : Sky inst (rb_x bt) (rb_y bt) l3 (ps ++ [p])) by (apply (sky_like inst _ _ l1); assumption).
  assert (Hall : forall q, In q (ps ++ [p]) -> 0 <= pl_x q /\ 0 < pl_w inst q /\ 0 < pl_h inst q /\ 0 <= pl_y q /\ pl_ye inst q <= rb_y bt).
  { intros q Hq. apply in_app_or in Hq. destruct Hq as [Hq|[<-|[]]]; [destruct (G0 q Hq) as (A1 & A2 & A3 & A4 & A5 & _); auto|]. destruct F as [F1 F2 F3 F4 _ _]. repeat split; try assumption; lia. }
  assert (Mx : pieces_xe_max l3 = rightmost inst (ps ++ [p])). { apply (sky_xe_max inst _ _ _ _ K3). intros q Hq. destruct (Hall q Hq) as (A1 & A2 & A3 & A4 & A5). auto. }
  assert (My : pieces_ye_max (match new with Some _ => 0 | None => rn_ye_max n end) l3 = topmost inst (ps ++ [p])).
  { apply (sky_ye_max inst _ _ l3 ps p _ K3).
    - assert (Hin : In (piece_of inst p) l1) by (unfold l1; apply in_or_app; right; left; reflexivity). destruct (erase_in l3 l1 _ (eq_sym E3) Hin) as (u & Hu & _ & _ & U3 & _ & U5). exists u. auto.
    - rewrite Exe. lia.
    - destruct new as [pd|]; [subst ps; reflexivity|apply (bs_ye _ _ _ _ Hps)]. }
  assert (Ms : pieces_area l3 = shadow inst bt (ps ++ [p])). { apply (sky_shadow inst (rb_x bt)); [exact K3|]. intros q Hq. destruct (Hall q Hq) as (A1 & A2 & _). unfold pl_xe. lia. }
  assert (Mle : pieces_area l3 <= rightmost inst (ps ++ [p]) * rb_y bt). { rewrite <- Mx. pose proof (pieces_area_le l3 0 (rb_y bt) (pieces_xe_max l3) (sk_tiles _ _ _ _ _ K3) (xe_max_in l3)). lia. }
  pose proof (sk_area _ _ _ _ _ K3) as Ma. rewrite items_area_snoc in Ma. rewrite Ew, Eh in Ma. assert (Ea : ri_area (ritem inst x) = xj * yj) by (unfold ri_area, xj, yj, ri_width, ri_height; destruct rot; lia).
  rewrite Mx, My.
  set (RES := if (length (rb_resources bt) =? 0)%nat then _ else _).
  assert (ERES : RES = (res, lc, prof)) by (rewrite <- Ecr; unfold RES, child_resources; destruct (length (rb_resources bt) =? 0)%nat; [reflexivity|destruct new; reflexivity]). rewrite ERES. clear ERES RES.
  rewrite D1, D2, D3.
  set (current := if rn_items n + 1 =? dv_number_of_items (sc_d s) then _ else _).
  set (base := Z.max (current - _) _). set (waste := if _ : bool then match _ with Some w => Z.max base w | None => base end else base).
  assert (W1 : base <= waste) by (unfold waste; destruct (_ && _); [destruct (extra_waste _ _ _ _ _ _ _ _); lia|lia]).
  assert (W2 : S k = length (dv_bin_type_ids (sc_d s)) -> waste = base) by (intros E; unfold waste; rewrite E, Nat.ltb_irrefl; reflexivity).
  assert (W0 : 0 <= waste). { assert (rts_previous (sc_i s) k + pieces_area l3 <= current) by (unfold current; destruct (_ =? _); lia). unfold base in W1. lia. }
  destruct (Z.ltb_spec waste 0) as [|_]; [lia|]. eexists. split; [reflexivity|]. split; [|split; [|split; [|split; [exact W0|]]]].
  - constructor; cbn [rn_pieces rn_weight rn_resources rn_last_copies rn_xe_max rn_ye_max rn_xmin rn_xmax].
    + intro E. apply app_eq_nil in E. destruct E. discriminate.
    + exact Tol.
    + exact K3.
    + exact Weight.
    + exact CR1.
    + reflexivity.
    + reflexivity.
    + intros Hun q Hq. rewrite Hun. pose proof (dom_group dir x Hx') as Hgl. fold inst in Hgl. apply in_app_or in Hq. destruct Hq as [Hq|[<-|[]]].
      * destruct new as [pd|]; [subst ps; destruct Hq|]. destruct (bs_groups _ _ _ _ Hps Hun q Hq) as [U1 (v & U2 & U3)].
        rewrite !nth_upd by (rewrite ?Hxmin, ?Hxmax; exact Hgl). destruct (Nat.eqb_spec (ri_group (ritem inst x)) (pl_group inst q)) as [E|E]; [|split; [exact U1|exists v; auto]]. split.
        -- unfold max_x. destruct (Z.ltb_spec (nth (pl_group inst q) (rn_xmax n) 0) (in_x ins)); lia.
        -- rewrite U2. unfold min_x. destruct (Z.ltb_spec (in_x ins) v); [exists (in_x ins); split; [reflexivity|lia]|exists v; auto].
      * change (pl_group inst p) with (ri_group (ritem inst x)). rewrite !nth_upd_same by (rewrite ?Hxmin, ?Hxmax; exact Hgl). cbn [pl_x p]. split.
        -- unfold max_x. destruct (Z.ltb_spec (nth (ri_group (ritem inst x)) (rn_xmax n) 0) (in_x ins)); lia.
        -- unfold min_x. destruct (nth (ri_group (ritem inst x)) (rn_xmin n) None) as [v|]; [|exists (in_x ins); split; [reflexivity|lia]]. destruct (Z.ltb_spec (in_x ins) v); [exists (in_x ins); split; [reflexivity|lia]|exists v; auto].
  - constructor; cbn [rn_path rn_dir rn_copies rn_bins rn_items rn_area rn_profit rn_xmin rn_xmax]; try reflexivity.
    + exact CR2.
    + destruct (match rp_unloading (rin_params inst) with UIncreasingX => true | _ => false end); [apply upd_length|reflexivity].
    + destruct (match rp_unloading (rin_params inst) with UIncreasingX => true | _ => false end); [apply upd_length|reflexivity].
  - constructor; cbn [rn_current rn_items rn_area rn_waste rn_leftover]; fold bt.
    + unfold current. rewrite <- Ms. destruct (_ =? _); reflexivity.
    + exact W1.
    + exact W2.
    + destruct (rp_leftover _); reflexivity.
  - rewrite Ea, <- Ew, <- Eh. apply shadow_snoc; [exact Hleft|apply (fi_y _ _ _ _ _ F)|apply (fi_y _ _ _ _ _ F)|apply (fi_x _ _ _ _ _ F)|rewrite Ew; lia|rewrite Eh; lia].
Qed.

(** ** From the instance of the direction to the instance *)

Lemma place_of_true : forall ps, map (place_of true) ps = map swap_place ps.
Proof. intros ps. apply map_ext. reflexivity. Qed.
Lemma place_of_false : forall ps, map (place_of false) ps = ps.
Proof. intros ps. rewrite <- (List.map_id ps) at 2. apply map_ext. reflexivity. Qed.

Lemma dir_count : forall dir x ps, rcount x (map (place_of dir) ps) = rcount x ps.
Proof. intros [|] x ps; [rewrite place_of_true; apply swap_count|rewrite place_of_false; reflexivity]. Qed.

Lemma dir_sum : forall dir (f : RItem -> Q) ps, (forall p, In p ps -> (pl_type p < length (rin_items (sc_i s)))%nat) ->
  (forall x, (x < length (rin_items (sc_i s)))%nat -> f (ritem (sinst s dir) x) = f (ritem (sc_i s) x)) ->
  (qsum (fun p => f (ritem (sc_i s) (pl_type p))) (map (place_of dir) ps) == qsum (fun p => f (ritem (sinst s dir) (pl_type p))) ps)%Q.
Proof.
  intros dir f ps Hps Hf. rewrite qsum_map. apply qsum_ext. intros p Hp. rewrite Hf by (apply Hps, Hp). destruct dir; reflexivity.
Qed.

Lemma dir_area : forall dir ps, (forall p, In p ps -> (pl_type p < length (rin_items (sc_i s)))%nat) -> items_area (sc_i s) (map (place_of dir) ps) = items_area (sinst s dir) ps.
Proof.
  intros dir ps Hps. unfold items_area. rewrite zsum_map. apply zsum_ext. intros p Hp. destruct (dom_item s Hd dir _ (Hps p Hp)) as (_ & _ & _ & _ & _ & E & _). cbv zeta in E. rewrite E. destruct dir; reflexivity.
Qed.

Lemma dir_pen : forall dir t ps, (t < length (rin_bins (sc_i s)))%nat -> (rpen (sc_i s) t (map (place_of dir) ps) == rpen (sinst s dir) t ps)%Q.
Proof.
  intros [|] t ps Ht; [|rewrite place_of_false; reflexivity]. cbn [sinst]. rewrite place_of_true. unfold rpen. destruct (dom_swapped s Hd) as [Hs _]. apply swapped_sym in Hs.
  destruct (dom_lengths s Hd true) as [_ L2]. cbn [sinst] in L2. rewrite <- (swap_penalties _ _ Hs (mkRD t 1 ps)) by (cbn [rd_type]; lia). reflexivity.
Qed.

Lemma dir_ok : forall dir t ps, (t < length (rin_bins (sc_i s)))%nat -> rtol_bin_ok (sinst s dir) (mkRD t 1 ps) -> rtol_bin_ok (sc_i s) (mkRD t 1 (map (place_of dir) ps)).
Proof.
  intros [|] t ps Ht H; [|rewrite place_of_false; exact H]. cbn [sinst] in H. rewrite place_of_true. destruct (dom_swapped s Hd) as [Hs0 _]. pose proof (swapped_sym _ _ Hs0) as Hs. destruct (dom_lengths s Hd true) as [L1 L2]. cbn [sinst] in L1, L2.
  assert (Ht' : (t < length (rin_bins (sc_j s)))%nat) by lia.
  destruct H as [H1 H2 H3 H4 H5]. cbn [rd_type rd_items] in *. pose proof Hs as [U _ [_ SI] [_ SB]]. specialize (SB t Ht'). cbv zeta in SB. destruct SB as (A1 & A2 & A3 & A4 & A5 & A6 & A7 & A8 & A9 & A10).
  assert (Hps : forall p, In p ps -> (pl_type p < length (rin_items (sc_j s)))%nat) by (intros p Hp; apply (ge_places _ _ _ H1 p Hp)).
  assert (Hgr : forall p, In p ps -> pl_group (sc_i s) (swap_place p) = pl_group (sc_j s) p). { intros p Hp. specialize (SI _ (Hps p Hp)). cbv zeta in SI. unfold pl_group. cbn [swap_place pl_type]. tauto. }
  assert (Hen : forall p, In p ps -> pl_x (swap_place p) = pl_y p /\ pl_y (swap_place p) = pl_x p /\ pl_xe (sc_i s) (swap_place p) = pl_ye (sc_j s) p /\ pl_ye (sc_i s) (swap_place p) = pl_xe (sc_j s) p).
  { intros p Hp. destruct (swap_ends _ _ Hs p (Hps p Hp)) as (B1 & B2 & _ & _ & B5 & B6). auto. }
  constructor; cbn [rd_type rd_items].
  - apply (swap_geometry _ _ Hs); [exact Ht'|exact H1].
  - intros Hne. rewrite A6. eapply within_tol_compat; [|apply H2; intro E; apply Hne; rewrite E; reflexivity]. unfold rweight. rewrite qsum_map. apply qsum_ext. intros p Hp. specialize (SI _ (Hps p Hp)). cbv zeta in SI. cbn [swap_place pl_type]. destruct SI as (_ & _ & _ & _ & _ & _ & ->). reflexivity.
  - intros r Hr Hp. destruct (In_nth _ _ dummy_resource Hr) as (k & Hk & Ek). rewrite <- Ek in *. destruct (A10 k) as (B1 & B2 & B3 & B4). rewrite B1. rewrite (swap_consumption _ _ Hs t k ps Ht'). apply H3; [apply nth_In; lia|congruence].
  - unfold only_movements_ok in *. rewrite U. destruct (rp_unloading (rin_params (sc_j s))) eqn:Eu; cbn [swap_unloading]; try exact I.
    + intros p q Hp Hq Hr Hpq. apply in_map_iff in Hp, Hq. destruct Hp as (p' & <- & Hp). destruct Hq as (q' & <- & Hq). rewrite !Hgr by assumption. destruct (Hen p' Hp) as (E1 & E2 & E3 & E4). destruct (Hen q' Hq) as (E5 & E6 & E7 & E8).
      unfold same_columns in Hr. rewrite E1, E3, E5, E7 in Hr. rewrite E4, E6 in Hpq. apply (H4 p' q' Hp Hq); [exact Hr|exact Hpq].
    + intros p q Hp Hq Hr Hpq. apply in_map_iff in Hp, Hq. destruct Hp as (p' & <- & Hp). destruct Hq as (q' & <- & Hq). rewrite !Hgr by assumption. destruct (Hen p' Hp) as (E1 & E2 & E3 & E4). destruct (Hen q' Hq) as (E5 & E6 & E7 & E8).
      unfold same_rows in Hr. rewrite E2, E4, E6, E8 in Hr. rewrite E3, E5 in Hpq. apply (H4 p' q' Hp Hq); [exact Hr|exact Hpq].
  - rewrite A8. intros En. apply map_eq_nil in En. specialize (H5 En). unfold increasing_ok in *. rewrite U. destruct (rp_unloading (rin_params (sc_j s))) eqn:Eu; cbn [swap_unloading]; try exact I.
    + intros p q Hp Hq Hg. apply in_map_iff in Hp, Hq. destruct Hp as (p' & <- & Hp). destruct Hq as (q' & <- & Hq). rewrite !Hgr in Hg by assumption. cbn [swap_place pl_y]. apply H5; assumption.
    + intros p q Hp Hq Hg. apply in_map_iff in Hp, Hq. destruct Hp as (p' & <- & Hp). destruct Hq as (q' & <- & Hq). rewrite !Hgr in Hg by assumption. cbn [swap_place pl_x]. apply H5; assumption.
Qed.

(** ** Invariant of the nodes *)

Record RNodeInv (n : RNode) (ds : list RDesc) : Prop := {
  nv_ds : rdesc_run [] (rpath_calls s 0 (rn_path n)) = ds;
  nv_path : rbins_of 0 (rn_path n) = rn_bins n;
  nv_len : length ds = rn_bins n;
  nv_bound : (rn_bins n <= length (rts_bins (sc_i s)))%nat;
  nv_types : map rd_type ds = firstn (rn_bins n) (rts_bins (sc_i s));
  nv_one : forall d, In d ds -> rd_copies d = 1;
  nv_ok : forall d, In d ds -> rtol_bin_ok (sc_i s) d;
  nv_fill : forall d, In d ds -> items_area (sc_i s) (rd_items d) <= rb_area (rbin (sc_i s) (rd_type d));
  nv_last : (rn_bins n = 0%nat /\ ds = [] /\ n = rroot s)
    \/ exists pre ps, let t := nth (rn_bins n - 1) (rts_bins (sc_i s)) 0%nat in let inst := sinst s (rn_dir n) in
       rn_bins n <> 0%nat /\ ds = pre ++ [mkRD t 1 (map (place_of (rn_dir n)) ps)] /\ BinState inst t n ps /\ AreaState s n (rn_bins n - 1) inst t ps;
  nv_copies_len : length (rn_copies n) = length (rin_items (sc_i s));
  nv_copies : forall x, (x < length (rin_items (sc_i s)))%nat -> nth x (rn_copies n) 0 = rpacked x ds /\ rpacked x ds <= ri_copies (ritem (sc_i s) x);
  nv_items : rn_items n = zsum (fun d => Z.of_nat (length (rd_items d))) ds;
  nv_area : rn_area n = zsum (fun d => items_area (sc_i s) (rd_items d)) ds;
  nv_profit : (rn_profit n == qsum (fun d => qsum (fun p => ri_profit (ritem (sc_i s) (pl_type p))) (rd_items d) - rpenalties (sc_i s) d) ds)%Q;
  nv_xmin : length (rn_xmin n) = length (dv_groups (sc_d s));
  nv_xmax : length (rn_xmax n) = length (dv_groups (sc_d s));
  nv_waste : 0 <= rn_waste n;
  nv_calls : forall e, In e (rn_path n) -> (1 <= fst (fst e) <= length (rts_bins (sc_i s)))%nat /\ (pl_type (snd e) < length (rin_items (sc_i s)))%nat /\ (pl_rot (snd e) = true -> ri_oriented (ritem (sc_i s) (pl_type (snd e))) = false);
  nv_dir : forall dir, sc_direction s = Some dir -> rn_bins n <> 0%nat -> rn_dir n = dir;
  nv_elig : sc_direction s = Some false -> rn_dir n = false /\ forall d p, In d ds -> In p (rd_items d) -> In (pl_type p) (nth (rd_type d) (dv_item_type_ids (sc_d s)) [])
}.

Lemma rroot_inv : RNodeInv (rroot s) [].
Proof.
  constructor; cbn [rroot rn_path rn_bins rn_copies rn_items rn_area rn_profit rn_xmin rn_xmax rn_waste]; try reflexivity; try (intros d []; fail); try lia.
  - left. auto.
  - apply repeat_length.
  - intros x Hx. rewrite nth_repeat. split; [reflexivity|]. destruct (dom_item s Hd false x Hx) as (_ & _ & _ & _ & _ & _ & _ & _ & H). cbn [sinst] in H. change (rpacked x []) with 0. lia.
  - apply repeat_length.
  - apply repeat_length.
  - intros _. split; [reflexivity|intros d p []].
Qed.

Lemma fill_sum : forall ds, (forall d, In d ds -> items_area (sc_i s) (rd_items d) <= rb_area (rbin (sc_i s) (rd_type d))) ->
  zsum (fun d => items_area (sc_i s) (rd_items d)) ds <= zsum (fun t => rb_area (rbin (sc_i s) t)) (map rd_type ds).
Proof. intros ds H. rewrite zsum_map. apply zsum_le. exact H. Qed.

Lemma bin_area_nonneg : forall t, (t < length (rin_bins (sc_i s)))%nat -> 0 <= rb_area (rbin (sc_i s) t).
Proof. intros t Ht. destruct (dom_bin s Hd false t Ht) as (A & B & _). cbn [sinst] in A, B. unfold rb_area. nia. Qed.

Lemma rpacked_snoc : forall x ds d, rpacked x (ds ++ [d]) = rpacked x ds + rd_copies d * rcount x (rd_items d).
Proof. intros x ds d. unfold rpacked. rewrite zsum_snoc. reflexivity. Qed.

Lemma sky_fill : forall inst xi yi l ps, Sky inst xi yi l ps -> items_area inst ps <= xi * yi.
Proof. intros inst xi yi l ps K. pose proof (sk_area _ _ _ _ _ K). pose proof (pieces_area_le l 0 yi xi (sk_tiles _ _ _ _ _ K) (fun u Hu => proj2 (sk_xe _ _ _ _ _ K u Hu))). lia. Qed.

Lemma inv_types : forall n ds, RNodeInv n ds -> forall d, In d ds -> forall p, In p (rd_items d) -> (pl_type p < length (rin_items (sc_i s)))%nat.
Proof. intros n ds NI d Hdd p Hp. apply (ge_places _ _ _ (rk_geometry _ _ (nv_ok n ds NI d Hdd)) p Hp). Qed.

Lemma inv_sum : forall n ds (c : nat -> Z), RNodeInv n ds -> zsum (fun x => rpacked x ds * c x) (seq 0 (length (rin_items (sc_i s)))) = zsum (fun d => zsum (fun p => c (pl_type p)) (rd_items d)) ds.
Proof.
  intros n ds c NI. rewrite (rpacked_sum _ _ c (inv_types n ds NI)). apply zsum_ext. intros d Hdd. rewrite (nv_one n ds NI d Hdd). lia.
Qed.

Lemma zsum_items : forall (f : RItem -> Z), zsum f (rin_items (sc_i s)) = zsum (fun x => f (ritem (sc_i s) x)) (seq 0 (length (rin_items (sc_i s)))).
Proof. intros f. rewrite <- (List.map_id (rin_items (sc_i s))) at 1. rewrite <- (list_nth_map _ _ (fun a => a) (rin_items (sc_i s)) dummy_ritem). rewrite zsum_map. reflexivity. Qed.

Lemma inv_items_le : forall n ds, RNodeInv n ds -> rn_items n <= dv_number_of_items (sc_d s) /\ (rn_items n = dv_number_of_items (sc_d s) <-> rall_packed (sc_i s) ds).
Proof.
  intros n ds NI. rewrite (rc_number_of_items _ _ (rd_consistent s Hd)), zsum_items, (nv_items n ds NI).
  assert (E : zsum (fun d => Z.of_nat (length (rd_items d))) ds = zsum (fun x => rpacked x ds) (seq 0 (length (rin_items (sc_i s))))).
  { rewrite <- (zsum_ext _ (fun x => rpacked x ds * 1)) by (intros; lia). rewrite (inv_sum n ds (fun _ => 1) NI). apply zsum_ext. intros d _. generalize (rd_items d). clear. induction l as [|a l IH]; [reflexivity|]. rewrite zsum_cons, <- IH. cbn [length]. lia. }
  rewrite E. assert (L : forall x, In x (seq 0 (length (rin_items (sc_i s)))) -> rpacked x ds <= ri_copies (ritem (sc_i s) x)) by (intros x Hx; apply in_seq in Hx; apply (nv_copies n ds NI); lia).
  split; [apply zsum_le, L|]. unfold rall_packed. split.
  - intros H x Hx. assert (G : forall l, (forall x, In x l -> rpacked x ds <= ri_copies (ritem (sc_i s) x)) -> zsum (fun x => rpacked x ds) l = zsum (fun x => ri_copies (ritem (sc_i s) x)) l -> forall x, In x l -> rpacked x ds = ri_copies (ritem (sc_i s) x)).
    { clear. induction l as [|a l IH]; intros Hl He x [].
      - subst a. rewrite !zsum_cons in He. pose proof (Hl x (or_introl eq_refl)). assert (zsum (fun x => rpacked x ds) l <= zsum (fun x => ri_copies (ritem (sc_i s) x)) l) by (apply zsum_le; intros y Hy; apply Hl; right; exact Hy). lia.
      - rewrite !zsum_cons in He. apply IH; [intros y Hy; apply Hl; right; exact Hy| |assumption]. pose proof (Hl a (or_introl eq_refl)). assert (zsum (fun x => rpacked x ds) l <= zsum (fun x => ri_copies (ritem (sc_i s) x)) l) by (apply zsum_le; intros y Hy; apply Hl; right; exact Hy). lia. }
    apply (G _ L H). apply in_seq. lia.
  - intros H. apply zsum_ext. intros x Hx. apply in_seq in Hx. apply H. lia.
Qed.

Lemma inv_area_all : forall n ds, RNodeInv n ds -> rn_items n = dv_number_of_items (sc_d s) -> rn_area n = dv_item_area (sc_d s).
Proof.
  intros n ds NI H. apply (inv_items_le n ds NI) in H. rewrite (nv_area n ds NI), (rc_item_area _ _ (rd_consistent s Hd)), zsum_items. unfold items_area. rewrite <- (inv_sum n ds (fun x => ri_x (ritem (sc_i s) x) * ri_y (ritem (sc_i s) x)) NI).
  apply zsum_ext. intros x Hx. apply in_seq in Hx. rewrite H by lia. reflexivity.
Qed.

(** Area of the bins before the last one, plus the part of the last one up to its
    rightmost item. *)
Definition level (n : RNode) : Z :=
  if (rn_bins n =? 0)%nat then 0
  else rts_previous (sc_i s) (rn_bins n - 1) + rn_xe_max n * rb_y (rbin (sinst s (rn_dir n)) (nth (rn_bins n - 1) (rts_bins (sc_i s)) 0%nat)).

(** What never decreases from a node to a child. *)
Record RStep (n n' : RNode) : Prop := {
  st_items : rn_items n' = rn_items n + 1;
  st_bins : (rn_bins n <= rn_bins n')%nat;
  st_same : rn_bins n' = rn_bins n -> rn_dir n' = rn_dir n /\ rn_xe_max n <= rn_xe_max n' /\ rn_ye_max n <= rn_ye_max n' /\ rn_leftover n' <= rn_leftover n;
  st_level : level n <= level n';
  st_current : rn_current n - rn_area n <= rn_current n' - rn_area n'
}.

Lemma last_shadow : forall inst t n ps, BinState inst t n ps -> 0 < rb_y (rbin inst t) -> (forall q, In q ps -> 0 < pl_h inst q /\ 0 < pl_w inst q) ->
  shadow inst (rbin inst t) ps <= rightmost inst ps * rb_y (rbin inst t) /\ 0 <= rightmost inst ps <= rb_x (rbin inst t).
Proof.
  intros inst t n ps BS Hy Hh. pose proof (rk_geometry _ _ (bs_ok _ _ _ _ BS)) as G. cbn [rd_type rd_items] in G. pose proof (bs_sky _ _ _ _ BS) as K.
  assert (P : forall q, In q ps -> 0 <= pl_x q /\ pl_xe inst q <= rb_x (rbin inst t) /\ 0 <= pl_y q /\ pl_ye inst q <= rb_y (rbin inst t)). { intros q Hq. destruct (ge_places _ _ _ G q Hq) as [_ A B _]. tauto. }
  assert (R : 0 <= rightmost inst ps <= rb_x (rbin inst t)).
  { unfold rightmost. destruct (fold_max_cases (map (pl_xe inst) ps)) as [R0 [E|E]]; split; try assumption.
    - rewrite E. destruct ps as [|q ps']; [exfalso; apply (bs_ne _ _ _ _ BS); reflexivity|]. destruct (P q (or_introl eq_refl)) as (_ & A & _). pose proof (fold_max_in (map (pl_xe inst) (q :: ps')) (pl_xe inst q) (or_introl eq_refl)) as B. rewrite E in B.
      pose proof (sk_tiles _ _ _ _ _ K) as T. destruct (rn_pieces n) as [|u l]; [cbn in T; lia|]. destruct (sk_xe _ _ _ _ _ K u (or_introl eq_refl)). lia.
    - apply in_map_iff in E. destruct E as (q & <- & Hq). apply (P q Hq). }
  split; [|exact R]. rewrite <- (sky_xe_max inst _ _ _ _ K) by (intros q Hq; destruct (P q Hq) as (_ & _ & A & B); destruct (Hh q Hq); auto).
  assert (E : pieces_area (rn_pieces n) = shadow inst (rbin inst t) ps).
  { apply (sky_shadow inst (rb_x (rbin inst t))); [exact K|]. intros q Hq. destruct (P q Hq) as (A & _).
    unfold pl_xe. specialize (Hh q Hq). lia. }
  rewrite <- E. pose proof (pieces_area_le (rn_pieces n) 0 _ _ (sk_tiles _ _ _ _ _ K) (xe_max_in (rn_pieces n))). lia.
Qed.

Lemma rnode_step : forall n ds l ins, RNodeInv n ds -> rinsertions s n = Some l -> In ins l -> exists n' ds', rchild s n ins = Some n' /\ RNodeInv n' ds' /\ RStep n n'.
Proof.
  intros n ds l ins NI Hl Hin. pose proof NI as NI0. destruct (rinsertion_cases s n l ins Hl Hin) as (x & rot & new & IC). destruct NI as [N1 N2 N3 N4 N5 N6 N7 N8 N9 N10 N11 N12 N13 N14 N15 N16 N17 N18 N20 N19].
  pose proof IC as [C1 C2 C3 C4 _]. rewrite <- (rts_bins_length _ _ (rd_consistent s Hd)) in C1.
  assert (Hpos : (ins_pos n new < length (rts_bins (sc_i s)))%nat) by (destruct new as [[q d]|]; cbn [ins_pos]; lia).
  pose proof (rts_bins_nth (sc_i s) _ Hpos) as Ht.
  (* bins before the one of the insertion, items of that bin *)
  assert (P : exists pre ps, match new with Some _ => ps = [] | None => BinState (sinst s (ins_dir n new)) (nth (ins_pos n new) (rts_bins (sc_i s)) 0%nat) n ps end
    /\ match new with Some (q, _) => pre = ds ++ rempty_bins (sc_i s) (rn_bins n) (q - rn_bins n) | None => ds = pre ++ [mkRD (nth (ins_pos n new) (rts_bins (sc_i s)) 0%nat) 1 (map (place_of (ins_dir n new)) ps)] end).
  { destruct new as [[q d]|]; [eexists _, []; split; reflexivity|]. destruct N9 as [[E _]|(pre & ps & _ & E & BS & _)]; [contradiction|]. exists pre, ps. split; [exact BS|exact E]. }
  destruct P as (pre & ps & Hps & Hpre).
  set (k := ins_pos n new) in *. set (dir := ins_dir n new) in *. set (t := nth k (rts_bins (sc_i s)) 0%nat) in *. set (inst := sinst s dir) in *.
  assert (Hr : forall q, In q ps -> (pl_type q < length (rin_items (sc_i s)))%nat).
  { intros q Hq. destruct new as [pd|]; [subst ps; destruct Hq|]. destruct (dom_lengths s Hd dir) as [<- _]. apply (ge_places _ _ _ (rk_geometry _ _ (bs_ok _ _ _ _ Hps)) q Hq). }
  assert (Epre : map rd_type pre = firstn k (rts_bins (sc_i s)) /\ length pre = k).
  { destruct new as [[q d]|]; cbn [ins_pos] in k.
    - subst pre. rewrite map_app, app_length, rempty_length, N3, N5. unfold rempty_bins. rewrite map_map. cbn [rd_type]. split; [|unfold k; lia]. unfold k. replace q with (rn_bins n + (q - rn_bins n))%nat at 2 by lia. rewrite firstn_seq_nth by lia. reflexivity.
    - rewrite Hpre in N3, N5. rewrite app_length in N3. cbn [length] in N3. rewrite map_app in N5. cbn [map rd_type] in N5. assert (Eb : rn_bins n = S k) by (unfold k; lia). rewrite Eb in N5.
      assert (E : nth_error (rts_bins (sc_i s)) k = Some t) by (apply nth_error_nth'; exact Hpos). rewrite (firstn_succ_snoc _ _ _ _ E) in N5. apply app_inj_tail in N5. split; [apply N5|lia]. }
  destruct Epre as [Epre Elen].
  assert (Pin : forall d, In d pre -> In d ds \/ exists q, (q < length (rts_bins (sc_i s)))%nat /\ d = mkRD (nth q (rts_bins (sc_i s)) 0%nat) 1 []).
  { intros d Hdd. destruct new as [[q e]|].
    - subst pre. apply in_app_or in Hdd. destruct Hdd as [Hdd|Hdd]; [left; exact Hdd|]. right. apply rempty_in in Hdd. destruct Hdd as (q' & Hq' & ->). exists q'. split; [cbn [ins_pos] in *; lia|reflexivity].
    - left. rewrite Hpre. apply in_or_app. left. exact Hdd. }
  assert (Pfill : forall d, In d pre -> items_area (sc_i s) (rd_items d) <= rb_area (rbin (sc_i s) (rd_type d))).
  { intros d Hdd. destruct (Pin d Hdd) as [Hds|(q & Hq & ->)]; [apply N8, Hds|]. cbn [rd_items rd_type]. change (items_area (sc_i s) []) with 0. apply bin_area_nonneg, rts_bins_nth, Hq. }
  assert (Asum : rn_area n = zsum (fun d => items_area (sc_i s) (rd_items d)) pre + items_area (sc_i s) (map (place_of dir) ps)).
  { rewrite N13. destruct new as [[q e]|].
    - subst pre ps. rewrite zsum_app, rempty_zsum by reflexivity. cbn [map]. change (items_area (sc_i s) []) with 0. lia.
    - rewrite Hpre, zsum_snoc. reflexivity. }
  assert (Harea : rn_area n <= rts_previous (sc_i s) k + items_area inst ps).
  { rewrite Asum, (dir_area dir ps Hr). fold inst. pose proof (fill_sum pre Pfill) as A. rewrite Epre in A. unfold rts_previous. lia. }
  destruct (child_step n x rot new ins ps IC Hpos N15 N16 Hps Harea) as (n' & E & BS & CS & AS & W & SH). fold k dir in BS, CS, AS, SH. fold t inst in BS, CS, AS, SH. set (p := mkPl x (in_x ins) (in_y ins) rot) in *.
  exists n', (pre ++ [mkRD t 1 (map (place_of dir) (ps ++ [p]))]). split; [exact E|]. destruct CS as [S1 S2 S3 S4 S5 S6 S7 S8 S9].
  assert (Hleaf : rn_items n <> dv_number_of_items (sc_d s)).
  { intros E0. apply (inv_items_le n ds NI0) in E0. destruct (dom_lengths s Hd dir) as [L1 L2]. destruct (proj2 (rc_item_type_ids _ _ (dom_consistent s Hd dir)) t) as [_ R]; [lia|].
    assert (Hx0 : (x < length (rin_items (sc_i s)))%nat) by (rewrite <- L1; apply (R x), C2). destruct (dom_item s Hd dir x Hx0) as (_ & X2 & _). fold inst in X2. apply C3. fold inst. rewrite X2. destruct (N11 x Hx0) as [-> _]. apply E0, Hx0. }
  assert (Hx : (x < length (rin_items (sc_i s)))%nat). { destruct (dom_lengths s Hd dir) as [L1 L2]. destruct (proj2 (rc_item_type_ids _ _ (dom_consistent s Hd dir)) t) as [_ R]; [lia|]. rewrite <- L1. apply (R x), C2. }
  destruct (dom_item s Hd dir x Hx) as (X1 & X2 & X3 & X4 & X5 & X6 & _). fold inst in X1, X2, X3, X4, X5, X6. fold inst in C3.
  assert (Hr' : forall q, In q (ps ++ [p]) -> (pl_type q < length (rin_items (sc_i s)))%nat) by (intros q Hq; apply in_app_or in Hq; destruct Hq as [Hq|[<-|[]]]; [apply Hr, Hq|exact Hx]).
  assert (Hpk : forall y, rpacked y ds = rpacked y pre + rcount y ps).
  { intros y. destruct new as [[q e]|].
    - subst pre ps. unfold rpacked. rewrite zsum_app, rempty_zsum by reflexivity. change (rcount y []) with 0. lia.
    - rewrite Hpre, rpacked_snoc. cbn [rd_copies rd_items]. rewrite dir_count. lia. }
  assert (Bpos : (rn_bins n' - 1)%nat = k) by (rewrite S4; lia).
  destruct (dom_bin s Hd dir t Ht) as (Bx & By & Bxy & _). fold inst in Bx, By, Bxy.
  assert (Hsz : forall dir' q, (pl_type q < length (rin_items (sc_i s)))%nat -> 0 < pl_h (sinst s dir') q /\ 0 < pl_w (sinst s dir') q).
  { intros dir' q Hq. destruct (dom_item s Hd dir' _ Hq) as (_ & _ & _ & _ & _ & _ & P1 & P2 & _). unfold pl_h, pl_w. destruct (pl_rot q); split; assumption. }
  destruct (last_shadow inst t n' (ps ++ [p]) BS By (fun q Hq => Hsz dir q (Hr' q Hq))) as [Sh1 Sh2].
  assert (Cur : rts_previous (sc_i s) k + shadow inst (rbin inst t) (ps ++ [p]) <= rn_current n').
  { rewrite (as_current _ _ _ _ _ _ AS). destruct (_ =? _); lia. }
  assert (Lev : level n' = rts_previous (sc_i s) k + rightmost inst (ps ++ [p]) * rb_y (rbin inst t)).
  { unfold level. rewrite S4, S2. cbn [Nat.eqb]. replace (S k - 1)%nat with k by lia. rewrite (bs_xe _ _ _ _ BS). reflexivity. }
  assert (Esh : shadow inst (rbin inst t) [] = 0) by (unfold shadow; generalize (rows 0 (rb_y (rbin inst t))); induction l0 as [|a l0 IH0]; [reflexivity|rewrite zsum_cons, IH0; reflexivity]).
  assert (Sh3 : 0 <= ri_area (ritem inst x)) by (unfold ri_area; destruct (dom_item s Hd dir x Hx) as (_ & _ & _ & _ & _ & _ & P1 & P2 & _); fold inst in P1, P2; nia).
  (* the last bin of n *)
  assert (PV : (rn_bins n = 0%nat /\ level n = 0 /\ rn_current n = 0 /\ rn_area n = 0)
    \/ (rn_bins n <> 0%nat /\ level n <= rts_previous (sc_i s) (rn_bins n) /\ rn_current n <= rts_previous (sc_i s) (rn_bins n)
        /\ (new = None -> level n = rts_previous (sc_i s) k + rightmost inst ps * rb_y (rbin inst t) /\ rn_current n = rts_previous (sc_i s) k + shadow inst (rbin inst t) ps
            /\ rn_leftover n = match rp_leftover (rin_params inst) with LArea => rb_x (rbin inst t) * rb_y (rbin inst t) - rightmost inst ps * topmost inst ps | _ => rb_x (rbin inst t) - rightmost inst ps end))).
  { destruct N9 as [(E0 & _ & E1)|(pre' & ps' & Hb & E0 & BS' & AS')]; [left; unfold level; rewrite E0; split; [reflexivity|]; rewrite E1; auto|right]. split; [exact Hb|].
    set (k' := (rn_bins n - 1)%nat) in *. set (t' := nth k' (rts_bins (sc_i s)) 0%nat) in *. set (inst' := sinst s (rn_dir n)) in *.
    assert (Hk' : (k' < length (rts_bins (sc_i s)))%nat) by (unfold k'; lia). pose proof (rts_bins_nth (sc_i s) k' Hk') as Ht'. fold t' in Ht'. destruct (dom_bin s Hd (rn_dir n) t' Ht') as (Bx' & By' & Bxy' & _). fold inst' in Bx', By', Bxy'.
    assert (Hr0 : forall q, In q ps' -> (pl_type q < length (rin_items (sc_i s)))%nat). { intros q Hq. destruct (dom_lengths s Hd (rn_dir n)) as [<- _]. apply (ge_places _ _ _ (rk_geometry _ _ (bs_ok _ _ _ _ BS')) q Hq). }
    destruct (last_shadow inst' t' n ps' BS' By' (fun q Hq => Hsz (rn_dir n) q (Hr0 q Hq))) as [U1 U2].
    assert (Lev' : level n = rts_previous (sc_i s) k' + rightmost inst' ps' * rb_y (rbin inst' t')). { unfold level. destruct (Nat.eqb_spec (rn_bins n) 0); [contradiction|]. fold k' t' inst'. rewrite (bs_xe _ _ _ _ BS'). reflexivity. }
    assert (Cur' : rn_current n = rts_previous (sc_i s) k' + shadow inst' (rbin inst' t') ps'). { rewrite (as_current _ _ _ _ _ _ AS'). destruct (Z.eqb_spec (rn_items n) (dv_number_of_items (sc_d s))); [contradiction|reflexivity]. }
    assert (Pk : rts_previous (sc_i s) (rn_bins n) = rts_previous (sc_i s) k' + rb_area (rbin (sc_i s) t')) by (replace (rn_bins n) with (S k') by (unfold k'; lia); apply rts_previous_S; exact Hk').
    assert (Ar : rightmost inst' ps' * rb_y (rbin inst' t') <= rb_area (rbin (sc_i s) t')) by (unfold rb_area; rewrite <- Bxy'; apply Z.mul_le_mono_nonneg_r; lia).
    split; [lia|]. split; [lia|]. intros ->. change k' with k in *. change inst' with inst in *. change t' with t in *.
    rewrite Hpre in E0. apply app_inj_tail in E0. destruct E0 as [_ E0]. injection E0 as E0. assert (Eps : ps' = ps).
    { symmetry. change (rn_dir n) with dir in E0. destruct dir; [|rewrite !place_of_false in E0; exact E0]. rewrite !place_of_true in E0. apply (f_equal (map swap_place)) in E0. rewrite !map_map in E0. rewrite !(map_ext _ (fun a => a) swap_place_twice), !List.map_id in E0. exact E0. }
    subst ps'. split; [exact Lev'|]. split; [exact Cur'|]. apply (as_leftover _ _ _ _ _ _ AS'). }
  assert (Pm : forall q, (q <= k)%nat -> rts_previous (sc_i s) q <= rts_previous (sc_i s) k) by (intros q Hq; apply rts_previous_mono; [apply bin_area_nonneg|exact Hq|lia]).
  assert (P0 : 0 <= rts_previous (sc_i s) k) by (pose proof (Pm 0%nat ltac:(lia)) as P0; exact P0).
  assert (Rn : 0 <= rightmost inst (ps ++ [p]) * rb_y (rbin inst t)) by (apply Z.mul_nonneg_nonneg; lia).
  assert (ST : RStep n n').
  { constructor.
    - exact S5.
    - rewrite S4. destruct new as [[q e]|]; cbn [ins_pos] in k; unfold k; lia.
    - intros Eb. destruct new as [[q e]|]; [exfalso; rewrite S4 in Eb; cbn [ins_pos] in k; unfold k in Eb; lia|]. split; [rewrite S2; reflexivity|].
      rewrite (bs_xe _ _ _ _ BS), (bs_xe _ _ _ _ Hps), (bs_ye _ _ _ _ BS), (bs_ye _ _ _ _ Hps), right_snoc, top_snoc. split; [lia|]. split; [lia|].
      destruct PV as [(E0 & _)|(_ & _ & _ & PV)]; [contradiction|]. destruct (PV eq_refl) as (_ & _ & ->). rewrite (as_leftover _ _ _ _ _ _ AS), right_snoc, top_snoc.
      pose proof (proj1 (fold_max_cases (map (pl_xe inst) ps))) as R0. pose proof (proj1 (fold_max_cases (map (pl_ye inst) ps))) as R1. fold (rightmost inst ps) in R0. fold (topmost inst ps) in R1.
      destruct (rp_leftover (rin_params inst)); [|lia|lia]. apply Z.sub_le_mono_l. apply Z.mul_le_mono_nonneg; lia.
    - rewrite Lev. destruct PV as [(_ & -> & _)|(_ & PV1 & _ & PV3)]; [lia|]. destruct new as [[q e]|].
      + pose proof (Pm (rn_bins n) ltac:(cbn [ins_pos] in k; unfold k; lia)). lia.
      + destruct (PV3 eq_refl) as (-> & _). rewrite right_snoc. apply Z.add_le_mono_l, Z.mul_le_mono_nonneg_r; lia.
    - rewrite S6. fold inst. destruct PV as [(E0 & _ & -> & ->)|(_ & _ & PV2 & PV3)].
      + destruct new as [[q e]|]; [|contradiction]. subst ps. rewrite Esh in SH. lia.
      + destruct new as [[q e]|].
        * pose proof (Pm (rn_bins n) ltac:(cbn [ins_pos] in k; unfold k; lia)). subst ps. rewrite Esh in SH. lia.
        * destruct (PV3 eq_refl) as (_ & -> & _). lia. }
  split; [|exact ST].
  constructor.
  - rewrite S1, rpath_calls_snoc, N2, !rdesc_run_app, N1. rewrite rdesc_run_add. rewrite map_app. cbn [map].
    replace (Nat.max (rn_bins n) (S k) - 1)%nat with k by (destruct new as [[q e]|]; cbn [ins_pos] in k; unfold k; lia).
    destruct new as [[q e]|]; cbn [ins_pos] in k.
    + assert (Ee : rempty_bins (sc_i s) (rn_bins n) (S k - rn_bins n) = rempty_bins (sc_i s) (rn_bins n) (q - rn_bins n) ++ [mkRD t 1 []]).
      { unfold k. replace (S q - rn_bins n)%nat with (S (q - rn_bins n)) by lia. unfold rempty_bins. rewrite seq_S, map_app. cbn [map]. replace (rn_bins n + (q - rn_bins n))%nat with q by lia. reflexivity. }
      rewrite Ee, app_assoc, <- Hpre. replace k with (length (pre ++ [mkRD t 1 []]) - 1)%nat at 1 by (rewrite app_length; cbn [length]; lia). rewrite rdesc_run_item. subst ps. reflexivity.
    + replace (S k - rn_bins n)%nat with 0%nat by (unfold k; lia). cbn [rempty_bins seq map]. unfold rempty_bins. cbn [seq map]. rewrite app_nil_r, Hpre. replace k with (length (pre ++ [mkRD t 1 (map (place_of dir) ps)]) - 1)%nat at 1 by (rewrite app_length; cbn [length]; lia). rewrite rdesc_run_item. reflexivity.
  - rewrite S1, rbins_of_snoc, N2, S4. cbn [fst]. destruct new as [[q e]|]; cbn [ins_pos] in k; unfold k; lia.
  - rewrite app_length, S4. cbn [length]. lia.
  - rewrite S4. lia.
  - rewrite map_app, Epre, S4. cbn [map rd_type]. assert (En : nth_error (rts_bins (sc_i s)) k = Some t) by (apply nth_error_nth'; exact Hpos). rewrite (firstn_succ_snoc _ _ _ _ En). reflexivity.
  - intros d Hdd. apply in_snoc in Hdd. destruct Hdd as [Hdd| ->]; [|reflexivity]. destruct (Pin d Hdd) as [Hds|(q & Hq & ->)]; [apply N6, Hds|reflexivity].
  - intros d Hdd. apply in_snoc in Hdd. destruct Hdd as [Hdd| ->].
    + destruct (Pin d Hdd) as [Hds|(q & Hq & ->)]; [apply N7, Hds|]. apply empty_tol; [apply (rd_resources s Hd)|apply rts_bins_nth, Hq].
    + apply dir_ok; [exact Ht|]. apply (bs_ok _ _ _ _ BS).
  - intros d Hdd. apply in_snoc in Hdd. destruct Hdd as [Hdd| ->]; [apply Pfill, Hdd|]. cbn [rd_items rd_type]. rewrite (dir_area dir _ Hr'). destruct (dom_bin s Hd dir t Ht) as (_ & _ & B3 & _). unfold rb_area. rewrite <- B3. apply (sky_fill _ _ _ _ _ (bs_sky _ _ _ _ BS)).
  - right. exists pre, (ps ++ [p]). cbv zeta. rewrite Bpos, S2. split; [lia|]. split; [reflexivity|]. split; [exact BS|exact AS].
  - rewrite S3, upd_length. exact N10.
  - intros y Hy. rewrite S3, nth_upd by (rewrite N10; exact Hx). destruct (N11 y Hy) as [A B]. rewrite Hpk in A, B. rewrite rpacked_snoc. cbn [rd_copies rd_items]. rewrite dir_count, rcount_snoc. cbn [pl_type p].
    destruct (Nat.eqb_spec x y) as [<-|]; [|split; lia]. rewrite X2 in C3. split; lia.
  - rewrite S5, N12, zsum_snoc. cbn [rd_items]. rewrite map_length, app_length. cbn [length]. destruct new as [[q e]|].
    + subst pre ps. rewrite zsum_app, rempty_zsum by reflexivity. cbn [length]. lia.
    + rewrite Hpre, zsum_snoc. cbn [rd_items]. rewrite map_length. lia.
  - rewrite S6, Asum, zsum_snoc. cbn [rd_items]. rewrite map_app. unfold items_area at 4. rewrite zsum_app. cbn [map]. rewrite zsum_cons, zsum_nil. unfold ri_area. fold inst. rewrite X6.
    assert (Et : pl_type (place_of dir p) = x) by (destruct dir; reflexivity). rewrite Et. unfold items_area. lia.
  - rewrite S7, N14. rewrite qsum_snoc. cbn [rd_items]. fold inst. rewrite X1. change (rpenalties (sc_i s) (mkRD t 1 (map (place_of dir) (ps ++ [p])))) with (rpen (sc_i s) t (map (place_of dir) (ps ++ [p]))). rewrite (dir_pen dir t _ Ht). fold inst.
    assert (Ep : (qsum (fun p0 => ri_profit (ritem (sc_i s) (pl_type p0))) (map (place_of dir) (ps ++ [p])) == qsum (fun p0 => ri_profit (ritem (sc_i s) (pl_type p0))) (map (place_of dir) ps) + ri_profit (ritem (sc_i s) x))%Q).
    { rewrite map_app. cbn [map]. rewrite qsum_snoc. assert (Et : pl_type (place_of dir p) = x) by (destruct dir; reflexivity). rewrite Et. reflexivity. }
    rewrite Ep. destruct new as [[q e]|].
    + subst pre ps. rewrite qsum_app. rewrite (qsum_zero _ _ (rempty_bins (sc_i s) (rn_bins n) (q - rn_bins n))).
      * cbn [map app]. assert (E0 : (rpen inst t [] == 0)%Q) by (apply rpen_nil; [apply (dom_sane s Hd dir)|unfold inst; destruct (dom_lengths s Hd dir) as [_ ->]; exact Ht]). rewrite E0. cbn [qsum fold_right]. ring.
      * intros d Hdd. apply rempty_in in Hdd. destruct Hdd as (q' & Hq' & ->). change (rpenalties (sc_i s) (mkRD (nth q' (rts_bins (sc_i s)) 0%nat) 1 [])) with (rpen (sc_i s) (nth q' (rts_bins (sc_i s)) 0%nat) []).
        assert (E0 : (rpen (sc_i s) (nth q' (rts_bins (sc_i s)) 0%nat) [] == 0)%Q) by (apply rpen_nil; [apply (rd_resources s Hd)|apply rts_bins_nth; cbn [ins_pos] in *; lia]). rewrite E0. cbn. ring.
    + rewrite Hpre, qsum_snoc. cbn [rd_items]. change (rpenalties (sc_i s) (mkRD t 1 (map (place_of dir) ps))) with (rpen (sc_i s) t (map (place_of dir) ps)). rewrite (dir_pen dir t _ Ht). fold inst. ring.
  - rewrite S8. exact N15.
  - rewrite S9. exact N16.
  - exact W.
  - rewrite S1. intros e He. apply in_snoc in He. destruct He as [He| ->]; [apply N18, He|]. cbn [fst snd p pl_type pl_rot]. split; [lia|]. split; [exact Hx|]. rewrite <- X4. exact C4.
  - intros dir' Hdir' _. rewrite S2. destruct new as [[q e]|]; cbn [ins_dir] in dir; [|apply N20; [exact Hdir'|exact (ic_new _ _ _ _ _ _ IC)]]. pose proof (ic_new _ _ _ _ _ _ IC) as [_ E']. unfold new_bin_direction in E'. rewrite Hdir' in E'. exact E'.
  - intros Hdir. destruct (N19 Hdir) as [D1 D2].
    assert (Ed : dir = false). { destruct new as [[q e]|]; cbn [ins_dir] in dir; [|exact D1]. pose proof (ic_new _ _ _ _ _ _ IC) as [_ E']. unfold new_bin_direction in E'. rewrite Hdir in E'. exact E'. }
    split; [rewrite S2; exact Ed|]. intros d q Hdd Hq. apply in_snoc in Hdd. destruct Hdd as [Hdd| ->].
    + destruct (Pin d Hdd) as [Hds|(q' & _ & ->)]; [apply (D2 d q Hds Hq)|destruct Hq].
    + cbn [rd_items rd_type] in *. rewrite map_app in Hq. apply in_app_or in Hq. destruct Hq as [Hq|[<-|[]]].
      * destruct new as [[q' e]|]; [subst ps; destruct Hq|]. apply (D2 (mkRD t 1 (map (place_of dir) ps))); [rewrite Hpre; apply in_or_app; right; left; reflexivity|exact Hq].
      * rewrite Ed in C2. cbn [sder] in C2. assert (Et : pl_type (place_of dir p) = x) by (destruct dir; reflexivity). rewrite Et. exact C2.
Qed.

Theorem rnode_inv : forall n, rreachable s n -> exists ds, RNodeInv n ds.
Proof.
  intros n H. induction H as [|m l ins m' H [ds IH] Hl Hin Hc].
  - exists []. apply rroot_inv.
  - destruct (rnode_step m ds l ins IH Hl Hin) as (n' & ds' & E & I' & _). rewrite Hc in E. injection E as <-. exists ds'. exact I'.
Qed.

(** ** Solutions *)

Lemma rb_run_path : forall path bins, (forall e, In e path -> (1 <= fst (fst e) <= length (rts_bins (sc_i s)))%nat /\ (pl_type (snd e) < length (rin_items (sc_i s)))%nat /\ (pl_rot (snd e) = true -> ri_oriented (ritem (sc_i s) (pl_type (snd e))) = false)) ->
  exists bins', rb_run (sc_i s) bins (rpath_calls s (length bins) path) = Some bins'.
Proof.
  induction path as [|[[nb dir] p] path IH]; intros bins H; cbn [rpath_calls]; [exists bins; reflexivity|].
  destruct (H (nb, dir, p) (or_introl eq_refl)) as (A & B & C). cbn [fst snd] in A, B, C.
  assert (G : forall m k bins0, (k + m <= length (rts_bins (sc_i s)))%nat -> exists bins1, rb_run (sc_i s) bins0 (map (fun k => RAddBin (nth k (rts_bins (sc_i s)) 0%nat) 1) (seq k m)) = Some bins1 /\ length bins1 = (length bins0 + m)%nat).
  { induction m as [|m IHm]; intros k bins0 Hk; cbn [seq map rb_run rb_call]; [exists bins0; split; [reflexivity|lia]|]. unfold rb_add_bin, rin_range. cbn [forallb]. rewrite (proj2 (Nat.ltb_lt _ _) (rts_bins_nth (sc_i s) k ltac:(lia))). cbn [andb].
    destruct (IHm (S k) (bins0 ++ [rraw_bin (nth k (rts_bins (sc_i s)) 0%nat) 1 []]) ltac:(lia)) as (b1 & E1 & E2). exists b1. split; [exact E1|]. rewrite E2, app_length. cbn [length]. lia. }
  destruct (le_lt_dec nb (length bins)) as [Hle|Hgt].
  - replace (nb - length bins)%nat with 0%nat by lia. cbn [seq map app rb_run rb_call]. unfold rb_add_item. replace (Nat.max (length bins) nb) with (length bins) by lia.
    rewrite (proj2 (Nat.ltb_lt (length bins - 1) (length bins))) by lia. assert (E1 : pl_type (place_of dir p) = pl_type p) by (destruct dir; reflexivity). assert (E2 : pl_rot (place_of dir p) = pl_rot p) by (destruct dir; reflexivity). rewrite E1, E2.
    rewrite (proj2 (Nat.ltb_lt _ _) B). cbn [andb]. assert (E3 : pl_rot p && ri_oriented (ritem (sc_i s) (pl_type p)) = false) by (destruct (pl_rot p); [rewrite C by reflexivity|]; reflexivity). rewrite E3. cbn [negb].
    match goal with |- exists b, rb_run _ ?l _ = _ => destruct (IH l) as [b Hb]; [intros e He; apply H; right; exact He|]; exists b; rewrite upd_length in Hb; exact Hb end.
  - destruct (G (nb - length bins)%nat (length bins) bins ltac:(lia)) as (b1 & E1 & E2). rewrite rb_run_app, E1. cbn [rb_run rb_call]. unfold rb_add_item. replace (Nat.max (length bins) nb) with (length b1) by lia.
    rewrite (proj2 (Nat.ltb_lt (length b1 - 1) (length b1))) by lia. assert (F1 : pl_type (place_of dir p) = pl_type p) by (destruct dir; reflexivity). assert (F2 : pl_rot (place_of dir p) = pl_rot p) by (destruct dir; reflexivity). rewrite F1, F2.
    rewrite (proj2 (Nat.ltb_lt _ _) B). cbn [andb]. assert (E3 : pl_rot p && ri_oriented (ritem (sc_i s) (pl_type p)) = false) by (destruct (pl_rot p); [rewrite C by reflexivity|]; reflexivity). rewrite E3. cbn [negb].
    match goal with |- exists b, rb_run _ ?l _ = _ => destruct (IH l) as [b Hb]; [intros e He; apply H; right; exact He|]; exists b; rewrite upd_length in Hb; exact Hb end.
Qed.

Lemma dir_extents : forall (dir : bool) ps, (forall p, In p ps -> (pl_type p < length (rin_items (sc_i s)))%nat) ->
  (if dir then rightmost (sinst s dir) ps = topmost (sc_i s) (map (place_of dir) ps) /\ topmost (sinst s dir) ps = rightmost (sc_i s) (map (place_of dir) ps)
   else rightmost (sinst s dir) ps = rightmost (sc_i s) (map (place_of dir) ps) /\ topmost (sinst s dir) ps = topmost (sc_i s) (map (place_of dir) ps)).
Proof.
  intros [|] ps H; cbn [sinst]; [|rewrite place_of_false; auto]. rewrite place_of_true. destruct (dom_swapped s Hd) as [Hs _]. destruct (dom_lengths s Hd true) as [L _]. cbn [sinst] in L.
  destruct (swap_extents _ _ (swapped_sym _ _ Hs) ps) as [A B]; [intros p Hp; rewrite L; apply H, Hp|]. auto.
Qed.

Lemma rused_bound : forall k t, (t < length (rin_bins (sc_i s)))%nat -> Z.of_nat (count_occ Nat.eq_dec (firstn k (rts_bins (sc_i s))) t) <= rb_copies (rbin (sc_i s) t).
Proof.
  intros k t Ht. assert (A : (count_occ Nat.eq_dec (firstn k (rts_bins (sc_i s))) t <= count_occ Nat.eq_dec (rts_bins (sc_i s)) t)%nat).
  { rewrite <- (firstn_skipn k (rts_bins (sc_i s))) at 2. rewrite count_occ_app. lia. }
  assert (B : count_occ Nat.eq_dec (rts_bins (sc_i s)) t = Z.to_nat (rb_copies (rbin (sc_i s) t))).
  { rewrite (proj1 (Permutation_count_occ Nat.eq_dec _ _) (rts_bins_perm (sc_i s)) t).
    assert (G : forall m a, count_occ Nat.eq_dec (flat_map (fun u => repeat u (Z.to_nat (rb_copies (rbin (sc_i s) u)))) (seq a m)) t = if (a <=? t)%nat && (t <? a + m)%nat then Z.to_nat (rb_copies (rbin (sc_i s) t)) else 0%nat).
    { induction m as [|m IH]; intros a; cbn [seq flat_map].
      - cbn [count_occ]. destruct (Nat.leb_spec a t); destruct (Nat.ltb_spec t (a + 0)); cbn [andb]; try reflexivity; lia.
      - rewrite count_occ_app, IH. assert (Er : forall u c, count_occ Nat.eq_dec (repeat u c) t = if Nat.eqb u t then c else 0%nat).
        { intros u c. destruct (Nat.eqb_spec u t) as [->|N]; [apply count_occ_repeat_eq; reflexivity|apply count_occ_repeat_neq; auto]. }
        rewrite Er. destruct (Nat.eqb_spec a t) as [E|E]; destruct (Nat.leb_spec (S a) t); destruct (Nat.ltb_spec t (S a + m)); destruct (Nat.leb_spec a t); destruct (Nat.ltb_spec t (a + S m)); cbn [andb]; try lia; rewrite E; lia. }
    rewrite G. destruct (Nat.leb_spec 0 t); destruct (Nat.ltb_spec t (0 + length (rin_bins (sc_i s)))); cbn [andb]; try reflexivity; lia. }
  assert (C : 1 <= rb_copies (rbin (sc_i s) t)). { apply (fl_bins _ (rd_flippable s Hd)). apply nth_In. exact Ht. }
  rewrite B in A. lia.
Qed.

Theorem rsolution_ok : forall cb n ds, RNodeInv n ds -> exists sol, rto_solution s cb n = Some sol /\ rhistory (sc_i s) cb (rpath_calls s 0 (rn_path n)) [] = Some sol /\ rview sol = ds
  /\ rcopies_nonneg (rpath_calls s 0 (rn_path n)) [].
Proof.
  intros cb n ds NI. destruct (rb_run_path (rn_path n) [] (nv_calls n ds NI)) as [bins Hb]. cbn [length] in Hb.
  assert (Hc : rcopies_nonneg (rpath_calls s 0 (rn_path n)) []). { intros d Hdd. cbn [flat_map] in Hdd. rewrite app_nil_r, (nv_ds n ds NI) in Hdd. rewrite (nv_one n ds NI d Hdd). lia. }
  set (sol := rb_build (sc_i s) cb bins).
  assert (E : rhistory (sc_i s) cb (rpath_calls s 0 (rn_path n)) [] = Some sol) by (unfold rhistory; rewrite Hb; reflexivity).
  destruct (rhistory_spec (sc_i s) cb (rc_resource_ids _ _ (rd_consistent s Hd)) _ _ _ E Hc) as [[F _] V]. cbn [flat_map] in V. rewrite app_nil_r, (nv_ds n ds NI) in V.
  exists sol. split; [|auto]. unfold rto_solution. rewrite E. destruct (Nat.eqb_spec (rn_bins n) 1) as [Eb|]; [|reflexivity]. cbn [andb]. destruct (rn_dir n) eqn:Edir; [|reflexivity]. cbn [andb].
  destruct (nv_last n ds NI) as [[E0 _]|(pre & ps & _ & Eds & BS & _)]; [lia|]. rewrite Edir in Eds, BS.
  pose proof (rf_last _ _ _ F) as L. rewrite V, Eds, rev_app_distr in L. cbn [rev app rd_items] in L. destruct L as (_ & L2 & _).
  assert (Hr : forall q, In q ps -> (pl_type q < length (rin_items (sc_i s)))%nat). { intros q Hq. destruct (dom_lengths s Hd true) as [<- _]. apply (ge_places _ _ _ (rk_geometry _ _ (bs_ok _ _ _ _ BS)) q Hq). }
  pose proof (dir_extents true ps Hr) as [X _]. rewrite L2, (bs_xe _ _ _ _ BS), X, Z.eqb_refl. reflexivity.
Qed.
End Step.
