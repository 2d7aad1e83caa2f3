(** * What changes along the rectangle tree search, and when its cuts are right *)

From Coq Require Import List ZArith QArith Bool Lia Lqa Arith Permutation.
From Verif Require Import Util Common_Model Common_Spec Common_Proof OneDim_Model OneDim_Spec OneDim_Proof OneDimBuilder_Spec RectDff_Proof Tree1D_Model Tree1D_Spec Tree1D_Proof Tree1DNode_Proof
  Rect_Model Rect_Spec RectSol_Model RectSol_Spec RectSol_Proof RectBuilder_Model RectBuilder_Spec RectFlip_Model RectFlip_Spec RectFlip_Proof
  RectTree_Model RectTree_Spec RectSky_Proof RectTree_Proof RectTreeRes_Proof RectTreeNode_Proof.
Import ListNotations.
Open Scope Z_scope.

Lemma rbelow_trans : forall s a b c, rbelow s a b -> rbelow s b c -> rbelow s a c.
Proof. intros s a b c H1 H2. induction H2 as [|m l ins m' H2 IH Hl Hin Hc]; [exact H1|]. exact (rbelow_child s a m l ins m' IH Hl Hin Hc). Qed.

Section Bound.
Variable s : Scheme.
Hypothesis Hd : rtree_domain s.

Record RBelow (n m : RNode) : Prop := {
  be_items : rn_items n <= rn_items m;
  be_bins : (rn_bins n <= rn_bins m)%nat;
  be_same : rn_bins m = rn_bins n -> rn_dir m = rn_dir n /\ rn_xe_max n <= rn_xe_max m /\ rn_ye_max n <= rn_ye_max m /\ rn_leftover m <= rn_leftover n;
  be_level : level s n <= level s m;
  be_current : rn_current n - rn_area n <= rn_current m - rn_area m
}.

Lemma below_spec : forall n ds m, RNodeInv s n ds -> rbelow s n m -> exists ds', RNodeInv s m ds' /\ RBelow n m.
Proof.
  intros n ds m NI H. induction H as [|m l ins m' H IH Hl Hin Hc].
  - exists ds. split; [exact NI|]. constructor; try lia. intros _. split; [reflexivity|]. lia.
  - destruct IH as (ds' & I' & B). destruct (rnode_step s Hd m ds' l ins I' Hl Hin) as (m'' & ds'' & E & I'' & S). rewrite Hc in E. injection E as <-. exists ds''. split; [exact I''|].
    destruct B as [B1 B2 B3 B4 B5]. destruct S as [S1 S2 S3 S4 S5]. constructor; try lia. intros Eb. destruct (B3 ltac:(lia)) as (X1 & X2 & X3 & X4). destruct (S3 ltac:(lia)) as (Y1 & Y2 & Y3 & Y4). rewrite Y1, X1. repeat split; lia.
Qed.

(** Each step of a path packs one item. *)
Lemma path_items : forall n, rreachable s n -> Z.of_nat (length (rn_path n)) = rn_items n.
Proof.
  intros n H. induction H as [|m l ins m' H IH Hl Hin Hc]; [reflexivity|]. destruct (rnode_inv s Hd m H) as [ds NI]. unfold rchild in Hc. destruct (rnode_step s Hd m ds l ins NI Hl Hin) as (m'' & ds'' & E & I'' & S). unfold rchild in E. rewrite Hc in E. injection E as <-.
  rewrite (st_items _ _ _ S), <- IH. clear - Hc.
  repeat match type of Hc with context [let '(_, _) := ?e in _] => destruct e | context [match ?e with _ => _ end] => destruct e; try discriminate end; injection Hc as <-; cbn [rn_path]; rewrite app_length; cbn [length]; lia.
Qed.

Lemma level_le : forall n ds, RNodeInv s n ds -> level s n <= rts_previous (sc_i s) (rn_bins n).
Proof.
  intros n ds NI. destruct (nv_last s n ds NI) as [(E0 & _ & _)|(pre & ps & Hb & _ & BS & AS)]; [unfold level; rewrite E0; reflexivity|]. cbv zeta in BS, AS. pose proof (nv_bound s n ds NI) as Hbound.
  set (k := (rn_bins n - 1)%nat) in *. set (t := nth k (rts_bins (sc_i s)) 0%nat) in *. set (inst := sinst s (rn_dir n)) in *.
  assert (Hk : (k < length (rts_bins (sc_i s)))%nat) by (unfold k; lia). pose proof (rts_bins_nth (sc_i s) k Hk) as Ht. fold t in Ht. destruct (dom_bin s Hd (rn_dir n) t Ht) as (Bx & By & Bxy & _). fold inst in Bx, By, Bxy.
  destruct (last_shadow inst t n ps BS By) as [_ U2].
  { intros q Hq. assert (A : (pl_type q < length (rin_items (sc_i s)))%nat). { destruct (dom_lengths s Hd (rn_dir n)) as [<- _]. apply (ge_places _ _ _ (rk_geometry _ _ (bs_ok _ _ _ _ BS)) q Hq). }
    destruct (dom_item s Hd (rn_dir n) _ A) as (_ & _ & _ & _ & _ & _ & P1 & P2 & _). fold inst in P1, P2. unfold pl_h, pl_w. destruct (pl_rot q); split; assumption. }
  unfold level. destruct (Nat.eqb_spec (rn_bins n) 0); [contradiction|]. fold k t inst. rewrite (bs_xe _ _ _ _ BS). replace (rn_bins n) with (S k) by (unfold k; lia). rewrite rts_previous_S by exact Hk. fold t.
  apply Z.add_le_mono_l. unfold rb_area. rewrite <- Bxy. apply Z.mul_le_mono_nonneg_r; lia.
Qed.

Lemma leaf_level : forall m ds, RNodeInv s m ds -> rleaf s m = true -> rn_current m = level s m /\ rn_area m = dv_item_area (sc_d s).
Proof.
  intros m ds NI Hl. unfold rleaf in Hl. apply Z.eqb_eq in Hl. split; [|apply (inv_area_all s Hd m ds NI Hl)].
  destruct (nv_last s m ds NI) as [(E0 & _ & E1)|(pre & ps & Hb & _ & BS & AS)]; [unfold level; rewrite E0, E1; reflexivity|]. cbv zeta in BS, AS.
  rewrite (as_current _ _ _ _ _ _ AS), Hl, Z.eqb_refl. unfold level. destruct (Nat.eqb_spec (rn_bins m) 0); [contradiction|]. rewrite (bs_xe _ _ _ _ BS). reflexivity.
Qed.

(** The waste of a node without the term of the next bin. *)
Definition own_waste (n : RNode) : Z := Z.max (rn_current n - rn_area n) (level s n - dv_item_area (sc_d s)).

Lemma last_own : forall n ds, RNodeInv s n ds -> (rn_bins n = 0 \/ rn_bins n = length (dv_bin_type_ids (sc_d s)))%nat -> rn_waste n <= own_waste n.
Proof.
  intros n ds NI H. unfold own_waste. destruct (nv_last s n ds NI) as [(E0 & _ & E1)|(pre & ps & Hb & _ & BS & AS)]; [rewrite E1; cbn [rroot rn_current rn_area rn_waste]; lia|]. cbv zeta in BS, AS.
  rewrite (as_last _ _ _ _ _ _ AS) by lia. unfold level. destruct (Nat.eqb_spec (rn_bins n) 0); [contradiction|]. rewrite (bs_xe _ _ _ _ BS). lia.
Qed.

Lemma below_area : forall n ds m, RNodeInv s n ds -> rbelow s n m -> rleaf s m = true -> dv_item_area (sc_d s) + own_waste n <= level s m.
Proof.
  intros n ds m NI H Hl. destruct (below_spec n ds m NI H) as (ds' & I' & [_ _ _ B4 B5]). destruct (leaf_level m ds' I' Hl) as [E1 E2]. unfold own_waste. lia.
Qed.

(** Bin packing. *)
Lemma needed_le : forall i bins j k a, a <= zsum (fun t => rb_area (rbin i t)) (firstn j bins) -> exists k', rbins_needed i bins k a = Some k' /\ (k' <= k + j)%nat.
Proof.
  intros i. induction bins as [|t bins IH]; intros j k a H; cbn [rbins_needed].
  - rewrite firstn_nil in H. cbn in H. destruct (Z.leb_spec a 0); [|lia]. exists k. split; [reflexivity|lia].
  - destruct (Z.leb_spec a 0) as [|N]; [exists k; split; [reflexivity|lia]|]. destruct j as [|j]; [cbn in H; lia|]. cbn [firstn] in H. rewrite zsum_cons in H. destruct (IH j (S k) (a - rb_area (rbin i t)) ltac:(lia)) as (k' & E & L). exists k'. split; [exact E|lia].
Qed.

Theorem bin_packing_cut : forall n1 n2 m, rreachable s n1 -> rin_objective (sc_i s) = OBinPacking \/ rin_objective (sc_i s) = OVariableSizedBinPacking ->
  rn_waste n1 <= own_waste n1 -> rbound s n1 n2 = Some true -> rbelow s n1 m -> rbetter s m n2 = Some false.
Proof.
  intros n1 n2 m H1 Ho Hw Hb Hm. destruct (rnode_inv s Hd n1 H1) as [ds NI]. unfold rbound in Hb. unfold rbetter. destruct Ho as [Ho|Ho]; rewrite Ho in *.
  all: destruct (rleaf s n2) eqn:L2; cbn [negb] in *; [|discriminate]; destruct (rleaf s m) eqn:Lm; cbn [negb]; [|reflexivity].
  all: pose proof (below_area n1 ds m NI Hm Lm) as A; destruct (below_spec n1 ds m NI Hm) as (ds' & I' & _); pose proof (level_le m ds' I') as B.
  all: destruct (needed_le (sc_i s) (rts_bins (sc_i s)) (rn_bins m) 0 (dv_item_area (sc_d s) + rn_waste n1)) as (k & E & L); [unfold rts_previous in B; lia|].
  all: rewrite E in Hb; injection Hb as Hb; apply Nat.leb_le in Hb; f_equal; apply Nat.ltb_ge; lia.
Qed.

(** Bin packing with leftovers. *)
Theorem leftovers_cut : forall n1 n2 m, rreachable s n1 -> rin_objective (sc_i s) = OBinPackingWithLeftovers ->
  rbound s n1 n2 = Some true -> rbelow s n1 m -> rbetter s m n2 = Some false.
Proof.
  intros n1 n2 m H1 Ho Hb Hm. destruct (rnode_inv s Hd n1 H1) as [ds NI]. destruct (below_spec n1 ds m NI Hm) as (ds' & I' & [_ B2 B3 _ _]). unfold rbound in Hb. unfold rbetter. rewrite Ho in *.
  destruct (rleaf s n2) eqn:L2; cbn [negb] in *; [|discriminate]. destruct (rleaf s m) eqn:Lm; cbn [negb]; [|reflexivity].
  destruct (Nat.eqb_spec (rn_bins n2) (rn_bins m)) as [E|E]; cbn [negb].
  - destruct (Nat.ltb_spec (rn_bins n2) (rn_bins n1)); [lia|]. destruct (Nat.ltb_spec (rn_bins n1) (rn_bins n2)); [discriminate|]. destruct (B3 ltac:(lia)) as (_ & _ & _ & B). injection Hb as Hb. apply Z.leb_le in Hb. f_equal. apply Z.ltb_ge. lia.
  - f_equal. apply Nat.ltb_ge. destruct (Nat.ltb_spec (rn_bins n2) (rn_bins n1)); [lia|]. destruct (Nat.ltb_spec (rn_bins n1) (rn_bins n2)); [discriminate|]. lia.
Qed.

(** Open dimension. *)
Lemma one_bin_type : rin_objective (sc_i s) = OOpenDimensionX \/ rin_objective (sc_i s) = OOpenDimensionY -> length (rts_bins (sc_i s)) = 1%nat /\ nth 0 (rts_bins (sc_i s)) 0%nat = 0%nat.
Proof.
  intros Ho. pose proof (rc_open _ _ (rd_consistent s Hd) Ho) as L. rewrite <- (rts_bins_length _ _ (rd_consistent s Hd)) in L. split; [exact L|].
  pose proof (rts_bins_perm (sc_i s)) as P. apply Permutation_length in P. rewrite L in P.
  assert (G : forall l, (forall t, In t l -> (t < length (rin_bins (sc_i s)))%nat) -> (length l <= length (flat_map (fun t => repeat t (Z.to_nat (rb_copies (rbin (sc_i s) t)))) l))%nat).
  { induction l as [|t l IH]; intros Hl; cbn [flat_map length]; [lia|]. rewrite app_length, repeat_length. specialize (IH (fun u Hu => Hl u (or_intror Hu))).
    assert (C : 1 <= rb_copies (rbin (sc_i s) t)) by (apply (fl_bins _ (rd_flippable s Hd)), nth_In, Hl; left; reflexivity). lia. }
  specialize (G (seq 0 (length (rin_bins (sc_i s)))) ltac:(intros t Ht; apply in_seq in Ht; lia)). rewrite <- P, seq_length in G. pose proof (rts_bins_nth (sc_i s) 0 ltac:(lia)). lia.
Qed.

Theorem open_cut : forall n1 n2 m dir, rreachable s n1 -> rin_objective (sc_i s) = OOpenDimensionX \/ rin_objective (sc_i s) = OOpenDimensionY ->
  sc_direction s = Some dir -> rb_y (rbin (sinst s dir) 0) <= rb_y (rbin (sc_i s) 0) + 1 ->
  rbound s n1 n2 = Some true -> rbelow s n1 m -> rbetter s m n2 = Some false.
Proof.
  intros n1 n2 m dir H1 Ho Hdir Hy Hb Hm. destruct (rnode_inv s Hd n1 H1) as [ds NI]. destruct (one_bin_type Ho) as [L E0]. pose proof (rd_consistent s Hd) as Hco. pose proof (rts_bins_length _ _ Hco) as Ll.
  destruct (below_spec n1 ds m NI Hm) as (ds' & I' & [_ B2 B3 B4 B5]). pose proof (nv_bound s n1 ds NI) as Bn. pose proof (nv_bound s m ds' I') as Bm.
  assert (Hpos : 0 < rb_y (rbin (sc_i s) 0) /\ 0 < rb_y (rbin (sinst s dir) 0)). { pose proof (rts_bins_nth (sc_i s) 0 ltac:(lia)) as A. rewrite E0 in A. destruct (dom_bin s Hd false 0%nat A) as (_ & A1 & _). destruct (dom_bin s Hd dir 0%nat A) as (_ & A2 & _). auto. }
  unfold rbound in Hb. unfold rbetter.
  assert (G : rleaf s n2 = true -> rleaf s m = true -> rn_xe_max n2 <= Z.max (rn_xe_max n1) (Z.quot (rn_waste n1 + dv_item_area (sc_d s) - 1) (rb_y (rbin (sc_i s) 0) + 1)) -> rn_xe_max n2 <= rn_xe_max m).
  { intros L2 Lm Hx. pose proof (below_area n1 ds m NI Hm Lm) as A. pose proof (last_own n1 ds NI ltac:(lia)) as Hw.
    assert (Hlev : level s m = rn_xe_max m * rb_y (rbin (sinst s dir) 0) /\ 0 <= rn_xe_max m /\ rn_xe_max n1 <= rn_xe_max m).
    { destruct (nv_last s m ds' I') as [(Z0 & _ & Z1)|(pre & ps & Zb & _ & BS & AS)].
      - unfold level. rewrite Z0. cbn [Nat.eqb]. rewrite Z1. cbn [rroot rn_xe_max]. assert (rn_bins n1 = 0)%nat by lia. destruct (nv_last s n1 ds NI) as [(_ & _ & Z2)|(pre & ps & Zb & _)]; [|lia]. rewrite Z2. cbn [rroot rn_xe_max]. lia.
      - cbv zeta in BS, AS. assert (Eb : rn_bins m = 1%nat) by lia. rewrite Eb in BS, AS. cbn [Nat.sub] in BS, AS. rewrite E0 in BS, AS.
        pose proof (nv_dir s m ds' I' dir Hdir Zb) as Ed.
        split; [|split].
        + unfold level. rewrite Eb. cbn [Nat.eqb Nat.sub]. rewrite E0, Ed. change (rts_previous (sc_i s) 0) with 0. lia.
        + rewrite (bs_xe _ _ _ _ BS). apply fold_max_cases.
        + destruct (Nat.eq_dec (rn_bins n1) 0) as [Z0|Z0].
          * destruct (nv_last s n1 ds NI) as [(_ & _ & Z2)|(pre' & ps' & Zb' & _)]; [|lia]. rewrite Z2. cbn [rroot rn_xe_max]. rewrite (bs_xe _ _ _ _ BS). apply fold_max_cases.
          * apply B3. lia. }
    destruct Hlev as (E1 & E2 & E3). destruct Hpos as [P1 P2].
    assert (Q : Z.quot (rn_waste n1 + dv_item_area (sc_d s) - 1) (rb_y (rbin (sc_i s) 0) + 1) <= rn_xe_max m); [|lia].
    set (w := rn_waste n1 + dv_item_area (sc_d s) - 1) in *. assert (W : w <= rn_xe_max m * (rb_y (rbin (sc_i s) 0) + 1)) by (unfold w; nia).
    destruct (Z.le_gt_cases w 0) as [N|N].
    - pose proof (Z.quot_pos (- w) (rb_y (rbin (sc_i s) 0) + 1) ltac:(lia) ltac:(lia)) as Q0. rewrite Z.quot_opp_l in Q0 by lia. lia.
    - apply Z.quot_le_upper_bound; lia. }
  destruct Ho as [Ho|Ho]; rewrite Ho in *; (destruct (rleaf s n2) eqn:L2; cbn [negb] in *; [|discriminate]); (destruct (rleaf s m) eqn:Lm; cbn [negb]; [|reflexivity]); injection Hb as Hb; apply Z.leb_le in Hb; specialize (G eq_refl eq_refl Hb); f_equal; apply Z.ltb_ge; exact G.
Qed.

(** Knapsack. *)
Definition all_profit : Q := qsum (fun t => inject_Z (ri_copies t) * ri_profit t)%Q (rin_items (sc_i s)).

Lemma inv_profit : forall n ds, RNodeInv s n ds ->
  (rn_profit n == qsum (fun x => inject_Z (rpacked x ds) * ri_profit (ritem (sc_i s) x)) (seq 0 (length (rin_items (sc_i s)))) - qsum (rpenalties (sc_i s)) ds)%Q.
Proof.
  intros n ds NI. rewrite (nv_profit s n ds NI). rewrite (rqpacked_sum _ _ (fun x => ri_profit (ritem (sc_i s) x)) (inv_types s n ds NI)).
  pose proof (nv_one s n ds NI) as Ho. clear - Ho. induction ds as [|d ds IH]; [cbn; ring|]. rewrite !qsum_cons, IH by (intros d' Hd'; apply Ho; right; exact Hd'). rewrite (Ho d (or_introl eq_refl)). change (inject_Z 1) with 1%Q. ring.
Qed.

Lemma all_profit_seq : (all_profit == qsum (fun x => inject_Z (ri_copies (ritem (sc_i s) x)) * ri_profit (ritem (sc_i s) x)) (seq 0 (length (rin_items (sc_i s)))))%Q.
Proof. unfold all_profit. apply (qsum_nth _ (fun t => inject_Z (ri_copies t) * ri_profit t)%Q). Qed.

Lemma penalties_nonneg : (forall t r, In t (rin_bins (sc_i s)) -> In r (rb_resources t) -> (0 <= res_penalty r)%Q) -> forall d, (rd_type d < length (rin_bins (sc_i s)))%nat -> (0 <= rpenalties (sc_i s) d)%Q.
Proof.
  intros H d Ht. unfold rpenalties. apply qsum_nonneg. intros r Hr. destruct (_ && _); [|lra]. apply (H (rbin (sc_i s) (rd_type d))); [apply nth_In; exact Ht|exact Hr].
Qed.

Theorem knapsack_cut : forall n1 n2 m ds2, rreachable s n1 -> RNodeInv s n2 ds2 -> rin_objective (sc_i s) = OKnapsack \/ rin_objective (sc_i s) = OFeasibility ->
  (forall t, In t (rin_items (sc_i s)) -> (0 <= ri_profit t)%Q) ->
  (forall t r, In t (rin_bins (sc_i s)) -> In r (rb_resources t) -> (0 <= res_penalty r)%Q) -> (qsum (rpenalties (sc_i s)) ds2 == 0)%Q ->
  rbound s n1 n2 = Some true -> rbelow s n1 m -> rbetter s m n2 = Some false.
Proof.
  intros n1 n2 m ds2 H1 I2 Ho Hp Hr H0 Hb Hm. destruct (rnode_inv s Hd n1 H1) as [ds NI]. destruct (below_spec n1 ds m NI Hm) as (ds' & I' & _).
  unfold rbound in Hb. unfold rbetter.
  assert (G : rleaf s n2 = true -> (rn_profit m <= rn_profit n2)%Q).
  { intros L2. unfold rleaf in L2. apply Z.eqb_eq, (inv_items_le s Hd n2 ds2 I2) in L2. rewrite (inv_profit m ds' I'), (inv_profit n2 ds2 I2), H0.
    assert (A : (0 <= qsum (rpenalties (sc_i s)) ds')%Q). { apply qsum_nonneg. intros d Hdd. apply penalties_nonneg; [exact Hr|]. apply (In_nth _ _ (mkRD 0 0 [])) in Hdd. destruct Hdd as (k & Hk & <-).
      pose proof (nv_types s m ds' I') as T. assert (E : rd_type (nth k ds' (mkRD 0 0 [])) = nth k (map rd_type ds') (rd_type (mkRD 0 0 []))) by (symmetry; apply map_nth). rewrite E, T. rewrite (nv_len s m ds' I') in Hk.
      assert (X : In (nth k (firstn (rn_bins m) (rts_bins (sc_i s))) (rd_type (mkRD 0 0 []))) (firstn (rn_bins m) (rts_bins (sc_i s)))) by (apply nth_In; rewrite firstn_length; pose proof (nv_bound s m ds' I'); lia).
      assert (Y : In (nth k (firstn (rn_bins m) (rts_bins (sc_i s))) (rd_type (mkRD 0 0 []))) (rts_bins (sc_i s))) by (rewrite <- (firstn_skipn (rn_bins m) (rts_bins (sc_i s))) at 2; apply in_or_app; left; exact X).
      apply (In_nth _ _ 0%nat) in Y. destruct Y as (k' & Hk' & <-). apply rts_bins_nth, Hk'. }
    assert (B : (qsum (fun x => inject_Z (rpacked x ds') * ri_profit (ritem (sc_i s) x)) (seq 0 (length (rin_items (sc_i s)))) <= qsum (fun x => inject_Z (rpacked x ds2) * ri_profit (ritem (sc_i s) x)) (seq 0 (length (rin_items (sc_i s)))))%Q).
    { apply qsum_le. intros x Hx. apply in_seq in Hx. rewrite (L2 x) by lia. destruct (nv_copies s m ds' I' x ltac:(lia)) as [_ C]. apply Qmult_le_compat_r; [rewrite <- Zle_Qle; exact C|]. apply Hp. apply nth_In. lia. }
    lra. }
  destruct Ho as [Ho|Ho]; rewrite Ho in *; injection Hb as Hb; specialize (G Hb); f_equal; apply Qltb_ge; exact G.
Qed.

End Bound.
