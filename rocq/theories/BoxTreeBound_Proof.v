(** * Solutions of the nodes of the box tree search, and when its cuts are right *)

From Coq Require Import List ZArith QArith Bool Lia Lqa Arith Permutation.
From Verif Require Import Util Common_Model Common_Spec Common_Proof OneDim_Model OneDim_Spec OneDim_Proof OneDimBuilder_Spec Tree1D_Model Tree1D_Spec Tree1D_Proof Tree1DNode_Proof Tree1DBound_Proof
  Box_Model Box_Spec BoxSol_Model BoxSol_Spec BoxSol_Proof BoxBuilder_Model BoxBuilder_Spec BoxFlip_Model BoxFlip_Spec BoxFlip_Proof
  BoxDff_Proof
  BoxTree_Model BoxTree_Spec BoxSky_Proof BoxTreeRes_Proof BoxTree_Proof BoxTreeNode_Proof.
Import ListNotations.
Open Scope Z_scope.

Lemma zbelow_trans : forall s a b c, zbelow s a b -> zbelow s b c -> zbelow s a c.
Proof. intros s a b c H1 H2. induction H2 as [|m ins m' H2 IH Hin Hc]; [exact H1|]. exact (zbelow_child s a m ins m' IH Hin Hc). Qed.

Section Bound.
Variable s : ZScheme.
Hypothesis Hd : ztree_domain s.

(** ** Solutions *)

Lemma zb_run_path : forall path bins, (forall e, In e path -> (1 <= fst (fst e) <= length (zts_bins (zs_i s)))%nat /\ (bp_type (snd e) < length (bx_items (zs_i s)))%nat
    /\ In (exchange_rot (snd (fst e)) (bp_rot (snd e))) (bi_rotations (bxitem (zs_i s) (bp_type (snd e))))) ->
  exists bins', xb_run (zs_i s) bins (zpath_calls s (length bins) path) = Some bins'.
Proof.
  induction path as [|[[nb dir] p] path IH]; intros bins H; cbn [zpath_calls]; [exists bins; reflexivity|].
  destruct (H (nb, dir, p) (or_introl eq_refl)) as (A & B & C). cbn [fst snd] in A, B, C.
  assert (G : forall m k bins0, (k + m <= length (zts_bins (zs_i s)))%nat -> exists bins1, xb_run (zs_i s) bins0 (map (fun k => XAddBin (nth k (zts_bins (zs_i s)) 0%nat) 1) (seq k m)) = Some bins1 /\ length bins1 = (length bins0 + m)%nat).
  { induction m as [|m IHm]; intros k bins0 Hk; cbn [seq map xb_run xb_call]; [exists bins0; split; [reflexivity|lia]|]. unfold xb_add_bin, xin_range. cbn [forallb]. rewrite (proj2 (Nat.ltb_lt _ _) (zts_bins_nth (zs_i s) k ltac:(lia))). cbn [andb].
    destruct (IHm (S k) (bins0 ++ [xraw_bin (nth k (zts_bins (zs_i s)) 0%nat) 1 []]) ltac:(lia)) as (b1 & E1 & E2). exists b1. split; [exact E1|]. rewrite E2, app_length. cbn [length]. lia. }
  assert (T : forall bins0, (0 < length bins0)%nat -> xb_add_item (zs_i s) bins0 (length bins0 - 1) (zplace_of dir p) = Some (upd (length bins0 - 1) (fun b => mkXSB (xs_type b) (xs_copies b) (xs_items b ++ [zplace_of dir p]) (xs_weight b) (xs_profit b) (xs_resources b)) bins0)).
  { intros bins0 H0. unfold xb_add_item. rewrite (proj2 (Nat.ltb_lt (length bins0 - 1) (length bins0))) by lia. rewrite zplace_swap. cbn [bswap_place bp_type bp_rot]. rewrite (proj2 (Nat.ltb_lt _ _) B), (BoxFlip_Proof.can_rotate_in _ _ C). reflexivity. }
  destruct (le_lt_dec nb (length bins)) as [Hle|Hgt].
  - replace (nb - length bins)%nat with 0%nat by lia. cbn [seq map app xb_run xb_call]. replace (Nat.max (length bins) nb) with (length bins) by lia. rewrite T by lia.
    match goal with |- exists b, xb_run _ ?l _ = _ => destruct (IH l) as [b Hb]; [intros e He; apply H; right; exact He|]; exists b; rewrite upd_length in Hb; exact Hb end.
  - destruct (G (nb - length bins)%nat (length bins) bins ltac:(lia)) as (b1 & E1 & E2). rewrite xb_run_app, E1. cbn [xb_run xb_call]. replace (Nat.max (length bins) nb) with (length b1) by lia. rewrite T by lia.
    match goal with |- exists b, xb_run _ ?l _ = _ => destruct (IH l) as [b Hb]; [intros e He; apply H; right; exact He|]; exists b; rewrite upd_length in Hb; exact Hb end.
Qed.

Lemma zused_bound : forall k t, (t < length (bx_bins (zs_i s)))%nat -> Z.of_nat (count_occ Nat.eq_dec (firstn k (zts_bins (zs_i s))) t) <= bn_copies (bxbin (zs_i s) t).
Proof.
  intros k t Ht. assert (A : (count_occ Nat.eq_dec (firstn k (zts_bins (zs_i s))) t <= count_occ Nat.eq_dec (zts_bins (zs_i s)) t)%nat).
  { rewrite <- (firstn_skipn k (zts_bins (zs_i s))) at 2. rewrite count_occ_app. lia. }
  assert (B : count_occ Nat.eq_dec (zts_bins (zs_i s)) t = Z.to_nat (bn_copies (bxbin (zs_i s) t))).
  { rewrite (proj1 (Permutation_count_occ Nat.eq_dec _ _) (zts_bins_perm (zs_i s)) t).
    assert (G : forall m a, count_occ Nat.eq_dec (flat_map (fun u => repeat u (Z.to_nat (bn_copies (bxbin (zs_i s) u)))) (seq a m)) t = if (a <=? t)%nat && (t <? a + m)%nat then Z.to_nat (bn_copies (bxbin (zs_i s) t)) else 0%nat).
    { induction m as [|m IH]; intros a; cbn [seq flat_map].
      - cbn [count_occ]. destruct (Nat.leb_spec a t); destruct (Nat.ltb_spec t (a + 0)); cbn [andb]; try reflexivity; lia.
      - rewrite count_occ_app, IH. assert (Er : forall u c, count_occ Nat.eq_dec (repeat u c) t = if Nat.eqb u t then c else 0%nat).
        { intros u c. destruct (Nat.eqb_spec u t) as [->|N]; [apply count_occ_repeat_eq; reflexivity|apply count_occ_repeat_neq; auto]. }
        rewrite Er. destruct (Nat.eqb_spec a t) as [E|E]; destruct (Nat.leb_spec (S a) t); destruct (Nat.ltb_spec t (S a + m)); destruct (Nat.leb_spec a t); destruct (Nat.ltb_spec t (a + S m)); cbn [andb]; try lia; rewrite E; lia. }
    rewrite G. destruct (Nat.leb_spec 0 t); destruct (Nat.ltb_spec t (0 + length (bx_bins (zs_i s)))); cbn [andb]; try reflexivity; lia. }
  assert (C : 1 <= bn_copies (bxbin (zs_i s) t)). { apply (bf_bins _ (zd_flippable s Hd)). apply nth_In. exact Ht. }
  rewrite B in A. lia.
Qed.

Theorem zsolution_ok : forall cb n ds, ZNodeInv s n ds -> exists sol, zto_solution s cb n = Some sol /\ xview sol = ds /\ xcopies_nonneg (zpath_calls s 0 (zn_path n)) [].
Proof.
  intros cb n ds NI. destruct (zb_run_path (zn_path n) [] (ni_calls s n ds NI)) as [bins Hb]. cbn [length] in Hb.
  assert (Hc : xcopies_nonneg (zpath_calls s 0 (zn_path n)) []). { intros d Hdd. cbn [flat_map] in Hdd. rewrite app_nil_r, (ni_ds s n ds NI) in Hdd. rewrite (ni_one s n ds NI d Hdd). lia. }
  set (sol := xb_build (zs_i s) cb bins).
  assert (E : xhistory (zs_i s) cb (zpath_calls s 0 (zn_path n)) [] = Some sol) by (unfold xhistory; rewrite Hb; reflexivity).
  destruct (xhistory_spec (zs_i s) cb (wc_resource_ids _ _ (zd_consistent s Hd)) _ _ _ E Hc) as [_ V]. cbn [flat_map] in V. rewrite app_nil_r, (ni_ds s n ds NI) in V.
  exists sol. split; [exact E|]. auto.
Qed.

(** ** Below a node *)

Record ZBelow (n m : ZNode) : Prop := {
  zw_items : zn_items n <= zn_items m;
  zw_bins : (zn_bins n <= zn_bins m)%nat;
  zw_same : zn_bins m = zn_bins n -> zn_dir m = zn_dir n /\ zn_xe_max n <= zn_xe_max m;
  zw_real : zreal s n - zn_volume n <= zreal s m - zn_volume m;
  zw_copies : forall x, nth x (zn_copies n) 0 <= nth x (zn_copies m) 0
}.

Lemma zchild_copies : forall n ins n', zchild s n ins = Some n' -> forall x, nth x (zn_copies n) 0 <= nth x (zn_copies n') 0.
Proof.
  assert (G : forall (l : list Z) x k, nth x l 0 <= nth x (upd k (fun c => c + 1) l) 0) by (induction l as [|c l IH]; intros [|x] [|k]; cbn [upd nth]; try lia; apply IH).
  intros n ins n' H x. unfold zchild in H. repeat match type of H with context [let '(_, _) := ?e in _] => destruct e | context [match ?e with _ => _ end] => destruct e; try discriminate end; injection H as <-; cbn [zn_copies].
  all: apply G.
Qed.

Lemma zbelow_spec : forall n ds m, ZNodeInv s n ds -> zbelow s n m -> exists ds', ZNodeInv s m ds' /\ ZBelow n m.
Proof.
  intros n ds m NI H. induction H as [|m ins m' H IH Hin Hc].
  - exists ds. split; [exact NI|]. constructor; try lia. intros _. split; [reflexivity|]. lia.
  - destruct IH as (ds' & I' & B). destruct (znode_step s Hd m ds' ins I' Hin) as (m'' & ds'' & E & I'' & S). rewrite Hc in E. injection E as <-. exists ds''. split; [exact I''|].
    destruct B as [B1 B2 B3 B4 B5]. destruct S as [S1 S2 S3 S4]. constructor; try lia.
    + intros Eb. destruct (B3 ltac:(lia)) as (X1 & X2). destruct (S3 ltac:(lia)) as (Y1 & Y2). rewrite Y1, X1. split; [reflexivity|lia].
    + intros x. specialize (B5 x). pose proof (zchild_copies m ins m' Hc x). lia.
Qed.

Lemma zwaste_le : forall n ds m, ZNodeInv s n ds -> znot_raised n -> zbelow s n m -> zn_waste n <= zreal s m - zn_volume m /\ zn_waste n <= zn_waste m.
Proof.
  intros n ds m NI Hr Hm. destruct (zbelow_spec n ds m NI Hm) as (ds' & I' & B). destruct (zreal_spec s Hd n ds NI) as (_ & _ & E & _). destruct (zreal_spec s Hd m ds' I') as (L & _). rewrite (ni_waste s n ds NI), (ni_waste s m ds' I'), (E Hr). pose proof (zw_real _ _ B). lia.
Qed.

Lemma zbelow_volume : forall n ds m, ZNodeInv s n ds -> znot_raised n -> zbelow s n m -> zleaf s m = true -> db_item_volume (zs_d s) + zn_waste n <= zreal s m.
Proof.
  intros n ds m NI Hr Hm Hl. destruct (zwaste_le n ds m NI Hr Hm) as [A _]. destruct (zbelow_spec n ds m NI Hm) as (ds' & I' & _). unfold zleaf in Hl. apply Z.eqb_eq in Hl. pose proof (proj2 (ninv_volume_le s Hd m ds' I') Hl). lia.
Qed.

(** Bin packing. *)
Lemma zneeded_le : forall i bins j k a, a <= zsum (fun t => vol (bn_box (bxbin i t))) (firstn j bins) -> exists k', zbins_needed i bins k a = Some k' /\ (k' <= k + j)%nat.
Proof.
  intros i. induction bins as [|t bins IH]; intros j k a H; cbn [zbins_needed].
  - rewrite firstn_nil in H. cbn in H. destruct (Z.leb_spec a 0); [|lia]. exists k. split; [reflexivity|lia].
  - destruct (Z.leb_spec a 0) as [|N]; [exists k; split; [reflexivity|lia]|]. destruct j as [|j]; [cbn in H; lia|]. cbn [firstn] in H. rewrite zsum_cons in H. destruct (IH j (S k) (a - vol (bn_box (bxbin i t))) ltac:(lia)) as (k' & E & L). exists k'. split; [exact E|lia].
Qed.

Theorem zbin_packing_cut : forall n1 n2 m, zreachable s n1 -> bx_objective (zs_i s) = OBinPacking \/ bx_objective (zs_i s) = OVariableSizedBinPacking ->
  znot_raised n1 -> zbound s n1 n2 = Some true -> zbelow s n1 m -> zbetter s m n2 = Some false.
Proof.
  intros n1 n2 m H1 Ho Hw Hb Hm. destruct (znode_inv s Hd n1 H1) as [ds NI]. unfold zbound in Hb. unfold zbetter. destruct Ho as [Ho|Ho]; rewrite Ho in *.
  all: destruct (zleaf s n2) eqn:L2; cbn [negb] in *; [|discriminate]; destruct (zleaf s m) eqn:Lm; cbn [negb]; [|reflexivity].
  all: pose proof (zbelow_volume n1 ds m NI Hw Hm Lm) as A; destruct (zbelow_spec n1 ds m NI Hm) as (ds' & I' & _); destruct (zreal_spec s Hd m ds' I') as (_ & B & _).
  all: destruct (zneeded_le (zs_i s) (zts_bins (zs_i s)) (zn_bins m) 0 (db_item_volume (zs_d s) + zn_waste n1)) as (k & E & L); [unfold zts_previous in B; lia|].
  all: rewrite E in Hb; injection Hb as Hb; apply Nat.leb_le in Hb; f_equal; apply Nat.ltb_ge; lia.
Qed.

(** Bin packing with leftovers. *)
Theorem zleftovers_cut : forall n1 n2 m, zreachable s n1 -> bx_objective (zs_i s) = OBinPackingWithLeftovers ->
  znot_raised n1 -> zbound s n1 n2 = Some true -> zbelow s n1 m -> zbetter s m n2 = Some false.
Proof.
  intros n1 n2 m H1 Ho Hw Hb Hm. destruct (znode_inv s Hd n1 H1) as [ds NI]. unfold zbound in Hb. unfold zbetter. rewrite Ho in *.
  destruct (zleaf s n2) eqn:L2; cbn [negb] in *; [|discriminate]. destruct (zleaf s m) eqn:Lm; cbn [negb]; [|reflexivity].
  injection Hb as Hb. apply Z.leb_le in Hb. destruct (zwaste_le n1 ds m NI Hw Hm) as [_ A]. f_equal. apply Z.ltb_ge. lia.
Qed.

(** Open dimension. *)
Lemma zone_bin_type : bx_objective (zs_i s) = OOpenDimensionX \/ bx_objective (zs_i s) = OOpenDimensionY \/ bx_objective (zs_i s) = OOpenDimensionZ -> length (zts_bins (zs_i s)) = 1%nat /\ nth 0 (zts_bins (zs_i s)) 0%nat = 0%nat.
Proof.
  intros Ho. pose proof (bf_open _ (zd_flippable s Hd) Ho) as S1.
  assert (L : length (zts_bins (zs_i s)) = 1%nat).
  { rewrite (Permutation_length (zts_bins_perm (zs_i s))).
    assert (G : forall l a, (forall t, In t l -> 1 <= bn_copies t) -> (forall k, (k < length l)%nat -> bxbin (zs_i s) (a + k) = nth k l (bxbin (zs_i s) (a + k))) ->
      Z.of_nat (length (flat_map (fun t => repeat t (Z.to_nat (bn_copies (bxbin (zs_i s) t)))) (seq a (length l)))) = zsum bn_copies l).
    { induction l as [|b l IH]; intros a Hl Hn; cbn [length seq flat_map]; [reflexivity|]. rewrite app_length, repeat_length, zsum_cons, Nat2Z.inj_add, (IH (S a)).
      - pose proof (Hn 0%nat ltac:(cbn; lia)) as E. rewrite Nat.add_0_r in E. cbn [nth] in E. rewrite E. pose proof (Hl b (or_introl eq_refl)). lia.
      - intros t Ht. apply Hl. right. exact Ht.
      - intros k Hk. replace (S a + k)%nat with (a + S k)%nat by lia. apply (Hn (S k)). cbn [length]. lia. }
    specialize (G (bx_bins (zs_i s)) 0%nat). rewrite S1 in G. enough (Z.of_nat (length (flat_map (fun t => repeat t (Z.to_nat (bn_copies (bxbin (zs_i s) t)))) (seq 0 (length (bx_bins (zs_i s)))))) = 1) by lia. apply G.
    - intros t Ht. apply (bf_bins _ (zd_flippable s Hd) t Ht).
    - intros k Hk. cbn [plus]. unfold bxbin. apply nth_indep, Hk. }
  split; [exact L|].
  pose proof (zts_bins_perm (zs_i s)) as P. apply Permutation_length in P. rewrite L in P.
  assert (G : forall l, (forall t, In t l -> (t < length (bx_bins (zs_i s)))%nat) -> (length l <= length (flat_map (fun t => repeat t (Z.to_nat (bn_copies (bxbin (zs_i s) t)))) l))%nat).
  { induction l as [|t l IH]; intros Hl; cbn [flat_map length]; [lia|]. rewrite app_length, repeat_length. specialize (IH (fun u Hu => Hl u (or_intror Hu))).
    assert (C : 1 <= bn_copies (bxbin (zs_i s) t)) by (apply (bf_bins _ (zd_flippable s Hd)), nth_In, Hl; left; reflexivity). lia. }
  specialize (G (seq 0 (length (bx_bins (zs_i s)))) ltac:(intros t Ht; apply in_seq in Ht; lia)). rewrite <- P, seq_length in G. pose proof (zts_bins_nth (zs_i s) 0 ltac:(lia)). lia.
Qed.

Theorem zopen_cut : forall n1 n2 m dir, zreachable s n1 -> bx_objective (zs_i s) = OOpenDimensionX \/ bx_objective (zs_i s) = OOpenDimensionY \/ bx_objective (zs_i s) = OOpenDimensionZ ->
  zs_direction s = Some dir -> v_y (bn_box (bxbin (zinst s dir) 0)) * v_z (bn_box (bxbin (zinst s dir) 0)) <= v_y (bn_box (bxbin (zs_i s) 0)) * v_z (bn_box (bxbin (zs_i s) 0)) + 1 ->
  znot_raised n1 -> zbound s n1 n2 = Some true -> zbelow s n1 m -> zleaf s m = true -> zn_xe_max n2 <= zn_xe_max m.
Proof.
  intros n1 n2 m dir H1 Ho Hdir Hy Hw Hb Hm Lm. destruct (znode_inv s Hd n1 H1) as [ds NI]. destruct (zone_bin_type Ho) as [L E0].
  destruct (zbelow_spec n1 ds m NI Hm) as (ds' & I' & [_ B2 B3 B4 _]). pose proof (ni_le s n1 ds NI) as Bn. pose proof (ni_le s m ds' I') as Bm.
  set (A0 := v_y (bn_box (bxbin (zs_i s) 0)) * v_z (bn_box (bxbin (zs_i s) 0))) in *. set (A1 := v_y (bn_box (bxbin (zinst s dir) 0)) * v_z (bn_box (bxbin (zinst s dir) 0))) in *.
  assert (Hpos : 0 < A0 /\ 0 < A1). { pose proof (zts_bins_nth (zs_i s) 0 ltac:(lia)) as A. rewrite E0 in A. destruct (zdom_bin s Hd AX 0%nat A) as (X1 & _). destruct (zdom_bin s Hd dir 0%nat A) as (X2 & _). cbn [zinst] in X1. pose proof (X1 AY). pose proof (X1 AZ). pose proof (X2 AY). pose proof (X2 AZ). cbn [vat] in *. unfold A0, A1. split; apply Z.mul_pos_pos; assumption. }
  unfold zbound in Hb.
  assert (Hx : zn_xe_max n2 <= Z.max (zn_xe_max n1) (Z.quot (zn_waste n1 + db_item_volume (zs_d s) - 1) (A0 + 1))).
  { destruct Ho as [Ho|[Ho|Ho]]; rewrite Ho in *; (destruct (zleaf s n2) eqn:L2; cbn [negb] in *; [|discriminate]); injection Hb as Hb; apply Z.leb_le in Hb; exact Hb. }
  pose proof (zbelow_volume n1 ds m NI Hw Hm Lm) as A.
  assert (Hlev : zreal s m <= zn_xe_max m * A1 /\ 0 <= zn_xe_max m /\ zn_xe_max n1 <= zn_xe_max m).
  { destruct (zreal_spec s Hd m ds' I') as (_ & _ & _ & R). destruct (Nat.eq_dec (zn_bins m) 0) as [Z0|Z0].
    - destruct (ni_last s m ds' I') as [(_ & _ & Em)|(pre & ps & Zb & _)]; [|contradiction]. assert (Zn : zn_bins n1 = 0%nat) by lia. destruct (ni_last s n1 ds NI) as [(_ & _ & En)|(pre & ps & Zb & _)]; [|contradiction]. rewrite Em, En. unfold zreal. cbn. lia.
    - destruct (R Z0) as [R1 R2]. assert (Eb : zn_bins m = 1%nat) by lia. rewrite Eb in R1. cbn [Nat.sub] in R1. rewrite E0, (ni_dir s m ds' I' dir Hdir Z0) in R1. change (zts_previous (zs_i s) 0) with 0 in R1. rewrite <- Z.mul_assoc in R1. fold A1 in R1. split; [lia|]. split; [exact R2|].
      destruct (Nat.eq_dec (zn_bins n1) 0) as [Z1|Z1]; [|apply B3; lia]. destruct (ni_last s n1 ds NI) as [(_ & _ & En)|(pre & ps & Zb & _)]; [|contradiction]. rewrite En. cbn [zroot zn_xe_max]. exact R2. }
  destruct Hlev as (E1 & E2 & E3). destruct Hpos as [P1 P2].
  assert (Q : Z.quot (zn_waste n1 + db_item_volume (zs_d s) - 1) (A0 + 1) <= zn_xe_max m); [|lia].
  set (w := zn_waste n1 + db_item_volume (zs_d s) - 1) in *. assert (W : w <= zn_xe_max m * (A0 + 1)) by (unfold w; nia).
  destruct (Z.le_gt_cases w 0) as [N|N].
  - pose proof (Z.quot_pos (- w) (A0 + 1) ltac:(lia) ltac:(lia)) as Q0. rewrite Z.quot_opp_l in Q0 by lia. lia.
  - apply Z.quot_le_upper_bound; lia.
Qed.

(** Knapsack. *)
Lemma zinv_profit : zsees_resources s -> forall n ds, ZNodeInv s n ds ->
  (zn_profit n == qsum (fun x => inject_Z (bpacked x ds) * bi_profit (bxitem (zs_i s) x)) (seq 0 (length (bx_items (zs_i s)))) - qsum (bpenalties (zs_i s)) ds)%Q.
Proof.
  intros Hs n ds NI. rewrite (ni_profit s n ds NI Hs). rewrite (xqpacked_sum _ _ (fun x => bi_profit (bxitem (zs_i s) x)) (ninv_types s n ds NI)).
  pose proof (ni_one s n ds NI) as Ho. clear - Ho. induction ds as [|d ds IH]; [cbn; ring|]. rewrite !qsum_cons, IH by (intros d' Hd'; apply Ho; right; exact Hd'). rewrite (Ho d (or_introl eq_refl)). change (inject_Z 1) with 1%Q. ring.
Qed.

Definition zpenalties_nonneg : Prop := forall bt r, In bt (bx_bins (zs_i s)) -> In r (bn_resources bt) -> (0 <= res_penalty r)%Q.

Lemma zinv_bin_types : forall n ds, ZNodeInv s n ds -> forall d, In d ds -> (xd_type d < length (bx_bins (zs_i s)))%nat.
Proof.
  intros n ds NI d Hdd. apply (in_map xd_type) in Hdd. rewrite (ni_types s n ds NI) in Hdd.
  assert (Y : In (xd_type d) (zts_bins (zs_i s))) by (rewrite <- (firstn_skipn (zn_bins n) (zts_bins (zs_i s))); apply in_or_app; left; exact Hdd).
  apply (In_nth _ _ 0%nat) in Y. destruct Y as (k' & Hk' & <-). apply zts_bins_nth, Hk'.
Qed.

Lemma zinv_penalties : zpenalties_nonneg -> forall n ds, ZNodeInv s n ds -> (0 <= qsum (bpenalties (zs_i s)) ds)%Q.
Proof.
  intros H n ds NI. apply qsum_nonneg. intros d Hdd. pose proof (zinv_bin_types n ds NI d Hdd) as Ht. unfold bpenalties. apply qsum_nonneg. intros r Hr. destruct (_ && _); [|lra]. apply (H (bxbin (zs_i s) (xd_type d))); [apply nth_In; exact Ht|exact Hr].
Qed.

Theorem zknapsack_cut : forall n1 n2 m ds2, zsees_resources s -> zreachable s n1 -> ZNodeInv s n2 ds2 -> bx_objective (zs_i s) = OKnapsack \/ bx_objective (zs_i s) = OFeasibility ->
  (forall t, In t (bx_items (zs_i s)) -> (0 <= bi_profit t)%Q) -> zpenalties_nonneg -> (qsum (bpenalties (zs_i s)) ds2 == 0)%Q ->
  zbound s n1 n2 = Some true -> zbelow s n1 m -> zbetter s m n2 = Some false.
Proof.
  intros n1 n2 m ds2 Hs H1 I2 Ho Hp Hr H0 Hb Hm. destruct (znode_inv s Hd n1 H1) as [ds NI]. destruct (zbelow_spec n1 ds m NI Hm) as (ds' & I' & _).
  unfold zbound in Hb. unfold zbetter.
  assert (G : zleaf s n2 = true -> (zn_profit m <= zn_profit n2)%Q).
  { intros L2. unfold zleaf in L2. apply Z.eqb_eq, (ninv_items_le s Hd n2 ds2 I2) in L2. rewrite (zinv_profit Hs m ds' I'), (zinv_profit Hs n2 ds2 I2), H0.
    pose proof (zinv_penalties Hr m ds' I') as A.
    assert (B : (qsum (fun x => inject_Z (bpacked x ds') * bi_profit (bxitem (zs_i s) x)) (seq 0 (length (bx_items (zs_i s)))) <= qsum (fun x => inject_Z (bpacked x ds2) * bi_profit (bxitem (zs_i s) x)) (seq 0 (length (bx_items (zs_i s)))))%Q).
    { apply qsum_le. intros x Hx. apply in_seq in Hx. rewrite (L2 x) by lia. destruct (ni_copies s m ds' I' x ltac:(lia)) as [_ C]. apply Qmult_le_compat_r; [rewrite <- Zle_Qle; exact C|]. apply Hp. apply nth_In. lia. }
    lra. }
  destruct Ho as [Ho|Ho]; rewrite Ho in *; injection Hb as Hb; specialize (G Hb); f_equal; apply Qltb_ge; exact G.
Qed.

(** Default: the bound on the profit. *)
Lemma zqsum_bitems : forall (f : BItem -> Q), (qsum f (bx_items (zs_i s)) == qsum (fun x => f (bxitem (zs_i s) x)) (seq 0 (length (bx_items (zs_i s)))))%Q.
Proof. intros f. unfold bxitem. generalize (bx_items (zs_i s)). clear. intros l. rewrite <- (List.map_id l) at 1. rewrite <- (list_nth_map _ _ (fun a => a) l dummy_bitem). rewrite qsum_map. reflexivity. Qed.

Lemma zbin_total : zts_previous (zs_i s) (length (zts_bins (zs_i s))) = db_bin_volume (zs_d s).
Proof.
  unfold zts_previous. rewrite firstn_all. rewrite (zsum_perm _ _ _ _ (zts_bins_perm (zs_i s))), (wc_bin_volume _ _ (zd_consistent s Hd)).
  assert (G : forall l a, (forall t, In t l -> 1 <= bn_copies t) -> (forall k, (k < length l)%nat -> bxbin (zs_i s) (a + k) = nth k l (bxbin (zs_i s) (a + k))) ->
      zsum (fun t => vol (bn_box (bxbin (zs_i s) t))) (flat_map (fun t => repeat t (Z.to_nat (bn_copies (bxbin (zs_i s) t)))) (seq a (length l))) = zsum (fun t => bn_copies t * bn_vol t) l).
  { induction l as [|b l IH]; intros a Hl Hn; cbn [length seq flat_map]; [reflexivity|]. rewrite zsum_app, zsum_cons, (IH (S a)).
    - pose proof (Hn 0%nat ltac:(cbn; lia)) as E. rewrite Nat.add_0_r in E. cbn [nth] in E. pose proof (Hl b (or_introl eq_refl)) as C. f_equal.
      assert (R : forall c, zsum (fun t => vol (bn_box (bxbin (zs_i s) t))) (repeat a c) = Z.of_nat c * vol (bn_box (bxbin (zs_i s) a))) by (induction c as [|c IHc]; cbn [repeat]; [reflexivity|rewrite zsum_cons, IHc; lia]).
      rewrite R, E. rewrite Z2Nat.id by lia. reflexivity.
    - intros t Ht. apply Hl. right. exact Ht.
    - intros k Hk. replace (S a + k)%nat with (a + S k)%nat by lia. apply (Hn (S k)). cbn [length]. lia. }
  apply G; [intros t Ht; apply (bf_bins _ (zd_flippable s Hd) t Ht)|]. intros k Hk. cbn [plus]. unfold bxbin. apply nth_indep, Hk.
Qed.

Theorem zubkp_bound : forall n ds m, zsees_resources s -> ZNodeInv s n ds -> znot_raised n ->
  (forall t, In t (bx_items (zs_i s)) -> (0 <= bi_profit t)%Q) -> zpenalties_nonneg -> (qsum (bpenalties (zs_i s)) ds == 0)%Q ->
  zbelow s n m -> (zn_profit m <= zubkp s n)%Q.
Proof.
  intros n ds m Hs NI Hw Hp Hr H0 Hm. destruct (zbelow_spec n ds m NI Hm) as (ds' & I' & B). pose proof (zinv_penalties Hr m ds' I') as A. pose proof (zinv_profit Hs m ds' I') as Em. pose proof (zinv_profit Hs n ds NI) as En.
  unfold zubkp. destruct (Z.leb_spec (db_item_volume (zs_d s) - zn_volume n) (db_bin_volume (zs_d s) - zn_current n)) as [Hle|Hgt].
  - rewrite Em, (wc_item_profit _ _ (zd_consistent s Hd)), (zqsum_bitems (fun t => inject_Z (bi_copies t) * bi_profit t)%Q).
    assert (Q : (qsum (fun x => inject_Z (bpacked x ds') * bi_profit (bxitem (zs_i s) x)) (seq 0 (length (bx_items (zs_i s)))) <= qsum (fun x => inject_Z (bi_copies (bxitem (zs_i s) x)) * bi_profit (bxitem (zs_i s) x)) (seq 0 (length (bx_items (zs_i s)))))%Q).
    { apply qsum_le. intros x Hx. apply in_seq in Hx. destruct (ni_copies s m ds' I' x ltac:(lia)) as [_ C]. apply Qmult_le_compat_r; [rewrite <- Zle_Qle; exact C|]. apply Hp. apply nth_In. lia. }
    lra.
  - pose proof (wc_efficiency _ _ (zd_consistent s Hd)) as Eff. destruct (db_largest_efficiency (zs_d s)) as [k|].
    2: { rewrite Em. rewrite Eff. cbn [length seq]. change (qsum _ []) with 0%Q at 1. lra. }
    destruct Eff as [Hk Eff]. set (e := (bi_profit (bxitem (zs_i s) k) / inject_Z (bi_vol (bxitem (zs_i s) k)))%Q) in *.
    assert (Vp : forall x, (x < length (bx_items (zs_i s)))%nat -> 0 < bi_vol (bxitem (zs_i s) x)).
    { intros x Hx. destruct (bf_items _ (zd_flippable s Hd) (bxitem (zs_i s) x)) as (P & _); [apply nth_In; exact Hx|]. pose proof (P AX). pose proof (P AY). pose proof (P AZ). cbn [vat] in *. unfold bi_vol. apply Z.mul_pos_pos; [apply Z.mul_pos_pos|]; assumption. }
    assert (He : (0 <= e)%Q). { unfold e. apply Qle_shift_div_l; [rewrite <- (Zlt_Qlt 0); apply Vp, Hk|]. rewrite Qmult_0_l. apply Hp. apply nth_In. exact Hk. }
    assert (Hv : zn_volume m - zn_volume n <= db_bin_volume (zs_d s) - zn_current n).
    { destruct (zreal_spec s Hd n ds NI) as (_ & _ & R1 & _). destruct (zreal_spec s Hd m ds' I') as (_ & R2 & _). rewrite (R1 Hw). pose proof (zw_real _ _ B). pose proof (zts_previous_mono (zs_i s) (zn_bins m) (length (zts_bins (zs_i s))) (zbin_vol_nonneg s Hd) (ni_le s m ds' I') ltac:(lia)) as M. rewrite zbin_total in M. lia. }
    assert (Hq : (qsum (fun x => inject_Z (bpacked x ds') * bi_profit (bxitem (zs_i s) x)) (seq 0 (length (bx_items (zs_i s)))) - qsum (fun x => inject_Z (bpacked x ds) * bi_profit (bxitem (zs_i s) x)) (seq 0 (length (bx_items (zs_i s)))) <= inject_Z (zn_volume m - zn_volume n) * e)%Q).
    { assert (Ev : zn_volume m - zn_volume n = zsum (fun x => (bpacked x ds' - bpacked x ds) * bi_vol (bxitem (zs_i s) x)) (seq 0 (length (bx_items (zs_i s))))).
      { rewrite (ni_volume s m ds' I'), (ni_volume s n ds NI). unfold bitems_volume. rewrite <- (ninv_sum s m ds' (fun x => bi_vol (bxitem (zs_i s) x)) I'), <- (ninv_sum s n ds (fun x => bi_vol (bxitem (zs_i s) x)) NI).
        generalize (seq 0 (length (bx_items (zs_i s)))). clear. induction l as [|a l IH]; [reflexivity|]. rewrite !zsum_cons. lia. }
      rewrite Ev. assert (Hc : forall x, In x (seq 0 (length (bx_items (zs_i s)))) -> bpacked x ds <= bpacked x ds' /\ (bi_profit (bxitem (zs_i s) x) <= e * inject_Z (bi_vol (bxitem (zs_i s) x)))%Q).
      { intros x Hx. apply in_seq in Hx. split.
        - destruct (ni_copies s m ds' I' x ltac:(lia)) as [<- _]. destruct (ni_copies s n ds NI x ltac:(lia)) as [<- _]. apply (zw_copies _ _ B).
        - specialize (Eff (bxitem (zs_i s) x) ltac:(apply nth_In; lia)). fold e in Eff. assert (0 < inject_Z (bi_vol (bxitem (zs_i s) x)))%Q by (rewrite <- (Zlt_Qlt 0); apply Vp; lia).
          apply (Qmult_le_compat_r _ _ (inject_Z (bi_vol (bxitem (zs_i s) x)))) in Eff; [|lra]. rewrite Qmult_comm in Eff. rewrite Qmult_div_r in Eff by lra. exact Eff. }
      revert Hc. generalize (seq 0 (length (bx_items (zs_i s)))). clear - He. induction l as [|a l IH]; intros Hc; [cbn [qsum zsum fold_right map]; change (inject_Z 0) with 0%Q; setoid_replace (0 * e)%Q with 0%Q by ring; vm_compute; discriminate|]. rewrite !qsum_cons, zsum_cons, inject_Z_plus. specialize (IH (fun x Hx => Hc x (or_intror Hx))). destruct (Hc a (or_introl eq_refl)) as [C1 C2].
      assert (D : (inject_Z (bpacked a ds' - bpacked a ds) * bi_profit (bxitem (zs_i s) a) <= inject_Z (bpacked a ds' - bpacked a ds) * (e * inject_Z (bi_vol (bxitem (zs_i s) a))))%Q).
      { rewrite !(Qmult_comm (inject_Z _)). apply Qmult_le_compat_r; [exact C2|]. rewrite <- (Zle_Qle 0). lia. }
      unfold Zminus in *. rewrite inject_Z_mult. rewrite inject_Z_plus, inject_Z_opp in *. lra. }
    assert (Hm2 : (inject_Z (zn_volume m - zn_volume n) * e <= inject_Z (db_bin_volume (zs_d s) - zn_current n) * e)%Q) by (apply Qmult_le_compat_r; [rewrite <- Zle_Qle; exact Hv|exact He]).
    assert (Ee : (inject_Z (db_bin_volume (zs_d s) - zn_current n) * bi_profit (bxitem (zs_i s) k) / inject_Z (vol (bi_box (bxitem (zs_i s) k))) == inject_Z (db_bin_volume (zs_d s) - zn_current n) * e)%Q).
    { unfold e. change (vol (bi_box (bxitem (zs_i s) k))) with (bi_vol (bxitem (zs_i s) k)). unfold Qdiv. ring. }
    rewrite Ee, Em, En, H0. lra.
Qed.

Theorem zdefault_cut : forall n1 ds1 n2 m, zsees_resources s -> zreachable s n1 -> ZNodeInv s n1 ds1 -> bx_objective (zs_i s) = ODefault -> znot_raised n1 ->
  (forall t, In t (bx_items (zs_i s)) -> (0 <= bi_profit t)%Q) -> zpenalties_nonneg -> (qsum (bpenalties (zs_i s)) ds1 == 0)%Q ->
  zbound s n1 n2 = Some true -> zbelow s n1 m -> (zn_profit m <= zn_profit n2)%Q /\ (zleaf s n2 = true -> zbetter s m n2 = Some false).
Proof.
  intros n1 ds1 n2 m Hs H1 NI Ho Hw Hp Hr H0 Hb Hm. pose proof (zubkp_bound n1 ds1 m Hs NI Hw Hp Hr H0 Hm) as U. destruct (zwaste_le n1 ds1 m NI Hw Hm) as [_ W].
  unfold zbound in Hb. unfold zbetter. rewrite Ho in *. destruct (zleaf s n2) eqn:L2; cbn [negb] in *.
  - destruct (Qeq_bool (zubkp s n1) (zn_profit n2)) eqn:Eq; cbn [negb] in Hb; injection Hb as Hb.
    + apply Qeq_bool_iff in Eq. apply Z.leb_le in Hb. split; [lra|]. intros _. destruct (Qltb (zn_profit m) (zn_profit n2)) eqn:E1; [reflexivity|]. destruct (Qltb (zn_profit n2) (zn_profit m)) eqn:E2; [apply Qltb_lt in E2; lra|]. f_equal. apply Z.ltb_ge. lia.
    + apply Qle_bool_iff in Hb. split; [lra|]. intros _. assert (Ne : ~ (zubkp s n1 == zn_profit n2)%Q) by (intro X; apply Qeq_bool_iff in X; congruence).
      assert (E1 : Qltb (zn_profit m) (zn_profit n2) = true) by (apply Qltb_lt; apply Qle_lteq in Hb; destruct Hb as [Hb|Hb]; [lra|contradiction]). rewrite E1. reflexivity.
  - injection Hb as Hb. apply Qle_bool_iff in Hb. split; [lra|discriminate].
Qed.

End Bound.
