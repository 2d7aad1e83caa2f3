(** * The rectangle dual feasible functions bounds are valid *)

From Coq Require Import List ZArith QArith Qminmax Bool Lia Lqa Arith Permutation Sorted Psatz.
From Verif Require Import Util Common_Model OneDim_Model Dff_Model Dff_Spec Dff_Proof Dff_Axis OneDimDff_Model OneDimDff_Proof.
From Verif Require Import Geom Dff_Pack Rect_Model Rect_Spec RectDff_Model.
Import ListNotations.
Open Scope Z_scope.

(** ** Evaluation along an axis *)

Section Eval.

Variables C k : Z.
Hypothesis HC : 1 <= C.
Hypothesis Hk : 1 <= k.
Hypothesis Hk2 : 2 * k <= C.
Variable pool : list (Z * Z).
Hypothesis Hpos : pos_pool pool.
Hypothesis Hsorted : StronglySorted fst_le pool.
Variable bigs : list Z.

Definition excl_of : list (Z * Z) := map (fun b => (b, gr (C - b) pool)) bigs.

Lemma gr_le_capacity : forall p c, pos_pool p -> 0 <= c -> gr c p <= c.
Proof.
  induction p as [|[l m] p IH]; intros c Hp Hc; simpl; [lia|].
  inversion Hp as [|? ? H1 H2]; subst. simpl in H1. destruct (Z.ltb_spec (m * l) c).
  - specialize (IH (c - m * l) H2 ltac:(lia)). nia.
  - apply Z.quot_le_upper_bound; nia.
Qed.

Lemma gr_negative : forall p c, pos_pool p -> c <= 0 -> c <= gr c p <= 0.
Proof.
  intros [|[l m] p] c Hp Hc; simpl; [lia|]. inversion Hp as [|? ? H1 H2]; subst. simpl in H1.
  destruct (Z.ltb_spec (m * l) c); [nia|].
  assert (E : Z.quot c l = - Z.quot (- c) l) by (rewrite Z.quot_opp_l by lia; lia). rewrite E.
  pose proof (Z.quot_pos (- c) l ltac:(lia) ltac:(lia)).
  assert (Z.quot (- c) l <= - c) by (apply Z.quot_le_upper_bound; nia). lia.
Qed.

Lemma eval_axis_some : forall fam d, 0 < d -> (C / 2 < d -> In d bigs) ->
  exists c, eval_axis fam C k (gr C pool) excl_of d = Some c
    /\ 0 <= c <= 2 * (C + d) /\ (d <= C -> c = FF C k pool fam d)
    /\ (fam = 1%nat -> pool = [] -> (k <= d -> C / 2 < d) -> c = 0).
Proof.
  intros fam d Hd Hb. pose proof (div2_spec C) as HD. destruct fam as [|[|fam]].
  - eexists. split; [reflexivity|]. split; [|split; [reflexivity|discriminate]].
    unfold f_ccm_0. destruct (C - k <? d); [lia|]. destruct (d <? k); lia.
  - cbn [eval_axis]. unfold f_ccm_1_axis, f_ccm_1. rewrite quot2 by lia. destruct (Z.ltb_spec (C / 2) d).
    + unfold excl_of. rewrite (map_at_big (fun b => gr (C - b) pool)) by auto. cbn [bind].
      pose proof (gr_mono pool (C - d) C Hpos Hsorted ltac:(lia) ltac:(lia)).
      pose proof (gr_le_capacity pool C Hpos ltac:(lia)). pose proof (gr_nonneg pool C Hpos ltac:(lia)).
      destruct (Z.ltb_spec (gr C pool - gr (C - d) pool) 0); [lia|].
      eexists. split; [reflexivity|].
      assert (HL : - d <= gr (C - d) pool).
      { destruct (Z.le_gt_cases (C - d) 0); [pose proof (gr_negative pool (C - d) Hpos ltac:(lia)); lia|].
        pose proof (gr_nonneg pool (C - d) Hpos ltac:(lia)). lia. }
      split; [lia|]. split.
      * intros _. unfold FF. destruct (Z.ltb_spec (C / 2) d); lia.
      * intros _ Hp _. rewrite Hp. reflexivity.
    + destruct (Z.ltb_spec d k); eexists; (split; [reflexivity|]); (split; [lia|]); split.
      * intros _. unfold FF. destruct (Z.ltb_spec (C / 2) d); try lia; destruct (Z.ltb_spec d k); lia.
      * intros _ _ _. reflexivity.
      * intros _. unfold FF. destruct (Z.ltb_spec (C / 2) d); try lia; destruct (Z.ltb_spec d k); lia.
      * intros _ _ Hx. lia.
  - cbn [eval_axis]. destruct (Z.le_gt_cases d C) as [Hle|Hgt].
    + exists (F2 C k d). split; [apply f_ccm_2_some; lia|].
      split; [|split; [reflexivity|discriminate]]. split.
      * apply (FF_nonneg C 0 (fun _ => []) (fun _ => 0) k (fun _ => None) ) with (pool := []) (fam := 2%nat); try lia; try (intros; lia); try reflexivity; intros; simpl in *; tauto.
      * unfold F2. assert (C / k <= C) by (apply Z.div_le_upper_bound; nia).
        assert (0 <= C / k) by (apply Z.div_pos; lia).
        assert (0 <= (C - d) / k) by (apply Z.div_pos; lia).
        assert (d / k <= d) by (apply Z.div_le_upper_bound; nia).
        destruct (C / 2 <? d); [lia|]. destruct (2 * d =? C); lia.
    + unfold f_ccm_2, cdiv. rewrite quot2 by lia. destruct (Z.ltb_spec (C / 2) d); [|lia].
      destruct (Z.eqb_spec k 0); [lia|]. cbn [bind]. eexists. split; [reflexivity|].
      split; [|split; [lia|discriminate]].
      assert (E : Z.quot (C - d) k = - Z.quot (d - C) k).
      { rewrite <- Z.quot_opp_l by lia. f_equal. lia. }
      rewrite E. pose proof (Z.quot_pos (d - C) k ltac:(lia) ltac:(lia)).
      assert (Z.quot (d - C) k <= d - C) by (apply Z.quot_le_upper_bound; nia).
      pose proof (Z.quot_pos C k ltac:(lia) ltac:(lia)).
      assert (Z.quot C k <= C) by (apply Z.quot_le_upper_bound; nia). lia.
Qed.

Lemma bin_value_some : forall fam, bin_value fam C k (gr C pool) = Some (FF_bin C k pool fam).
Proof.
  intro fam. pose proof (div2_spec C) as HD. destruct fam as [|[|fam]].
  - unfold bin_value, f_ccm_0, FF_bin. destruct (Z.ltb_spec (C - k) C); [reflexivity|lia].
  - unfold bin_value, f_ccm_1, FF_bin. rewrite quot2 by lia. destruct (Z.ltb_spec (C / 2) C); [|lia].
    pose proof (gr_nonneg pool C Hpos ltac:(lia)).
    destruct (Z.ltb_spec (gr C pool) 0); [lia|reflexivity].
  - unfold bin_value. rewrite f_ccm_2_some by lia. rewrite F2_bin by lia. reflexivity.
Qed.

(** The bin has value 0 only for family 1 with an empty pool. *)
Lemma bin_value_zero : forall fam, (forall p, In p pool -> 1 <= snd p /\ 2 * fst p <= C) ->
  FF_bin C k pool fam = 0 -> fam = 1%nat /\ pool = [].
Proof.
  intros fam Hpool H. destruct fam as [|[|fam]]; unfold FF_bin in H.
  - lia.
  - split; [reflexivity|]. destruct pool as [|[l c] pool']; [reflexivity|exfalso].
    inversion Hpos as [|? ? H1 H2]; subst. cbn [fst snd] in H1. destruct (Hpool (l, c) (or_introl eq_refl)) as [H3 H4].
    cbn [fst snd] in H3, H4. cbn [gr] in H. destruct (Z.ltb_spec (c * l) C).
    + pose proof (gr_nonneg pool' (C - c * l) H2 ltac:(lia)). lia.
    + assert (1 <= Z.quot C l) by (apply Z.quot_le_lower_bound; lia). lia.
  - assert (1 <= C / k) by (apply Z.div_le_lower_bound; lia). lia.
Qed.

End Eval.

(** ** The combinations of the sweep *)

Section Combos.

Variable its : list RItem.
Variable bt : RBin.
Hypothesis Hits : forall it, In it its -> 0 < ri_x it /\ 0 < ri_y it /\ 1 <= ri_copies it.
Hypothesis Hbt : 1 <= rb_x bt /\ 1 <= rb_y bt.

Let n := length its.
Let item (j : nat) : RItem := nth j its dummy_ritem.
Let cop (j : nat) : Z := ri_copies (item j).
Let side (w : bool) : Z := bin_side w bt.

Lemma item_range : forall j, (j < n)%nat -> In (item j) its.
Proof. intros j Hj. apply nth_In. assumption. Qed.

Lemma item_cases : forall j, In (item j) its \/ item j = dummy_ritem.
Proof. intro j. unfold item. destruct (nth_in_or_default j its dummy_ritem); auto. Qed.

Lemma rcop_nonneg : forall j, 0 <= cop j.
Proof.
  intro j. unfold cop. destruct (item_cases j) as [H|H]; [destruct (Hits _ H) as (_ & _ & ?); lia|rewrite H; simpl; lia].
Qed.

Lemma side_pos : forall w, 1 <= side w.
Proof. intros [|]; unfold side, bin_side; lia. Qed.

Lemma candidates_pos : forall w it d, In it its -> In d (candidates w it) -> 0 < d.
Proof.
  intros w it d Hit Hd. destruct (Hits it Hit) as (H1 & H2 & _). unfold candidates in Hd.
  destruct (ri_oriented it).
  - destruct Hd as [<-|[]]. destruct w; assumption.
  - destruct Hd as [<-|[<-|[]]]; assumption.
Qed.

Lemma rbreakpoint_range : forall w k, In k (rbreakpoints its w (side w)) -> 1 <= k /\ 2 * k <= side w.
Proof.
  intros w k Hk. pose proof (side_pos w) as HC. unfold rbreakpoints in Hk. rewrite sort_unique_in, in_app_iff in Hk.
  pose proof (div2_spec (side w)) as HD. rewrite quot2 in Hk by lia.
  destruct Hk as [Hk|Hk].
  - apply in_flat_map in Hk. destruct Hk as (it & Hit & Hk). apply in_flat_map in Hk. destruct Hk as (d & Hd & Hk).
    pose proof (candidates_pos w it d Hit Hd).
    unfold fold_breakpoint in Hk. rewrite quot2 in Hk by lia.
    destruct (Z.ltb_spec (side w) d); [destruct Hk|].
    destruct (Z.eqb_spec d (side w)); [destruct Hk|].
    destruct (Z.leb_spec d (side w / 2)); destruct Hk as [<-|[]]; lia.
  - destruct (Z.ltb_spec 0 (side w / 2)); [|destruct Hk]. destruct Hk as [<-|[]]. lia.
Qed.

Section OneAxis.

Variable w : bool.
Variable k : Z.
Let C := side w.
Hypothesis Hk : 1 <= k.
Hypothesis Hk2 : 2 * k <= C.

Definition rcand (j : nat) : list Z := candidates w (item j).
Definition rplen (j : nat) : option Z :=
  let m := medium_pool_length (ri_oriented (item j)) (own w (item j)) (other w (item j)) k (C / 2) in
  if 0 <=? m then Some m else None.

Lemma rplen_spec : forall j, match rplen j with
  | Some m => k <= m /\ forall d, In d (rcand j) -> k <= d -> 2 * d <= C -> m <= d
  | None => forall d, In d (rcand j) -> k <= d -> 2 * d <= C -> False
  end.
Proof.
  intro j. unfold rplen, rcand, medium_pool_length, candidates. pose proof (div2_spec C) as HD.
  assert (Hown : (own w (item j) = ri_x (item j) /\ other w (item j) = ri_y (item j))
    \/ (own w (item j) = ri_y (item j) /\ other w (item j) = ri_x (item j))) by (destruct w; auto).
  destruct (ri_oriented (item j)).
  - destruct (Z.leb_spec k (own w (item j))), (Z.leb_spec (own w (item j)) (C / 2)); cbn [andb];
      try (destruct (Z.leb_spec 0 (own w (item j))); [|lia]); try (change (0 <=? -1) with false; cbv iota);
      try (split; [assumption|]); intros d [<-|[]]; lia.
  - destruct (Z.leb_spec k (Z.min (own w (item j)) (other w (item j)))),
      (Z.leb_spec (Z.min (own w (item j)) (other w (item j))) (C / 2)); cbn [andb];
      try (destruct (Z.leb_spec 0 (Z.min (own w (item j)) (other w (item j)))); [|lia];
           split; [assumption|]; intros d [<-|[<-|[]]]; lia);
    destruct (Z.leb_spec k (Z.max (own w (item j)) (other w (item j)))),
      (Z.leb_spec (Z.max (own w (item j)) (other w (item j))) (C / 2)); cbn [andb];
      try (destruct (Z.leb_spec 0 (Z.max (own w (item j)) (other w (item j)))); [|lia]);
      try (change (0 <=? -1) with false; cbv iota);
      try (split; [assumption|]); intros d [<-|[<-|[]]]; lia.
Qed.

Definition rp : list (Z * Z) := rpool its w C k.

Lemma rp_eq : rp = sort_pairs (axis_entries n cop rplen).
Proof.
  unfold rp, rpool, axis_entries. f_equal.
  rewrite (flat_map_seq_nth _ _ _ dummy_ritem). apply flat_map_ext. intro j.
  fold (item j). fold (cop j). pose proof (side_pos w). rewrite quot2 by (unfold C; lia). unfold rplen.
  destruct (0 <=? medium_pool_length (ri_oriented (item j)) (own w (item j)) (other w (item j)) k (C / 2)); reflexivity.
Qed.

Lemma rp_pos : pos_pool rp.
Proof. apply (axis_pool_pos C n rcand cop k rplen Hk rcop_nonneg rplen_spec rp rp_eq). Qed.
Lemma rp_sorted : StronglySorted fst_le rp.
Proof. apply (axis_pool_sorted n cop rplen rp rp_eq). Qed.

Lemma rp_entries : forall p, In p rp -> 1 <= snd p /\ 2 * fst p <= C.
Proof.
  intros p Hp. rewrite rp_eq in Hp. apply (Permutation_in p (sort_pairs_perm _)) in Hp.
  unfold axis_entries in Hp. apply in_flat_map in Hp. destruct Hp as (j & Hj & Hp). apply in_seq in Hj.
  pose proof (item_range j ltac:(lia)) as Hit. destruct (Hits _ Hit) as (_ & _ & Hc).
  pose proof (div2_spec C) as HD. unfold rplen in Hp.
  destruct (Z.leb_spec 0 (medium_pool_length (ri_oriented (item j)) (own w (item j)) (other w (item j)) k (C / 2))) as [Hm|Hm];
    [|destruct Hp].
  destruct Hp as [<-|[]]. cbn [fst snd]. split; [assumption|]. revert Hm. unfold medium_pool_length.
  destruct (ri_oriented (item j)).
  - destruct (Z.leb_spec k (own w (item j))), (Z.leb_spec (own w (item j)) (C / 2)); cbn [andb]; lia.
  - cbv zeta. destruct (Z.leb_spec k (Z.min (own w (item j)) (other w (item j)))),
      (Z.leb_spec (Z.min (own w (item j)) (other w (item j))) (C / 2)); cbn [andb]; try lia;
    destruct (Z.leb_spec k (Z.max (own w (item j)) (other w (item j)))),
      (Z.leb_spec (Z.max (own w (item j)) (other w (item j))) (C / 2)); cbn [andb]; lia.
Qed.

(** With an empty pool, no candidate is a medium one. *)
Lemma rp_empty : rp = [] -> forall j d, (j < n)%nat -> In d (rcand j) -> k <= d -> C / 2 < d.
Proof.
  intros E j d Hj Hd Hkd. pose proof (div2_spec C) as HD. destruct (Z.lt_ge_cases (C / 2) d) as [|Hge]; [assumption|exfalso].
  pose proof (rplen_spec j) as HP. destruct (rplen j) as [m|] eqn:Em; [|apply (HP d); try assumption; lia].
  assert (In (m, cop j) rp).
  { rewrite rp_eq. apply (Permutation_in _ (Permutation_sym (sort_pairs_perm _))).
    unfold axis_entries. apply in_flat_map. exists j. split; [apply in_seq; lia|]. rewrite Em. left. reflexivity. }
  rewrite E in H. destruct H.
Qed.

Lemma rbig_in : forall j d, (j < n)%nat -> In d (rcand j) -> C / 2 < d -> In d (rbig_values its w C).
Proof.
  intros j d Hj Hd Hb. unfold rbig_values. rewrite sort_unique_in. apply in_flat_map.
  exists (item j). split; [apply item_range; assumption|]. pose proof (side_pos w).
  rewrite quot2 by (unfold C; lia). unfold rcand, candidates in Hd.
  apply in_or_app. destruct (ri_oriented (item j)) eqn:Eo.
  - destruct Hd as [<-|[]]. left. destruct (Z.ltb_spec (C / 2) (own w (item j))); [left; reflexivity|lia].
  - assert (Hd' : d = own w (item j) \/ d = other w (item j)).
    { destruct Hd as [<-|[<-|[]]]; destruct w; auto. }
    destruct Hd' as [->| ->].
    + left. destruct (Z.ltb_spec (C / 2) (own w (item j))); [left; reflexivity|lia].
    + right. simpl. destruct (Z.ltb_spec (C / 2) (other w (item j))); [left; reflexivity|lia].
Qed.

Definition rexcl : list (Z * Z) := excl_of C rp (rbig_values its w C).

Lemma rtable_some : rtable its w C k = Some (gr C rp, rexcl).
Proof.
  unfold rtable. fold rp. rewrite greedy_some by apply rp_pos. cbn [bind].
  rewrite (mapo_map _ _ _ (fun b => (b, gr (C - b) rp))).
  2:{ intros b _. rewrite greedy_some by apply rp_pos. reflexivity. }
  reflexivity.
Qed.

Lemma reval_some : forall fam j d, (j < n)%nat -> In d (rcand j) ->
  exists c, eval_axis fam C k (gr C rp) rexcl d = Some c
    /\ 0 <= c <= 2 * (C + d) /\ (d <= C -> c = FF C k rp fam d)
    /\ (FF_bin C k rp fam = 0 -> c = 0).
Proof.
  intros fam j d Hj Hd.
  assert (Hd0 : 0 < d) by (apply (candidates_pos w (item j) d (item_range j Hj) Hd)).
  destruct (eval_axis_some C k (side_pos w) Hk Hk2 rp rp_pos rp_sorted (rbig_values its w C) fam d Hd0) as (c & E & H1 & H2 & H3).
  { intro Hb. apply (rbig_in j); assumption. }
  exists c. split; [exact E|]. split; [assumption|]. split; [assumption|].
  intro Hz. destruct (bin_value_zero C k (side_pos w) Hk Hk2 rp rp_pos rp_sorted fam rp_entries Hz) as [-> Ep].
  apply H3; [reflexivity|assumption|]. intro. apply (rp_empty Ep j d); assumption.
Qed.

End OneAxis.

(** A combination is a pair of breakpoints and a pair of families. *)
Record rcombo_ok (k l : Z) (fw fh : nat) (fc : Z * list Z) : Prop := {
  rc_k : 1 <= k /\ 2 * k <= rb_x bt;
  rc_l : 1 <= l /\ 2 * l <= rb_y bt;
  rc_bin : fst fc = FF_bin (rb_x bt) k (rp true k) fw * FF_bin (rb_y bt) l (rp false l) fh;
  rc_length : length (snd fc) = n;
  rc_coef : forall j rot, (j < n)%nat -> (rot = true -> ri_oriented (item j) = false) ->
    ri_width (item j) rot <= rb_x bt -> ri_height (item j) rot <= rb_y bt ->
    nth j (snd fc) 0 <= FF (rb_x bt) k (rp true k) fw (ri_width (item j) rot)
                        * FF (rb_y bt) l (rp false l) fh (ri_height (item j) rot);
  rc_range : forall j, (j < n)%nat ->
    0 <= nth j (snd fc) 0 <= 4 * (rb_x bt + ri_x (item j)) * (rb_y bt + ri_y (item j));
  rc_small : forall j, (j < n)%nat -> ri_x (item j) <= rb_x bt -> ri_y (item j) <= rb_y bt ->
    nth j (snd fc) 0 <= fst fc;
  rc_zero : fst fc = 0 -> forall j, (j < n)%nat -> nth j (snd fc) 0 = 0
}.

Lemma FF_le_bin : forall w k fam j d, 1 <= k -> 2 * k <= side w -> (j < n)%nat -> In d (rcand w j) -> d <= side w ->
  FF (side w) k (rp w k) fam d <= FF_bin (side w) k (rp w k) fam.
Proof.
  intros w k fam j d Hk Hk2 Hj Hd Hle.
  pose proof (axis_chain (side w) n (rcand w) cop k (rplen w k) (side_pos w) Hk Hk2 rcop_nonneg (rplen_spec w k Hk Hk2)
    (rp w k) (rp_eq w k) fam [(j, d)]) as HA.
  rewrite zsum_cons, zsum_nil in HA. cbn [fst snd] in HA. rewrite Z.add_0_r in HA. apply HA. constructor.
  - intros p [<-|[]]. cbn [fst snd]. split; [assumption|]. split; [assumption|].
    apply (candidates_pos w (item j) d (item_range j Hj) Hd).
  - intros j' Hj'. unfold occurrences. simpl. pose proof (item_range j' Hj') as Hi. destruct (Hits _ Hi) as (_ & _ & Hc).
    unfold cop. destruct (Nat.eqb j j'); simpl; lia.
  - rewrite zsum_cons, zsum_nil. simpl. lia.
Qed.

Lemma cand_own : forall w j, In (own w (item j)) (rcand w j).
Proof. intros w j. unfold rcand, candidates. destruct (ri_oriented (item j)); [left; reflexivity|]. destruct w; simpl; auto. Qed.
Lemma cand_other : forall w j, ri_oriented (item j) = false -> In (other w (item j)) (rcand w j).
Proof. intros w j H. unfold rcand, candidates. rewrite H. destruct w; simpl; auto. Qed.

Lemma rcombo_some : forall k l f, 1 <= k -> 2 * k <= rb_x bt -> 1 <= l -> 2 * l <= rb_y bt ->
  exists fc, rcombo its bt k l (gr (rb_x bt) (rp true k), rexcl true k) (gr (rb_y bt) (rp false l), rexcl false l) f = Some fc
    /\ rcombo_ok k l (fst f) (snd f) fc.
Proof.
  intros k l [fw fh] Hk Hk2 Hl Hl2. unfold rcombo. cbn [fst snd].
  rewrite (bin_value_some (rb_x bt) k (side_pos true) Hk Hk2 (rp true k) (rp_pos true k Hk Hk2)). cbn [bind].
  rewrite (bin_value_some (rb_y bt) l (side_pos false) Hl Hl2 (rp false l) (rp_pos false l Hl Hl2)). cbn [bind].
  set (FW := FF_bin (rb_x bt) k (rp true k) fw). set (FH := FF_bin (rb_y bt) l (rp false l) fh).
  assert (NW : 0 <= FW).
  { apply (FF_bin_nonneg (rb_x bt) n (rcand true) cop k (rplen true k)); try assumption; try lia; try apply rp_eq; try apply rcop_nonneg; apply rplen_spec; assumption. }
  assert (NH : 0 <= FH).
  { apply (FF_bin_nonneg (rb_y bt) n (rcand false) cop l (rplen false l)); try assumption; try lia; try apply rp_eq; try apply rcop_nonneg; apply rplen_spec; assumption. }
  set (P := fun (it : RItem) (c : Z) => forall j, (j < n)%nat -> item j = it ->
    (forall rot, (rot = true -> ri_oriented it = false) ->
      ri_width it rot <= rb_x bt -> ri_height it rot <= rb_y bt ->
      c <= FF (rb_x bt) k (rp true k) fw (ri_width it rot) * FF (rb_y bt) l (rp false l) fh (ri_height it rot))
    /\ (0 <= c <= 4 * (rb_x bt + ri_x it) * (rb_y bt + ri_y it))
    /\ (ri_x it <= rb_x bt -> ri_y it <= rb_y bt -> c <= FW * FH)
    /\ (FW * FH = 0 -> c = 0)).
  destruct (mapo_some _ _ (ritem_coefficient
      (eval_axis fw (rb_x bt) k (gr (rb_x bt) (rp true k)) (rexcl true k))
      (eval_axis fh (rb_y bt) l (gr (rb_y bt) (rp false l)) (rexcl false l))) P its) as (cs & E & Hcs).
  { intros it Hit. destruct (In_nth _ _ dummy_ritem Hit) as (j & Hj & Ej). fold (item j) in Ej.
    destruct (reval_some true k Hk Hk2 fw j (ri_x it) Hj) as (a1 & A1 & A2 & A3 & A4); [rewrite <- Ej; apply (cand_own true)|].
    destruct (reval_some false l Hl Hl2 fh j (ri_y it) Hj) as (a2 & B1 & B2 & B3 & B4); [rewrite <- Ej; apply (cand_own false)|].
    unfold side, bin_side in A1, A2, A3, A4, B1, B2, B3, B4.
    destruct (Hits it Hit) as (X1 & X2 & X3).
    assert (Z0 : FW * FH = 0 -> a1 * a2 = 0).
    { intro HZ. destruct (Z.eq_mul_0 FW FH) as [HE _]. destruct (HE HZ) as [HF|HF]; [rewrite A4 by exact HF|rewrite B4 by exact HF]; lia. }
    assert (R0 : 0 <= a1 * a2 <= 4 * (rb_x bt + ri_x it) * (rb_y bt + ri_y it)).
    { split; [apply Z.mul_nonneg_nonneg; lia|].
      transitivity (2 * (rb_x bt + ri_x it) * (2 * (rb_y bt + ri_y it))); [apply Z.mul_le_mono_nonneg; lia|lia]. }
    assert (S0 : ri_x it <= rb_x bt -> ri_y it <= rb_y bt -> a1 * a2 <= FW * FH).
    { intros L1 L2. pose proof (FF_le_bin true k fw j (ri_x it) Hk Hk2 Hj ltac:(rewrite <- Ej; apply (cand_own true)) L1) as G1.
      pose proof (FF_le_bin false l fh j (ri_y it) Hl Hl2 Hj ltac:(rewrite <- Ej; apply (cand_own false)) L2) as G2.
      unfold side, bin_side in G1, G2. specialize (A3 L1). specialize (B3 L2).
      rewrite A3, B3 in *. apply Z.mul_le_mono_nonneg; [apply A2|exact G1|apply B2|exact G2]. }
    unfold ritem_coefficient. rewrite A1, B1. cbn [bind]. destruct (ri_oriented it) eqn:Eo.
    - exists (a1 * a2). split; [reflexivity|]. intros j' _ _. split; [|split; [assumption|split; assumption]].
      intros rot Hrot HW HH. destruct rot; [rewrite Eo in Hrot; specialize (Hrot eq_refl); discriminate|].
      unfold ri_width, ri_height in *. rewrite A3, B3 by assumption. lia.
    - destruct (reval_some true k Hk Hk2 fw j (ri_y it) Hj) as (b1 & C1 & C2 & C3 & C4);
        [rewrite <- Ej; apply (cand_other true); rewrite Ej; assumption|].
      destruct (reval_some false l Hl Hl2 fh j (ri_x it) Hj) as (b2 & D1 & D2 & D3 & D4);
        [rewrite <- Ej; apply (cand_other false); rewrite Ej; assumption|].
      unfold side, bin_side in C1, C2, C3, C4, D1, D2, D3, D4. rewrite C1, D1. cbn [bind].
      exists (Z.min (a1 * a2) (b1 * b2)). split; [reflexivity|]. intros j' _ _.
      assert (N1 : 0 <= b1 * b2) by (apply Z.mul_nonneg_nonneg; lia).
      split; [|split; [|split]].
      + intros rot Hrot HW HH. destruct rot; unfold ri_width, ri_height in *.
        * etransitivity; [apply Z.le_min_r|]. rewrite C3, D3 by assumption. lia.
        * etransitivity; [apply Z.le_min_l|]. rewrite A3, B3 by assumption. lia.
      + lia.
      + intros L1 L2. specialize (S0 L1 L2). lia.
      + intro HZ. specialize (Z0 HZ). lia. }
  rewrite E. cbn [bind]. eexists. split; [reflexivity|].
  assert (HN : forall j, (j < n)%nat -> P (item j) (nth j cs 0)).
  { intros j Hj. apply (forall2_nth _ _ _ _ _ dummy_ritem 0 j Hcs Hj). }
  constructor; cbn [fst snd]; try (split; assumption).
  - symmetry. apply (forall2_length _ _ _ _ _ Hcs).
  - intros j rot Hj. destruct (HN j Hj j Hj eq_refl) as (H1 & _). apply H1.
  - intros j Hj. destruct (HN j Hj j Hj eq_refl) as (_ & H1 & _). exact H1.
  - intros j Hj. destruct (HN j Hj j Hj eq_refl) as (_ & _ & H1 & _). exact H1.
  - intros HZ j Hj. destruct (HN j Hj j Hj eq_refl) as (_ & _ & _ & H1). apply H1. exact HZ.
Qed.

Definition any_rcombo (fc : Z * list Z) : Prop := exists k l fw fh, rcombo_ok k l fw fh fc.

Lemma forall2_concat : forall A B (P : B -> Prop) (l : list A) (r : list (list B)),
  Forall2 (fun _ y => Forall P y) l r -> Forall P (concat r).
Proof.
  intros A B P l r H. induction H as [|x y l r Hy H IH]; simpl; [constructor|]. apply Forall_app. auto.
Qed.
Lemma forall2_right : forall A B (P : B -> Prop) (l : list A) (r : list B),
  Forall2 (fun _ y => P y) l r -> Forall P r.
Proof. intros A B P l r H. induction H; constructor; assumption. Qed.

Lemma rcombos_some : exists combos, rcombos its bt = Some combos /\ Forall any_rcombo combos.
Proof.
  unfold rcombos.
  destruct (mapo_some _ _ (fun k =>
      let* tw := rtable its true (rb_x bt) k in
      let* cells := mapo (fun l =>
          let* th := rtable its false (rb_y bt) l in
          mapo (rcombo its bt k l tw th) family_pairs)
        (rbreakpoints its false (rb_y bt)) in
      Some (concat cells)) (fun _ r => Forall any_rcombo r) (rbreakpoints its true (rb_x bt))) as (rows & E & Hr).
  { intros k Hin. destruct (rbreakpoint_range true k Hin) as [Hk Hk2].
    change (rb_x bt) with (side true) at 1. rewrite (rtable_some true k Hk Hk2). cbn [bind]. unfold side, bin_side.
    destruct (mapo_some _ _ (fun l =>
          let* th := rtable its false (rb_y bt) l in
          mapo (rcombo its bt k l (gr (rb_x bt) (rp true k), rexcl true k) th) family_pairs)
        (fun _ r => Forall any_rcombo r) (rbreakpoints its false (rb_y bt))) as (cells & E & Hc).
    { intros l Hinl. destruct (rbreakpoint_range false l Hinl) as [Hl Hl2].
      change (rb_y bt) with (side false) at 1. rewrite (rtable_some false l Hl Hl2). cbn [bind]. unfold side, bin_side.
      destruct (mapo_some _ _ (rcombo its bt k l (gr (rb_x bt) (rp true k), rexcl true k) (gr (rb_y bt) (rp false l), rexcl false l))
        (fun _ fc => any_rcombo fc) family_pairs) as (r & E & Hr).
      { intros f _. destruct (rcombo_some k l f Hk Hk2 Hl Hl2) as (fc & E & Hfc). exists fc. split; [assumption|].
        exists k, l, (fst f), (snd f). assumption. }
      exists r. split; [assumption|]. apply (forall2_right _ _ _ _ _ Hr). }
    rewrite E. cbn [bind]. eexists. split; [reflexivity|]. apply (forall2_concat _ _ _ _ _ Hc). }
  rewrite E. cbn [bind]. eexists. split; [reflexivity|]. apply (forall2_concat _ _ _ _ _ Hr).
Qed.

End Combos.

(** ** A bin *)

Section OneBin.

Variable i : RInstance.
Variable bt : RBin.
Hypothesis Hits : positive_items i.
Hypothesis Hbt : 1 <= rb_x bt /\ 1 <= rb_y bt.

Let its := rin_items i.
Let n := length its.
Let item (j : nat) : RItem := nth j its dummy_ritem.
Let cop (j : nat) : Z := ri_copies (item j).

Lemma disjoint_geometry : forall ps, geometry_ok i bt ps ->
  forall p, In p ps -> pl_w i p <= rb_x bt /\ pl_h i p <= rb_y bt /\ 0 < pl_w i p /\ 0 < pl_h i p.
Proof.
  intros ps [Hp _ _] p Hin. destruct (Hp p Hin) as [T X Y R]. unfold pl_xe, pl_ye in *.
  destruct (Hits (ritem i (pl_type p))) as (H1 & H2 & _); [apply nth_In; assumption|].
  unfold pl_w, pl_h in *. destruct (pl_rot p); lia.
Qed.

Lemma rbin_combo : forall fc ps, any_rcombo its bt fc -> geometry_ok i bt ps ->
  (forall x, (x < n)%nat -> rcount x ps <= cop x) ->
  zsum (fun p => nth (pl_type p) (snd fc) 0) ps <= fst fc.
Proof.
  intros fc ps (k & l & fw & fh & [K L EB EL EC ER ES EZ]) Hg Hcount.
  pose proof (disjoint_geometry ps Hg) as Hdim. destruct Hg as [Hp Hd _].
  set (gw := mkGA Place pl_x (pl_w i) (rb_x bt) k (rcand its true) (rplen its bt true k) fw).
  set (gh := mkGA Place pl_y (pl_h i) (rb_y bt) l (rcand its false) (rplen its bt false l) fh).
  pose proof (packed_product Place pl_type n cop (rcop_nonneg its Hits) [gw; gh]) as HP.
  rewrite EB. etransitivity; [|etransitivity; [apply HP|]].
  - apply zsum_le. intros p Hin. cbn [map prod fold_right]. unfold g_value, ga_pool, gw, gh. cbn.
    rewrite Z.mul_1_r. fold n. fold its. fold (item). fold cop.
    destruct (Hp p Hin) as [T X Y R]. destruct (Hdim p Hin) as (D1 & D2 & _ & _).
    pose proof (EC (pl_type p) (pl_rot p) T R) as HE.
    change (ri_width (nth (pl_type p) its dummy_ritem) (pl_rot p)) with (pl_w i p) in HE.
    change (ri_height (nth (pl_type p) its dummy_ritem) (pl_rot p)) with (pl_h i p) in HE.
    specialize (HE D1 D2). rewrite (rp_eq its bt Hbt), (rp_eq its bt Hbt) in HE. exact HE.
  - intros g [<-|[<-|[]]]; constructor; unfold gw, gh; cbn; try (apply K || apply L || apply Hbt).
    + apply (rplen_spec its bt true k); apply K.
    + apply (rplen_spec its bt false l); apply L.
  - intros p Hin. destruct (Hp p Hin). assumption.
  - intros j Hj. apply (Hcount j Hj).
  - intros g p Hg Hin. destruct (Hp p Hin) as [T X Y R]. destruct (Hdim p Hin) as (D1 & D2 & D3 & D4).
    unfold pl_xe, pl_ye in *.
    destruct Hg as [<-|[<-|[]]]; unfold gw, gh; cbn; (split; [|repeat split; lia]);
      unfold rcand, candidates, pl_w, pl_h; fold its; fold (item (pl_type p));
      unfold ritem in R; fold its in R; fold (item (pl_type p)) in R; unfold ritem; fold its; fold (item (pl_type p));
      destruct (pl_rot p); try rewrite (R eq_refl); try (simpl; tauto); destruct (ri_oriented (item (pl_type p))); simpl; tauto.
  - eapply ord_pairs_impl; [|exact Hd]. intros p q Hpq. unfold disjoint, pl_xe, pl_ye in Hpq.
    destruct Hpq as [H|[H|[H|H]]].
    + exists gw. split; [left; reflexivity|]. left. exact H.
    + exists gw. split; [left; reflexivity|]. right. exact H.
    + exists gh. split; [right; left; reflexivity|]. left. exact H.
    + exists gh. split; [right; left; reflexivity|]. right. exact H.
  - cbn [map prod fold_right]. unfold g_bin, ga_pool, gw, gh. cbn.
    rewrite (rp_eq its bt Hbt), (rp_eq its bt Hbt). rewrite Z.mul_1_r. apply Z.le_refl.
Qed.

End OneBin.

(** ** A packing *)

Lemma rcount_nonneg : forall x ps, 0 <= rcount x ps.
Proof. intros. unfold rcount. lia. Qed.

Lemma rpacked_nonneg : forall x ds, (forall d, In d ds -> 0 <= rd_copies d) -> 0 <= rpacked x ds.
Proof. intros x ds H. apply zsum_nonneg. intros d Hd. specialize (H d Hd). pose proof (rcount_nonneg x (rd_items d)). nia. Qed.

Lemma rpacked_in : forall ds d x, (forall d, In d ds -> 0 <= rd_copies d) -> In d ds ->
  rd_copies d * rcount x (rd_items d) <= rpacked x ds.
Proof.
  intros ds d x Hc Hd. unfold rpacked. destruct (in_split_perm _ d ds Hd) as (ds' & HP).
  rewrite (zsum_perm _ _ _ _ HP), zsum_cons.
  assert (0 <= zsum (fun d0 => rd_copies d0 * rcount x (rd_items d0)) ds'); [|lia].
  apply zsum_nonneg. intros e He. assert (In e ds) by (apply (Permutation_in e (Permutation_sym HP)); right; assumption).
  specialize (Hc e H). pose proof (rcount_nonneg x (rd_items e)). nia.
Qed.

Lemma rpacked_sum : forall n ds (c : nat -> Z),
  (forall d, In d ds -> forall p, In p (rd_items d) -> (pl_type p < n)%nat) ->
  zsum (fun j => rpacked j ds * c j) (seq 0 n) = zsum (fun d => rd_copies d * zsum (fun p => c (pl_type p)) (rd_items d)) ds.
Proof.
  intros n ds c. unfold rpacked. induction ds as [|d l IH]; intro H.
  - apply zsum_zero. intros j _. reflexivity.
  - rewrite zsum_cons, <- IH by (intros; eauto using in_cons).
    rewrite <- (zsum_group _ pl_type (fun p => c (pl_type p)) n (rd_items d) (H d (or_introl eq_refl))), <- zsum_mult, <- zsum_plus.
    apply zsum_ext. intros j _. rewrite zsum_cons.
    assert (E : zsum (fun p => c (pl_type p)) (filter (fun p => Nat.eqb (pl_type p) j) (rd_items d)) = rcount j (rd_items d) * c j).
    { unfold rcount. clear. induction (rd_items d) as [|p l IH]; [reflexivity|]. cbn [filter].
      destruct (Nat.eqb_spec (pl_type p) j); [|assumption]. rewrite zsum_cons, IH. cbn [length]. subst. lia. }
    rewrite E. lia.
Qed.

Lemma rqpacked_sum : forall n ds (c : nat -> Q),
  (forall d, In d ds -> forall p, In p (rd_items d) -> (pl_type p < n)%nat) ->
  (qsum (fun j => inject_Z (rpacked j ds) * c j) (seq 0 n)
   == qsum (fun d => inject_Z (rd_copies d) * qsum (fun p => c (pl_type p)) (rd_items d)) ds)%Q.
Proof.
  intros n ds c. unfold rpacked. induction ds as [|d l IH]; intro H.
  - apply qsum_zero. intros j _. simpl. ring.
  - rewrite qsum_cons, <- IH by (intros; eauto using in_cons).
    rewrite <- (qsum_group _ pl_type (fun p => c (pl_type p)) n (rd_items d) (H d (or_introl eq_refl))), <- qsum_scale, <- qsum_plus.
    apply qsum_ext. intros j _. rewrite zsum_cons.
    assert (E : (qsum (fun p => c (pl_type p)) (filter (fun p => Nat.eqb (pl_type p) j) (rd_items d)) == inject_Z (rcount j (rd_items d)) * c j)%Q).
    { unfold rcount. clear. induction (rd_items d) as [|p l IH]; [simpl; ring|]. cbn [filter].
      destruct (Nat.eqb_spec (pl_type p) j); [|assumption]. rewrite qsum_cons, IH. cbn [length]. subst.
      rewrite Nat2Z.inj_succ, <- Z.add_1_l, inject_Z_plus. ring. }
    rewrite E, inject_Z_plus, inject_Z_mult. ring.
Qed.

Section Packing.

Variable i : RInstance.
Hypothesis Hits : positive_items i.
Hypothesis Hone : length (rin_bins i) = 1%nat.
Hypothesis Hbins : positive_bins i.

Let n := length (rin_items i).
Let bt := rbin i 0.

Lemma one_bt : 1 <= rb_x bt /\ 1 <= rb_y bt.
Proof. apply Hbins. apply nth_In. lia. Qed.

Variable ds : list RDesc.
Hypothesis Hds : packing_ok i ds.

Lemma ds_bin : forall d, In d ds -> rd_type d = 0%nat /\ 1 <= rd_copies d /\ geometry_ok i bt (rd_items d).
Proof.
  intros d Hd. destruct (pa_bins i ds Hds d Hd) as (H1 & H2 & H3).
  assert (E : rd_type d = 0%nat) by lia. rewrite E in H3. auto.
Qed.

Lemma ds_type : forall d, In d ds -> forall p, In p (rd_items d) -> (pl_type p < n)%nat.
Proof. intros d Hd p Hp. destruct (ds_bin d Hd) as (_ & _ & G). apply (pk_type _ _ _ (ge_places _ _ _ G p Hp)). Qed.

Lemma ds_count : forall d x, In d ds -> (x < n)%nat -> rcount x (rd_items d) <= ri_copies (ritem i x).
Proof.
  intros d x Hd Hx. pose proof (pa_copies i ds Hds x Hx).
  pose proof (rpacked_in ds d x (fun e He => Z.le_trans _ _ _ Z.le_0_1 (proj1 (proj2 (ds_bin e He)))) Hd).
  destruct (ds_bin d Hd) as (_ & Hc & _). pose proof (rcount_nonneg x (rd_items d)). nia.
Qed.

Lemma rcombo_packed : forall fc, any_rcombo (rin_items i) bt fc ->
  zsum (fun j => rpacked j ds * nth j (snd fc) 0) (seq 0 n) <= rbins_used ds * fst fc.
Proof.
  intros fc Hfc. rewrite (rpacked_sum n ds _ ds_type). unfold rbins_used. rewrite Z.mul_comm, <- zsum_mult.
  apply zsum_le. intros d Hd. destruct (ds_bin d Hd) as (_ & Hc & G).
  pose proof (rbin_combo i bt Hits one_bt fc (rd_items d) Hfc G (fun x Hx => ds_count d x Hd Hx)). nia.
Qed.

End Packing.
