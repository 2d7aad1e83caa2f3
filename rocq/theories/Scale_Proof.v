(** * Proofs about conservative scales *)

From Coq Require Import List ZArith QArith Qround Bool Lia Lqa Permutation.
From Verif Require Import Util Common_Model OneDim_Model Dff_Proof Geom Rect_Model Rect_Spec RectDff_Proof RectDff_Props ColGen_Model ColGenCap_Proof ColGenPrice_Proof Scale_Model Scale_Spec.
Import ListNotations.
Open Scope Z_scope.

(** ** The scales *)

Lemma on_eligible_nth : forall i dims cap f x, (x < length (rin_items i))%nat ->
  nth x (on_eligible i dims cap f) 0%Q = if nth x dims 0 <=? cap then f x else 0%Q.
Proof.
  intros i dims cap f x Hx. unfold on_eligible, snum, sdim. set (F := fun x => if nth x dims 0 <=? cap then f x else 0%Q).
  rewrite (nth_indep _ 0%Q (F O)) by (rewrite map_length, seq_length; exact Hx). rewrite (map_nth F), seq_nth by exact Hx. reflexivity.
Qed.

Lemma zsum_mem : forall A (f : A -> Z) l x, (forall y, In y l -> 0 <= f y) -> In x l -> f x <= zsum f l.
Proof.
  intros A f. induction l as [|a l IH]; intros x H Hx; [destruct Hx|]. rewrite zsum_cons. pose proof (zsum_nonneg _ f l (fun y Hy => H y (or_intror Hy))).
  pose proof (H a (or_introl eq_refl)). destruct Hx as [<-|Hx]; [lia|]. specialize (IH x (fun y Hy => H y (or_intror Hy)) Hx). lia.
Qed.

Section Scale.
Variables (i : RInstance) (dims : list Z) (cap : Z).
Hypothesis Hdims : forall x, (x < length (rin_items i))%nat -> 0 < nth x dims 0.
Hypothesis Hcopies : forall x, (x < length (rin_items i))%nat -> 0 <= ri_copies (ritem i x).
Hypothesis Hcap : 0 <= cap.

Lemma eligible_in : forall s x, (forall y, In y s -> (y < length (rin_items i))%nat) -> zsum (fun y => nth y dims 0) s <= cap -> In x s -> nth x dims 0 <= cap.
Proof.
  intros s x Hs Hle Hx. pose proof (zsum_mem _ (fun y => nth y dims 0) s x (fun y Hy => Z.lt_le_incl _ _ (Hdims y (Hs y Hy))) Hx) as L. cbv beta in L. lia.
Qed.

(** The original lengths are conservative. *)
Lemma original_conservative : conservative i dims cap 0 (on_eligible i dims cap (fun x => inject_Z (nth x dims 0))).
Proof.
  intros s Hs Hc Hle. apply Qle_trans with (inject_Z (zsum (fun x => nth x dims 0) s)).
  - rewrite <- qsum_inject. apply qsum_le. intros x Hx. rewrite on_eligible_nth by (apply Hs; exact Hx).
    rewrite (proj2 (Z.leb_le _ _) (eligible_in s x Hs Hle Hx)). apply Qle_refl.
  - rewrite Qplus_0_r, <- Zle_Qle. exact Hle.
Qed.

Lemma kp_ids : forall sol, map ki_id (kp_items i dims cap sol) = filter (fun x => negb (Qle_bool (nth x sol 0%Q) 0)) (eligible_ids i dims cap).
Proof. intro sol. unfold kp_items. rewrite map_map. cbn [ki_id]. apply List.map_id. Qed.

Lemma eligible_nodup : NoDup (eligible_ids i dims cap).
Proof. apply NoDup_filter, seq_NoDup. Qed.

Lemma kp_nodup : forall sol, NoDup (map ki_id (kp_items i dims cap sol)).
Proof. intro sol. rewrite kp_ids. apply NoDup_filter, eligible_nodup. Qed.

Lemma kp_ok : forall sol k, In k (kp_items i dims cap sol) -> 0 < ki_len k /\ 0 <= ki_copies k.
Proof.
  intros sol k Hk. apply in_map_iff in Hk. destruct Hk as (x & <- & Hx). apply filter_In in Hx. destruct Hx as [Hx _]. apply filter_In in Hx. destruct Hx as [Hx _]. apply in_seq in Hx.
  cbn. unfold sdim. split; [apply Hdims; unfold snum in *; lia|apply Hcopies; unfold snum in *; lia].
Qed.

Lemma in_kp : forall sol x, existsb (fun k => (ki_id k =? x)%nat) (kp_items i dims cap sol) = true <-> In x (filter (fun x => negb (Qle_bool (nth x sol 0%Q) 0)) (eligible_ids i dims cap)).
Proof.
  intros sol x. rewrite <- kp_ids. rewrite existsb_exists, in_map_iff. split.
  - intros (k & Hk & E). apply Nat.eqb_eq in E. exists k. split; assumption.
  - intros (k & E & Hk). exists k. split; [exact Hk|apply Nat.eqb_eq; exact E].
Qed.

Lemma selected_nth : forall sol answer x, (x < length (rin_items i))%nat ->
  nth x (selected i dims cap sol answer) 0 = if existsb (fun k => (ki_id k =? x)%nat) (kp_items i dims cap sol) then answer x else 0.
Proof.
  intros sol answer x Hx. unfold selected, snum. set (F := fun x => if existsb (fun k => (ki_id k =? x)%nat) (kp_items i dims cap sol) then answer x else 0).
  rewrite (nth_indep _ 0 (F O)) by (rewrite map_length, seq_length; exact Hx). rewrite (map_nth F), seq_nth by exact Hx. reflexivity.
Qed.

Lemma qsum_filter : forall A (f : A -> Q) (p : A -> bool) l, (qsum f (filter p l) == qsum (fun x => if p x then f x else 0) l)%Q.
Proof. intros A f p. induction l as [|a l IH]; [reflexivity|]. cbn [filter]. rewrite qsum_cons, <- IH. destruct (p a); [rewrite qsum_cons; reflexivity|ring]. Qed.

(** The value recomputed is the value of the selection of the knapsack. *)
Lemma achieved_value : forall sol answer, (achieved i dims cap sol (selected i dims cap sol answer) == kp_value (kp_items i dims cap sol) answer)%Q.
Proof.
  intros sol answer. unfold achieved, kp_value, kp_items. rewrite qsum_map. cbn [ki_value ki_id]. rewrite qsum_filter. apply qsum_ext. intros x Hx.
  pose proof Hx as Hin. apply filter_In in Hx. destruct Hx as [Hx _]. apply in_seq in Hx. rewrite selected_nth by (unfold snum in *; lia).
  pose proof (in_kp sol x) as K. destruct (negb (Qle_bool (nth x sol 0%Q) 0)) eqn:E.
  - assert (T : existsb (fun k => (ki_id k =? x)%nat) (kp_items i dims cap sol) = true) by (apply K, filter_In; split; assumption). rewrite T. ring.
  - assert (T : existsb (fun k => (ki_id k =? x)%nat) (kp_items i dims cap sol) = false) by (apply not_true_iff_false; intro T; apply K, filter_In in T; destruct T; congruence).
    rewrite T. change (inject_Z 0) with 0%Q. ring.
Qed.

(** A set of items is a selection of the knapsack. *)
Lemma set_feasible : forall sol s, (forall x, In x s -> (x < length (rin_items i))%nat) -> (forall x, (x < length (rin_items i))%nat -> occ s x <= ri_copies (ritem i x)) ->
  zsum (fun x => nth x dims 0) s <= cap -> kp_feasible cap (kp_items i dims cap sol) (occ s).
Proof.
  intros sol s Hs Hc Hle. split.
  - intros k Hk. apply in_map_iff in Hk. destruct Hk as (x & <- & Hx). apply filter_In in Hx. destruct Hx as [Hx _]. apply filter_In in Hx. destruct Hx as [Hx _]. apply in_seq in Hx. unfold snum in Hx.
    cbn. split; [apply occ_nonneg|apply Hc; lia].
  - apply Z.le_trans with (zsum (fun x => nth x dims 0) s); [|exact Hle].
    assert (E : (inject_Z (zsum (fun x => nth x dims 0%Z) s) == inject_Z (zsum (fun x => occ s x * nth x dims 0)%Z (seq 0 (length (rin_items i)))))%Q).
    { rewrite <- !qsum_inject. rewrite (qsum_occ (length (rin_items i))) by exact Hs. apply qsum_ext. intros x _. rewrite inject_Z_mult. reflexivity. }
    assert (E' : zsum (fun x => nth x dims 0) s = zsum (fun x => occ s x * nth x dims 0) (seq 0 (length (rin_items i)))) by (unfold Qeq in E; cbn in E; lia).
    rewrite E'. unfold kp_items, eligible_ids, snum, sdim. rewrite zsum_map. cbn [ki_len ki_id].
    assert (G : forall (p : nat -> bool) (f : nat -> Z) l, (forall x, In x l -> 0 <= f x) -> zsum f (filter p l) <= zsum f l).
    { clear. intros p f. induction l as [|a l IH]; intros H; [cbn; lia|]. cbn [filter]. specialize (IH (fun x Hx => H x (or_intror Hx))). specialize (H a (or_introl eq_refl)). destruct (p a); rewrite !zsum_cons; lia. }
    assert (P : forall x, In x (seq 0 (length (rin_items i))) -> 0 <= nth x dims 0 * occ s x) by (intros x Hx; apply in_seq in Hx; pose proof (Hdims x ltac:(lia)); pose proof (occ_nonneg s x); nia).
    eapply Z.le_trans; [apply G; intros x Hx; apply filter_In in Hx; apply P, Hx|]. eapply Z.le_trans; [apply G; exact P|].
    apply Z.eq_le_incl, zsum_ext. intros x _. lia.
Qed.

(** The value of a set of items is at most its value in the knapsack. *)
Lemma set_value : forall sol s, (forall x, In x s -> (x < length (rin_items i))%nat) -> zsum (fun x => nth x dims 0) s <= cap ->
  (qsum (fun x => nth x (on_eligible i dims cap (fun x => nth x sol 0)) 0) s <= kp_value (kp_items i dims cap sol) (occ s))%Q.
Proof.
  intros sol s Hs Hle. rewrite (qsum_occ (length (rin_items i))) by exact Hs. unfold kp_value, kp_items. rewrite qsum_map. cbn [ki_value ki_id].
  unfold eligible_ids, snum, sdim. rewrite !qsum_filter. apply qsum_le. intros x Hx. apply in_seq in Hx. rewrite on_eligible_nth by lia.
  destruct (nth x dims 0 <=? cap); [|rewrite Qmult_0_r; apply Qle_refl].
  assert (N : (0 <= inject_Z (occ s x))%Q) by (change 0%Q with (inject_Z 0); rewrite <- Zle_Qle; apply occ_nonneg).
  destruct (Qle_bool (nth x sol 0%Q) 0) eqn:E; cbn [negb].
  - apply Qle_bool_iff in E. nra.
  - rewrite Qmult_comm. apply Qle_refl.
Qed.

(** Whatever the LP solver answers: the lengths returned are conservative, up to
    the tolerance. *)
Lemma scale_loop_conservative : forall o obj turns it axis turn rows, kp_exact o ->
  conservative i dims cap scale_tol (fst (scale_loop o i dims cap obj turns it axis turn rows)).
Proof.
  intros o obj. induction turns as [|turns IH]; intros it axis turn rows Hk.
  - cbn [scale_loop fst]. intros s Hs Hc Hle. pose proof (original_conservative s Hs Hc Hle) as K. unfold scale_tol, sdim in *. lra.
  - cbn [scale_loop]. set (sol := lo_lp o (it, axis, turn) obj rows). set (ks := kp_items i dims cap sol).
    set (answer := match ks with [] => fun _ => 0 | _ => lo_kp o (it, axis, turn) cap ks end).
    destruct (Qle_bool (achieved i dims cap sol (selected i dims cap sol answer)) (inject_Z cap + scale_tol)) eqn:E; [|apply IH; exact Hk].
    apply Qle_bool_iff in E. rewrite achieved_value in E. cbn [fst]. intros s Hs Hc Hle.
    eapply Qle_trans; [apply set_value; assumption|]. eapply Qle_trans; [|exact E]. fold ks.
    pose proof (set_feasible sol s Hs Hc Hle) as F. fold ks in F.
    destruct (Hk (it, axis, turn) cap ks Hcap (kp_nodup sol) (kp_ok sol)) as [_ Hopt]. specialize (Hopt (occ s) F). unfold answer.
    destruct ks; [apply Qle_refl|exact Hopt].
Qed.

Lemma scale_lp_conservative : forall o obj turns it axis, kp_exact o -> conservative i dims cap scale_tol (scale_lp o i dims cap obj turns it axis).
Proof.
  intros o obj turns it axis Hk. unfold scale_lp. destruct (eligible_ids i dims cap) as [|a l] eqn:E; [|apply scale_loop_conservative; exact Hk].
  intros s Hs Hc Hle. rewrite qsum_zero.
  - assert (0 <= inject_Z cap)%Q by (change 0%Q with (inject_Z 0); rewrite <- Zle_Qle; exact Hcap). unfold scale_tol. lra.
  - intros x _. destruct (nth_in_or_default x (repeat 0%Q (snum i)) 0%Q) as [K| ->]; [apply repeat_spec in K; rewrite K; reflexivity|reflexivity].
Qed.

Lemma scale_lp_nonneg : forall o obj turns it axis, lp_nonneg o -> nonneg_scale (scale_lp o i dims cap obj turns it axis).
Proof.
  intros o obj turns it axis Ho. unfold scale_lp. destruct (eligible_ids i dims cap) as [|a l] eqn:E.
  - intro x. destruct (nth_in_or_default x (repeat 0%Q (snum i)) 0%Q) as [K| ->]; [apply repeat_spec in K; rewrite K|]; apply Qle_refl.
  - clear E. generalize (@nil (list Z)), 0%nat. revert it axis. induction turns as [|turns IH]; intros it axis rows turn x.
    + cbn [scale_loop fst]. destruct (Nat.lt_ge_cases x (length (rin_items i))) as [L|L].
      * rewrite on_eligible_nth by exact L. unfold sdim. destruct (nth x dims 0 <=? cap); [|apply Qle_refl]. change 0%Q with (inject_Z 0). rewrite <- Zle_Qle. specialize (Hdims x L). lia.
      * rewrite nth_overflow; [apply Qle_refl|]. unfold on_eligible, snum. rewrite map_length, seq_length. exact L.
    + cbn [scale_loop]. match goal with |- context [if ?c then _ else _] => destruct c end; [|apply IH]. cbn [fst]. destruct (Nat.lt_ge_cases x (length (rin_items i))) as [L|L].
      * rewrite on_eligible_nth by exact L. destruct (nth x dims 0 <=? cap); [apply Ho|apply Qle_refl].
      * rewrite nth_overflow; [apply Qle_refl|]. unfold on_eligible, snum. rewrite map_length, seq_length. exact L.
Qed.

(** Each row is added once, if the LP solver respects the rows. *)
Lemma scale_loop_rows : forall o obj turns it axis turn rows, lp_rows o i cap -> NoDup rows ->
  NoDup (snd (scale_loop o i dims cap obj turns it axis turn rows)).
Proof.
  intros o obj. induction turns as [|turns IH]; intros it axis turn rows Ho Hn; [exact Hn|]. cbn [scale_loop]. set (sol := lo_lp o (it, axis, turn) obj rows).
  match goal with |- context [selected i dims cap sol ?a] => set (answer := a) end. set (sel := selected i dims cap sol answer).
  destruct (Qle_bool (achieved i dims cap sol sel) (inject_Z cap + scale_tol)) eqn:E; [exact Hn|]. apply IH; [exact Ho|].
  apply nodup_app_intro; [exact Hn|repeat constructor; intros []|]. intros row Hrow [Eq|[]]. subst row.
  apply not_true_iff_false in E. apply E. apply Qle_bool_iff. pose proof (Ho (it, axis, turn) obj rows sel Hrow) as R. fold sol in R.
  eapply Qle_trans; [|exact R]. unfold achieved, eligible_ids, snum. rewrite qsum_filter. apply qsum_le. intros x Hx. apply in_seq in Hx.
  destruct (sdim dims x <=? cap) eqn:El; [apply Qle_refl|]. unfold sel. rewrite selected_nth by lia.
  assert (T : existsb (fun k => (ki_id k =? x)%nat) (kp_items i dims cap sol) = false).
  { apply not_true_iff_false. intro T. apply in_kp, filter_In in T. destruct T as [T _]. apply filter_In in T. destruct T. congruence. }
  rewrite T. change (inject_Z 0) with 0%Q. rewrite Qmult_0_l. apply Qle_refl.
Qed.
End Scale.

(** ** Clearing denominators *)

Lemma common_denominator : forall (l : list Q), exists D : positive, forall q, In q l -> exists z, (q * inject_Z (Zpos D) == inject_Z z)%Q.
Proof.
  induction l as [|q l (D & HD)]; [exists 1%positive; intros q []|]. exists (Qden q * D)%positive. intros r [<-|Hr].
  - exists (Qnum q * Zpos D). destruct q as [n d]. unfold Qeq. cbn. lia.
  - destruct (HD r Hr) as (z & Hz). exists (z * Zpos (Qden q)). rewrite Pos2Z.inj_mul, !inject_Z_mult, <- Hz. ring.
Qed.

(** Total of the products of two conservative scales over a bin. *)
Lemma bin_product : forall i bt wx wy hx hy sw sh ps, positive_items i -> 0 < rb_x bt -> 0 < rb_y bt ->
  wx = map ri_x (rin_items i) -> hx = map ri_y (rin_items i) ->
  conservative i wx (rb_x bt) sw wy -> conservative i hx (rb_y bt) sh hy -> nonneg_scale wy -> nonneg_scale hy -> (0 <= sw)%Q -> (0 <= sh)%Q ->
  all_oriented i = true -> geometry_ok i bt ps -> (forall x, (x < length (rin_items i))%nat -> rcount x ps <= ri_copies (ritem i x)) ->
  (qsum (fun p => nth (pl_type p) wy 0 * nth (pl_type p) hy 0) ps <= (inject_Z (rb_x bt) + sw) * (inject_Z (rb_y bt) + sh))%Q.
Proof.
  intros i bt wx wy hx hy sw sh ps Hits HX HY -> -> Cw Ch Nw Nh Sw Sh Hor G Hc.
  destruct (common_denominator (0%Q :: (inject_Z (rb_x bt) + sw)%Q :: wy)) as (D1 & HD1). destruct (common_denominator (0%Q :: (inject_Z (rb_y bt) + sh)%Q :: hy)) as (D2 & HD2).
  assert (I1 : forall q, (exists z, (q * inject_Z (Zpos D1) == inject_Z z)%Q) -> (q * inject_Z (Zpos D1) == inject_Z (Qfloor (q * inject_Z (Zpos D1))))%Q) by (intros q (z & Hz); rewrite (Qfloor_comp _ _ Hz), Qfloor_Z; exact Hz).
  assert (I2 : forall q, (exists z, (q * inject_Z (Zpos D2) == inject_Z z)%Q) -> (q * inject_Z (Zpos D2) == inject_Z (Qfloor (q * inject_Z (Zpos D2))))%Q) by (intros q (z & Hz); rewrite (Qfloor_comp _ _ Hz), Qfloor_Z; exact Hz).
  set (fw := fun x => Qfloor (nth x wy 0%Q * inject_Z (Zpos D1))). set (fh := fun x => Qfloor (nth x hy 0%Q * inject_Z (Zpos D2))).
  set (FW := Qfloor ((inject_Z (rb_x bt) + sw) * inject_Z (Zpos D1))%Q). set (FH := Qfloor ((inject_Z (rb_y bt) + sh) * inject_Z (Zpos D2))%Q).
  assert (Efw : forall x, (nth x wy 0 * inject_Z (Zpos D1) == inject_Z (fw x))%Q).
  { intro x. apply I1, HD1. destruct (nth_in_or_default x wy 0%Q) as [K| ->]; [right; right; exact K|left; reflexivity]. }
  assert (Efh : forall x, (nth x hy 0 * inject_Z (Zpos D2) == inject_Z (fh x))%Q).
  { intro x. apply I2, HD2. destruct (nth_in_or_default x hy 0%Q) as [K| ->]; [right; right; exact K|left; reflexivity]. }
  assert (EFW : ((inject_Z (rb_x bt) + sw) * inject_Z (Zpos D1) == inject_Z FW)%Q) by (apply I1, HD1; right; left; reflexivity).
  assert (EFH : ((inject_Z (rb_y bt) + sh) * inject_Z (Zpos D2) == inject_Z FH)%Q) by (apply I2, HD2; right; left; reflexivity).
  assert (P1 : (0 < inject_Z (Zpos D1))%Q) by (unfold Qlt; cbn; lia). assert (P2 : (0 < inject_Z (Zpos D2))%Q) by (unfold Qlt; cbn; lia).
  assert (Rot : forall p, In p ps -> pl_rot p = false).
  { intros p Hp. destruct (pl_rot p) eqn:R; [|reflexivity]. pose proof (ge_places _ _ _ G p Hp) as K. pose proof (pk_rot _ _ _ K R) as K2. unfold all_oriented in Hor. rewrite forallb_forall in Hor.
    rewrite (Hor (ritem i (pl_type p))) in K2; [discriminate|]. apply nth_In. exact (pk_type _ _ _ K). }
  assert (Types : forall p, In p ps -> (pl_type p < length (rin_items i))%nat) by (intros p Hp; exact (pk_type _ _ _ (ge_places _ _ _ G p Hp))).
  pose proof (disjoint_geometry i bt Hits ps G) as HD. pose proof (geometry_nodup i bt ps Hits G) as ND.
  set (ax := mkRA Place pl_x (pl_w i) (rb_x bt) (fun p => fw (pl_type p)) FW). set (ay := mkRA Place pl_y (pl_h i) (rb_y bt) (fun p => fh (pl_type p)) FH).
  assert (Chain : forall ch, NoDup ch -> incl ch ps -> (forall x, In x (map pl_type ch) -> (x < length (rin_items i))%nat) /\ forall x, (x < length (rin_items i))%nat -> occ (map pl_type ch) x <= ri_copies (ritem i x)).
  { intros ch Hnd Hin. split; [intros x Hx; apply in_map_iff in Hx; destruct Hx as (p & <- & Hp); apply Types, Hin, Hp|].
    intros x Hx. specialize (Hc x Hx). apply Z.le_trans with (rcount x ps); [|exact Hc]. unfold rcount.
    assert (Eocc : forall l, occ (map pl_type l) x = Z.of_nat (length (filter (fun p => (pl_type p =? x)%nat) l))).
    { induction l as [|a l IH]; [reflexivity|]. cbn [map filter]. rewrite occ_cons, IH. destruct (pl_type a =? x)%nat; cbn [length]; lia. }
    rewrite Eocc. apply inj_le, NoDup_incl_length; [apply NoDup_filter; exact Hnd|]. intros p Hp. apply filter_In in Hp. apply filter_In. split; [apply Hin, Hp|apply Hp]. }
  pose proof (rescaled_bound Place [ax; ay] ps ND) as HR. cbn [map prod fold_right] in HR. unfold ax, ay in HR. cbn [ra_new ra_new_cap] in HR. rewrite Z.mul_1_r in HR.
  assert (HZ : zsum (fun p => fw (pl_type p) * fh (pl_type p)) ps <= FW * FH).
  { etransitivity; [|apply HR].
    - apply Z.eq_le_incl. apply zsum_ext. intros p _. lia.
    - intros a p Ha Hp. destruct (HD p Hp) as (W & H & W0 & H0). destruct (ge_places _ _ _ G p Hp) as [_ PX PY _]. unfold pl_xe, pl_ye in *.
      assert (N1 : 0 <= fw (pl_type p)). { rewrite Zle_Qle. rewrite <- Efw. specialize (Nw (pl_type p)). change (inject_Z 0) with 0%Q. nra. }
      assert (N2 : 0 <= fh (pl_type p)). { rewrite Zle_Qle. rewrite <- Efh. specialize (Nh (pl_type p)). change (inject_Z 0) with 0%Q. nra. }
      destruct Ha as [<-|[<-|[]]]; cbn [ra_pos ra_len ra_cap ra_new]; repeat split; lia || assumption.
    - intros a [<-|[<-|[]]]; cbn; lia.
    - intros a ch [<-|[<-|[]]] Hnd Hi Hle; cbn [ra_new ra_new_cap ra_len ra_cap] in *; destruct (Chain ch Hnd Hi) as [K1 K2].
      + assert (L : zsum (fun x => nth x (map ri_x (rin_items i)) 0) (map pl_type ch) <= rb_x bt).
        { rewrite zsum_map. eapply Z.le_trans; [|exact Hle]. apply Z.eq_le_incl, zsum_ext. intros p Hp. unfold pl_w. rewrite (Rot p (Hi p Hp)). unfold ritem.
          rewrite (nth_indep _ 0 (ri_x dummy_ritem)) by (rewrite map_length; apply Types, Hi, Hp). apply map_nth. }
        specialize (Cw (map pl_type ch) K1 K2 L). rewrite Zle_Qle, <- EFW, <- qsum_inject.
        rewrite (qsum_ext _ _ (fun p => inject_Z (Zpos D1) * nth (pl_type p) wy 0)%Q) by (intros p _; rewrite <- Efw; ring). rewrite qsum_scale. rewrite qsum_map in Cw. nra.
      + assert (L : zsum (fun x => nth x (map ri_y (rin_items i)) 0) (map pl_type ch) <= rb_y bt).
        { rewrite zsum_map. eapply Z.le_trans; [|exact Hle]. apply Z.eq_le_incl, zsum_ext. intros p Hp. unfold pl_h. rewrite (Rot p (Hi p Hp)). unfold ritem.
          rewrite (nth_indep _ 0 (ri_y dummy_ritem)) by (rewrite map_length; apply Types, Hi, Hp). apply map_nth. }
        specialize (Ch (map pl_type ch) K1 K2 L). rewrite Zle_Qle, <- EFH, <- qsum_inject.
        rewrite (qsum_ext _ _ (fun p => inject_Z (Zpos D2) * nth (pl_type p) hy 0)%Q) by (intros p _; rewrite <- Efh; ring). rewrite qsum_scale. rewrite qsum_map in Ch. nra.
    - eapply ord_pairs_impl; [|exact (ge_disjoint _ _ _ G)]. intros p q Hpq. unfold disjoint, pl_xe, pl_ye in Hpq. destruct Hpq as [H|[H|[H|H]]].
      + exists ax. split; [left; reflexivity|left; exact H].
      + exists ax. split; [left; reflexivity|right; exact H].
      + exists ay. split; [right; left; reflexivity|left; exact H].
      + exists ay. split; [right; left; reflexivity|right; exact H]. }
  rewrite Zle_Qle, <- qsum_inject, inject_Z_mult in HZ.
  rewrite (qsum_ext _ _ (fun p => (inject_Z (Zpos D1) * inject_Z (Zpos D2)) * (nth (pl_type p) wy 0 * nth (pl_type p) hy 0))%Q) in HZ by (intros p _; rewrite inject_Z_mult, <- Efw, <- Efh; ring).
  rewrite qsum_scale, <- EFW, <- EFH in HZ.
  set (S := qsum (fun p => nth (pl_type p) wy 0 * nth (pl_type p) hy 0)%Q ps) in *. set (A := (inject_Z (rb_x bt) + sw)%Q) in *. set (B := (inject_Z (rb_y bt) + sh)%Q) in *.
  assert (P12 : (0 < inject_Z (Zpos D1) * inject_Z (Zpos D2))%Q) by nra.
  apply (Qmult_le_l _ _ (inject_Z (Zpos D1) * inject_Z (Zpos D2))); [exact P12|]. setoid_replace (inject_Z (Zpos D1) * inject_Z (Zpos D2) * (A * B))%Q with (A * inject_Z (Zpos D1) * (B * inject_Z (Zpos D2)))%Q by ring. exact HZ.
Qed.
