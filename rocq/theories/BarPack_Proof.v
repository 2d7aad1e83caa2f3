(** * Every packing is a point of the bar relaxation *)

From Coq Require Import List ZArith QArith Qround Bool Lia Lqa.
From Verif Require Import Util Common_Model Common_Spec Common_Proof Rect_Model Rect_Spec Geom Scale_Model Scale_Spec Bar_Model Bar_Spec Bar_Proof.
Import ListNotations.
Open Scope Z_scope.

Lemma inject_nonneg : forall z, 0 <= z -> (0 <= inject_Z z)%Q.
Proof. intros z H. change 0%Q with (inject_Z 0). rewrite <- Zle_Qle. exact H. Qed.

Section Pack.
Variable i : RInstance.
Hypothesis Hitems : positive_items i.
Hypothesis Hbins : positive_bins i.
Variable ds : list RDesc.
Hypothesis BP : bar_packing i ds.

Let nb := nbins i.

(** The variant of a placed item. *)
Definition is_variant (p : Place) (v : nat) : bool :=
  Nat.eqb (va_type (variant i v)) (pl_type p) && (va_w (variant i v) =? pl_w i p) && (va_h (variant i v) =? pl_h i p).
Definition pv (p : Place) : nat := match find (is_variant p) (seq 0 (length (variants i))) with Some v => v | None => 0%nat end.

Lemma pv_ok : forall d p, In d ds -> In p (rd_items d) ->
  In (pv p) (eligible_variants i (rd_type d)) /\ va_type (variant i (pv p)) = pl_type p /\ va_w (variant i (pv p)) = pl_w i p /\ va_h (variant i (pv p)) = pl_h i p.
Proof.
  intros d p Hd Hp. destruct (pa_bins _ _ (bp_packing _ _ BP) d Hd) as (Ht & Hc & G). pose proof (ge_places _ _ _ G p Hp) as P.
  assert (Ex : exists v, (v < length (variants i))%nat /\ variant i v = mkVar (pl_type p) (pl_w i p) (pl_h i p)).
  { assert (Hin : In (mkVar (pl_type p) (pl_w i p) (pl_h i p)) (variants i)).
    { unfold variants. apply in_flat_map. exists (pl_type p). split; [apply in_seq; pose proof (pk_type _ _ _ P); lia|]. unfold pl_w, pl_h. destruct (pl_rot p) eqn:R.
      - right. rewrite (pk_rot _ _ _ P R). left. reflexivity.
      - left. reflexivity. }
    destruct (In_nth _ _ dummy_variant Hin) as (v & Hv & E). exists v. split; [exact Hv|exact E]. }
  destruct Ex as (v & Hv & E). unfold pv. destruct (find (is_variant p) (seq 0 (length (variants i)))) as [w|] eqn:F.
  - apply find_some in F. destruct F as [F1 F2]. unfold is_variant in F2. apply andb_prop in F2. destruct F2 as [F2 F4]. apply andb_prop in F2. destruct F2 as [F2 F3].
    apply Nat.eqb_eq in F2. apply Z.eqb_eq in F3, F4. split; [|auto]. apply filter_In. split; [exact F1|]. cbv beta zeta. rewrite F2, F3, F4.
    destruct (pk_x _ _ _ P) as [X1 X2], (pk_y _ _ _ P) as [Y1 Y2]. unfold pl_xe, pl_ye in *. apply andb_true_intro. split.
    + apply negb_true_iff. apply orb_false_intro; apply Z.ltb_ge; lia.
    + destruct (bp_eligible _ _ BP d p Hd Hp) as [El|El]; [rewrite El; reflexivity|]. apply orb_true_iff. right. apply existsb_exists. eexists. split; [exact El|apply Z.eqb_refl].
  - exfalso. pose proof (find_none _ _ F v) as N. assert (Hs : In v (seq 0 (length (variants i)))) by (apply in_seq; lia). specialize (N Hs). unfold is_variant in N. rewrite E in N. cbn in N. rewrite Nat.eqb_refl, !Z.eqb_refl in N. discriminate.
Qed.

(** Copies of a variant in a bin. *)
Definition hit (v : nat) (p : Place) : Z := if Nat.eqb (pv p) v then 1 else 0.
Definition cnt (d : RDesc) (v : nat) : Z := zsum (hit v) (rd_items d).
Lemma hit_nonneg : forall v p, 0 <= hit v p.
Proof. intros v p. unfold hit. destruct (Nat.eqb (pv p) v); lia. Qed.

(** The slices of a bin. *)
Definition across (rows : bool) (t : nat) : Axis Place :=
  if rows then mkAxis Place pl_y (pl_h i) (rb_y (rbin i t)) else mkAxis Place pl_x (pl_w i) (rb_x (rbin i t)).
Definition along (rows : bool) (t : nat) : Axis Place := across (negb rows) t.
Definition slice (rows : bool) (d : RDesc) (y : Z) (v : nat) : Z := zsum (hit v) (filter (covers Place (across rows (rd_type d)) y) (rd_items d)).

Lemma bin_pos : forall d, In d ds -> 1 <= rb_x (rbin i (rd_type d)) /\ 1 <= rb_y (rbin i (rd_type d)).
Proof. intros d Hd. apply Hbins. apply nth_In. apply (pa_bins _ _ (bp_packing _ _ BP) d Hd). Qed.
Lemma place_pos : forall d p, In d ds -> In p (rd_items d) -> 0 < pl_w i p /\ 0 < pl_h i p.
Proof.
  intros d p Hd Hp. destruct (pa_bins _ _ (bp_packing _ _ BP) d Hd) as (_ & _ & G). pose proof (ge_places _ _ _ G p Hp) as P.
  pose proof (Hitems (ritem i (pl_type p)) (nth_In _ _ (pk_type _ _ _ P))). unfold pl_w, pl_h. destruct (pl_rot p); lia.
Qed.
Lemma place_inside : forall rows d p, In d ds -> In p (rd_items d) -> inside Place (across rows (rd_type d)) p.
Proof.
  intros rows d p Hd Hp. destruct (pa_bins _ _ (bp_packing _ _ BP) d Hd) as (_ & _ & G). pose proof (ge_places _ _ _ G p Hp) as P. pose proof (place_pos d p Hd Hp).
  destruct (pk_x _ _ _ P) as [X1 X2], (pk_y _ _ _ P) as [Y1 Y2]. unfold pl_xe, pl_ye in *. unfold inside, across. destruct rows; cbn; lia.
Qed.

Lemma slice_total : forall rows d v, In d ds -> zsum (fun y => slice rows d y v) (zrange (ax_cap Place (across rows (rd_type d)))) = cnt d v * bar_length i (negb rows) v.
Proof.
  intros rows d v Hd. unfold slice. rewrite <- (slice_sum Place (across rows (rd_type d)) (hit v) (rd_items d) (fun p => place_inside rows d p Hd)).
  unfold cnt. rewrite Z.mul_comm, <- zsum_mult. apply zsum_ext. intros p Hp. unfold hit. destruct (Nat.eqb_spec (pv p) v) as [<-|N]; [|lia].
  destruct (pv_ok d p Hd Hp) as (_ & _ & E1 & E2). unfold bar_length, across. destruct rows; cbn [negb ax_len]; lia.
Qed.

Lemma zsum_filter_le : forall A (f : A -> Z) q l, (forall x, In x l -> 0 <= f x) -> zsum f (filter q l) <= zsum f l.
Proof.
  intros A f q l H. induction l as [|x l IH]; [cbn; lia|]. assert (H' : forall y, In y l -> 0 <= f y) by (intros y Hy; apply H; right; exact Hy). specialize (IH H').
  pose proof (H x (or_introl eq_refl)). cbn [filter]. rewrite zsum_cons. destruct (q x); [rewrite zsum_cons|]; lia.
Qed.
Lemma zsum_member : forall A (f : A -> Z) l x, (forall y, In y l -> 0 <= f y) -> In x l -> f x <= zsum f l.
Proof.
  intros A f l x H. induction l as [|y l IH]; intro Hx; [destruct Hx|]. rewrite zsum_cons. assert (H' : forall z, In z l -> 0 <= f z) by (intros z Hz; apply H; right; exact Hz).
  pose proof (zsum_nonneg _ f l H'). pose proof (H y (or_introl eq_refl)). destruct Hx as [->|Hx]; [lia|]. specialize (IH H' Hx). lia.
Qed.

Lemma cnt_le : forall d v, In d ds -> cnt d v <= rcount (va_type (variant i v)) (rd_items d).
Proof.
  intros d v Hd. unfold cnt, rcount. assert (H : forall p, In p (rd_items d) -> pv p = v -> pl_type p = va_type (variant i v)).
  { intros p Hp <-. symmetry. apply (pv_ok d p Hd Hp). }
  induction (rd_items d) as [|p ps IH]; [cbn; lia|]. assert (H' : forall q, In q ps -> pv q = v -> pl_type q = va_type (variant i v)) by (intros q Hq; apply H; right; exact Hq). specialize (IH H').
  rewrite zsum_cons. cbn [filter]. unfold hit at 1. destruct (Nat.eqb_spec (pv p) v) as [E|N].
  - rewrite (H p (or_introl eq_refl) E), Nat.eqb_refl. cbn [length]. lia.
  - destruct (Nat.eqb (pl_type p) (va_type (variant i v))); cbn [length]; lia.
Qed.
Lemma variant_item : forall t v, In v (eligible_variants i t) -> (va_type (variant i v) < length (rin_items i))%nat.
Proof. intros t v Hv. destruct (eligible_in i t v Hv) as (Hl & _). destruct (variant_in i v Hl) as (x & Hx & E & _). lia. Qed.
Lemma rcount_nonneg : forall x ps, 0 <= rcount x ps.
Proof. intros x ps. unfold rcount. lia. Qed.

Lemma slice_fits : forall rows d y, In d ds -> bar_fits i rows (rd_type d) (slice rows d y).
Proof.
  intros rows d y Hd. destruct (pa_bins _ _ (bp_packing _ _ BP) d Hd) as (Ht & Hc & G). split.
  - intros v Hv. pose proof (variant_item _ v Hv) as Hx. unfold slice. split; [apply zsum_nonneg; intros p _; apply hit_nonneg|].
    etransitivity; [apply zsum_filter_le; intros p _; apply hit_nonneg|]. etransitivity; [apply (cnt_le d v Hd)|].
    etransitivity; [|apply (pa_copies _ _ (bp_packing _ _ BP) _ Hx)]. unfold rpacked.
    etransitivity; [|apply (zsum_member _ (fun d => rd_copies d * rcount (va_type (variant i v)) (rd_items d)) ds d); [|exact Hd]].
    + pose proof (rcount_nonneg (va_type (variant i v)) (rd_items d)). cbv beta. nia.
    + intros e He. destruct (pa_bins _ _ (bp_packing _ _ BP) e He) as (_ & Hce & _). pose proof (rcount_nonneg (va_type (variant i v)) (rd_items e)). nia.
  - set (sel := filter (covers Place (across rows (rd_type d)) y) (rd_items d)).
    assert (Hsel : forall p, In p sel -> In p (rd_items d)) by (intros p Hp; apply filter_In in Hp; tauto).
    unfold slice. fold sel. unfold hit.
    rewrite (zsum_by_class _ pv (fun v => if rows then va_w (variant i v) else va_h (variant i v)) sel _ (eligible_nodup i _) (fun p Hp => proj1 (pv_ok d p Hd (Hsel p Hp)))).
    pose proof (volume_bound Place [along rows (rd_type d)] sel) as VB. cbn [map] in VB. pose proof (bin_pos d Hd) as Hb.
    assert (Q1 : forall ax p, In ax [along rows (rd_type d)] -> In p sel -> inside Place ax p) by (intros ax p [<-|[]] Hp; apply (place_inside (negb rows) d p Hd (Hsel p Hp))).
    assert (Q2 : forall ax, In ax [along rows (rd_type d)] -> 0 <= ax_cap Place ax) by (intros ax [<-|[]]; unfold along, across; destruct rows; cbn; lia).
    specialize (VB Q1 Q2).
    assert (Q3 : ForallOrdPairs (separated Place [along rows (rd_type d)]) sel).
    { eapply ord_pairs_impl; [|apply (ord_pairs_filter Place _ (covers Place (across rows (rd_type d)) y) _ (ge_disjoint _ _ _ G))].
      intros p q (D & Cp & Cq). exists (along rows (rd_type d)). split; [left; reflexivity|]. unfold disjoint, pl_xe, pl_ye in D. unfold covers, across in Cp, Cq.
      apply andb_prop in Cp, Cq. destruct Cp as [C1 C2], Cq as [C3 C4]. apply Z.leb_le in C1, C3. apply Z.ltb_lt in C2, C4.
      unfold apart, along, across. destruct rows; cbn in *; lia. }
    specialize (VB Q3). cbn [prod fold_right] in VB. rewrite Z.mul_1_r in VB.
    assert (EC : ax_cap Place (along rows (rd_type d)) = if rows then rb_x (rbin i (rd_type d)) else rb_y (rbin i (rd_type d))) by (unfold along, across; destruct rows; reflexivity).
    rewrite EC in VB. etransitivity; [|exact VB]. apply Z.eq_le_incl. apply zsum_ext. intros p Hp. destruct (pv_ok d p Hd (Hsel p Hp)) as (_ & _ & E1 & E2).
    rewrite Z.mul_1_r. unfold along, across. destruct rows; cbn; lia.
Qed.

(** ** The point *)

Definition kval (t : nat) : Q := inject_Z (rused_bins t ds).
Definition nval (t v : nat) : Q := inject_Z (zsum (fun d => if Nat.eqb (rd_type d) t then rd_copies d * cnt d v else 0) ds).
Definition cs1 : list (BCol * Q) := flat_map (fun t => (k_column i t, kval t) :: map (fun v => (n_column i t v, nval t v)) (eligible_variants i t)) (seq 0 nb).
Definition bars_of (rows : bool) (d : RDesc) : list (BCol * Q) :=
  map (fun y => (bar_column i rows (rd_type d) (slice rows d y), inject_Z (rd_copies d))) (zrange (ax_cap Place (across rows (rd_type d)))).
Definition cs2 : list (BCol * Q) := flat_map (fun d => bars_of true d ++ bars_of false d) ds.

Lemma cs1_fst : map fst cs1 = static_columns i.
Proof.
  unfold cs1, static_columns. fold nb. generalize (seq 0 nb). intro ts. induction ts as [|t ts IH]; [reflexivity|]. cbn [flat_map]. rewrite map_app, IH. cbn [map fst]. rewrite map_map. reflexivity.
Qed.

Lemma nval_sum : forall t v, (nval t v == qsum (fun d => if Nat.eqb (rd_type d) t then inject_Z (rd_copies d) * inject_Z (cnt d v) else 0) ds)%Q.
Proof.
  intros t v. unfold nval. rewrite <- qsum_inject. apply qsum_ext. intros d _. destruct (Nat.eqb (rd_type d) t); [rewrite inject_Z_mult; reflexivity|reflexivity].
Qed.
Lemma kval_sum : forall t, (kval t == qsum (fun d => if Nat.eqb (rd_type d) t then inject_Z (rd_copies d) else 0) ds)%Q.
Proof. intros t. unfold kval, rused_bins. rewrite <- qsum_inject. apply qsum_ext. intros d _. destruct (Nat.eqb (rd_type d) t); reflexivity. Qed.

Lemma desc_type : forall d, In d ds -> In (rd_type d) (seq 0 nb).
Proof. intros d Hd. destruct (pa_bins _ _ (bp_packing _ _ BP) d Hd) as (Ht & _). apply in_seq. unfold nb, nbins. lia. Qed.

Lemma nval_total : forall F : nat -> Q, (qsum (fun t => qsum (fun v => F v * nval t v) (eligible_variants i t)) (seq 0 nb)
  == qsum (fun d => inject_Z (rd_copies d) * qsum (fun p => F (pv p)) (rd_items d)) ds)%Q.
Proof.
  intro F. rewrite (qsum_ext _ _ (fun t => qsum (fun d => if Nat.eqb (rd_type d) t then inject_Z (rd_copies d) * qsum (fun p => F (pv p)) (rd_items d) else 0) ds)%Q).
  - rewrite qsum_exchange. apply qsum_ext. intros d Hd. rewrite (qsum_one _ _ _ (rd_type d) (seq_NoDup _ _) (desc_type d Hd)).
    + rewrite Nat.eqb_refl. reflexivity.
    + intros t _ N. destruct (Nat.eqb_spec (rd_type d) t); [congruence|reflexivity].
  - intros t _. rewrite (qsum_ext _ _ (fun v => qsum (fun d => if Nat.eqb (rd_type d) t then inject_Z (rd_copies d) * (inject_Z (cnt d v) * F v) else 0) ds)%Q).
    + rewrite qsum_exchange. apply qsum_ext. intros d Hd. destruct (Nat.eqb_spec (rd_type d) t) as [E|N].
      * rewrite qsum_scale. apply Qmult_comp; [reflexivity|]. unfold cnt, hit. apply qsum_by_class; [apply eligible_nodup|]. intros p Hp. rewrite <- E. apply (pv_ok d p Hd Hp).
      * apply qsum_zero. reflexivity.
    + intros v _. rewrite nval_sum, <- qsum_scale. apply qsum_ext. intros d _. destruct (Nat.eqb (rd_type d) t); ring.
Qed.

Lemma qsum_cs1 : forall f : BCol * Q -> Q, (qsum f cs1 == qsum (fun t => f (k_column i t, kval t) + qsum (fun v => f (n_column i t v, nval t v)) (eligible_variants i t)) (seq 0 nb))%Q.
Proof. intro f. unfold cs1. rewrite qsum_flat_map. apply qsum_ext. intros t _. rewrite qsum_cons, qsum_map. reflexivity. Qed.
Lemma qsum_cs2 : forall f : BCol * Q -> Q, (qsum f cs2 == qsum (fun d => qsum f (bars_of true d) + qsum f (bars_of false d)) ds)%Q.
Proof. intro f. unfold cs2. rewrite qsum_flat_map. apply qsum_ext. intros d _. rewrite qsum_app. reflexivity. Qed.

Lemma zrange_count : forall n, 0 <= n -> Z.of_nat (length (zrange n)) = n.
Proof. intros n H. unfold zrange. rewrite map_length, seq_length. lia. Qed.
Lemma qsum_const : forall A (c : Q) (l : list A), (qsum (fun _ => c) l == inject_Z (Z.of_nat (length l)) * c)%Q.
Proof.
  intros A c l. induction l as [|x l IH]; [reflexivity|]. rewrite qsum_cons, IH. cbn [length]. rewrite Nat2Z.inj_succ, <- Z.add_1_r, inject_Z_plus. change (inject_Z 1) with 1%Q. ring.
Qed.

Lemma act_bars : forall rows' t rows d, In d ds -> (activity (bars_of rows d) (bar_cap rows' t)
  == if Bool.eqb rows rows' && Nat.eqb (rd_type d) t then inject_Z (bar_number i rows' t) * inject_Z (rd_copies d) else 0)%Q.
Proof.
  intros rows' t rows d Hd. unfold activity, bars_of. rewrite qsum_map. cbn [fst snd]. pose proof (bin_pos d Hd).
  rewrite (qsum_ext _ _ (fun _ => (if Bool.eqb rows rows' && Nat.eqb (rd_type d) t then 1 else 0) * inject_Z (rd_copies d))%Q).
  2:{ intros y _. rewrite bar_coef_cap. reflexivity. }
  rewrite qsum_const. destruct (Bool.eqb rows rows' && Nat.eqb (rd_type d) t) eqn:E; [|ring].
  apply andb_prop in E. destruct E as [E1 E2]. apply eqb_prop in E1. apply Nat.eqb_eq in E2. subst rows' t.
  rewrite zrange_count by (unfold across; destruct rows; cbn; lia). unfold across, bar_number. destruct rows; cbn [ax_cap]; ring.
Qed.
Lemma act_bars_link : forall rows' t v rows d, In d ds -> In v (eligible_variants i t) -> (activity (bars_of rows d) (bar_link rows' t v)
  == if Bool.eqb rows rows' && Nat.eqb (rd_type d) t then inject_Z (bar_length i (negb rows') v) * (inject_Z (rd_copies d) * inject_Z (cnt d v)) else 0)%Q.
Proof.
  intros rows' t v rows d Hd Hv. unfold activity, bars_of. rewrite qsum_map. cbn [fst snd].
  rewrite (qsum_ext _ _ (fun y => inject_Z (rd_copies d) * (if Bool.eqb rows rows' && Nat.eqb (rd_type d) t then inject_Z (slice rows d y v) else 0))%Q).
  2:{ intros y _. rewrite bar_coef_link; [ring|exact Hv|]. unfold slice. apply zsum_nonneg. intros p _. apply hit_nonneg. }
  rewrite qsum_scale. destruct (Bool.eqb rows rows' && Nat.eqb (rd_type d) t) eqn:E.
  - apply andb_prop in E. destruct E as [E1 E2]. apply eqb_prop in E1. subst rows'. rewrite qsum_inject, slice_total by exact Hd. rewrite inject_Z_mult. ring.
  - rewrite qsum_zero by reflexivity. ring.
Qed.
Lemma act_bars_item : forall x rows d, (activity (bars_of rows d) (ItemRow x) == 0)%Q.
Proof. intros x rows d. unfold activity, bars_of. rewrite qsum_map. apply qsum_zero. intros y _. cbn [fst snd]. rewrite bar_coef_item. ring. Qed.

Lemma act_cap : forall rows t, (t < length (rin_bins i))%nat -> (activity (cs1 ++ cs2) (bar_cap rows t) == 0)%Q.
Proof.
  intros rows t Ht. unfold activity. rewrite qsum_app, qsum_cs1, qsum_cs2. cbn [fst snd].
  rewrite (qsum_one _ _ _ t (seq_NoDup _ _)).
  - rewrite k_cap, Nat.eqb_refl. rewrite (qsum_zero _ _ (eligible_variants i t)) by (intros v _; rewrite n_cap; ring).
    rewrite (qsum_ext _ _ (fun d => inject_Z (bar_number i rows t) * (if Nat.eqb (rd_type d) t then inject_Z (rd_copies d) else 0))%Q).
    + rewrite qsum_scale, <- kval_sum. ring.
    + intros d Hd. pose proof (act_bars rows t true d Hd) as A1. pose proof (act_bars rows t false d Hd) as A2. unfold activity in A1, A2. rewrite A1, A2.
      destruct rows, (Nat.eqb (rd_type d) t); cbn [Bool.eqb andb]; ring.
  - apply in_seq. unfold nb, nbins. lia.
  - intros u _ N. rewrite k_cap. destruct (Nat.eqb_spec u t); [congruence|]. rewrite (qsum_zero _ _ (eligible_variants i u)) by (intros v _; rewrite n_cap; ring). ring.
Qed.
Lemma act_link : forall rows t v, (t < length (rin_bins i))%nat -> In v (eligible_variants i t) -> (activity (cs1 ++ cs2) (bar_link rows t v) == 0)%Q.
Proof.
  intros rows t v Ht Hv. unfold activity. rewrite qsum_app, qsum_cs1, qsum_cs2. cbn [fst snd].
  rewrite (qsum_one _ _ _ t (seq_NoDup _ _)).
  - rewrite k_link. rewrite (qsum_one _ _ (eligible_variants i t) v (eligible_nodup i t) Hv).
    + rewrite n_link, !Nat.eqb_refl. cbn [andb].
      rewrite (qsum_ext _ _ (fun d => inject_Z (bar_length i (negb rows) v) * (if Nat.eqb (rd_type d) t then inject_Z (rd_copies d) * inject_Z (cnt d v) else 0))%Q).
      * rewrite qsum_scale, <- nval_sum. ring.
      * intros d Hd. pose proof (act_bars_link rows t v true d Hd Hv) as A1. pose proof (act_bars_link rows t v false d Hd Hv) as A2. unfold activity in A1, A2. rewrite A1, A2.
        destruct rows, (Nat.eqb (rd_type d) t); cbn [Bool.eqb andb]; ring.
    + intros w _ N. rewrite n_link. destruct (Nat.eqb_spec w v); [congruence|]. rewrite andb_false_r. ring.
  - apply in_seq. unfold nb, nbins. lia.
  - intros u _ N. rewrite k_link. rewrite (qsum_zero _ _ (eligible_variants i u)); [ring|]. intros w _. rewrite n_link. destruct (Nat.eqb_spec u t); [congruence|]. cbn [andb]. ring.
Qed.
Lemma rcount_sum : forall x ps, (qsum (fun p => if Nat.eqb (pl_type p) x then 1 else 0) ps == inject_Z (rcount x ps))%Q.
Proof.
  intros x ps. unfold rcount. induction ps as [|p ps IH]; [reflexivity|]. rewrite qsum_cons, IH. cbn [filter]. destruct (Nat.eqb (pl_type p) x); cbn [length]; [|ring].
  rewrite Nat2Z.inj_succ, <- Z.add_1_r, inject_Z_plus. change (inject_Z 1) with 1%Q. ring.
Qed.
Lemma act_item : forall x, (activity (cs1 ++ cs2) (ItemRow x) == inject_Z (rpacked x ds))%Q.
Proof.
  intros x. unfold activity. rewrite qsum_app, qsum_cs1, qsum_cs2. cbn [fst snd].
  rewrite (qsum_zero _ _ ds) by (intros d _; pose proof (act_bars_item x true d) as A1; pose proof (act_bars_item x false d) as A2; unfold activity in A1, A2; rewrite A1, A2; ring).
  rewrite (qsum_ext _ _ (fun t => qsum (fun v => (if Nat.eqb (va_type (variant i v)) x then 1 else 0) * nval t v) (eligible_variants i t))%Q).
  - rewrite (nval_total (fun v => if Nat.eqb (va_type (variant i v)) x then 1 else 0)%Q). rewrite Qplus_0_r. unfold rpacked. rewrite <- qsum_inject. apply qsum_ext. intros d Hd. rewrite inject_Z_mult, <- rcount_sum.
    apply Qmult_comp; [reflexivity|]. apply qsum_ext. intros p Hp. destruct (pv_ok d p Hd Hp) as (_ & E & _). rewrite E. reflexivity.
  - intros t _. rewrite k_item, Qmult_0_l, Qplus_0_l. apply qsum_ext. intros v _. rewrite n_item. reflexivity.
Qed.

Lemma copies_pos : forall d, In d ds -> 1 <= rd_copies d.
Proof. intros d Hd. apply (pa_bins _ _ (bp_packing _ _ BP) d Hd). Qed.
Lemma nval_bounds : forall t v, In v (eligible_variants i t) -> (0 <= nval t v)%Q /\ (nval t v <= inject_Z (ri_copies (ritem i (va_type (variant i v)))))%Q.
Proof.
  intros t v Hv. unfold nval. split.
  - apply inject_nonneg. apply zsum_nonneg. intros d Hd. destruct (Nat.eqb (rd_type d) t); [|lia]. pose proof (copies_pos d Hd). assert (0 <= cnt d v) by (apply zsum_nonneg; intros p _; apply hit_nonneg). nia.
  - rewrite <- Zle_Qle. etransitivity; [|apply (pa_copies _ _ (bp_packing _ _ BP) _ (variant_item t v Hv))]. unfold rpacked. apply zsum_le. intros d Hd. pose proof (copies_pos d Hd). pose proof (cnt_le d v Hd).
    pose proof (rcount_nonneg (va_type (variant i v)) (rd_items d)). destruct (Nat.eqb (rd_type d) t); nia.
Qed.

Theorem packing_point : bar_point i (cs1 ++ cs2).
Proof.
  exists (map fst cs2). split; [rewrite map_app, cs1_fst; reflexivity|]. split.
  - intros c Hc. apply in_map_iff in Hc. destruct Hc as ([c' x] & E & Hc). cbn [fst] in E. subst c'. unfold cs2 in Hc. apply in_flat_map in Hc. destruct Hc as (d & Hd & Hc).
    destruct (pa_bins _ _ (bp_packing _ _ BP) d Hd) as (Ht & _).
    apply in_app_or in Hc. destruct Hc as [Hc|Hc]; apply in_map_iff in Hc; destruct Hc as (y & E & _); inversion E; subst; eexists _, _, _; (split; [exact Ht|]; split; [apply slice_fits; exact Hd|reflexivity]).
  - constructor.
    + intros c Hc. apply in_app_or in Hc. destruct Hc as [Hc|Hc].
      * unfold cs1 in Hc. apply in_flat_map in Hc. destruct Hc as (t & Ht & Hc). apply in_seq in Ht. assert (Ht' : (t < length (rin_bins i))%nat) by (unfold nb, nbins in Ht; lia). destruct Hc as [<-|Hc].
        -- cbn [fst snd k_column bc_lower bc_upper below]. unfold kval. rewrite <- !Zle_Qle. apply (bp_bins _ _ BP t Ht').
        -- apply in_map_iff in Hc. destruct Hc as (v & <- & Hv). cbn [fst snd n_column bc_lower bc_upper below]. apply (nval_bounds t v Hv).
      * unfold cs2 in Hc. apply in_flat_map in Hc. destruct Hc as (d & Hd & Hc). pose proof (copies_pos d Hd).
        assert (H0 : (0 <= inject_Z (rd_copies d))%Q) by (apply inject_nonneg; lia).
        apply in_app_or in Hc. destruct Hc as [Hc|Hc]; apply in_map_iff in Hc; destruct Hc as (y & <- & _); (split; [exact H0|exact I]).
    + intros r lo up Hr. apply in_app_or in Hr. destruct Hr as [Hr|Hr].
      * apply in_flat_map in Hr. destruct Hr as (t & Ht & Hr). apply in_seq in Ht. assert (Ht' : (t < length (rin_bins i))%nat) by (unfold nbins in Ht; lia).
        destruct Hr as [E|[E|Hr]].
        -- inversion E; subst. split; [exact I|]. cbn [below]. pose proof (act_cap true t Ht') as A. cbn [bar_cap] in A. rewrite A. apply Qle_refl.
        -- inversion E; subst. split; [exact I|]. cbn [below]. pose proof (act_cap false t Ht') as A. cbn [bar_cap] in A. rewrite A. apply Qle_refl.
        -- apply in_flat_map in Hr. destruct Hr as (v & Hv & [E|[E|[]]]); inversion E; subst; cbn [above below].
           ++ pose proof (act_link true t v Ht' Hv) as A. cbn [bar_link] in A. rewrite A. split; apply Qle_refl.
           ++ pose proof (act_link false t v Ht' Hv) as A. cbn [bar_link] in A. rewrite A. split; apply Qle_refl.
      * apply in_map_iff in Hr. destruct Hr as (x & E & Hx). inversion E; subst. apply in_seq in Hx. assert (Hx' : (x < length (rin_items i))%nat) by lia. cbn [above below]. rewrite act_item. unfold qcopies. rewrite <- !Zle_Qle.
        split; [apply (bp_items _ _ BP x Hx')|apply (pa_copies _ _ (bp_packing _ _ BP) x Hx')].
Qed.

Theorem packing_value : (lp_value (cs1 ++ cs2) == (if knapsack i then rprofit i ds else 0) + (if costs_bins i then packing_cost i ds else 0))%Q.
Proof.
  unfold lp_value. rewrite qsum_app, qsum_cs1, qsum_cs2. cbn [fst snd].
  rewrite (qsum_zero _ _ ds).
  2:{ intros d _. unfold bars_of. rewrite !qsum_map. rewrite !qsum_zero; [ring| |]; intros y _; cbn; ring. }
  rewrite qsum_plus. cbn [k_column n_column bc_obj].
  assert (E1 : (qsum (fun t => (if costs_bins i then rb_cost (rbin i t) else 0) * kval t) (seq 0 nb) == if costs_bins i then packing_cost i ds else 0)%Q).
  { destruct (costs_bins i); [|apply qsum_zero; intros t _; ring]. unfold packing_cost.
    rewrite (qsum_ext _ _ (fun t => qsum (fun d => if Nat.eqb (rd_type d) t then inject_Z (rd_copies d) * rb_cost (rbin i t) else 0) ds)%Q).
    - rewrite qsum_exchange. apply qsum_ext. intros d Hd. rewrite (qsum_one _ _ _ (rd_type d) (seq_NoDup _ _) (desc_type d Hd)); [rewrite Nat.eqb_refl; reflexivity|].
      intros t _ N. destruct (Nat.eqb_spec (rd_type d) t); [congruence|reflexivity].
    - intros t _. rewrite kval_sum, <- qsum_scale. apply qsum_ext. intros d _. destruct (Nat.eqb (rd_type d) t); ring. }
  assert (E2 : (qsum (fun t => qsum (fun v => (if knapsack i then ri_profit (ritem i (va_type (variant i v))) else 0) * nval t v) (eligible_variants i t)) (seq 0 nb) == if knapsack i then rprofit i ds else 0)%Q).
  { rewrite (nval_total (fun v => if knapsack i then ri_profit (ritem i (va_type (variant i v))) else 0)%Q). unfold rprofit. destruct (knapsack i).
    - apply qsum_ext. intros d Hd. apply Qmult_comp; [reflexivity|]. apply qsum_ext. intros p Hp. destruct (pv_ok d p Hd Hp) as (_ & E & _). rewrite E. reflexivity.
    - apply qsum_zero. intros d _. rewrite (qsum_zero _ _ (rd_items d)) by reflexivity. ring. }
  rewrite E1, E2. ring.
Qed.

(** ** Penalties and costs *)

Lemma penalty_gain : forall d, (- rpenalties i d <= negative_penalties (rb_resources (rbin i (rd_type d))))%Q.
Proof.
  intro d. unfold rpenalties, negative_penalties. setoid_replace (- qsum (fun r => if res_penalize r && Qltb (res_capacity r) (rconsumption i r (rd_items d)) then res_penalty r else 0) (rb_resources (rbin i (rd_type d))))%Q
    with (-1 * qsum (fun r => if res_penalize r && Qltb (res_capacity r) (rconsumption i r (rd_items d)) then res_penalty r else 0) (rb_resources (rbin i (rd_type d))))%Q by ring.
  rewrite <- qsum_scale. apply qsum_le. intros r _. destruct (res_penalize r); cbn [andb]; [|lra].
  destruct (Qltb (res_penalty r) 0) eqn:E1; [apply Qltb_lt in E1|apply Qltb_ge in E1]; destruct (Qltb (res_capacity r) (rconsumption i r (rd_items d))); lra.
Qed.
Lemma negative_nonneg : forall rs, (0 <= negative_penalties rs)%Q.
Proof. intro rs. apply qsum_nonneg. intros r _. destruct (res_penalize r && Qltb (res_penalty r) 0) eqn:E; [|lra]. apply andb_prop in E. destruct E as [_ E]. apply Qltb_lt in E. lra. Qed.

Lemma qsum_nth : forall A (l : list A) d (f : A -> Q), (qsum f l == qsum (fun t => f (nth t l d)) (seq 0 (length l)))%Q.
Proof.
  intros A l d f. induction l as [|x l IH]; [reflexivity|]. rewrite qsum_cons, IH. cbn [length seq]. rewrite qsum_cons. cbn [nth]. rewrite <- seq_shift, qsum_map. reflexivity.
Qed.

Theorem net_profit_bound : (rnet_profit i ds <= rprofit i ds + negative_penalty_sum i)%Q.
Proof.
  unfold rnet_profit. assert (H : (- qsum (rpenalties i) ds <= negative_penalty_sum i)%Q); [|lra].
  assert (H1 : (- qsum (rpenalties i) ds <= qsum (fun d => inject_Z (rd_copies d) * negative_penalties (rb_resources (rbin i (rd_type d)))) ds)%Q).
  { setoid_replace (- qsum (rpenalties i) ds)%Q with (-1 * qsum (rpenalties i) ds)%Q by ring. rewrite <- qsum_scale. apply qsum_le. intros d Hd.
    pose proof (penalty_gain d) as G. pose proof (negative_nonneg (rb_resources (rbin i (rd_type d)))) as N. pose proof (copies_pos d Hd) as C.
    assert (1 <= inject_Z (rd_copies d))%Q by (change 1%Q with (inject_Z 1); rewrite <- Zle_Qle; exact C). nra. }
  eapply Qle_trans; [exact H1|]. unfold negative_penalty_sum. rewrite (qsum_nth _ (rin_bins i) dummy_rbin).
  rewrite (qsum_ext _ _ (fun d => qsum (fun t => if Nat.eqb (rd_type d) t then inject_Z (rd_copies d) * negative_penalties (rb_resources (rbin i t)) else 0) (seq 0 nb))%Q).
  - rewrite qsum_exchange. unfold nb, nbins. apply qsum_le. intros t Ht. apply in_seq in Ht. assert (Ht' : (t < length (rin_bins i))%nat) by lia. fold (rbin i t).
    rewrite (qsum_ext _ _ (fun d => negative_penalties (rb_resources (rbin i t)) * (if Nat.eqb (rd_type d) t then inject_Z (rd_copies d) else 0))%Q) by (intros d _; destruct (Nat.eqb (rd_type d) t); ring).
    rewrite qsum_scale, <- kval_sum. unfold kval. destruct (bp_bins _ _ BP t Ht') as [_ B]. rewrite Zle_Qle in B. pose proof (negative_nonneg (rb_resources (rbin i t))).
    rewrite (Qmult_comm (inject_Z (rb_copies (rbin i t)))). rewrite !(Qmult_comm (negative_penalties (rb_resources (rbin i t)))). apply Qmult_le_compat_r; assumption.
  - intros d Hd. rewrite (qsum_one _ _ _ (rd_type d) (seq_NoDup _ _) (desc_type d Hd)); [rewrite Nat.eqb_refl; reflexivity|].
    intros t _ N. destruct (Nat.eqb_spec (rd_type d) t); [congruence|reflexivity].
Qed.

Theorem single_cost : length (rin_bins i) = 1%nat -> (packing_cost i ds == inject_Z (rbins_used ds) * rb_cost (rbin i 0))%Q.
Proof.
  intro H1. unfold packing_cost, rbins_used. rewrite <- qsum_inject, (Qmult_comm (qsum _ _)), <- qsum_scale. apply qsum_ext. intros d Hd. destruct (pa_bins _ _ (bp_packing _ _ BP) d Hd) as (Ht & _). assert (rd_type d = 0%nat) as -> by lia. ring.
Qed.
End Pack.

(** ** Claims *)

Theorem claims_right : forall i bound, positive_items i -> positive_bins i -> (forall bt, In bt (rin_bins i) -> (0 < rb_cost bt)%Q) ->
  bar_accepts i = true -> cg_right i bound -> claim_right i (bar_claim i bound).
Proof.
  intros i bound Hi Hb Hc Ha Hr.
  assert (Inf : (forall cs, ~ bar_point i cs) -> forall ds, ~ bar_packing i ds) by (intros H ds BP; exact (H _ (packing_point i Hi Hb ds BP))).
  assert (Val : forall ds b, bar_packing i ds -> bar_bound i b ->
    (if knapsack i then (if knapsack i then rprofit i ds else 0) + (if costs_bins i then packing_cost i ds else 0) <= b else b <= (if knapsack i then rprofit i ds else 0) + (if costs_bins i then packing_cost i ds else 0))%Q).
  { intros ds b BP HB. specialize (HB _ (packing_point i Hi Hb ds BP)). destruct (knapsack i) eqn:K; pose proof (packing_value i ds BP) as V; rewrite K in V; rewrite V in HB; exact HB. }
  unfold bar_claim, bar_accepts, cg_right, knapsack, costs_bins in *. destruct (rin_objective i) eqn:O; try discriminate; destruct bound as [|b|]; cbn [claim_right]; auto.
  - intros ds BP. specialize (Val ds b BP Hr). cbn iota in Val. apply Nat.eqb_eq in Ha. rewrite (single_cost i ds BP Ha) in Val.
    assert (C0 : (0 < rb_cost (rbin i 0))%Q) by (apply Hc, nth_In; lia).
    assert (L : (b / rb_cost (rbin i 0) - (1 # 1000) <= inject_Z (rbins_used ds))%Q).
    { assert (b / rb_cost (rbin i 0) <= inject_Z (rbins_used ds))%Q by (apply Qle_shift_div_r; [exact C0|lra]). lra. }
    apply Qceiling_resp_le in L. rewrite Qceiling_Z in L. exact L.
  - intros ds BP. specialize (Val ds b BP Hr). cbn iota in Val. pose proof (net_profit_bound i ds BP). lra.
  - intros ds BP. specialize (Val ds b BP Hr). cbn iota in Val. lra.
Qed.
