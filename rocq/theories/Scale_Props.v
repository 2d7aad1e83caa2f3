(** * C30: conservative scales *)

From Coq Require Import List ZArith QArith Qround Bool Lia Lqa Permutation.
From Verif Require Import Util Common_Model OneDim_Model Dff_Proof Geom Rect_Model Rect_Spec RectDff_Model RectDff_Proof RectDff_Props ColGen_Model ColGenCap_Proof ColGenPrice_Proof Scale_Model Scale_Spec Scale_Proof.
Import ListNotations.
Open Scope Z_scope.

(** Whatever the LP solver answers, and even if the loop is cut short: the lengths
    computed are conservative up to the tolerance, when the knapsack solver is
    exact. *)
Theorem C30_scales : forall o i dims cap obj turns it axis,
  (forall x, (x < length (rin_items i))%nat -> 0 < nth x dims 0 /\ 0 <= ri_copies (ritem i x)) -> 0 <= cap -> kp_exact o ->
  conservative i dims cap scale_tol (scale_lp o i dims cap obj turns it axis).
Proof. intros o i dims cap obj turns it axis H Hc Hk. apply scale_lp_conservative; [intros x Hx; apply H, Hx|intros x Hx; apply H, Hx|exact Hc|exact Hk]. Qed.

(** No row is added twice to the LP, if its solutions satisfy its rows. *)
Theorem C30_rows_distinct : forall o i dims cap obj turns it axis, lp_rows o i cap -> NoDup (snd (scale_loop o i dims cap obj turns it axis 0 [])).
Proof. intros o i dims cap obj turns it axis H. apply scale_loop_rows; [exact H|constructor]. Qed.

(** ** The bound *)

Lemma rcount_occ : forall x ps, rcount x ps = occ (map pl_type ps) x.
Proof. intros x. unfold rcount. induction ps as [|p ps IH]; [reflexivity|]. cbn [map filter]. rewrite occ_cons, <- IH. destruct (pl_type p =? x)%nat; cbn [length]; lia. Qed.

Lemma rpacked_sum : forall i (f : nat -> Q) ds, (forall d p, In d ds -> In p (rd_items d) -> (pl_type p < length (rin_items i))%nat) ->
  (qsum (fun x => inject_Z (rpacked x ds) * f x) (seq 0 (length (rin_items i))) == qsum (fun d => inject_Z (rd_copies d) * qsum (fun p => f (pl_type p)) (rd_items d)) ds)%Q.
Proof.
  intros i f. induction ds as [|d ds IH]; intros H.
  - unfold rpacked. cbn [zsum fold_right map]. rewrite qsum_zero; [reflexivity|]. intros x _. change (inject_Z _) with 0%Q. ring.
  - rewrite qsum_cons, <- IH by (intros; eapply H; [right|]; eassumption).
    rewrite (qsum_ext _ _ (fun x => inject_Z (rd_copies d) * (inject_Z (occ (map pl_type (rd_items d)) x) * f x) + inject_Z (rpacked x ds) * f x)%Q).
    + rewrite qsum_plus, qsum_scale. rewrite <- (qsum_occ (length (rin_items i)) f (map pl_type (rd_items d))).
      * rewrite qsum_map. reflexivity.
      * intros x Hx. apply in_map_iff in Hx. destruct Hx as (p & <- & Hp). apply (H d p (or_introl eq_refl) Hp).
    + intros x _. unfold rpacked. rewrite zsum_cons, inject_Z_plus, inject_Z_mult, rcount_occ. ring.
Qed.

Section Bound.
Variables (i : RInstance) (ds : list RDesc).
Hypothesis Hone : length (rin_bins i) = 1%nat.
Hypothesis Hits : positive_items i.
Hypothesis Hbins : positive_bins i.
Hypothesis Hor : all_oriented i = true.
Hypothesis Hds : packing_ok i ds.
Hypothesis Hall : rall_packed i ds.

Notation X := (inject_Z (rb_x (rbin i 0))).
Notation Y := (inject_Z (rb_y (rbin i 0))).

Lemma bin_positive : 0 < rb_x (rbin i 0) /\ 0 < rb_y (rbin i 0).
Proof. destruct (Hbins (rbin i 0)) as [A B]; [apply nth_In; lia|]. lia. Qed.

Lemma pair_bound : forall w h sw sh,
  conservative i (map ri_x (rin_items i)) (rb_x (rbin i 0)) sw w -> conservative i (map ri_y (rin_items i)) (rb_y (rbin i 0)) sh h ->
  nonneg_scale w -> nonneg_scale h -> (0 <= sw)%Q -> (0 <= sh)%Q ->
  (pair_sum i w h <= inject_Z (rbins_used ds) * ((X + sw) * (Y + sh)))%Q.
Proof.
  intros w h sw sh Cw Ch Nw Nh Sw Sh. destruct bin_positive as [PX PY]. unfold pair_sum.
  assert (Copies : forall x, (x < length (rin_items i))%nat -> rpacked x ds = ri_copies (ritem i x)) by exact Hall.
  rewrite (qsum_ext _ _ (fun x => inject_Z (rpacked x ds) * (nth x w 0 * nth x h 0))%Q) by (intros x Hx; apply in_seq in Hx; rewrite Copies by lia; ring).
  rewrite (rpacked_sum i (fun x => nth x w 0 * nth x h 0)%Q).
  2:{ intros d p Hd Hp. destruct (pa_bins i ds Hds d Hd) as (_ & _ & G). exact (pk_type _ _ _ (ge_places _ _ _ G p Hp)). }
  unfold rbins_used. rewrite <- qsum_inject. rewrite Qmult_comm, <- qsum_scale. apply qsum_le. intros d Hd.
  destruct (pa_bins i ds Hds d Hd) as (T & C & G). rewrite Hone in T. assert (E : rd_type d = O) by lia. rewrite E in G.
  assert (B : (qsum (fun p => nth (pl_type p) w 0 * nth (pl_type p) h 0) (rd_items d) <= (X + sw) * (Y + sh))%Q).
  { apply (bin_product i (rbin i 0) (map ri_x (rin_items i)) w (map ri_y (rin_items i)) h); try assumption; try reflexivity.
    intros x Hx. rewrite <- (Copies x Hx). unfold rpacked.
    apply Z.le_trans with (rd_copies d * rcount x (rd_items d)); [unfold rcount; nia|].
    apply (zsum_mem _ (fun d => rd_copies d * rcount x (rd_items d)) ds d); [|exact Hd]. intros d' Hd'. destruct (pa_bins i ds Hds d' Hd') as (_ & C' & _). unfold rcount. nia. }
  assert (C0 : (0 <= inject_Z (rd_copies d))%Q) by (change 0%Q with (inject_Z 0); rewrite <- Zle_Qle; lia). nra.
Qed.

Lemma ceiling_le : forall q n, (q <= inject_Z n)%Q -> Qceiling q <= n.
Proof. intros q n H. apply Qceiling_resp_le in H. rewrite Qceiling_Z in H. exact H. Qed.

(** Two exactly conservative scales: the bound is valid. *)
Lemma exact_pair_valid : forall w h,
  conservative i (map ri_x (rin_items i)) (rb_x (rbin i 0)) 0 w -> conservative i (map ri_y (rin_items i)) (rb_y (rbin i 0)) 0 h ->
  nonneg_scale w -> nonneg_scale h -> bound_for_pair i w h (sarea i) <= rbins_used ds.
Proof.
  intros w h Cw Ch Nw Nh. pose proof (pair_bound w h 0 0 Cw Ch Nw Nh (Qle_refl 0) (Qle_refl 0)) as B. destruct bin_positive as [PX PY].
  apply ceiling_le. unfold sarea, sbin.
  assert (P : (0 < X * Y)%Q) by (rewrite <- inject_Z_mult; change 0%Q with (inject_Z 0); rewrite <- Zlt_Qlt; nia).
  assert (L : (pair_sum i w h / (X * Y) <= inject_Z (rbins_used ds))%Q).
  { apply Qle_shift_div_r; [exact P|]. rewrite !Qplus_0_r in B. exact B. }
  unfold scale_tol. lra.
Qed.

(** Scales conservative up to the tolerance: the bound is valid when the number of
    bins is small compared with their dimensions. *)
Hypothesis Hsmall : (inject_Z (rbins_used ds) * (X + Y + scale_tol) <= X * Y)%Q.

Lemma tol_pair_valid : forall w h,
  conservative i (map ri_x (rin_items i)) (rb_x (rbin i 0)) scale_tol w -> conservative i (map ri_y (rin_items i)) (rb_y (rbin i 0)) scale_tol h ->
  nonneg_scale w -> nonneg_scale h -> bound_for_pair i w h (sarea i) <= rbins_used ds.
Proof.
  intros w h Cw Ch Nw Nh. assert (T : (0 <= scale_tol)%Q) by (unfold scale_tol; lra).
  pose proof (pair_bound w h _ _ Cw Ch Nw Nh T T) as B. destruct bin_positive as [PX PY].
  apply ceiling_le. unfold sarea, sbin.
  assert (P : (0 < X * Y)%Q) by (rewrite <- inject_Z_mult; change 0%Q with (inject_Z 0); rewrite <- Zlt_Qlt; nia).
  assert (L : (pair_sum i w h / (X * Y) <= inject_Z (rbins_used ds) + scale_tol)%Q).
  { apply Qle_shift_div_r; [exact P|]. eapply Qle_trans; [exact B|]. revert Hsmall. unfold scale_tol. generalize (inject_Z (rbins_used ds)), X, Y. intros n x y H. nra. }
  unfold scale_tol in *. lra.
Qed.
End Bound.

Lemma original_exact : forall i (f : RItem -> Z) cap, conservative i (map f (rin_items i)) cap 0 (to_q (map f (rin_items i))).
Proof.
  intros i f cap s Hs _ Hle. unfold to_q. rewrite (qsum_ext _ _ (fun x => inject_Z (nth x (map f (rin_items i)) 0%Z))).
  - rewrite qsum_inject, Qplus_0_r, <- Zle_Qle. exact Hle.
  - intros x Hx. change 0%Q with (inject_Z 0). rewrite map_nth. reflexivity.
Qed.

Lemma conservative_weaken : forall i dims cap a b s, (a <= b)%Q -> conservative i dims cap a s -> conservative i dims cap b s.
Proof. intros i dims cap a b s H C l Hs Hc Hl. specialize (C l Hs Hc Hl). lra. Qed.

Lemma to_q_nonneg : forall l, (forall x, In x l -> 0 <= x) -> nonneg_scale (to_q l).
Proof. intros l H x. unfold to_q. destruct (nth_in_or_default x (map inject_Z l) 0%Q) as [K| ->]; [|apply Qle_refl]. apply in_map_iff in K. destruct K as (z & <- & Hz). change 0%Q with (inject_Z 0). rewrite <- Zle_Qle. exact (H z Hz). Qed.

Lemma pair_sum_comm : forall i a b, (pair_sum i a b == pair_sum i b a)%Q.
Proof. intros. unfold pair_sum. apply qsum_ext. intros x _. ring. Qed.

Lemma bound_comm : forall i a b area, bound_for_pair i a b area = bound_for_pair i b a area.
Proof. intros. unfold bound_for_pair. apply Qceiling_comp. rewrite pair_sum_comm. reflexivity. Qed.

Lemma cs_loop_valid : forall o i turns ds, length (rin_bins i) = 1%nat -> positive_items i -> positive_bins i -> all_oriented i = true -> packing_ok i ds -> rall_packed i ds ->
  (inject_Z (rbins_used ds) * (inject_Z (rb_x (rbin i 0)) + inject_Z (rb_y (rbin i 0)) + scale_tol) <= inject_Z (rb_x (rbin i 0)) * inject_Z (rb_y (rbin i 0)))%Q ->
  kp_exact o -> lp_nonneg o ->
  forall n it widths heights,
  (forall w, In w widths -> conservative i (map ri_x (rin_items i)) (rb_x (rbin i 0)) scale_tol w /\ nonneg_scale w) ->
  (forall h, In h heights -> conservative i (map ri_y (rin_items i)) (rb_y (rbin i 0)) scale_tol h /\ nonneg_scale h) ->
  forall b, In b (cs_loop o i turns n it widths heights) -> b <= rbins_used ds.
Proof.
  intros o i turns ds Hone Hits Hbins Hor Hds Hall Hsmall Hk Hn. destruct (bin_positive i Hone Hbins) as [PX PY].
  assert (D1 : forall x, (x < length (rin_items i))%nat -> 0 < nth x (map ri_x (rin_items i)) 0 /\ 0 < nth x (map ri_y (rin_items i)) 0 /\ 0 <= ri_copies (ritem i x)).
  { intros x Hx. destruct (Hits (ritem i x)) as (A & B & C); [apply nth_In; exact Hx|]. rewrite (nth_indep _ 0 (ri_x dummy_ritem)) by (rewrite map_length; exact Hx). rewrite (nth_indep (map ri_y _) 0 (ri_y dummy_ritem)) by (rewrite map_length; exact Hx).
    rewrite !map_nth. fold (ritem i x). split; [exact A|split; [exact B|lia]]. }
  induction n as [|n IH]; intros it widths heights Hw Hh b Hb; [destruct Hb|]. cbn [cs_loop] in Hb. destruct (lo_end o it); [destruct Hb|]. cbv zeta in Hb.
  set (new_w := scale_lp o i (swidths i) (rb_x (sbin i)) (nth (it - 1) heights []) turns it false) in *. set (new_h := scale_lp o i (sheights i) (rb_y (sbin i)) (nth (it - 1) (widths ++ [new_w]) []) turns it true) in *.
  assert (Cw : conservative i (map ri_x (rin_items i)) (rb_x (rbin i 0)) scale_tol new_w /\ nonneg_scale new_w).
  { split; [apply scale_lp_conservative; [intros x Hx; apply D1, Hx|intros x Hx; apply D1, Hx|unfold sbin; lia|exact Hk]|apply scale_lp_nonneg; [intros x Hx; apply D1, Hx|exact Hn]]. }
  assert (Ch : conservative i (map ri_y (rin_items i)) (rb_y (rbin i 0)) scale_tol new_h /\ nonneg_scale new_h).
  { split; [apply scale_lp_conservative; [intros x Hx; apply D1, Hx|intros x Hx; apply D1, Hx|unfold sbin; lia|exact Hk]|apply scale_lp_nonneg; [intros x Hx; apply D1, Hx|exact Hn]]. }
  assert (Hw' : forall w, In w (widths ++ [new_w]) -> conservative i (map ri_x (rin_items i)) (rb_x (rbin i 0)) scale_tol w /\ nonneg_scale w) by (intros w Hin; apply in_app_or in Hin; destruct Hin as [Hin|[<-|[]]]; [apply Hw, Hin|exact Cw]).
  assert (Hh' : forall h, In h (heights ++ [new_h]) -> conservative i (map ri_y (rin_items i)) (rb_y (rbin i 0)) scale_tol h /\ nonneg_scale h) by (intros h Hin; apply in_app_or in Hin; destruct Hin as [Hin|[<-|[]]]; [apply Hh, Hin|exact Ch]).
  apply in_app_or in Hb. destruct Hb as [Hb|Hb].
  - apply in_map_iff in Hb. destruct Hb as (h & <- & Hin). destruct (Hh h Hin) as [C N]. apply tol_pair_valid; try assumption; apply Cw.
  - apply in_app_or in Hb. destruct Hb as [Hb|Hb].
    + apply in_map_iff in Hb. destruct Hb as (w & <- & Hin). destruct (Hw' w Hin) as [C N]. rewrite bound_comm. apply tol_pair_valid; try assumption; apply Ch.
    + destruct (qlist_eqb _ _ && qlist_eqb _ _); [destruct Hb|]. exact (IH _ _ _ Hw' Hh' b Hb).
Qed.

Lemma all_bounds_valid : forall o i turns iterations ds, length (rin_bins i) = 1%nat -> positive_items i -> positive_bins i -> all_oriented i = true -> packing_ok i ds -> rall_packed i ds ->
  (inject_Z (rbins_used ds) * (inject_Z (rb_x (rbin i 0)) + inject_Z (rb_y (rbin i 0)) + scale_tol) <= inject_Z (rb_x (rbin i 0)) * inject_Z (rb_y (rbin i 0)))%Q ->
  kp_exact o -> lp_nonneg o ->
  forall b, In b (bound_for_pair i (to_q (swidths i)) (to_q (sheights i)) (sarea i) :: cs_loop o i turns iterations 1 [to_q (swidths i)] [to_q (sheights i)]) -> b <= rbins_used ds.
Proof.
  intros o i turns iterations ds Hone Hits Hbins Hor Hds Hall Hsmall Hk Hn b Hb.
  assert (Nw : nonneg_scale (to_q (swidths i))) by (apply to_q_nonneg; intros z Hz; apply in_map_iff in Hz; destruct Hz as (it & <- & Hit); destruct (Hits it Hit); lia).
  assert (Nh : nonneg_scale (to_q (sheights i))) by (apply to_q_nonneg; intros z Hz; apply in_map_iff in Hz; destruct Hz as (it & <- & Hit); destruct (Hits it Hit); lia).
  destruct Hb as [<-|Hb].
  - apply exact_pair_valid; try assumption; apply original_exact.
  - apply (cs_loop_valid o i turns ds Hone Hits Hbins Hor Hds Hall Hsmall Hk Hn iterations 1 [to_q (swidths i)] [to_q (sheights i)]); [| |exact Hb].
    + intros w [<-|[]]. split; [|exact Nw]. apply (conservative_weaken _ _ _ 0); [unfold scale_tol; lra|apply original_exact].
    + intros h [<-|[]]. split; [|exact Nh]. apply (conservative_weaken _ _ _ 0); [unfold scale_tol; lra|apply original_exact].
Qed.

(** Bin packing: no bound given exceeds the number of bins of a packing of all the
    items, if this number times (width + height + 1e-6) is at most the area of a
    bin. *)
Theorem C30_bin_packing_bound : forall o i turns iterations bounds, positive_items i -> positive_bins i -> kp_exact o -> lp_nonneg o ->
  conservative_scales o i turns iterations = Some (CsBounds bounds) ->
  forall ds, packing_ok i ds -> rall_packed i ds ->
  (inject_Z (rbins_used ds) * (inject_Z (rb_x (rbin i 0)) + inject_Z (rb_y (rbin i 0)) + scale_tol) <= inject_Z (rb_x (rbin i 0)) * inject_Z (rb_y (rbin i 0)))%Q ->
  forall b, In b bounds -> b <= rbins_used ds.
Proof.
  intros o i turns iterations bounds Hits Hbins Hk Hn E ds Hds Hall Hsmall b Hb. unfold conservative_scales in E.
  destruct (Nat.eqb_spec (length (rin_bins i)) 1) as [Hone|]; [|discriminate E]. cbn [negb] in E. destruct (all_oriented i) eqn:Hor; [|discriminate E]. cbn [negb] in E. cbv zeta in E.
  destruct (rin_objective i); try discriminate E. injection E as <-.
  exact (all_bounds_valid o i turns iterations ds Hone Hits Hbins Hor Hds Hall Hsmall Hk Hn b Hb).
Qed.

(** Feasibility: an instance declared infeasible has no packing of all its items in
    its bins, under the same condition on the number of bins available. *)
Theorem C30_infeasibility : forall o i turns iterations, positive_items i -> positive_bins i -> kp_exact o -> lp_nonneg o ->
  conservative_scales o i turns iterations = Some (CsInfeasible true) ->
  (inject_Z (rnumber_of_bins i) * (inject_Z (rb_x (rbin i 0)) + inject_Z (rb_y (rbin i 0)) + scale_tol) <= inject_Z (rb_x (rbin i 0)) * inject_Z (rb_y (rbin i 0)))%Q ->
  forall ds, packing_ok i ds -> rall_packed i ds -> rbins_used ds <= rnumber_of_bins i -> False.
Proof.
  intros o i turns iterations Hits Hbins Hk Hn E Hsmall ds Hds Hall Hle. unfold conservative_scales in E.
  destruct (Nat.eqb_spec (length (rin_bins i)) 1) as [Hone|]; [|discriminate E]. cbn [negb] in E. destruct (all_oriented i) eqn:Hor; [|discriminate E]. cbn [negb] in E. cbv zeta in E.
  destruct (rin_objective i); try discriminate E. injection E as E.
  change (existsb (fun b => rnumber_of_bins i <? b) (bound_for_pair i (to_q (swidths i)) (to_q (sheights i)) (sarea i) :: cs_loop o i turns iterations 1 [to_q (swidths i)] [to_q (sheights i)]) = true) in E. apply existsb_exists in E. destruct E as (b & Hb & Hlt). apply Z.ltb_lt in Hlt.
  destruct (bin_positive i Hone Hbins) as [PX PY].
  assert (Hsmall' : (inject_Z (rbins_used ds) * (inject_Z (rb_x (rbin i 0)) + inject_Z (rb_y (rbin i 0)) + scale_tol) <= inject_Z (rb_x (rbin i 0)) * inject_Z (rb_y (rbin i 0)))%Q).
  { eapply Qle_trans; [|exact Hsmall]. assert (L : (inject_Z (rbins_used ds) <= inject_Z (rnumber_of_bins i))%Q) by (rewrite <- Zle_Qle; exact Hle).
    assert (A : (0 < inject_Z (rb_x (rbin i 0)))%Q) by (change 0%Q with (inject_Z 0); rewrite <- Zlt_Qlt; exact PX). assert (B : (0 < inject_Z (rb_y (rbin i 0)))%Q) by (change 0%Q with (inject_Z 0); rewrite <- Zlt_Qlt; exact PY).
    apply Qmult_le_compat_r; [exact L|]. unfold scale_tol. lra. }
  pose proof (all_bounds_valid o i turns iterations ds Hone Hits Hbins Hor Hds Hall Hsmall' Hk Hn b Hb). lia.
Qed.

(** Without the tolerances: two exactly conservative scales give a valid bound,
    whatever the sizes; so do the original lengths. *)
Theorem C30_exact_scales : forall i w h ds, length (rin_bins i) = 1%nat -> positive_items i -> positive_bins i -> all_oriented i = true ->
  conservative i (map ri_x (rin_items i)) (rb_x (rbin i 0)) 0 w -> conservative i (map ri_y (rin_items i)) (rb_y (rbin i 0)) 0 h -> nonneg_scale w -> nonneg_scale h ->
  packing_ok i ds -> rall_packed i ds ->
  bound_for_pair i w h (sarea i) <= rbins_used ds /\ bound_for_pair i (to_q (swidths i)) (to_q (sheights i)) (sarea i) <= rbins_used ds.
Proof.
  intros i w h ds Hone Hits Hbins Hor Cw Ch Nw Nh Hds Hall. split; [apply exact_pair_valid; assumption|].
  apply exact_pair_valid; try assumption; try apply original_exact; apply to_q_nonneg; intros z Hz; apply in_map_iff in Hz; destruct Hz as (it & <- & Hit); destruct (Hits it Hit); lia.
Qed.

(** ** An exact knapsack solver exists *)

Fixpoint kval (ks : list KItem) (s : list Z) : Q :=
  match ks, s with k :: r, c :: t => (ki_value k * inject_Z c + kval r t)%Q | _, _ => 0%Q end.
Fixpoint kargmax (v : list Z -> Q) (d : list Z) (l : list (list Z)) : list Z :=
  match l with [] => d | s :: r => kargmax v (if Qle_bool (v s) (v d) then d else s) r end.
Fixpoint kbest (ks : list KItem) (cap : Z) : list Z :=
  match ks with
  | [] => []
  | k :: r => kargmax (kval (k :: r)) (0 :: kbest r cap)
      (map (fun c => c :: kbest r (cap - ki_len k * c)) (filter (fun c => ki_len k * c <=? cap) (map Z.of_nat (seq 0 (S (Z.to_nat (ki_copies k)))))))
  end.
Fixpoint kassoc (ks : list KItem) (s : list Z) (id : nat) : Z :=
  match ks, s with k :: r, c :: t => if (ki_id k =? id)%nat then c else kassoc r t id | _, _ => 0 end.

Lemma kargmax_ge : forall v l d, (v d <= v (kargmax v d l))%Q /\ (forall s, In s l -> (v s <= v (kargmax v d l))%Q) /\ (kargmax v d l = d \/ In (kargmax v d l) l).
Proof.
  intros v. induction l as [|a l IH]; intros d; [split; [apply Qle_refl|split; [intros s []|left; reflexivity]]|]. cbn [kargmax].
  destruct (Qle_bool (v a) (v d)) eqn:E.
  - apply Qle_bool_iff in E. destruct (IH d) as (I1 & I2 & I3). split; [exact I1|]. split; [intros s [<-|Hs]; [lra|apply I2, Hs]|]. destruct I3 as [I3|I3]; [left; exact I3|right; right; exact I3].
  - apply not_true_iff_false in E. rewrite Qle_bool_iff in E. destruct (IH a) as (I1 & I2 & I3). split; [lra|]. split; [intros s [<-|Hs]; [exact I1|apply I2, Hs]|]. destruct I3 as [I3|I3]; [right; left; symmetry; exact I3|right; right; exact I3].
Qed.

Inductive kfeas : list KItem -> Z -> list Z -> Prop :=
| kf_nil cap : 0 <= cap -> kfeas [] cap []
| kf_cons k r cap c s : 0 <= c <= ki_copies k -> kfeas r (cap - ki_len k * c) s -> kfeas (k :: r) cap (c :: s).

Lemma kbest_feas : forall ks cap, (forall k, In k ks -> 0 < ki_len k /\ 0 <= ki_copies k) -> 0 <= cap -> kfeas ks cap (kbest ks cap).
Proof.
  induction ks as [|k r IH]; intros cap H Hc; [constructor; exact Hc|]. cbn [kbest]. destruct (H k (or_introl eq_refl)) as [H1 H2]. assert (Hr : forall k, In k r -> 0 < ki_len k /\ 0 <= ki_copies k) by (intros; apply H; right; assumption).
  match goal with |- kfeas _ _ (kargmax ?v ?d ?l) => destruct (kargmax_ge v l d) as (_ & _ & [-> |K]) end.
  - constructor; [lia|]. replace (cap - ki_len k * 0) with cap by lia. apply IH; [exact Hr|lia].
  - apply in_map_iff in K. destruct K as (c & <- & Hin). apply filter_In in Hin. destruct Hin as [Hin Hle]. apply Z.leb_le in Hle. apply in_map_iff in Hin. destruct Hin as (m & <- & Hm). apply in_seq in Hm.
    constructor; [lia|]. apply IH; [exact Hr|lia].
Qed.

Lemma kfeas_cap : forall ks cap s, (forall k, In k ks -> 0 < ki_len k /\ 0 <= ki_copies k) -> kfeas ks cap s -> 0 <= cap.
Proof.
  intros ks cap s H F. induction F as [|k r cap c s Hc F IH]; [assumption|]. assert (K : 0 <= cap - ki_len k * c) by (apply IH; intros; apply H; right; assumption).
  destruct (H k (or_introl eq_refl)). nia.
Qed.

Lemma kbest_opt : forall ks cap s, (forall k, In k ks -> 0 < ki_len k /\ 0 <= ki_copies k) -> kfeas ks cap s -> (kval ks s <= kval ks (kbest ks cap))%Q.
Proof.
  intros ks cap s H F. induction F as [|k r cap c s Hc F IH]; [apply Qle_refl|]. cbn [kbest]. destruct (H k (or_introl eq_refl)) as [L1 L2]. assert (Hr : forall k, In k r -> 0 < ki_len k /\ 0 <= ki_copies k) by (intros; apply H; right; assumption).
  pose proof (kfeas_cap _ _ _ Hr F) as N.
  match goal with |- (_ <= kval _ (kargmax ?v ?d ?l))%Q => destruct (kargmax_ge v l d) as (_ & K & _) end.
  apply Qle_trans with (kval (k :: r) (c :: kbest r (cap - ki_len k * c))); [|apply K].
  - cbn [kval]. specialize (IH Hr). lra.
  - apply in_map_iff. exists c. split; [reflexivity|]. apply filter_In. split; [|apply Z.leb_le; lia]. apply in_map_iff. exists (Z.to_nat c). split; [lia|]. apply in_seq. lia.
Qed.

Definition exact_kp (cap : Z) (ks : list KItem) : nat -> Z := kassoc ks (kbest ks cap).

Lemma kassoc_list : forall ks cap s, NoDup (map ki_id ks) -> kfeas ks cap s -> map (fun k => kassoc ks s (ki_id k)) ks = s.
Proof.
  induction ks as [|k r IH]; intros cap s ND F; inversion F; subst; [reflexivity|]. cbn [map] in *. inversion ND as [|? ? N1 N2]; subst. cbn [kassoc]. rewrite Nat.eqb_refl. f_equal.
  match goal with H : kfeas r _ _ |- _ => pose proof (IH _ _ N2 H) as E0 end. etransitivity; [|exact E0]. apply map_ext_in. intros k' Hk'. destruct (Nat.eqb_spec (ki_id k) (ki_id k')) as [E|]; [|reflexivity]. exfalso. apply N1. rewrite E. apply in_map. exact Hk'.
Qed.

Lemma kval_value : forall ks s, (kval ks (map (fun k => s (ki_id k)) ks) == kp_value ks s)%Q.
Proof. intros ks s. unfold kp_value. induction ks as [|k r IH]; [reflexivity|]. cbn [map kval]. rewrite qsum_cons, IH. reflexivity. Qed.

Lemma kfeas_iff : forall ks cap s, (forall k, In k ks -> 0 <= s (ki_id k) <= ki_copies k) -> (zsum (fun k => ki_len k * s (ki_id k)) ks <= cap <-> kfeas ks cap (map (fun k => s (ki_id k)) ks)).
Proof.
  induction ks as [|k r IH]; intros cap s H.
  - cbn. split; [constructor; lia|intro F; inversion F; lia].
  - rewrite zsum_cons. cbn [map]. assert (Hr : forall k, In k r -> 0 <= s (ki_id k) <= ki_copies k) by (intros; apply H; right; assumption). split.
    + intro L. constructor; [apply H; left; reflexivity|]. apply IH; [exact Hr|lia].
    + intro F. inversion F; subst. apply IH in H6; [lia|exact Hr].
Qed.

Lemma kfeas_range : forall ks cap s, kfeas ks cap s -> forall k c, In (k, c) (combine ks s) -> 0 <= c <= ki_copies k.
Proof. intros ks cap s F. induction F; intros k' c' Hin; [destruct Hin|]. destruct Hin as [E|Hin]; [injection E as <- <-; assumption|apply IHF, Hin]. Qed.

Lemma combine_map_in : forall (f : KItem -> Z) ks k, In k ks -> In (k, f k) (combine ks (map f ks)).
Proof. intros f. induction ks as [|a r IH]; intros k Hk; [destruct Hk|]. cbn [map combine]. destruct Hk as [<-|Hk]; [left; reflexivity|right; apply IH, Hk]. Qed.

Lemma exact_kp_ok : forall cap ks, 0 <= cap -> NoDup (map ki_id ks) -> (forall k, In k ks -> 0 < ki_len k /\ 0 <= ki_copies k) ->
  kp_feasible cap ks (exact_kp cap ks) /\ forall s, kp_feasible cap ks s -> (kp_value ks s <= kp_value ks (exact_kp cap ks))%Q.
Proof.
  intros cap ks Hc ND Hks. pose proof (kbest_feas ks cap Hks Hc) as F. pose proof (kassoc_list ks cap _ ND F) as E. split.
  - assert (R : forall k, In k ks -> 0 <= exact_kp cap ks (ki_id k) <= ki_copies k).
    { intros k Hk. apply (kfeas_range ks cap _ F k (exact_kp cap ks (ki_id k))). rewrite <- E. exact (combine_map_in (fun k => kassoc ks (kbest ks cap) (ki_id k)) ks k Hk). }
    split; [exact R|]. apply (kfeas_iff ks cap (exact_kp cap ks) R). unfold exact_kp. rewrite E. exact F.
  - intros s [Hs1 Hs2]. rewrite <- !kval_value. unfold exact_kp. rewrite E. apply kbest_opt; [exact Hks|]. apply (kfeas_iff ks cap s Hs1). exact Hs2.
Qed.

(** ** Examples and refutations *)

Definition scale_oracle (lp : Call -> list Q -> list (list Z) -> list Q) : LOracle := mkLO lp (fun _ cap ks => exact_kp cap ks) (fun _ => false).
Lemma scale_oracle_exact : forall lp, kp_exact (scale_oracle lp).
Proof. intros lp c cap ks H1 H2 H3. apply exact_kp_ok; assumption. Qed.

(** Three 6 x 6 squares in 10 x 10 bins: the area gives 2 bins; with the scales 10
    (any two squares exceed the side) the bound is 3. *)
Definition three_inst (o : Objective) (n : Z) : RInstance := mkRInst o default_params [mkRI 6 6 36 3 3 0 true 0 (-1) [[]]] [mkRB 10 10 100 n 0 None no_truck [] [] []].
Example C30_run : kp_exact (scale_oracle (fun _ _ _ => [10%Q])) /\ lp_nonneg (scale_oracle (fun _ _ _ => [10%Q]))
  /\ conservative_scales (scale_oracle (fun _ _ _ => [10%Q])) (three_inst OBinPacking 4) 5 2 = Some (CsBounds [2; 2; 2; 3; 2; 3; 2; 3; 3])
  /\ conservative_scales (scale_oracle (fun _ _ _ => [10%Q])) (three_inst OFeasibility 2) 5 2 = Some (CsInfeasible true)
  /\ (inject_Z 3 * (inject_Z 10 + inject_Z 10 + scale_tol) <= inject_Z 10 * inject_Z 10)%Q.
Proof.
  split; [apply scale_oracle_exact|]. split; [intros c obj rows [|[|x]]; cbn; unfold Qle; cbn; lia|]. split; [vm_compute; reflexivity|]. split; [vm_compute; reflexivity|]. vm_compute. discriminate.
Qed.

(** Sixty 10 x 10 squares in 10 x 10 bins, and LP solutions that exceed the bounds
    of the variables by 1e-7 (the usual tolerance of an LP solver): the bound is 61
    although 60 bins are enough. *)
Definition tol_inst : RInstance := mkRInst OBinPacking default_params [mkRI 10 10 100 60 60 0 true 0 (-1) [[]]] [mkRB 10 10 100 100 0 None no_truck [] [] []].
Definition tol_lp : Call -> list Q -> list (list Z) -> list Q := fun _ _ _ => [(10 + (1 # 10000000))%Q].
Theorem C30_tolerance_refuted : exists ds bounds, positive_items tol_inst /\ positive_bins tol_inst /\ kp_exact (scale_oracle tol_lp) /\ lp_nonneg (scale_oracle tol_lp)
  /\ packing_ok tol_inst ds /\ rall_packed tol_inst ds /\ rbins_used ds = 60
  /\ conservative_scales (scale_oracle tol_lp) tol_inst (Z.to_nat 10000) 5 = Some (CsBounds bounds) /\ In 61 bounds.
Proof.
  exists [mkRD 0 60 [mkPl 0 0 0 false]], [60; 60; 60; 61; 60; 61; 60; 61; 61].
  split; [intros it [<-|[]]; simpl; lia|]. split; [intros bt [<-|[]]; simpl; lia|]. split; [apply scale_oracle_exact|]. split; [intros c obj rows [|[|x]]; cbn; unfold Qle; cbn; lia|].
  split; [|split; [|split; [reflexivity|split; [vm_compute; reflexivity|cbn; tauto]]]].
  - constructor.
    + intros d [<-|[]]; cbn [rd_type rd_copies rd_items]; (split; [simpl; lia|]); (split; [lia|]); constructor.
      * intros p [<-|[]]; constructor; vm_compute; repeat split; congruence || lia.
      * repeat constructor.
      * intros p d _ [].
    + intros [|x] Hx; vm_compute; try discriminate. simpl in Hx. lia.
  - intros [|x] Hx; try reflexivity. simpl in Hx. lia.
Qed.

(** With fewer mandatory copies than copies, the bound counts all the copies. *)
Theorem C30_optional_copies_refuted : exists i ds bounds, positive_items i /\ positive_bins i
  /\ conservative_scales (scale_oracle (fun _ _ _ => [10%Q])) i 5 2 = Some (CsBounds bounds) /\ packing_ok i ds
  /\ (forall x, (x < length (rin_items i))%nat -> ri_copies_min (ritem i x) <= rpacked x ds)
  /\ (inject_Z (rbins_used ds) * (inject_Z (rb_x (rbin i 0)) + inject_Z (rb_y (rbin i 0)) + scale_tol) <= inject_Z (rb_x (rbin i 0)) * inject_Z (rb_y (rbin i 0)))%Q
  /\ rbins_used ds = 1 /\ In 3 bounds.
Proof.
  exists (mkRInst OBinPacking default_params [mkRI 6 6 36 3 1 0 true 0 (-1) [[]]] [mkRB 10 10 100 4 0 None no_truck [] [] []]), [mkRD 0 1 [mkPl 0 0 0 false]], [2; 2; 2; 3; 2; 3; 2; 3; 3].
  split; [intros it [<-|[]]; simpl; lia|]. split; [intros bt [<-|[]]; simpl; lia|]. split; [vm_compute; reflexivity|].
  split; [|split; [|split; [vm_compute; discriminate|split; [reflexivity|cbn; tauto]]]].
  - constructor.
    + intros d [<-|[]]; cbn [rd_type rd_copies rd_items]; (split; [simpl; lia|]); (split; [lia|]); constructor.
      * intros p [<-|[]]; constructor; vm_compute; repeat split; congruence || lia.
      * repeat constructor.
      * intros p d _ [].
    + intros [|x] Hx; vm_compute; try discriminate. simpl in Hx. lia.
  - intros [|x] Hx; [vm_compute; discriminate|]. simpl in Hx. lia.
Qed.

Print Assumptions C30_scales.
Print Assumptions C30_rows_distinct.
Print Assumptions C30_bin_packing_bound.
Print Assumptions C30_infeasibility.
Print Assumptions C30_exact_scales.
Print Assumptions C30_tolerance_refuted.
Print Assumptions C30_optional_copies_refuted.
