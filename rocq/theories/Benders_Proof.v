(** * Proofs about the cuts of the Benders decomposition *)

From Coq Require Import List ZArith QArith Bool Lia Lqa Arith Permutation.
From Verif Require Import Util Common_Model Common_Spec Common_Proof OneDim_Model OneDim_Spec Milp_Model Milp_Spec
  Rect_Model Rect_Spec RectDff_Model RectDff_Proof RectDff_Props RectSol_Spec Bar_Spec RectBounds_Model RectBounds_Spec Benders_Model Benders_Spec.
Import ListNotations.
Open Scope Z_scope.

(** ** Schedules *)

Definition entry_sum (s : list Q) (n : nat) : Q := qsum (fun k => nth k s (last s 0%Q)) (seq 0 n).

Lemma cut_consumption_entries : forall c count,
  cut_consumption c count = qsum (fun e => entry_sum (snd e) (Z.to_nat (count (fst e)))) (ct_consumption c).
Proof. reflexivity. Qed.

Lemma nth_repeat_one : forall n k, nth k (repeat 1%Q n ++ [0%Q]) 0%Q = if (k <? n)%nat then 1%Q else 0%Q.
Proof.
  induction n as [|n IH]; intros [|k]; try reflexivity.
  - destruct k; reflexivity.
  - cbn [repeat app nth]. rewrite IH. reflexivity.
Qed.

Lemma threshold_sum : forall n c, 0 <= n -> (entry_sum (threshold_schedule n) c == inject_Z (Z.min (Z.of_nat c) n))%Q.
Proof.
  intros n c Hn. unfold entry_sum, threshold_schedule. rewrite last_last.
  induction c as [|c IH].
  - cbn [seq]. rewrite Z.min_l by lia. reflexivity.
  - rewrite seq_S, qsum_snoc, IH. cbn [Nat.add]. rewrite nth_repeat_one.
    destruct (Nat.ltb_spec c (Z.to_nat n)) as [H|H].
    + rewrite !Z.min_l by lia. rewrite Nat2Z.inj_succ. unfold Z.succ. rewrite inject_Z_plus. reflexivity.
    + rewrite !Z.min_r by lia. apply Qplus_0_r.
Qed.

(** ** No-good cuts *)

Lemma no_good_consumption : forall sel count, (forall p, In p sel -> 0 <= snd p) -> (forall x, 0 <= count x) ->
  (cut_consumption (no_good_cut sel) count == inject_Z (zsum (fun p => Z.min (count (fst p)) (snd p)) sel))%Q.
Proof.
  intros sel count Hs Hc. unfold no_good_cut. rewrite cut_consumption_entries. cbn [ct_consumption]. rewrite qsum_map.
  rewrite <- qsum_inject. apply qsum_ext. intros p Hp. cbn [fst snd]. rewrite threshold_sum by (apply Hs; exact Hp).
  rewrite Z2Nat.id by apply Hc. reflexivity.
Qed.

Lemma min_sum_le : forall sel (count : nat -> Z), zsum (fun p => Z.min (count (fst p)) (snd p)) sel <= zsum snd sel.
Proof. intros sel count. apply zsum_le. intros p _. lia. Qed.

Lemma min_sum_full : forall sel (count : nat -> Z), (zsum (fun p => Z.min (count (fst p)) (snd p)) sel = zsum snd sel) <->
  forall p, In p sel -> snd p <= count (fst p).
Proof.
  intros sel count. induction sel as [|p sel IH].
  - split; [intros _ p []|reflexivity].
  - rewrite !zsum_cons. pose proof (min_sum_le sel count) as L. split.
    + intros E q [<-|Hq]; [lia|]. apply IH; [lia|exact Hq].
    + intros H. pose proof (H p (or_introl eq_refl)). assert (E : zsum (fun p => Z.min (count (fst p)) (snd p)) sel = zsum snd sel).
      { apply IH. intros q Hq. apply H. right. exact Hq. }
      lia.
Qed.

Lemma inject_le_minus1 : forall a b, (inject_Z a <= inject_Z b - 1)%Q <-> a <= b - 1.
Proof.
  intros a b. change 1%Q with (inject_Z 1). unfold Qminus. rewrite <- inject_Z_opp, <- inject_Z_plus, <- Zle_Qle. lia.
Qed.

Lemma no_good_exact : forall sel count, (forall p, In p sel -> 0 <= snd p) -> (forall x, 0 <= count x) ->
  ((cut_consumption (no_good_cut sel) count <= ct_capacity (no_good_cut sel))%Q <-> ~ forall p, In p sel -> snd p <= count (fst p)).
Proof.
  intros sel count Hs Hc. rewrite no_good_consumption by assumption. unfold no_good_cut. cbn [ct_capacity].
  rewrite inject_le_minus1. rewrite <- min_sum_full. pose proof (min_sum_le sel count). lia.
Qed.

Lemma rcount_nonneg : forall x ps, 0 <= rcount x ps.
Proof. intros. unfold rcount. lia. Qed.

Lemma selected_out : forall sel x, ~ In x (map fst sel) -> selected sel x = 0.
Proof.
  intros sel x. unfold selected. induction sel as [|q sel IH]; [reflexivity|]. cbn [map]. intro H. rewrite zsum_cons.
  destruct (Nat.eqb_spec (fst q) x) as [E|E]; [exfalso; apply H; left; exact E|]. rewrite IH; [reflexivity|]. intro C. apply H. right. exact C.
Qed.

Lemma selected_in : forall sel p, NoDup (map fst sel) -> In p sel -> selected sel (fst p) = snd p.
Proof.
  intros sel p. induction sel as [|q sel IH]; [intros _ []|]. cbn [map]. intros Hn Hp.
  apply NoDup_cons_iff in Hn. destruct Hn as [Hq Hn]. unfold selected. rewrite zsum_cons. fold (selected sel (fst p)). destruct Hp as [->|Hp].
  - rewrite Nat.eqb_refl, selected_out by exact Hq. lia.
  - destruct (Nat.eqb_spec (fst q) (fst p)) as [E|E]; [exfalso; apply Hq; rewrite E; apply in_map; exact Hp|].
    rewrite IH by assumption. reflexivity.
Qed.

Lemma rcount_pos : forall x ps, 0 < rcount x ps -> exists p, In p ps /\ pl_type p = x.
Proof.
  intros x ps H. unfold rcount in H. destruct (filter (fun p => Nat.eqb (pl_type p) x) ps) as [|p l] eqn:E; [cbn in H; lia|].
  assert (Hp : In p (filter (fun p => Nat.eqb (pl_type p) x) ps)) by (rewrite E; left; reflexivity).
  apply filter_In in Hp. destruct Hp as [Hp Ex]. exists p. split; [exact Hp|apply Nat.eqb_eq; exact Ex].
Qed.

Lemma rcount_cons : forall x p ps, rcount x (p :: ps) = (if Nat.eqb (pl_type p) x then 1 else 0) + rcount x ps.
Proof. intros x p ps. unfold rcount. cbn [filter]. destruct (Nat.eqb (pl_type p) x); cbn [length]; lia. Qed.

Lemma rcount_app : forall x a b, rcount x (a ++ b) = rcount x a + rcount x b.
Proof. intros x a b. induction a as [|p a IH]; [reflexivity|]. cbn [app]. rewrite !rcount_cons, IH. lia. Qed.

Section Cuts.
Variable i : RInstance.
Variable extra : nat -> list Place -> Prop.
Let ni := length (rin_items i).

(** A no-good cut of items that are never together is valid. *)
Lemma no_good_valid : forall t sel, selection_ok i sel -> never_together i extra t sel -> cut_valid i extra t (no_good_cut sel).
Proof.
  intros t sel [Hd Hi] Hn ps Hok. apply no_good_exact.
  - intros p Hp. destruct (Hi p Hp). lia.
  - intro x. apply rcount_nonneg.
  - intro H. apply (Hn ps Hok). intros x Hx. destruct (in_dec Nat.eq_dec x (map fst sel)) as [I|I].
    + apply in_map_iff in I. destruct I as (p & <- & Hp). rewrite (selected_in sel p Hd Hp). apply H. exact Hp.
    + rewrite selected_out by exact I. apply rcount_nonneg.
Qed.

(** ** Pairs of incompatible items *)


(** Two different places hold the two items. *)
Lemma two_places : forall (R : Place -> Place -> Prop) x y ps, ForallOrdPairs R ps ->
  0 < rcount x ps -> 0 < rcount y ps -> (x = y -> 1 < rcount x ps) ->
  exists p q, In p ps /\ In q ps /\ pl_type p = x /\ pl_type q = y /\ (R p q \/ R q p).
Proof.
  intros R x y ps H. induction H as [|p ps Hp H IH]; intros Hx Hy Hxy.
  - unfold rcount in Hx. cbn in Hx. lia.
  - rewrite !rcount_cons in *. rewrite Forall_forall in Hp.
    destruct (Nat.eqb_spec (pl_type p) x) as [Ex|Ex]; [|destruct (Nat.eqb_spec (pl_type p) y) as [Ey|Ey]].
    + assert (Hq : 0 < rcount y ps).
      { destruct (Nat.eq_dec x y) as [<-|Hn]; [specialize (Hxy eq_refl); lia|].
        destruct (Nat.eqb_spec (pl_type p) y); [congruence|lia]. }
      destruct (rcount_pos y ps Hq) as (q & Hq1 & Hq2). exists p, q. repeat split; try assumption; [left; reflexivity|right; exact Hq1|].
      left. apply Hp. exact Hq1.
    + destruct (rcount_pos x ps ltac:(lia)) as (q & Hq1 & Hq2). exists q, p. repeat split; try assumption; [right; exact Hq1|left; reflexivity|].
      right. apply Hp. exact Hq1.
    + destruct IH as (q & r & A & B & C); [lia|lia|intro E; specialize (Hxy E); lia|].
      exists q, r. split; [right; exact A|]. split; [right; exact B|exact C].
Qed.

Lemma disjoint_fit : forall bt p q, place_ok i bt p -> place_ok i bt q -> disjoint i p q \/ disjoint i q p ->
  pl_w i p + pl_w i q <= rb_x bt \/ pl_h i p + pl_h i q <= rb_y bt.
Proof.
  intros bt p q [_ [A1 A2] [A3 A4] _] [_ [B1 B2] [B3 B4] _] H. unfold disjoint, pl_xe, pl_ye in *. lia.
Qed.

Lemma incompatible_never : forall t x y ps, same_orientation i -> bin_ok i extra t ps ->
  (x < ni)%nat -> (y < ni)%nat -> items_incompatible (ritem i x) (ritem i y) (rbin i t) = true ->
  0 < rcount x ps -> 0 < rcount y ps -> (x = y -> 1 < rcount x ps) -> False.
Proof.
  intros t x y ps Ho Hok Hx Hy Hinc Cx Cy Cxy. destruct (bo_geometry _ _ _ _ Hok) as [G1 G2 _].
  destruct (two_places (disjoint i) x y ps G2 Cx Cy Cxy) as (p & q & Hp & Hq & Tp & Tq & D).
  pose proof (disjoint_fit _ p q (G1 p Hp) (G1 q Hq) D) as F. pose proof (pk_rot _ _ _ (G1 p Hp)) as Rp. pose proof (pk_rot _ _ _ (G1 q Hq)) as Rq.
  unfold pl_w, pl_h in F. rewrite Tp in *. rewrite Tq in *. unfold items_incompatible, ri_min, ri_max in Hinc.
  destruct Ho as [O|O]; pose proof (O (ritem i x) (nth_In _ _ Hx)) as Ox; pose proof (O (ritem i y) (nth_In _ _ Hy)) as Oy; rewrite Ox, Oy in *; cbn [negb andb orb] in Hinc.
  - rewrite !orb_false_r in Hinc. apply andb_prop in Hinc. destruct Hinc as [I1 I2]. apply Z.ltb_lt in I1. apply Z.ltb_lt in I2.
    destruct (pl_rot p); [discriminate (Rp eq_refl)|]. destruct (pl_rot q); [discriminate (Rq eq_refl)|]. lia.
  - rewrite !orb_false_r in Hinc. apply Z.ltb_lt in Hinc. destruct (pl_rot p), (pl_rot q); lia.
Qed.

Lemma static_valid : forall t c, same_orientation i -> In c (static_cuts i t) -> cut_valid i extra t c.
Proof.
  intros t c Ho Hc ps Hok. unfold static_cuts in Hc. apply in_flat_map in Hc. destruct Hc as (x1 & H1 & Hc).
  destruct (negb (fits_bin i x1 t)); [destruct Hc|]. apply in_flat_map in Hc. destruct Hc as (x2 & H2 & Hc).
  destruct (negb (fits_bin i x2 t)); [destruct Hc|]. destruct (items_incompatible (ritem i x1) (ritem i x2) (rbin i t)) eqn:E; [|destruct Hc].
  cbn [negb] in Hc. apply in_seq in H1. apply in_seq in H2. fold ni in H1, H2.
  rewrite cut_consumption_entries.
  destruct (Nat.eqb_spec x2 x1) as [->|Hn]; destruct Hc as [<-|[]]; cbn [ct_consumption ct_capacity].
  - rewrite qsum_cons. cbn [fst snd]. rewrite threshold_sum by lia. rewrite Z2Nat.id by apply rcount_nonneg.
    change (qsum _ []) with 0%Q. rewrite Qplus_0_r. change 1%Q with (inject_Z 1). rewrite <- Zle_Qle.
    destruct (Z.le_gt_cases (rcount x1 ps) 1) as [L|L]; [lia|]. exfalso.
    apply (incompatible_never t x1 x1 ps); try assumption; try lia.
  - rewrite !qsum_cons. cbn [fst snd]. rewrite !threshold_sum by lia. rewrite !Z2Nat.id by apply rcount_nonneg.
    change (qsum _ []) with 0%Q. rewrite Qplus_0_r. rewrite <- inject_Z_plus. change 1%Q with (inject_Z 1). rewrite <- Zle_Qle.
    destruct (Z.le_gt_cases (rcount x1 ps) 0) as [L|L]; [lia|]. destruct (Z.le_gt_cases (rcount x2 ps) 0) as [L2|L2]; [lia|]. exfalso.
    apply (incompatible_never t x1 x2 ps); try assumption; lia.
Qed.

(** ** Cuts of dual feasible functions *)

Lemma sum_by_type : forall (f : nat -> Z) ps, (forall p, In p ps -> (pl_type p < ni)%nat) ->
  zsum (fun p => f (pl_type p)) ps = zsum (fun x => rcount x ps * f x) (seq 0 ni).
Proof.
  intros f ps H. pose proof (rpacked_sum ni [mkRD 0 1 ps] f) as E. rewrite zsum_cons, zsum_nil in E. cbn [rd_copies rd_items] in E.
  rewrite (zsum_ext _ (fun j => rpacked j [mkRD 0 1 ps] * f j) (fun x => rcount x ps * f x)) in E.
  - rewrite E; [lia|]. intros d [<-|[]] p Hp. apply H. exact Hp.
  - intros x _. unfold rpacked. rewrite zsum_cons, zsum_nil. cbn [rd_copies rd_items]. lia.
Qed.

Lemma entry_const : forall q n, (entry_sum [q] n == inject_Z (Z.of_nat n) * q)%Q.
Proof.
  intros q n. unfold entry_sum. rewrite (qsum_ext _ _ (fun _ => q)).
  - induction n as [|n IH]; [cbn; ring|]. rewrite seq_S, qsum_snoc, IH. rewrite Nat2Z.inj_succ. unfold Z.succ. rewrite inject_Z_plus. ring.
  - intros k _. destruct k as [|[|k]]; reflexivity.
Qed.

Lemma qsum_flat : forall (A B : Type) (f : B -> Q) (g : A -> list B) l, (qsum f (flat_map g l) == qsum (fun x => qsum f (g x)) l)%Q.
Proof.
  intros A B f g l. induction l as [|x l IH]; [reflexivity|]. cbn [flat_map]. rewrite qsum_app, IH, qsum_cons. reflexivity.
Qed.

Lemma dff_consumption : forall c count, (forall x, 0 <= count x) ->
  (cut_consumption (dff_resource i c) count == inject_Z (zsum (fun x => (count x * nth x (cut_coefficients c) 0)%Z) (seq 0 ni)))%Q.
Proof.
  intros c count Hc. unfold dff_resource. rewrite cut_consumption_entries. cbn [ct_consumption]. rewrite qsum_flat, <- qsum_inject.
  apply qsum_ext. intros x _. cbv zeta. destruct (Z.eqb_spec (nth x (cut_coefficients c) 0) 0) as [E|E].
  - rewrite E, Z.mul_0_r. reflexivity.
  - rewrite qsum_cons. cbn [fst snd]. rewrite entry_const, Z2Nat.id by apply Hc. change (qsum _ []) with 0%Q. rewrite inject_Z_mult. ring.
Qed.

Lemma dff_valid : forall t sel c, positive_items i -> positive_bins i -> (t < length (rin_bins i))%nat ->
  find_most_violated_cut i t sel = Some c -> cut_found c = true -> cut_valid i extra t (dff_resource i c).
Proof.
  intros t sel c Hi Hb Ht E Hf ps Hok. destruct (C19_cut i t sel Hi Hb Ht) as (c' & E' & HC). rewrite E in E'. injection E' as <-.
  destruct (HC Hf) as (_ & _ & _ & _ & HV). rewrite dff_consumption by (intro; apply rcount_nonneg). unfold dff_resource. cbn [ct_capacity].
  rewrite <- Zle_Qle. rewrite <- (sum_by_type (fun x => nth x (cut_coefficients c) 0)).
  - apply HV; [apply (bo_geometry _ _ _ _ Hok)|apply (bo_copies _ _ _ _ Hok)].
  - intros p Hp. apply (pk_type _ _ _ (ge_places _ _ _ (bo_geometry _ _ _ _ Hok) p Hp)).
Qed.

(** The selection is cut off. *)
Lemma dff_violated : forall t sel c count, positive_items i -> positive_bins i -> (t < length (rin_bins i))%nat ->
  find_most_violated_cut i t sel = Some c -> cut_found c = true ->
  (forall x, 0 <= count x) -> (zsum (fun x => count x * nth x (cut_coefficients c) 0) (seq 0 ni) = zsum (fun p => snd p * nth (fst p) (cut_coefficients c) 0) sel) ->
  ~ (cut_consumption (dff_resource i c) count <= ct_capacity (dff_resource i c))%Q.
Proof.
  intros t sel c count Hi Hb Ht E Hf Hc Es. destruct (C19_cut i t sel Hi Hb Ht) as (c' & E' & HC). rewrite E in E'. injection E' as <-.
  destruct (HC Hf) as (_ & _ & Hv & Hs & _). rewrite dff_consumption by exact Hc. unfold dff_resource. cbn [ct_capacity]. rewrite <- Zle_Qle. lia.
Qed.

End Cuts.
