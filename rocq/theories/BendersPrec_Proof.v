(** * The precedences added to the master of a knapsack cut off no best packing *)

From Coq Require Import List ZArith QArith Bool Lia Lqa Arith.
From Verif Require Import Util Common_Model Common_Spec Common_Proof OneDim_Model OneDim_Spec Milp_Model Milp_Spec
  Rect_Model Rect_Spec RectDff_Model RectDff_Proof RectSol_Spec Bar_Spec RectBounds_Model RectBounds_Spec RectBounds_Proof
  Benders_Model Benders_Spec Benders_Proof.
Import ListNotations.
Open Scope Z_scope.

Section Prec.
Variable i : RInstance.
Let ni := length (rin_items i).
Let nb := length (rin_bins i).

(** ** Footprints *)

(** [it2] fits in the rectangle [f]. *)
Definition fits_in (it2 : RItem) (f : Z * Z) : Prop := exists g, In g (footprints it2) /\ fst g <= fst f /\ snd g <= snd f.

Lemma fits_footprint : forall it2 it1, fits_footprint_of it2 it1 = true <-> forall f, In f (footprints it1) -> fits_in it2 f.
Proof.
  intros it2 it1. unfold fits_footprint_of. rewrite forallb_forall. split; intros H f Hf; specialize (H f Hf).
  - apply orb_true_iff in H. destruct H as [H|H].
    + apply andb_true_iff in H. destruct H as [A B]. apply Z.leb_le in A, B. exists (ri_x it2, ri_y it2). split; [left; reflexivity|]. split; assumption.
    + apply andb_true_iff in H. destruct H as [H B]. apply andb_true_iff in H. destruct H as [N A]. apply negb_true_iff in N. apply Z.leb_le in A, B.
      exists (ri_y it2, ri_x it2). split; [unfold footprints; rewrite N; right; left; reflexivity|]. split; assumption.
  - destruct H as (g & Hg & A & B). unfold footprints in Hg. apply orb_true_iff. destruct Hg as [<-|Hg].
    + left. apply andb_true_iff. split; apply Z.leb_le; assumption.
    + destruct (ri_oriented it2); [destruct Hg|]. destruct Hg as [<-|[]]. right. cbn [negb andb]. apply andb_true_iff. split; apply Z.leb_le; assumption.
Qed.

Lemma fits_trans : forall a b c, fits_footprint_of b a = true -> fits_footprint_of c b = true -> fits_footprint_of c a = true.
Proof.
  intros a b c H1 H2. rewrite fits_footprint in *. intros f Hf. destruct (H1 f Hf) as (g & Hg & A & B). destruct (H2 g Hg) as (h & Hh & C & D).
  exists h. split; [exact Hh|]. lia.
Qed.

(** ** The relation is a strict order *)

Record prec_facts (a b : nat) : Prop := {
  pf_profit : (ri_profit (ritem i a) <= ri_profit (ritem i b))%Q;
  pf_fits : fits_footprint_of (ritem i b) (ritem i a) = true;
  pf_tie : (ri_profit (ritem i b) == ri_profit (ritem i a))%Q -> fits_footprint_of (ritem i a) (ritem i b) = true -> (b < a)%nat;
  pf_diff : a <> b;
  pf_some : existsb (fun t => fits_bin i a t) (seq 0 nb) = true;
  pf_bins : forall t, (t < nb)%nat -> fits_bin i a t = true -> fits_bin i b t = true
}.

Lemma prec_iff : forall a b, precedence i a b = true <-> prec_facts a b.
Proof.
  intros a b. unfold precedence. fold nb. rewrite !andb_true_iff. split.
  - intros (((((A & B) & C) & D) & E) & F). apply negb_true_iff in A, B, D. apply Nat.eqb_neq in A. apply Qltb_ge in B. constructor; try assumption; try congruence.
    + intros Q G. apply Qeq_bool_iff in Q. rewrite Q, G in D. cbn [andb] in D. apply Nat.leb_gt in D. exact D.
    + intros t Ht G. rewrite forallb_forall in F. specialize (F t). rewrite G in F. cbn [negb orb] in F. apply F. apply in_seq. lia.
  - intros [A B C D E F]. repeat (split; [|]); try assumption.
    + apply negb_true_iff, Nat.eqb_neq. congruence.
    + apply negb_true_iff, Qltb_ge. exact A.
    + apply negb_true_iff. destruct (Qeq_bool (ri_profit (ritem i b)) (ri_profit (ritem i a))) eqn:Q; [|reflexivity].
      destruct (fits_footprint_of (ritem i a) (ritem i b)) eqn:G; [|reflexivity]. cbn [andb]. apply Qeq_bool_iff in Q. specialize (C Q eq_refl). apply Nat.leb_gt. exact C.
    + apply forallb_forall. intros t Ht. apply in_seq in Ht. destruct (fits_bin i a t) eqn:G; [|reflexivity]. cbn [negb orb]. apply F; [lia|exact G].
Qed.

Lemma prec_irrefl : forall a, precedence i a a = false.
Proof. intro a. destruct (precedence i a a) eqn:E; [|reflexivity]. apply prec_iff in E. destruct (pf_diff _ _ E). reflexivity. Qed.

Lemma prec_trans : forall a b c, precedence i a b = true -> precedence i b c = true -> precedence i a c = true.
Proof.
  intros a b c H1 H2. apply prec_iff in H1, H2. apply prec_iff. destruct H1 as [A1 B1 C1 D1 E1 F1]. destruct H2 as [A2 B2 C2 D2 E2 F2].
  assert (T : (ri_profit (ritem i c) == ri_profit (ritem i a))%Q -> fits_footprint_of (ritem i a) (ritem i c) = true -> (c < a)%nat).
  { intros Q G. assert (Q1 : (ri_profit (ritem i b) == ri_profit (ritem i a))%Q) by lra. assert (Q2 : (ri_profit (ritem i c) == ri_profit (ritem i b))%Q) by lra.
    pose proof (C1 Q1 (fits_trans _ _ _ B2 G)). pose proof (C2 Q2 (fits_trans _ _ _ G B1)). lia. }
  constructor.
  - lra.
  - apply (fits_trans _ _ _ B1 B2).
  - exact T.
  - intro E. subst c. assert (Q1 : (ri_profit (ritem i b) == ri_profit (ritem i a))%Q) by lra. assert (Q2 : (ri_profit (ritem i a) == ri_profit (ritem i b))%Q) by lra.
    pose proof (C1 Q1 B2). pose proof (C2 Q2 B1). lia.
  - exact E1.
  - intros t Ht G. apply F2; [exact Ht|]. apply F1; assumption.
Qed.

Definition rank (x : nat) : Z := Z.of_nat (length (filter (precedence i x) (seq 0 ni))).

Lemma filter_strict : forall (f g : nat -> bool) l, (forall y, f y = true -> g y = true) ->
  (length (filter f l) <= length (filter g l))%nat /\ ((exists z, In z l /\ g z = true /\ f z = false) -> (length (filter f l) < length (filter g l))%nat).
Proof.
  intros f g l H. induction l as [|y l IH]; [split; [cbn; lia|intros (z & [] & _)]|]. destruct IH as [IH1 IH2]. cbn [filter].
  destruct (f y) eqn:Fy; [rewrite (H y Fy); cbn [length]; split; [lia|]|].
  - intros (z & [->|Hz] & G & F); [congruence|]. apply -> Nat.succ_lt_mono. apply IH2. exists z. tauto.
  - destruct (g y) eqn:Gy; cbn [length]; split; try lia.
    intros (z & [->|Hz] & G & F); [congruence|]. apply IH2. exists z. tauto.
Qed.

Lemma rank_lt : forall a b, (b < ni)%nat -> precedence i a b = true -> rank b < rank a.
Proof.
  intros a b Hb H. unfold rank. apply Nat2Z.inj_lt. apply filter_strict.
  - intros y Hy. apply (prec_trans a b y H Hy).
  - exists b. split; [apply in_seq; lia|]. split; [exact H|apply prec_irrefl].
Qed.

(** ** One exchange *)

Variable extra : nat -> list Place -> Prop.
Hypothesis Hplain : plain_items i extra.
Hypothesis Hknap : rin_objective i = OKnapsack.

(** Packings in the making: one copy per bin. *)
Record unit_packing (ds : list RDesc) : Prop := {
  up_bins : forall d, In d ds -> (rd_type d < nb)%nat /\ rd_copies d = 1 /\ geometry_ok i (rbin i (rd_type d)) (rd_items d)
    /\ forall p, In p (rd_items d) -> ri_eligibility (ritem i (pl_type p)) = -1
       \/ In (ri_eligibility (ritem i (pl_type p))) (rb_eligibility_ids (rbin i (rd_type d)));
  up_copies : forall x, (x < ni)%nat -> rpacked x ds <= ri_copies (ritem i x);
  up_used : forall t, (t < nb)%nat -> rb_copies_min (rbin i t) <= rused_bins t ds <= rb_copies (rbin i t)
}.

Definition total_rank (ds : list RDesc) : Z := zsum (fun d => zsum (fun p => rank (pl_type p)) (rd_items d)) ds.

Lemma rank_nonneg : forall x, 0 <= rank x.
Proof. intro x. unfold rank. lia. Qed.
Lemma total_rank_nonneg : forall ds, 0 <= total_rank ds.
Proof. intro ds. apply zsum_nonneg. intros d _. apply zsum_nonneg. intros p _. apply rank_nonneg. Qed.

Lemma no_penalties : forall d, (rd_type d < nb)%nat -> (rpenalties i d == 0)%Q.
Proof. intros d Ht. unfold rpenalties. rewrite (pl_no_resources i extra Hplain (rbin i (rd_type d)) (nth_In _ _ Ht)). reflexivity. Qed.

(** A place of the dominating type inside a place of the dominated one. *)
Lemma replace_place : forall bt a b p, prec_facts a b -> (b < ni)%nat -> pl_type p = a -> place_ok i bt p ->
  exists p', pl_type p' = b /\ place_ok i bt p' /\ pl_x p' = pl_x p /\ pl_y p' = pl_y p /\ pl_w i p' <= pl_w i p /\ pl_h i p' <= pl_h i p.
Proof.
  intros bt a b p F Hb Ea [T [X1 X2] [Y1 Y2] R]. pose proof (pf_fits _ _ F) as G. rewrite fits_footprint in G.
  assert (I : In (pl_w i p, pl_h i p) (footprints (ritem i a))).
  { unfold pl_w, pl_h, footprints. rewrite Ea in *. destruct (pl_rot p); [|left; reflexivity]. rewrite (R eq_refl). right. left. reflexivity. }
  destruct (G _ I) as (g & Hg & A & B). cbn [fst snd] in A, B.
  assert (K : exists rot, (rot = true -> ri_oriented (ritem i b) = false) /\ (if rot then ri_y (ritem i b) else ri_x (ritem i b)) = fst g /\ (if rot then ri_x (ritem i b) else ri_y (ritem i b)) = snd g).
  { unfold footprints in Hg. destruct Hg as [<-|Hg]; [exists false; split; [discriminate|]; split; reflexivity|].
    destruct (ri_oriented (ritem i b)); [destruct Hg|]. destruct Hg as [<-|[]]. exists true. split; [reflexivity|]. split; reflexivity. }
  destruct K as (rot & K1 & K2 & K3). exists (mkPl b (pl_x p) (pl_y p) rot).
  assert (W : pl_w i (mkPl b (pl_x p) (pl_y p) rot) <= pl_w i p) by (unfold pl_w at 1; cbn [pl_rot pl_type]; rewrite K2; exact A).
  assert (H : pl_h i (mkPl b (pl_x p) (pl_y p) rot) <= pl_h i p) by (unfold pl_h at 1; cbn [pl_rot pl_type]; rewrite K3; exact B).
  split; [reflexivity|]. split; [|split; [reflexivity|split; [reflexivity|split; assumption]]].
  unfold pl_xe, pl_ye in *. constructor; unfold pl_xe, pl_ye; cbn [pl_type pl_x pl_y pl_rot].
  - exact Hb.
  - split; [exact X1|]. lia.
  - split; [exact Y1|]. lia.
  - exact K1.
Qed.

Lemma pairs_middle : forall (R : Place -> Place -> Prop) q1 p p' q2, (forall q, In q (q1 ++ q2) -> (R q p -> R q p') /\ (R p q -> R p' q)) ->
  ForallOrdPairs R (q1 ++ p :: q2) -> ForallOrdPairs R (q1 ++ p' :: q2).
Proof.
  intros R q1. induction q1 as [|q q1 IH]; intros p p' q2 H F.
  - cbn [app] in *. inversion F; subst. constructor; [|assumption]. rewrite Forall_forall in *. intros y Hy. apply (H y Hy). apply H2. exact Hy.
  - cbn [app] in *. inversion F; subst. constructor.
    + rewrite Forall_forall in *. intros y Hy. apply in_app_iff in Hy. destruct Hy as [Hy|[<-|Hy]].
      * apply H2. apply in_app_iff. left. exact Hy.
      * apply (H q (or_introl eq_refl)). apply H2. apply in_elt.
      * apply H2. apply in_app_iff. right. right. exact Hy.
    + apply (IH p p' q2); [|assumption]. intros y Hy. apply H. right. exact Hy.
Qed.

Lemma exchange : forall ds a b, unit_packing ds -> (b < ni)%nat -> precedence i a b = true -> 0 < rpacked a ds -> rpacked b ds < ri_copies (ritem i b) ->
  exists ds', unit_packing ds' /\ (bd_profit i ds <= bd_profit i ds')%Q /\ total_rank ds' < total_rank ds.
Proof.
  intros ds a b [U1 U2 U3] Hb Hprec Ha Hlt. pose proof Hprec as F. apply prec_iff in F.
  assert (E : exists d, In d ds /\ 0 < rcount a (rd_items d)).
  { destruct (existsb (fun d => 0 <? rcount a (rd_items d)) ds) eqn:X.
    - apply existsb_exists in X. destruct X as (d & A & B). apply Z.ltb_lt in B. exists d. split; assumption.
    - exfalso. assert (Z0 : rpacked a ds = 0); [|lia]. unfold rpacked. apply Dff_Axis.zsum_zero. intros d Hd.
      assert (N : (0 <? rcount a (rd_items d)) = false) by (destruct (0 <? rcount a (rd_items d)) eqn:Y; [|reflexivity]; assert (existsb (fun d => 0 <? rcount a (rd_items d)) ds = true) by (apply existsb_exists; exists d; split; assumption); congruence).
      apply Z.ltb_ge in N. pose proof (rcount_nonneg a (rd_items d)). replace (rcount a (rd_items d)) with 0 by lia. lia. }
  destruct E as (d & Hd & Hc). apply rcount_pos in Hc. destruct Hc as (p & Hp & Ep).
  destruct (U1 d Hd) as (Ht & Hone & [G1 G2 G3] & Hel).
  destruct (replace_place (rbin i (rd_type d)) a b p F Hb Ep (G1 p Hp)) as (p' & Ep' & Pok & Px & Py & Pw & Ph).
  apply in_split in Hd. destruct Hd as (l1 & l2 & ->). apply in_split in Hp. destruct Hp as (q1 & q2 & Eq).
  set (d' := mkRD (rd_type d) 1 (q1 ++ p' :: q2)).
  exists (l1 ++ d' :: l2).
  assert (Cnt : forall x, rcount x (rd_items d') = rcount x (rd_items d) - (if Nat.eqb a x then 1 else 0) + (if Nat.eqb b x then 1 else 0)).
  { intro x. unfold d'. cbn [rd_items]. rewrite Eq, !rcount_app, !rcount_cons, Ep, Ep'. lia. }
  assert (Pk : forall x, rpacked x (l1 ++ d' :: l2) = rpacked x (l1 ++ d :: l2) - (if Nat.eqb a x then 1 else 0) + (if Nat.eqb b x then 1 else 0)).
  { intro x. unfold rpacked. rewrite !zsum_app, !zsum_cons, Cnt, Hone. change (rd_copies d') with 1. lia. }
  split; [|split].
  - constructor.
    + intros e He. apply in_app_iff in He. destruct He as [He|[<-|He]]; [apply U1; apply in_app_iff; left; exact He| |apply U1; apply in_app_iff; right; right; exact He].
      unfold d'. cbn [rd_type rd_copies rd_items]. split; [exact Ht|]. split; [reflexivity|].
      rewrite Eq in *. split.
      * constructor.
        -- intros q Hq. apply in_app_iff in Hq. destruct Hq as [Hq|[<-|Hq]]; [apply G1; apply in_app_iff; left; exact Hq|exact Pok|apply G1; apply in_app_iff; right; right; exact Hq].
        -- apply (pairs_middle _ q1 p p' q2); [|exact G2]. intros q _. unfold disjoint, pl_xe, pl_ye. rewrite Px, Py. split; intro; lia.
        -- intros q df Hq Hdf. apply in_app_iff in Hq. destruct Hq as [Hq|[<-|Hq]]; [apply G3; [apply in_app_iff; left; exact Hq|exact Hdf]| |apply G3; [apply in_app_iff; right; right; exact Hq|exact Hdf]].
           pose proof (G3 p df (in_elt _ _ _) Hdf) as V. unfold avoids, pl_xe, pl_ye in *. rewrite Px, Py. lia.
      * intros q Hq. apply in_app_iff in Hq. destruct Hq as [Hq|[<-|Hq]]; [apply Hel; apply in_app_iff; left; exact Hq| |apply Hel; apply in_app_iff; right; right; exact Hq].
        rewrite Ep'. assert (Fa : fits_bin i a (rd_type d) = true).
        { pose proof (G1 p (in_elt _ _ _)) as [T [X1 X2] [Y1 Y2] R]. rewrite Ep in *. unfold fits_bin, ritem_fits. apply andb_true_iff. split.
          - unfold pl_xe, pl_w, pl_ye, pl_h in *. rewrite Ep in *. destruct (pl_rot p).
            + rewrite (R eq_refl). apply orb_true_iff. right. cbn [negb andb]. apply andb_true_iff. split; apply Z.leb_le; lia.
            + apply orb_true_iff. left. apply andb_true_iff. split; apply Z.leb_le; lia.
          - unfold religible. apply orb_true_iff. pose proof (Hel p (in_elt _ _ _)) as E. rewrite Ep in E. destruct E as [E|E]; [left; apply Z.eqb_eq; exact E|right].
            apply existsb_exists. exists (ri_eligibility (ritem i a)). split; [exact E|apply Z.eqb_refl]. }
        pose proof (pf_bins _ _ F (rd_type d) Ht Fa) as Fb. unfold fits_bin, ritem_fits in Fb. apply andb_true_iff in Fb. destruct Fb as [_ Fb].
        unfold religible in Fb. apply orb_true_iff in Fb. destruct Fb as [Fb|Fb]; [left; apply Z.eqb_eq; exact Fb|right].
        apply existsb_exists in Fb. destruct Fb as (z & Hz & Ez). apply Z.eqb_eq in Ez. rewrite Ez. exact Hz.
    + intros x Hx. rewrite Pk. specialize (U2 x Hx). destruct (Nat.eqb_spec b x) as [<-|N]; [destruct (Nat.eqb a b)|destruct (Nat.eqb a x)]; lia.
    + intros t Htt. specialize (U3 t Htt). unfold rused_bins in *. rewrite zsum_app, zsum_cons in *. unfold d' at 1 2. cbn [rd_type rd_copies]. rewrite Hone in U3. exact U3.
  - unfold bd_profit. rewrite !qsum_app, !qsum_cons.
    rewrite (no_penalties d Ht), (no_penalties d' Ht). rewrite Hone. change (rd_copies d') with 1. unfold d'. cbn [rd_items]. rewrite Eq, !qsum_app, !qsum_cons, Ep, Ep'.
    pose proof (pf_profit _ _ F). change (inject_Z 1) with 1%Q. lra.
  - unfold total_rank. rewrite !zsum_app, !zsum_cons. unfold d'. cbn [rd_items]. rewrite Eq, !zsum_app, !zsum_cons, Ep, Ep'. pose proof (rank_lt a b Hb Hprec). lia.
Qed.

Lemma in_precedences : forall a b, In (a, b) (precedences i) -> (a < ni)%nat /\ (b < ni)%nat /\ precedence i a b = true.
Proof.
  intros a b H. unfold precedences in H. rewrite Hknap in H. apply in_flat_map in H. destruct H as (x & Hx & H). apply in_map_iff in H. destruct H as (y & E & Hy).
  injection E as -> ->. apply filter_In in Hy. destruct Hy as [Hy P]. apply in_seq in Hx, Hy. fold ni in Hx, Hy. split; [lia|]. split; [lia|exact P].
Qed.

(** Exchanges until the precedences hold. *)
Lemma exchanges : forall n ds, (Z.to_nat (total_rank ds) <= n)%nat -> unit_packing ds ->
  exists ds', unit_packing ds' /\ (bd_profit i ds <= bd_profit i ds')%Q /\
    forall a b, In (a, b) (precedences i) -> 0 < rpacked a ds' -> rpacked b ds' = ri_copies (ritem i b).
Proof.
  intro n. induction n as [|n IH]; intros ds Hn U.
  all: destruct (existsb (fun ab => (0 <? rpacked (fst ab) ds) && (rpacked (snd ab) ds <? ri_copies (ritem i (snd ab)))) (precedences i)) eqn:X.
  all: try (exists ds; split; [exact U|]; split; [apply Qle_refl|]; intros a b Hab Ha; destruct (in_precedences a b Hab) as (_ & Hb & _);
    pose proof (up_copies ds U b Hb); destruct (Z.lt_ge_cases (rpacked b ds) (ri_copies (ritem i b))) as [L|L]; [|lia]; exfalso;
    assert (existsb (fun ab => (0 <? rpacked (fst ab) ds) && (rpacked (snd ab) ds <? ri_copies (ritem i (snd ab)))) (precedences i) = true)
      by (apply existsb_exists; exists (a, b); split; [exact Hab|]; cbn [fst snd]; apply andb_true_iff; split; apply Z.ltb_lt; assumption); congruence).
  all: apply existsb_exists in X; destruct X as ((a & b) & Hab & X); cbn [fst snd] in X; apply andb_true_iff in X; destruct X as [X1 X2]; apply Z.ltb_lt in X1, X2.
  all: destruct (in_precedences a b Hab) as (_ & Hb & P); destruct (exchange ds a b U Hb P X1 X2) as (ds1 & U' & V & R).
  all: pose proof (total_rank_nonneg ds1).
  - lia.
  - destruct (IH ds1 ltac:(lia) U') as (ds2 & U2 & V2 & Q). exists ds2. split; [exact U2|]. split; [eapply Qle_trans; eassumption|exact Q].
Qed.

(** ** Bins one by one *)

Definition units (ds : list RDesc) : list RDesc := flat_map (fun d => repeat (mkRD (rd_type d) 1 (rd_items d)) (Z.to_nat (rd_copies d))) ds.

Lemma units_packed : forall ds x, (forall d, In d ds -> 1 <= rd_copies d) -> rpacked x (units ds) = rpacked x ds.
Proof.
  intros ds x H. unfold rpacked, units. rewrite zsum_flat_map. apply zsum_ext. intros d Hd. rewrite zsum_repeat. cbn [rd_copies rd_items]. specialize (H d Hd). lia.
Qed.
Lemma units_used : forall ds t, (forall d, In d ds -> 1 <= rd_copies d) -> rused_bins t (units ds) = rused_bins t ds.
Proof.
  intros ds x H. unfold rused_bins, units. rewrite zsum_flat_map. apply zsum_ext. intros d Hd. rewrite zsum_repeat. cbn [rd_type rd_copies]. specialize (H d Hd).
  destruct (Nat.eqb (rd_type d) x); lia.
Qed.
Lemma units_profit : forall ds, (forall d, In d ds -> 1 <= rd_copies d) -> (bd_profit i (units ds) == bd_profit i ds)%Q.
Proof.
  intros ds H. unfold bd_profit, units. rewrite qsum_flat. apply qsum_ext. intros d Hd. specialize (H d Hd).
  change (rpenalties i d) with (rpenalties i (mkRD (rd_type d) 1 (rd_items d))).
  set (u := mkRD (rd_type d) 1 (rd_items d)).
  assert (R : forall n, (qsum (fun e => inject_Z (rd_copies e) * (qsum (fun p => ri_profit (ritem i (pl_type p))) (rd_items e) - rpenalties i e)) (repeat u n)
    == inject_Z (Z.of_nat n) * (qsum (fun p => ri_profit (ritem i (pl_type p))) (rd_items d) - rpenalties i u))%Q).
  { induction n as [|n IHn]; [change (inject_Z (Z.of_nat 0)) with 0%Q; change (qsum _ (repeat u 0)) with 0%Q; ring|].
    cbn [repeat]. rewrite qsum_cons, IHn. change (rd_copies u) with 1. change (rd_items u) with (rd_items d). rewrite Nat2Z.inj_succ. unfold Z.succ. rewrite inject_Z_plus. change (inject_Z 1) with 1%Q. ring. }
  rewrite R, Z2Nat.id by lia. reflexivity.
Qed.

Lemma count_le_packed : forall ds d x, (forall e, In e ds -> 1 <= rd_copies e) -> In d ds -> rcount x (rd_items d) <= rpacked x ds.
Proof.
  intros ds d x H Hd. apply in_split in Hd. destruct Hd as (l1 & l2 & ->). unfold rpacked. rewrite zsum_app, zsum_cons.
  assert (P : forall e, In e (l1 ++ d :: l2) -> 0 <= rd_copies e * rcount x (rd_items e)) by (intros e He; specialize (H e He); pose proof (rcount_nonneg x (rd_items e)); nia).
  assert (0 <= zsum (fun e => rd_copies e * rcount x (rd_items e)) l1) by (apply zsum_nonneg; intros e He; apply P; apply in_app_iff; left; exact He).
  assert (0 <= zsum (fun e => rd_copies e * rcount x (rd_items e)) l2) by (apply zsum_nonneg; intros e He; apply P; apply in_app_iff; right; right; exact He).
  pose proof (H d (in_elt _ _ _)). pose proof (rcount_nonneg x (rd_items d)). nia.
Qed.

(** Every packing is dominated by one that follows the precedences. *)
Lemma prec_dominates : forall ds, bd_packing i extra ds ->
  exists ds', bd_packing i extra ds' /\ (bd_profit i ds <= bd_profit i ds')%Q /\
    forall a b, In (a, b) (precedences i) -> 0 < rpacked a ds' -> rpacked b ds' = ri_copies (ritem i b).
Proof.
  intros ds [B1 B2 B3 B4]. assert (C : forall d, In d ds -> 1 <= rd_copies d) by (intros d Hd; apply (B1 d Hd)).
  assert (U : unit_packing (units ds)).
  { constructor.
    - intros e He. unfold units in He. apply in_flat_map in He. destruct He as (d & Hd & He). apply repeat_spec in He. subst e. cbn [rd_type rd_copies rd_items].
      destruct (B1 d Hd) as (T & _ & [G E _ _ _]). split; [exact T|]. split; [reflexivity|]. split; [exact G|exact E].
    - intros x Hx. rewrite units_packed by exact C. apply (B2 x Hx).
    - intros t Ht. rewrite units_used by exact C. apply (B3 t Ht). }
  destruct (exchanges _ (units ds) (le_n _) U) as (ds' & [U1 U2 U3] & V & P). exists ds'. split; [|split; [rewrite <- (units_profit ds C); exact V|exact P]].
  assert (C' : forall d, In d ds' -> 1 <= rd_copies d) by (intros d Hd; destruct (U1 d Hd) as (_ & E & _); lia).
  constructor.
  - intros d Hd. destruct (U1 d Hd) as (T & E & G & El). split; [exact T|]. split; [lia|]. constructor.
    + exact G.
    + exact El.
    + intros r Hr. rewrite (pl_no_resources i extra Hplain (rbin i (rd_type d)) (nth_In _ _ T)) in Hr. destruct Hr.
    + intros x Hx. eapply Z.le_trans; [apply (count_le_packed ds' d x C' Hd)|apply (U2 x Hx)].
    + apply (pl_no_extra i extra Hplain).
  - intros x Hx. split; [|apply (U2 x Hx)]. rewrite (pl_optional i extra Hplain (ritem i x) (nth_In _ _ Hx)). apply zsum_nonneg. intros d Hd. specialize (C' d Hd). pose proof (rcount_nonneg x (rd_items d)). nia.
  - intros t Ht. apply (U3 t Ht).
  - rewrite Hknap. discriminate.
Qed.

End Prec.
