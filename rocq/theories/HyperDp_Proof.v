(** * The tables of the guillotine knapsack algorithms *)

From Coq Require Import List ZArith QArith Bool Lia Lqa Sorted.
From Verif Require Import Util Common_Model Common_Proof Guil_Model Hyper_Model.
Import ListNotations.
Open Scope Z_scope.

(** ** Filling a table cell by cell *)
Section Fill.
Context {A C : Type}.
Variable idx : C -> nat.
Variable f : list A -> C -> A.
Variable d : A.

Definition fill (cells : list C) (t : list A) : list A :=
  fold_left (fun t c => upd (idx c) (fun _ => f t c) t) cells t.

Lemma fill_length : forall cells t, length (fill cells t) = length t.
Proof.
  induction cells as [|c cells IH]; intros t; [reflexivity|].
  unfold fill in *. cbn [fold_left]. rewrite IH. apply upd_length.
Qed.

Lemma fill_other : forall cells t k, ~ In k (map idx cells) -> nth k (fill cells t) d = nth k t d.
Proof.
  induction cells as [|c cells IH]; intros t k Hk; [reflexivity|].
  unfold fill in *. cbn [fold_left]. cbn [map In] in Hk. rewrite IH by tauto.
  apply nth_upd_other. tauto.
Qed.

Lemma fill_cell : forall pre c post t, NoDup (map idx (pre ++ c :: post)) -> (idx c < length t)%nat ->
  let T := fill (pre ++ c :: post) t in
  let tc := fill pre t in
  nth (idx c) T d = f tc c
  /\ nth (idx c) tc d = nth (idx c) t d
  /\ (forall k, ~ In k (map idx (c :: post)) -> nth k tc d = nth k T d).
Proof.
  intros pre c post t Hn Hc T tc.
  rewrite map_app in Hn. cbn [map] in Hn. apply NoDup_remove in Hn. destruct Hn as [_ Hn].
  rewrite in_app_iff in Hn.
  assert (ET : T = fill post (upd (idx c) (fun _ => f tc c) tc)).
  { unfold T, tc, fill. rewrite fold_left_app. reflexivity. }
  assert (HL : length tc = length t) by apply fill_length.
  split; [|split].
  - rewrite ET, fill_other by tauto. rewrite nth_upd_same by lia. reflexivity.
  - unfold tc. apply fill_other. tauto.
  - intros k Hk. cbn [map In] in Hk. rewrite ET, fill_other by tauto. rewrite nth_upd_other; [reflexivity|tauto].
Qed.
End Fill.

(** ** Ranges and cells *)
Lemma hrange_in : forall a b k, In k (hrange a b) <-> a <= k <= b.
Proof.
  intros a b k. unfold hrange. rewrite in_map_iff. split.
  - intros (n & <- & Hn). apply in_seq in Hn. lia.
  - intros Hk. exists (Z.to_nat (k - a)). split; [lia|]. apply in_seq. lia.
Qed.

Lemma hcuts_in : forall ct n c, In c (hcuts ct n) <-> 1 <= c /\ 2 * c + ct <= n.
Proof.
  intros ct n c. unfold hcuts. rewrite hrange_in. split; intros [H1 H2]; split; try exact H1.
  - pose proof (Z.mul_div_le (n - ct) 2 ltac:(lia)). lia.
  - apply Z.div_le_lower_bound; lia.
Qed.

Lemma hcells_in : forall W H w h, In (w, h) (hcells W H) <-> 1 <= w <= W /\ 1 <= h <= H.
Proof.
  intros W H w h. unfold hcells. rewrite in_flat_map. split.
  - intros (x & Hx & Hc). apply hrange_in in Hx. apply in_map_iff in Hc. destruct Hc as (y & E & Hy).
    apply hrange_in in Hy. inversion E. subst. auto.
  - intros [Hw Hh]. exists w. split; [apply hrange_in; exact Hw|]. apply in_map. apply hrange_in. exact Hh.
Qed.

Definition lex (a b : Z * Z) : Prop := fst a < fst b \/ (fst a = fst b /\ snd a < snd b).

Lemma hrange_sorted : forall a b, StronglySorted Z.lt (hrange a b).
Proof.
  intros a b. unfold hrange. generalize (Z.to_nat (b - a + 1)) as n. generalize 0%nat as s.
  intros s n. revert s. induction n as [|n IH]; intros s; [constructor|]. cbn [seq map]. constructor; [apply IH|].
  apply Forall_forall. intros x Hx. apply in_map_iff in Hx. destruct Hx as (m & <- & Hm). apply in_seq in Hm. lia.
Qed.

Lemma ssorted_app : forall (T : Type) (R : T -> T -> Prop) l1 l2, StronglySorted R l1 -> StronglySorted R l2 ->
  (forall x y, In x l1 -> In y l2 -> R x y) -> StronglySorted R (l1 ++ l2).
Proof.
  induction l1 as [|x l1 IH]; intros l2 H1 H2 HR; [exact H2|]. inversion H1. subst. cbn [app]. constructor.
  - apply IH; try assumption. intros a b Ha Hb. apply HR; [right; exact Ha|exact Hb].
  - apply Forall_app. split; [assumption|]. apply Forall_forall. intros y Hy. apply HR; [left; reflexivity|exact Hy].
Qed.

Lemma hcells_sorted : forall W H, StronglySorted lex (hcells W H).
Proof.
  intros W H. unfold hcells. pose proof (hrange_sorted 1 W) as HS.
  induction HS as [|w ws HS IH HF]; [constructor|]. cbn [flat_map]. apply ssorted_app; [|exact IH|].
  - clear IH. pose proof (hrange_sorted 1 H) as HH. induction HH as [|h hs HH IHh HFh]; [constructor|]. cbn [map].
    constructor; [exact IHh|]. rewrite Forall_map. eapply Forall_impl; [|exact HFh].
    intros h' Hh'. right. split; [reflexivity|exact Hh'].
  - intros x y Hx Hy. apply in_map_iff in Hx. destruct Hx as (h & <- & _).
    apply in_flat_map in Hy. destruct Hy as (w' & Hw' & Hy). apply in_map_iff in Hy. destruct Hy as (h' & <- & _).
    left. cbn [fst]. rewrite Forall_forall in HF. apply HF. exact Hw'.
Qed.

Lemma ssorted_split : forall (T : Type) (R : T -> T -> Prop) l1 x l2, StronglySorted R (l1 ++ x :: l2) ->
  (forall y, In y l2 -> R x y) /\ (forall y, In y l1 -> R y x).
Proof.
  induction l1 as [|a l1 IH]; intros x l2 HS; cbn [app] in HS; inversion HS; subst.
  - split; [|intros y []]. rewrite Forall_forall in H2. exact H2.
  - destruct (IH _ _ H1) as [I1 I2]. split; [exact I1|]. intros y [<-|Hy]; [|apply I2; exact Hy].
    rewrite Forall_forall in H2. apply H2. rewrite in_app_iff. right. left. reflexivity.
Qed.

Lemma hidx_inj : forall W w h w' h', 0 <= w <= W -> 0 <= w' <= W -> 0 <= h -> 0 <= h' ->
  hidx W w h = hidx W w' h' -> w = w' /\ h = h'.
Proof.
  intros W w h w' h' Hw Hw' Hh Hh' E. unfold hidx in E.
  assert (E1 : w + (W + 1) * h = w' + (W + 1) * h') by (apply Z2Nat.inj in E; nia).
  assert (h = h').
  { assert (A : h < h' \/ h = h' \/ h' < h) by lia. destruct A as [A|[A|A]]; [exfalso|exact A|exfalso]; nia. }
  subst. split; [lia|reflexivity].
Qed.

Lemma hidx_bound : forall W H w h, 0 <= w <= W -> 0 <= h <= H -> (hidx W w h < Z.to_nat ((W + 1) * (H + 1)))%nat.
Proof. intros W H w h Hw Hh. unfold hidx. apply Z2Nat.inj_lt; nia. Qed.

Lemma hcells_idx_nodup : forall W H, NoDup (map (fun c => hidx W (fst c) (snd c)) (hcells W H)).
Proof.
  intros W H. assert (HI : forall c, In c (hcells W H) -> 1 <= fst c <= W /\ 1 <= snd c <= H).
  { intros [w h] Hc. apply hcells_in in Hc. exact Hc. }
  pose proof (hcells_sorted W H) as HS. induction HS as [|c cs HS IH HF]; [constructor|]. cbn [map].
  constructor; [|apply IH; intros x Hx; apply HI; right; exact Hx].
  intros Hin. apply in_map_iff in Hin. destruct Hin as (c' & E & Hc'). rewrite Forall_forall in HF.
  specialize (HF c' Hc'). pose proof (HI c (or_introl eq_refl)). pose proof (HI c' (or_intror Hc')).
  apply hidx_inj in E; [|lia|lia|lia|lia]. destruct HF as [HF|HF]; lia.
Qed.

(** ** Maxima *)
Lemma hmax_l : forall a b, (a <= hmax a b)%Q.
Proof. intros a b. unfold hmax. destruct (Qltb a b) eqn:E; [apply Qltb_lt in E; lra|lra]. Qed.
Lemma hmax_r : forall a b, (b <= hmax a b)%Q.
Proof. intros a b. unfold hmax. destruct (Qltb a b) eqn:E; [lra|apply Qltb_ge in E; exact E]. Qed.
Lemma hmax_case : forall a b, hmax a b = a \/ hmax a b = b.
Proof. intros a b. unfold hmax. destruct (Qltb a b); auto. Qed.

Lemma fold_hmax : forall (T : Type) (g : T -> Q) l v,
  let m := fold_left (fun v x => hmax v (g x)) l v in
  (v <= m)%Q /\ (forall x, In x l -> (g x <= m)%Q) /\ (m = v \/ exists x, In x l /\ m = g x).
Proof.
  intros T g l. induction l as [|x l IH]; intros v; cbn [fold_left].
  - split; [lra|]. split; [intros x []|auto].
  - specialize (IH (hmax v (g x))). cbv zeta in IH. destruct IH as (I1 & I2 & I3). cbv zeta.
    pose proof (hmax_l v (g x)). pose proof (hmax_r v (g x)). split; [lra|]. split.
    + intros y [<-|Hy]; [lra|apply I2; exact Hy].
    + destruct I3 as [I3|(y & Hy & I3)]; [|right; exists y; split; [right; exact Hy|exact I3]].
      rewrite I3. destruct (hmax_case v (g x)) as [E|E]; rewrite E; [auto|right; exists x; split; [left|]; reflexivity].
Qed.

(** [a <= b] on doubles that can be minus infinity. *)
Definition ext_le (a b : option Q) : Prop :=
  match a, b with None, _ => True | Some x, Some y => (x <= y)%Q | Some _, None => False end.
Lemma ext_le_refl : forall a, ext_le a a.
Proof. intros [a|]; simpl; [lra|exact I]. Qed.
Lemma ext_le_trans : forall a b c, ext_le a b -> ext_le b c -> ext_le a c.
Proof. intros [a|] [b|] [c|]; simpl; try tauto. intros. lra. Qed.

Lemma hmaxe_l : forall a b, ext_le a (hmax_ext a b).
Proof.
  intros a b. unfold hmax_ext. destruct (hltb_ext a b) eqn:E; [|apply ext_le_refl].
  destruct a as [a|], b as [b|]; simpl in *; try exact I; try discriminate. apply Qltb_lt in E. lra.
Qed.
Lemma hmaxe_r : forall a b, ext_le b (hmax_ext a b).
Proof.
  intros a b. unfold hmax_ext. destruct (hltb_ext a b) eqn:E; [apply ext_le_refl|].
  destruct a as [a|], b as [b|]; simpl in *; try exact I; try discriminate. apply Qltb_ge in E. exact E.
Qed.
Lemma hmaxe_case : forall a b, hmax_ext a b = a \/ hmax_ext a b = b.
Proof. intros a b. unfold hmax_ext. destruct (hltb_ext a b); auto. Qed.

Lemma fold_hmaxe : forall (T : Type) (g : T -> option Q) l v,
  let m := fold_left (fun v x => hmax_ext v (g x)) l v in
  ext_le v m /\ (forall x, In x l -> ext_le (g x) m) /\ (m = v \/ exists x, In x l /\ m = g x).
Proof.
  intros T g l. induction l as [|x l IH]; intros v; cbn [fold_left].
  - split; [apply ext_le_refl|]. split; [intros x []|auto].
  - specialize (IH (hmax_ext v (g x))). cbv zeta in IH. destruct IH as (I1 & I2 & I3). cbv zeta.
    pose proof (hmaxe_l v (g x)) as M1. pose proof (hmaxe_r v (g x)) as M2.
    split; [eapply ext_le_trans; eassumption|]. split.
    + intros y [<-|Hy]; [eapply ext_le_trans; eassumption|apply I2; exact Hy].
    + destruct I3 as [I3|(y & Hy & I3)]; [|right; exists y; split; [right; exact Hy|exact I3]].
      rewrite I3. destruct (hmaxe_case v (g x)) as [E|E]; rewrite E; [auto|right; exists x; split; [left|]; reflexivity].
Qed.

(** ** The first table *)
Definition fits_cell (it : GItem) (w h : Z) : Prop :=
  (gi_w it = w /\ gi_h it = h) \/ (gi_oriented it = false /\ gi_h it = w /\ gi_w it = h).

Lemma hdp_items_spec : forall items w h v, let m := hdp_items items w h v in
  (v <= m)%Q /\ (forall it, In it items -> fits_cell it w h -> (gi_profit it <= m)%Q)
  /\ (m = v \/ exists it, In it items /\ fits_cell it w h /\ m = gi_profit it).
Proof.
  intros items w h. unfold hdp_items. induction items as [|it items IH]; intros v; cbn [fold_left].
  - split; [lra|]. split; [intros it []|auto].
  - set (v1 := if (gi_w it =? w) && (gi_h it =? h) then hmax v (gi_profit it) else v).
    set (v2 := if negb (gi_oriented it) && (gi_h it =? w) && (gi_w it =? h) then hmax v1 (gi_profit it) else v1).
    specialize (IH v2). cbv zeta in IH |- *. destruct IH as (I1 & I2 & I3).
    assert (A : (v <= v2)%Q /\ (fits_cell it w h -> (gi_profit it <= v2)%Q)
      /\ (v2 = v \/ (fits_cell it w h /\ v2 = gi_profit it))).
    { assert (B : (v <= v1)%Q /\ ((gi_w it = w /\ gi_h it = h) -> (gi_profit it <= v1)%Q)
        /\ (v1 = v \/ (fits_cell it w h /\ v1 = gi_profit it))).
      { unfold v1. destruct (Z.eqb_spec (gi_w it) w) as [E1|E1]; cbn [andb]; [|split; [lra|split; [tauto|auto]]].
        destruct (Z.eqb_spec (gi_h it) h) as [E2|E2]; [|split; [lra|split; [tauto|auto]]].
        split; [apply hmax_l|]. split; [intros _; apply hmax_r|].
        destruct (hmax_case v (gi_profit it)) as [E|E]; rewrite E; [auto|right]. split; [left; auto|reflexivity]. }
      clearbody v1. destruct B as (B1 & B2 & B3). unfold v2.
      destruct (gi_oriented it) eqn:O; cbn [negb andb].
      { split; [exact B1|]. split; [|exact B3]. unfold fits_cell. rewrite O. intros [F|[F _]]; [apply B2; exact F|discriminate]. }
      destruct (Z.eqb_spec (gi_h it) w) as [E1|E1]; cbn [andb];
        [|split; [exact B1|split; [unfold fits_cell; intros [F|F]; [apply B2; exact F|tauto]|exact B3]]].
      destruct (Z.eqb_spec (gi_w it) h) as [E2|E2];
        [|split; [exact B1|split; [unfold fits_cell; intros [F|F]; [apply B2; exact F|tauto]|exact B3]]].
      pose proof (hmax_l v1 (gi_profit it)). pose proof (hmax_r v1 (gi_profit it)).
      split; [lra|]. split; [intros _; assumption|].
      destruct (hmax_case v1 (gi_profit it)) as [E|E]; rewrite E; [exact B3|right]. split; [right; auto|reflexivity]. }
    clearbody v2. destruct A as (A1 & A2 & A3). split; [lra|]. split.
    + intros x [<-|Hx] F; [specialize (A2 F); lra|apply I2; assumption].
    + destruct I3 as [I3|(x & Hx & I3)]; [|right; exists x; split; [right; exact Hx|exact I3]].
      rewrite I3. destruct A3 as [A3|[A3 A4]]; [auto|right]. exists it. split; [left; reflexivity|auto].
Qed.

Section Tables.
Variable items : list GItem.
Variables W H ct : Z.
Hypothesis HW : 1 <= W.
Hypothesis HH : 1 <= H.
Hypothesis Hct : 0 <= ct.

Local Notation dp := (hdp items W H ct).
Local Notation D := (hget W dp).
Local Notation cells := (hcells W H).
Local Notation idx := (fun c : Z * Z => hidx W (fst c) (snd c)).

Lemma nth_zero : forall k n, nth k (repeat 0%Q n) 0%Q = 0%Q.
Proof. intros k n. revert k. induction n as [|n IH]; intros [|k]; cbn [repeat nth]; try reflexivity. apply IH. Qed.

Lemma dp_cell : forall w h, 1 <= w <= W -> 1 <= h <= H ->
  exists t, D w h = hdp_cell items W ct t (w, h) /\ hget W t w h = 0%Q
    /\ (forall w' h', 0 <= w' <= W -> 0 <= h' <= H -> w' < w \/ (w' = w /\ h' < h) -> hget W t w' h' = D w' h').
Proof.
  intros w h Hw Hh. assert (Hin : In (w, h) cells) by (apply hcells_in; auto).
  apply in_split in Hin. destruct Hin as (pre & post & E).
  pose proof (hcells_idx_nodup W H) as HN. rewrite E in HN.
  set (t0 := repeat 0%Q (Z.to_nat ((W + 1) * (H + 1)))).
  pose proof (hidx_bound W H w h ltac:(lia) ltac:(lia)) as HB.
  destruct (fill_cell idx (hdp_cell items W ct) 0%Q pre (w, h) post t0 HN) as (F1 & F2 & F3).
  { unfold t0. rewrite repeat_length. exact HB. }
  assert (ED : hdp items W H ct = fill idx (hdp_cell items W ct) (pre ++ (w, h) :: post) t0)
    by (unfold hdp, fill; rewrite E; reflexivity).
  exists (fill idx (hdp_cell items W ct) pre t0). split; [|split].
  - unfold hget at 1. rewrite ED. exact F1.
  - unfold hget. cbn [fst snd] in F2. rewrite F2. apply nth_zero.
  - intros w' h' Hw' Hh' HL. unfold hget. rewrite ED. apply F3. intros Hin.
    apply in_map_iff in Hin. destruct Hin as ([w2 h2] & E2 & Hin). cbn [fst snd] in E2.
    assert (Hc : In (w2, h2) cells).
    { rewrite E, in_app_iff. right. exact Hin. }
    apply hcells_in in Hc. apply hidx_inj in E2; [|lia|lia|lia|lia]. destruct E2 as [-> ->].
    destruct Hin as [Hin|Hin]; [inversion Hin; lia|].
    pose proof (hcells_sorted W H) as HS. rewrite E in HS. apply ssorted_split in HS.
    destruct HS as [HS _]. specialize (HS _ Hin). unfold lex in HS. cbn [fst snd] in HS. lia.
Qed.

(** The recurrence the table satisfies. *)
Lemma dp_facts : forall w h, 1 <= w <= W -> 1 <= h <= H ->
  (0 <= D w h)%Q
  /\ (forall it, In it items -> fits_cell it w h -> (gi_profit it <= D w h)%Q)
  /\ (forall c, 1 <= c -> 2 * c + ct <= w -> (D c h + D (w - c - ct) h <= D w h)%Q)
  /\ (forall c, 1 <= c -> 2 * c + ct <= h -> (D w c + D w (h - c - ct) <= D w h)%Q)
  /\ (D w h = 0%Q
      \/ (exists it, In it items /\ fits_cell it w h /\ D w h = gi_profit it)
      \/ (exists c, In c (hcuts ct w) /\ D w h = (D c h + D (w - c - ct) h)%Q)
      \/ (exists c, In c (hcuts ct h) /\ D w h = (D w c + D w (h - c - ct))%Q)).
Proof.
  intros w h Hw Hh. destruct (dp_cell w h Hw Hh) as (t & E & E0 & EQ).
  unfold hdp_cell in E. rewrite E0 in E.
  pose proof (hdp_items_spec items w h 0%Q) as HI. cbv zeta in HI. set (v1 := hdp_items items w h 0) in *.
  pose proof (fold_hmax _ (fun cut => (hget W t cut h + hget W t (w - cut - ct) h)%Q) (hcuts ct w) v1) as HV.
  cbv beta zeta in HV. cbv zeta in E.
  set (v2 := fold_left (fun v cut => hmax v (hget W t cut h + hget W t (w - cut - ct) h)) (hcuts ct w) v1) in *.
  pose proof (fold_hmax _ (fun cut => (hget W t w cut + hget W t w (h - cut - ct))%Q) (hcuts ct h) v2) as HG.
  cbv beta zeta in HG. rewrite <- E in HG.
  destruct HI as (I1 & I2 & I3), HV as (V1 & V2 & V3), HG as (G1 & G2 & G3).
  assert (RV : forall c, In c (hcuts ct w) -> hget W t c h = D c h /\ hget W t (w - c - ct) h = D (w - c - ct) h).
  { intros c Hc. apply hcuts_in in Hc. split; apply EQ; lia. }
  assert (RH : forall c, In c (hcuts ct h) -> hget W t w c = D w c /\ hget W t w (h - c - ct) = D w (h - c - ct)).
  { intros c Hc. apply hcuts_in in Hc. split; apply EQ; lia. }
  split; [lra|]. split; [intros it A B; specialize (I2 it A B); lra|]. split; [|split].
  - intros c C1 C2. assert (Hc : In c (hcuts ct w)) by (apply hcuts_in; auto).
    specialize (V2 c Hc). destruct (RV c Hc) as [R1 R2]. rewrite R1, R2 in V2. lra.
  - intros c C1 C2. assert (Hc : In c (hcuts ct h)) by (apply hcuts_in; auto).
    specialize (G2 c Hc). destruct (RH c Hc) as [R1 R2]. rewrite R1, R2 in G2. exact G2.
  - destruct G3 as [G3|(c & Hc & G3)].
    + rewrite G3. destruct V3 as [V3|(c & Hc & V3)].
      * rewrite V3. destruct I3 as [I3|I3]; [left; exact I3|right; left; exact I3].
      * right. right. left. exists c. split; [exact Hc|]. destruct (RV c Hc) as [<- <-]. exact V3.
    + right. right. right. exists c. split; [exact Hc|]. destruct (RH c Hc) as [<- <-]. exact G3.
Qed.

(** ** The second table *)
Variable tab : list Q.
Local Notation rdp := (hrdp tab W H ct).
Local Notation R := (hgetr W rdp).
Local Notation E := (hget W tab).

Lemma nth_none : forall k n, nth k (repeat (@None Q) n) None = None.
Proof. intros k n. revert k. induction n as [|n IH]; intros [|k]; cbn [repeat nth]; try reflexivity. apply IH. Qed.

Lemma rdp_cell : forall w h, 1 <= w <= W -> 1 <= h <= H ->
  exists t, R w h = hrdp_cell tab W H ct t (w, h)
    /\ hgetr W t w h = (if (w =? W) && (h =? H) then Some 0%Q else None)
    /\ (forall w' h', 0 <= w' <= W -> 0 <= h' <= H -> w < w' \/ (w' = w /\ h < h') -> hgetr W t w' h' = R w' h').
Proof.
  intros w h Hw Hh. assert (Hin : In (w, h) (rev cells)) by (rewrite <- in_rev; apply hcells_in; auto).
  apply in_split in Hin. destruct Hin as (pre & post & EE).
  assert (EC : cells = rev post ++ (w, h) :: rev pre).
  { rewrite <- (rev_involutive cells), EE, rev_app_distr. cbn [rev]. rewrite <- app_assoc. reflexivity. }
  assert (HN : NoDup (map idx (pre ++ (w, h) :: post))).
  { rewrite <- EE, map_rev. apply NoDup_rev. apply hcells_idx_nodup. }
  set (t0 := upd (hidx W W H) (fun _ => Some 0%Q) (repeat (@None Q) (Z.to_nat ((W + 1) * (H + 1))))).
  pose proof (hidx_bound W H w h ltac:(lia) ltac:(lia)) as HB.
  destruct (fill_cell idx (hrdp_cell tab W H ct) None pre (w, h) post t0 HN) as (F1 & F2 & F3).
  { unfold t0. rewrite upd_length, repeat_length. exact HB. }
  assert (ED : rdp = fill idx (hrdp_cell tab W H ct) (pre ++ (w, h) :: post) t0)
    by (unfold hrdp, fill; rewrite EE; reflexivity).
  exists (fill idx (hrdp_cell tab W H ct) pre t0). split; [|split].
  - unfold hgetr at 1. rewrite ED. exact F1.
  - unfold hgetr. cbn [fst snd] in F2. rewrite F2. unfold t0.
    rewrite nth_upd by (rewrite repeat_length; apply hidx_bound; lia).
    destruct (Nat.eqb_spec (hidx W W H) (hidx W w h)) as [X|X].
    + apply hidx_inj in X; [|lia|lia|lia|lia]. destruct X as [<- <-]. rewrite !Z.eqb_refl. reflexivity.
    + rewrite nth_none. destruct (Z.eqb_spec w W) as [->|]; cbn [andb]; [|reflexivity].
      destruct (Z.eqb_spec h H) as [->|]; [contradiction|reflexivity].
  - intros w' h' Hw' Hh' HL. unfold hgetr. rewrite ED. apply F3. intros Hin.
    apply in_map_iff in Hin. destruct Hin as ([w2 h2] & E2 & Hin). cbn [fst snd] in E2.
    assert (Hc : In (w2, h2) cells).
    { rewrite EC, in_app_iff. destruct Hin as [<-|Hin]; [right; left; reflexivity|left; rewrite <- in_rev; exact Hin]. }
    apply hcells_in in Hc. apply hidx_inj in E2; [|lia|lia|lia|lia]. destruct E2 as [-> ->].
    destruct Hin as [Hin|Hin]; [inversion Hin; lia|].
    pose proof (hcells_sorted W H) as HS. rewrite EC in HS. apply ssorted_split in HS.
    destruct HS as [_ HS]. specialize (HS (w', h')). rewrite <- in_rev in HS. specialize (HS Hin).
    unfold lex in HS. cbn [fst snd] in HS. lia.
Qed.

Lemma rdp_corner : R W H = Some 0%Q.
Proof.
  destruct (rdp_cell W H ltac:(lia) ltac:(lia)) as (t & E1 & E2 & _). rewrite E1. unfold hrdp_cell.
  rewrite !Z.eqb_refl in *. exact E2.
Qed.

Lemma rdp_facts : forall w h, 1 <= w <= W -> 1 <= h <= H -> (w, h) <> (W, H) ->
  (forall t, w + ct + 1 <= t <= W -> ext_le (hadd_ext (R t h) (E (t - w - ct) h)) (R w h))
  /\ (forall t, h + ct + 1 <= t <= H -> ext_le (hadd_ext (R w t) (E w (t - h - ct))) (R w h))
  /\ (R w h = None
      \/ (exists t, w + ct + 1 <= t <= W /\ R w h = hadd_ext (R t h) (E (t - w - ct) h))
      \/ (exists t, h + ct + 1 <= t <= H /\ R w h = hadd_ext (R w t) (E w (t - h - ct)))).
Proof.
  intros w h Hw Hh Hne. destruct (rdp_cell w h Hw Hh) as (t & E1 & E2 & EQ).
  assert (EB : (w =? W) && (h =? H) = false).
  { apply andb_false_iff. destruct (Z.eqb_spec w W) as [->|]; [|left; reflexivity]. right.
    apply Z.eqb_neq. intros ->. apply Hne. reflexivity. }
  unfold hrdp_cell in E1. rewrite EB in E1, E2. rewrite E2 in E1. cbv zeta in E1.
  pose proof (fold_hmaxe _ (fun total => hadd_ext (hgetr W t total h) (E (total - w - ct) h))
                (hrange (w + ct + 1) W) None) as HV. cbv beta zeta in HV.
  set (v1 := fold_left (fun v total => hmax_ext v (hadd_ext (hgetr W t total h) (E (total - w - ct) h)))
               (hrange (w + ct + 1) W) None) in *.
  pose proof (fold_hmaxe _ (fun total => hadd_ext (hgetr W t w total) (E w (total - h - ct)))
                (hrange (h + ct + 1) H) v1) as HG. cbv beta zeta in HG. rewrite <- E1 in HG.
  destruct HV as (V1 & V2 & V3), HG as (G1 & G2 & G3).
  assert (RV : forall x, In x (hrange (w + ct + 1) W) -> hgetr W t x h = R x h).
  { intros x Hx. apply hrange_in in Hx. apply EQ; lia. }
  assert (RH : forall x, In x (hrange (h + ct + 1) H) -> hgetr W t w x = R w x).
  { intros x Hx. apply hrange_in in Hx. apply EQ; lia. }
  split; [|split].
  - intros x Hx. assert (Hin : In x (hrange (w + ct + 1) W)) by (apply hrange_in; exact Hx).
    specialize (V2 x Hin). rewrite (RV x Hin) in V2. eapply ext_le_trans; eassumption.
  - intros x Hx. assert (Hin : In x (hrange (h + ct + 1) H)) by (apply hrange_in; exact Hx).
    specialize (G2 x Hin). rewrite (RH x Hin) in G2. exact G2.
  - destruct G3 as [G3|(x & Hx & G3)].
    + rewrite G3. destruct V3 as [V3|(x & Hx & V3)]; [left; exact V3|].
      right. left. exists x. rewrite (RV x Hx) in V3. split; [apply hrange_in; exact Hx|exact V3].
    + right. right. exists x. rewrite (RH x Hx) in G3. split; [apply hrange_in; exact Hx|exact G3].
Qed.
End Tables.
