(** * The steps of the reduction keep the optimum *)

From Coq Require Import List ZArith QArith Bool Arith Lia Permutation.
From Verif Require Import Util Common_Model Rect_Model Rect_Spec Geom Reduc_Model Reduc_Spec Reduc_Proof ReducInv_Proof ReducGroup_Proof ReducDed_Proof ReducBoth_Proof.
Import ListNotations.
Import Reduc_Proof.
Open Scope Z_scope.

Lemma ord_pairs_split : forall (A : Type) (R : A -> A -> Prop) l1 c l2, (forall a b, R a b -> R b a) -> ForallOrdPairs R (l1 ++ c :: l2) ->
  ForallOrdPairs R (l1 ++ l2) /\ forall d, In d (l1 ++ l2) -> R c d.
Proof.
  intros A R l1 c l2 Sy. induction l1 as [|a l1 IH]; intros F; cbn [app] in *; inversion F as [|? ? F1 F2]; subst.
  - split; [exact F2|]. intros d Hd. rewrite Forall_forall in F1. apply F1. exact Hd.
  - destruct (IH F2) as [G1 G2]. rewrite Forall_forall in F1. split.
    + constructor; [|exact G1]. apply Forall_forall. intros d Hd. apply F1. apply in_app_or in Hd. apply in_or_app. destruct Hd; [left|right; right]; assumption.
    + intros d [<-|Hd]; [|apply G2; exact Hd]. apply Sy, F1. apply in_or_app. right. left. reflexivity.
Qed.
Lemma ord_pairs_map : forall (A B : Type) (R : A -> A -> Prop) (Q : B -> B -> Prop) f l, ForallOrdPairs R l ->
  (forall a b, In a l -> In b l -> R a b -> Q (f a) (f b)) -> ForallOrdPairs Q (map f l).
Proof.
  intros A B R Q f l F. induction F as [|a l Ha Fl IH]; intros K; [constructor|]. cbn [map]. constructor.
  - apply Forall_forall. intros b Hb. apply in_map_iff in Hb. destruct Hb as (c & <- & Hc). rewrite Forall_forall in Ha. apply K; [left; reflexivity|right; exact Hc|apply Ha; exact Hc].
  - apply IH. intros c d Hc Hd. apply K; right; assumption.
Qed.
Lemma apart_sym : forall a b, apart a b -> apart b a.
Proof. unfold apart. intros. lia. Qed.

Lemma zsum_pick_list : forall l a, NoDup l -> In a l -> zsum (fun b => if Nat.eqb a b then 1 else 0) l = 1.
Proof.
  induction l as [|b l IH]; intros a N Ha; [destruct Ha|]. inversion N as [|? ? N1 N2]. subst. rewrite zsum_cons. destruct Ha as [->|Ha].
  - rewrite Nat.eqb_refl. rewrite (zsum_ext nat _ (fun _ => 0)); [rewrite zsum_const0; reflexivity|]. intros c Hc. destruct (Nat.eqb_spec a c) as [->|]; [contradiction|reflexivity].
  - destruct (Nat.eqb_spec a b) as [->|]; [contradiction|]. rewrite (IH a N2 Ha). reflexivity.
Qed.
Lemma occ_pos : forall c l, In c l -> (0 < occ (co_type c) l)%nat.
Proof.
  intros c l Hc. apply in_split in Hc. destruct Hc as (l1 & l2 & ->). rewrite occ_app, occ_cons, Nat.eqb_refl. lia.
Qed.
Lemma occ_filter : forall p x l, occ x (filter p l) = occ x (filter (fun c => p c) l).
Proof. reflexivity. Qed.
Lemma occ_keep : forall (p : Comp -> bool) x l, (forall c, In c l -> co_type c = x -> p c = true) -> occ x (filter p l) = occ x l.
Proof.
  intros p x l. induction l as [|c l IH]; intros K; [reflexivity|]. cbn [filter]. specialize (IH (fun d Hd => K d (or_intror Hd))).
  destruct (p c) eqn:E.
  - rewrite !occ_cons, IH. reflexivity.
  - rewrite occ_cons, IH. destruct (Nat.eqb_spec (co_type c) x) as [Ex|]; [|reflexivity]. rewrite (K c (or_introl eq_refl) Ex) in E. discriminate E.
Qed.
Lemma occ_map : forall (f : Comp -> Comp) x l, (forall c, co_type (f c) = co_type c) -> occ x (map f l) = occ x l.
Proof. intros f x l K. induction l as [|c l IH]; [reflexivity|]. cbn [map]. rewrite !occ_cons, IH, K. reflexivity. Qed.

Section Opt.
Variable o : ROracle.
Variable i : RInstance.
Variables W H : Z.
Notation n := (n_types i) (only parsing).
Notation bin := (list Comp) (only parsing).

(** Packings of the items of a working state. *)
Definition okbin (s : Red) (l : list Comp) : Prop :=
  (forall c, In c l -> (co_type c < n)%nat /\ (co_rot c = true -> oriented i (co_type c) = false) /\ within (cbox s c) (mkBox 0 0 W H))
  /\ ForallOrdPairs (fun a b => apart (cbox s a) (cbox s b)) l.
Definition vcopies (s : Red) (x : nat) : Z := if rt_removed (rtype s x) then 0 else rt_copies (rtype s x).
Definition packs_as (s : Red) (bins : list (list Comp)) : Prop :=
  (forall l, In l bins -> okbin s l) /\ forall x, (x < n)%nat -> zsum (fun l => Z.of_nat (occ x l)) bins = vcopies s x.
Definition packs (s : Red) (K : Z) : Prop := exists bins, Z.of_nat (length bins) = K /\ packs_as s bins.
Definition Opt (s s' : Red) : Prop := forall K, packs s K -> packs s' (K + dedicated s - dedicated s').

Lemma opt_refl : forall s s', re_types s' = re_types s -> dedicated s' = dedicated s -> Opt s s'.
Proof.
  intros s s' E D K (bins & L & P1 & P2). exists bins. split; [lia|].
  assert (Er : forall x, rtype s' x = rtype s x) by (intros x; unfold rtype; rewrite E; reflexivity).
  assert (Ec : forall c, cbox s' c = cbox s c) by (intros c; unfold cbox; rewrite Er; reflexivity).
  split.
  - intros l Hl. destruct (P1 l Hl) as [A B]. split; [intros c Hc; rewrite Ec; apply A; exact Hc|]. eapply ord_pairs_impl; [|exact B]. intros a b. rewrite !Ec. auto.
  - intros x Hx. unfold vcopies. rewrite Er. apply P2. exact Hx.
Qed.
Lemma opt_trans : forall s s' s'', Opt s s' -> Opt s' s'' -> Opt s s''.
Proof.
  intros s s' s'' A B K P. specialize (B _ (A K P)). replace (K + dedicated s - dedicated s'') with (K + dedicated s - dedicated s' + dedicated s' - dedicated s'') by lia. exact B.
Qed.

Lemma packs_live : forall s bins l c, packs_as s bins -> In l bins -> In c l -> (co_type c < n)%nat /\ live s (co_type c).
Proof.
  intros s bins l c [P1 P2] Hl Hc. destruct (P1 l Hl) as [A _]. destruct (A c Hc) as (Hx & _). split; [exact Hx|]. unfold live. specialize (P2 _ Hx). unfold vcopies in P2.
  destruct (rt_removed (rtype s (co_type c))); [|reflexivity]. exfalso. pose proof (occ_pos c l Hc).
  assert (Z.of_nat (occ (co_type c) l) <= 0); [|lia]. rewrite <- P2. apply in_split in Hl. destruct Hl as (b1 & b2 & ->). rewrite zsum_app, zsum_cons.
  assert (0 <= zsum (fun l0 => Z.of_nat (occ (co_type c) l0)) b1) by (apply zsum_nonneg; intros; lia). assert (0 <= zsum (fun l0 => Z.of_nat (occ (co_type c) l0)) b2) by (apply zsum_nonneg; intros; lia). lia.
Qed.

Lemma okbin_split : forall s l1 c l2, okbin s (l1 ++ c :: l2) -> okbin s (l1 ++ l2) /\ forall d, In d (l1 ++ l2) -> apart (cbox s c) (cbox s d).
Proof.
  intros s l1 c l2 [A B]. destruct (ord_pairs_split _ _ _ _ _ (fun a b => apart_sym _ _) B) as [B1 B2]. split; [|exact B2]. split; [|exact B1].
  intros d Hd. apply A. apply in_app_or in Hd. apply in_or_app. destruct Hd; [left|right; right]; assumption.
Qed.
Lemma okbin_filter : forall s p l, okbin s l -> okbin s (filter p l).
Proof.
  intros s p l [A B]. split; [intros c Hc; apply filter_In in Hc; apply A, Hc|]. eapply ord_pairs_impl; [|apply ord_pairs_filter; exact B]. intros a b [X _]. exact X.
Qed.
Lemma okbin_same : forall s s' l, (forall c, In c l -> rt_x (rtype s' (co_type c)) = rt_x (rtype s (co_type c)) /\ rt_y (rtype s' (co_type c)) = rt_y (rtype s (co_type c))) ->
  okbin s l -> okbin s' l.
Proof.
  intros s s' l E [A B]. assert (Ec : forall c, In c l -> cbox s' c = cbox s c) by (intros c Hc; destruct (E c Hc) as [E1 E2]; unfold cbox; rewrite E1, E2; reflexivity).
  split.
  - intros c Hc. rewrite (Ec c Hc). apply A. exact Hc.
  - rewrite <- (map_id l). eapply ord_pairs_map; [exact B|]. intros a b Ha Hb. rewrite (Ec a Ha), (Ec b Hb). auto.
Qed.

(** ** Removing items that need their own bins *)

Lemma opt_remove : forall s s' caught rs, NoDup caught ->
  (forall x, In x caught \/ In x rs -> (x < n)%nat /\ live s x /\ rt_removed (rtype s' x) = true) -> (forall x, In x rs -> ~ In x caught) ->
  (forall x, (x < n)%nat -> ~ In x caught -> ~ In x rs -> rtype s' x = rtype s x) ->
  dedicated s' = dedicated s + zsum (fun b => rt_copies (rtype s b)) caught ->
  (forall l1 c l2, okbin s (l1 ++ c :: l2) -> (forall d, In d (l1 ++ c :: l2) -> live s (co_type d)) -> In (co_type c) caught -> forall d, In d (l1 ++ l2) -> In (co_type d) rs) ->
  Opt s s'.
Proof.
  intros s s' caught rs ND Hgone Hdis Hsame Hded Hkey K (bins & L & P). pose proof P as [P1 P2].
  set (has := fun l => existsb (fun c => existsb (Nat.eqb (co_type c)) caught) l).
  set (stay := fun c => negb (existsb (Nat.eqb (co_type c)) rs)).
  set (bins' := map (filter stay) (filter (fun l => negb (has l)) bins)).
  assert (Hhas : forall l, In l bins -> has l = true -> exists l1 c l2, l = l1 ++ c :: l2 /\ In (co_type c) caught /\ forall d, In d (l1 ++ l2) -> In (co_type d) rs).
  { intros l Hl Hh. apply existsb_exists in Hh. destruct Hh as (c & Hc & Ec). apply existsb_in in Ec. apply in_split in Hc. destruct Hc as (l1 & l2 & ->). exists l1, c, l2.
    split; [reflexivity|]. split; [exact Ec|]. apply (Hkey l1 c l2); [apply P1; exact Hl| |exact Ec]. intros d Hd. apply (packs_live s bins _ d P Hl Hd). }
  assert (Hno : forall l c, has l = false -> In c l -> ~ In (co_type c) caught).
  { intros l c Hh Hc Hin. assert (has l = true); [|congruence]. apply existsb_exists. exists c. split; [exact Hc|]. apply existsb_in. exact Hin. }
  exists bins'. split.
  - rewrite Hded. unfold bins'. rewrite map_length. rewrite <- zsum_length, zsum_filter_if.
    assert (E : zsum (fun l => if has l then 1 else 0) bins = zsum (fun b => rt_copies (rtype s b)) caught).
    { transitivity (zsum (fun l => zsum (fun b => Z.of_nat (occ b l)) caught) bins).
      - apply zsum_ext. intros l Hl. destruct (has l) eqn:Eh.
        + destruct (Hhas l Hl Eh) as (l1 & c & l2 & -> & Hc & Hr). rewrite <- (zsum_pick_list caught (co_type c) ND Hc). apply zsum_ext. intros b Hb.
          rewrite occ_app, occ_cons. assert (E0 : occ b (l1 ++ l2) = O) by (apply occ_out; intros d Hd <-; apply (Hdis _ (Hr d Hd)); exact Hb). rewrite occ_app in E0.
          destruct (Nat.eqb (co_type c) b); lia.
        + symmetry. rewrite (zsum_ext nat _ (fun _ => 0)); [apply zsum_const0|]. intros b Hb. rewrite occ_out; [reflexivity|]. intros c Hc <-. apply (Hno l c Eh Hc). exact Hb.
      - rewrite zsum_swap. apply zsum_ext. intros b Hb. destruct (Hgone b (or_introl Hb)) as (Hx & Hl & _). rewrite (P2 b Hx). unfold vcopies. unfold live in Hl. rewrite Hl. reflexivity. }
    assert (E2 : zsum (fun l => if negb (has l) then 1 else 0) bins + zsum (fun l => if has l then 1 else 0) bins = Z.of_nat (length bins)).
    { rewrite <- zsum_plus, <- zsum_length. apply zsum_ext. intros l _. destruct (has l); reflexivity. }
    lia.
  - split.
    + intros l' Hl'. unfold bins' in Hl'. apply in_map_iff in Hl'. destruct Hl' as (l & <- & Hl). apply filter_In in Hl. destruct Hl as [Hl Hn]. apply negb_true_iff in Hn.
      apply (okbin_same s); [|apply okbin_filter, P1; exact Hl]. intros c Hc. apply filter_In in Hc. destruct Hc as [Hc Hst]. apply negb_true_iff, existsb_notin in Hst.
      rewrite Hsame; [split; reflexivity| |apply (Hno l c Hn Hc)|exact Hst]. apply (packs_live s bins l c P Hl Hc).
    + intros x Hx. unfold bins'. rewrite zsum_map, zsum_filter_if. unfold vcopies.
      destruct (in_dec Nat.eq_dec x caught) as [Hc|Hc].
      * destruct (Hgone x (or_introl Hc)) as (_ & _ & R). rewrite R. rewrite (zsum_ext _ _ (fun _ => 0)); [apply zsum_const0|]. intros l Hl.
        destruct (has l) eqn:Eh; [reflexivity|]. cbn [negb]. rewrite occ_out; [reflexivity|]. intros c Hin <-. apply filter_In in Hin. apply (Hno l c Eh (proj1 Hin) Hc).
      * destruct (in_dec Nat.eq_dec x rs) as [Hr|Hr].
        -- destruct (Hgone x (or_intror Hr)) as (_ & _ & R). rewrite R. rewrite (zsum_ext _ _ (fun _ => 0)); [apply zsum_const0|]. intros l Hl.
           destruct (has l) eqn:Eh; [reflexivity|]. cbn [negb]. rewrite occ_out; [reflexivity|]. intros c Hin <-. apply filter_In in Hin. destruct Hin as [_ Hst].
           apply negb_true_iff, existsb_notin in Hst. contradiction.
        -- rewrite (Hsame x Hx Hc Hr). fold (vcopies s x). rewrite <- (P2 x Hx). apply zsum_ext. intros l Hl. destruct (has l) eqn:Eh; cbn [negb].
           ++ destruct (Hhas l Hl Eh) as (l1 & c & l2 & -> & Hcc & Hrr). rewrite occ_out; [reflexivity|]. intros d Hd <-. apply in_app_or in Hd. destruct Hd as [Hd|[<-|Hd]]; [|contradiction|].
              ** apply Hr, Hrr, in_or_app. left. exact Hd.
              ** apply Hr, Hrr, in_or_app. right. exact Hd.
           ++ f_equal. apply occ_keep. intros c Hc' Ec. unfold stay. apply negb_true_iff, existsb_notin. rewrite Ec. exact Hr.
Qed.

Lemma head_of_okbin : forall s l c, okbin s l -> In c l -> live s (co_type c) -> head_ok i s c /\ within (cbox s c) (mkBox 0 0 W H).
Proof. intros s l c [A _] Hc Hl. destruct (A c Hc) as (X1 & X2 & X3). split; [split; [exact X1|split; assumption]|exact X3]. Qed.

Theorem opt_both : forall s s' cands caught rs,
  (forall x, (x < n)%nat -> oriented i x = false -> big_both_ways W H (ri_x (ritem i x)) (ri_y (ritem i x))) ->
  Inv i W H s -> (forall b, In b cands -> (b < n)%nat /\ live s b /\ both_big i W H b (rtype s b) = true) ->
  both_result i W H s s' cands caught rs -> Opt s s'.
Proof.
  intros s s' cands caught rs Hways I C (R1 & R2 & R3 & R4 & R5 & R6 & R7 & R8 & R9).
  apply (opt_remove s s' caught rs R3 R5); [intros x Hx Hc; apply (R6 x Hx), R4, Hc|exact R7|exact R8|].
  intros l1 c l2 Ok Lv Hc d Hd. destruct (okbin_split s l1 c l2 Ok) as [_ Ap]. specialize (Ap d Hd).
  assert (Hdin : In d (l1 ++ c :: l2)) by (apply in_app_or in Hd; apply in_or_app; destruct Hd; [left|right; right]; assumption).
  assert (Hcin : In c (l1 ++ c :: l2)) by (apply in_or_app; right; left; reflexivity).
  destruct (head_of_okbin s _ c Ok Hcin (Lv c Hcin)) as [Hc1 Hc2]. destruct (head_of_okbin s _ d Ok Hdin (Lv d Hdin)) as [Hd1 Hd2].
  assert (Hcc : In (co_type c) cands) by (apply R4; exact Hc). destruct (C _ Hcc) as (_ & _ & Bc).
  destruct (in_dec Nat.eq_dec (co_type d) cands) as [Hdc|Hdc].
  - exfalso. destruct (C _ Hdc) as (_ & _ & Bd). apply (both_apart i W H Hways s c d I Hc1 Hd1 Hc2 Hd2 Bc Bd Ap).
  - destruct Hd1 as (D1 & D2 & D3). destruct Hc1 as (E1 & E2 & E3). apply (R9 (co_type c)); [exact Hc|exact D1|exact D2|exact Hdc|].
    unfold could_fit_both. unfold within, apart, cbox in Hc2, Hd2, Ap. cbn in Hc2, Hd2, Ap. apply andb_true_iff. destruct (co_rot d) eqn:Rd.
    + rewrite (D3 eq_refl). cbn [negb andb]. split; [apply orb_true_iff; right; lia|]. apply existsb_exists. exists (co_rot c). split.
      * destruct (co_rot c); [rewrite (E3 eq_refl); right; left; reflexivity|destruct (oriented i (co_type c)); left; reflexivity].
      * destruct (co_rot c); lia.
    + split; [apply orb_true_iff; left; lia|]. apply existsb_exists. exists (co_rot c). split.
      * destruct (co_rot c); [rewrite (E3 eq_refl); right; left; reflexivity|destruct (oriented i (co_type c)); left; reflexivity].
      * destruct (co_rot c); lia.
Qed.

(** An item as large as the bin. *)
Lemma opt_full : forall s s' b new, Inv i W H s -> (b < n)%nat -> live s b ->
  (rt_x (rtype s b) = W /\ rt_y (rtype s b) = H \/ rt_y (rtype s b) = W /\ rt_x (rtype s b) = H) -> captured i W H s s' b new -> Opt s s'.
Proof.
  intros s s' b new I Hb Hl Sz (R1 & R2 & R3 & R4 & R5).
  apply (opt_remove s s' [b] []).
  - repeat constructor; intros [].
  - intros x [[<-|[]]|[]]. split; [exact Hb|split; assumption].
  - intros x [].
  - intros x Hx Hn _. apply R4; [exact Hx|]. intros ->. apply Hn. left. reflexivity.
  - rewrite zsum_cons, zsum_nil. lia.
  - intros l1 c l2 Ok Lv [Ec|[]] d Hd. exfalso. destruct (okbin_split s l1 c l2 Ok) as [_ Ap]. specialize (Ap d Hd).
    assert (Hdin : In d (l1 ++ c :: l2)) by (apply in_app_or in Hd; apply in_or_app; destruct Hd; [left|right; right]; assumption).
    assert (Hcin : In c (l1 ++ c :: l2)) by (apply in_or_app; right; left; reflexivity).
    destruct (head_of_okbin s _ c Ok Hcin (Lv c Hcin)) as [Hc1 Hc2]. destruct (head_of_okbin s _ d Ok Hdin (Lv d Hdin)) as [Hd1 Hd2].
    destruct Hd1 as (D1 & D2 & _). pose proof (ty_sizes _ _ _ (in_types _ _ _ _ I _ D1 D2)) as [S1 S2]. pose proof (ty_sizes _ _ _ (in_types _ _ _ _ I _ Hb Hl)) as [T1 T2].
    unfold within, apart, cbox in Hc2, Hd2, Ap. rewrite <- Ec in Hc2, Ap. cbn in Hc2, Hd2, Ap. destruct (co_rot c); destruct (co_rot d); lia.
Qed.

(** ** Enlarging items *)

Definition slide (wide : bool) (ids : list nat) (c : Comp) : Comp :=
  if existsb (Nat.eqb (co_type c)) ids
  then mkComp (co_type c) (if wide then 0 else co_dx c) (if wide then co_dy c else 0) (co_rot c) []
  else c.
Lemma slide_type : forall wide ids c, co_type (slide wide ids c) = co_type c.
Proof. intros. unfold slide. destruct (existsb (Nat.eqb (co_type c)) ids); reflexivity. Qed.

Theorem opt_group : forall wide s s' cands l rs, Inv i W H s -> gstep i W H wide s s' l rs -> incl (map fst l) cands ->
  (forall b, In b cands -> (b < n)%nat /\ live s b /\ is_big i W H wide b (rtype s b) = true) ->
  (forall b x, In b (map fst l) -> (x < n)%nat -> live s x -> ~ In x cands -> could_fit i W H wide (rtype s b) x (rtype s x) = true -> In x rs) ->
  Opt s s'.
Proof.
  intros wide s s' cands l rs I G Hincl C Hclosed K (bins & L & P). pose proof P as [P1 P2]. destruct G as [G1 (G2a & G2b & G2c) G3 G4 G4' G5 G6 G7].
  assert (Dd : dedicated s' = dedicated s) by (unfold dedicated; rewrite G2a, G2b, G2c; reflexivity).
  set (stay := fun c => negb (existsb (Nat.eqb (co_type c)) rs)). set (ids := map fst l) in *.
  exists (map (fun b => map (slide wide ids) (filter stay b)) bins). split; [rewrite map_length; lia|]. split.
  - intros b' Hb'. apply in_map_iff in Hb'. destruct Hb' as (b & <- & Hb). pose proof (okbin_filter s stay b (P1 b Hb)) as [A B].
    assert (Hst : forall c, In c (filter stay b) -> head_ok i s c /\ within (cbox s c) (mkBox 0 0 W H) /\ ~ In (co_type c) rs /\ 0 < rt_x (rtype s (co_type c)) /\ 0 < rt_y (rtype s (co_type c))).
    { intros c Hc. destruct (A c Hc) as (A1 & A2 & A3). apply filter_In in Hc. destruct Hc as [Hc Hst]. destruct (packs_live s bins b c P Hb Hc) as [_ Lc].
      apply negb_true_iff, existsb_notin in Hst. split; [split; [exact A1|split; assumption]|]. split; [exact A3|]. split; [exact Hst|]. apply (ty_sizes _ _ _ (in_types _ _ _ _ I _ A1 Lc)). }
    assert (Hbig : forall c, In c (filter stay b) -> In (co_type c) ids -> co_rot c = false /\ oriented i (co_type c) = true
       /\ exists es, rtype s' (co_type c) = enl W H wide (rtype s (co_type c)) es).
    { intros c Hc Hi. unfold ids in Hi. apply in_map_iff in Hi. destruct Hi as ([b0 es] & E & Hin). cbn [fst] in E. subst b0. destruct (G5 _ _ Hin) as (_ & _ & Or & Er & _).
      destruct (Hst c Hc) as ((_ & _ & X) & _). split; [destruct (co_rot c); [rewrite (X eq_refl) in Or; discriminate Or|reflexivity]|]. split; [exact Or|]. exists es. exact Er. }
    assert (Eo : forall c, In c (filter stay b) -> ~ In (co_type c) ids -> rtype s' (co_type c) = rtype s (co_type c)).
    { intros c Hc Hi. destruct (Hst c Hc) as ((X & _) & _ & Y & _). apply G6; assumption. }
    assert (Etr : forall c d, In c (filter stay b) -> In d (filter stay b) -> In (co_type c) ids -> apart (cbox s c) (cbox s d) ->
       if wide then by1 (cbox s c) <= by0 (cbox s d) \/ by1 (cbox s d) <= by0 (cbox s c) else bx1 (cbox s c) <= bx0 (cbox s d) \/ bx1 (cbox s d) <= bx0 (cbox s c)).
    { intros c d Hc Hd Hi Ap. destruct (Hbig c Hc Hi) as (Rc & Oc & _). destruct (C _ (Hincl _ Hi)) as (_ & _ & Bc).
      destruct (Hst c Hc) as (_ & Wc & _). destruct (Hst d Hd) as (Hd1 & Wd & Nd & _). destruct Hd1 as (D1 & D2 & D3).
      destruct (in_dec Nat.eq_dec (co_type d) cands) as [Hdc|Hdc].
      - destruct (C _ Hdc) as (_ & _ & Bd). unfold is_big in Bc, Bd. rewrite Oc in Bc. destruct (oriented i (co_type d)) eqn:Od; [|discriminate Bd]. cbn [andb] in Bc, Bd.
        assert (Rd : co_rot d = false) by (destruct (co_rot d); [discriminate (D3 eq_refl)|reflexivity]).
        unfold within, apart, cbox in *. rewrite Rc, Rd in *. cbn in Wc, Wd, Ap. cbn [bx0 bx1 by0 by1]. destruct wide; lia.
      - assert (Nf : could_fit i W H wide (rtype s (co_type c)) (co_type d) (rtype s (co_type d)) = false).
        { destruct (could_fit i W H wide (rtype s (co_type c)) (co_type d) (rtype s (co_type d))) eqn:E; [|reflexivity]. exfalso. apply Nd. apply (Hclosed (co_type c)); assumption. }
        unfold could_fit in Nf. unfold within, apart, cbox in *. rewrite Rc in *. cbn in Wc, Wd, Ap. cbn [bx0 bx1 by0 by1].
        destruct wide; apply orb_false_iff in Nf; destruct Nf as [N1 N2]; destruct (co_rot d); try (rewrite (D3 eq_refl) in N2; cbn [negb andb] in N2); lia. }
    assert (Ebox : forall c, In c (filter stay b) -> In (co_type c) ids -> cbox s' (slide wide ids c) =
       if wide then mkBox 0 (by0 (cbox s c)) W (by1 (cbox s c)) else mkBox (bx0 (cbox s c)) 0 (bx1 (cbox s c)) H).
    { intros c Hc Hi. destruct (Hbig c Hc Hi) as (Rc & _ & es & Ee). unfold slide. apply existsb_in in Hi. rewrite Hi. unfold cbox. cbn [co_dx co_dy co_rot co_type]. rewrite Rc, Ee. unfold enl. cbn [rt_x rt_y].
      destruct wide; cbn [bx0 bx1 by0 by1]; f_equal; lia. }
    assert (Ebox' : forall c, In c (filter stay b) -> ~ In (co_type c) ids -> cbox s' (slide wide ids c) = cbox s c).
    { intros c Hc Hi. unfold slide. pose proof (proj2 (existsb_notin _ _) Hi) as Hi'. rewrite Hi'. unfold cbox. rewrite (Eo c Hc Hi). reflexivity. }
    split.
    + intros c' Hc'. apply in_map_iff in Hc'. destruct Hc' as (c & <- & Hc). destruct (Hst c Hc) as ((X1 & X2 & X3) & Wc & _). rewrite slide_type. split; [exact X1|]. split.
      * unfold slide. destruct (existsb (Nat.eqb (co_type c)) ids); exact X3.
      * destruct (in_dec Nat.eq_dec (co_type c) ids) as [Hi|Hi]; [rewrite (Ebox c Hc Hi)|rewrite (Ebox' c Hc Hi); exact Wc].
        unfold within in *. destruct (cbox s c) as [a0 a1 a2 a3]. destruct wide; cbn [bx0 bx1 by0 by1] in *; lia.
    + eapply ord_pairs_map; [exact B|]. intros c d Hc Hd Ap. cbn beta in Ap.
      destruct (in_dec Nat.eq_dec (co_type c) ids) as [Hi|Hi]; destruct (in_dec Nat.eq_dec (co_type d) ids) as [Hj|Hj];
        rewrite ?(Ebox c Hc Hi), ?(Ebox' c Hc Hi), ?(Ebox d Hd Hj), ?(Ebox' d Hd Hj).
      * pose proof (Etr c d Hc Hd Hi Ap) as T. unfold apart. destruct wide; cbn [bx0 bx1 by0 by1]; lia.
      * pose proof (Etr c d Hc Hd Hi Ap) as T. unfold apart. destruct wide; cbn [bx0 bx1 by0 by1]; lia.
      * pose proof (Etr d c Hd Hc Hj (apart_sym _ _ Ap)) as T. unfold apart. destruct wide; cbn [bx0 bx1 by0 by1]; lia.
      * exact Ap.
  - intros x Hx. rewrite zsum_map. unfold vcopies. destruct (in_dec Nat.eq_dec x rs) as [Hr|Hr].
    + destruct (G4 x Hr) as (_ & _ & R). rewrite R. rewrite (zsum_ext _ _ (fun _ => 0)); [apply zsum_const0|]. intros b Hb. rewrite occ_map by (apply slide_type). rewrite occ_out; [reflexivity|].
      intros c Hc <-. apply filter_In in Hc. destruct Hc as [_ Hst]. apply negb_true_iff, existsb_notin in Hst. contradiction.
    + assert (Ev : vcopies s' x = vcopies s x).
      { unfold vcopies. destruct (in_dec Nat.eq_dec x ids) as [Hi|Hi].
        - unfold ids in Hi. apply in_map_iff in Hi. destruct Hi as ([b0 es] & E & Hin). cbn [fst] in E. subst b0. destruct (G5 _ _ Hin) as (_ & Lx & _ & Er & _). rewrite Er. unfold enl. cbn [rt_removed rt_copies]. unfold live in Lx. reflexivity.
        - rewrite (G6 x Hx Hr Hi). reflexivity. }
      fold (vcopies s' x). rewrite Ev, <- (P2 x Hx). apply zsum_ext. intros b Hb. rewrite occ_map by (apply slide_type). f_equal. apply occ_keep. intros c _ Ec. unfold stay. rewrite Ec. apply negb_true_iff, existsb_notin. exact Hr.
Qed.

(** ** Perfect pairs *)

Definition moved (v : bool) (d : Z) (c : Comp) : Comp := mkComp (co_type c) (if v then co_dx c + d else co_dx c) (if v then co_dy c else co_dy c + d) (co_rot c) [].

(** Items left after the removal of an item as high as the bin, moved together. *)
Definition pull (v : bool) (at_ w : Z) (c : Comp) : Comp := if (if v then co_dx c else co_dy c) <? at_ then c else moved v (- w) c.

Definition lo (v : bool) (b : Box) : Z := if v then bx0 b else by0 b.
Definition hi (v : bool) (b : Box) : Z := if v then bx1 b else by1 b.

Lemma pull_ok : forall v s l1 c l2, okbin s (l1 ++ c :: l2) ->
  (forall d, In d (l1 ++ c :: l2) -> 0 < rt_x (rtype s (co_type d)) /\ 0 < rt_y (rtype s (co_type d))) ->
  hi (negb v) (cbox s c) - lo (negb v) (cbox s c) = (if v then H else W) ->
  let w := hi v (cbox s c) - lo v (cbox s c) in
  let l := map (pull v (lo v (cbox s c)) w) (l1 ++ l2) in
  okbin s l /\ (forall d, In d l -> 0 <= lo v (cbox s d) /\ hi v (cbox s d) <= (if v then W else H) - w) /\ forall x, occ x l = occ x (l1 ++ l2).
Proof.
  intros v s l1 c l2 Ok Pos Hfull w l. destruct (okbin_split s l1 c l2 Ok) as [[A B] Ap]. destruct Ok as [A0 _].
  assert (Hsub : forall d, In d (l1 ++ l2) -> In d (l1 ++ c :: l2)) by (intros d Hd; apply in_app_or in Hd; apply in_or_app; destruct Hd; [left|right; right]; assumption).
  assert (Hcin : In c (l1 ++ c :: l2)) by (apply in_or_app; right; left; reflexivity).
  destruct (A0 c Hcin) as (_ & _ & Wc). destruct (Pos c Hcin) as [Pc1 Pc2].
  assert (Hpos : 0 < w) by (unfold w, lo, hi, cbox; cbn [bx0 bx1 by0 by1]; destruct v; destruct (co_rot c); lia).
  assert (Hd : forall d, In d (l1 ++ l2) -> lo v (cbox s d) < hi v (cbox s d) /\ (hi v (cbox s d) <= lo v (cbox s c) \/ hi v (cbox s c) <= lo v (cbox s d))).
  { intros d Hd. specialize (Ap d Hd). destruct (A d Hd) as (_ & _ & Wd). destruct (Pos d (Hsub d Hd)) as [Pd1 Pd2]. unfold within, apart, lo, hi in *.
    assert (Sx : bx0 (cbox s d) < bx1 (cbox s d)) by (unfold cbox; cbn [bx0 bx1]; destruct (co_rot d); lia). assert (Sy : by0 (cbox s d) < by1 (cbox s d)) by (unfold cbox; cbn [by0 by1]; destruct (co_rot d); lia).
    destruct (cbox s c) as [c0 c1 c2 c3]. destruct (cbox s d) as [d0 d1 d2 d3]. destruct v; cbn [negb bx0 bx1 by0 by1] in *; lia. }
  assert (Epull : forall d, In d (l1 ++ l2) -> cbox s (pull v (lo v (cbox s c)) w d) =
      let k := if lo v (cbox s d) <? lo v (cbox s c) then 0 else - w in
      if v then mkBox (bx0 (cbox s d) + k) (by0 (cbox s d)) (bx1 (cbox s d) + k) (by1 (cbox s d)) else mkBox (bx0 (cbox s d)) (by0 (cbox s d) + k) (bx1 (cbox s d)) (by1 (cbox s d) + k)).
  { intros d _. unfold pull. assert (E : (if v then co_dx d else co_dy d) = lo v (cbox s d)) by (unfold lo, cbox; destruct v; reflexivity). rewrite E.
    destruct (lo v (cbox s d) <? lo v (cbox s c)).
    - unfold cbox. cbn [bx0 bx1 by0 by1]. destruct v; f_equal; lia.
    - unfold moved, cbox. cbn [bx0 bx1 by0 by1 co_dx co_dy co_rot co_type]. destruct v; f_equal; lia. }
  assert (Hin : forall d, In d (l1 ++ l2) -> within (cbox s (pull v (lo v (cbox s c)) w d)) (mkBox 0 0 W H)
     /\ 0 <= lo v (cbox s (pull v (lo v (cbox s c)) w d)) /\ hi v (cbox s (pull v (lo v (cbox s c)) w d)) <= (if v then W else H) - w).
  { intros d Hdd. rewrite (Epull d Hdd). destruct (Hd d Hdd) as [H1 H2]. destruct (A d Hdd) as (_ & _ & Wd). cbv zeta. unfold w, within, lo, hi in *.
    destruct (cbox s c) as [c0 c1 c2 c3]. destruct (cbox s d) as [d0 d1 d2 d3]. destruct v; cbn [negb bx0 bx1 by0 by1] in *.
    - destruct (Z.ltb_spec d0 c0); cbn [bx0 bx1 by0 by1]; lia.
    - destruct (Z.ltb_spec d1 c1); cbn [bx0 bx1 by0 by1]; lia. }
  assert (Ety : forall d, co_type (pull v (lo v (cbox s c)) w d) = co_type d /\ co_rot (pull v (lo v (cbox s c)) w d) = co_rot d).
  { intros d. unfold pull. destruct ((if v then co_dx d else co_dy d) <? lo v (cbox s c)); split; reflexivity. }
  split; [|split].
  - split.
    + intros d' Hd'. apply in_map_iff in Hd'. destruct Hd' as (d & <- & Hdd). destruct (A d Hdd) as (A1 & A2 & _). destruct (Ety d) as [E1 E2]. rewrite E1, E2. split; [exact A1|]. split; [exact A2|]. apply (Hin d Hdd).
    + eapply ord_pairs_map; [exact B|]. intros d e Hdd He Hap. cbn beta in Hap. rewrite (Epull d Hdd), (Epull e He). destruct (Hd d Hdd) as [H1 H2]. destruct (Hd e He) as [H3 H4].
      cbv zeta. unfold w, apart, lo, hi in *. destruct (cbox s c) as [c0 c1 c2 c3]. destruct (cbox s d) as [d0 d1 d2 d3]. destruct (cbox s e) as [e0 e1 e2 e3]. destruct v; cbn [negb bx0 bx1 by0 by1] in *.
      * destruct (Z.ltb_spec d0 c0); destruct (Z.ltb_spec e0 c0); cbn [bx0 bx1 by0 by1]; lia.
      * destruct (Z.ltb_spec d1 c1); destruct (Z.ltb_spec e1 c1); cbn [bx0 bx1 by0 by1]; lia.
  - intros d' Hd'. apply in_map_iff in Hd'. destruct Hd' as (d & <- & Hdd). apply (Hin d Hdd).
  - intros x. apply occ_map. intros d. apply Ety.
Qed.

Lemma okbin_shift : forall v s l d, okbin s l -> (forall c, In c l -> 0 <= lo v (cbox s c) + d /\ hi v (cbox s c) + d <= (if v then W else H)) ->
  okbin s (map (moved v d) l) /\ (forall c, In c (map (moved v d) l) -> exists c0, In c0 l /\ lo v (cbox s c) = lo v (cbox s c0) + d /\ hi v (cbox s c) = hi v (cbox s c0) + d)
  /\ forall x, occ x (map (moved v d) l) = occ x l.
Proof.
  intros v s l d [A B] R.
  assert (E : forall c, cbox s (moved v d c) = if v then mkBox (bx0 (cbox s c) + d) (by0 (cbox s c)) (bx1 (cbox s c) + d) (by1 (cbox s c)) else mkBox (bx0 (cbox s c)) (by0 (cbox s c) + d) (bx1 (cbox s c)) (by1 (cbox s c) + d)).
  { intros c. unfold moved, cbox. cbn [bx0 bx1 by0 by1 co_dx co_dy co_rot co_type]. destruct v; f_equal; lia. }
  split; [split|split].
  - intros c' Hc'. apply in_map_iff in Hc'. destruct Hc' as (c & <- & Hc). destruct (A c Hc) as (A1 & A2 & A3). split; [exact A1|]. split; [exact A2|]. rewrite E. specialize (R c Hc).
    unfold within, lo, hi in *. destruct (cbox s c) as [c0 c1 c2 c3]. destruct v; cbn [bx0 bx1 by0 by1] in *; lia.
  - eapply ord_pairs_map; [exact B|]. intros c e _ _ Ap. cbn beta in Ap. rewrite !E. unfold apart in *. destruct v; cbn [bx0 bx1 by0 by1]; lia.
  - intros c' Hc'. apply in_map_iff in Hc'. destruct Hc' as (c & <- & Hc). exists c. split; [exact Hc|]. rewrite E. unfold lo, hi. destruct v; cbn [bx0 bx1 by0 by1]; split; reflexivity.
  - intros x. apply occ_map. reflexivity.
Qed.

(** The packings of a multiset of items with the sizes of a state. *)
Definition packs_n (s : Red) (cp : nat -> Z) (bins : list (list Comp)) : Prop :=
  (forall l, In l bins -> okbin s l) /\ forall x, (x < n)%nat -> zsum (fun l => Z.of_nat (occ x l)) bins = cp x.

Lemma pair_one : forall (v : bool) s cp bins x y, packs_n s cp bins -> x <> y -> (x < n)%nat -> (y < n)%nat -> oriented i x = true -> oriented i y = true ->
  (forall z, (z < n)%nat -> 0 < cp z -> 0 < rt_x (rtype s z) /\ 0 < rt_y (rtype s z)) -> 0 < cp x -> 0 < cp y ->
  (if v then rt_y (rtype s x) = H /\ rt_y (rtype s y) = H /\ rt_x (rtype s x) + rt_x (rtype s y) = W
        else rt_x (rtype s x) = W /\ rt_x (rtype s y) = W /\ rt_y (rtype s x) + rt_y (rtype s y) = H) ->
  exists bins', S (length bins') = length bins /\ packs_n s (fun z : nat => cp z - (if Nat.eqb x z then 1 else 0) - (if Nat.eqb y z then 1 else 0)) bins'.
Proof.
  intros v s cp bins x y [P1 P2] Nxy Hx Hy Ox Oy Pos Cx Cy Sz.
  assert (Hfind : forall z, (z < n)%nat -> 0 < cp z -> exists l, In l bins /\ (0 < occ z l)%nat).
  { intros z Hz Hc. rewrite <- (P2 z Hz) in Hc. clear - Hc. induction bins as [|l bins IH]; [rewrite zsum_nil in Hc; lia|]. rewrite zsum_cons in Hc.
    destruct (Nat.eq_dec (occ z l) 0) as [E|E]; [|exists l; split; [left; reflexivity|lia]]. destruct IH as (l' & Hl & Ho); [lia|]. exists l'. split; [right; exact Hl|exact Ho]. }
  assert (Hpos : forall l c, In l bins -> In c l -> 0 < rt_x (rtype s (co_type c)) /\ 0 < rt_y (rtype s (co_type c))).
  { intros l c Hl Hc. destruct (P1 l Hl) as [A _]. destruct (A c Hc) as (Hz & _). apply Pos; [exact Hz|]. rewrite <- (P2 _ Hz). apply in_split in Hl. destruct Hl as (b1 & b2 & ->). rewrite zsum_app, zsum_cons. pose proof (occ_pos c l Hc).
    assert (0 <= zsum (fun l0 => Z.of_nat (occ (co_type c) l0)) b1) by (apply zsum_nonneg; intros; lia). assert (0 <= zsum (fun l0 => Z.of_nat (occ (co_type c) l0)) b2) by (apply zsum_nonneg; intros; lia). lia. }
  assert (Hsize : forall l c, In l bins -> In c l -> co_type c = x \/ co_type c = y -> hi (negb v) (cbox s c) - lo (negb v) (cbox s c) = (if v then H else W)
     /\ hi v (cbox s c) - lo v (cbox s c) = (if v then rt_x (rtype s (co_type c)) else rt_y (rtype s (co_type c)))).
  { intros l c Hl Hc Hcc. destruct (P1 l Hl) as [A _]. destruct (A c Hc) as (_ & R & _).
    assert (Rc : co_rot c = false) by (destruct (co_rot c); [|reflexivity]; specialize (R eq_refl); destruct Hcc as [E|E]; rewrite E in R; congruence).
    unfold hi, lo, cbox. rewrite Rc. cbn [bx0 bx1 by0 by1]. destruct Hcc as [E|E]; rewrite E; destruct v; cbn [negb]; lia. }
  destruct (Hfind x Hx Cx) as (lx & Hlx & Ocx). destruct (occ_in x lx Ocx) as (c & Hc & Ec).
  pose proof (in_split _ _ Hc) as (l1 & l2 & El). destruct (Nat.eq_dec (occ y lx) 0) as [Ny|Ny].
  - (* the other one in another bin *)
    destruct (Hfind y Hy Cy) as (ly & Hly & Ocy). destruct (occ_in y ly Ocy) as (d & Hd & Ed). pose proof (in_split _ _ Hd) as (m1 & m2 & Em).
    assert (Hne : lx <> ly) by (intros C; rewrite C in Ny; lia).
    assert (Hs : exists rest, Permutation bins (lx :: ly :: rest)).
    { apply in_split in Hlx. destruct Hlx as (b1 & b2 & Eb). assert (Hly' : In ly (b1 ++ b2)) by (rewrite Eb in Hly; apply in_app_or in Hly; apply in_or_app; destruct Hly as [|[|]]; [left; assumption|contradiction|right; assumption]).
      apply in_split in Hly'. destruct Hly' as (e1 & e2 & Ee). exists (e1 ++ e2). rewrite Eb. rewrite <- Permutation_middle, Ee, <- Permutation_middle. reflexivity. }
    destruct Hs as (rest & Pm).
    pose proof (Hsize lx c Hlx Hc (or_introl Ec)) as [F1 F2]. pose proof (Hsize ly d Hly Hd (or_intror Ed)) as [F3 F4]. rewrite Ec in F2. rewrite Ed in F4.
    pose proof (P1 lx Hlx) as Ox1. pose proof (P1 ly Hly) as Oy1. rewrite El in Ox1. rewrite Em in Oy1.
    destruct (pull_ok v s l1 c l2 Ox1) as (K1 & K2 & K3); [intros e He; apply (Hpos lx); [exact Hlx|rewrite El; exact He]|exact F1|].
    destruct (pull_ok v s m1 d m2 Oy1) as (L1 & L2 & L3); [intros e He; apply (Hpos ly); [exact Hly|rewrite Em; exact He]|exact F3|].
    set (A := map (pull v (lo v (cbox s c)) (hi v (cbox s c) - lo v (cbox s c))) (l1 ++ l2)) in *.
    set (B := map (pull v (lo v (cbox s d)) (hi v (cbox s d) - lo v (cbox s d))) (m1 ++ m2)) in *.
    set (off := if v then rt_x (rtype s y) else rt_y (rtype s y)).
    assert (Poff : 0 < off) by (destruct (Pos y Hy Cy); unfold off; destruct v; lia).
    destruct (okbin_shift v s B off L1) as (M1 & M2 & M3).
    { intros e He. destruct (L2 e He) as [X1 X2]. unfold off. destruct v; lia. }
    exists ((A ++ map (moved v off) B) :: rest). split; [rewrite (Permutation_length Pm); reflexivity|]. split.
    + intros l [<-|Hl]; [|apply P1; apply (Permutation_in _ (Permutation_sym Pm)); right; right; exact Hl]. destruct K1 as [KA KB]. destruct M1 as [MA MB]. split.
      * intros e He. apply in_app_or in He. destruct He as [He|He]; [apply KA|apply MA]; exact He.
      * apply ord_pairs_app; [exact KB|exact MB|]. intros a b Ha Hb. destruct (K2 a Ha) as [X1 X2]. destruct (M2 b Hb) as (b0 & Hb0 & Y1 & Y2). destruct (L2 b0 Hb0) as [Z1 Z2].
        unfold apart. unfold lo, hi, off in *. destruct v; lia.
    + intros z Hz. rewrite <- (P2 z Hz). rewrite (zsum_perm _ _ _ _ Pm). rewrite !zsum_cons. rewrite occ_app, M3, K3, L3, El, Em, !occ_app, !occ_cons, Ec, Ed. destruct (Nat.eqb x z); destruct (Nat.eqb y z); lia.
  - (* both in the same bin, that contains nothing else *)
    assert (Hy' : exists d, In d (l1 ++ l2) /\ co_type d = y).
    { apply (occ_in y). rewrite El, occ_app, occ_cons, Ec in Ny. rewrite occ_app. destruct (Nat.eqb_spec x y) as [|_]; [contradiction|lia]. }
    destruct Hy' as (d & Hd & Ed). pose proof (P1 lx Hlx) as Ok. rewrite El in Ok. destruct (okbin_split s l1 c l2 Ok) as [Ok' Ap]. pose proof (Ap d Hd) as Apd.
    pose proof (in_split _ _ Hd) as (m1 & m2 & Em). rewrite Em in Ok'. destruct (okbin_split s m1 d m2 Ok') as [_ Ap'].
    assert (Hdx : In d lx) by (rewrite El; apply in_app_or in Hd; apply in_or_app; destruct Hd; [left|right; right]; assumption).
    pose proof (Hsize lx c Hlx Hc (or_introl Ec)) as [F1 F2]. pose proof (Hsize lx d Hlx Hdx (or_intror Ed)) as [F3 F4]. rewrite Ec in F2. rewrite Ed in F4.
    assert (Emp : m1 ++ m2 = []).
    { destruct (m1 ++ m2) as [|e m] eqn:Ee; [reflexivity|]. exfalso. assert (He : In e (m1 ++ m2)) by (rewrite Ee; left; reflexivity).
      rewrite <- Ee in *. assert (He1 : In e (l1 ++ l2)) by (rewrite Em; apply in_app_or in He; apply in_or_app; destruct He; [left|right; right]; assumption).
      assert (He2 : In e lx) by (rewrite El; apply in_app_or in He1; apply in_or_app; destruct He1; [left|right; right]; assumption).
      pose proof (Ap e He1) as A1. pose proof (Ap' e He) as A2. destruct (Hpos lx e Hlx He2) as [Q1 Q2]. destruct (P1 lx Hlx) as [A _].
      destruct (A c Hc) as (_ & _ & W1). destruct (A d Hdx) as (_ & _ & W2). destruct (A e He2) as (_ & _ & W3).
      assert (Sx : bx0 (cbox s e) < bx1 (cbox s e)) by (unfold cbox; cbn [bx0 bx1]; destruct (co_rot e); lia). assert (Sy : by0 (cbox s e) < by1 (cbox s e)) by (unfold cbox; cbn [by0 by1]; destruct (co_rot e); lia).
      destruct (Pos x Hx Cx) as [Q3 Q4]. destruct (Pos y Hy Cy) as [Q5 Q6]. clear - Apd F1 F2 F3 F4 A1 A2 W1 W2 W3 Sx Sy Sz Q3 Q4 Q5 Q6.
      unfold within, apart, lo, hi in *. destruct (cbox s c) as [c0 c1 c2 c3]. destruct (cbox s d) as [d0 d1 d2 d3]. destruct (cbox s e) as [e0 e1 e2 e3]. destruct v; cbn [negb bx0 bx1 by0 by1] in *; lia. }
    apply app_eq_nil in Emp. destruct Emp as [-> ->]. pose proof (in_split _ _ Hlx) as (b1 & b2 & Eb). exists (b1 ++ b2). split; [rewrite Eb, !app_length; cbn [length]; lia|]. split.
    + intros l Hl. apply P1. rewrite Eb. apply in_app_or in Hl. apply in_or_app. destruct Hl; [left|right; right]; assumption.
    + intros z Hz. rewrite <- (P2 z Hz), Eb, !zsum_app, zsum_cons.
      assert (Oz : occ z lx = ((if Nat.eqb x z then 1 else 0) + (if Nat.eqb y z then 1 else 0))%nat).
      { rewrite El, occ_app, occ_cons, Ec. assert (Hoc : occ z (l1 ++ l2) = if Nat.eqb y z then 1%nat else O) by (rewrite Em; cbn [app]; rewrite occ_cons, occ_nil, Ed; destruct (Nat.eqb y z); reflexivity). rewrite occ_app in Hoc. lia. }
      rewrite Oz. destruct (Nat.eqb x z); destruct (Nat.eqb y z); lia.
Qed.

Lemma pair_many : forall (v : bool) s m cp bins x y, packs_n s cp bins -> x <> y -> (x < n)%nat -> (y < n)%nat -> oriented i x = true -> oriented i y = true ->
  (forall z, (z < n)%nat -> 0 < cp z -> 0 < rt_x (rtype s z) /\ 0 < rt_y (rtype s z)) -> Z.of_nat m <= cp x -> Z.of_nat m <= cp y ->
  (if v then rt_y (rtype s x) = H /\ rt_y (rtype s y) = H /\ rt_x (rtype s x) + rt_x (rtype s y) = W
        else rt_x (rtype s x) = W /\ rt_x (rtype s y) = W /\ rt_y (rtype s x) + rt_y (rtype s y) = H) ->
  exists bins', (m + length bins')%nat = length bins /\ packs_n s (fun z : nat => cp z - (if Nat.eqb x z then Z.of_nat m else 0) - (if Nat.eqb y z then Z.of_nat m else 0)) bins'.
Proof.
  intros v s m. induction m as [|m IH]; intros cp bins x y P Nxy Hx Hy Ox Oy Pos Cx Cy Sz.
  - exists bins. split; [reflexivity|]. destruct P as [P1 P2]. split; [exact P1|]. intros z Hz. rewrite (P2 z Hz). destruct (Nat.eqb x z); destruct (Nat.eqb y z); cbn; lia.
  - destruct (pair_one v s cp bins x y P Nxy Hx Hy Ox Oy Pos ltac:(lia) ltac:(lia) Sz) as (bins1 & L1 & Pk1).
    destruct (IH _ bins1 x y Pk1 Nxy Hx Hy Ox Oy) as (bins2 & L2 & Pk2).
    + intros z Hz Hc. apply Pos; [exact Hz|]. destruct (Nat.eqb x z); destruct (Nat.eqb y z); lia.
    + rewrite Nat.eqb_refl. destruct (Nat.eqb_spec y x); [congruence|lia].
    + rewrite Nat.eqb_refl. destruct (Nat.eqb_spec x y); [congruence|lia].
    + exact Sz.
    + exists bins2. split; [lia|]. destruct Pk2 as [A B]. split; [exact A|]. intros z Hz. rewrite (B z Hz). destruct (Nat.eqb x z); destruct (Nat.eqb y z); lia.
Qed.

Theorem opt_pair : forall s s' x y m, Inv i W H s -> paired i W H s s' x y m -> Opt s s'.
Proof.
  intros s s' x y m I (R1 & R2 & R3 & Hx & Hy & Nxy & Lx & Ly & Ox & Oy & Em & Hm & Sp & (r1 & Ex) & (r2 & Ey) & Eo) K (bins & L & P). pose proof P as [P1 P2].
  unfold live in Lx, Ly.
  assert (Hsz : exists v : bool, if v then rt_y (rtype s x) = H /\ rt_y (rtype s y) = H /\ rt_x (rtype s x) + rt_x (rtype s y) = W
        else rt_x (rtype s x) = W /\ rt_x (rtype s y) = W /\ rt_y (rtype s x) + rt_y (rtype s y) = H).
  { destruct Sp as [Sp|Sp]; [exists true; unfold vertical_split in Sp|exists false; unfold horizontal_split in Sp]; lia. }
  destruct Hsz as (v & Hsz).
  destruct (pair_many v s (Z.to_nat m) (vcopies s) bins x y P Nxy Hx Hy Ox Oy) as (bins' & L' & [A B]).
  - intros z Hz Hc. unfold vcopies in Hc. destruct (rt_removed (rtype s z)) eqn:E; [lia|]. apply (ty_sizes _ _ _ (in_types _ _ _ _ I z Hz E)).
  - unfold vcopies. rewrite Lx. lia.
  - unfold vcopies. rewrite Ly. lia.
  - exact Hsz.
  - assert (Es : forall z, (z < n)%nat -> rt_x (rtype s' z) = rt_x (rtype s z) /\ rt_y (rtype s' z) = rt_y (rtype s z)).
    { intros z Hz. destruct (Nat.eq_dec z x) as [->|N1]; [rewrite Ex; split; reflexivity|]. destruct (Nat.eq_dec z y) as [->|N2]; [rewrite Ey; split; reflexivity|]. rewrite Eo by assumption. split; reflexivity. }
    exists bins'. split; [lia|]. split.
    + intros l Hl. apply (okbin_same s); [|apply A; exact Hl]. intros c Hc. apply Es. destruct (A l Hl) as [A1 _]. apply (A1 c Hc).
    + intros z Hz. rewrite (B z Hz), Z2Nat.id by lia. unfold vcopies. destruct (Nat.eqb_spec x z) as [->|N1].
      * destruct (Nat.eqb_spec y z) as [C|_]; [congruence|]. rewrite Ex, Lx. unfold consume. cbn [rt_removed rt_copies]. rewrite Lx. cbn [orb]. destruct (Z.eqb_spec (rt_copies (rtype s z) - m) 0); lia.
      * destruct (Nat.eqb_spec y z) as [->|N2].
        -- rewrite Ey, Ly. unfold consume. cbn [rt_removed rt_copies]. rewrite Ly. cbn [orb]. destruct (Z.eqb_spec (rt_copies (rtype s z) - m) 0); lia.
        -- rewrite Eo by auto. destruct (rt_removed (rtype s z)); lia.
Qed.

End Opt.
