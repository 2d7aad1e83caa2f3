(** * The loop of the dichotomic search: interval, termination, infeasible instances *)

From Coq Require Import List ZArith QArith Qround Bool Lia Lqa Permutation.
From Verif Require Import Util Common_Model OneDim_Model ColGen_Model ColGen_Spec ColGenCap_Proof ColGenPrice_Proof Svc_Model Svc_Spec Svc_Proof Dicho_Model Dicho_Spec Dicho_Proof.
Import ListNotations.
Open Scope Z_scope.

(** Powers of two. *)
Definition pw (k : nat) : Q := inject_Z (2 ^ Z.of_nat k).
Lemma pw_S : forall k, (pw (S k) == 2 * pw k)%Q.
Proof. intro k. unfold pw. rewrite Nat2Z.inj_succ, Z.pow_succ_r by lia. rewrite inject_Z_mult. reflexivity. Qed.
Lemma pw_pos : forall k, (0 < pw k)%Q.
Proof. intro k. unfold pw. change 0%Q with (inject_Z 0). rewrite <- Zlt_Qlt. apply Z.pow_pos_nonneg; lia. Qed.
Lemma pw_ge : forall k, Z.of_nat k < 2 ^ Z.of_nat k.
Proof. intro k. apply Z.pow_gt_lin_r; lia. Qed.
Lemma pw_above : forall x : Q, exists k, (x < pw k)%Q.
Proof.
  intro x. exists (Z.to_nat (Qceiling x)). apply Qle_lt_trans with (inject_Z (Z.of_nat (Z.to_nat (Qceiling x)))).
  - apply Qle_trans with (inject_Z (Qceiling x)); [apply Qle_ceiling|]. rewrite <- Zle_Qle. lia.
  - unfold pw. rewrite <- Zlt_Qlt. apply pw_ge.
Qed.

Section Inst.
Variables (i : DInst) (o : DOracle) (initial : Q).
Hypothesis Hi : dinst_ok i.

Lemma dloop_more : forall f g s r, dloop f i o initial s = Some r -> dloop (f + g) i o initial s = Some r.
Proof.
  induction f as [|f IH]; intros g s r E; [discriminate|]. cbn [dloop Nat.add] in *. destruct (dcontinue (ds_lb s) (ds_ub s)); [|exact E].
  destruct (dturn i o initial s) as [s'|r']; [apply IH; exact E|exact E].
Qed.

Lemma dloop_enough : forall f g s, (f <= g)%nat -> dloop f i o initial s <> None -> dloop g i o initial s <> None.
Proof.
  intros f g s L E. destruct (dloop f i o initial s) as [r|] eqn:K; [|congruence]. replace g with (f + (g - f))%nat by lia. rewrite (dloop_more _ _ _ _ K). discriminate.
Qed.

(** Turns of the loop. *)
Inductive steps : DState -> DState -> Prop :=
| steps_refl s : steps s s
| steps_turn s s' s'' : dcontinue (ds_lb s) (ds_ub s) = true -> dturn i o initial s = inl s' -> steps s' s'' -> steps s s''.

Lemma dloop_steps : forall f s r, dloop f i o initial s = Some r ->
  exists s1, steps s s1 /\ ((dcontinue (ds_lb s1) (ds_ub s1) = false /\ r = DEnd s1) \/ (dcontinue (ds_lb s1) (ds_ub s1) = true /\ dturn i o initial s1 = inr r)).
Proof.
  induction f as [|f IH]; intros s r E; [discriminate|]. cbn [dloop] in E. destruct (dcontinue (ds_lb s) (ds_ub s)) eqn:C.
  - destruct (dturn i o initial s) as [s'|r'] eqn:T.
    + destruct (IH _ _ E) as (s1 & S1 & K). exists s1. split; [exact (steps_turn _ _ _ C T S1)|exact K].
    + injection E as <-. exists s. split; [constructor|right; split; assumption].
  - injection E as <-. exists s. split; [constructor|left; split; [exact C|reflexivity]].
Qed.

Lemma steps_inv : forall (P : DState -> Prop), (forall s s', P s -> dcontinue (ds_lb s) (ds_ub s) = true -> dturn i o initial s = inl s' -> P s') ->
  forall s s', steps s s' -> P s -> P s'.
Proof. intros P H s s' St. induction St as [s|s s1 s2 C T St IH]; intro K; [exact K|]. apply IH. exact (H _ _ K C T). Qed.

Lemma steps_dinv : forall s s', steps s s' -> DInv i o s -> DInv i o s'.
Proof.
  apply steps_inv. intros s s' D _ T. pose proof (dturn_inv i o initial Hi s D) as K. cbv zeta in K. rewrite T in K. exact (proj1 K).
Qed.

(** The selections made at the two bounds. *)
Definition tried (s : DState) (w : Ext) (v : bool) : Prop := exists contains, In (dselection i (dkp i (dcapacity i w)) contains, v) (ds_memory s).
Definition Bounds (ub0 : Ext) (s : DState) : Prop :=
  (ds_lb s = Fin 0 \/ tried s (ds_lb s) false) /\ (ds_ub s = ub0 \/ tried s (ds_ub s) true).

Lemma turn_bounds : forall ub0 s s', DInv i o s -> Bounds ub0 s -> dturn i o initial s = inl s' -> Bounds ub0 s'.
Proof.
  intros ub0 s s' D [B1 B2] T. pose proof (dturn_inv i o initial Hi s D) as K. cbv zeta in K. rewrite T in K. destruct K as (_ & _ & (contains & K) & Hold).
  assert (M : forall w v, tried s w v -> tried s' w v) by (intros w v (c & Hc); exists c; apply Hold; exact Hc).
  destruct K as [(K1 & K2 & K3)|(K1 & K2 & K3)]; unfold Bounds; rewrite K2, K3; split.
  - destruct B1 as [B1|B1]; [left; exact B1|right; apply M; exact B1].
  - right. exists contains. exact K1.
  - right. exists contains. exact K1.
  - destruct B2 as [B2|B2]; [left; exact B2|right; apply M; exact B2].
Qed.

Lemma steps_bounds : forall ub0 s s', steps s s' -> DInv i o s -> Bounds ub0 s -> Bounds ub0 s'.
Proof.
  intros ub0 s s' St D B. cut (DInv i o s' /\ Bounds ub0 s'); [intros [_ K]; exact K|]. revert s s' St D B.
  cut (forall s s', steps s s' -> DInv i o s /\ Bounds ub0 s -> DInv i o s' /\ Bounds ub0 s'); [intros K s s' St D B; exact (K s s' St (conj D B))|].
  apply (steps_inv (fun s => DInv i o s /\ Bounds ub0 s)). intros s s' [D B] _ T. split; [|exact (turn_bounds _ _ _ D B T)].
  pose proof (dturn_inv i o initial Hi s D) as K. cbv zeta in K. rewrite T in K. exact (proj1 K).
Qed.

(** ** Termination *)
Hypothesis Hinit : (0 < initial)%Q.
Hypothesis Hinit' : (initial <= dbl_max)%Q.
Hypothesis Hspace : forall t, (t < cnb (dbase i))%nat -> 0 < dspace i t.
Hypothesis Hitems : 1 <= di_item_space i.
Hypothesis Hbins : dbin_space i - dbin_min_space i <= 2 ^ 63.

(** Once both bounds are finite, the interval is halved. *)
Lemma finite_halves : forall s l u s', DInv i o s -> ds_lb s = Fin l -> ds_ub s = Fin u -> (0 <= l)%Q -> (0 <= u)%Q -> dcontinue (Fin l) (Fin u) = true ->
  dturn i o initial s = inl s' -> exists l' u', ds_lb s' = Fin l' /\ ds_ub s' = Fin u' /\ (l <= l')%Q /\ (l' <= u')%Q /\ (u' <= u)%Q /\ (u' - l' == (u - l) / 2)%Q.
Proof.
  intros s l u s' D El Eu Hl Hu C T. pose proof (dturn_inv i o initial Hi s D) as K. cbv zeta in K. rewrite T, El, Eu in K. destruct K as (_ & _ & (contains & K) & _).
  pose proof (dwaste_between initial Hinit l (Fin u) Hl Hu C) as W. cbn [dwaste] in *. destruct W as (W1 & W2 & W3 & W4).
  destruct K as [(_ & K2 & K3)|(_ & K2 & K3)].
  - exists l, ((l + u) / 2)%Q. repeat split; try assumption; lra.
  - exists ((l + u) / 2)%Q, u. repeat split; try assumption; lra.
Qed.

Lemma finite_terminates : forall k s l u, DInv i o s -> ds_lb s = Fin l -> ds_ub s = Fin u -> (0 <= l)%Q -> (0 <= u)%Q -> (u - l <= dtolerance * pw k)%Q ->
  dloop (S k) i o initial s <> None.
Proof.
  induction k as [|k IH]; intros s l u D El Eu Hl Hu W.
  - cbn [dloop]. rewrite El, Eu. cbn [dcontinue]. unfold Qltb. replace (Qle_bool (u - l) dtolerance) with true; [discriminate|]. symmetry. apply Qle_bool_iff.
    change (pw 0) with 1%Q in W. lra.
  - cbn [dloop]. fold (dloop (S k) i o initial). destruct (dcontinue (ds_lb s) (ds_ub s)) eqn:C; [|discriminate]. destruct (dturn i o initial s) as [s'|r] eqn:T; [|discriminate].
    rewrite El, Eu in C. destruct (finite_halves s l u s' D El Eu Hl Hu C T) as (l' & u' & El' & Eu' & H1 & H2 & H3 & H4).
    pose proof (dturn_inv i o initial Hi s D) as K. cbv zeta in K. rewrite T in K.
    change (dloop (S k) i o initial s' <> None). apply (IH s' l' u' (proj1 K) El' Eu'); [lra|lra|]. rewrite pw_S in W. rewrite H4. clear -W. unfold dtolerance in *. unfold Qdiv. change (/ 2)%Q with (1 # 2)%Q. lra.
Qed.

(** With no room to remove bins, only the mandatory bins are selected. *)
Lemma no_room : forall contains, dselection i (dkp i 0) contains = map (fun t => cb_copies_min (cbin (dbase i) t) + 0) (dtypes i).
Proof.
  intros contains. assert (E : dkp i 0 = []).
  { unfold dkp. assert (G : forall l, (forall t, In t l -> (t < cnb (dbase i))%nat) -> flat_map (fun t => if 0 <? dspace i t then [] else repeat t (Z.to_nat (cb_copies (cbin (dbase i) t) - cb_copies_min (cbin (dbase i) t)))) l = []).
    { induction l as [|a l IH]; intros H; [reflexivity|]. cbn [flat_map]. rewrite IH by (intros; apply H; right; assumption).
      specialize (Hspace a (H a (or_introl eq_refl))). destruct (Z.ltb_spec 0 (dspace i a)); [reflexivity|lia]. }
    apply G. intros t Ht. apply in_seq in Ht. lia. }
  rewrite E. reflexivity.
Qed.

Lemma dbl_max_big : (inject_Z (2 ^ 1023) <= dbl_max)%Q.
Proof. unfold dbl_max. rewrite <- Zle_Qle. apply Z.leb_le. vm_compute. reflexivity. Qed.

Lemma pow_63 : (inject_Z (2 ^ 63) < inject_Z (2 ^ 1022))%Q.
Proof. rewrite <- Zlt_Qlt. apply Z.ltb_lt. vm_compute. reflexivity. Qed.

Lemma capacity_zero : forall l, (dbl_max < l * 2)%Q -> dcapacity i (Fin l) = 0.
Proof.
  intros l Hl. cbn [dcapacity]. apply Z.max_l. pose proof dbl_max_big as B. pose proof pow_63 as P.
  assert (E : (inject_Z (2 ^ 1023) == 2 * inject_Z (2 ^ 1022))%Q) by reflexivity.
  assert (Hl' : (inject_Z (2 ^ 63) < l)%Q).
  { generalize dependent dbl_max. generalize dependent (inject_Z (2 ^ 1023)). generalize dependent (inject_Z (2 ^ 1022)). intros. lra. }
  assert (Hb : (inject_Z (dbin_space i - dbin_min_space i) <= inject_Z (2 ^ 63))%Q) by (rewrite <- Zle_Qle; exact Hbins).
  assert (Hs : (1 <= inject_Z (di_item_space i))%Q) by (change 1%Q with (inject_Z 1); rewrite <- Zle_Qle; exact Hitems).
  assert (Hpos : (0 < inject_Z (2 ^ 63))%Q) by reflexivity.
  assert (N : (inject_Z (dbin_space i - dbin_min_space i) - inject_Z (di_item_space i) * (1 + l) < 0)%Q).
  { generalize dependent (inject_Z (2 ^ 63)). intros c. generalize (inject_Z (dbin_space i - dbin_min_space i)). generalize dependent (inject_Z (di_item_space i)). intros a Ha b H1 H2 H3 H4. nra. }
  revert N. generalize (inject_Z (dbin_space i - dbin_min_space i) - inject_Z (di_item_space i) * (1 + l))%Q. intros [n d] N. unfold qtrunc. unfold Qlt in N. cbn [Qnum Qden] in *.
  rewrite Z.mul_1_r, Z.mul_0_l in N. replace n with (- (- n)) by lia. rewrite Z.quot_opp_l by lia. pose proof (Z.quot_pos (- n) (Zpos d) ltac:(lia) ltac:(lia)). lia.
Qed.

Lemma tried_twice : forall s sel, DInv i o s -> In (sel, true) (ds_memory s) -> In (sel, false) (ds_memory s) -> False.
Proof.
  intros s sel D H1 H2. pose proof (di_nodup i o s D) as N. revert N H1 H2. generalize (ds_memory s). induction l as [|[k v] l IH]; intros N H1 H2; [destruct H1|].
  cbn [map fst] in N. inversion N as [|? ? N1 N2]; subst.
  destruct H1 as [H1|H1]; destruct H2 as [H2|H2]; try congruence.
  - injection H1 as -> ->. apply N1. exact (in_map fst _ _ H2).
  - injection H2 as -> ->. apply N1. exact (in_map fst _ _ H1).
  - exact (IH N2 H1 H2).
Qed.

(** While the upper bound is infinite, the lower bound doubles. *)
Lemma infinite_terminates : forall k K s l, DInv i o s -> tried s (Fin l) false -> ds_lb s = Fin l -> ds_ub s = Inf -> (0 < l)%Q ->
  (dbl_max < l * pw (S k))%Q -> (dbl_max <= dtolerance * pw K)%Q -> dloop (k + 2 + K) i o initial s <> None.
Proof.
  induction k as [|k IH]; intros K s l D Tr El Eu Hl Hk HK; cbn [Nat.add dloop]; rewrite El, Eu; cbn [dcontinue];
    (destruct (dturn i o initial s) as [s'|r] eqn:T; [|discriminate]);
    pose proof (dturn_inv i o initial Hi s D) as V; cbv zeta in V; rewrite T, El, Eu in V; destruct V as (D' & _ & (contains & V) & Hold);
    pose proof (dwaste_between initial Hinit l Inf (Qlt_le_weak _ _ Hl) I eq_refl) as W.
  - destruct (dwaste initial (Fin l) Inf) as [w|] eqn:Ew.
    + exfalso. destruct W as [W1 [[W2 _]|(W2 & W3 & W4)]]; [lra|]. rewrite pw_S in Hk. change (pw 0) with 1%Q in Hk. lra.
    + destruct W as [_ W]. destruct V as [(V1 & V2 & V3)|(V1 & V2 & V3)].
      * exfalso. destruct Tr as (c & Hc). apply (tried_twice s' (dselection i (dkp i 0) contains) D' V1). apply Hold in Hc. rewrite capacity_zero in Hc by exact W. rewrite no_room in *. exact Hc.
      * rewrite V2. destruct (ds_ub s'); discriminate.
  - apply (dloop_enough (k + 2 + K)); [lia|]. destruct (dwaste initial (Fin l) Inf) as [w|] eqn:Ew.
    + destruct W as [W1 [[W2 _]|(W2 & W3 & W4)]]; [lra|]. destruct V as [(V1 & V2 & V3)|(V1 & V2 & V3)].
      * apply (dloop_enough (S K)); [lia|]. apply (finite_terminates K s' l w D' V2 V3); [lra|lra|]. rewrite W3 in *. generalize dependent dbl_max. generalize (dtolerance * pw K)%Q. intros. lra.
      * apply (IH K s' w D'); [exists contains; exact V1|exact V2|exact V3|lra| |exact HK].
        rewrite W3. rewrite pw_S in Hk. setoid_replace (l * 2 * pw (S k))%Q with (l * (2 * pw (S k)))%Q by ring. exact Hk.
    + destruct W as [_ W]. destruct V as [(V1 & V2 & V3)|(V1 & V2 & V3)].
      * exfalso. destruct Tr as (c & Hc). apply (tried_twice s' (dselection i (dkp i 0) contains) D' V1). apply Hold in Hc. rewrite capacity_zero in Hc by exact W. rewrite no_room in *. exact Hc.
      * replace (k + 2 + K)%nat with (S (k + 1 + K)) by lia. cbn [dloop]. rewrite V2. destruct (ds_ub s'); discriminate.
Qed.
End Inst.

(** The bound on the number of turns depends only on the parameters. *)
Lemma turns_bound : forall initial ub0, (0 < initial)%Q -> (initial <= dbl_max)%Q -> waste_ok ub0 ->
  exists N, forall i o, dinst_ok i -> (forall t, (t < cnb (dbase i))%nat -> 0 < dspace i t) -> 1 <= di_item_space i -> dbin_space i - dbin_min_space i <= 2 ^ 63 ->
    dloop N i o initial (dstart ub0) <> None.
Proof.
  intros initial ub0 H1 H2 H0. destruct ub0 as [u|].
  - destruct (pw_above (u / dtolerance)) as [k Hk]. exists (S k). intros i o Hi Hs Hit Hb.
    apply (finite_terminates i o initial Hi H1 k _ 0%Q u); [apply dinv_start|reflexivity|reflexivity|lra|exact H0|].
    assert (u == u / dtolerance * dtolerance)%Q by (field; unfold dtolerance; lra). unfold dtolerance in *. lra.
  - destruct (pw_above (dbl_max / initial)) as [k Hk]. destruct (pw_above (dbl_max / dtolerance)) as [K HK]. exists (S (k + 2 + K)). intros i o Hi Hs Hit Hb.
    assert (HK' : (dbl_max <= dtolerance * pw K)%Q).
    { assert (E : (dbl_max == dbl_max / dtolerance * dtolerance)%Q) by (field; unfold dtolerance; lra). rewrite E. revert HK. generalize (dbl_max / dtolerance)%Q. intros x Hx. unfold dtolerance. lra. }
    assert (Hk' : (dbl_max < initial * pw (S k))%Q).
    { assert (E : (dbl_max == dbl_max / initial * initial)%Q) by (field; lra). rewrite E, pw_S. pose proof (pw_pos k). revert Hk. generalize (dbl_max / initial)%Q. intros x Hx. nra. }
    cbn [dloop dstart ds_lb ds_ub dcontinue]. pose proof (dinv_start i o Inf) as D0.
    destruct (dturn i o initial (dstart Inf)) as [s'|r] eqn:T; [|discriminate].
    pose proof (dturn_inv i o initial Hi (dstart Inf) D0) as V. cbv zeta in V. rewrite T in V. destruct V as (D' & _ & (contains & V) & _).
    cbn [dstart ds_lb ds_ub dwaste] in V. change (Qeq_bool 0 0) with true in V. cbv iota in V.
    destruct V as [(V1 & V2 & V3)|(V1 & V2 & V3)].
    + apply (dloop_enough i o initial (S K)); [lia|]. apply (finite_terminates i o initial Hi H1 K s' 0%Q initial D' V2 V3); [lra|lra|]. lra.
    + apply (infinite_terminates i o initial Hi H1 H2 Hs Hit Hb k K s' initial D'); [exists contains; exact V1|exact V2|exact V3|exact H1|exact Hk'|exact HK'].
Qed.
