(** * The searches and the rounds of the reduction *)

From Coq Require Import List ZArith QArith Bool Arith Lia Permutation.
From Verif Require Import Util Common_Model Rect_Model Rect_Spec Geom Reduc_Model Reduc_Spec Reduc_Proof ReducInv_Proof ReducGroup_Proof ReducDed_Proof ReducBoth_Proof ReducOpt_Proof.
Import ListNotations.
Import Reduc_Proof.
Open Scope Z_scope.

Lemma insert_by_perm : forall g x l, Permutation (x :: l) (insert_by g x l).
Proof.
  intros g x l. induction l as [|y l IH]; [reflexivity|]. cbn [insert_by]. destruct (g x y); [reflexivity|]. rewrite perm_swap. constructor. exact IH.
Qed.
Lemma sort_by_perm : forall g l, Permutation l (sort_by g l).
Proof.
  intros g l. unfold sort_by. rewrite <- (app_nil_r l) at 1. generalize (@nil nat) as acc. induction l as [|x l IH]; intros acc; [reflexivity|]. cbn [fold_left app].
  rewrite <- IH. rewrite <- insert_by_perm. apply Permutation_middle.
Qed.

Lemma filter_le : forall (p q : nat -> bool) l, (forall x, In x l -> p x = true -> q x = true) -> (length (filter p l) <= length (filter q l))%nat.
Proof.
  intros p q l. induction l as [|x l IH]; intros K; [cbn; lia|]. cbn [filter]. specialize (IH (fun y Hy => K y (or_intror Hy))). pose proof (K x (or_introl eq_refl)) as Kx.
  destruct (p x) eqn:Ep; destruct (q x) eqn:Eq; cbn [length]; [lia|discriminate (Kx eq_refl)|lia|lia].
Qed.
Lemma filter_length_le : forall (A : Type) (p : A -> bool) l, (length (filter p l) <= length l)%nat.
Proof. intros A p l. induction l as [|x l IH]; [cbn; lia|]. cbn [filter]. destruct (p x); cbn [length]; lia. Qed.
Lemma filter_lt : forall (p q : nat -> bool) l x, (forall x, In x l -> p x = true -> q x = true) -> In x l -> p x = false -> q x = true ->
  (length (filter p l) < length (filter q l))%nat.
Proof.
  intros p q l x. induction l as [|y l IH]; intros K Hx Px Qx; [destruct Hx|]. cbn [filter]. pose proof (K y (or_introl eq_refl)) as Ky. pose proof (filter_le p q l (fun z Hz => K z (or_intror Hz))) as Le. destruct Hx as [->|Hx].
  - rewrite Px, Qx. cbn [length]. lia.
  - specialize (IH (fun z Hz => K z (or_intror Hz)) Hx Px Qx). destruct (p y) eqn:Ep; destruct (q y) eqn:Eq; cbn [length]; [lia|discriminate (Ky eq_refl)|lia|lia].
Qed.
Lemma firstn_in : forall (A : Type) k (l : list A) x, In x (firstn k l) -> In x l.
Proof. intros A k l x Hx. rewrite <- (firstn_skipn k l). apply in_or_app. left. exact Hx. Qed.
Lemma firstn_nodup : forall (A : Type) k (l : list A), NoDup l -> NoDup (firstn k l).
Proof. intros A k l N. rewrite <- (firstn_skipn k l) in N. revert N. generalize (skipn k l) as m. induction (firstn k l) as [|a l' IH]; intros m N; [constructor|]. inversion N as [|? ? N1 N2]. subst. constructor; [intros C; apply N1, in_or_app; left; exact C|apply (IH m N2)]. Qed.

Lemma zsum_zero_each : forall (A : Type) (f : A -> Z) l, (forall x, In x l -> 0 <= f x) -> zsum f l = 0 -> forall x, In x l -> f x = 0.
Proof.
  intros A f l. induction l as [|a l IH]; intros N E x Hx; [destruct Hx|]. rewrite zsum_cons in E. pose proof (N a (or_introl eq_refl)).
  assert (0 <= zsum f l) by (apply zsum_nonneg; intros b Hb; apply N; right; exact Hb). destruct Hx as [<-|Hx]; [lia|]. apply (IH (fun b Hb => N b (or_intror Hb)) ltac:(lia) x Hx).
Qed.

Section Loop.
Variable o : ROracle.
Variable i : RInstance.
Variables W H : Z.
Notation n := (n_types i) (only parsing).

(** ** The searches *)
Section Search.
Variable try : Red -> list nat -> option (Red * bool).
Variable gath : Red -> list nat.
Variable big : Red -> nat -> Prop.
Variable mu : Red -> nat.
Hypothesis Htry : forall s cands, Inv i W H s -> NoDup cands -> (forall b, In b cands -> (b < n)%nat /\ live s b /\ big s b) ->
  exists s' ok, try s cands = Some (s', ok) /\ Inv i W H s' /\ Opt i W H s s' /\ (mu s' <= mu s)%nat /\ (ok = true -> (mu s' < mu s)%nat)
    /\ (forall b, (b < n)%nat -> live s' b -> live s b /\ (big s b -> big s' b)) /\ (ok = false -> forall b, (b < n)%nat -> live s b -> live s' b).
Hypothesis Hgath : forall s, Inv i W H s -> NoDup (gath s) /\ forall b, In b (gath s) -> (b < n)%nat /\ live s b /\ big s b.
Hypothesis Hbigs : forall s, forall b, big (called s) b <-> big s b.
Hypothesis Hmu : forall s, mu (called s) = mu s.
Hypothesis Hmun : forall s, (mu s <= n)%nat.

Lemma opt_called : forall s, Opt i W H s (called s).
Proof. intros s. apply opt_refl; reflexivity. Qed.

Lemma singletons_ok : forall l s any, Inv i W H s -> (forall b, In b l -> (b < n)%nat) -> (forall b, In b l -> live s b -> big s b) ->
  exists s' any' out, singletons o try l s any = Some (s', any', out) /\ Inv i W H s' /\ Opt i W H s s'.
Proof.
  induction l as [|b l IH]; intros s any I Hn Hl.
  - exists s, any, false. split; [reflexivity|]. split; [exact I|]. apply opt_refl; reflexivity.
  - cbn [singletons]. destruct (rt_removed (rtype s b)) eqn:R.
    + apply IH; [exact I|intros c Hc; apply Hn; right; exact Hc|intros c Hc; apply Hl; right; exact Hc].
    + destruct (ends o s).
      * exists (called s), any, true. split; [reflexivity|]. split; [apply inv_called; exact I|apply opt_called].
      * destruct (Htry (called s) [b]) as (s1 & ok & E & I1 & O1 & _ & _ & B1 & _).
        -- apply inv_called. exact I.
        -- repeat constructor; intros [].
        -- intros c [<-|[]]. split; [apply Hn; left; reflexivity|]. split; [exact R|]. apply Hbigs, Hl; [left; reflexivity|exact R].
        -- rewrite E. destruct (IH s1 (any || ok) I1) as (s2 & any2 & out & E2 & I2 & O2).
           ++ intros c Hc. apply Hn. right. exact Hc.
           ++ intros c Hc Lc. destruct (B1 c (Hn c (or_intror Hc)) Lc) as [Lc0 Bc]. apply Bc, Hbigs, Hl; [right; exact Hc|exact Lc0].
           ++ exists s2, any2, out. split; [exact E2|]. split; [exact I2|]. eapply opt_trans; [apply opt_called|]. eapply opt_trans; [exact O1|exact O2].
Qed.

Lemma growing_ok : forall cands sizes s, Inv i W H s -> NoDup cands -> (forall b, In b cands -> (b < n)%nat) -> (forall b, In b cands -> live s b /\ big s b) ->
  exists s' ok out, growing o try cands sizes s = Some (s', ok, out) /\ Inv i W H s' /\ Opt i W H s s' /\ (mu s' <= mu s)%nat /\ (ok = true -> (mu s' < mu s)%nat).
Proof.
  intros cands sizes. induction sizes as [|size sizes IH]; intros s I ND Hn Hl.
  - exists s, false, false. split; [reflexivity|]. split; [exact I|]. split; [apply opt_refl; reflexivity|]. split; [lia|discriminate].
  - cbn [growing]. destruct (ends o s).
    + exists (called s), false, true. split; [reflexivity|]. split; [apply inv_called; exact I|]. split; [apply opt_called|]. rewrite Hmu. split; [lia|discriminate].
    + destruct (Htry (called s) (firstn size cands)) as (s1 & ok & E & I1 & O1 & M1 & M2 & B1 & K1).
      * apply inv_called. exact I.
      * apply firstn_nodup. exact ND.
      * intros b Hb. apply firstn_in in Hb. destruct (Hl b Hb) as [L1 L2]. split; [apply Hn; exact Hb|]. split; [exact L1|]. apply Hbigs. exact L2.
      * rewrite E. rewrite Hmu in M1, M2. destruct ok.
        -- exists s1, true, false. split; [reflexivity|]. split; [exact I1|]. split; [eapply opt_trans; [apply opt_called|exact O1]|]. split; [exact M1|exact M2].
        -- destruct (IH s1 I1 ND Hn) as (s2 & ok2 & out & E2 & I2 & O2 & M3 & M4).
           ++ intros b Hb. destruct (Hl b Hb) as [L1 L2]. assert (Lb : live s1 b) by (apply (K1 eq_refl b (Hn b Hb)); exact L1).
              split; [exact Lb|]. apply (B1 b (Hn b Hb) Lb), Hbigs. exact L2.
           ++ exists s2, ok2, out. split; [exact E2|]. split; [exact I2|]. split; [eapply opt_trans; [apply opt_called|]; eapply opt_trans; [exact O1|exact O2]|]. split; [lia|]. intros E0. specialize (M4 E0). lia.
Qed.

Lemma regrow_ok : forall turns s any, (mu s < turns)%nat -> Inv i W H s -> exists s' any', regrow o turns try gath s any = Some (s', any') /\ Inv i W H s' /\ Opt i W H s s'.
Proof.
  induction turns as [|turns IH]; intros s any M I; [lia|]. cbn [regrow]. destruct (Nat.ltb (length (gath s)) 2).
  - exists s, any. split; [reflexivity|]. split; [exact I|]. apply opt_refl; reflexivity.
  - destruct (Hgath s I) as [ND Hg]. destruct (growing_ok (gath s) (seq 2 (length (gath s) - 1)) s I ND) as (s1 & ok & out & E & I1 & O1 & M1 & M2).
    + intros b Hb. apply (Hg b Hb).
    + intros b Hb. split; apply (Hg b Hb).
    + rewrite E. destruct ok; destruct out.
      * exists s1, any. split; [reflexivity|]. split; assumption.
      * specialize (M2 eq_refl). destruct (IH s1 true) as (s2 & any2 & E2 & I2 & O2); [lia|exact I1|]. exists s2, any2. split; [exact E2|]. split; [exact I2|]. eapply opt_trans; [exact O1|exact O2].
      * exists s1, any. split; [reflexivity|]. split; assumption.
      * exists s1, any. split; [reflexivity|]. split; assumption.
Qed.

Lemma search_ok : forall s, Inv i W H s -> exists s' any', search o try gath s = Some (s', any') /\ Inv i W H s' /\ Opt i W H s s'.
Proof.
  intros s I. unfold search. destruct (Hgath s I) as [ND Hg]. destruct (singletons_ok (gath s) s false I) as (s1 & any & out & E & I1 & O1).
  - intros b Hb. apply (Hg b Hb).
  - intros b Hb _. apply (Hg b Hb).
  - rewrite E. destruct out; [exists s1, any; split; [reflexivity|split; assumption]|].
    destruct (regrow_ok (S (length (re_types s))) s1 any) as (s2 & any2 & E2 & I2 & O2); [rewrite (in_len _ _ _ _ I); pose proof (Hmun s1); lia|exact I1|].
    exists s2, any2. split; [exact E2|]. split; [exact I2|]. eapply opt_trans; [exact O1|exact O2].
Qed.

End Search.

(** ** The phases *)

Hypothesis HW : 0 <= W.
Hypothesis HH : 0 <= H.
Hypothesis Hsolve : solver_honest (ro_solve o).
Hypothesis Hcomplete : uses_all_copies (ro_solve o) \/ forall x, (x < n)%nat -> ri_copies (ritem i x) = 1.
Hypothesis Hways : forall x, (x < n)%nat -> oriented i x = false -> big_both_ways W H (ri_x (ritem i x)) (ri_y (ritem i x)).

Definition phase_ok (f : Red -> option (Red * bool)) : Prop :=
  forall s, Inv i W H s -> exists s' any', f s = Some (s', any') /\ Inv i W H s' /\ Opt i W H s s'.

Definition shorter (wide : bool) (t : RT) : bool := if wide then rt_x t <? W else rt_y t <? H.

Lemma gather_in : forall p g s, NoDup (sort_by g (filter (fun x => negb (rt_removed (rtype s x)) && p x (rtype s x)) (seq 0 n)))
  /\ forall b, In b (sort_by g (filter (fun x => negb (rt_removed (rtype s x)) && p x (rtype s x)) (seq 0 n))) -> (b < n)%nat /\ live s b /\ p b (rtype s b) = true.
Proof.
  intros p g s. pose proof (sort_by_perm g (filter (fun x => negb (rt_removed (rtype s x)) && p x (rtype s x)) (seq 0 n))) as Pm. split.
  - eapply Permutation_NoDup; [exact Pm|]. apply NoDup_filter, seq_NoDup.
  - intros b Hb. apply (Permutation_in _ (Permutation_sym Pm)) in Hb. apply filter_In in Hb. destruct Hb as [Hb E]. apply in_seq in Hb. apply andb_true_iff in E. destruct E as [E1 E2]. apply negb_true_iff in E1.
    split; [lia|]. split; assumption.
Qed.

Lemma unitc_self : forall x e, 1 <= unitc x x e.
Proof. intros x e. unfold unitc. rewrite Nat.eqb_refl. pose proof (lcount_nonneg x e). lia. Qed.
Lemma unitc_nonneg : forall z x e, 0 <= unitc z x e.
Proof. intros z x e. unfold unitc. pose proof (lcount_nonneg z e). destruct (Nat.eqb x z); lia. Qed.
Lemma tcontent_nonneg : forall z x t, 0 <= tcontent z x t.
Proof. intros z x t. apply zsum_nonneg. intros k _. apply unitc_nonneg. Qed.
Lemma tcontent_self : forall x t, rt_copies t <= tcontent x x t.
Proof.
  intros x t. unfold tcontent. etransitivity; [|apply (zsum_le _ (fun _ => 1)); intros k _; apply unitc_self]. rewrite zsum_length, seq_length. lia.
Qed.

Lemma group_phase : forall wide, phase_ok (search o (try_group o i W H wide) (gather i W H wide)).
Proof.
  intros wide. unfold phase_ok. apply (search_ok _ _ (fun s b => is_big i W H wide b (rtype s b) = true)
    (fun s => length (filter (fun x => negb (rt_removed (rtype s x)) && shorter wide (rtype s x)) (seq 0 n)))).
  - intros s cands I ND C. destruct (try_group_ok o i W H Hsolve Hcomplete wide s cands I ND) as (s' & ok & E & l & rs & G & G1 & G2 & G3).
    { intros b Hb. destruct (C b Hb) as (X1 & X2 & X3). split; [exact X1|]. split; [exact X2|]. unfold is_big in X3. apply andb_true_iff in X3. apply X3. }
    exists s', ok. split; [exact E|]. pose proof (gstep_inv i W H wide s s' l rs HW HH I G) as I'. split; [exact I'|]. split; [apply (opt_group i W H wide s s' cands l rs I G G2 C G3)|].
    destruct G as [_ _ H3 H4 H4' H5 H6 H7].
    assert (Cases : forall x, (x < n)%nat -> (In x rs /\ live s x /\ rt_removed (rtype s' x) = true) \/ (In x (map fst l) /\ live s x /\ shorter wide (rtype s x) = true /\ shorter wide (rtype s' x) = false
        /\ rt_removed (rtype s' x) = false /\ (is_big i W H wide x (rtype s x) = true -> is_big i W H wide x (rtype s' x) = true)) \/ rtype s' x = rtype s x /\ ~ In x (map fst l)).
    { intros x Hx. destruct (in_dec Nat.eq_dec x rs) as [Hr|Hr]; [left; destruct (H4 x Hr) as (_ & A & B); repeat split; assumption|].
      destruct (in_dec Nat.eq_dec x (map fst l)) as [Hi|Hi]; [|right; right; split; [apply H6; assumption|exact Hi]]. right. left. split; [exact Hi|].
      apply in_map_iff in Hi. destruct Hi as ([b es] & Eb & Hin). cbn [fst] in Eb. subst b. destruct (H5 x es Hin) as (_ & Lx & Ox & Ex & _ & Sx & _). split; [exact Lx|].
      pose proof (ty_sizes _ _ _ (in_types _ _ _ _ I x Hx Lx)) as Sz. rewrite Ex. unfold shorter, is_big, enl. cbn [rt_x rt_y rt_removed]. split; [destruct wide; lia|]. split; [destruct wide; lia|]. split; [exact Lx|].
      rewrite Ox. cbn [andb]. destruct wide; lia. }
    assert (Mono : forall x, In x (seq 0 n) -> negb (rt_removed (rtype s' x)) && shorter wide (rtype s' x) = true -> negb (rt_removed (rtype s x)) && shorter wide (rtype s x) = true).
    { intros x Hx E0. apply in_seq in Hx. destruct (Cases x ltac:(lia)) as [(_ & _ & R)|[(_ & _ & _ & R & _)|[R _]]].
      - rewrite R in E0. discriminate E0.
      - rewrite R, andb_false_r in E0. discriminate E0.
      - rewrite <- R. exact E0. }
    split; [apply filter_le; exact Mono|]. split.
    + intros Eok. destruct l as [|[b es] l0]; [exfalso; apply (proj1 G1 Eok); reflexivity|]. assert (Hb : In b (map fst ((b, es) :: l0))) by (left; reflexivity).
      destruct (C b (G2 b Hb)) as (Hbn & _). apply (filter_lt _ _ _ b Mono); [apply in_seq; lia| |].
      * destruct (Cases b Hbn) as [(Hr & _)|[(_ & _ & _ & R & _)|[_ R]]]; [exfalso; apply (H4' b Hr Hb)|rewrite R; apply andb_false_r|contradiction].
      * destruct (Cases b Hbn) as [(Hr & _)|[(_ & L & R & _)|[_ R]]]; [exfalso; apply (H4' b Hr Hb)|rewrite R; unfold live in L; rewrite L; reflexivity|contradiction].
    + split.
      * intros b Hb Lb. destruct (Cases b Hb) as [(_ & _ & R)|[(_ & L & _ & _ & _ & R)|[R _]]]; [unfold live in Lb; congruence|split; assumption|]. unfold live in *. rewrite R in *. split; auto.
      * intros Eok b Hb Lb. destruct (Cases b Hb) as [(Hr & _ & R)|[(_ & L & _ & _ & R & _)|[R _]]]; [|exact R|unfold live in *; rewrite R; exact Lb].
        exfalso. assert (El : l = []) by (destruct l; [reflexivity|]; assert (ok = true) by (apply G1; discriminate); congruence). rewrite El in *.
        assert (T : zsum (fun x => if existsb (Nat.eqb x) rs then tcontent b x (rtype s x) else 0) (seq 0 n) = 0) by (rewrite <- H7; reflexivity).
        assert (Hall : forall x, In x (seq 0 n) -> 0 <= (if existsb (Nat.eqb x) rs then tcontent b x (rtype s x) else 0)) by (intros x _; destruct (existsb (Nat.eqb x) rs); [apply tcontent_nonneg|lia]).
        pose proof (zsum_zero_each _ _ _ Hall T b ltac:(apply in_seq; lia)) as Tb. cbn beta in Tb. pose proof (proj2 (existsb_in b rs) Hr) as Er. rewrite Er in Tb.
        pose proof (tcontent_self b (rtype s b)) as Ts. pose proof (ty_copies _ _ _ (in_types _ _ _ _ I b Hb Lb)). lia.
  - intros s I. apply (gather_in (fun x t => is_big i W H wide x t)).
  - reflexivity.
  - reflexivity.
  - intros s. rewrite <- (seq_length n 0) at 2. apply filter_length_le.
Qed.

Lemma capture_false : forall cands s any s', fold_left (capture_alone i W H) cands (Some (s, any)) = Some (s', false) -> s' = s.
Proof.
  assert (T : forall cands acc s', fold_left (capture_alone i W H) cands acc = Some (s', false) -> exists s, acc = Some (s, false)).
  { induction cands as [|b cands IH]; intros acc s' E; cbn [fold_left] in E; [exists s'; exact E|]. apply IH in E. destruct E as (s1 & E). unfold capture_alone in E. destruct acc as [[s any]|]; [|discriminate E].
    repeat match type of E with context [if ?b then _ else _] => destruct b end; try (injection E as <- ->; eexists; reflexivity).
    destruct (extract (rt_comps (rtype s b)) (rt_copies (rtype s b))) as [[e r]|]; discriminate E. }
  induction cands as [|b cands IH]; intros s any s' E; cbn [fold_left] in E; [injection E as <- _; reflexivity|].
  destruct (T _ _ _ E) as (s1 & E1). rewrite E1 in E. rewrite (IH _ _ _ E). unfold capture_alone in E1.
  destruct (negb ((rt_x (rtype s b) <=? W) && (rt_y (rtype s b) <=? H)) && negb (negb (oriented i b) && (rt_y (rtype s b) <=? W) && (rt_x (rtype s b) <=? H))); [injection E1 as <- _; reflexivity|].
  destruct (no_room i s (rt_copies (rtype s b))); [injection E1 as <- _; reflexivity|].
  destruct (extract (rt_comps (rtype s b)) (rt_copies (rtype s b))) as [[e r]|]; discriminate E1.
Qed.
Lemma try_both_false : forall s cands s' ok, try_both o i W H s cands = Some (s', ok) -> ok = false -> re_types s' = re_types s.
Proof.
  intros s cands s' ok E ->. unfold try_both in E. destruct (companions_of i s _ cands cands) as [|r rs].
  - apply capture_false in E. subst s'. reflexivity.
  - destruct (ro_solve o (re_calls s) (check_both i W H s cands (r :: rs))) as [ds|]; [|injection E as <-; reflexivity].
    destruct (both_groups cands (r :: rs) (single_bins ds)) as [groups|]; [|injection E as <-; reflexivity].
    destruct (Nat.eqb (length groups) 0); [injection E as <-; reflexivity|]. destruct (no_room i s (Z.of_nat (length groups))); [injection E as <-; reflexivity|].
    destruct (apply_both cands _ groups _ _ _) as [[t f]|]; discriminate E.
Qed.

Lemma both_phase : phase_ok (search o (try_both o i W H) (gather_both i W H)).
Proof.
  unfold phase_ok. apply (search_ok _ _ (fun s b => both_big i W H b (rtype s b) = true)
    (fun s => length (filter (fun x => negb (rt_removed (rtype s x))) (seq 0 n)))).
  - intros s cands I ND C. destruct (try_both_ok o i W H Hsolve Hways s cands I ND C) as (s' & ok & caught & rs & E & R & Ok).
    exists s', ok. split; [exact E|]. pose proof R as (R1 & R2 & R3 & R4 & R5 & R6 & R7 & R8 & R9). split; [exact R1|]. split; [apply (opt_both i W H s s' cands caught rs Hways I C R)|].
    assert (Cases : forall x, (x < n)%nat -> (live s x /\ rt_removed (rtype s' x) = true /\ (In x caught \/ In x rs)) \/ rtype s' x = rtype s x /\ ~ In x caught).
    { intros x Hx. destruct (in_dec Nat.eq_dec x caught) as [Hc|Hc]; [left; destruct (R5 x (or_introl Hc)) as (_ & A & B); split; [exact A|split; [exact B|left; exact Hc]]|].
      destruct (in_dec Nat.eq_dec x rs) as [Hr|Hr]; [left; destruct (R5 x (or_intror Hr)) as (_ & A & B); split; [exact A|split; [exact B|right; exact Hr]]|]. right. split; [apply R7; assumption|exact Hc]. }
    assert (Mono : forall x, In x (seq 0 n) -> negb (rt_removed (rtype s' x)) = true -> negb (rt_removed (rtype s x)) = true).
    { intros x Hx E0. apply in_seq in Hx. destruct (Cases x ltac:(lia)) as [(_ & A & _)|[A _]]; [rewrite A in E0; discriminate E0|rewrite <- A; exact E0]. }
    split; [apply filter_le; exact Mono|]. split.
    + intros Eok. specialize (Ok Eok). destruct caught as [|b caught]; [contradiction Ok; reflexivity|]. destruct (R5 b (or_introl (or_introl eq_refl))) as (Hb & Lb & Rb).
      apply (filter_lt _ _ _ b Mono); [apply in_seq; lia|rewrite Rb; reflexivity|unfold live in Lb; rewrite Lb; reflexivity].
    + split.
      * intros b Hb Lb. destruct (Cases b Hb) as [(_ & A & _)|[A _]]; [unfold live in Lb; congruence|]. unfold live in *. rewrite A in *. split; auto.
      * intros Eok b Hb Lb. pose proof (try_both_false s cands s' ok E Eok) as Es. unfold live, rtype. rewrite Es. exact Lb.
  - intros s I. apply (gather_in (fun x t => both_big i W H x t)).
  - reflexivity.
  - reflexivity.
  - intros s. rewrite <- (seq_length n 0) at 2. apply filter_length_le.
Qed.

Lemma full_phase : phase_ok (full_bins i W H).
Proof.
  intros s I. unfold full_bins. assert (Hl : forall b, In b (seq 0 n) -> (b < n)%nat) by (intros b Hb; apply in_seq in Hb; lia). revert Hl. generalize (seq 0 n) as l. intros l. generalize false as any. revert s I.
  induction l as [|b l IH]; intros s I any Hl.
  - exists s, any. split; [reflexivity|]. split; [exact I|apply opt_refl; reflexivity].
  - cbn [fold_left]. destruct (full_ok i W H s b any I (Hl b (or_introl eq_refl))) as (s1 & any1 & E & [[-> ->]|(_ & Lb & Sz & new & Cp)]); rewrite E.
    + apply IH; [exact I|intros c Hc; apply Hl; right; exact Hc].
    + destruct (IH s1 (proj1 Cp) any1 (fun c Hc => Hl c (or_intror Hc))) as (s2 & any2 & E2 & I2 & O2). exists s2, any2. split; [exact E2|]. split; [exact I2|]. eapply opt_trans; [|exact O2].
      apply (opt_full i W H s s1 b new I (Hl b (or_introl eq_refl)) Lb Sz Cp).
Qed.

Lemma pair_phase : phase_ok (perfect_pairs i W H).
Proof.
  intros s I. unfold perfect_pairs. assert (Hl : forall b, In b (seq 0 n) -> (b < n)%nat) by (intros b Hb; apply in_seq in Hb; lia). revert Hl. generalize (seq 0 n) as l. intros l. generalize false as any. revert s I.
  induction l as [|b l IH]; intros s I any Hl.
  - exists s, any. split; [reflexivity|]. split; [exact I|apply opt_refl; reflexivity].
  - cbn [fold_left]. destruct (pair_ok i W H s b any I (Hl b (or_introl eq_refl))) as (s1 & any1 & E & [[-> ->]|(_ & y & m & Cp)]); rewrite E.
    + apply IH; [exact I|intros c Hc; apply Hl; right; exact Hc].
    + destruct (IH s1 (proj1 Cp) any1 (fun c Hc => Hl c (or_intror Hc))) as (s2 & any2 & E2 & I2 & O2). exists s2, any2. split; [exact E2|]. split; [exact I2|]. eapply opt_trans; [|exact O2].
      apply (opt_pair i W H s s1 b y m I Cp).
Qed.

Lemma phases_ok : forall fs s any, (forall f, In f fs -> phase_ok f) -> Inv i W H s ->
  exists s' any' out, phases o fs s any = Some (s', any', out) /\ Inv i W H s' /\ Opt i W H s s'.
Proof.
  induction fs as [|f fs IH]; intros s any K I.
  - exists s, any, false. split; [reflexivity|]. split; [exact I|apply opt_refl; reflexivity].
  - cbn [phases]. destruct (ends o s).
    + exists (called s), any, true. split; [reflexivity|]. split; [apply inv_called; exact I|apply opt_called].
    + destruct (K f (or_introl eq_refl) (called s) (inv_called _ _ _ _ I)) as (s1 & ok & E & I1 & O1). rewrite E.
      destruct (IH s1 (any || ok) (fun g Hg => K g (or_intror Hg)) I1) as (s2 & any2 & out & E2 & I2 & O2). exists s2, any2, out. split; [exact E2|]. split; [exact I2|].
      eapply opt_trans; [apply opt_called|]. eapply opt_trans; [exact O1|exact O2].
Qed.

Theorem rounds_ok : forall k s, Inv i W H s -> exists s', rounds o i W H k s = Some s' /\ Inv i W H s' /\ Opt i W H s s'.
Proof.
  induction k as [|k IH]; intros s I; cbn [rounds].
  - exists s. split; [reflexivity|]. split; [exact I|apply opt_refl; reflexivity].
  - destruct (phases_ok (round o i W H) s false) as (s1 & any & out & E & I1 & O1); [|exact I|].
    + intros f [<-|[<-|[<-|[<-|[<-|[]]]]]]; [apply group_phase|apply group_phase|apply both_phase|apply full_phase|apply pair_phase].
    + rewrite E. destruct (out || negb any); [exists s1; split; [reflexivity|split; assumption]|].
      destruct (IH s1 I1) as (s2 & E2 & I2 & O2). exists s2. split; [exact E2|]. split; [exact I2|]. eapply opt_trans; [exact O1|exact O2].
Qed.

End Loop.
