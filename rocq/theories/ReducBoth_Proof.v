(** * The items big on both axes *)

From Coq Require Import List ZArith QArith Bool Arith Lia Permutation.
From Verif Require Import Util Common_Model Rect_Model Rect_Spec Geom Reduc_Model Reduc_Spec Reduc_Proof ReducInv_Proof ReducGroup_Proof ReducDed_Proof.
Import ListNotations.
Import Reduc_Proof.
Open Scope Z_scope.

(** ** A copy of the big item per group *)

Lemma hand_out_one : forall ent b copy l cnt, (occ b l <= 1)%nat -> (occ b l = 1%nat -> cnt b = copy) ->
  hand_out (fun x k => if Nat.eqb x b then ent b copy else ent x k) cnt l = hand_out ent cnt l.
Proof.
  intros ent b copy l. induction l as [|[x dx dy r e] l IH]; intros cnt L C; [reflexivity|]. cbn [hand_out]. rewrite occ_cons in L, C. cbn [co_type] in L, C.
  destruct (Nat.eqb_spec x b) as [->|N].
  - rewrite (C ltac:(lia)). destruct (ent b copy); [|reflexivity]. rewrite IH; [reflexivity|lia|lia].
  - destruct (ent x (cnt x)); [|reflexivity]. rewrite IH; [reflexivity|lia|]. intros Hl. unfold bump_at. apply Nat.eqb_neq in N. rewrite N. apply C. lia.
Qed.

Lemma fill_hand_out : forall ent b bp ls cnt copy n, (forall k, nth_error bp k = ent b k) -> (forall l, In l ls -> occ b l = 1%nat) -> cnt b = copy ->
  (forall c, In c (concat ls) -> (co_type c < n)%nat) ->
  (forall c k, In c (concat ls) -> (cnt (co_type c) <= k < cnt (co_type c) + occ (co_type c) (concat ls))%nat -> ent (co_type c) k <> None) ->
  fill_groups b bp ent cnt copy ls = hand_out_all ent cnt ls.
Proof.
  intros ent b bp ls. induction ls as [|l ls IH]; intros cnt copy n Hbp Hone Hcnt T E; [reflexivity|]. cbn [fill_groups hand_out_all concat] in *.
  rewrite Hbp. rewrite hand_out_one by (rewrite ?(Hone l (or_introl eq_refl)); auto).
  destruct (hand_out_ok ent n l cnt) as (l' & cnt1 & H1 & H2 & _).
  - intros c Hc. apply T. apply in_or_app. left. exact Hc.
  - intros c k Hc Hk. apply E; [apply in_or_app; left; exact Hc|]. rewrite occ_app. lia.
  - rewrite H1. rewrite (IH cnt1 (S copy) n); [reflexivity|exact Hbp|intros q Hq; apply Hone; right; exact Hq| | |].
    + rewrite H2, Hcnt, (Hone l (or_introl eq_refl)). lia.
    + intros c Hc. apply T. apply in_or_app. right. exact Hc.
    + intros c k Hc Hk. apply E; [apply in_or_app; right; exact Hc|]. rewrite occ_app. rewrite H2 in Hk. lia.
Qed.

Section Both.
Variable o : ROracle.
Variable i : RInstance.
Variables W H : Z.
Notation n := (n_types i) (only parsing).

Hypothesis Hsolve : solver_honest (ro_solve o).
Hypothesis Hways : forall x, (x < n)%nat -> oriented i x = false -> big_both_ways W H (ri_x (ritem i x)) (ri_y (ritem i x)).

(** A big item takes more than the half of the bin in both directions. *)
Lemma both_dims : forall s c, Inv i W H s -> head_ok i s c -> within (cbox s c) (mkBox 0 0 W H) -> both_big i W H (co_type c) (rtype s (co_type c)) = true ->
  W < 2 * (bx1 (cbox s c) - bx0 (cbox s c)) /\ H < 2 * (by1 (cbox s c) - by0 (cbox s c)).
Proof.
  intros s [x dx dy r e] I (Hx & Hl & Hr) Wn B. cbn [co_type co_rot] in *. unfold within, cbox in *. cbn [co_dx co_dy co_rot co_type bx0 bx1 by0 by1] in *.
  pose proof (in_types _ _ _ _ I x Hx Hl) as [T1 T2 T3 T4 T5]. unfold both_big in B. destruct (oriented i x) eqn:O.
  - destruct r; [discriminate (Hr eq_refl)|]. cbn [negb andb orb] in B. rewrite orb_false_r in B. apply andb_true_iff in B. destruct B as [B1 B2]. apply Z.ltb_lt in B1. apply Z.ltb_lt in B2. lia.
  - destruct (T4 eq_refl) as (_ & Ex & Ey). destruct (Hways x Hx O) as [K1 K2]. rewrite <- Ex, <- Ey in K1, K2. apply orb_true_iff in B. cbn [negb andb] in B.
    destruct r; destruct B as [B|B]; apply andb_true_iff in B; destruct B as [B1 B2]; apply Z.ltb_lt in B1; apply Z.ltb_lt in B2; lia.
Qed.
Lemma both_apart : forall s c d, Inv i W H s -> head_ok i s c -> head_ok i s d -> within (cbox s c) (mkBox 0 0 W H) -> within (cbox s d) (mkBox 0 0 W H) ->
  both_big i W H (co_type c) (rtype s (co_type c)) = true -> both_big i W H (co_type d) (rtype s (co_type d)) = true -> ~ apart (cbox s c) (cbox s d).
Proof.
  intros s c d I Hc Hd Wc Wd Bc Bd A. destruct (both_dims s c I Hc Wc Bc) as [X1 X2]. destruct (both_dims s d I Hd Wd Bd) as [Y1 Y2].
  destruct (cbox s c) as [a0 a1 a2 a3]. destruct (cbox s d) as [e0 e1 e2 e3]. unfold within, apart in *. cbn [bx0 bx1 by0 by1] in *. lia.
Qed.

(** ** Applying the groups *)

Definition mine (groups : list (nat * list Comp)) (j : nat) : list (list Comp) := map snd (filter (fun g => Nat.eqb (fst g) j) groups).

Lemma apply_both_ok : forall s cands groups js cnt types,
  let ent := fun x k => nth_error (prior (rtype s x)) k in
  Inv i W H s -> NoDup cands -> NoDup js -> (forall j, In j js -> (j < length cands)%nat) -> (forall b, In b cands -> (b < n)%nat /\ live s b) ->
  length types = n ->
  (forall j, In j js -> nth (nth j cands O) types dummy_rt = rtype s (nth j cands O)) ->
  (forall j, In j js -> Z.of_nat (length (mine groups j)) = rt_copies (rtype s (nth j cands O))) ->
  (forall j, In j js -> cnt (nth j cands O) = O) ->
  (forall j l j', In j js -> In l (mine groups j) -> In j' js -> occ (nth j' cands O) l = if Nat.eqb j j' then 1%nat else 0%nat) ->
  (forall c, In c (concat (flat_map (mine groups) js)) -> (co_type c < n)%nat) ->
  (forall c k, In c (concat (flat_map (mine groups) js)) -> (cnt (co_type c) <= k < cnt (co_type c) + occ (co_type c) (concat (flat_map (mine groups) js)))%nat -> ent (co_type c) k <> None) ->
  exists types' filled, apply_both cands ent groups cnt types js = Some (types', filled)
    /\ length types' = n
    /\ (forall j, In j js -> rt_removed (nth (nth j cands O) types' dummy_rt) = true)
    /\ (forall x, ~ In x (map (fun j => nth j cands O) js) -> nth x types' dummy_rt = nth x types dummy_rt)
    /\ Forall2 (Forall2 (given ent (fun x => cnt x + occ x (concat (flat_map (mine groups) js)))%nat)) (flat_map (mine groups) js) filled
    /\ forall z, zsum (lcount z) filled = zsum (fun x => zsum (fun k => unitc z x (entd ent x k)) (seq (cnt x) (occ x (concat (flat_map (mine groups) js))))) (seq 0 n).
Proof.
  intros s cands groups js cnt types ent I NDc. revert cnt types. induction js as [|j js IH]; intros cnt types NDj Hj Hc Lt Et Ln Cn Oc T E.
  - exists types, []. split; [reflexivity|]. split; [exact Lt|]. split; [intros j []|]. split; [reflexivity|]. split; [constructor|].
    intros z. rewrite zsum_nil. symmetry. rewrite (zsum_ext _ _ (fun _ => 0)); [apply zsum_const0|reflexivity].
  - cbn [apply_both flat_map] in *. rewrite concat_app in *. set (b := nth j cands O) in *.
    assert (Hb : In b cands) by (apply nth_In, Hj; left; reflexivity). destruct (Hc b Hb) as [Hbn Hbl]. pose proof (in_types _ _ _ _ I b Hbn Hbl) as [T1 T2 T3 T4 T5].
    pose proof (Ln j (or_introl eq_refl)) as Lj. fold b in Lj. fold (mine groups j). inversion NDj as [|? ? N1 N2]. subst.
    assert (Nem : mine groups j <> []) by (intros C; rewrite C in Lj; cbn in Lj; lia). rewrite (match_ne _ _ (mine groups j)) by exact Nem.
    pose proof (Et j (or_introl eq_refl)) as Etj. fold b in Etj. rewrite Etj, Lj. destruct (extract_prior (rtype s b) T3) as (rest & Ee). rewrite Ee.
    destruct (hand_out_all_ok ent n (mine groups j) cnt) as (f1 & cnt1 & H1 & H2 & H3 & H4).
    { intros c Hcc. apply T. apply in_or_app. left. exact Hcc. }
    { intros c k Hcc Hk. apply E; [apply in_or_app; left; exact Hcc|]. rewrite occ_app. lia. }
    rewrite (fill_hand_out ent b (prior (rtype s b)) (mine groups j) cnt O n).
    + rewrite H1. match goal with |- context [apply_both cands ent groups cnt1 ?ts js] => destruct (IH cnt1 ts) as (types' & f2 & G1 & G2 & G3 & G4 & G5 & G6) end.
      * exact N2.
      * intros j' Hj'. apply Hj. right. exact Hj'.
      * exact Hc.
      * rewrite upd_length. exact Lt.
      * intros j' Hj'. rewrite nth_upd_other; [apply Et; right; exact Hj'|]. intros C. apply N1. assert (j = j') as ->; [|exact Hj'].
        apply (proj1 (NoDup_nth cands O) NDc); [apply Hj; left; reflexivity|apply Hj; right; exact Hj'|exact C].
      * intros j' Hj'. apply Ln. right. exact Hj'.
      * intros j' Hj'. rewrite H2, (Cn j' (or_intror Hj')). cbn [plus]. apply occ_out. intros c Hcc Ec. apply in_concat in Hcc. destruct Hcc as (l & Hl & Hcc).
        pose proof (Oc j l j' (or_introl eq_refl) Hl (or_intror Hj')) as O1. destruct (Nat.eqb_spec j j') as [->|_]; [contradiction|].
        assert (0 < occ (nth j' cands O) l)%nat; [|lia]. unfold occ. destruct (filter (fun c0 => Nat.eqb (co_type c0) (nth j' cands O)) l) eqn:F; [|cbn; lia].
        assert (In c []) by (rewrite <- F; apply filter_In; split; [exact Hcc|apply Nat.eqb_eq; exact Ec]). contradiction.
      * intros j' l j'' A1 A2 A3. apply Oc; [right|exact A2|right]; assumption.
      * intros c Hcc. apply T. apply in_or_app. right. exact Hcc.
      * intros c k Hcc Hk. apply E; [apply in_or_app; right; exact Hcc|]. rewrite occ_app. rewrite H2 in Hk. lia.
      * rewrite G1. exists types', (f1 ++ f2). split; [reflexivity|]. split; [exact G2|]. split; [|split; [|split]].
        -- intros j' [<-|Hj']; [|apply G3; exact Hj']. fold b. rewrite G4.
           ++ rewrite nth_upd_same by lia. cbn [rt_removed]. rewrite Z.sub_diag. cbn [Z.eqb]. apply orb_true_r.
           ++ intros C. apply in_map_iff in C. destruct C as (j' & E' & Hj'). apply N1. assert (j = j') as ->; [|exact Hj'].
              apply (proj1 (NoDup_nth cands O) NDc); [apply Hj; left; reflexivity|apply Hj; right; exact Hj'|symmetry; exact E'].
        -- intros x Hx. cbn [map] in Hx. rewrite G4 by (intros C; apply Hx; right; exact C). apply nth_upd_other. intros C. apply Hx. left. exact C.
        -- apply Forall2_app.
           ++ revert H3. apply Forall2_weaken. intros a a'. apply Forall2_weaken. intros c c' [Hs (k & Hk & He)]. split; [exact Hs|]. exists k. split; [|exact He]. rewrite occ_app. lia.
           ++ revert G5. apply Forall2_weaken. intros a a'. apply Forall2_weaken. intros c c' [Hs (k & Hk & He)]. split; [exact Hs|]. exists k. split; [|exact He]. rewrite H2 in Hk. rewrite occ_app. lia.
        -- intros z. rewrite zsum_app, H4, G6, <- zsum_plus. apply zsum_ext. intros x _. rewrite H2, occ_app, seq_app, zsum_app. reflexivity.
    + reflexivity.
    + intros l Hl. pose proof (Oc j l j (or_introl eq_refl) Hl (or_introl eq_refl)) as O1. rewrite Nat.eqb_refl in O1. exact O1.
    + apply (Cn j (or_introl eq_refl)).
    + intros c Hcc. apply T. apply in_or_app. left. exact Hcc.
    + intros c k Hcc Hk. apply E; [apply in_or_app; left; exact Hcc|]. rewrite occ_app. lia.
Qed.

(** What a step on items big on both axes does: the item types [caught] and the
    others [rs] are put in dedicated bins, each of which holds a copy of a type
    of [caught]. *)
Definition both_result (s s' : Red) (cands caught rs : list nat) : Prop :=
  Inv i W H s' /\ length (re_types s') = length (re_types s) /\ NoDup caught /\ incl caught cands
  /\ (forall x, In x caught \/ In x rs -> (x < n)%nat /\ live s x /\ rt_removed (rtype s' x) = true)
  /\ (forall x, In x rs -> ~ In x cands)
  /\ (forall x, (x < n)%nat -> ~ In x caught -> ~ In x rs -> rtype s' x = rtype s x)
  /\ dedicated s' = dedicated s + zsum (fun b => rt_copies (rtype s b)) caught
  /\ (forall b x, In b caught -> (x < n)%nat -> live s x -> ~ In x cands -> could_fit_both i W H b (rtype s b) x (rtype s x) = true -> In x rs).

Lemma both_result_same : forall s s' cands, Inv i W H s -> re_types s' = re_types s -> re_full s' = re_full s -> re_pairs s' = re_pairs s -> re_groups s' = re_groups s ->
  both_result s s' cands [] [].
Proof.
  intros s s' cands I E1 E2 E3 E4. assert (Er : forall x, rtype s' x = rtype s x) by (intros x; unfold rtype; rewrite E1; reflexivity).
  assert (Ed : dedicated s' = dedicated s) by (unfold dedicated; rewrite E2, E3, E4; reflexivity).
  split; [|split; [rewrite E1; reflexivity|split; [constructor|split; [intros x []|split; [intros x [[]|[]]|split; [intros x []|split; [intros x _ _ _; apply Er|split; [rewrite zsum_nil; lia|intros b x []]]]]]]]].
  destruct I as [I1 I2 I3 I4]. split; [rewrite E1; exact I1| | |rewrite Ed; exact I4].
  - intros x Hx. unfold live. rewrite Er. apply I2. exact Hx.
  - rewrite E2, E3, E4. unfold content. destruct I3 as (F & P & D1 & D2 & D3 & D4 & D5 & D6). exists F, P. repeat (split; [assumption|]).
    intros z Hz. rewrite <- (D6 z Hz). unfold content. f_equal. apply zsum_ext. intros x _. rewrite Er. reflexivity.
Qed.

Lemma capture_all : forall cands s0 s any caught, Inv i W H s -> NoDup (caught ++ cands) -> (forall b, In b cands -> (b < n)%nat /\ live s b) ->
  length (re_types s) = length (re_types s0) ->
  (forall x, In x caught -> (x < n)%nat /\ live s0 x /\ rt_removed (rtype s x) = true) ->
  (forall x, (x < n)%nat -> ~ In x caught -> rtype s x = rtype s0 x) ->
  dedicated s = dedicated s0 + zsum (fun b => rt_copies (rtype s0 b)) caught -> (any = true -> caught <> []) ->
  exists s' any' caught', fold_left (capture_alone i W H) cands (Some (s, any)) = Some (s', any') /\ Inv i W H s'
    /\ length (re_types s') = length (re_types s0) /\ NoDup caught' /\ incl caught' (caught ++ cands)
    /\ (forall x, In x caught' -> (x < n)%nat /\ live s0 x /\ rt_removed (rtype s' x) = true)
    /\ (forall x, (x < n)%nat -> ~ In x caught' -> rtype s' x = rtype s0 x)
    /\ dedicated s' = dedicated s0 + zsum (fun b => rt_copies (rtype s0 b)) caught' /\ (any' = true -> caught' <> []).
Proof.
  induction cands as [|b cands IH]; intros s0 s any caught I ND Hc L A1 A2 A3 A4.
  - exists s, any, caught. rewrite app_nil_r in ND. rewrite app_nil_r. split; [reflexivity|]. split; [exact I|]. split; [exact L|]. split; [exact ND|]. split; [apply incl_refl|].
    repeat (split; [assumption|]). assumption.
  - cbn [fold_left]. destruct (Hc b (or_introl eq_refl)) as [Hb Hl]. assert (Hnb : ~ In b caught) by (intros C; destruct (A1 b C) as (_ & _ & R); unfold live in Hl; congruence).
    assert (ND' : NoDup (caught ++ cands)) by (apply NoDup_remove_1 in ND; exact ND).
    destruct (capture_ok i W H s b any I Hb Hl) as (s1 & any1 & E & [[-> ->]|[-> (new & I1 & R1 & L1 & O1 & D1)]]).
    + rewrite E. destruct (IH s0 s any caught I ND') as (s' & any' & caught' & G1 & G2 & G3 & G4 & G5 & G6); try assumption.
      * intros c Hcc. apply Hc. right. exact Hcc.
      * exists s', any', caught'. split; [exact G1|]. split; [exact G2|]. split; [exact G3|]. split; [exact G4|]. split; [|exact G6].
        intros x Hx. apply G5 in Hx. apply in_app_or in Hx. apply in_or_app. destruct Hx as [Hx|Hx]; [left; exact Hx|right; right; exact Hx].
    + rewrite E. assert (Eb : rtype s b = rtype s0 b) by (apply A2; assumption).
      destruct (IH s0 s1 true (caught ++ [b]) I1) as (s' & any' & caught' & G1 & G2 & G3 & G4 & G5 & G6).
      * rewrite <- app_assoc. exact ND.
      * intros c Hcc. destruct (Hc c (or_intror Hcc)) as [X1 X2]. split; [exact X1|]. unfold live. rewrite O1; [exact X2|exact X1|]. intros ->. apply NoDup_remove_2 in ND. apply ND, in_or_app. right. exact Hcc.
      * congruence.
      * intros x Hx. apply in_app_or in Hx. destruct Hx as [Hx|[<-|[]]].
        -- destruct (A1 x Hx) as (X1 & X2 & X3). split; [exact X1|]. split; [exact X2|]. rewrite O1; [exact X3|exact X1|]. intros ->. contradiction.
        -- split; [exact Hb|]. split; [unfold live; rewrite <- Eb; exact Hl|exact R1].
      * intros x Hx Hn. rewrite O1; [apply A2; [exact Hx|]|exact Hx|].
        -- intros C. apply Hn, in_or_app. left. exact C.
        -- intros ->. apply Hn, in_or_app. right. left. reflexivity.
      * rewrite D1, A3, zsum_app, zsum_cons, zsum_nil, Eb. lia.
      * intros _. destruct caught; discriminate.
      * exists s', any', caught'. split; [exact G1|]. split; [exact G2|]. split; [exact G3|]. split; [exact G4|]. split; [|exact G6].
        rewrite <- app_assoc in G5. exact G5.
Qed.

Lemma zsum_one_each : forall (A : Type) (f : A -> Z) l, (forall a, In a l -> f a <= 1) -> Z.of_nat (length l) <= zsum f l -> forall a, In a l -> f a = 1.
Proof.
  intros A f l. induction l as [|b l IH]; intros U L a Ha; [destruct Ha|]. rewrite zsum_cons in L. cbn [length] in L.
  assert (Ub : f b <= 1) by (apply U; left; reflexivity). assert (Ul : zsum f l <= Z.of_nat (length l)).
  { rewrite <- zsum_length. apply zsum_le. intros c Hc. apply U. right. exact Hc. }
  destruct Ha as [<-|Ha]; [lia|]. apply (IH (fun c Hc => U c (or_intror Hc)) ltac:(lia) a Ha).
Qed.

Lemma rcount_prefix : forall k ps, zsum (fun j => rcount j ps) (seq 0 k) = Z.of_nat (length (filter (fun p => Nat.ltb (pl_type p) k) ps)).
Proof.
  intros k ps. induction ps as [|p ps IH].
  - rewrite (zsum_ext _ _ (fun _ => 0)) by reflexivity. apply zsum_const0.
  - rewrite (zsum_ext _ _ (fun j => (if Nat.eqb (pl_type p) j then 1 else 0) + rcount j ps)) by (intros j _; apply rcount_cons). rewrite zsum_plus, IH. cbn [filter].
    destruct (Nat.ltb_spec (pl_type p) k) as [Hk|Hk].
    + rewrite (zsum_pick_seq (fun _ => 1)) by exact Hk. cbn [length]. lia.
    + rewrite (zsum_ext _ _ (fun _ => 0)); [rewrite zsum_const0; lia|]. intros j Hj. apply in_seq in Hj. destruct (Nat.eqb_spec (pl_type p) j) as [E|E]; [lia|reflexivity].
Qed.

Lemma concat_mine_sum : forall (f : list Comp -> Z) groups k, (forall g, In g groups -> (fst g < k)%nat) ->
  zsum f (flat_map (mine groups) (seq 0 k)) = zsum (fun g => f (snd g)) groups.
Proof.
  intros f groups k Hg. rewrite zsum_flat_map. unfold mine.
  rewrite (zsum_ext _ _ (fun j => zsum (fun g => if Nat.eqb (fst g) j then f (snd g) else 0) groups)) by (intros j _; rewrite zsum_map, zsum_filter_if; reflexivity).
  rewrite zsum_swap. apply zsum_ext. intros g Hin. apply (zsum_pick_seq (fun _ => f (snd g))). apply Hg. exact Hin.
Qed.

Theorem try_both_ok : forall s cands, Inv i W H s -> NoDup cands ->
  (forall b, In b cands -> (b < n)%nat /\ live s b /\ both_big i W H b (rtype s b) = true) ->
  exists s' ok caught rs, try_both o i W H s cands = Some (s', ok) /\ both_result s s' cands caught rs /\ (ok = true -> caught <> []).
Proof.
  intros s cands I ND C. unfold try_both. pose proof I as [I1 I2 _ _].
  set (rs := companions_of i s (fun b x => could_fit_both i W H b (rtype s b) x (rtype s x)) cands cands).
  assert (Hrs : forall x, In x rs -> (x < n)%nat /\ live s x /\ ~ In x cands).
  { intros x Hx. apply companions_in in Hx. destruct Hx as (X1 & X2 & X3 & _). repeat split; assumption. }
  assert (NDr : NoDup rs) by (apply companions_nodup).
  assert (Hclosed : forall b x, In b cands -> (x < n)%nat -> live s x -> ~ In x cands -> could_fit_both i W H b (rtype s b) x (rtype s x) = true -> In x rs).
  { intros b x Hbb Hx Hl Hc Hf. apply (companions_intro i _ _ _ _ _ b); assumption. }
  assert (Dr : rs = [] \/ rs <> []) by (destruct rs; [left; reflexivity|right; discriminate]).
  destruct Dr as [Dr|Dr].
  - rewrite Dr in *. destruct (capture_all cands s s false [] I ND) as (s' & any' & caught & G1 & G2 & G3 & G4 & G5 & G6 & G7 & G8 & G9).
    + intros b Hb. destruct (C b Hb) as (X1 & X2 & _). split; assumption.
    + reflexivity.
    + intros x [].
    + reflexivity.
    + rewrite zsum_nil. lia.
    + discriminate.
    + exists s', any', caught, []. split; [exact G1|]. split; [|exact G9]. split; [exact G2|]. split; [exact G3|]. split; [exact G4|]. split; [exact G5|].
      split; [intros x [Hx|[]]; apply G6; exact Hx|]. split; [intros x []|]. split; [intros x Hx Hn _; apply G7; assumption|]. split; [exact G8|].
      intros b x Hb. apply Hclosed. apply G5. exact Hb.
  - rewrite (match_ne _ _ rs) by exact Dr.
    assert (same : forall s', re_types s' = re_types s -> re_full s' = re_full s -> re_pairs s' = re_pairs s -> re_groups s' = re_groups s ->
      exists s'' ok caught rs0, Some (s', false) = Some (s'', ok) /\ both_result s s'' cands caught rs0 /\ (ok = true -> caught <> [])).
    { intros s' E1 E2 E3 E4. exists s', false, [], []. split; [reflexivity|]. split; [apply both_result_same; assumption|discriminate]. }
    destruct (ro_solve o (re_calls s) (check_both i W H s cands rs)) as [ds|] eqn:Es; [|apply same; reflexivity].
    destruct (Hsolve _ _ _ Es) as (Pk & Full & Used). set (chk := check_both i W H s cands rs) in *. set (ids := cands ++ rs).
    assert (NDi : NoDup ids) by (apply nodup_app_intro; [exact ND|exact NDr|]; intros x Hx Hr; apply (proj2 (proj2 (Hrs x Hr)) Hx)).
    assert (Hids : forall x, In x ids -> (x < n)%nat /\ live s x).
    { intros x Hx. apply in_app_or in Hx. destruct Hx as [Hx|Hx]; [destruct (C x Hx) as (X1 & X2 & _)|destruct (Hrs x Hx) as (X1 & X2 & _)]; split; assumption. }
    assert (Li : length (rin_items chk) = length ids) by (unfold chk, check_both; cbn [rin_items]; apply map_length).
    assert (Cp : forall d, In d ds -> 1 <= rd_copies d) by (intros d Hd; apply (pa_bins _ _ Pk d Hd)).
    set (bins := single_bins ds). set (T := zsum (fun b => rt_copies (rtype s b)) cands) in *.
    assert (HT : 0 <= T) by (apply zsum_nonneg; intros b Hb; destruct (C b Hb) as (X1 & X2 & _); pose proof (ty_copies _ _ _ (I2 b X1 X2)); lia).
    assert (Hbin : forall bin, In bin bins -> fst bin = O /\ geometry_ok chk (check_bin W H T) (snd bin)).
    { intros bin Hin. apply single_bins_in in Hin. destruct Hin as (d & Hd & ->). cbn [fst snd]. destruct (pa_bins _ _ Pk d Hd) as (X & _ & G).
      unfold chk, check_both in X. cbn [rin_bins length] in X. assert (rd_type d = O) as E0 by lia. rewrite E0 in G. split; [exact E0|exact G]. }
    assert (Hty : forall bin, In bin bins -> forall p, In p (snd bin) -> (pl_type p < length ids)%nat).
    { intros bin Hin p Hp. destruct (Hbin bin Hin) as [_ G]. rewrite <- Li. apply (ge_places _ _ _ G p Hp). }
    assert (Hheads : forall bin, In bin bins -> (forall c, In c (map (head_of ids 0 0) (snd bin)) -> In (co_type c) ids /\ head_ok i s c /\ within (cbox s c) (mkBox 0 0 W H))
       /\ ForallOrdPairs (fun a b => apart (cbox s a) (cbox s b)) (map (head_of ids 0 0) (snd bin))).
    { intros bin Hin. destruct (Hbin bin Hin) as [_ G]. exact (answer_heads i s ids _ OFeasibility Hids _ _ 0 0 G). }
    set (k := length cands).
    assert (Ebig : forall p : Place, (pl_type p < k)%nat -> In (nth (pl_type p) ids O) cands) by (intros p Hp; unfold ids; rewrite app_nth1 by exact Hp; apply nth_In; exact Hp).
    (* at most one big item in a bin *)
    assert (Hle1 : forall bin, In bin bins -> zsum (fun j => rcount j (snd bin)) (seq 0 k) <= 1).
    { intros bin Hin. rewrite rcount_prefix. destruct (Hheads bin Hin) as [HA HP].
      assert (HF : ForallOrdPairs (fun p q => apart (cbox s (head_of ids 0 0 p)) (cbox s (head_of ids 0 0 q))) (snd bin)).
      { clear - HP. induction (snd bin) as [|p l IH]; [constructor|]. cbn [map] in HP. inversion HP as [|? ? P1 P2]. subst. constructor; [|apply IH; exact P2].
        apply Forall_forall. intros q Hq. rewrite Forall_forall in P1. apply P1. apply in_map. exact Hq. }
      pose proof (ord_pairs_filter _ _ (fun p => Nat.ltb (pl_type p) k) _ HF) as HF'. destruct (filter (fun p => Nat.ltb (pl_type p) k) (snd bin)) as [|p [|q l]] eqn:Ef; [cbn; lia|cbn; lia|].
      exfalso. assert (Hp : In p (snd bin) /\ (pl_type p < k)%nat) by (assert (X : In p (p :: q :: l)) by (left; reflexivity); rewrite <- Ef in X; apply filter_In in X; destruct X as [X1 X2]; apply Nat.ltb_lt in X2; split; assumption).
      assert (Hq : In q (snd bin) /\ (pl_type q < k)%nat) by (assert (X : In q (p :: q :: l)) by (right; left; reflexivity); rewrite <- Ef in X; apply filter_In in X; destruct X as [X1 X2]; apply Nat.ltb_lt in X2; split; assumption).
      inversion HF' as [|? ? P1 _]. subst. inversion P1 as [|? ? P2 _]. subst.
      destruct (HA _ (in_map (head_of ids 0 0) _ _ (proj1 Hp))) as (_ & Hp1 & Hp2). destruct (HA _ (in_map (head_of ids 0 0) _ _ (proj1 Hq))) as (_ & Hq1 & Hq2).
      apply (both_apart s _ _ I Hp1 Hq1 Hp2 Hq2); [apply (C _ (Ebig p (proj2 Hp)))|apply (C _ (Ebig q (proj2 Hq)))|exact (proj1 P2)]. }
    assert (Ecop : forall j, (j < length ids)%nat -> zsum (fun bin => rcount j (snd bin)) bins = rt_copies (rtype s (nth j ids O))).
    { intros j Hj. assert (Eci : ritem chk j = check_item i s (nth j ids O)) by (unfold chk, check_both; fold ids; rewrite ritem_chk by exact Hj; reflexivity).
      rewrite <- (f_equal ri_copies Eci : ri_copies (ritem chk j) = rt_copies (rtype s (nth j ids O))). rewrite <- (Full j) by (rewrite Li; exact Hj).
      exact (single_bins_sum (fun bin => rcount j (snd bin)) ds Cp). }
    assert (Esum : zsum (fun bin => zsum (fun j => rcount j (snd bin)) (seq 0 k)) bins = T).
    { rewrite (zsum_swap _ _ (fun bin j => rcount j (snd bin))). unfold T. rewrite <- (zsum_nth_seq _ (fun b => rt_copies (rtype s b)) O cands). fold k. apply zsum_ext. intros j Hj. apply in_seq in Hj.
      rewrite Ecop by (unfold ids; rewrite app_length; fold k; lia). unfold ids. rewrite app_nth1 by (fold k; lia). reflexivity. }
    assert (Nbins : Z.of_nat (length bins) <= T).
    { rewrite <- zsum_length. etransitivity; [|apply (Used O); [unfold chk, check_both; cbn; lia|exact HT]]. unfold bins. rewrite single_bins_sum by exact Cp. unfold rused_bins. apply zsum_le. intros d Hd.
      destruct (pa_bins _ _ Pk d Hd) as (X & _ & _). unfold chk, check_both in X. cbn [rin_bins length] in X. assert (rd_type d = O) as -> by lia. cbn [Nat.eqb]. lia. }
    assert (Hone : forall bin, In bin bins -> zsum (fun j => rcount j (snd bin)) (seq 0 k) = 1) by (apply zsum_one_each; [exact Hle1|rewrite Esum; exact Nbins]).
    assert (Neq : Z.of_nat (length bins) = T).
    { rewrite <- Esum, <- zsum_length. apply zsum_ext. intros bin Hin. symmetry. apply Hone. exact Hin. }
    set (pos := fun bin : nat * list Place => match first_big k (snd bin) with Some j => j | None => O end).
    assert (Hpos : forall bin, In bin bins -> first_big k (snd bin) = Some (pos bin) /\ (pos bin < k)%nat
       /\ placed_items cands rs (pos bin) (snd bin) = Some (map (head_of ids 0 0) (snd bin))
       /\ forall j, (j < k)%nat -> rcount j (snd bin) = if Nat.eqb (pos bin) j then 1 else 0).
    { intros bin Hin. pose proof (Hone bin Hin) as H1. rewrite rcount_prefix in H1.
      destruct (filter (fun p => Nat.ltb (pl_type p) k) (snd bin)) as [|p [|q l]] eqn:Ef; [cbn in H1; lia| |cbn [length] in H1; lia].
      assert (Hall : forall q, In q (snd bin) -> (pl_type q < k)%nat -> q = p).
      { intros q Hq Hk. assert (X : In q (filter (fun p => Nat.ltb (pl_type p) k) (snd bin))) by (apply filter_In; split; [exact Hq|apply Nat.ltb_lt; exact Hk]). rewrite Ef in X. destruct X as [X|[]]. symmetry. exact X. }
      assert (Hp : In p (snd bin) /\ (pl_type p < k)%nat) by (assert (X : In p [p]) by (left; reflexivity); rewrite <- Ef in X; apply filter_In in X; destruct X as [X1 X2]; apply Nat.ltb_lt in X2; split; assumption).
      assert (Efind : find (fun p => Nat.ltb (pl_type p) k) (snd bin) = Some p).
      { destruct (find (fun p => Nat.ltb (pl_type p) k) (snd bin)) as [q|] eqn:Eq.
        - apply find_some in Eq. destruct Eq as [Q1 Q2]. apply Nat.ltb_lt in Q2. rewrite (Hall q Q1 Q2). reflexivity.
        - exfalso. pose proof (find_none _ _ Eq p (proj1 Hp)) as Hp'. apply Nat.ltb_ge in Hp'. lia. }
      assert (Epos : pos bin = pl_type p) by (unfold pos, first_big; rewrite Efind; reflexivity).
      rewrite Epos. split; [unfold first_big; rewrite Efind; reflexivity|]. split; [apply Hp|]. split.
      - unfold placed_items. fold k. destruct (existsb (fun p0 => Nat.ltb (pl_type p0) k && negb (Nat.eqb (pl_type p0) (pl_type p))) (snd bin)) eqn:Ex.
        + apply existsb_exists in Ex. destruct Ex as (q & Hq & Ex). apply andb_true_iff in Ex. destruct Ex as [X1 X2]. apply Nat.ltb_lt in X1. rewrite (Hall q Hq X1), Nat.eqb_refl in X2. discriminate X2.
        + reflexivity.
      - intros j Hj. unfold rcount. destruct (Nat.eqb_spec (pl_type p) j) as [<-|Nj].
        + assert (E1 : filter (fun q => Nat.eqb (pl_type q) (pl_type p)) (snd bin) = filter (fun q => Nat.ltb (pl_type q) k) (snd bin)).
          { apply filter_ext_in. intros q Hq. destruct (Nat.eqb_spec (pl_type q) (pl_type p)) as [E|E].
            - symmetry. apply Nat.ltb_lt. rewrite E. apply Hp.
            - symmetry. apply Nat.ltb_ge. destruct (Nat.lt_ge_cases (pl_type q) k) as [L|L]; [|exact L]. exfalso. apply E. rewrite (Hall q Hq L). reflexivity. }
          rewrite E1, Ef. reflexivity.
        + destruct (filter (fun q => Nat.eqb (pl_type q) j) (snd bin)) as [|q l] eqn:Eq; [reflexivity|]. exfalso.
          assert (X : In q (q :: l)) by (left; reflexivity). rewrite <- Eq in X. apply filter_In in X. destruct X as [X1 X2]. apply Nat.eqb_eq in X2. rewrite (Hall q X1 ltac:(lia)) in X2. contradiction. }
    set (groups := map (fun bin => (pos bin, map (head_of ids 0 0) (snd bin))) bins).
    assert (Eg : both_groups cands rs bins = Some groups).
    { unfold groups. revert Hpos. generalize bins. clear. intros bins. induction bins as [|[t ps] bins IH]; intros Hpos; [reflexivity|]. cbn [both_groups map].
      destruct (Hpos (t, ps) (or_introl eq_refl)) as (P1 & P2 & P3 & _). cbn [snd] in P1, P3. fold k. rewrite P1, P3, IH by (intros bin Hin; apply Hpos; right; exact Hin). reflexivity. }
    rewrite Eg. assert (Lg : Z.of_nat (length groups) = T) by (unfold groups; rewrite map_length; exact Neq).
    destruct (Nat.eqb (length groups) 0) eqn:E0; [apply same; reflexivity|]. apply Nat.eqb_neq in E0.
    destruct (no_room i s (Z.of_nat (length groups))) eqn:Er; [apply same; reflexivity|].
    set (types := map (fun x => if existsb (Nat.eqb x) rs then take (rtype s x) else rtype s x) (seq 0 (length (re_types s)))).
    assert (Ety : forall x, (x < n)%nat -> nth x types dummy_rt = if existsb (Nat.eqb x) rs then take (rtype s x) else rtype s x).
    { intros x Hx. unfold types. rewrite I1. apply (nth_map_seq _ (fun x => if existsb (Nat.eqb x) rs then take (rtype s x) else rtype s x)). exact Hx. }
    assert (Hg : forall g, In g groups -> exists bin, In bin bins /\ fst g = pos bin /\ snd g = map (head_of ids 0 0) (snd bin)).
    { intros g Hin. unfold groups in Hin. apply in_map_iff in Hin. destruct Hin as (bin & <- & Hin). exists bin. repeat split. exact Hin. }
    assert (Hgk : forall g, In g groups -> (fst g < k)%nat) by (intros g Hin; destruct (Hg g Hin) as (bin & Hb & E & _); rewrite E; apply (Hpos bin Hb)).
    assert (Hmine : forall j l, In l (mine groups j) -> exists bin, In bin bins /\ j = pos bin /\ l = map (head_of ids 0 0) (snd bin)).
    { intros j l Hl. unfold mine in Hl. apply in_map_iff in Hl. destruct Hl as (g & <- & Hin). apply filter_In in Hin. destruct Hin as [Hin Ej]. apply Nat.eqb_eq in Ej.
      destruct (Hg g Hin) as (bin & Hb & E1 & E2). exists bin. split; [exact Hb|]. split; [congruence|exact E2]. }
    assert (Hmine' : forall l, In l (flat_map (mine groups) (seq 0 k)) -> exists bin, In bin bins /\ l = map (head_of ids 0 0) (snd bin)).
    { intros l Hl. apply in_flat_map in Hl. destruct Hl as (j & _ & Hl). destruct (Hmine j l Hl) as (bin & Hb & _ & E). exists bin. split; assumption. }
    assert (Hocc : forall x, In x ids -> Z.of_nat (occ x (concat (flat_map (mine groups) (seq 0 k)))) = rt_copies (rtype s x)).
    { intros x Hx. destruct (In_nth ids x O Hx) as (q & Hq & Eq). rewrite occ_concat, (concat_mine_sum (fun l => Z.of_nat (occ x l)) groups k Hgk). unfold groups. rewrite zsum_map. cbn [snd].
      transitivity (rt_copies (rtype s (nth q ids O))); [|rewrite Eq; reflexivity]. rewrite <- (Ecop q Hq). apply zsum_ext. intros bin Hin. apply (occ_heads ids); [exact NDi|apply Hty; exact Hin|exact Hq|exact Eq]. }
    assert (Hoccids : forall c, In c (concat (flat_map (mine groups) (seq 0 k))) -> In (co_type c) ids).
    { intros c Hc. apply in_concat in Hc. destruct Hc as (l & Hl & Hc). destruct (Hmine' l Hl) as (bin & Hb & ->). apply (Hheads bin Hb). exact Hc. }
    assert (Hocc' : forall x, ~ In x ids -> occ x (concat (flat_map (mine groups) (seq 0 k))) = O).
    { intros x Hx. apply occ_out. intros c Hc <-. apply Hx, Hoccids, Hc. }
    assert (Hprior : forall x q, In x ids -> (q < occ x (concat (flat_map (mine groups) (seq 0 k))))%nat -> (q < Z.to_nat (rt_copies (rtype s x)))%nat
       /\ nth_error (prior (rtype s x)) q = Some (entryt (rtype s x) q)).
    { intros x q Hx Hq. pose proof (Hocc x Hx). destruct (Hids x Hx) as (X1 & X2). assert (Hq' : (q < Z.to_nat (rt_copies (rtype s x)))%nat) by lia.
      split; [exact Hq'|]. apply prior_entry; [apply (I2 x X1 X2)|exact Hq']. }
    assert (Hnthc : forall j, (j < k)%nat -> nth j ids O = nth j cands O) by (intros j Hj; unfold ids; apply app_nth1; exact Hj).
    destruct (apply_both_ok s cands groups (seq 0 k) (fun _ => O) types I ND) as (types' & filled & A1 & A2 & A3 & A4 & A5 & A6).
    + apply seq_NoDup.
    + intros j Hj. apply in_seq in Hj. fold k. lia.
    + intros b Hb. destruct (C b Hb) as (X1 & X2 & _). split; assumption.
    + unfold types. rewrite map_length, seq_length. exact I1.
    + intros j Hj. apply in_seq in Hj. assert (Hin : In (nth j cands O) cands) by (apply nth_In; fold k; lia). rewrite Ety by (apply (C _ Hin)).
      assert (existsb (Nat.eqb (nth j cands O)) rs = false) as ->; [|reflexivity]. apply existsb_notin. intros Hr. apply (proj2 (proj2 (Hrs _ Hr)) Hin).
    + intros j Hj. apply in_seq in Hj. rewrite <- (Hnthc j) by lia. rewrite <- (Ecop j) by (unfold ids; rewrite app_length; fold k; lia).
      unfold mine. rewrite map_length, <- zsum_length, zsum_filter_if. unfold groups. rewrite zsum_map. apply zsum_ext. intros bin Hin. cbn [fst].
      destruct (Hpos bin Hin) as (_ & _ & _ & P4). rewrite (P4 j) by lia. reflexivity.
    + reflexivity.
    + intros j l j' Hj Hl Hj'. apply in_seq in Hj'. destruct (Hmine j l Hl) as (bin & Hb & -> & ->). destruct (Hpos bin Hb) as (_ & _ & _ & P4). specialize (P4 j' ltac:(lia)).
      rewrite <- (Hnthc j') by lia.
      pose proof (occ_heads ids 0 0 (nth j' ids O) (snd bin) NDi (Hty bin Hb) j' ltac:(unfold ids; rewrite app_length; fold k; lia) eq_refl) as X. rewrite P4 in X.
      destruct (Nat.eqb (pos bin) j'); lia.
    + intros c Hc. apply (Hids _ (Hoccids c Hc)).
    + intros c q Hc Hq. destruct (Hprior _ q (Hoccids c Hc)) as [_ E]; [lia|]. rewrite E. discriminate.
    + fold k. rewrite A1. match goal with |- exists s' ok caught rs0, Some (?x, true) = _ /\ _ => set (s' := x) end.
      exists s', true, cands, rs. split; [reflexivity|]. split.
      2: { intros _ C0. apply E0. apply Nat2Z.inj. rewrite Lg. unfold T. rewrite C0. reflexivity. }
      assert (Rc : forall b, In b cands -> rt_removed (rtype s' b) = true).
      { intros b Hb. destruct (In_nth cands b O Hb) as (j & Hj & <-). apply (A3 j). apply in_seq. fold k in Hj. lia. }
      assert (Mc : forall x, In x (map (fun j => nth j cands O) (seq 0 k)) <-> In x cands) by (intros x; unfold k; rewrite map_nth_seq; reflexivity).
      assert (Rr : forall x, In x rs -> rt_removed (rtype s' x) = true).
      { intros x Hx. destruct (Hrs x Hx) as (X1 & X2 & X3). unfold rtype, s'. cbn [re_types]. rewrite A4 by (rewrite Mc; exact X3). rewrite (Ety x X1).
        assert (existsb (Nat.eqb x) rs = true) as -> by (apply existsb_in; exact Hx). reflexivity. }
      assert (Ro : forall x, (x < n)%nat -> ~ In x cands -> ~ In x rs -> rtype s' x = rtype s x).
      { intros x Hx N1 N2. unfold rtype at 1, s'. cbn [re_types]. rewrite A4 by (rewrite Mc; exact N1). rewrite (Ety x Hx). apply existsb_notin in N2. rewrite N2. reflexivity. }
      assert (Lfl : length filled = length groups).
      { rewrite <- (Forall2_len _ _ _ _ _ A5). apply Nat2Z.inj. rewrite <- !zsum_length. rewrite (concat_mine_sum (fun _ => 1) groups k Hgk). reflexivity. }
      split; [|split; [unfold s'; cbn [re_types]; rewrite A2, I1; reflexivity|split; [exact ND|split; [apply incl_refl|split; [|split; [|split; [exact Ro|split; [|exact Hclosed]]]]]]]].
      * apply (inv_step i W H s s' filled I).
        -- exact A2.
        -- intros x Hx Hlx. unfold live in Hlx. destruct (in_dec Nat.eq_dec x cands) as [Hc|Hc]; [rewrite (Rc x Hc) in Hlx; discriminate Hlx|].
           destruct (in_dec Nat.eq_dec x rs) as [Hr|Hr]; [rewrite (Rr x Hr) in Hlx; discriminate Hlx|]. rewrite (Ro x Hx Hc Hr) in *. apply I2; assumption.
        -- apply ded_groups; reflexivity.
        -- intros cs Hcs. destruct (Forall2_in_r _ _ _ _ _ _ A5 Hcs) as (l & Hl & Fl). destruct (Hmine' l Hl) as (bin & Hb & El). destruct (Hheads bin Hb) as [HA HP]. rewrite <- El in HA, HP.
           apply (fill_boxed i W H s _ l cs I).
           ++ eapply given_takes; [|exact Fl]. intros c Hc q Hq. apply Hprior; [apply (HA c Hc)|exact Hq].
           ++ intros c Hc. destruct (HA c Hc) as (_ & X). exact X.
           ++ exact HP.
        -- intros z Hz. rewrite A6, <- zsum_plus. apply zsum_ext. intros x Hx. apply in_seq in Hx. unfold val.
           destruct (in_dec Nat.eq_dec x ids) as [Hi|Hi].
           ++ assert (Rx : rt_removed (rtype s' x) = true) by (apply in_app_or in Hi; destruct Hi as [Hi|Hi]; [apply Rc|apply Rr]; exact Hi). rewrite Rx.
              destruct (Hids x Hi) as [_ Hlx]. unfold live in Hlx. rewrite Hlx. unfold tcontent. rewrite <- (Hocc x Hi), Nat2Z.id. cbn [Z.add]. apply zsum_ext. intros q Hq. apply in_seq in Hq.
              unfold entd. destruct (Hprior x q Hi) as [_ E]; [lia|]. rewrite E. reflexivity.
           ++ rewrite (Hocc' x Hi). rewrite zsum_nil. rewrite Ro; [lia|lia| |]; intros C0; apply Hi; apply in_or_app; [left|right]; exact C0.
        -- rewrite Lfl. exact Er.
      * intros x [Hx|Hx].
        -- destruct (C x Hx) as (X1 & X2 & _). split; [exact X1|]. split; [exact X2|apply Rc; exact Hx].
        -- destruct (Hrs x Hx) as (X1 & X2 & _). split; [exact X1|]. split; [exact X2|apply Rr; exact Hx].
      * intros x Hx. apply (Hrs x Hx).
      * unfold dedicated, s'. cbn [re_full re_pairs re_groups]. rewrite app_length, Lfl. fold T. lia.
Qed.

End Both.
