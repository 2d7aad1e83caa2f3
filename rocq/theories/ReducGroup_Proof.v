(** * The group step of the rectangle reduction *)

From Coq Require Import List ZArith QArith Bool Arith Lia Permutation.
From Verif Require Import Util Common_Model Rect_Model Rect_Spec Reduc_Model Reduc_Spec Reduc_Proof ReducInv_Proof.
Import ListNotations.
Open Scope Z_scope.

(** Answers of the sub-solver on item types [ids] of the current state. *)
Section Answer.
Variable i : RInstance.
Variable s : Red.
Variable ids : list nat.
Variable bts : list RBin.
Variable ob : Objective.
Variable ds : list RDesc.
Let chk := mkRInst ob (rin_params i) (map (check_item i s) ids) bts.
Hypothesis Hids : forall x, In x ids -> (x < n_types i)%nat /\ live s x.

Definition head_of (dx dy : Z) (p : Place) : Comp := mkComp (nth (pl_type p) ids O) (dx + pl_x p) (dy + pl_y p) (pl_rot p) [].

Lemma ritem_chk : forall j, (j < length ids)%nat -> ritem chk j = check_item i s (nth j ids O).
Proof.
  intros j Hj. unfold ritem, chk. cbn [rin_items]. rewrite (nth_indep _ _ (check_item i s O)) by (rewrite map_length; exact Hj). apply map_nth.
Qed.

Lemma answer_heads : forall bt ps dx dy, geometry_ok chk bt ps ->
  (forall c, In c (map (head_of dx dy) ps) -> In (co_type c) ids /\ head_ok i s c /\ within (cbox s c) (mkBox dx dy (dx + rb_x bt) (dy + rb_y bt)))
  /\ ForallOrdPairs (fun a b => apart (cbox s a) (cbox s b)) (map (head_of dx dy) ps).
Proof.
  intros bt ps dx dy [G1 G2 _].
  assert (S : forall p, In p ps -> (pl_type p < length ids)%nat /\ pl_w chk p = (if pl_rot p then rt_y (rtype s (nth (pl_type p) ids O)) else rt_x (rtype s (nth (pl_type p) ids O)))
     /\ pl_h chk p = (if pl_rot p then rt_x (rtype s (nth (pl_type p) ids O)) else rt_y (rtype s (nth (pl_type p) ids O)))).
  { intros p Hp. destruct (G1 p Hp) as [T _ _ _]. unfold chk in T. cbn [rin_items] in T. rewrite map_length in T. split; [exact T|].
    unfold pl_w, pl_h. rewrite (ritem_chk _ T). split; reflexivity. }
  split.
  - intros c Hc. apply in_map_iff in Hc. destruct Hc as (p & <- & Hp). destruct (S p Hp) as (T & Sw & Sh). destruct (G1 p Hp) as [_ X Y R].
    assert (Hin : In (nth (pl_type p) ids O) ids) by (apply nth_In; exact T). destruct (Hids _ Hin) as [Hn Hl].
    unfold pl_xe, pl_ye in X, Y. rewrite Sw in X. rewrite Sh in Y.
    split; [exact Hin|]. split; [split; [exact Hn|split; [exact Hl|]]|].
    + cbn [head_of co_rot co_type]. intros Hr. specialize (R Hr). rewrite (ritem_chk _ T) in R. exact R.
    + unfold within, cbox. cbn. lia.
  - clear G1. induction G2 as [|p l Hp Hl IH]; [constructor|]. cbn [map]. constructor.
    + apply Forall_forall. intros c Hc. apply in_map_iff in Hc. destruct Hc as (q & <- & Hq). rewrite Forall_forall in Hp. specialize (Hp q Hq).
      destruct (S p (or_introl eq_refl)) as (_ & A1 & A2). destruct (S q (or_intror Hq)) as (_ & B1 & B2). revert Hp. unfold disjoint, pl_xe, pl_ye. rewrite A1, A2, B1, B2.
      unfold apart, cbox. cbn. lia.
    + apply IH. intros q Hq. apply S. right. exact Hq.
Qed.

Lemma occ_heads : forall dx dy x ps, NoDup ids -> (forall p, In p ps -> (pl_type p < length ids)%nat) ->
  forall j, (j < length ids)%nat -> nth j ids O = x -> Z.of_nat (occ x (map (head_of dx dy) ps)) = rcount j ps.
Proof.
  intros dx dy x ps ND. induction ps as [|p ps IH]; intros T j Hj Ej; [reflexivity|]. cbn [map]. rewrite occ_cons, rcount_cons. cbn [head_of co_type].
  rewrite <- (IH (fun q Hq => T q (or_intror Hq)) j Hj Ej). assert (Tp : (pl_type p < length ids)%nat) by (apply T; left; reflexivity).
  destruct (Nat.eqb_spec (pl_type p) j) as [E|E].
  - subst j. rewrite Ej, Nat.eqb_refl. lia.
  - destruct (Nat.eqb_spec (nth (pl_type p) ids O) x) as [C|C]; [|lia]. exfalso. apply E. rewrite <- Ej in C. apply (proj1 (NoDup_nth ids O) ND); assumption.
Qed.

End Answer.

Lemma occ_heads_out : forall ids dx dy x ps, (forall p, In p ps -> (pl_type p < length ids)%nat) -> ~ In x ids -> occ x (map (head_of ids dx dy) ps) = O.
Proof.
  intros ids dx dy x ps T Hx. induction ps as [|p ps IH]; [reflexivity|]. cbn [map]. rewrite occ_cons. cbn [head_of co_type].
  rewrite IH by (intros q Hq; apply T; right; exact Hq). destruct (Nat.eqb_spec (nth (pl_type p) ids O) x) as [C|C]; [|reflexivity].
  exfalso. apply Hx. rewrite <- C. apply nth_In. apply T. left. reflexivity.
Qed.

Lemma occ_concat : forall x ls, Z.of_nat (occ x (concat ls)) = zsum (fun l => Z.of_nat (occ x l)) ls.
Proof. intros x ls. induction ls as [|l ls IH]; [reflexivity|]. cbn [concat]. rewrite occ_app, zsum_cons. lia. Qed.
Lemma occ_in : forall x l, (0 < occ x l)%nat -> exists c, In c l /\ co_type c = x.
Proof.
  intros x l. induction l as [|c l IH]; [cbn; lia|]. rewrite occ_cons. destruct (Nat.eqb_spec (co_type c) x) as [E|E].
  - intros _. exists c. split; [left; reflexivity|exact E].
  - intros Hl. destruct (IH Hl) as (d & Hd & E'). exists d. split; [right; exact Hd|exact E'].
Qed.
Lemma occ_out : forall x l, (forall c, In c l -> co_type c <> x) -> occ x l = O.
Proof.
  intros x l A. induction l as [|c l IH]; [reflexivity|]. rewrite occ_cons, IH by (intros d Hd; apply A; right; exact Hd).
  destruct (Nat.eqb_spec (co_type c) x) as [E|E]; [|reflexivity]. exfalso. apply (A c (or_introl eq_refl) E).
Qed.

Lemma map_nth_seq : forall (A : Type) (d : A) l, map (fun k => nth k l d) (seq 0 (length l)) = l.
Proof.
  intros A d l. apply (nth_ext _ _ d d); [rewrite map_length, seq_length; reflexivity|]. intros k Hk. rewrite map_length, seq_length in Hk.
  apply (nth_map_seq _ (fun k => nth k l d) (length l) k d Hk).
Qed.

Lemma match_ne : forall (A B : Type) (l : list A) (x y : B), l <> [] -> match l with [] => x | _ => y end = y.
Proof. intros A B [|a l] x y N; [congruence|reflexivity]. Qed.

Section Group.
Variable o : ROracle.
Variable i : RInstance.
Variables W H : Z.
Notation n := (n_types i) (only parsing).

Hypothesis Hsolve : solver_honest (ro_solve o).
Hypothesis Hcomplete : uses_all_copies (ro_solve o) \/ forall x, (x < n)%nat -> ri_copies (ritem i x) = 1.

Lemma companions_in : forall s fit cands bigs x, In x (companions_of i s fit cands bigs) ->
  (x < n)%nat /\ live s x /\ ~ In x cands /\ exists b, In b bigs /\ fit b x = true.
Proof.
  intros s fit cands bigs x Hx. apply filter_In in Hx. destruct Hx as [Hs Hx]. apply in_seq in Hs. apply andb_true_iff in Hx. destruct Hx as [Hx Hf].
  apply andb_true_iff in Hx. destruct Hx as [H1 H2]. apply negb_true_iff in H1. apply negb_true_iff, existsb_notin in H2. apply existsb_exists in Hf.
  split; [lia|]. split; [exact H1|]. split; [exact H2|exact Hf].
Qed.
Lemma companions_intro : forall s fit cands bigs x b, (x < n)%nat -> live s x -> ~ In x cands -> In b bigs -> fit b x = true -> In x (companions_of i s fit cands bigs).
Proof.
  intros s fit cands bigs x b Hx Hl Hc Hb Hf. apply filter_In. split; [apply in_seq; lia|]. unfold live in Hl. rewrite Hl. apply existsb_notin in Hc. rewrite Hc. cbn [negb andb].
  apply existsb_exists. exists b. split; assumption.
Qed.
Lemma companions_nodup : forall s fit cands bigs, NoDup (companions_of i s fit cands bigs).
Proof. intros. apply NoDup_filter, seq_NoDup. Qed.

Lemma checked_in : forall s wide cands b, In b (checked W H s wide cands) -> In b cands /\ (if wide then rt_x (rtype s b) < W else rt_y (rtype s b) < H).
Proof.
  intros s wide cands b Hb. apply filter_In in Hb. destruct Hb as [Hb E]. split; [exact Hb|]. apply andb_true_iff in E. destruct E as [E1 E2].
  apply Z.ltb_lt in E1. apply Z.ltb_lt in E2. unfold companion_bin in *. destruct wide; cbn in *; lia.
Qed.

Lemma validated_false : forall es, validated es = false -> forall x, occ x (concat es) = O.
Proof.
  intros es E x. induction es as [|e es IH]; [reflexivity|]. cbn in E. destruct e as [|c e]; [|discriminate E]. cbn [concat app]. apply IH. exact E.
Qed.
Lemma validated_true : forall es c, In c (concat es) -> validated es = true.
Proof.
  intros es c Hc. destruct (validated es) eqn:E; [reflexivity|]. pose proof (validated_false es E (co_type c)) as Z. exfalso.
  assert (0 < occ (co_type c) (concat es))%nat; [|lia]. unfold occ. destruct (filter (fun c0 => Nat.eqb (co_type c0) (co_type c)) (concat es)) eqn:F; [|cbn; lia].
  assert (In c []) by (rewrite <- F; apply filter_In; split; [exact Hc|apply Nat.eqb_refl]). contradiction.
Qed.

(** What a group step does. *)
Definition group_result (wide : bool) (s s' : Red) (cands : list nat) (ok : bool) : Prop :=
  exists l rs, gstep i W H wide s s' l rs /\ (ok = true <-> l <> []) /\ incl (map fst l) cands
    /\ forall b x, In b (map fst l) -> (x < n)%nat -> live s x -> ~ In x cands -> could_fit i W H wide (rtype s b) x (rtype s x) = true -> In x rs.

Lemma gstep_same : forall wide s s', re_types s' = re_types s -> re_full s' = re_full s -> re_pairs s' = re_pairs s -> re_groups s' = re_groups s ->
  gstep i W H wide s s' [] [].
Proof.
  intros wide s s' E1 E2 E3 E4. assert (E : forall x, rtype s' x = rtype s x) by (intros x; unfold rtype; rewrite E1; reflexivity). split.
  - rewrite E1. reflexivity.
  - repeat split; assumption.
  - constructor.
  - intros x [].
  - intros x [].
  - intros b es [].
  - intros x _ _ _. apply E.
  - intros z. rewrite zsum_nil. symmetry. apply zsum_const0.
Qed.

Lemma boxed_strip_empty : forall b, boxed i b (flat_map (place_comp 0 0) []).
Proof. intros. apply boxed_nil. Qed.

Lemma Forall2_fst : forall (A B : Type) (R : B -> B -> Prop) (l l' : list (A * B)), Forall2 (fun a b => fst a = fst b /\ R (snd a) (snd b)) l l' -> map fst l' = map fst l.
Proof. intros A B R l l' F. induction F as [|a b l l' [E _] F IH]; [reflexivity|]. cbn [map]. congruence. Qed.
Lemma Forall2_in_r : forall (A B : Type) (R : A -> B -> Prop) l l' b, Forall2 R l l' -> In b l' -> exists a, In a l /\ R a b.
Proof.
  intros A B R l l' b F Hb. induction F as [|x y l l' Hx F IH]; [destruct Hb|]. destruct Hb as [<-|Hb].
  - exists x. split; [left; reflexivity|exact Hx].
  - destruct (IH Hb) as (a & Ha & Hr). exists a. split; [right; exact Ha|exact Hr].
Qed.
Lemma Forall2_len : forall (A B : Type) (R : A -> B -> Prop) l l', Forall2 R l l' -> length l = length l'.
Proof. intros A B R l l' F. induction F; cbn; congruence. Qed.

Theorem try_group_ok : forall wide s cands, Inv i W H s -> NoDup cands ->
  (forall b, In b cands -> (b < n)%nat /\ live s b /\ oriented i b = true) ->
  exists s' ok, try_group o i W H wide s cands = Some (s', ok) /\ group_result wide s s' cands ok.
Proof.
  intros wide s cands I ND C. unfold try_group. pose proof I as [I1 I2 _ _].
  assert (same : forall s', re_types s' = re_types s -> re_full s' = re_full s -> re_pairs s' = re_pairs s -> re_groups s' = re_groups s -> group_result wide s s' cands false).
  { intros s' E1 E2 E3 E4. exists [], []. split; [apply gstep_same; assumption|]. split; [split; [discriminate|intros C0; contradiction C0; reflexivity]|]. split; [intros x []|]. intros b x []. }
  set (bigs := checked W H s wide cands). set (rs := companions_of i s (fun b x => could_fit i W H wide (rtype s b) x (rtype s x)) cands bigs).
  assert (Hb : forall b, In b bigs -> In b cands /\ (b < n)%nat /\ live s b /\ oriented i b = true /\ (if wide then rt_x (rtype s b) < W else rt_y (rtype s b) < H)).
  { intros b Hin. destruct (checked_in s wide cands b Hin) as [Hc Hs]. destruct (C b Hc) as (X1 & X2 & X3). split; [exact Hc|]. repeat (split; [assumption|]). exact Hs. }
  assert (NDb : NoDup bigs) by (apply NoDup_filter; exact ND).
  assert (D : bigs = [] \/ bigs <> []) by (destruct bigs; [left; reflexivity|right; discriminate]).
  destruct D as [D|D]; [rewrite D; exists s, false; split; [reflexivity|apply same; reflexivity]|]. rewrite (match_ne _ _ bigs) by exact D.
  assert (Hrs : forall x, In x rs -> (x < n)%nat /\ live s x /\ ~ In x cands).
  { intros x Hx. apply companions_in in Hx. destruct Hx as (X1 & X2 & X3 & _). repeat split; assumption. }
  assert (NDr : NoDup rs) by (apply companions_nodup).
  assert (Hclosed : forall b x, In b bigs -> (x < n)%nat -> live s x -> ~ In x cands -> could_fit i W H wide (rtype s b) x (rtype s x) = true -> In x rs).
  { intros b x Hbb Hx Hl Hc Hf. apply (companions_intro _ _ _ _ _ b); assumption. }
  assert (Dr : rs = [] \/ rs <> []) by (destruct rs; [left; reflexivity|right; discriminate]).
  destruct Dr as [Dr|Dr].
  - (* no companion at all *)
    rewrite Dr in *.
    destruct (apply_group_ok i W H wide (fun _ _ => None) (map (fun b => (b, repeat [] (Z.to_nat (rt_copies (rtype s b))))) bigs) (fun _ => O) (re_types s)) as (l' & A1 & A2 & A3).
    + rewrite map_map. cbn [fst]. rewrite map_id. exact NDb.
    + intros be Hin. apply in_map_iff in Hin. destruct Hin as (b & <- & Hin). cbn [fst]. rewrite I1. apply (Hb b Hin).
    + intros be Hin. apply in_map_iff in Hin. destruct Hin as (b & <- & Hin). cbn [fst snd]. rewrite repeat_length. destruct (Hb b Hin) as (_ & X1 & X2 & _). apply (I2 b X1 X2).
    + intros c Hc. exfalso. apply in_concat in Hc. destruct Hc as (e & He & Hc). apply in_flat_map in He. destruct He as (be & Hin & He).
      apply in_map_iff in Hin. destruct Hin as (b & <- & Hin). cbn [snd] in He. apply repeat_spec in He. subst e. destruct Hc.
    + intros c k Hc _. exfalso. apply in_concat in Hc. destruct Hc as (e & He & Hc). apply in_flat_map in He. destruct He as (be & Hin & He).
      apply in_map_iff in Hin. destruct Hin as (b & <- & Hin). cbn [snd] in He. apply repeat_spec in He. subst e. destruct Hc.
    + rewrite A1. cbn [option_map]. eexists. exists true. split; [reflexivity|]. exists l', [].
      pose proof (Forall2_fst _ _ _ _ _ A2) as Ef. rewrite map_map in Ef. cbn [fst] in Ef. rewrite map_id in Ef.
      split; [|split; [|split]].
      * split.
        -- cbn [with_types re_types]. apply fold_enl_length.
        -- repeat split.
        -- rewrite Ef. exact NDb.
        -- intros x [].
        -- intros x [].
        -- intros b es Hin. assert (Hbb : In b bigs) by (rewrite <- Ef; apply (in_map fst _ _ Hin)). destruct (Hb b Hbb) as (X0 & X1 & X2 & X3 & X4).
           destruct (Forall2_in_r _ _ _ _ _ _ A2 Hin) as ([b' es0] & Hin0 & Eb & Fes). cbn [fst snd] in Eb, Fes. subst b'.
           apply in_map_iff in Hin0. destruct Hin0 as (b' & E0 & _). injection E0 as E0 E1. subst b' es0.
           split; [exact X1|]. split; [exact X2|]. split; [exact X3|]. split; [|split; [|split; [exact X4|]]].
           ++ unfold rtype at 1. cbn [with_types re_types]. rewrite (fold_enl_in W H wide l' _ b es); [reflexivity|rewrite Ef; exact NDb|exact Hin|lia].
           ++ pose proof (Forall2_len _ _ _ _ _ Fes) as L. rewrite repeat_length in L. lia.
           ++ intros e He. destruct (Forall2_in_r _ _ _ _ _ _ Fes He) as (e0 & He0 & Fe). apply repeat_spec in He0. subst e0. inversion Fe. subst. apply boxed_nil.
        -- intros x Hx _ Hn. unfold rtype. cbn [with_types re_types]. apply fold_enl_other. exact Hn.
        -- intros z. rewrite A3. apply zsum_ext. intros x _. cbn [existsb]. assert (occ x (concat (flat_map snd (map (fun b => (b, repeat [] (Z.to_nat (rt_copies (rtype s b))))) bigs))) = O) as ->; [|reflexivity].
           apply occ_out. intros c Hc. exfalso. apply in_concat in Hc. destruct Hc as (e & He & Hc). apply in_flat_map in He. destruct He as (be & Hin & He).
           apply in_map_iff in Hin. destruct Hin as (b & <- & Hin). cbn [snd] in He. apply repeat_spec in He. subst e. destruct Hc.
      * split; [|reflexivity]. intros _ ->. apply D. symmetry. exact Ef.
      * rewrite Ef. intros b Hbb. apply (Hb b Hbb).
      * rewrite Ef. exact Hclosed.
  - rewrite (match_ne _ _ rs) by exact Dr.
    destruct (ro_solve o (re_calls s) (check_group i W H s wide bigs rs)) as [ds|] eqn:Es; [|exists (called s), false; split; [reflexivity|apply same; reflexivity]].
    destruct (Hsolve _ _ _ Es) as (Pk & Full & Used). set (chk := check_group i W H s wide bigs rs) in *.
    assert (Lb : length (rin_bins chk) = length bigs) by (unfold chk, check_group; cbn [rin_bins]; apply map_length).
    assert (Li : length (rin_items chk) = length rs) by (unfold chk, check_group; cbn [rin_items]; apply map_length).
    set (bd := fun b => companion_bin W H wide (rtype s b)).
    assert (Eb : forall j, (j < length bigs)%nat -> rbin chk j = check_bin (fst (bd (nth j bigs O))) (snd (bd (nth j bigs O))) (rt_copies (rtype s (nth j bigs O)))).
    { intros j Hj. unfold rbin, chk, check_group. cbn [rin_bins].
      rewrite (nth_indep _ _ ((fun b => let d := companion_bin W H wide (rtype s b) in check_bin (fst d) (snd d) (rt_copies (rtype s b))) O)) by (rewrite map_length; exact Hj).
      rewrite (map_nth (fun b => let d := companion_bin W H wide (rtype s b) in check_bin (fst d) (snd d) (rt_copies (rtype s b)))). reflexivity. }
    assert (Cp : forall d, In d ds -> 1 <= rd_copies d) by (intros d Hd; apply (pa_bins _ _ Pk d Hd)).
    set (bins := single_bins ds).
    assert (Hbin : forall bin, In bin bins -> (fst bin < length bigs)%nat /\ geometry_ok chk (rbin chk (fst bin)) (snd bin)).
    { intros bin Hin. apply single_bins_in in Hin. destruct Hin as (d & Hd & ->). cbn [fst snd]. destruct (pa_bins _ _ Pk d Hd) as (X & _ & G). rewrite Lb in X. split; assumption. }
    (* the number of entries *)
    assert (Lf : forall j, Z.of_nat (length (filter (fun bin => Nat.eqb (fst bin) j) bins)) = rused_bins j ds).
    { intros j. rewrite <- zsum_length, zsum_filter_if. unfold bins. rewrite single_bins_sum by exact Cp. apply zsum_ext. intros d _. cbn [fst].
      destruct (Nat.eqb (rd_type d) j); lia. }
    assert (Lall : forall j, (j < length bigs)%nat -> rused_bins j ds = 0 \/ rused_bins j ds = rt_copies (rtype s (nth j bigs O))).
    { intros j Hj. assert (Hin : In (nth j bigs O) bigs) by (apply nth_In; exact Hj). destruct (Hb _ Hin) as (_ & X1 & X2 & _). pose proof (ty_copies _ _ _ (I2 _ X1 X2)) as Tc.
      destruct Hcomplete as [U|U].
      - destruct (U _ _ _ Es j) as [E|E]; [unfold chk; fold chk; rewrite Lb; exact Hj|left; exact E|right]. fold chk in E. rewrite E, (Eb j Hj). reflexivity.
      - assert (Uj : rused_bins j ds <= 1).
        { rewrite <- (U _ X1). etransitivity; [|apply (proj2 Tc)]. etransitivity; [apply (Used j); [rewrite Lb; exact Hj|rewrite (Eb j Hj); cbn; lia]|]. rewrite (Eb j Hj). cbn. lia. }
        pose proof (U _ X1) as U1. assert (0 <= rused_bins j ds) by (rewrite <- Lf; lia). lia. }
    set (off := fun b => if wide then (rt_x (rtype s b), 0) else (0, rt_y (rtype s b))).
    assert (Ef : forall j b, found s wide rs bins j b = map (fun bin => map (head_of rs (fst (off b)) (snd (off b))) (snd bin)) (filter (fun bin => Nat.eqb (fst bin) j) bins)).
    { intros j b. unfold found. apply map_ext. intros bin. apply map_ext. intros p. unfold head_of, offset, off. destruct wide; reflexivity. }
    set (l0 := map (fun j => (nth j bigs O, found s wide rs bins j (nth j bigs O))) (seq 0 (length bigs))).
    set (l := filter (fun be => validated (snd be)) l0).
    assert (Fst0 : map fst l0 = bigs).
    { unfold l0. rewrite map_map. cbn [fst]. apply map_nth_seq. }
    assert (Hl0 : forall be, In be l0 -> exists j, (j < length bigs)%nat /\ fst be = nth j bigs O
       /\ snd be = map (fun bin => map (head_of rs (fst (off (fst be))) (snd (off (fst be)))) (snd bin)) (filter (fun bin => Nat.eqb (fst bin) j) bins)).
    { intros be Hin. unfold l0 in Hin. apply in_map_iff in Hin. destruct Hin as (j & <- & Hj). apply in_seq in Hj. exists j. cbn [fst snd]. split; [lia|]. split; [reflexivity|]. apply Ef. }
    assert (Hl : forall be, In be l -> In be l0 /\ validated (snd be) = true) by (intros be Hin; apply filter_In in Hin; exact Hin).
    assert (NDl : NoDup (map fst l)).
    { unfold l. clear - Fst0 NDb. rewrite <- Fst0 in NDb. clear Fst0. induction l0 as [|be l0 IH]; [constructor|]. cbn [map] in NDb. inversion NDb as [|? ? N1 N2]. subst.
      cbn [filter]. destruct (validated (snd be)); [|apply IH; exact N2]. cbn [map]. constructor; [|apply IH; exact N2].
      intros Hin. apply N1. apply in_map_iff in Hin. destruct Hin as (q & <- & Hq). apply filter_In in Hq. apply in_map. apply Hq. }
    assert (Hlb : forall be, In be l -> In (fst be) bigs) by (intros be Hin; rewrite <- Fst0; apply in_map; apply (Hl be Hin)).
    assert (Hlen : forall be, In be l -> Z.of_nat (length (snd be)) = rt_copies (rtype s (fst be))).
    { intros be Hin. destruct (Hl be Hin) as [Hin0 V]. destruct (Hl0 be Hin0) as (j & Hj & E1 & E2). rewrite E2, map_length, Lf, E1.
      destruct (Lall j Hj) as [E|E]; [|exact E]. exfalso. rewrite <- Lf in E. rewrite E2 in V. destruct (filter (fun bin => Nat.eqb (fst bin) j) bins); [discriminate V|cbn in E; lia]. }
    assert (Hent : forall be e, In be l0 -> In e (snd be) -> exists bin, In bin bins /\ (fst bin < length bigs)%nat /\ nth (fst bin) bigs O = fst be
       /\ e = map (head_of rs (fst (off (fst be))) (snd (off (fst be)))) (snd bin)).
    { intros be e Hin He. destruct (Hl0 be Hin) as (j & Hj & E1 & E2). rewrite E2 in He. apply in_map_iff in He. destruct He as (bin & <- & Hbn). apply filter_In in Hbn.
      destruct Hbn as [Hbn Hq]. apply Nat.eqb_eq in Hq. exists bin. split; [exact Hbn|]. rewrite Hq. split; [exact Hj|]. split; [symmetry; exact E1|reflexivity]. }
    assert (Hheads : forall c, In c (concat (flat_map snd l0)) -> In (co_type c) rs).
    { intros c Hc. apply in_concat in Hc. destruct Hc as (e & He & Hc). apply in_flat_map in He. destruct He as (be & Hin & He).
      destruct (Hent be e Hin He) as (bin & Hbn & Hj & _ & ->). destruct (Hbin bin Hbn) as [_ G].
      destruct (answer_heads i s rs (rin_bins chk) OFeasibility (fun x Hx => conj (proj1 (Hrs x Hx)) (proj1 (proj2 (Hrs x Hx)))) _ _ (fst (off (fst be))) (snd (off (fst be))) G) as [A _].
      apply (A c Hc). }
    (* the number of occurrences of each companion *)
    assert (Hocc0 : forall x, occ x (concat (flat_map snd l)) = occ x (concat (flat_map snd l0))).
    { intros x. unfold l. clear. induction l0 as [|be l0 IH]; [reflexivity|]. cbn [filter flat_map]. rewrite concat_app, occ_app. destruct (validated (snd be)) eqn:V.
      - cbn [flat_map]. rewrite concat_app, occ_app, IH. reflexivity.
      - rewrite (validated_false _ V x), IH. reflexivity. }
    assert (Hincl : forall c, In c (concat (flat_map snd l)) -> In c (concat (flat_map snd l0))).
    { intros c Hc. apply in_concat in Hc. destruct Hc as (e & He & Hc). apply in_flat_map in He. destruct He as (be & Hin & He). apply in_concat. exists e. split; [|exact Hc].
      apply in_flat_map. exists be. split; [apply (Hl be Hin)|exact He]. }
    assert (Hocc : forall x, In x rs -> Z.of_nat (occ x (concat (flat_map snd l))) = rt_copies (rtype s x)).
    { intros x Hx. rewrite Hocc0. destruct (In_nth rs x O Hx) as (q & Hq & Eq).
      assert (Eci : ritem chk q = check_item i s x) by (unfold chk, check_group; rewrite ritem_chk by exact Hq; rewrite Eq; reflexivity).
      rewrite <- (f_equal ri_copies Eci : ri_copies (ritem chk q) = rt_copies (rtype s x)).
      rewrite <- (Full q) by (rewrite Li; exact Hq). unfold rpacked. etransitivity; [|exact (single_bins_sum (fun bin => rcount q (snd bin)) ds Cp)]. fold bins.
      rewrite occ_concat. rewrite zsum_flat_map.
      rewrite (zsum_ext _ _ (fun be => zsum (fun bin => if Nat.eqb (nth (fst bin) bigs O) (fst be) then rcount q (snd bin) else 0) bins)).
      - rewrite zsum_swap. apply zsum_ext. intros bin Hbn. destruct (Hbin bin Hbn) as [Hj _].
        transitivity (zsum (fun b => if Nat.eqb (nth (fst bin) bigs O) b then rcount q (snd bin) else 0) (map fst l0)); [rewrite zsum_map; reflexivity|].
        rewrite Fst0. clear - Hj NDb.
        assert (Hin : In (nth (fst bin) bigs O) bigs) by (apply nth_In; exact Hj). induction bigs as [|b bs IH]; [destruct Hin|].
        revert Hin. generalize (nth (fst bin) (b :: bs) O). intros v Hin. clear IH Hj. revert v Hin. induction NDb as [|b' bs' N1 N2 IH]; intros v Hin; [destruct Hin|].
        rewrite zsum_cons. destruct Hin as [->|Hin].
        + rewrite Nat.eqb_refl. rewrite (zsum_ext _ _ (fun _ => 0)); [rewrite zsum_const0; lia|]. intros w Hw. destruct (Nat.eqb_spec v w) as [->|E]; [contradiction|reflexivity].
        + rewrite (IH v Hin). destruct (Nat.eqb_spec v b') as [->|E]; [contradiction|lia].
      - intros be Hin. destruct (Hl0 be Hin) as (j & Hj & E1 & E2). rewrite E2, zsum_map, zsum_filter_if. apply zsum_ext. intros bin Hbn. destruct (Hbin bin Hbn) as [Hj' G].
        assert (Eqb : Nat.eqb (nth (fst bin) bigs O) (fst be) = Nat.eqb (fst bin) j).
        { rewrite E1. destruct (Nat.eqb_spec (fst bin) j) as [->|E]; [apply Nat.eqb_refl|]. apply Nat.eqb_neq. intros E'. apply E. apply (proj1 (NoDup_nth bigs O) NDb); assumption. }
        rewrite Eqb. destruct (Nat.eqb (fst bin) j); [|reflexivity].
        apply (occ_heads rs); [exact NDr| |exact Hq|exact Eq]. intros p Hp. rewrite <- Li. apply (ge_places _ _ _ G p Hp). }
    assert (Hocc' : forall x, ~ In x rs -> occ x (concat (flat_map snd l)) = O).
    { intros x Hx. apply occ_out. intros c Hc <-. apply Hx. apply Hheads, Hincl, Hc. }
    assert (Hprior : forall x k, In x rs -> (k < occ x (concat (flat_map snd l)))%nat -> (k < Z.to_nat (rt_copies (rtype s x)))%nat
       /\ nth_error (prior (rtype s x)) k = Some (entryt (rtype s x) k)).
    { intros x k Hx Hk. pose proof (Hocc x Hx). destruct (Hrs x Hx) as (X1 & X2 & _). assert (Hk' : (k < Z.to_nat (rt_copies (rtype s x)))%nat) by lia.
      split; [exact Hk'|]. apply prior_entry; [apply (I2 x X1 X2)|exact Hk']. }
    destruct (apply_group_ok i W H wide (fun x k => nth_error (prior (rtype s x)) k) l (fun _ => O) (re_types s)) as (l' & A1 & A2 & A3).
    + exact NDl.
    + intros be Hin. rewrite I1. apply (Hb _ (Hlb be Hin)).
    + intros be Hin. destruct (Hb _ (Hlb be Hin)) as (_ & X1 & X2 & _). destruct (ty_len _ _ _ (I2 _ X1 X2)) as [E|E]; [left; exact E|right]. fold (rtype s (fst be)). rewrite E.
      rewrite <- (Hlen be Hin). lia.
    + intros c Hc. apply (Hrs _ (Hheads c (Hincl c Hc))).
    + intros c k Hc Hk. destruct (Hprior _ k (Hheads c (Hincl c Hc))) as [_ E]; [lia|]. rewrite E. discriminate.
    + rewrite A1. eexists. eexists. split; [reflexivity|]. exists l', rs.
      pose proof (Forall2_fst _ _ _ _ _ A2) as Efst.
      set (types := fold_left (fun ts be => upd (fst be) (fun t => enl W H wide t (snd be)) ts) l' (re_types s)).
      assert (Ltypes : length types = n) by (unfold types; rewrite fold_enl_length; exact I1).
      set (used := flat_map (fun be => flat_map (map co_type) (snd be)) l).
      assert (Hused : forall x, In x used <-> In x rs).
      { intros x. split; intros Hx.
        - unfold used in Hx. apply in_flat_map in Hx. destruct Hx as (be & Hin & Hx). apply in_flat_map in Hx. destruct Hx as (e & He & Hx).
          apply in_map_iff in Hx. destruct Hx as (c & <- & Hc). apply Hheads, Hincl. apply in_concat. exists e. split; [|exact Hc]. apply in_flat_map. exists be. split; assumption.
        - destruct (Hrs x Hx) as (X1 & X2 & _). pose proof (ty_copies _ _ _ (I2 x X1 X2)). pose proof (Hocc x Hx). destruct (occ_in x (concat (flat_map snd l))) as (c & Hc & Ec); [lia|].
          apply in_concat in Hc. destruct Hc as (e & He & Hc). apply in_flat_map in He. destruct He as (be & Hin & He). unfold used. apply in_flat_map. exists be. split; [exact Hin|].
          apply in_flat_map. exists e. split; [exact He|]. rewrite <- Ec. apply in_map. exact Hc. }
      assert (Ert : forall x, (x < n)%nat -> rtype (with_types (called s) (map (fun x => if existsb (Nat.eqb x) used then take (nth x types dummy_rt) else nth x types dummy_rt) (seq 0 (length types)))) x
         = if existsb (Nat.eqb x) used then take (nth x types dummy_rt) else nth x types dummy_rt).
      { intros x Hx. unfold rtype. cbn [with_types re_types]. rewrite Ltypes. apply (nth_map_seq _ (fun x => if existsb (Nat.eqb x) used then take (nth x types dummy_rt) else nth x types dummy_rt)). exact Hx. }
      assert (Hnr : forall x, In x rs -> ~ In x (map fst l')).
      { intros x Hx Hc. rewrite Efst in Hc. apply in_map_iff in Hc. destruct Hc as (be & <- & Hin). apply (proj2 (proj2 (Hrs _ Hx))). apply (Hb _ (Hlb be Hin)). }
      split; [|split; [|split]].
      * split.
        -- cbn [with_types re_types]. rewrite map_length, seq_length, Ltypes, I1. reflexivity.
        -- repeat split.
        -- rewrite Efst. exact NDl.
        -- intros x Hx. destruct (Hrs x Hx) as (X1 & X2 & _). split; [exact X1|]. split; [exact X2|]. rewrite (Ert x X1).
           assert (existsb (Nat.eqb x) used = true) as -> by (apply existsb_in, Hused, Hx). reflexivity.
        -- exact Hnr.
        -- intros b es Hin. destruct (Forall2_in_r _ _ _ _ _ _ A2 Hin) as ([b' es0] & Hin0 & Eb' & Fes). cbn [fst snd] in Eb', Fes. subst b'.
           destruct (Hb _ (Hlb _ Hin0)) as (X0 & X1 & X2 & X3 & X4). cbn [fst] in *.
           split; [exact X1|]. split; [exact X2|]. split; [exact X3|]. split; [|split; [|split; [exact X4|]]].
           ++ rewrite (Ert b X1). assert (existsb (Nat.eqb b) used = false) as ->.
              { apply existsb_notin. intros Hu. apply Hused in Hu. apply (Hnr b Hu). apply (in_map fst _ _ Hin). }
              unfold types. rewrite (fold_enl_in W H wide l' _ b es); [reflexivity|rewrite Efst; exact NDl|exact Hin|lia].
           ++ pose proof (Forall2_len _ _ _ _ _ Fes) as L. pose proof (Hlen _ Hin0) as L0. cbn [fst snd] in L0. lia.
           ++ intros e He. destruct (Forall2_in_r _ _ _ _ _ _ Fes He) as (e0 & He0 & Fe).
              destruct (Hent _ e0 (proj1 (Hl _ Hin0)) He0) as (bin & Hbn & Hj & Ebn & Ee). cbn [fst] in Ebn, Ee. destruct (Hbin bin Hbn) as [_ G].
              destruct (answer_heads i s rs (rin_bins chk) OFeasibility (fun x Hx => conj (proj1 (Hrs x Hx)) (proj1 (proj2 (Hrs x Hx)))) _ _ (fst (off b)) (snd (off b)) G) as [HA HP].
              rewrite <- Ee in HA, HP. apply (fill_boxed i W H s _ e0 e I).
              ** eapply given_takes; [|exact Fe]. intros c Hc k Hk. apply Hprior; [apply (HA c Hc)|]. cbn in Hk. exact Hk.
              ** intros c Hc. destruct (HA c Hc) as (_ & Q1 & Q2). split; [exact Q1|]. rewrite (Eb _ Hj), Ebn in Q2. unfold bd, companion_bin, off in Q2. revert Q2. unfold within.
                 destruct wide; cbn; lia.
              ** exact HP.
        -- intros x Hx Hn1 Hn2. rewrite (Ert x Hx). assert (existsb (Nat.eqb x) used = false) as -> by (apply existsb_notin; intros Hu; apply Hn1, Hused, Hu).
           unfold types. rewrite fold_enl_other by exact Hn2. reflexivity.
        -- intros z. rewrite A3. apply zsum_ext. intros x Hx. destruct (existsb (Nat.eqb x) rs) eqn:Er.
           ++ apply existsb_in in Er. unfold tcontent. rewrite <- (Hocc x Er), Nat2Z.id. apply zsum_ext. intros k Hk. apply in_seq in Hk. unfold entd.
              destruct (Hprior x k Er) as [_ E]; [lia|]. rewrite E. reflexivity.
           ++ apply existsb_notin in Er. rewrite (Hocc' x Er). reflexivity.
      * split; [intros Hok E; rewrite E in Efst; destruct l; [discriminate Hok|discriminate Efst]|]. intros Hne. destruct l; [|reflexivity]. exfalso. apply Hne. destruct l'; [reflexivity|discriminate Efst].
      * rewrite Efst. intros b Hin. apply in_map_iff in Hin. destruct Hin as (be & <- & Hin). apply (Hb _ (Hlb be Hin)).
      * rewrite Efst. intros b x Hin. apply in_map_iff in Hin. destruct Hin as (be & <- & Hin). apply Hclosed. apply Hlb. exact Hin.
Qed.
End Group.
