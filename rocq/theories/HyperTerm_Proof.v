(** * The search of the guillotine knapsack algorithm ends *)

From Coq Require Import List ZArith QArith Bool Lia Lqa.
From Verif Require Import Util Common_Model Common_Proof Guil_Model Guil_Spec Guil_Proof GuilPlan_Proof Hyper_Model Hyper_Spec
  HyperDp_Proof HyperPat_Proof HyperBuild_Proof HyperRec_Proof HyperSearch_Proof HyperOpt_Proof.
Import ListNotations.
Open Scope Z_scope.

Section Term.
Variable i : GInstance.
Hypothesis HI : hyper_instance i.
Hypothesis HU : hyper_supported i.
Variable nb : nat.
Variable rdp : list (option Q).
Variable init : Q.
Variable timer : nat -> bool.

(** All the lists of copies. *)
Fixpoint all_copies (s n : nat) : list (list (nat * Z)) :=
  match n with
  | O => [[]]
  | S n => flat_map (fun rest => rest :: map (fun c => (s, c) :: rest) (hrange 1 (gi_copies (gitem i s)))) (all_copies (S s) n)
  end.

Lemma all_copies_in : forall n s xs, copies_ok i s n xs -> In (canon s n xs) (all_copies s n).
Proof.
  induction n as [|n IH]; intros s xs HC; cbn [canon all_copies]; [left; reflexivity|].
  apply in_flat_map. exists (canon (S s) n xs). split; [apply IH; intros j Hj; apply HC; lia|].
  destruct (Z.ltb_spec 0 (copies_of s xs)) as [L|L]; cbn [app]; [|left; reflexivity].
  right. apply in_map_iff. exists (copies_of s xs). split; [reflexivity|]. apply hrange_in. specialize (HC s ltac:(lia) L). lia.
Qed.

Definition all_keys : list HKey :=
  flat_map (fun w => flat_map (fun h => flat_map (fun c => [(w, h, c, true); (w, h, c, false)]) (all_copies 0 (nitems i)))
    (hrange 1 (heff_h i))) (hrange 1 (heff_w i)).

Lemma blk_key : forall ret n b, blk i rdp ret n b -> In (hkey b) all_keys.
Proof.
  intros ret n b (P & P1 & P2 & P3 & P4 & P5 & P6 & P7 & P8 & P9 & _). destruct (rep_dims i _ _ _ P2) as [Ew Eh].
  pose proof (ppos i _ (hi_ct _ HI) (hi_items _ HI) P P1) as [Q1 Q2]. unfold hkey, all_keys.
  apply in_flat_map. exists (hb_w b). split; [apply hrange_in; lia|].
  apply in_flat_map. exists (hb_h b). split; [apply hrange_in; lia|].
  apply in_flat_map. exists (hb_copies b). split.
  - rewrite P5. apply all_copies_in. apply (proj1 (within_ok i _ (fun x Hx => pitems_lt i P P1 x Hx))). exact P4.
  - destruct (hb_vertical b); [left; reflexivity|right; left; reflexivity].
Qed.

Definition KInv (st : HState) : Prop := NoDup (hs_seen st) /\ incl (hs_seen st) all_keys.

Lemma loop_more : forall fuel k st st', hbucket_loop i nb rdp init timer fuel k st = Some st' ->
  forall fuel2, (fuel <= fuel2)%nat -> hbucket_loop i nb rdp init timer fuel2 k st = Some st'.
Proof.
  induction fuel as [|fuel IH]; intros k st st' E fuel2 Hf.
  - cbn [hbucket_loop] in E. destruct fuel2; cbn [hbucket_loop]; destruct (nth k (hs_buckets st) []); try discriminate; exact E.
  - destruct fuel2 as [|fuel2]; [lia|]. cbn [hbucket_loop] in *. destruct (nth k (hs_buckets st) []) as [|b rest]; [exact E|].
    cbn [hs_asked hs_buckets hs_seen hs_returned hs_best hs_out] in *.
    destruct (timer (hs_asked st)); [exact E|]. destruct (Qle_bool (hthreshold init k) (hs_best st)); [exact E|].
    destruct (hle_ext (hb_priority b) (hs_best st)); [apply IH; [exact E|lia]|].
    destruct (existsb (hkey_eqb (hkey b)) (hs_seen st)); apply IH; try exact E; lia.
Qed.

Lemma loop_ends : forall m n k st, (length all_keys - length (hs_seen st) <= m)%nat -> (length (nth k (hs_buckets st) []) <= n)%nat ->
  SInv i rdp st -> KInv st -> exists fuel st', hbucket_loop i nb rdp init timer fuel k st = Some st' /\ SInv i rdp st' /\ KInv st'.
Proof.
  induction m as [m IHm] using lt_wf_ind. induction n as [|n IHn]; intros k st Hm Hn HS HK.
  - exists 0%nat, st. cbn [hbucket_loop]. destruct (nth k (hs_buckets st) []); [auto|cbn [length] in Hn; lia].
  - destruct (nth k (hs_buckets st) []) as [|b rest] eqn:EB.
    { exists 0%nat, st. cbn [hbucket_loop]. rewrite EB. auto. }
    set (st1 := mkHS (upd k (fun _ => rest) (hs_buckets st)) (hs_seen st) (hs_returned st) (hs_best st) (hs_out st) (S (hs_asked st))).
    pose proof (inv_pop i rdp st k b rest (S (hs_asked st)) HS EB) as HP. fold st1 in HP.
    assert (Lk : (k < length (hs_buckets st))%nat).
    { destruct (le_lt_dec (length (hs_buckets st)) k) as [G|G]; [|exact G]. rewrite nth_overflow in EB by exact G. discriminate. }
    destruct (timer (hs_asked st)) eqn:TM.
    { eexists 1%nat, _. cbn [hbucket_loop]. rewrite EB. cbn [hs_asked]. rewrite TM. split; [reflexivity|].
      split; [apply inv_asked; exact HS|exact HK]. }
    destruct (Qle_bool (hthreshold init k) (hs_best st)) eqn:TH.
    { eexists 1%nat, _. cbn [hbucket_loop]. rewrite EB. cbn [hs_asked hs_best]. rewrite TM, TH. split; [reflexivity|].
      split; [apply inv_asked; exact HS|exact HK]. }
    assert (SKIP : exists fuel st', hbucket_loop i nb rdp init timer fuel k st1 = Some st' /\ SInv i rdp st' /\ KInv st').
    { apply IHn; [exact Hm| |exact HP|exact HK]. unfold st1. cbn [hs_buckets]. rewrite nth_upd_const, Nat.eqb_refl.
      apply Nat.ltb_lt in Lk. rewrite Lk. cbn [andb length] in *. lia. }
    destruct (hle_ext (hb_priority b) (hs_best st)) eqn:LE.
    { destruct SKIP as (fuel & st' & E & R). exists (S fuel), st'. cbn [hbucket_loop]. rewrite EB.
      cbn [hs_asked hs_buckets hs_seen hs_returned hs_best hs_out]. rewrite TM, TH, LE. fold st1. split; [exact E|exact R]. }
    destruct (existsb (hkey_eqb (hkey b)) (hs_seen st)) eqn:SE.
    { destruct SKIP as (fuel & st' & E & R). exists (S fuel), st'. cbn [hbucket_loop]. rewrite EB.
      cbn [hs_asked hs_buckets hs_seen hs_returned hs_best hs_out]. rewrite TM, TH, LE, SE. fold st1. split; [exact E|exact R]. }
    destruct (si_buckets _ _ _ HS k b) as [BK BL]; [rewrite EB; left; reflexivity|].
    pose proof (inv_return i rdp st1 b (hkey b) HP BK BL) as HR. cbn [st1 hs_asked hs_buckets hs_seen hs_returned hs_best hs_out] in HR.
    set (st2 := mkHS (upd k (fun _ => rest) (hs_buckets st)) (hkey b :: hs_seen st) (hs_returned st ++ [b]) (hs_best st) (hs_out st)
      (S (hs_asked st))) in *.
    destruct (fold_combine_inv i HI HU nb rdp init (length (hs_returned st)) b (seq 0 (S (length (hs_returned st)))) st2 HR)
      as (A & B & C & _); cbn [st2 hs_returned].
    { rewrite app_nth2, Nat.sub_diag by lia. reflexivity. }
    { rewrite app_length. cbn [length]. lia. }
    { intros x Hx. apply in_seq in Hx. rewrite app_length. cbn [length]. lia. }
    match type of A with SInv _ _ ?s => set (st3 := s) in * end.
    assert (K3 : KInv st3).
    { destruct HK as [K1 K2]. unfold KInv. rewrite C. cbn [st2 hs_seen]. split.
      - constructor; [|exact K1]. intros I. apply seen_in in I. congruence.
      - intros x [<-|Hx]; [eapply blk_key; exact BK|apply K2; exact Hx]. }
    assert (LT : (length all_keys - length (hs_seen st3) < m)%nat).
    { pose proof (NoDup_incl_length (proj1 K3) (proj2 K3)) as L3. rewrite C in L3 |- *. cbn [st2 hs_seen length] in L3 |- *. lia. }
    destruct (IHm _ LT (length (nth k (hs_buckets st3) [])) k st3 (le_n _) (le_n _) A K3) as (fuel & st' & E & R).
    exists (S fuel), st'. cbn [hbucket_loop]. rewrite EB. cbn [hs_asked hs_buckets hs_seen hs_returned hs_best hs_out].
    rewrite TM, TH, LE, SE. fold st2. split; [exact E|exact R].
Qed.

Lemma loops_end : forall ks st, SInv i rdp st -> KInv st ->
  exists fuel st', forall fuel2, (fuel <= fuel2)%nat -> hbuckets_loop i nb rdp init timer fuel2 ks st = Some st'.
Proof.
  induction ks as [|k ks IH]; intros st HS HK.
  { exists 0%nat, st. intros fuel2 _. reflexivity. }
  destruct (timer (hs_asked st)) eqn:TM.
  { exists 0%nat. eexists. intros fuel2 _. cbn [hbuckets_loop hs_asked]. rewrite TM. reflexivity. }
  destruct (Qle_bool (hthreshold init k) (hs_best st)) eqn:TH.
  { exists 0%nat. eexists. intros fuel2 _. cbn [hbuckets_loop hs_asked hs_best]. rewrite TM, TH. reflexivity. }
  set (st1 := mkHS (hs_buckets st) (hs_seen st) (hs_returned st) (hs_best st) (hs_out st) (S (hs_asked st))).
  destruct (loop_ends _ _ k st1 (le_n _) (le_n _) (inv_asked i rdp st (S (hs_asked st)) HS) HK) as (f1 & st2 & E & S2 & K2).
  destruct (IH st2 S2 K2) as (f2 & st3 & E3). exists (Nat.max f1 f2), st3. intros fuel2 Hf. cbn [hbuckets_loop hs_asked hs_best].
  rewrite TM, TH. cbn [hs_buckets hs_seen hs_returned hs_out]. fold st1. rewrite (loop_more _ _ _ _ E fuel2 ltac:(lia)). apply E3. lia.
Qed.

Lemma seeds_seen : forall st, hs_seen (hseeds i nb rdp init st) = hs_seen st.
Proof.
  intros st. unfold hseeds.
  assert (R : forall b st, hs_seen (hrecord i b st) = hs_seen st) by (intros b s; unfold hrecord; destruct (Qltb _ _); reflexivity).
  assert (S1 : forall j r st, hs_seen (hseed i nb rdp init j r st) = hs_seen st).
  { intros j r s. unfold hseed. cbv zeta. repeat (match goal with |- context [if ?c then _ else _] => destruct c end; try reflexivity);
    cbn [hpush hs_seen]; rewrite ?R; reflexivity. }
  generalize (seq 0 (length (gin_items i))). intros l. revert st. induction l as [|j l IH]; intros st; [reflexivity|].
  cbn [fold_left]. rewrite IH, !S1. reflexivity.
Qed.

Lemma run_ends : exists fuel st, forall fuel2, (fuel <= fuel2)%nat -> hrun i nb rdp init timer fuel2 = Some st.
Proof.
  unfold hrun. apply loops_end.
  - apply (seeds_inv i HI HU nb rdp init). apply (start_inv i nb rdp).
  - unfold KInv. rewrite seeds_seen. cbn [hstart hs_seen]. split; [constructor|intros x []].
Qed.
End Term.
