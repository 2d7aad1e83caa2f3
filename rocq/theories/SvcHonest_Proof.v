(** * Proofs about sequential value correction: solvers that respect the sub-problems *)

From Coq Require Import List ZArith QArith Bool Lia Lqa Permutation.
From Verif Require Import Util Common_Model OneDim_Model ColGen_Model ColGen_Spec ColGenCap_Proof ColGenPrice_Proof Svc_Model Svc_Spec Svc_Proof SvcLoop_Proof.
Import ListNotations.
Open Scope Z_scope.

Section Honest.
Variables (i : SInst) (o : Oracle).
Hypothesis Hi : sinst_ok i.
Hypothesis Ho : honest i o.
Hypothesis Hmin : forall t, (t < cnb (si_base i))%nat -> cb_copies_min (cbin (si_base i) t) <= Z.min 1 (cb_copies (cbin (si_base i) t)).

Lemma one_bin : forall c k b rest, sa_bins (or_solve o c k) = b :: rest -> rest = [] /\ fst b = 1.
Proof.
  intros c k b rest E. pose proof (ho_one i o Ho c k) as H. rewrite E in H. unfold ksol_bins in H. rewrite zsum_cons in H.
  assert (P : forall b', In b' (b :: rest) -> 1 <= fst b') by (intros b' Hb; apply (ho_positive i o Ho c k b'); rewrite E; exact Hb).
  destruct rest as [|b2 rest].
  - split; [reflexivity|]. specialize (P b (or_introl eq_refl)). rewrite zsum_nil in H. lia.
  - exfalso. rewrite zsum_cons in H. assert (0 <= zsum fst rest) by (apply zsum_nonneg; intros b' Hb; specialize (P b' (or_intror (or_intror Hb))); lia).
    pose proof (P b (or_introl eq_refl)). pose proof (P b2 (or_intror (or_introl eq_refl))). lia.
Qed.

Definition FitCur (s : CBins) (pf : nat -> Z) (c : SCur) (t : nat) : Prop :=
  forall items, fst (scur c t) = Some items -> forall x, (x < cni (si_base i))%nat -> occ items x <= sfree i s pf x + sfixed i t x.

Lemma sk_nth : forall k p, (p < length (sk_items k))%nat -> In (nth p (sk_ids k) O, snd (nth p (sk_items k) (O, 0))) (sk_items k).
Proof.
  intros k p H. unfold sk_ids. replace (nth p (map fst (sk_items k)) O) with (fst (nth p (sk_items k) (O, 0))) by (symmetry; exact (map_nth fst (sk_items k) (O, 0) p)).
  rewrite <- surjective_pairing. apply nth_In. exact H.
Qed.

Lemma fit_decode : forall s pf t k positions (B : nat -> Z), Inv i o s pf -> sk_ids k = sk_ids (skp i s pf t) ->
  (forall p, In p positions -> (p < length (sk_ids k))%nat) ->
  (forall p, (p < length (sk_ids k))%nat -> occ positions p <= sfree i s pf (nth p (sk_ids k) O) + sfixed i t (nth p (sk_ids k) O)) ->
  forall x, (x < cni (si_base i))%nat -> occ (map (fun p => nth p (sk_ids k) O) positions) x <= sfree i s pf x + sfixed i t x.
Proof.
  intros s pf t k positions B I Ek Hp Hc x Hx. destruct (in_dec Nat.eq_dec x (sk_ids k)) as [Hin|Hout].
  - destruct (In_nth _ _ O Hin) as (p & Hpl & <-). rewrite occ_types; [apply Hc; exact Hpl|rewrite Ek; apply skp_nodup|exact Hp|exact Hpl].
  - rewrite occ_out. { pose proof (iv_free i o s pf I x Hx). pose proof (occ_nonneg (cb_fixed (cbin (si_base i) t)) x) as F. fold (sfixed i t x) in F. lia. }
    intro K. apply Hout. apply in_map_iff in K. destruct K as (p & <- & Hin). apply nth_In. apply Hp. exact Hin.
Qed.

Lemma stry_honest : forall s pf st t, Inv i o s pf -> STInv i o st -> In t (stypes i s) ->
  (exists st', stry i o s pf st t = XOk st' /\ FitCur s pf (st_cur st') t /\ (forall u, u <> t -> scur (st_cur st') u = scur (st_cur st) u))
  \/ exists r, stry i o s pf st t = XTime r.
Proof.
  intros s pf st t I [C R] Hts. destruct (stypes_range i o Hi s pf t I Hts) as [Ht _].
  assert (Hleft : used_bins s t < cb_copies (cbin (si_base i) t)) by (apply (stypes_left i o Hi s pf t); [intros u Hu; specialize (Hmin u Hu); lia|exact I|exact Hts]).
  unfold stry. destruct (is_vbpp i && sstill_valid i s pf (st_cur st) t) eqn:Ev.
  { left. exists st. split; [reflexivity|]. split; [|reflexivity]. apply andb_prop in Ev. destruct Ev as [_ Ev]. intros items Ei x Hx. unfold sstill_valid in Ev. rewrite Ei in Ev.
    destruct items as [|y items]; [discriminate|]. rewrite forallb_forall in Ev. apply Z.leb_le. apply (Ev x). apply in_seq. lia. }
  destruct (Z.ltb_spec 1 (cb_copies_min (cbin (si_base i) t))) as [K|_]; [specialize (Hmin t Ht); lia|]. cbv zeta.
  set (k := skp i s pf t). destruct (or_end o (S (st_call st))); [right; eexists; reflexivity|].
  assert (Hlen := cu_length i o _ C).
  destruct (sa_bins (or_solve o (st_call st) k)) as [|[c0 ps] rest0] eqn:Ea.
  { left. eexists. split; [reflexivity|]. cbn [st_cur]. split.
    - intros items E. rewrite (scur_upd i) in E by exact Hlen. rewrite Nat.eqb_refl in E. apply Nat.ltb_lt in Ht. rewrite Ht in E. discriminate.
    - intros u Hu. rewrite (scur_upd i) by exact Hlen. rewrite (proj2 (Nat.eqb_neq _ _) Hu). reflexivity. }
  destruct (one_bin _ _ _ _ Ea) as [-> Ec0]. cbn in Ec0. subst c0.
  set (n := scopies i s pf t _).
  assert (Hoc : forall p, (p < length (sk_ids k))%nat -> occ ps p <= sfree i s pf (nth p (sk_ids k) O) + sfixed i t (nth p (sk_ids k) O)).
  { intros p Hp. pose proof (skp_length i s pf t) as Lk. fold k in Lk.
    pose proof (ho_copies i o Ho (st_call st) k (1, ps) p) as Hk. rewrite Ea in Hk. specialize (Hk (or_introl eq_refl) ltac:(lia)). cbn [snd] in Hk.
    pose proof (sk_nth k p ltac:(lia)) as Hin. unfold k at 3 in Hin. apply skp_in in Hin. destruct Hin as (_ & Hpos & E). rewrite E in Hk, Hpos. lia. }
  assert (Hn : 1 <= n).
  { unfold n. rewrite scopies_fold. apply sc_one; [lia|]. intros x p Hin _. apply in_map_iff in Hin. destruct Hin as (q & Eq & Hq). apply in_seq in Hq. 
    assert (Ek : ksol_copies [(1, ps)] q = occ ps q) by (unfold ksol_copies; rewrite zsum_cons, zsum_nil; cbn [fst snd]; lia). rewrite Ek in Eq.
    injection Eq as <- <-. specialize (Hoc q ltac:(lia)). lia. }
  destruct (Z.ltb_spec n 1) as [K|_]; [lia|].
  set (chosen := if is_bppl i && _ then _ else _).
  assert (Hc : (exists r, chosen = XTime r) \/ exists c ps', chosen = XOk c /\ sa_bins c = [(1, ps')] /\ (forall p, In p ps' -> (p < length (sk_ids k))%nat)
     /\ forall p, (p < length (sk_ids k))%nat -> occ ps' p <= sfree i s pf (nth p (sk_ids k) O) + sfixed i t (nth p (sk_ids k) O)).
  { assert (Ka : exists c ps', XOk (or_solve o (st_call st) k) = XOk c /\ sa_bins c = [(1, ps')] /\ (forall p, In p ps' -> (p < length (sk_ids k))%nat)
     /\ forall p, (p < length (sk_ids k))%nat -> occ ps' p <= sfree i s pf (nth p (sk_ids k) O) + sfixed i t (nth p (sk_ids k) O)).
    { exists (or_solve o (st_call st) k), ps. split; [reflexivity|]. split; [exact Ea|]. split; [|exact Hoc].
      intros p Hp. pose proof (skp_length i s pf t) as Lk. fold k in Lk. rewrite <- Lk. apply (ho_ids i o Ho (st_call st) k (1, ps)); [rewrite Ea; left; reflexivity|exact Hp]. }
    unfold chosen. destruct (is_bppl i && _); [|right; exact Ka].
    destruct (or_end o (3 + st_call st)); [left; eexists; reflexivity|]. right.
    set (k2 := sbppl i s pf k n). set (call2 := (2 + st_call st)%nat).
    destruct (or_less o (4 + st_call st) (or_solve o call2 k2) _) eqn:El; [exact Ka|].
    destruct (sa_bins (or_solve o call2 k2)) as [|[c2 ps2] rest2] eqn:E2.
    { rewrite (ho_less i o Ho) in El; [discriminate|exact E2|discriminate]. }
    destruct (one_bin _ _ _ _ E2) as [-> Ec2]. cbn in Ec2. subst c2. exists (or_solve o call2 k2), ps2. split; [reflexivity|]. split; [exact E2|].
    assert (Lk2 : length (sk_items k2) = length (sk_ids k)) by (unfold k2, sbppl; cbn [sk_items]; rewrite map_length; reflexivity).
    split.
    - intros p Hp. rewrite <- Lk2. apply (ho_ids i o Ho call2 k2 (1, ps2)); [rewrite E2; left; reflexivity|exact Hp].
    - intros p Hp. pose proof (ho_copies i o Ho call2 k2 (1, ps2) p) as Hk. rewrite E2 in Hk. specialize (Hk (or_introl eq_refl) ltac:(lia)). cbn [snd] in Hk.
      assert (En : snd (nth p (sk_items k2) (O, 0)) = Z.quot (sfree i s pf (nth p (sk_ids k) O)) n + sfixed i t (nth p (sk_ids k) O)).
      { unfold k2, sbppl. cbn [sk_items]. set (F := fun x => (x, Z.quot (sfree i s pf x) n + sfixed i (sk_bin k) x)). rewrite (nth_indep _ (O, 0) (F O)) by (rewrite map_length; exact Hp).
        rewrite (map_nth F). reflexivity. }
      rewrite En in Hk. assert (Hx : (nth p (sk_ids k) O < cni (si_base i))%nat) by (apply (skp_range i s pf t); apply nth_In; exact Hp).
      pose proof (iv_free i o s pf I _ Hx) as Hf. assert (Z.quot (sfree i s pf (nth p (sk_ids k) O)) n <= sfree i s pf (nth p (sk_ids k) O)); [|pose proof (occ_nonneg (cb_fixed (cbin (si_base i) t)) (nth p (sk_ids k) O)) as Hfx; fold (sfixed i t (nth p (sk_ids k) O)) in Hfx; lia].
      apply Z.quot_le_upper_bound; nia. }
  destruct Hc as [[r ->]|(c & ps' & -> & Eb & Hp & Hq)]; [right; eexists; reflexivity|]. rewrite Eb.
  assert (Hfa : forallb (fun p => (p <? length (sk_ids k))%nat) ps' = true) by (apply forallb_forall; intros p Hin; apply Nat.ltb_lt; apply Hp; exact Hin).
  rewrite Hfa. left. eexists. split; [reflexivity|]. cbn [st_cur]. split.
  - intros items E. rewrite (scur_upd i) in E by exact Hlen. rewrite Nat.eqb_refl in E. apply Nat.ltb_lt in Ht. rewrite Ht in E. cbn [fst] in E. injection E as <-.
    apply (fit_decode s pf t k ps' (fun _ => 0)); [exact I|reflexivity|exact Hp|exact Hq].
  - intros u Hu. rewrite (scur_upd i) by exact Hlen. rewrite (proj2 (Nat.eqb_neq _ _) Hu). reflexivity.
Qed.

Lemma stry_all_honest : forall s pf ts st, Inv i o s pf -> STInv i o st -> incl ts (stypes i s) ->
  (exists st', stry_all i o s pf ts st = XOk st' /\ (forall t, In t ts \/ FitCur s pf (st_cur st) t -> FitCur s pf (st_cur st') t))
  \/ exists r, stry_all i o s pf ts st = XTime r.
Proof.
  intros s pf. induction ts as [|t ts IH]; intros st I K Hin.
  - left. exists st. split; [reflexivity|]. intros t [[]|H]. exact H.
  - cbn [stry_all]. pose proof (Hin t (or_introl eq_refl)) as Hts.
    pose proof (stry_inv i o Hi (ho_positive i o Ho) s pf st t I K (proj1 (stypes_range i o Hi s pf t I Hts))) as K'.
    destruct (stry_honest s pf st t I K Hts) as [(st1 & E & F & Un)|(r & E)]; rewrite E in *; [|right; eexists; reflexivity].
    destruct (IH st1 I K' (fun u Hu => Hin u (or_intror Hu))) as [(st' & E' & F')|(r & E')]; [|right; eexists; exact E'].
    left. exists st'. split; [exact E'|]. intros u Hu. apply F'. destruct (Nat.eq_dec u t) as [->|Hn]; [right; exact F|].
    destruct Hu as [[Hu|Hu]|Hu]; [congruence|left; exact Hu|right]. intros items Ei. rewrite Un in Ei by exact Hn. apply Hu. exact Ei.
Qed.

Lemma sloop_honest : forall fuel s pf st, Inv i o s pf -> STInv i o st -> sloop fuel i o s pf st <> Some XThrow.
Proof.
  induction fuel as [|f IH]; intros s pf st I K; [discriminate|]. cbn [sloop].
  destruct (or_end o (st_call st)); [discriminate|].
  destruct (ssol_items s =? cnumber_of_items (si_base i)); [discriminate|].
  destruct (Z.eqb_spec (total_bins s) (cnumber_of_bins (si_base i))) as [Et|Et]; [discriminate|].
  cbv zeta. set (st0 := mkST (S (st_call st)) (st_cur st) (st_reports st)).
  pose proof (stry_all_inv i o Hi (ho_positive i o Ho) s pf (stypes i s) st0 I K ltac:(intros t Ht; apply (stypes_range i o Hi s pf t I Ht))) as H.
  destruct (stry_all_honest s pf (stypes i s) st0 I K (incl_refl _)) as [(st1 & E & F)|(r & E)]; rewrite E in *; [|discriminate].
  destruct (sbest i (st_cur st1) (stypes i s)) as [t|] eqn:Eb.
  - destruct (sbest_in i _ _ _ Eb) as [Hin Hr]. destruct (stypes_range i o Hi s pf t I Hin) as [Ht Hpos].
    destruct (fst (scur (st_cur st1) t)) as [items|] eqn:Ef.
    2: { exfalso. assert (Ecur : scur (st_cur st1) t = (None, snd (scur (st_cur st1) t))) by (rewrite <- Ef; destruct (scur (st_cur st1) t); reflexivity).
         pose proof (cu_none i o _ (proj1 H) _ _ Ecur) as Z0. unfold ratio in Hr. destruct (Qeq_bool (cb_cost (cbin (si_base i) t)) 0) eqn:Ec.
         - unfold Qltb in Hr. destruct (Qle_bool (snd (scur (st_cur st1) t)) 0) eqn:E1; [|apply not_true_iff_false in E1; apply E1; apply Qle_bool_iff; lra].
           cbn [negb] in Hr. destruct (Qle_bool 0 (snd (scur (st_cur st1) t))) eqn:E2; [|apply not_true_iff_false in E2; apply E2; apply Qle_bool_iff; lra]. discriminate.
         - cbn in Hr. unfold Qltb in Hr. apply negb_true_iff, not_true_iff_false in Hr. apply Hr. apply Qle_bool_iff. rewrite Z0. unfold Qdiv. rewrite Qmult_0_l. apply Qle_refl. }
    assert (Ecur : scur (st_cur st1) t = (Some items, snd (scur (st_cur st1) t))) by (rewrite <- Ef; destruct (scur (st_cur st1) t); reflexivity).
    destruct (cu_some i o _ (proj1 H) _ _ _ Ecur) as [Hx Hret].
    assert (Hleft : used_bins s t < cb_copies (cbin (si_base i) t)) by (apply (stypes_left i o Hi s pf t); [intros u Hu; specialize (Hmin u Hu); lia|exact I|exact Hin]).
    assert (Hn : 1 <= scopies i s pf t (map (fun x => (x, occ items x)) (seq 0 (cni (si_base i))))).
    { rewrite scopies_fold. apply sc_one; [lia|]. intros x p Hxp _. apply in_map_iff in Hxp. destruct Hxp as (y & Ey & Hy). injection Ey as <- <-. apply in_seq in Hy.
      pose proof (F t (or_introl Hin) items Ef y ltac:(lia)). lia. }
    destruct (Z.ltb_spec (scopies i s pf t (map (fun x => (x, occ items x)) (seq 0 (cni (si_base i))))) 1) as [Hn'|_]; [lia|].
    destruct (scopies_spec i s pf t _ Hn) as [Sn Sx].
    apply IH; [|exact H]. apply inv_extend; try assumption; [split; assumption|].
    intros x Xx. apply Sx; [|apply (iv_free i o s pf I); exact Xx]. apply in_map_iff. exists x. split; [reflexivity|]. apply in_seq. lia.
  - destruct (is_vbpp i) eqn:V; [discriminate|].
    destruct (stypes i s) as [|t ts'] eqn:Ets.
    + exfalso. rewrite stypes_nonvbpp in Ets by exact V. destruct (nth_error (spositions i) (Z.to_nat (total_bins s))) eqn:En; [discriminate|].
      apply nth_error_None in En. pose proof (spositions_length i (io_bins i Hi)). pose proof (inv_total i o Hi s pf I).
      pose proof (expand_length s (copies_nonneg i o s pf I)). lia.
    + apply IH; [|exact H]. apply inv_empty; [exact Hi|exact I|exact V|]. apply (stypes_range i o Hi s pf t I); [rewrite Ets; left; reflexivity|exact V].
Qed.

Lemma siterations_honest : forall left fuel goal call reports r b, Forall (good i o) reports -> siterations left fuel i o goal call reports = Some (r, b) -> b = false.
Proof.
  induction left as [|l IH]; intros fuel goal call reports r b R E; [injection E as _ <-; reflexivity|]. cbn [siterations] in E.
  assert (K : STInv i o (mkST call (repeat (None, 0%Q) (cnb (si_base i))) reports)) by (split; [apply curinv0|exact R]).
  destruct (siteration fuel i o call reports) as [res|] eqn:Es; [|discriminate]. unfold siteration in Es.
  pose proof (sloop_inv i o Hi (ho_positive i o Ho) fuel [] (fun _ => 0) _ res (inv_nil i o Hi) K Es) as H.
  pose proof (sloop_honest fuel [] (fun _ => 0) _ (inv_nil i o Hi) K) as NT. rewrite Es in NT.
  destruct res as [[s st]|rs|]; [|injection E as _ <-; reflexivity|congruence].
  destruct H as [Hs Hr]. assert (R' : Forall (good i o) (st_reports st ++ [s])) by (apply Forall_app; split; [exact Hr|constructor; [exact Hs|constructor]]).
  cbv zeta in E. destruct (cn_objective (si_base i)); try (eapply IH; [exact R'|exact E]).
  - match type of E with (if ?c then _ else _) = _ => destruct c end; [injection E as _ <-; reflexivity|eapply IH; [exact R'|exact E]].
  - match type of E with (if ?c then _ else _) = _ => destruct c end; [injection E as _ <-; reflexivity|eapply IH; [exact R'|exact E]].
Qed.
End Honest.

(** ** When an iteration stops *)

Section Stop.
Variables (i : SInst) (o : Oracle) (fits : nat -> nat -> Prop).
Hypothesis Hi : sinst_ok i.
Hypothesis Hsol : solutions o.

(** Whatever the solver: all items packed, or all bins used, or (variable-sized)
    no bin type tried has a positive ratio. *)
Definition stopped (s : CBins) : Prop :=
  ssol_items s = cnumber_of_items (si_base i) \/ total_bins s = cnumber_of_bins (si_base i) \/ is_vbpp i = true.

Hypothesis Hco : complete fits o.

Definition Pos (c : SCur) : Prop := forall t items q, scur c t = (Some items, q) -> items <> [] -> (0 < q)%Q.
Definition Best (s : CBins) (pf : nat -> Z) (c : SCur) (t : nat) : Prop :=
  (exists x, (x < cni (si_base i))%nat /\ 0 < sfree i s pf x + sfixed i t x /\ fits t x) -> (0 < snd (scur c t))%Q.

Lemma stry_pos : forall s pf st t st', is_vbpp i = true -> (t < cnb (si_base i))%nat -> length (st_cur st) = cnb (si_base i) -> Pos (st_cur st) ->
  stry i o s pf st t = XOk st' -> Pos (st_cur st') /\ Best s pf (st_cur st') t /\ (forall u, u <> t -> scur (st_cur st') u = scur (st_cur st) u).
Proof.
  intros s pf st t st' V Ht Hlen P E. unfold stry in E. rewrite V in E. cbn [andb] in E. destruct (sstill_valid i s pf (st_cur st) t) eqn:Ev.
  { injection E as <-. split; [exact P|]. split; [|reflexivity]. intros _. unfold sstill_valid in Ev. destruct (scur (st_cur st) t) as [[items|] q] eqn:Ec; [|discriminate].
    cbn [fst] in Ev. cbn [snd]. apply (P t items q Ec). destruct items; [discriminate|discriminate]. }
  destruct (1 <? cb_copies_min (cbin (si_base i) t)); [discriminate|]. cbv zeta in E.
  set (k := skp i s pf t) in *. set (a := or_solve o (st_call st) k) in *. destruct (or_end o (S (st_call st))); [discriminate|].
  assert (B : forall x, (x < cni (si_base i))%nat -> 0 < sfree i s pf x + sfixed i t x -> fits t x -> sa_bins a <> [] /\ (0 < sa_profit a)%Q).
  { intros x Hx Hp Hf. apply (co_profit fits o Hco (st_call st) k x (sfree i s pf x + sfixed i t x)); [apply skp_in; repeat split; try assumption; reflexivity|exact Hp|exact Hf]. }
  destruct (sa_bins a) as [|b0 rest0] eqn:Ea.
  { injection E as <-. cbn [st_cur]. split; [|split].
    - intros u items q. rewrite (scur_upd i) by exact Hlen. destruct (Nat.eqb_spec u t) as [->|_]; [|apply P]. apply Nat.ltb_lt in Ht. rewrite Ht. discriminate.
    - intros (x & Hx & Hp & Hf). destruct (B x Hx Hp Hf) as [K _]. congruence.
    - intros u Hu. rewrite (scur_upd i) by exact Hlen. rewrite (proj2 (Nat.eqb_neq _ _) Hu). reflexivity. }
  rewrite <- Ea in E. match type of E with context [if ?c <? 1 then _ else _] => destruct (c <? 1) end; [discriminate|].
  assert (Eb : is_bppl i = false) by (unfold is_vbpp, is_bppl in *; destruct (cn_objective (si_base i)); congruence). rewrite Eb in E. cbn [andb] in E.
  rewrite Ea in E. destruct b0 as [c0 positions]. destruct (forallb (fun p => (p <? length (sk_ids k))%nat) positions) eqn:Hp; [|discriminate].
  injection E as <-. cbn [st_cur]. rewrite forallb_forall in Hp. split; [|split].
  - intros u items q. rewrite (scur_upd i) by exact Hlen. destruct (Nat.eqb_spec u t) as [->|_]; [|apply P]. apply Nat.ltb_lt in Ht. rewrite Ht.
    intros Eu Hne. injection Eu as <- <-. destruct positions as [|p positions]; [exfalso; apply Hne; reflexivity|].
    assert (Hin : In (c0, p :: positions) (sa_bins a)) by (rewrite Ea; left; reflexivity).
    destruct (co_fits fits o Hco (st_call st) k (c0, p :: positions) p Hin (or_introl eq_refl)) as [Hpl Hf].
    pose proof (sk_nth k p Hpl) as Hk. unfold k at 3 in Hk. apply skp_in in Hk. destruct Hk as (Hx & Hc & Ecx). rewrite Ecx in Hc.
    apply (B _ Hx Hc Hf).
  - intros (x & Hx & Hpx & Hf). rewrite (scur_upd i) by exact Hlen. rewrite Nat.eqb_refl. apply Nat.ltb_lt in Ht. rewrite Ht. cbn [snd]. apply (B x Hx Hpx Hf).
  - intros u Hu. rewrite (scur_upd i) by exact Hlen. rewrite (proj2 (Nat.eqb_neq _ _) Hu). reflexivity.
Qed.

Lemma stry_all_pos : forall s pf ts st st', is_vbpp i = true -> Inv i o s pf -> STInv i o st -> incl ts (stypes i s) -> Pos (st_cur st) ->
  stry_all i o s pf ts st = XOk st' -> Pos (st_cur st') /\ forall t, In t ts \/ Best s pf (st_cur st) t -> Best s pf (st_cur st') t.
Proof.
  intros s pf. induction ts as [|t ts IH]; intros st st' V I K Hin P E.
  - injection E as <-. split; [exact P|]. intros t [[]|H]. exact H.
  - cbn [stry_all] in E. pose proof (proj1 (stypes_range i o Hi s pf t I (Hin t (or_introl eq_refl)))) as Ht.
    pose proof (stry_inv i o Hi Hsol s pf st t I K Ht) as K'. destruct (stry i o s pf st t) as [st1|r|] eqn:E1; try discriminate.
    destruct (stry_pos s pf st t st1 V Ht (cu_length i o _ (proj1 K)) P E1) as (P1 & B1 & Un).
    destruct (IH st1 st' V I K' (fun u Hu => Hin u (or_intror Hu)) P1 E) as [P2 B2]. split; [exact P2|].
    intros u Hu. apply B2. destruct (Nat.eq_dec u t) as [->|Hn]; [right; exact B1|].
    destruct Hu as [[Hu|Hu]|Hu]; [congruence|left; exact Hu|right]. unfold Best in *. rewrite Un by exact Hn. exact Hu.
Qed.

Lemma sloop_stop : forall fuel s pf st s' st', Inv i o s pf -> STInv i o st -> (is_vbpp i = true -> Pos (st_cur st)) ->
  sloop fuel i o s pf st = Some (XOk (s', st')) ->
  ssol_items s' = cnumber_of_items (si_base i) \/ total_bins s' = cnumber_of_bins (si_base i)
  \/ (is_vbpp i = true /\ exists pf', Inv i o s' pf' /\ sbest i (st_cur st') (stypes i s') = None /\ forall t, In t (stypes i s') -> Best s' pf' (st_cur st') t).
Proof.
  induction fuel as [|f IH]; intros s pf st s' st' I K P E; [discriminate|]. cbn [sloop] in E.
  destruct (or_end o (st_call st)); [discriminate|].
  destruct (Z.eqb_spec (ssol_items s) (cnumber_of_items (si_base i))) as [A|_]; [injection E as <- <-; left; exact A|].
  destruct (Z.eqb_spec (total_bins s) (cnumber_of_bins (si_base i))) as [A|_]; [injection E as <- <-; right; left; exact A|].
  cbv zeta in E. set (st0 := mkST (S (st_call st)) (st_cur st) (st_reports st)) in E.
  pose proof (stry_all_inv i o Hi Hsol s pf (stypes i s) st0 I K ltac:(intros t Ht; apply (stypes_range i o Hi s pf t I Ht))) as H.
  destruct (stry_all i o s pf (stypes i s) st0) as [st1|rs|] eqn:E1; try discriminate.
  assert (HP : is_vbpp i = true -> Pos (st_cur st1) /\ forall t, In t (stypes i s) -> Best s pf (st_cur st1) t).
  { intro V. destruct (stry_all_pos s pf (stypes i s) st0 st1 V I K (incl_refl _) (P V) E1) as [A B]. split; [exact A|]. intros t Ht. apply B. left. exact Ht. }
  destruct (sbest i (st_cur st1) (stypes i s)) as [t|] eqn:Eb.
  - destruct (sbest_in i _ _ _ Eb) as [Hin _]. destruct (stypes_range i o Hi s pf t I Hin) as [Ht Hpos].
    destruct (fst (scur (st_cur st1) t)) as [items|] eqn:Ef; [|discriminate].
    assert (Ecur : scur (st_cur st1) t = (Some items, snd (scur (st_cur st1) t))) by (rewrite <- Ef; destruct (scur (st_cur st1) t); reflexivity).
    destruct (cu_some i o _ (proj1 H) _ _ _ Ecur) as [Hx Hret].
    destruct (Z.ltb_spec (scopies i s pf t (map (fun x => (x, occ items x)) (seq 0 (cni (si_base i))))) 1) as [Hn|Hn]; [discriminate|].
    destruct (scopies_spec i s pf t _ Hn) as [Sn Sx].
    eapply IH; [|exact H|intro V; apply (HP V)|exact E]. apply inv_extend; try assumption; [split; assumption|].
    intros x Xx. apply Sx; [|apply (iv_free i o s pf I); exact Xx]. apply in_map_iff. exists x. split; [reflexivity|]. apply in_seq. lia.
  - destruct (is_vbpp i) eqn:V.
    + injection E as <- <-. right. right. split; [reflexivity|]. exists pf. split; [exact I|]. split; [exact Eb|]. apply (HP eq_refl).
    + destruct (stypes i s) as [|t ts'] eqn:Ets; [discriminate|].
      eapply IH; [|exact H|discriminate|exact E]. apply inv_empty; [exact Hi|exact I|exact V|]. apply (stypes_range i o Hi s pf t I); [rewrite Ets; left; reflexivity|exact V].
Qed.
End Stop.
