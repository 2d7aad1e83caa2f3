(** * Proofs about sequential value correction: the loops *)

From Coq Require Import List ZArith QArith Bool Lia Lqa Permutation.
From Verif Require Import Util Common_Model OneDim_Model ColGen_Model ColGen_Spec ColGenCap_Proof ColGenPrice_Proof Svc_Model Svc_Spec Svc_Proof.
Import ListNotations.
Open Scope Z_scope.

Section Loop.
Variables (i : SInst) (o : Oracle).
Hypothesis Hi : sinst_ok i.
Notation base := (si_base i) (only parsing).

Definition ordered (s : CBins) : Prop := is_vbpp i = false -> exists rest, spositions i = expand s ++ rest.

Record Inv (s : CBins) (pf : nat -> Z) : Prop := {
  iv_bins : forall b, In b s -> (b_type b < cnb base)%nat /\ 1 <= b_copies b /\ forall x, In x (b_items b) -> (x < cni base)%nat;
  iv_returned : forall b, In b s -> (is_vbpp i = false /\ b_items b = []) \/ returned o (b_type b) (b_items b);
  iv_types : forall t, (t < cnb base)%nat -> used_bins s t <= cb_copies (cbin base t);
  iv_pf : forall x, 0 <= pf x <= zsum (fun b => b_copies b * sfixed i (b_type b) x) s;
  iv_free : forall x, (x < cni base)%nat -> 0 <= sfree i s pf x;
  iv_order : ordered s
}.

(** What is proved of every solution. *)
Record good (s : CBins) : Prop := {
  gd_valid : svalid i s;
  gd_returned : forall b, In b s -> (is_vbpp i = false /\ b_items b = []) \/ returned o (b_type b) (b_items b);
  gd_order : ordered s
}.

Lemma inv_good : forall s pf, Inv s pf -> good s.
Proof.
  intros s pf [H1 H2 H3 H4 H5 H6]. split; [|exact H2|exact H6]. split; [exact H1|exact H3|]. intros x Hx.
  specialize (H4 x). specialize (H5 x Hx). unfold sfree in H5.
  assert (K : zsum (fun b => b_copies b * sfixed i (b_type b) x) s <= ci_copies_fixed (citem base x)).
  { rewrite (io_fixed i Hi x Hx). rewrite (fixed_by_type (cnb base) (fun t => sfixed i t x)) by (intros b Hb; apply (H1 b Hb)).
    apply zsum_le. intros t Ht. apply in_seq in Ht. apply Z.mul_le_mono_nonneg_r; [apply occ_nonneg|]. apply H3. lia. }
   lia.
Qed.

Lemma inv_nil : Inv [] (fun _ => 0).
Proof.
  split.
  - intros b [].
  - intros b [].
  - intros t Ht. unfold used_bins. rewrite zsum_nil. apply (io_bins i Hi t Ht).
  - intro x. rewrite zsum_nil. lia.
  - intros x Hx. unfold sfree, used_items. rewrite zsum_nil. pose proof (io_enough i Hi x Hx). lia.
  - intros _. exists (spositions i). reflexivity.
Qed.

Lemma sorder_nodup : NoDup (sorder i).
Proof. eapply Permutation_NoDup; [apply sorder_perm|apply seq_NoDup]. Qed.

Lemma copies_nonneg : forall s pf, Inv s pf -> forall b, In b s -> 0 <= b_copies b.
Proof. intros s pf I b Hb. destruct (iv_bins s pf I b Hb) as (_ & K & _). lia. Qed.

(** The position of the next bin. *)
Lemma next_position : forall s pf t, Inv s pf -> is_vbpp i = false -> nth_error (spositions i) (Z.to_nat (total_bins s)) = Some t ->
  (t < cnb base)%nat /\ used_bins s t < cb_copies (cbin base t)
  /\ forall n, 1 <= n <= cb_copies (cbin base t) - used_bins s t -> exists rest, spositions i = expand s ++ repeat t (Z.to_nat n) ++ rest.
Proof.
  intros s pf t I V E. destruct (iv_order s pf I V) as [rest R].
  pose proof (expand_length s (copies_nonneg s pf I)) as L. pose proof (expand_occ s t (copies_nonneg s pf I)) as OC.
  rewrite R in E. rewrite nth_error_app2 in E by lia. replace (Z.to_nat (total_bins s) - length (expand s))%nat with O in E by lia.
  assert (Ht : In t (spositions i)). { rewrite R. apply in_or_app. right. destruct rest as [|r rest]; [discriminate|]. injection E as ->. left. reflexivity. }
  unfold spositions in Ht. apply in_flat_map in Ht. destruct Ht as (u & Hu & Ht). apply repeat_spec in Ht. subst u.
  apply (Permutation_in _ (Permutation_sym (sorder_perm i))) in Hu. apply in_seq in Hu.
  assert (Tt : (t < cnb base)%nat) by (lia).
  assert (Hs : sorder i = sorder i) by reflexivity.
  assert (Cnt : occ (spositions i) t = cb_copies (cbin base t)).
  { unfold spositions. rewrite <- (Z2Nat.id (cb_copies (cbin base t))) by (apply (io_bins i Hi); exact Tt).
    assert (G : forall l, NoDup l -> occ (flat_map (fun a => repeat a (Z.to_nat (cb_copies (cbin base a)))) l) t = if in_dec Nat.eq_dec t l then Z.of_nat (Z.to_nat (cb_copies (cbin base t))) else 0).
    { induction l as [|a l IH]; intros ND; [reflexivity|]. inversion ND as [|? ? Na ND']; subst. cbn [flat_map]. rewrite occ_app, occ_repeat, IH by exact ND'.
      destruct (Nat.eqb_spec a t) as [->|Hn].
      - destruct (in_dec Nat.eq_dec t (t :: l)) as [_|K]; [|exfalso; apply K; left; reflexivity].
        destruct (in_dec Nat.eq_dec t l) as [K|_]; [contradiction|lia].
      - destruct (in_dec Nat.eq_dec t (a :: l)) as [K|K]; destruct (in_dec Nat.eq_dec t l) as [K'|K']; try lia.
        + destruct K as [K|K]; [congruence|contradiction].
        + exfalso. apply K. right. exact K'. }
    rewrite (G _ sorder_nodup). destruct (in_dec Nat.eq_dec t (sorder i)) as [_|K]; [reflexivity|].
    exfalso. apply K. apply (Permutation_in _ (sorder_perm i)). apply in_seq. lia. }
  split; [exact Tt|]. split.
  - rewrite <- Cnt, <- OC. rewrite R, occ_app. destruct rest as [|r rest]; [discriminate|]. injection E as ->. rewrite occ_cons, Nat.eqb_refl. pose proof (occ_nonneg rest t). lia.
  - intros n Hn. unfold spositions in R |- *. apply (blocks_extend (fun a => Z.to_nat (cb_copies (cbin (si_base i) a)))) with (rest := rest).
    + apply sorder_nodup.
    + exact R.
    + destruct rest; [discriminate|exact E].
    + rewrite OC, !Z2Nat.id; [lia|apply (io_bins i Hi); exact Tt|lia].
Qed.

Lemma zsum_snoc_eq : forall (f : nat * Z * list nat -> Z) s b, zsum f (s ++ [b]) = zsum f s + f b.
Proof. intros. apply zsum_snoc. Qed.

(** Adding copies of a pattern. *)
Lemma inv_extend : forall s pf t n items, Inv s pf -> (t < cnb base)%nat -> 1 <= n <= cb_copies (cbin base t) - used_bins s t ->
  (forall x, In x items -> (x < cni base)%nat) -> returned o t items ->
  (forall x, (x < cni base)%nat -> n * (occ items x - sfixed i t x) <= sfree i s pf x) ->
  (is_vbpp i = false -> nth_error (spositions i) (Z.to_nat (total_bins s)) = Some t) ->
  Inv (s ++ [(t, n, items)]) (fun x => pf x + n * sfixed i t x).
Proof.
  intros s pf t n items I Ht Hn Hx Hr Hf Ho. pose proof I as [H1 H2 H3 H4 H5 H6]. split.
  - intros b Hb. apply in_app_or in Hb. destruct Hb as [Hb|[<-|[]]]; [apply H1; exact Hb|]. cbn. repeat split; [exact Ht|lia|exact Hx].
  - intros b Hb. apply in_app_or in Hb. destruct Hb as [Hb|[<-|[]]]; [apply H2; exact Hb|]. right. exact Hr.
  - intros u Hu. rewrite used_bins_snoc. unfold b_type, b_copies. cbn [fst snd]. destruct (Nat.eqb_spec t u) as [<-|_]; [lia|]. specialize (H3 u Hu). lia.
  - intro x. rewrite zsum_snoc_eq. unfold b_type at 2, b_copies at 2. cbn [fst snd]. specialize (H4 x). pose proof (occ_nonneg (cb_fixed (cbin (si_base i) t)) x) as F. fold (sfixed i t x) in F. nia.
  - intros x Xx. specialize (Hf x Xx). unfold sfree in *. rewrite used_items_snoc. unfold b_copies, b_items. cbn [fst snd]. lia.
  - intros V. destruct (next_position s pf t I V (Ho V)) as (_ & _ & K). destruct (K n Hn) as [rest R]. exists rest. rewrite expand_snoc, R, <- app_assoc. reflexivity.
Qed.

(** Leaving a bin empty. *)
Lemma inv_empty : forall s pf t, Inv s pf -> is_vbpp i = false -> nth_error (spositions i) (Z.to_nat (total_bins s)) = Some t ->
  Inv (s ++ [(t, 1, [])]) pf.
Proof.
  intros s pf t I V E. destruct (next_position s pf t I V E) as (Ht & Hu & K). pose proof I as [H1 H2 H3 H4 H5 H6]. split.
  - intros b Hb. apply in_app_or in Hb. destruct Hb as [Hb|[<-|[]]]; [apply H1; exact Hb|]. cbn. repeat split; [exact Ht|lia|intros x []].
  - intros b Hb. apply in_app_or in Hb. destruct Hb as [Hb|[<-|[]]]; [apply H2; exact Hb|]. left. split; [exact V|reflexivity].
  - intros u Hu'. rewrite used_bins_snoc. unfold b_type, b_copies. cbn [fst snd]. destruct (Nat.eqb_spec t u) as [<-|_]; [lia|]. specialize (H3 u Hu'). lia.
  - intro x. rewrite zsum_snoc_eq. unfold b_type at 2, b_copies at 2. cbn [fst snd]. specialize (H4 x). pose proof (occ_nonneg (cb_fixed (cbin (si_base i) t)) x) as F. fold (sfixed i t x) in F. lia.
  - intros x Xx. specialize (H5 x Xx). unfold sfree in *. rewrite used_items_snoc. unfold b_copies, b_items. cbn [fst snd]. replace (occ [] x) with 0 by reflexivity. lia.
  - intros _. destruct (K 1 ltac:(lia)) as [rest R]. exists rest. rewrite expand_snoc, R, <- app_assoc. reflexivity.
Qed.

(** ** Bin types to try *)

Lemma smandatory_some : forall s t, smandatory i s = Some t -> (t < cnb base)%nat /\ used_bins s t < cb_copies_min (cbin base t).
Proof.
  intros s t. unfold smandatory.
  assert (G : forall l best, (forall u, In u l -> (u < cnb base)%nat) -> (forall u, best = Some u -> (u < cnb base)%nat /\ used_bins s u < cb_copies_min (cbin base u)) ->
    forall u, fold_left (fun best t => if cb_copies_min (cbin (si_base i) t) <=? used_bins s t then best
      else match best with None => Some t | Some u => if sspace i t <? sspace i u then Some t else best end) l best = Some u ->
    (u < cnb base)%nat /\ used_bins s u < cb_copies_min (cbin base u)).
  { induction l as [|a l IH]; intros best Hl Hb u E; [apply Hb; exact E|]. cbn [fold_left] in E. apply IH in E; [exact E|intros; apply Hl; right; assumption|].
    intros v Ev. destruct (Z.leb_spec (cb_copies_min (cbin (si_base i) a)) (used_bins s a)) as [K|K]; [apply Hb; exact Ev|].
    assert (Ka : (a < cnb base)%nat /\ used_bins s a < cb_copies_min (cbin base a)) by (split; [apply Hl; left; reflexivity|exact K]).
    destruct best as [w|]; [destruct (sspace i a <? sspace i w)|]; try (injection Ev as <-; exact Ka). apply Hb. exact Ev. }
  apply G; [intros u Hu; apply in_seq in Hu; lia|discriminate].
Qed.

Lemma smandatory_none : forall s, smandatory i s = None -> forall t, (t < cnb base)%nat -> cb_copies_min (cbin base t) <= used_bins s t.
Proof.
  intros s. unfold smandatory.
  assert (S1 : forall l w, exists u, fold_left (fun best t => if cb_copies_min (cbin (si_base i) t) <=? used_bins s t then best
      else match best with None => Some t | Some u => if sspace i t <? sspace i u then Some t else best end) l (Some w) = Some u).
  { induction l as [|a l IH]; intro w; [exists w; reflexivity|]. cbn [fold_left]. destruct (cb_copies_min (cbin (si_base i) a) <=? used_bins s a); [apply IH|].
    destruct (sspace i a <? sspace i w); apply IH. }
  assert (G : forall l, fold_left (fun best t => if cb_copies_min (cbin (si_base i) t) <=? used_bins s t then best
      else match best with None => Some t | Some u => if sspace i t <? sspace i u then Some t else best end) l None = None ->
    forall t, In t l -> cb_copies_min (cbin base t) <= used_bins s t).
  { induction l as [|a l IH]; intros E t Ht; [destruct Ht|]. cbn [fold_left] in E. destruct (Z.leb_spec (cb_copies_min (cbin (si_base i) a)) (used_bins s a)) as [K|K].
    - destruct Ht as [<-|Ht]; [exact K|apply IH; assumption].
    - destruct (S1 l a) as [u Eu]. rewrite Eu in E. discriminate. }
  intros E t Ht. apply (G _ E). apply in_seq. lia.
Qed.

Lemma is_vbpp_true : is_vbpp i = true <-> cn_objective base = OVariableSizedBinPacking.
Proof. unfold is_vbpp. destruct (cn_objective (si_base i)); split; congruence. Qed.

Lemma stypes_nonvbpp : forall s, is_vbpp i = false -> stypes i s = match nth_error (spositions i) (Z.to_nat (total_bins s)) with Some t => [t] | None => [] end.
Proof. intros s V. unfold stypes, is_vbpp in *. destruct (cn_objective (si_base i)); try reflexivity. discriminate. Qed.

Lemma stypes_vbpp : forall s, is_vbpp i = true -> stypes i s =
  match smandatory i s with Some t => [t] | None => filter (fun t => negb (used_bins s t =? cb_copies (cbin base t))) (seq 0 (cnb base)) end.
Proof. intros s V. apply is_vbpp_true in V. unfold stypes. rewrite V. reflexivity. Qed.

Lemma stypes_range : forall s pf t, Inv s pf -> In t (stypes i s) -> (t < cnb base)%nat
  /\ (is_vbpp i = false -> nth_error (spositions i) (Z.to_nat (total_bins s)) = Some t).
Proof.
  intros s pf t I H. destruct (is_vbpp i) eqn:V.
  - split; [|discriminate]. rewrite stypes_vbpp in H by exact V. destruct (smandatory i s) as [u|] eqn:M.
    + destruct H as [<-|[]]. apply (smandatory_some s u M).
    + apply filter_In in H. destruct H as [H _]. apply in_seq in H. lia.
  - rewrite stypes_nonvbpp in H by exact V. destruct (nth_error (spositions i) (Z.to_nat (total_bins s))) as [u|] eqn:E; [|destruct H].
    destruct H as [<-|[]]. split; [|reflexivity]. apply (next_position s pf u I V E).
Qed.

(** A copy of a bin type to try is left, if the minimum numbers of copies are
    not above the numbers of copies. *)
Lemma stypes_left : forall s pf t, (forall u, (u < cnb base)%nat -> cb_copies_min (cbin base u) <= cb_copies (cbin base u)) ->
  Inv s pf -> In t (stypes i s) -> used_bins s t < cb_copies (cbin base t).
Proof.
  intros s pf t Hmin I H. destruct (stypes_range s pf t I H) as [Ht Hp]. destruct (is_vbpp i) eqn:V.
  - rewrite stypes_vbpp in H by exact V. destruct (smandatory i s) as [u|] eqn:M.
    + destruct H as [<-|[]]. destruct (smandatory_some s u M) as [_ K]. specialize (Hmin u Ht). lia.
    + apply filter_In in H. destruct H as [_ H]. apply negb_true_iff, Z.eqb_neq in H. pose proof (iv_types s pf I t Ht). lia.
  - apply (next_position s pf t I V (Hp eq_refl)).
Qed.

(** ** One bin type *)

Record CurInv (c : SCur) : Prop := {
  cu_length : length c = cnb base;
  cu_none : forall t q, scur c t = (None, q) -> (q == 0)%Q;
  cu_some : forall t items q, scur c t = (Some items, q) -> (forall x, In x items -> (x < cni base)%nat) /\ returned o t items
}.

Lemma scur_upd : forall c t u v, length c = cnb base -> scur (upd t (fun _ => v) c) u = if (u =? t)%nat then (if (t <? cnb base)%nat then v else scur c u) else scur c u.
Proof.
  intros c t u v L. unfold scur. destruct (Nat.eqb_spec u t) as [->|Hn].
  - destruct (Nat.ltb_spec t (cnb base)) as [H|H]; [rewrite nth_upd_same by lia; reflexivity|]. rewrite upd_oob by lia. reflexivity.
  - rewrite nth_upd_other by congruence. reflexivity.
Qed.

Lemma curinv_upd : forall c t v, CurInv c -> (t < cnb base)%nat ->
  (forall q, v = (None, q) -> (q == 0)%Q) -> (forall items q, v = (Some items, q) -> (forall x, In x items -> (x < cni base)%nat) /\ returned o t items) ->
  CurInv (upd t (fun _ => v) c).
Proof.
  intros c t v [L N S] Ht HN HS. split.
  - rewrite upd_length. exact L.
  - intros u q. rewrite scur_upd by exact L. destruct (Nat.eqb_spec u t) as [->|_]; [|apply N]. apply Nat.ltb_lt in Ht. rewrite Ht. apply HN.
  - intros u items q. rewrite scur_upd by exact L. destruct (Nat.eqb_spec u t) as [->|_]; [|apply S]. apply Nat.ltb_lt in Ht. rewrite Ht. apply HS.
Qed.

Lemma sbppl_ids : forall s pf k n, sk_ids (sbppl i s pf k n) = sk_ids k.
Proof. intros s pf k n. unfold sk_ids at 1, sbppl. cbn [sk_items]. rewrite map_map. cbn [fst]. apply List.map_id. Qed.

Definition STInv (st : STry) : Prop := CurInv (st_cur st) /\ Forall good (st_reports st).

Hypothesis Hsol : solutions o.

Lemma ksol_ge : forall bins c ps rest p, (forall b, In b bins -> 1 <= fst b) -> bins = (c, ps) :: rest -> occ ps p <= ksol_copies bins p.
Proof.
  intros bins c ps rest p H ->. unfold ksol_copies. rewrite zsum_cons. cbn [fst snd].
  assert (0 <= zsum (fun b => fst b * occ (snd b) p) rest). { apply zsum_nonneg. intros b Hb. pose proof (occ_nonneg (snd b) p). specialize (H b (or_intror Hb)). nia. }
  specialize (H (c, ps) (or_introl eq_refl)). cbn in H. pose proof (occ_nonneg ps p). nia.
Qed.

Lemma stry_inv : forall s pf st t, Inv s pf -> STInv st -> (t < cnb base)%nat ->
  match stry i o s pf st t with XOk st' => STInv st' | XTime r => Forall good r | XThrow => True end.
Proof.
  intros s pf st t I [C R] Ht. unfold stry. destruct (is_vbpp i && sstill_valid i s pf (st_cur st) t); [split; assumption|].
  destruct (1 <? cb_copies_min (cbin (si_base i) t)); [exact Logic.I|]. cbv zeta.
  set (k := skp i s pf t). set (a := or_solve o (st_call st) k).
  destruct (or_end o (S (st_call st))); [exact R|].
  destruct (sa_bins a) as [|b0 rest0] eqn:Ea.
  { split; [|exact R]. cbn [st_cur]. apply curinv_upd; [exact C|exact Ht| |].
    - intros q E. injection E as <-. reflexivity.
    - intros items q E. discriminate. }
  rewrite <- Ea. set (n := scopies i s pf t (map (fun p => (nth p (sk_ids k) O, ksol_copies (sa_bins a) p)) (seq 0 (length (sk_ids k))))).
  destruct (Z.ltb_spec n 1) as [Hn|Hn]; [exact Logic.I|].
  set (chosen := if is_bppl i && (ssol_items s + n * sa_items a =? cnumber_of_items (si_base i)) then _ else XOk a).
  assert (Hc : match chosen with XOk c => (exists call k', c = or_solve o call k' /\ sk_bin k' = t /\ sk_ids k' = sk_ids k) /\ (is_vbpp i = true -> c = a) | XTime r => Forall good r | XThrow => True end).
  { assert (Ka : (exists call k', a = or_solve o call k' /\ sk_bin k' = t /\ sk_ids k' = sk_ids k)) by (exists (st_call st), k; repeat split; reflexivity).
    unfold chosen. destruct (is_bppl i && (ssol_items s + n * sa_items a =? cnumber_of_items (si_base i))) eqn:Eb; [|split; [exact Ka|reflexivity]].
    destruct (or_end o (3 + st_call st)); [exact R|]. destruct (or_less o (4 + st_call st) _ _); [split; [exact Ka|reflexivity]|]. split.
    - exists (2 + st_call st)%nat, (sbppl i s pf k n). split; [reflexivity|]. split; [reflexivity|apply sbppl_ids].
    - intro V. exfalso. apply andb_prop in Eb. destruct Eb as [Eb _]. unfold is_vbpp, is_bppl in *. destruct (cn_objective (si_base i)); discriminate. }
  destruct chosen as [c|r|]; [|exact Hc|exact Logic.I]. destruct Hc as [(call & k' & Ec & Kb & Kids) HV].
  destruct (sa_bins c) as [|[c0 positions] rest] eqn:Ebins; [exact Logic.I|].
  destruct (forallb (fun p => (p <? length (sk_ids k))%nat) positions) eqn:Hp; [|exact Logic.I].
  rewrite forallb_forall in Hp. assert (Hp' : forall p, In p positions -> (p < length (sk_ids k))%nat) by (intros p Hin; apply Nat.ltb_lt; apply Hp; exact Hin).
  set (items := map (fun p => nth p (sk_ids k) O) positions).
  assert (Hitems : forall x, In x items -> (x < cni base)%nat).
  { intros x Hx. unfold items in Hx. apply in_map_iff in Hx. destruct Hx as (p & <- & Hin). apply (skp_range i s pf t). apply nth_In. apply Hp'. exact Hin. }
  assert (Hret : returned o t items).
  { exists call, k', c0, positions, rest. split; [exact Kb|]. split; [rewrite <- Ec; exact Ebins|]. unfold decode. rewrite Kids. reflexivity. }
  split; cbn [st_cur st_reports].
  - apply curinv_upd; [exact C|exact Ht| |].
    + intros q E. discriminate.
    + intros items' q E. injection E as <- _. split; [exact Hitems|exact Hret].
  - destruct (is_vbpp i && (ssol_items s + n * sa_items c =? cnumber_of_items (si_base i))) eqn:Ev; [|exact R].
    apply andb_prop in Ev. destruct Ev as [V _]. specialize (HV V). rewrite HV in Ebins.
    apply Forall_app. split; [exact R|]. constructor; [|constructor].
    destruct (scopies_spec i s pf t _ Hn) as [Sn Sx]. fold n in Sn, Sx.
    refine (inv_good _ (fun x => pf x + n * sfixed i t x) _). apply inv_extend; [exact I|exact Ht|split; [exact Hn|exact Sn]|exact Hitems|exact Hret| |].
    + intros x Hx. destruct (in_dec Nat.eq_dec x (sk_ids k)) as [Hin|Hout].
      * destruct (In_nth _ _ O Hin) as (p & Hpl & <-).
        assert (Hs : n * (ksol_copies (sa_bins a) p - sfixed i t (nth p (sk_ids k) O)) <= sfree i s pf (nth p (sk_ids k) O)).
        { apply Sx; [|apply (iv_free s pf I); exact Hx]. apply in_map_iff. exists p. split; [reflexivity|]. apply in_seq. lia. }
        unfold items. rewrite occ_types; [|apply skp_nodup|exact Hp'|exact Hpl].
        pose proof (ksol_ge (sa_bins a) c0 positions rest p) as G. assert (Hg : forall b, In b (sa_bins a) -> 1 <= fst b) by (intros b Hb; apply (Hsol (st_call st) k b Hb)). specialize (G Hg Ebins). nia.
      * assert (occ items x = 0). { apply occ_out. intro K. apply Hout. unfold items in K. apply in_map_iff in K. destruct K as (p & <- & Hin). apply nth_In. apply Hp'. exact Hin. }
        pose proof (iv_free s pf I x Hx). pose proof (occ_nonneg (cb_fixed (cbin (si_base i) t)) x) as F. fold (sfixed i t x) in F. nia.
    + intro V'. congruence.
Qed.

Lemma stry_all_inv : forall s pf ts st, Inv s pf -> STInv st -> (forall t, In t ts -> (t < cnb base)%nat) ->
  match stry_all i o s pf ts st with XOk st' => STInv st' | XTime r => Forall good r | XThrow => True end.
Proof.
  intros s pf. induction ts as [|t ts IH]; intros st I K Ht; [exact K|]. cbn [stry_all].
  pose proof (stry_inv s pf st t I K (Ht t (or_introl eq_refl))) as H. destruct (stry i o s pf st t) as [st'|r|]; [|exact H|exact Logic.I].
  apply IH; [exact I|exact H|]. intros u Hu. apply Ht. right. exact Hu.
Qed.

(** ** The best ratio *)

Lemma sbest_in : forall c ts t, sbest i c ts = Some t -> In t ts /\ ratio_lt (RFin 0) (ratio (snd (scur c t)) (cb_cost (cbin base t))) = true.
Proof.
  intros c ts t. unfold sbest.
  assert (T : forall p q r, ratio_lt p q = true -> ratio_lt q r = true -> ratio_lt p r = true).
  { intros [| |p|] [| |q|] [| |r|]; cbn; intros A B; try congruence. unfold Qltb in *.
    apply negb_true_iff in A, B. apply negb_true_iff. apply not_true_iff_false. intro K. apply Qle_bool_iff in K.
    apply not_true_iff_false in A, B. rewrite Qle_bool_iff in A, B. lra. }
  assert (G : forall l best, (best = (RFin 0, None) \/ exists u, In u ts /\ snd best = Some u /\ fst best = ratio (snd (scur c u)) (cb_cost (cbin (si_base i) u)) /\ ratio_lt (RFin 0) (fst best) = true) -> incl l ts ->
    let e := fold_left (fun best t => let r := ratio (snd (scur c t)) (cb_cost (cbin (si_base i) t)) in if ratio_lt (fst best) r then (r, Some t) else best) l best in
    e = (RFin 0, None) \/ exists u, In u ts /\ snd e = Some u /\ fst e = ratio (snd (scur c u)) (cb_cost (cbin (si_base i) u)) /\ ratio_lt (RFin 0) (fst e) = true).
  { induction l as [|a l IH]; intros best Hb Hl; [exact Hb|]. cbn [fold_left]. apply IH; [|intros x Hx; apply Hl; right; exact Hx]. cbv zeta.
    destruct (ratio_lt (fst best) _) eqn:E; [|exact Hb]. right. exists a. split; [apply Hl; left; reflexivity|]. split; [reflexivity|]. split; [reflexivity|].
    cbn [fst]. destruct Hb as [->|(u & _ & _ & _ & Hu)]; [exact E|]. eapply T; [exact Hu|exact E]. }
  intros E. specialize (G ts (RFin 0, None) (or_introl eq_refl) (incl_refl _)). cbv zeta in G. cbv zeta in E.
  destruct G as [G|(u & Hu & Es & Ef & Hr)].
  - rewrite G in E. discriminate.
  - rewrite E in Es. injection Es as <-. rewrite Ef in Hr. split; [exact Hu|exact Hr].
Qed.

Lemma sbest_none : forall c ts, sbest i c ts = None -> forall t, In t ts -> ratio_lt (RFin 0) (ratio (snd (scur c t)) (cb_cost (cbin base t))) = false.
Proof.
  intros c ts. unfold sbest.
  assert (S1 : forall l r w, exists u, snd (fold_left (fun best t => let r := ratio (snd (scur c t)) (cb_cost (cbin (si_base i) t)) in if ratio_lt (fst best) r then (r, Some t) else best) l (r, Some w)) = Some u).
  { induction l as [|a l IH]; intros r w; [exists w; reflexivity|]. cbn [fold_left]. cbv zeta. destruct (ratio_lt _ _); apply IH. }
  induction ts as [|a ts IH]; intros E t Ht; [destruct Ht|]. cbn [fold_left] in E. cbv zeta in E. cbn [fst] in E.
  destruct (ratio_lt (RFin 0) (ratio (snd (scur c a)) (cb_cost (cbin (si_base i) a)))) eqn:Er.
  - exfalso. destruct (S1 ts (ratio (snd (scur c a)) (cb_cost (cbin (si_base i) a))) a) as [u Eu]. cbv zeta in Eu. rewrite Eu in E. discriminate.
  - destruct Ht as [<-|Ht]; [exact Er|]. apply IH; assumption.
Qed.

(** ** The loop *)

Lemma stinv_call : forall st n, STInv st -> STInv (mkST n (st_cur st) (st_reports st)).
Proof. intros st n K. exact K. Qed.

(** One turn keeps the invariants, adds at least one bin, and ends only as the
    code says. *)
Lemma sloop_inv : forall fuel s pf st r, Inv s pf -> STInv st -> sloop fuel i o s pf st = Some r ->
  match r with
  | XOk (s', st') => good s' /\ Forall good (st_reports st')
  | XTime rs => Forall good rs
  | XThrow => True
  end.
Proof.
  induction fuel as [|f IH]; intros s pf st r I K E; [discriminate|]. cbn [sloop] in E.
  destruct (or_end o (st_call st)); [injection E as <-; apply K|].
  destruct (ssol_items s =? cnumber_of_items (si_base i)); [injection E as <-; split; [apply (inv_good s pf I)|apply K]|].
  destruct (total_bins s =? cnumber_of_bins (si_base i)); [injection E as <-; split; [apply (inv_good s pf I)|apply K]|].
  cbv zeta in E. set (st0 := mkST (S (st_call st)) (st_cur st) (st_reports st)) in E. set (ts := stypes i s) in E.
  pose proof (stry_all_inv s pf ts st0 I K ltac:(intros t Ht; apply (stypes_range s pf t I Ht))) as H.
  destruct (stry_all i o s pf ts st0) as [st1|rs|]; [|injection E as <-; exact H|injection E as <-; exact Logic.I].
  destruct (sbest i (st_cur st1) ts) as [t|] eqn:Eb.
  - destruct (sbest_in _ _ _ Eb) as [Hin _]. destruct (stypes_range s pf t I Hin) as [Ht Hpos].
    destruct (fst (scur (st_cur st1) t)) as [items|] eqn:Ef; [|injection E as <-; exact Logic.I].
    assert (Ecur : scur (st_cur st1) t = (Some items, snd (scur (st_cur st1) t))) by (rewrite <- Ef; destruct (scur (st_cur st1) t); reflexivity).
    destruct (cu_some _ (proj1 H) _ _ _ Ecur) as [Hx Hret].
    destruct (Z.ltb_spec (scopies i s pf t (map (fun x => (x, occ items x)) (seq 0 (cni (si_base i))))) 1) as [Hn|Hn]; [injection E as <-; exact Logic.I|].
    destruct (scopies_spec i s pf t _ Hn) as [Sn Sx].
    eapply IH; [|exact H|exact E]. apply inv_extend; try assumption; [split; assumption|].
    intros x Xx. apply Sx; [|apply (iv_free s pf I); exact Xx]. apply in_map_iff. exists x. split; [reflexivity|]. apply in_seq. lia.
  - destruct (is_vbpp i) eqn:V; [injection E as <-; split; [apply (inv_good s pf I)|apply H]|].
    destruct ts as [|t ts'] eqn:Ets; [injection E as <-; exact Logic.I|].
    eapply IH; [|exact H|exact E]. apply inv_empty; [exact I|exact V|]. apply (stypes_range s pf t I); [unfold ts in Ets; rewrite Ets; left; reflexivity|exact V].
Qed.

Lemma inv_total : forall s pf, Inv s pf -> total_bins s <= cnumber_of_bins base.
Proof.
  intros s pf I. rewrite (by_type_z (cnb base) s) by (intros b Hb; apply (iv_bins s pf I b Hb)).
  assert (E : cnumber_of_bins base = zsum (fun t => cb_copies (cbin base t)) (seq 0 (cnb base))).
  { rewrite <- (spositions_length i (io_bins i Hi)). unfold spositions.
    rewrite (zsum_perm _ _ _ _ (sorder_perm i)).
    assert (Hr : forall t, In t (sorder i) -> (t < cnb (si_base i))%nat) by (intros t Ht; apply (Permutation_in _ (Permutation_sym (sorder_perm i))) in Ht; apply in_seq in Ht; lia).
    revert Hr. generalize (sorder i). induction l as [|t l IH]; intros Hr; [reflexivity|]. cbn [flat_map].
    rewrite app_length, repeat_length, zsum_cons, Nat2Z.inj_add, IH by (intros; apply Hr; right; assumption). rewrite Z2Nat.id; [lia|]. apply (io_bins i Hi). apply Hr. left. reflexivity. }
  rewrite E. apply zsum_le. intros t Ht. apply in_seq in Ht. apply (iv_types s pf I). lia.
Qed.

(** With enough fuel the loop ends. *)
Lemma sloop_ends : forall fuel s pf st, Inv s pf -> STInv st -> cnumber_of_bins base - total_bins s < Z.of_nat fuel ->
  sloop fuel i o s pf st <> None.
Proof.
  induction fuel as [|f IH]; intros s pf st I K Hf; [pose proof (inv_total s pf I); lia|]. cbn [sloop].
  destruct (or_end o (st_call st)); [discriminate|].
  destruct (ssol_items s =? cnumber_of_items (si_base i)); [discriminate|].
  destruct (total_bins s =? cnumber_of_bins (si_base i)); [discriminate|].
  cbv zeta. set (st0 := mkST (S (st_call st)) (st_cur st) (st_reports st)). set (ts := stypes i s).
  pose proof (stry_all_inv s pf ts st0 I K ltac:(intros t Ht; apply (stypes_range s pf t I Ht))) as H.
  destruct (stry_all i o s pf ts st0) as [st1|rs|]; [|discriminate|discriminate].
  destruct (sbest i (st_cur st1) ts) as [t|] eqn:Eb.
  - destruct (sbest_in _ _ _ Eb) as [Hin _]. destruct (stypes_range s pf t I Hin) as [Ht Hpos].
    destruct (fst (scur (st_cur st1) t)) as [items|] eqn:Ef; [|discriminate].
    assert (Ecur : scur (st_cur st1) t = (Some items, snd (scur (st_cur st1) t))) by (rewrite <- Ef; destruct (scur (st_cur st1) t); reflexivity).
    destruct (cu_some _ (proj1 H) _ _ _ Ecur) as [Hx Hret].
    destruct (Z.ltb_spec (scopies i s pf t (map (fun x => (x, occ items x)) (seq 0 (cni (si_base i))))) 1) as [Hn|Hn]; [discriminate|].
    destruct (scopies_spec i s pf t _ Hn) as [Sn Sx].
    apply IH; [|exact H|rewrite total_bins_snoc; unfold b_copies; cbn [fst snd]; lia]. apply inv_extend; try assumption; [split; assumption|].
    intros x Xx. apply Sx; [|apply (iv_free s pf I); exact Xx]. apply in_map_iff. exists x. split; [reflexivity|]. apply in_seq. lia.
  - destruct (is_vbpp i) eqn:V; [discriminate|].
    destruct ts as [|t ts'] eqn:Ets; [discriminate|].
    apply IH; [|exact H|rewrite total_bins_snoc; unfold b_copies; cbn [fst snd]; lia]. apply inv_empty; [exact I|exact V|]. apply (stypes_range s pf t I); [unfold ts in Ets; rewrite Ets; left; reflexivity|exact V].
Qed.

Lemma curinv0 : CurInv (repeat (None, 0%Q) (cnb base)).
Proof.
  assert (E : forall t, scur (repeat (None, 0%Q) (cnb base)) t = (None, 0%Q)).
  { intro t. unfold scur. destruct (Nat.lt_ge_cases t (cnb base)) as [H|H]; [apply nth_repeat|]. apply nth_overflow. rewrite repeat_length. exact H. }
  split; [apply repeat_length| |]; intros t; rewrite E.
  - intros q Eq. injection Eq as <-. reflexivity.
  - intros items q Eq. discriminate.
Qed.

Lemma siterations_inv : forall left fuel goal call reports r b, Forall good reports -> siterations left fuel i o goal call reports = Some (r, b) -> Forall good r.
Proof.
  induction left as [|l IH]; intros fuel goal call reports r b R E; [injection E as <- _; exact R|]. cbn [siterations] in E.
  assert (K : STInv (mkST call (repeat (None, 0%Q) (cnb base)) reports)) by (split; [apply curinv0|exact R]).
  destruct (siteration fuel i o call reports) as [res|] eqn:Es; [|discriminate]. unfold siteration in Es.
  pose proof (sloop_inv fuel [] (fun _ => 0) _ res inv_nil K Es) as H.
  destruct res as [[s st]|rs|]; [|injection E as <- _; exact H|injection E as <- _; exact R].
  destruct H as [Hs Hr]. assert (R' : Forall good (st_reports st ++ [s])) by (apply Forall_app; split; [exact Hr|constructor; [exact Hs|constructor]]).
  cbv zeta in E. destruct (cn_objective (si_base i)); try (eapply IH; [exact R'|exact E]).
  - match type of E with (if ?c then _ else _) = _ => destruct c end; [injection E as <- _; exact R'|eapply IH; [exact R'|exact E]].
  - match type of E with (if ?c then _ else _) = _ => destruct c end; [injection E as <- _; exact R'|eapply IH; [exact R'|exact E]].
Qed.

Lemma siterations_ends : forall left fuel goal call reports, Forall good reports -> cnumber_of_bins base < Z.of_nat fuel -> siterations left fuel i o goal call reports <> None.
Proof.
  induction left as [|l IH]; intros fuel goal call reports R Hf; [discriminate|]. cbn [siterations].
  assert (K : STInv (mkST call (repeat (None, 0%Q) (cnb base)) reports)) by (split; [apply curinv0|exact R]).
  destruct (siteration fuel i o call reports) as [res|] eqn:Es; unfold siteration in Es.
  2: { exfalso. eapply (sloop_ends fuel [] (fun _ => 0)); [apply inv_nil|exact K|unfold total_bins; rewrite zsum_nil; lia|exact Es]. }
  pose proof (sloop_inv fuel [] (fun _ => 0) _ res inv_nil K Es) as H.
  destruct res as [[s st]|rs|]; [|discriminate|discriminate].
  destruct H as [Hs Hr]. assert (R' : Forall good (st_reports st ++ [s])) by (apply Forall_app; split; [exact Hr|constructor; [exact Hs|constructor]]).
  cbv zeta. destruct (cn_objective (si_base i)); try (apply IH; assumption).
  - match goal with |- (if ?c then _ else _) <> _ => destruct c end; [discriminate|apply IH; assumption].
  - match goal with |- (if ?c then _ else _) <> _ => destruct c end; [discriminate|apply IH; assumption].
Qed.
End Loop.

(** ** Reports are never dropped *)

Lemma stry_reports : forall i o s pf st t, (forall k, or_end o k = false) ->
  match stry i o s pf st t with
  | XOk st' => (length (st_reports st) <= length (st_reports st'))%nat
  | XTime _ => False
  | XThrow => True
  end.
Proof.
  intros i o s pf st t H. unfold stry. destruct (_ && sstill_valid _ _ _ _ _); [lia|]. destruct (1 <? _); [exact I|]. cbv zeta. rewrite !H.
  destruct (sa_bins (or_solve o (st_call st) (skp i s pf t))); [cbn [st_reports]; lia|]. destruct (_ <? 1); [exact I|].
  match goal with |- context [if ?c then XOk ?x else XOk ?y] => replace (if c then XOk x else XOk y) with (XOk (if c then x else y)) by (destruct c; reflexivity) end.
  destruct (sa_bins _) as [|[? positions] ?]; [exact I|]. destruct (forallb _ _); [|exact I]. cbn [st_reports].
  destruct (_ && _); rewrite ?app_length; lia.
Qed.

Lemma stry_all_reports : forall i o s pf ts st, (forall k, or_end o k = false) ->
  match stry_all i o s pf ts st with
  | XOk st' => (length (st_reports st) <= length (st_reports st'))%nat
  | XTime _ => False
  | XThrow => True
  end.
Proof.
  intros i o s pf ts st H. revert st. induction ts as [|t ts IH]; intros st; cbn [stry_all]; [lia|].
  pose proof (stry_reports i o s pf st t H) as S1. destruct (stry i o s pf st t) as [st'|r|]; [|destruct S1|exact I].
  specialize (IH st'). destruct (stry_all i o s pf ts st') as [st2|r|]; [lia|exact IH|exact I].
Qed.

Lemma sloop_reports : forall i o, (forall k, or_end o k = false) -> forall fuel s pf st res, sloop fuel i o s pf st = Some res ->
  match res with
  | XOk (s', st') => (length (st_reports st) <= length (st_reports st'))%nat
  | XTime _ => False
  | XThrow => True
  end.
Proof.
  intros i o H. induction fuel as [|f IH]; intros s pf st res E; [discriminate|]. cbn [sloop] in E. rewrite H in E. cbv zeta in E.
  destruct (_ =? _) in E; [injection E as <-; cbn [st_reports]; lia|]. destruct (_ =? _) in E; [injection E as <-; cbn [st_reports]; lia|].
  pose proof (stry_all_reports i o s pf (stypes i s) (mkST (S (st_call st)) (st_cur st) (st_reports st)) H) as A. cbn [st_reports] in A.
  destruct (stry_all i o s pf (stypes i s) _) as [st'|r|]; [|destruct A|injection E as <-; exact I].
  assert (G : forall s' pf', sloop f i o s' pf' st' = Some res -> match res with XOk (s'', st'') => (length (st_reports st) <= length (st_reports st''))%nat | XTime _ => False | XThrow => True end).
  { intros s' pf' E'. specialize (IH _ _ _ _ E'). destruct res as [[s2 st2]|r|]; [lia|exact IH|exact I]. }
  destruct (sbest i (st_cur st') (stypes i s)) as [t|].
  - destruct (fst (scur (st_cur st') t)) as [items|]; [|injection E as <-; exact I]. destruct (_ <? 1); [injection E as <-; exact I|].
    apply (G _ _ E).
  - destruct (is_vbpp i); [injection E as <-; lia|]. destruct (stypes i s) as [|t l]; [injection E as <-; exact I|]. apply (G _ _ E).
Qed.
