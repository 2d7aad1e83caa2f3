(** * Proofs about the dichotomic search *)

From Coq Require Import List ZArith QArith Qround Bool Lia Lqa Permutation.
From Verif Require Import Util Common_Model OneDim_Model ColGen_Model ColGen_Spec ColGenCap_Proof ColGenPrice_Proof Svc_Model Svc_Spec Svc_Proof Dicho_Model Dicho_Spec.
Import ListNotations.
Open Scope Z_scope.

Lemma zlist_eqb_eq : forall a b, zlist_eqb a b = true <-> a = b.
Proof.
  induction a as [|x a IH]; intros [|y b]; cbn; try (split; [discriminate|congruence]); [split; reflexivity|].
  rewrite andb_true_iff, Z.eqb_eq, IH. split; [intros [-> ->]; reflexivity|intro E; injection E as -> ->; split; reflexivity].
Qed.

Lemma dlookup_in : forall sel m v, dlookup sel m = Some v -> In (sel, v) m.
Proof.
  intros sel. induction m as [|[k w] m IH]; intros v E; [discriminate|]. cbn in E. destruct (zlist_eqb sel k) eqn:K.
  - apply zlist_eqb_eq in K. subst. injection E as ->. left. reflexivity.
  - right. apply IH. exact E.
Qed.

Lemma dlookup_none : forall sel m, dlookup sel m = None -> ~ In sel (map fst m).
Proof.
  intros sel. induction m as [|[k w] m IH]; intros E; [intros []|]. cbn in E. destruct (zlist_eqb sel k) eqn:K; [discriminate|].
  cbn. intros [->|H]; [|exact (IH E H)]. rewrite (proj2 (zlist_eqb_eq sel sel) eq_refl) in K. discriminate.
Qed.

Lemma dlookup_app : forall sel m k v, dlookup sel (m ++ [(k, v)]) = match dlookup sel m with Some w => Some w | None => if zlist_eqb sel k then Some v else None end.
Proof. intros sel. induction m as [|[k' w] m IH]; intros k v; cbn; [reflexivity|]. destruct (zlist_eqb sel k'); [reflexivity|apply IH]. Qed.

Section Inst.
Variables (i : DInst) (o : DOracle) (initial : Q).
Hypothesis Hi : dinst_ok i.

(** ** The selection *)

Lemma dkept_le : forall kp contains t, 0 <= dkept kp contains t <= occ kp t.
Proof.
  intros kp contains t. unfold dkept. split.
  - apply zsum_nonneg. intros p _. destruct ((nth p kp O =? t)%nat && negb (contains p)); lia.
  - apply Z.le_trans with (zsum (fun p => if (nth p kp O =? t)%nat then 1 else 0) (seq 0 (length kp))).
    + apply zsum_le. intros p _. destruct (nth p kp O =? t)%nat; cbn; [destruct (contains p); cbn; lia|lia].
    + assert (G : forall l, zsum (fun p => if (nth p l O =? t)%nat then 1 else 0) (seq 0 (length l)) = occ l t).
      { induction l as [|a l IH] using rev_ind; [reflexivity|]. rewrite app_length. cbn [length]. rewrite Nat.add_1_r, seq_S, zsum_snoc, occ_app. cbn [Nat.add].
        rewrite app_nth2, Nat.sub_diag by lia. cbn [nth]. rewrite <- IH. f_equal.
        - apply zsum_ext. intros p Hp. apply in_seq in Hp. rewrite app_nth1 by lia. reflexivity.
        - rewrite occ_cons. replace (occ [] t) with 0 by reflexivity. destruct (a =? t)%nat; lia. }
      rewrite G. lia.
Qed.

Lemma dkp_occ : forall capacity t, (t < cnb (dbase i))%nat ->
  occ (dkp i capacity) t = if capacity <? dspace i t then 0 else cb_copies (cbin (dbase i) t) - cb_copies_min (cbin (dbase i) t).
Proof.
  intros capacity t Ht. unfold dkp, dtypes.
  assert (G : forall l, NoDup l -> occ (flat_map (fun t => if capacity <? dspace i t then [] else repeat t (Z.to_nat (cb_copies (cbin (dbase i) t) - cb_copies_min (cbin (dbase i) t)))) l) t
    = if in_dec Nat.eq_dec t l then (if capacity <? dspace i t then 0 else Z.of_nat (Z.to_nat (cb_copies (cbin (dbase i) t) - cb_copies_min (cbin (dbase i) t)))) else 0).
  { induction l as [|a l IH]; intros ND; [reflexivity|]. inversion ND as [|? ? Na ND']; subst. cbn [flat_map]. rewrite occ_app, IH by exact ND'.
    destruct (Nat.eq_dec a t) as [->|Hn].
    - destruct (in_dec Nat.eq_dec t (t :: l)) as [_|K]; [|exfalso; apply K; left; reflexivity].
      destruct (in_dec Nat.eq_dec t l) as [K|_]; [contradiction|]. destruct (capacity <? dspace i t); [reflexivity|]. rewrite occ_repeat, Nat.eqb_refl. lia.
    - assert (Z0 : occ (if capacity <? dspace i a then [] else repeat a (Z.to_nat (cb_copies (cbin (dbase i) a) - cb_copies_min (cbin (dbase i) a)))) t = 0).
      { destruct (capacity <? dspace i a); [reflexivity|]. rewrite occ_repeat, (proj2 (Nat.eqb_neq _ _) Hn). reflexivity. }
      rewrite Z0. destruct (in_dec Nat.eq_dec t (a :: l)) as [K|K]; destruct (in_dec Nat.eq_dec t l) as [K'|K']; try lia.
      + destruct K as [K|K]; [congruence|contradiction].
      + exfalso. apply K. right. exact K'. }
  rewrite G by apply seq_NoDup. destruct (in_dec Nat.eq_dec t (seq 0 (cnb (dbase i)))) as [_|K]; [|exfalso; apply K; apply in_seq; lia].
  destruct (capacity <? dspace i t); [reflexivity|]. rewrite Z2Nat.id; [reflexivity|]. specialize (Hi t Ht). lia.
Qed.

Lemma dselection_nth : forall kp contains t, (t < cnb (dbase i))%nat -> nth t (dselection i kp contains) 0 = cb_copies_min (cbin (dbase i) t) + dkept kp contains t.
Proof.
  intros kp contains t Ht. unfold dselection, dtypes. set (F := fun t => cb_copies_min (cbin (dbase i) t) + dkept kp contains t).
  rewrite (nth_indep _ 0 (F O)) by (rewrite map_length, seq_length; exact Ht). rewrite (map_nth F), seq_nth by exact Ht. reflexivity.
Qed.

Lemma dselection_selects : forall capacity contains, selects i (dselection i (dkp i capacity) contains).
Proof.
  intros capacity contains. split; [unfold dselection, dtypes; rewrite map_length, seq_length; reflexivity|].
  intros t Ht. rewrite dselection_nth by exact Ht. pose proof (dkept_le (dkp i capacity) contains t) as K. rewrite dkp_occ in K by exact Ht. specialize (Hi t Ht).
  destruct (capacity <? dspace i t); lia.
Qed.

(** ** The sub-problem *)

Lemma dsorted_perm : Permutation (dtypes i) (dsorted i).
Proof.
  unfold dsorted. generalize (dtypes i). induction l as [|a l IH]; [reflexivity|]. cbn [fold_right]. rewrite IH at 1. apply space_insert_perm.
Qed.

Lemma dgroup_some : forall number l, dgroup i number = Some l -> l = map (fun t => (t, number t)) (filter (fun t => negb (number t <=? 0)) (dsorted i)).
Proof.
  intros number l. unfold dgroup.
  assert (G : forall ts acc l, fold_left (fun acc t => match acc with None => None | Some l => if number t <=? 0 then Some l
     else if number t <? cb_copies_min (cbin (dbase i) t) then None else Some (l ++ [(t, number t)]) end) ts (Some acc) = Some l ->
     l = acc ++ map (fun t => (t, number t)) (filter (fun t => negb (number t <=? 0)) ts)).
  { induction ts as [|t ts IH]; intros acc l' E; [injection E as <-; rewrite app_nil_r; reflexivity|]. cbn [fold_left] in E. cbn [filter].
    destruct (number t <=? 0); [apply IH; exact E|]. cbn [negb]. destruct (number t <? cb_copies_min (cbin (dbase i) t)).
    - exfalso. clear -E. revert E. induction ts as [|u ts IH]; [discriminate|]. cbn [fold_left]. exact IH.
    - apply IH in E. rewrite E, <- app_assoc. reflexivity. }
  apply (G (dsorted i) [] l).
Qed.

Lemma dgroup_defined : forall number, (forall t, (t < cnb (dbase i))%nat -> 0 < number t -> cb_copies_min (cbin (dbase i) t) <= number t) -> dgroup i number <> None.
Proof.
  intros number H. unfold dgroup. assert (G : forall ts acc, (forall t, In t ts -> (t < cnb (dbase i))%nat) -> fold_left (fun acc t => match acc with None => None | Some l => if number t <=? 0 then Some l
     else if number t <? cb_copies_min (cbin (dbase i) t) then None else Some (l ++ [(t, number t)]) end) ts (Some acc) <> None).
  { induction ts as [|t ts IH]; intros acc Ht; [discriminate|]. cbn [fold_left]. destruct (Z.leb_spec (number t) 0) as [K|K]; [apply IH; intros; apply Ht; right; assumption|].
    destruct (Z.ltb_spec (number t) (cb_copies_min (cbin (dbase i) t))) as [K'|K']; [specialize (H t (Ht t (or_introl eq_refl)) K); lia|].
    apply IH. intros; apply Ht; right; assumption. }
  apply G. intros t Ht. apply (Permutation_in _ (Permutation_sym dsorted_perm)) in Ht. apply in_seq in Ht. lia.
Qed.

Lemma dgroup_sum : forall number t l, dgroup i number = Some l -> (t < cnb (dbase i))%nat ->
  zsum (fun e => if (fst e =? t)%nat then snd e else 0) l = Z.max 0 (number t).
Proof.
  intros number t l E Ht. rewrite (dgroup_some _ _ E). rewrite zsum_map. cbn [fst snd].
  assert (G : forall ts, NoDup ts -> zsum (fun u => if (u =? t)%nat then number u else 0) (filter (fun u => negb (number u <=? 0)) ts)
    = if in_dec Nat.eq_dec t ts then Z.max 0 (number t) else 0).
  { induction ts as [|a ts IH]; intros ND; [reflexivity|]. inversion ND as [|? ? Na ND']; subst. cbn [filter].
    destruct (Nat.eq_dec a t) as [->|Hn].
    - destruct (in_dec Nat.eq_dec t (t :: ts)) as [_|K]; [|exfalso; apply K; left; reflexivity]. specialize (IH ND').
      destruct (in_dec Nat.eq_dec t ts) as [K|_]; [contradiction|]. destruct (Z.leb_spec (number t) 0) as [K|K]; cbn [negb].
      + rewrite IH. lia.
      + rewrite zsum_cons, IH, Nat.eqb_refl. lia.
    - specialize (IH ND'). destruct (in_dec Nat.eq_dec t (a :: ts)) as [K|K]; destruct (in_dec Nat.eq_dec t ts) as [K'|K'].
      + destruct (negb (number a <=? 0)); [|exact IH]. rewrite zsum_cons, IH, (proj2 (Nat.eqb_neq _ _) Hn). lia.
      + destruct K as [K|K]; [congruence|contradiction].
      + exfalso. apply K. right. exact K'.
      + destruct (negb (number a <=? 0)); [|exact IH]. rewrite zsum_cons, IH, (proj2 (Nat.eqb_neq _ _) Hn). lia. }
  rewrite G by (eapply Permutation_NoDup; [apply dsorted_perm|apply seq_NoDup]).
  destruct (in_dec Nat.eq_dec t (dsorted i)) as [_|K]; [reflexivity|]. exfalso. apply K. apply (Permutation_in _ dsorted_perm). apply in_seq. lia.
Qed.

Lemma dgroup_types : forall number l e, dgroup i number = Some l -> In e l -> (fst e < cnb (dbase i))%nat /\ 0 < snd e.
Proof.
  intros number l e E He. rewrite (dgroup_some _ _ E) in He. apply in_map_iff in He. destruct He as (t & <- & Ht). apply filter_In in Ht. destruct Ht as [Ht Hp].
  apply (Permutation_in _ (Permutation_sym dsorted_perm)) in Ht. apply in_seq in Ht. cbn. apply negb_true_iff, Z.leb_gt in Hp. split; [lia|exact Hp].
Qed.

Lemma dgroup_total : forall number l, dgroup i number = Some l -> (forall t, (t < cnb (dbase i))%nat -> 0 <= number t) -> zsum snd l = zsum number (dtypes i).
Proof.
  intros number l E Hn. rewrite (dgroup_some _ _ E), zsum_map. cbn [snd].
  rewrite (zsum_perm _ _ _ _ dsorted_perm).
  assert (H : forall t, In t (dsorted i) -> 0 <= number t). { intros t Ht. apply Hn. apply (Permutation_in _ (Permutation_sym dsorted_perm)) in Ht. apply in_seq in Ht. lia. }
  revert H. generalize (dsorted i). induction l0 as [|a ts IH]; intros H; [reflexivity|]. cbn [filter]. rewrite zsum_cons, <- IH by (intros; apply H; right; assumption).
  specialize (H a (or_introl eq_refl)). destruct (Z.leb_spec (number a) 0); cbn [negb]; [lia|]. rewrite zsum_cons. reflexivity.
Qed.

(** The translated solution. *)
Lemma translate_bins : forall bins s sol t, dtranslate bins s = Some sol ->
  used_bins sol t = zsum (fun p => if (fst (nth p bins (O, 0%Z)) =? t)%nat then used_bins s p else 0) (seq 0 (length bins)).
Proof.
  intros bins s sol t E. unfold dtranslate in E. destruct (forallb _ s) eqn:F; [|discriminate]. injection E as <-. rewrite forallb_forall in F.
  assert (H : forall b, In b s -> (b_type b < length bins)%nat) by (intros b Hb; apply Nat.ltb_lt; apply (F b Hb)). clear F.
  rewrite (zsum_ext _ _ (fun p => used_bins s p * (if (fst (nth p bins (O, 0%Z)) =? t)%nat then 1 else 0))) by (intros p _; destruct (fst (nth p bins (O, 0%Z)) =? t)%nat; lia).
  rewrite <- (fixed_by_type (length bins) (fun p => if (fst (nth p bins (O, 0%Z)) =? t)%nat then 1 else 0) s H).
  unfold used_bins. rewrite zsum_map. apply zsum_ext. intros [[bt bc] bi] _. unfold b_type, b_copies. cbn [fst snd]. destruct (fst (nth bt bins (O, 0%Z)) =? t)%nat; lia.
Qed.

Lemma translate_items : forall bins s sol, dtranslate bins s = Some sol ->
  (forall x, used_items sol x = used_items s x) /\ total_bins sol = total_bins s /\ ssol_items sol = ssol_items s.
Proof.
  intros bins s sol E. unfold dtranslate in E. destruct (forallb _ s); [|discriminate]. injection E as <-.
  unfold used_items, total_bins, ssol_items. rewrite !zsum_map. repeat split. intro x. rewrite zsum_map. reflexivity.
Qed.

Lemma zsum_nth_pairs : forall (f : nat * Z -> Z) l, zsum f l = zsum (fun p => f (nth p l (O, 0))) (seq 0 (length l)).
Proof.
  intros f. induction l as [|a l IH] using rev_ind; [reflexivity|]. rewrite app_length. cbn [length]. rewrite Nat.add_1_r, seq_S, !zsum_snoc. cbn [Nat.add].
  rewrite app_nth2, Nat.sub_diag by lia. cbn [nth]. rewrite IH. f_equal. apply zsum_ext. intros p Hp. apply in_seq in Hp. rewrite app_nth1 by lia. reflexivity.
Qed.

Lemma translate_valid : forall sel bins number c sol, dhonest i o -> selects i sel -> dbpp i sel = Some (bins, number) ->
  dtranslate bins (do_solve o c bins) = Some sol ->
  svalid (di_inst i) sol /\ number = zsum (fun t => nth t sel 0) (dtypes i).
Proof.
  intros sel bins number c sol Ho [Hl Hsel] E T. unfold dbpp in E.
  destruct (dgroup i (fun t => nth t sel 0)) as [a|] eqn:Ea; [|discriminate]. destruct (dgroup i (fun t => cb_copies (cbin (dbase i) t) - nth t sel 0)) as [b|] eqn:Eb; [|discriminate].
  injection E as <- <-. destruct (translate_items _ _ _ T) as (Ti & _ & _). split.
  - split.
    + intros e He. unfold dtranslate in T. destruct (forallb _ _) eqn:F; [|discriminate]. injection T as <-. apply in_map_iff in He. destruct He as (e0 & <- & He0).
      destruct (dh_bins i o Ho c _ e0 He0) as (K1 & K2 & K3). destruct e0 as [[bt bc] bi]. unfold b_type, b_copies, b_items in *. cbn [fst snd] in *. split; [|split; [exact K2|exact K3]].
      pose proof (nth_In (a ++ b) (O, 0) K1) as Hin. apply in_app_or in Hin. destruct Hin as [Hin|Hin]; [exact (proj1 (dgroup_types _ _ _ Ea Hin))|exact (proj1 (dgroup_types _ _ _ Eb Hin))].
    + intros t Ht. rewrite (translate_bins _ _ _ t T).
      apply Z.le_trans with (zsum (fun p => if (fst (nth p (a ++ b) (O, 0%Z)) =? t)%nat then snd (nth p (a ++ b) (O, 0)) else 0) (seq 0 (length (a ++ b)))).
      * apply zsum_le. intros p Hp. apply in_seq in Hp. destruct (fst (nth p (a ++ b) (O, 0%Z)) =? t)%nat; [|lia]. apply (dh_types i o Ho); [lia|].
        pose proof (nth_In (a ++ b) (O, 0) (proj2 Hp)) as Hin. apply in_app_or in Hin. destruct Hin as [Hin|Hin]; [apply (dgroup_types _ _ _ Ea) in Hin|apply (dgroup_types _ _ _ Eb) in Hin]; lia.
      * rewrite <- (zsum_nth_pairs (fun e => if (fst e =? t)%nat then snd e else 0)), zsum_app, (dgroup_sum _ _ _ Ea Ht), (dgroup_sum _ _ _ Eb Ht).
        specialize (Hsel t Ht). specialize (Hi t Ht). fold (dbase i). lia.
    + intros x Hx. rewrite Ti. apply (dh_items i o Ho). exact Hx.
  - apply (dgroup_total _ _ Ea). intros t Ht. specialize (Hsel t Ht). specialize (Hi t Ht). lia.
Qed.

(** ** One turn *)

(** The selections of the memory are sets of bins, each tried once; the
    successes have a report. *)
Record DInv (s : DState) : Prop := {
  di_nodup : NoDup (map fst (ds_memory s));
  di_count : length (ds_memory s) = length (ds_reports s);
  di_selects : forall sel v, In (sel, v) (ds_memory s) -> selects i sel;
  di_true : forall sel, In (sel, true) (ds_memory s) -> dhonest i o ->
    exists sol, In sol (ds_reports s) /\ ssol_items sol = cnumber_of_items (dbase i) /\ total_bins sol <= zsum (fun t => nth t sel 0) (dtypes i);
  di_valid : dhonest i o -> forall sol, In sol (ds_reports s) -> svalid (di_inst i) sol
}.

(** The result of a turn: the selection tried and the verdict. *)
Lemma dturn_inv : forall s, DInv s ->
  let waste := dwaste initial (ds_lb s) (ds_ub s) in
  match dturn i o initial s with
  | inl s' => DInv s' /\ ds_call s' = S (ds_call s) /\
      (exists contains, let sel := dselection i (dkp i (dcapacity i waste)) contains in
         (In (sel, true) (ds_memory s') /\ ds_lb s' = ds_lb s /\ ds_ub s' = waste)
         \/ (In (sel, false) (ds_memory s') /\ ds_lb s' = waste /\ ds_ub s' = ds_ub s))
      /\ (forall e, In e (ds_memory s) -> In e (ds_memory s'))
  | inr (DEnd s') => DInv s' /\ (s' = s \/ (ds_lb s' = waste /\ ds_ub s' = ds_ub s)) /\ (forall e, In e (ds_memory s) -> In e (ds_memory s'))
  | inr (DThrow s') => s' = s
  end.
Proof.
  intros s I. cbv zeta. unfold dturn. cbv zeta. destruct (do_end o (ds_call s)); [split; [exact I|split; [left; reflexivity|intros e He; exact He]]|].
  set (waste := dwaste initial (ds_lb s) (ds_ub s)). set (kp := dkp i (dcapacity i waste)). set (contains := do_contains o (ds_call s) (dcapacity i waste) kp). set (sel := dselection i kp contains).
  destruct (dlookup sel (ds_memory s)) as [found|] eqn:El.
  - pose proof (dlookup_in _ _ _ El) as Hin.
    assert (D : forall lb ub c, DInv (mkDS lb ub (ds_memory s) (ds_reports s) c)) by (intros; destruct I as [I1 I2 I3 I4 I5]; split; assumption).
    destruct found.
    + split; [apply D|]. split; [reflexivity|]. split; [|intros e He; exact He]. exists contains. cbv zeta. left. split; [exact Hin|split; reflexivity].
    + destruct (dremoved kp contains =? cnumber_of_bins (dbase i)).
      * split; [apply D|]. split; [right; split; reflexivity|intros e He; exact He].
      * split; [apply D|]. split; [reflexivity|]. split; [|intros e He; exact He]. exists contains. cbv zeta. right. split; [exact Hin|split; reflexivity].
  - destruct (dbpp i sel) as [[bins number]|] eqn:Eb; [|reflexivity].
    destruct (dtranslate bins (do_solve o (ds_call s) bins)) as [sol|] eqn:Et; [|reflexivity].
    set (found := (ssol_items (do_solve o (ds_call s) bins) =? cnumber_of_items (dbase i)) && (total_bins (do_solve o (ds_call s) bins) <=? number)).
    assert (Hsel : selects i sel) by apply dselection_selects.
    assert (D : forall lb ub c, DInv (mkDS lb ub (ds_memory s ++ [(sel, found)]) (ds_reports s ++ [sol]) c)).
    { intros lb ub c. destruct I as [I1 I2 I3 I4 I5]. split; cbn [ds_memory ds_reports].
      - rewrite map_app. cbn [map fst]. apply nodup_app_intro; [exact I1|repeat constructor; intros []|]. intros x Hx [<-|[]]. exact (dlookup_none _ _ El Hx).
      - rewrite !app_length, I2. reflexivity.
      - intros sel' v Hin. apply in_app_or in Hin. destruct Hin as [Hin|[E|[]]]; [exact (I3 _ _ Hin)|]. injection E as <- _. exact Hsel.
      - intros sel' Hin Ho. apply in_app_or in Hin. destruct Hin as [Hin|[E|[]]].
        + destruct (I4 _ Hin Ho) as (sol' & K1 & K2). exists sol'. split; [apply in_or_app; left; exact K1|exact K2].
        + injection E as <- Ef. exists sol. split; [apply in_or_app; right; left; reflexivity|]. unfold found in Ef. apply andb_prop in Ef. destruct Ef as [E1 E2].
          apply Z.eqb_eq in E1. apply Z.leb_le in E2. destruct (translate_items _ _ _ Et) as (_ & T2 & T3). destruct (translate_valid _ _ _ _ _ Ho Hsel Eb Et) as [_ En].
          rewrite T2, T3, <- En. split; [exact E1|exact E2].
      - intros Ho sol' Hin. apply in_app_or in Hin. destruct Hin as [Hin|[<-|[]]]; [exact (I5 Ho _ Hin)|]. apply (translate_valid _ _ _ _ _ Ho Hsel Eb Et). }
    assert (Hnew : In (sel, found) (ds_memory s ++ [(sel, found)])) by (apply in_or_app; right; left; reflexivity).
    assert (Hold : forall e, In e (ds_memory s) -> In e (ds_memory s ++ [(sel, found)])) by (intros e He; apply in_or_app; left; exact He).
    destruct found.
    + split; [apply D|]. split; [reflexivity|]. split; [|exact Hold]. exists contains. cbv zeta. left. split; [exact Hnew|split; reflexivity].
    + destruct (dremoved kp contains =? cnumber_of_bins (dbase i)).
      * split; [apply D|]. split; [right; split; reflexivity|exact Hold].
      * split; [apply D|]. split; [reflexivity|]. split; [|exact Hold]. exists contains. cbv zeta. right. split; [exact Hnew|split; reflexivity].
Qed.

Lemma dinv_start : forall ub, DInv (dstart ub).
Proof. intro ub. split; cbn; [constructor|reflexivity|intros ? ? []|intros ? []|intros _ ? []]. Qed.

(** ** The interval *)

Hypothesis Hinit : (0 < initial)%Q.

Definition waste_ok (e : Ext) : Prop := match e with Fin q => (0 <= q)%Q | Inf => True end.
Definition IInv (s : DState) : Prop := waste_ok (ds_lb s) /\ waste_ok (ds_ub s) /\ (dcontinue (ds_lb s) (ds_ub s) = true -> ext_le (ds_lb s) (ds_ub s)).

(** The waste tried lies in the interval, strictly above the lower bound. *)
Lemma dwaste_between : forall l ub, (0 <= l)%Q -> waste_ok ub -> dcontinue (Fin l) ub = true ->
  match dwaste initial (Fin l) ub with
  | Fin w => (l < w)%Q /\ match ub with Fin u => (w < u)%Q /\ (u - w == (u - l) / 2)%Q /\ (w - l == (u - l) / 2)%Q | Inf => (l == 0)%Q /\ w = initial \/ ~ (l == 0)%Q /\ w = (l * 2)%Q /\ (l * 2 <= dbl_max)%Q end
  | Inf => ub = Inf /\ (dbl_max < l * 2)%Q
  end.
Proof.
  intros l ub Hl Hu Hc. destruct ub as [u|]; cbn in *.
  - unfold Qltb, dtolerance in Hc. apply negb_true_iff, not_true_iff_false in Hc. rewrite Qle_bool_iff in Hc.
    assert (l < u)%Q by lra. split; [apply Qlt_shift_div_l; lra|]. split; [apply Qlt_shift_div_r; lra|]. split; field.
  - destruct (Qeq_bool l 0) eqn:E.
    + apply Qeq_bool_iff in E. split; [lra|]. left. split; [exact E|reflexivity].
    + assert (~ (l == 0)%Q) by (intro K; apply Qeq_bool_iff in K; congruence). unfold double2. destruct (Qle_bool (l * 2) dbl_max) eqn:E2.
      * apply Qle_bool_iff in E2. split; [lra|]. right. repeat split; assumption.
      * split; [reflexivity|]. apply not_true_iff_false in E2. rewrite Qle_bool_iff in E2. lra.
Qed.
End Inst.
