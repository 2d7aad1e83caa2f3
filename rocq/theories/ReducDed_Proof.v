(** * The dedicated bins of the rectangle reduction: items alone, perfect pairs *)

From Coq Require Import List ZArith QArith Bool Arith Lia Permutation.
From Verif Require Import Util Common_Model Rect_Model Rect_Spec Reduc_Model Reduc_Spec Reduc_Proof ReducInv_Proof ReducGroup_Proof.
Import ListNotations.
Open Scope Z_scope.

Section Ded.
Variable o : ROracle.
Variable i : RInstance.
Variables W H : Z.
Notation n := (n_types i) (only parsing).

Definition val (s : Red) (z x : nat) : Z := if rt_removed (rtype s x) then 0 else tcontent z x (rtype s x).

Definition ded_rel (s : Red) (D : list (list Comp)) : Prop :=
  exists F P, flat_map full_items (re_full s) = map Some F /\ Z.of_nat (length F) = zsum fb_copies (re_full s)
    /\ flat_map pair_items (re_pairs s) = map Some P /\ Z.of_nat (length P) = zsum pp_copies (re_pairs s)
    /\ D = F ++ P ++ re_groups s.

Lemma ded_length : forall s D, ded_rel s D -> Z.of_nat (length D) = dedicated s.
Proof. intros s D (F & P & _ & A & _ & B & ->). unfold dedicated. rewrite !app_length. lia. Qed.

Lemma inv_ded : forall s, Inv i W H s -> exists D, ded_rel s D
  /\ (forall cs, In cs D -> boxed i (mkBox 0 0 W H) (flat_map (place_comp 0 0) cs))
  /\ forall z, (z < n)%nat -> zsum (val s z) (seq 0 n) + zsum (lcount z) D = ri_copies (ritem i z).
Proof.
  intros s [_ _ (F & P & D1 & D2 & D3 & D4 & D5 & D6) _]. exists (F ++ P ++ re_groups s). split; [|split; [exact D5|exact D6]].
  exists F, P. repeat (split; [assumption|]). reflexivity.
Qed.

Lemma inv_intro : forall s D, length (re_types s) = n -> (forall x, (x < n)%nat -> live s x -> type_ok i x (rtype s x)) -> ded_rel s D ->
  (forall cs, In cs D -> boxed i (mkBox 0 0 W H) (flat_map (place_comp 0 0) cs)) ->
  (forall z, (z < n)%nat -> zsum (val s z) (seq 0 n) + zsum (lcount z) D = ri_copies (ritem i z)) ->
  (0 <= rb_copies (rbin i 0) -> dedicated s <= rb_copies (rbin i 0)) -> Inv i W H s.
Proof.
  intros s D A B (F & P & D1 & D2 & D3 & D4 & ->) E G K. split; [exact A|exact B| |exact K]. exists F, P. repeat (split; [assumption|]). exact G.
Qed.

(** Items moved to dedicated bins. *)
Lemma inv_step : forall s s' new, Inv i W H s -> length (re_types s') = n ->
  (forall x, (x < n)%nat -> live s' x -> type_ok i x (rtype s' x)) ->
  (forall D, ded_rel s D -> exists D', ded_rel s' D' /\ Permutation D' (D ++ new)) ->
  (forall cs, In cs new -> boxed i (mkBox 0 0 W H) (flat_map (place_comp 0 0) cs)) ->
  (forall z, (z < n)%nat -> zsum (val s' z) (seq 0 n) + zsum (lcount z) new = zsum (val s z) (seq 0 n)) ->
  no_room i s (Z.of_nat (length new)) = false -> Inv i W H s'.
Proof.
  intros s s' new I L T DD B V R. destruct (inv_ded s I) as (D & D1 & D2 & D3). destruct (DD D D1) as (D' & E1 & E2).
  pose proof (ded_length _ _ D1) as N1. pose proof (ded_length _ _ E1) as N2. pose proof (Permutation_length E2) as N3. rewrite app_length in N3.
  apply (inv_intro s' D'); [exact L|exact T|exact E1| | |].
  - intros cs Hc. apply (Permutation_in _ E2) in Hc. apply in_app_or in Hc. destruct Hc as [Hc|Hc]; [apply D2; exact Hc|apply B; exact Hc].
  - intros z Hz. rewrite (zsum_perm _ _ _ _ E2), zsum_app. rewrite <- (D3 z Hz), <- (V z Hz). lia.
  - intros Hc. unfold no_room in R. apply andb_false_iff in R. destruct R as [R|R]; [apply Z.leb_gt in R; lia|]. apply Z.ltb_ge in R. lia.
Qed.

Lemma ded_groups : forall s s' new, re_full s' = re_full s -> re_pairs s' = re_pairs s -> re_groups s' = re_groups s ++ new ->
  forall D, ded_rel s D -> exists D', ded_rel s' D' /\ Permutation D' (D ++ new).
Proof.
  intros s s' new E1 E2 E3 D (F & P & D1 & D2 & D3 & D4 & ->). exists (F ++ P ++ re_groups s'). split.
  - exists F, P. rewrite E1, E2. repeat (split; [assumption|]). reflexivity.
  - rewrite E3, !app_assoc. reflexivity.
Qed.
Lemma ded_full : forall s s' f new, re_full s' = re_full s ++ [f] -> re_pairs s' = re_pairs s -> re_groups s' = re_groups s ->
  full_items f = map Some new -> Z.of_nat (length new) = fb_copies f ->
  forall D, ded_rel s D -> exists D', ded_rel s' D' /\ Permutation D' (D ++ new).
Proof.
  intros s s' f new E1 E2 E3 Ef El D (F & P & D1 & D2 & D3 & D4 & ->). exists ((F ++ new) ++ P ++ re_groups s'). split.
  - exists (F ++ new), P. rewrite E1, E2, flat_map_app, D1, zsum_app. cbn [flat_map]. rewrite app_nil_r, Ef, <- map_app, app_length, zsum_cons, zsum_nil.
    split; [reflexivity|]. split; [lia|]. split; [exact D3|]. split; [exact D4|reflexivity].
  - rewrite E3. rewrite <- !app_assoc. apply Permutation_app_head. rewrite (app_assoc P (re_groups s) new). apply Permutation_app_comm.
Qed.
Lemma ded_pairs : forall s s' f new, re_full s' = re_full s -> re_pairs s' = re_pairs s ++ [f] -> re_groups s' = re_groups s ->
  pair_items f = map Some new -> Z.of_nat (length new) = pp_copies f ->
  forall D, ded_rel s D -> exists D', ded_rel s' D' /\ Permutation D' (D ++ new).
Proof.
  intros s s' f new E1 E2 E3 Ef El D (F & P & D1 & D2 & D3 & D4 & ->). exists (F ++ (P ++ new) ++ re_groups s'). split.
  - exists F, (P ++ new). rewrite E1, E2, flat_map_app, D3, zsum_app. cbn [flat_map]. rewrite app_nil_r, Ef, <- map_app, app_length, zsum_cons, zsum_nil.
    split; [exact D1|]. split; [exact D2|]. split; [reflexivity|]. split; [lia|reflexivity].
  - rewrite E3. rewrite <- !app_assoc. apply Permutation_app_head. apply Permutation_app_head. apply Permutation_app_comm.
Qed.

Lemma extract_prior : forall t, rt_comps t = [] \/ length (rt_comps t) = Z.to_nat (rt_copies t) -> exists rest, extract (rt_comps t) (rt_copies t) = Some (prior t, rest).
Proof.
  intros t L. unfold prior. unfold extract. destruct (rt_comps t) as [|e l]; [eexists; reflexivity|]. destruct L as [L|L]; [discriminate L|].
  destruct (Nat.ltb_spec (length (e :: l)) (Z.to_nat (rt_copies t))) as [C|C]; [lia|]. eexists. reflexivity.
Qed.
Lemma prior_sum : forall z x t, rt_comps t = [] \/ length (rt_comps t) = Z.to_nat (rt_copies t) -> zsum (unitc z x) (prior t) = tcontent z x t.
Proof.
  intros z x t L. rewrite <- (zsum_nth_seq _ (unitc z x) []), (prior_length t L). apply zsum_ext. intros k Hk. apply in_seq in Hk.
  pose proof (prior_entry t k L ltac:(lia)) as E. rewrite (nth_error_nth _ _ _ E). reflexivity.
Qed.
Lemma prior_in : forall t e, rt_comps t = [] \/ length (rt_comps t) = Z.to_nat (rt_copies t) -> In e (prior t) -> exists k, (k < Z.to_nat (rt_copies t))%nat /\ e = entryt t k.
Proof.
  intros t e L He. destruct (In_nth _ _ [] He) as (k & Hk & E). rewrite (prior_length t L) in Hk. exists k. split; [exact Hk|].
  pose proof (prior_entry t k L Hk) as E'. apply (nth_error_nth _ _ []) in E'. congruence.
Qed.

(** ** An item alone in its bins *)

Definition alone (b : nat) (r : bool) (es : list (list Comp)) : list (list Comp) := map (fun e => [mkComp b 0 0 r e]) es.

Lemma alone_boxed : forall s b r, Inv i W H s -> (b < n)%nat -> live s b ->
  (r = false -> rt_x (rtype s b) <= W /\ rt_y (rtype s b) <= H) ->
  (r = true -> oriented i b = false /\ rt_y (rtype s b) <= W /\ rt_x (rtype s b) <= H) ->
  forall cs, In cs (alone b r (prior (rtype s b))) -> boxed i (mkBox 0 0 W H) (flat_map (place_comp 0 0) cs).
Proof.
  intros s b r I Hb Hl R1 R2 cs Hc. apply in_map_iff in Hc. destruct Hc as (e & <- & He). destruct (in_types _ _ _ _ I b Hb Hl) as [T1 T2 T3 T4 T5].
  destruct (prior_in _ e T3 He) as (k & Hk & ->). apply (fill_boxed i W H s _ [mkComp b 0 0 r []] _ I).
  - constructor; [|constructor]. split; [repeat split|]. exists k. split; [exact Hk|reflexivity].
  - intros c [<-|[]]. split.
    + split; [exact Hb|]. split; [exact Hl|]. intros E. cbn in E. apply R2. exact E.
    + unfold within, cbox. cbn. destruct r; [destruct (R2 eq_refl) as (_ & A & B)|destruct (R1 eq_refl) as (A & B)]; lia.
  - repeat constructor.
Qed.

Lemma alone_count : forall z s b r, type_ok i b (rtype s b) -> zsum (lcount z) (alone b r (prior (rtype s b))) = tcontent z b (rtype s b).
Proof.
  intros z s b r T. unfold alone. rewrite zsum_map. rewrite <- (prior_sum z b _ (ty_len _ _ _ T)). apply zsum_ext. intros e _. rewrite lcount_cons, lcount_nil. lia.
Qed.

(** The sum when one item type is removed. *)
Lemma val_removed : forall s s' z b, (b < n)%nat -> live s b -> rt_removed (rtype s' b) = true -> (forall x, (x < n)%nat -> x <> b -> rtype s' x = rtype s x) ->
  zsum (val s' z) (seq 0 n) + tcontent z b (rtype s b) = zsum (val s z) (seq 0 n).
Proof.
  intros s s' z b Hb Hl Hr Ho. rewrite <- (zsum_pick_seq (fun x => tcontent z x (rtype s x)) b n Hb), <- zsum_plus. apply zsum_ext. intros x Hx. apply in_seq in Hx.
  unfold val. destruct (Nat.eqb_spec b x) as [<-|E].
  - rewrite Hr. unfold live in Hl. rewrite Hl. lia.
  - rewrite (Ho x) by (auto; lia). lia.
Qed.

Lemma alone_length : forall b r es, length (alone b r es) = length es.
Proof. intros. apply map_length. Qed.

(** An item type captured alone: its type is removed and its copies are put
    alone in dedicated bins. *)
Definition captured (s s' : Red) (b : nat) (new : list (list Comp)) : Prop :=
  Inv i W H s' /\ rt_removed (rtype s' b) = true /\ length (re_types s') = length (re_types s)
  /\ (forall x, (x < n)%nat -> x <> b -> rtype s' x = rtype s x)
  /\ dedicated s' = dedicated s + rt_copies (rtype s b).

Lemma capture_ok : forall s b any, Inv i W H s -> (b < n)%nat -> live s b ->
  exists s' any', capture_alone i W H (Some (s, any)) b = Some (s', any')
    /\ ((s' = s /\ any' = any) \/ (any' = true /\ exists new, captured s s' b new)).
Proof.
  intros s b any I Hb Hl. unfold capture_alone. pose proof I as [I1 I2 _ _]. pose proof (I2 b Hb Hl) as T. pose proof T as [T1 T2 T3 T4 T5].
  set (t := rtype s b) in *. set (straight := (rt_x t <=? W) && (rt_y t <=? H)). set (turned := negb (oriented i b) && (rt_y t <=? W) && (rt_x t <=? H)).
  destruct (negb straight && negb turned) eqn:Ef; [eexists; eexists; split; [reflexivity|left; split; reflexivity]|].
  destruct (no_room i s (rt_copies t)) eqn:Er; [eexists; eexists; split; [reflexivity|left; split; reflexivity]|].
  destruct (extract_prior t T3) as (rest & Ee). rewrite Ee. eexists. eexists. split; [reflexivity|]. right. split; [reflexivity|].
  set (new := map (fun e => [mkComp b 0 0 (negb straight) e]) (prior t)). exists new.
  match goal with |- captured s ?x b new => set (s' := x) end.
  assert (Eb : rtype s' b = mkRT (rt_x t) (rt_y t) 0 true rest) by (unfold rtype, s'; cbn [re_types]; rewrite nth_upd_same by lia; reflexivity).
  assert (Eo : forall x, (x < n)%nat -> x <> b -> rtype s' x = rtype s x) by (intros x _ Hx; unfold rtype, s'; cbn [re_types]; apply nth_upd_other; auto).
  assert (Er' : rt_removed (rtype s' b) = true) by (rewrite Eb; reflexivity).
  assert (Ln : Z.of_nat (length new) = rt_copies t) by (unfold new; rewrite map_length, (prior_length t T3); lia).
  split; [|split; [exact Er'|split; [|split; [exact Eo|]]]].
  - apply (inv_step s s' new I).
    + unfold s'. cbn [re_types]. rewrite upd_length. exact I1.
    + intros x Hx Hlx. destruct (Nat.eq_dec x b) as [->|Hne]; [unfold live in Hlx; congruence|]. rewrite (Eo x Hx Hne). apply I2; [exact Hx|]. unfold live. rewrite <- (Eo x Hx Hne). exact Hlx.
    + apply ded_groups; reflexivity.
    + apply (alone_boxed s b (negb straight) I Hb Hl); fold t.
      * intros E. apply negb_false_iff in E. unfold straight in E. lia.
      * intros E. rewrite E in Ef. cbn [andb] in Ef. apply negb_false_iff in Ef. unfold turned in Ef. apply andb_true_iff in Ef. destruct Ef as [Ef E2].
        apply andb_true_iff in Ef. destruct Ef as [E0 E1]. apply negb_true_iff in E0. split; [exact E0|lia].
    + intros z Hz. unfold new. fold (alone b (negb straight) (prior t)). rewrite (alone_count z s b _ T). apply (val_removed s s' z b Hb Hl Er' Eo).
    + rewrite Ln. exact Er.
  - unfold s'. cbn [re_types]. apply upd_length.
  - unfold dedicated, s'. cbn [re_full re_pairs re_groups]. rewrite app_length. fold t. lia.
Qed.

Lemma full_ok : forall s b any, Inv i W H s -> (b < n)%nat ->
  exists s' any', full_bin_step i W H (Some (s, any)) b = Some (s', any')
    /\ ((s' = s /\ any' = any) \/ (any' = true /\ live s b
        /\ (rt_x (rtype s b) = W /\ rt_y (rtype s b) = H \/ rt_y (rtype s b) = W /\ rt_x (rtype s b) = H) /\ exists new, captured s s' b new)).
Proof.
  intros s b any I Hb. unfold full_bin_step. destruct (rt_removed (rtype s b)) eqn:Hl; [eexists; eexists; split; [reflexivity|left; split; reflexivity]|].
  pose proof I as [I1 I2 _ _]. pose proof (I2 b Hb Hl) as T. pose proof T as [T1 T2 T3 T4 T5].
  set (t := rtype s b) in *. set (straight := (rt_x t =? W) && (rt_y t =? H)). set (turned := negb (oriented i b) && (rt_y t =? W) && (rt_x t =? H)).
  destruct (negb straight && negb turned) eqn:Ef; [eexists; eexists; split; [reflexivity|left; split; reflexivity]|].
  destruct (no_room i s (rt_copies t)) eqn:Er; [eexists; eexists; split; [reflexivity|left; split; reflexivity]|].
  destruct (extract_prior t T3) as (rest & Ee). rewrite Ee. eexists. eexists. split; [reflexivity|]. right. split; [reflexivity|]. split; [exact Hl|].
  assert (Fs : negb straight = false -> rt_x t = W /\ rt_y t = H) by (intros E; apply negb_false_iff in E; unfold straight in E; lia).
  assert (Ft : negb straight = true -> oriented i b = false /\ rt_y t = W /\ rt_x t = H).
  { intros E. rewrite E in Ef. cbn [andb] in Ef. apply negb_false_iff in Ef. unfold turned in Ef. apply andb_true_iff in Ef. destruct Ef as [Ef E2].
    apply andb_true_iff in Ef. destruct Ef as [E0 E1]. apply negb_true_iff in E0. split; [exact E0|lia]. }
  split; [destruct (negb straight); [right; apply Ft; reflexivity|left; apply Fs; reflexivity]|].
  set (new := map (fun e => [mkComp b 0 0 (negb straight) e]) (prior t)). exists new.
  match goal with |- captured s ?x b new => set (s' := x) end.
  assert (Eb : rtype s' b = mkRT (rt_x t) (rt_y t) (rt_copies t) true rest) by (unfold rtype, s'; cbn [re_types]; rewrite nth_upd_same by lia; reflexivity).
  assert (Eo : forall x, (x < n)%nat -> x <> b -> rtype s' x = rtype s x) by (intros x _ Hx; unfold rtype, s'; cbn [re_types]; apply nth_upd_other; auto).
  assert (Er' : rt_removed (rtype s' b) = true) by (rewrite Eb; reflexivity).
  assert (Ln : Z.of_nat (length new) = rt_copies t) by (unfold new; rewrite map_length, (prior_length t T3); lia).
  split; [|split; [exact Er'|split; [|split; [exact Eo|]]]].
  - apply (inv_step s s' new I).
    + unfold s'. cbn [re_types]. rewrite upd_length. exact I1.
    + intros x Hx Hlx. destruct (Nat.eq_dec x b) as [->|Hne]; [unfold live in Hlx; congruence|]. rewrite (Eo x Hx Hne). apply I2; [exact Hx|]. unfold live. rewrite <- (Eo x Hx Hne). exact Hlx.
    + eapply ded_full; [reflexivity|reflexivity|reflexivity| |exact Ln].
      unfold full_items, new. cbn [fb_item fb_rot fb_copies fb_comps]. rewrite <- (prior_length t T3). clear.
      rewrite map_map. apply (nth_ext _ _ None None); [rewrite !map_length, seq_length; reflexivity|]. intros k Hk. rewrite map_length, seq_length in Hk.
      rewrite (nth_map_seq _ (fun k => option_map (fun e => [mkComp b 0 0 (negb straight) e]) (nth_error (prior t) k))) by exact Hk.
      rewrite (nth_error_nth' _ []) by exact Hk. cbn [option_map].
      rewrite (nth_indep _ None ((fun x => Some [mkComp b 0 0 (negb straight) x]) [])) by (rewrite map_length; exact Hk).
      rewrite (map_nth (fun x => Some [mkComp b 0 0 (negb straight) x])). reflexivity.
    + apply (alone_boxed s b (negb straight) I Hb Hl); fold t.
      * intros E. destruct (Fs E). lia.
      * intros E. destruct (Ft E) as (X0 & X1 & X2). split; [exact X0|lia].
    + intros z Hz. unfold new. fold (alone b (negb straight) (prior t)). rewrite (alone_count z s b _ T). apply (val_removed s s' z b Hb Hl Er' Eo).
    + rewrite Ln. exact Er.
  - unfold s'. cbn [re_types]. apply upd_length.
  - unfold dedicated, s'. cbn [re_full re_pairs re_groups]. rewrite zsum_app, zsum_cons, zsum_nil. cbn [fb_copies]. fold t. lia.
Qed.

(** ** Perfect pairs *)

Lemma extract_part : forall t m, rt_comps t = [] \/ length (rt_comps t) = Z.to_nat (rt_copies t) -> 0 <= m <= rt_copies t ->
  exists es rest, extract (rt_comps t) m = Some (es, rest) /\ length es = Z.to_nat m
    /\ (rt_comps t = [] /\ rest = [] \/ length rest = Z.to_nat (rt_copies t - m))
    /\ (forall k, (k < Z.to_nat m)%nat -> nth_error es k = Some (entryt t k))
    /\ forall k, (k < Z.to_nat (rt_copies t - m))%nat -> entryt (consume m rest t) k = entryt t (Z.to_nat m + k).
Proof.
  intros t m L Hm. unfold extract, entryt, entry, consume. cbn [rt_comps]. destruct (rt_comps t) as [|e l] eqn:E.
  - exists (repeat [] (Z.to_nat m)), []. split; [reflexivity|]. split; [apply repeat_length|]. split; [left; split; reflexivity|]. split; [|reflexivity].
    intros k Hk. rewrite (nth_error_nth' _ []) by (rewrite repeat_length; exact Hk). f_equal.
    assert (X : In (nth k (repeat [] (Z.to_nat m)) []) (repeat (@nil Comp) (Z.to_nat m))) by (apply nth_In; rewrite repeat_length; exact Hk). apply repeat_spec in X. exact X.
  - destruct L as [L|L]; [discriminate L|]. set (cs := e :: l) in *. destruct (Nat.ltb_spec (length cs) (Z.to_nat m)) as [C|C]; [lia|].
    exists (firstn (Z.to_nat m) cs), (skipn (Z.to_nat m) cs). split; [reflexivity|]. split; [rewrite firstn_length; lia|]. split; [right; rewrite skipn_length; lia|]. split.
    + intros k Hk. rewrite (nth_error_nth' _ []) by (rewrite firstn_length; lia). rewrite (nth_error_nth' cs []) by lia. f_equal.
      rewrite <- (firstn_skipn (Z.to_nat m) cs) at 2. rewrite app_nth1 by (rewrite firstn_length; lia). reflexivity.
    + intros k Hk. assert (Ls : length (skipn (Z.to_nat m) cs) = Z.to_nat (rt_copies t - m)) by (rewrite skipn_length; lia).
      destruct (skipn (Z.to_nat m) cs) as [|f fs] eqn:Es; [cbn in Ls; lia|]. rewrite <- Es in *.
      rewrite (nth_error_nth' _ []) by lia. rewrite (nth_error_nth' cs []) by lia. rewrite <- (firstn_skipn (Z.to_nat m) cs) at 2.
      rewrite app_nth2 by (rewrite firstn_length; lia). f_equal. rewrite firstn_length. lia.
Qed.

Lemma consume_ok : forall x t m es rest, type_ok i x t -> 1 <= m <= rt_copies t -> extract (rt_comps t) m = Some (es, rest) ->
  rt_removed t = false ->
  length es = Z.to_nat m /\ (forall e, In e es -> exists k, (k < Z.to_nat (rt_copies t))%nat /\ e = entryt t k)
  /\ (rt_removed (consume m rest t) = (rt_copies t - m =? 0)) /\ (rt_removed (consume m rest t) = false -> type_ok i x (consume m rest t))
  /\ forall z, (if rt_removed (consume m rest t) then 0 else tcontent z x (consume m rest t)) + zsum (unitc z x) es = tcontent z x t.
Proof.
  intros x t m es rest [T1 T2 T3 T4 T5] Hm Ee Hr. destruct (extract_part t m T3 ltac:(lia)) as (es' & rest' & E' & L1 & L2 & K1 & K2).
  assert (es' = es /\ rest' = rest) as [-> ->] by (split; congruence). clear E'.
  split; [exact L1|]. split.
  { intros e He. destruct (In_nth _ _ [] He) as (k & Hk & E). exists k. split; [lia|]. specialize (K1 k ltac:(lia)). apply (nth_error_nth _ _ []) in K1. congruence. }
  split; [cbn [consume rt_removed]; rewrite Hr; reflexivity|]. split.
  - cbn [consume rt_removed]. rewrite Hr. cbn [orb]. intros Hz. apply Z.eqb_neq in Hz. split.
    + cbn [consume rt_copies]. lia.
    + exact T2.
    + cbn [consume rt_comps rt_copies]. destruct L2 as [[_ L2]|L2]; [left; exact L2|right; exact L2].
    + intros Ho. destruct (T4 Ho) as (X & Y). cbn [consume rt_comps rt_x rt_y]. split; [|exact Y]. destruct L2 as [[_ L2]|L2]; [exact L2|].
      rewrite X in Ee. cbn in Ee. congruence.
    + intros k Hk. cbn [consume rt_copies] in Hk. rewrite K2 by exact Hk. apply T5. lia.
  - intros z. assert (Es : zsum (unitc z x) es = zsum (fun k => unitc z x (entryt t k)) (seq 0 (Z.to_nat m))).
    { rewrite <- (zsum_nth_seq _ (unitc z x) []), L1. apply zsum_ext. intros k Hk. apply in_seq in Hk. specialize (K1 k ltac:(lia)). apply (nth_error_nth _ _ []) in K1. congruence. }
    rewrite Es. cbn [consume rt_removed]. rewrite Hr. cbn [orb]. unfold tcontent at 2. replace (Z.to_nat (rt_copies t)) with (Z.to_nat m + Z.to_nat (rt_copies t - m))%nat by lia.
    rewrite seq_app, zsum_app. cbn [plus]. destruct (Z.eqb_spec (rt_copies t - m) 0) as [E|E].
    + rewrite E. cbn. lia.
    + unfold tcontent. cbn [consume rt_copies].
      assert (X : zsum (fun k => unitc z x (entryt (consume m rest t) k)) (seq 0 (Z.to_nat (rt_copies t - m))) = zsum (fun k => unitc z x (entryt t k)) (seq (Z.to_nat m) (Z.to_nat (rt_copies t - m)))).
      { rewrite (zsum_ext _ _ (fun k => unitc z x (entryt t (Z.to_nat m + k)))) by (intros k Hk; apply in_seq in Hk; rewrite K2 by lia; reflexivity).
        generalize (Z.to_nat (rt_copies t - m)). generalize (Z.to_nat m). clear. intros a b. rewrite <- (zsum_map _ _ (fun k => (a + k)%nat) (fun k => unitc z x (entryt t k))).
        f_equal. revert a. induction b as [|b IH]; intros a; [reflexivity|]. rewrite !seq_S, map_app, IH. reflexivity. }
      fold (consume m rest t). rewrite X. lia.
Qed.

(** What a pair step does: [m] copies of each of two item types that fill a bin
    exactly are put in dedicated bins. *)
Definition paired (s s' : Red) (x y : nat) (m : Z) : Prop :=
  Inv i W H s' /\ length (re_types s') = length (re_types s) /\ dedicated s' = dedicated s + m
  /\ (x < n)%nat /\ (y < n)%nat /\ x <> y /\ live s x /\ live s y /\ oriented i x = true /\ oriented i y = true
  /\ m = Z.min (rt_copies (rtype s x)) (rt_copies (rtype s y)) /\ 1 <= m
  /\ (vertical_split W H (rtype s x) (rtype s y) = true \/ horizontal_split W H (rtype s x) (rtype s y) = true)
  /\ (exists r, rtype s' x = consume m r (rtype s x)) /\ (exists r, rtype s' y = consume m r (rtype s y))
  /\ (forall z, (z < n)%nat -> z <> x -> z <> y -> rtype s' z = rtype s z).

Lemma pair_ok : forall s x any, Inv i W H s -> (x < n)%nat ->
  exists s' any', pair_step i W H (Some (s, any)) x = Some (s', any')
    /\ ((s' = s /\ any' = any) \/ (any' = true /\ exists y m, paired s s' x y m)).
Proof.
  intros s x any I Hx. unfold pair_step. destruct (rt_removed (rtype s x) || negb (oriented i x)) eqn:Ex; [eexists; eexists; split; [reflexivity|left; split; reflexivity]|].
  apply orb_false_iff in Ex. destruct Ex as [Lx Ox]. apply negb_false_iff in Ox.
  destruct (find (pairs_with i W H s x) (seq 0 n)) as [y|] eqn:Ey; [|eexists; eexists; split; [reflexivity|left; split; reflexivity]].
  apply find_some in Ey. destruct Ey as [Hy Ey]. apply in_seq in Hy. unfold pairs_with in Ey.
  apply andb_true_iff in Ey. destruct Ey as [Ey Esplit]. apply andb_true_iff in Ey. destruct Ey as [Ey Er]. apply andb_true_iff in Ey. destruct Ey as [Ey Oy].
  apply andb_true_iff in Ey. destruct Ey as [Ne Ly]. apply negb_true_iff in Er, Ly, Ne. apply Nat.eqb_neq in Ne.
  pose proof I as [I1 I2 _ _]. pose proof (I2 x Hx Lx) as Tx. assert (Hy' : (y < n)%nat) by lia. pose proof (I2 y Hy' Ly) as Ty.
  set (t := rtype s x) in *. set (u := rtype s y) in *. set (m := Z.min (rt_copies t) (rt_copies u)) in *.
  pose proof (ty_copies _ _ _ Tx) as Cx. pose proof (ty_copies _ _ _ Ty) as Cy.
  destruct (extract_part t m (ty_len _ _ _ Tx) ltac:(lia)) as (e1 & r1 & E1 & _). destruct (extract_part u m (ty_len _ _ _ Ty) ltac:(lia)) as (e2 & r2 & E2 & _).
  rewrite E1, E2. eexists. eexists. split; [reflexivity|]. right. split; [reflexivity|]. exists y, m.
  destruct (consume_ok x t m e1 r1 Tx ltac:(lia) E1 Lx) as (A1 & A2 & A3 & A4 & A5). destruct (consume_ok y u m e2 r2 Ty ltac:(lia) E2 Ly) as (B1 & B2 & B3 & B4 & B5).
  set (d := if vertical_split W H t u then (rt_x t, 0) else (0, rt_y t)).
  match goal with |- paired s ?x0 x y m => set (s' := x0) end.
  assert (Esx : rtype s' x = consume m r1 t) by (unfold rtype, s'; cbn [re_types]; rewrite nth_upd_other, nth_upd_same by (try lia; auto); reflexivity).
  assert (Esy : rtype s' y = consume m r2 u) by (unfold rtype, s'; cbn [re_types]; rewrite nth_upd_same by (rewrite upd_length; lia); rewrite nth_upd_other by auto; reflexivity).
  assert (Eso : forall z, (z < n)%nat -> z <> x -> z <> y -> rtype s' z = rtype s z) by (intros z _ Z1 Z2; unfold rtype, s'; cbn [re_types]; rewrite !nth_upd_other by auto; reflexivity).
  assert (Ls : length (re_types s') = length (re_types s)) by (unfold s'; cbn [re_types]; rewrite !upd_length; reflexivity).
  set (new := map (fun ee => [mkComp x 0 0 false (fst ee); mkComp y (fst d) (snd d) false (snd ee)]) (combine e1 e2)).
  assert (Ln : Z.of_nat (length new) = m) by (unfold new; rewrite map_length, combine_length; lia).
  assert (Split : vertical_split W H t u = true \/ vertical_split W H t u = false /\ horizontal_split W H t u = true).
  { apply orb_true_iff in Esplit. destruct (vertical_split W H t u); [left; reflexivity|right]. split; [reflexivity|]. destruct Esplit; congruence. }
  assert (Iv : Inv i W H s').
  { apply (inv_step s s' new I).
    - lia.
    - intros z Hz Hlz. destruct (Nat.eq_dec z x) as [->|Nx]; [rewrite Esx; apply A4; unfold live in Hlz; rewrite Esx in Hlz; exact Hlz|].
      destruct (Nat.eq_dec z y) as [->|Ny]; [rewrite Esy; apply B4; unfold live in Hlz; rewrite Esy in Hlz; exact Hlz|].
      rewrite (Eso z Hz Nx Ny). apply I2; [exact Hz|]. unfold live. rewrite <- (Eso z Hz Nx Ny). exact Hlz.
    - eapply ded_pairs; [reflexivity|reflexivity|reflexivity| |exact Ln].
      unfold pair_items, new. cbn [pp_1 pp_2 pp_dx pp_dy pp_copies pp_comps_1 pp_comps_2]. fold t u. fold d. rewrite map_map.
      apply (nth_ext _ _ None None); [rewrite !map_length, seq_length, combine_length; fold m; lia|]. intros k Hk. rewrite map_length, seq_length in Hk. fold m in Hk.
      rewrite (nth_map_seq _ (fun k => match nth_error e1 k, nth_error e2 k with Some e3, Some e4 => Some [mkComp x 0 0 false e3; mkComp y (fst d) (snd d) false e4] | _, _ => None end)) by (fold m; exact Hk).
      rewrite (nth_error_nth' e1 []), (nth_error_nth' e2 []) by lia.
      rewrite (nth_indep _ None ((fun ee => Some [mkComp x 0 0 false (fst ee); mkComp y (fst d) (snd d) false (snd ee)]) ([], []))) by (rewrite map_length, combine_length; lia).
      rewrite (map_nth (fun ee => Some [mkComp x 0 0 false (fst ee); mkComp y (fst d) (snd d) false (snd ee)])). rewrite combine_nth by lia. reflexivity.
    - intros cs Hc. unfold new in Hc. apply in_map_iff in Hc. destruct Hc as ([f1 f2] & <- & Hc). pose proof (in_combine_l _ _ _ _ Hc) as H1. pose proof (in_combine_r _ _ _ _ Hc) as H2.
      cbn [fst snd]. destruct (A2 f1 H1) as (k1 & Hk1 & ->). destruct (B2 f2 H2) as (k2 & Hk2 & ->).
      pose proof (ty_sizes _ _ _ Tx) as Sx. pose proof (ty_sizes _ _ _ Ty) as Sy.
      assert (Geo : within (mkBox 0 0 (rt_x t) (rt_y t)) (mkBox 0 0 W H) /\ within (mkBox (fst d) (snd d) (fst d + rt_x u) (snd d + rt_y u)) (mkBox 0 0 W H)
        /\ apart (mkBox 0 0 (rt_x t) (rt_y t)) (mkBox (fst d) (snd d) (fst d + rt_x u) (snd d + rt_y u))).
      { unfold d, within, apart. destruct Split as [Sp|[Sn Sp]].
        - rewrite Sp. unfold vertical_split in Sp. cbn. lia.
        - rewrite Sn. unfold horizontal_split in Sp. cbn. lia. }
      destruct Geo as (G1 & G2 & G3).
      apply (fill_boxed i W H s _ [mkComp x 0 0 false []; mkComp y (fst d) (snd d) false []] _ I).
      + repeat constructor; [exists k1; split; [exact Hk1|reflexivity]|exists k2; split; [exact Hk2|reflexivity]].
      + intros c [<-|[<-|[]]].
        * split; [split; [exact Hx|split; [exact Lx|discriminate]]|]. unfold cbox. cbn [co_dx co_dy co_rot co_type]. fold t. exact G1.
        * split; [split; [exact Hy'|split; [exact Ly|discriminate]]|]. unfold cbox. cbn [co_dx co_dy co_rot co_type]. fold u. exact G2.
      + constructor; [|repeat constructor]. constructor; [|constructor]. unfold cbox. cbn [co_dx co_dy co_rot co_type]. fold t u. exact G3.
    - intros z Hz.
      assert (Sn : zsum (lcount z) new = zsum (unitc z x) e1 + zsum (unitc z y) e2).
      { unfold new. rewrite zsum_map. rewrite (zsum_ext _ _ (fun ee => unitc z x (fst ee) + unitc z y (snd ee))) by (intros ee _; rewrite !lcount_cons, lcount_nil; lia).
        rewrite zsum_plus. assert (Lee : length e1 = length e2) by lia. clear - Lee. revert e2 Lee. induction e1 as [|a e1 IH]; intros [|b e2] L; try discriminate L; [reflexivity|].
        cbn [combine]. rewrite !zsum_cons. cbn [fst snd]. injection L as L. specialize (IH e2 L). lia. }
      rewrite Sn. rewrite <- (zsum_pick_seq (fun _ => zsum (unitc z x) e1) x n Hx), <- (zsum_pick_seq (fun _ => zsum (unitc z y) e2) y n Hy'), <- !zsum_plus.
      apply zsum_ext. intros v Hv. apply in_seq in Hv. unfold val. destruct (Nat.eqb_spec x v) as [<-|Nx].
      + destruct (Nat.eqb_spec y x) as [C|_]; [congruence|]. rewrite Esx. unfold t in *. rewrite Lx. rewrite <- (A5 z). lia.
      + destruct (Nat.eqb_spec y v) as [<-|Ny].
        * rewrite Esy. unfold u in *. rewrite Ly. rewrite <- (B5 z). lia.
        * rewrite (Eso v) by (auto; lia). lia.
    - rewrite Ln. exact Er. }
  assert (Dd : dedicated s' = dedicated s + m) by (unfold dedicated, s'; cbn [re_full re_pairs re_groups]; rewrite zsum_app, zsum_cons, zsum_nil; cbn [pp_copies]; fold m; lia).
  unfold paired. fold t u m. split; [exact Iv|]. split; [exact Ls|]. split; [exact Dd|]. do 2 (split; [assumption|]). split; [auto|]. do 4 (split; [assumption|]). split; [reflexivity|]. split; [lia|].
  split; [destruct Split as [Sp|[_ Sp]]; [left|right]; exact Sp|]. split; [exists r1; exact Esx|]. split; [exists r2; exact Esy|exact Eso].
Qed.

End Ded.
