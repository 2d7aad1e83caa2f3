(** * Resources, weights and profits of the nodes of the box branching scheme *)

From Coq Require Import List ZArith QArith Bool Lia Lqa Arith Permutation.
From Verif Require Import Util Common_Model Common_Spec Common_Proof OneDim_Model OneDim_Spec OneDim_Proof OneDimBuilder_Spec Tree1D_Model Tree1D_Spec Tree1D_Proof
  Box_Model Box_Spec BoxSol_Model BoxSol_Spec BoxSol_Proof BoxBuilder_Model BoxBuilder_Spec BoxFlip_Model BoxFlip_Spec BoxFlip_Proof
  BoxTree_Model BoxTree_Spec.
Import ListNotations.
Open Scope Z_scope.

(** Penalties of a bin of type [t] with items [ps]. *)
Definition zpen (inst : BInstance) (t : nat) (ps : list BPlace) : Q := bpenalties inst (mkXD t 1 ps).

Lemma zpen_proj : forall inst t ps, (zpen inst t ps == pen (xproj inst) t (map bp_type ps))%Q.
Proof.
  intros inst t ps. rewrite <- (pen_penalties (xproj inst) t 1). unfold zpen, bpenalties, penalties. cbn [xd_type xd_items bd_type bd_items]. rewrite xproj_bin_type. cbn [bt_resources xproj_bin].
  apply qsum_ext. intros r _. rewrite xproj_consumption. reflexivity.
Qed.

Lemma bcount_snoc : forall x ps p, bcount x (ps ++ [p]) = bcount x ps + (if Nat.eqb (bp_type p) x then 1 else 0).
Proof. intros x ps p. unfold bcount. rewrite filter_app, app_length. cbn [filter]. destruct (Nat.eqb (bp_type p) x); cbn [length]; lia. Qed.

Lemma bconsumption_snoc : forall inst r ps p, (bp_type p < length (bx_items inst))%nat ->
  (bconsumption inst r (ps ++ [p]) == bconsumption inst r ps + item_consumption r (bp_type p) (Z.to_nat (bcount (bp_type p) ps)))%Q.
Proof.
  intros inst r ps p Hp. rewrite <- !xproj_consumption, map_app. cbn [map]. rewrite consumption_snoc by (rewrite xproj_items_length; exact Hp). rewrite xcount_pl. reflexivity.
Qed.

Lemma bconsumption_nil : forall inst r, (bconsumption inst r [] == 0)%Q.
Proof. intros inst r. rewrite <- xproj_consumption. cbn [map]. rewrite consumption_nil. reflexivity. Qed.

(** Consumption checked by an insertion. *)
Definition zins_consumption (n : ZNode) (new : option (nat * Axis)) (bt : BBin) (x r : nat) : Q :=
  match new with
  | Some _ => item_consumption (nth r (bn_resources bt) dummy_resource) x 0
  | None => (nth r (zn_resources n) 0 + item_consumption (nth r (bn_resources bt) dummy_resource) x (nth x (zn_last_copies n) 0%nat))%Q
  end.

(** What the resources of a node with items [ps] in its last bin are. *)
Record ZResState (inst : BInstance) (t : nat) (res : list Q) (lc : list nat) (ps : list BPlace) : Prop := {
  rs_len : length res = length (bn_resources (bxbin inst t));
  rs_val : forall r, (r < length (bn_resources (bxbin inst t)))%nat -> (nth r res 0 == bconsumption inst (nth r (bn_resources (bxbin inst t)) dummy_resource) ps)%Q;
  rs_lc_len : length (bn_resources (bxbin inst t)) <> 0%nat -> length lc = length (bx_items inst);
  rs_lc : length (bn_resources (bxbin inst t)) <> 0%nat -> forall x, (x < length (bx_items inst))%nat -> nth x lc 0%nat = Z.to_nat (bcount x ps)
}.

Section Res.
Variable inst : BInstance.
Variable dv : BDerived.
Hypothesis Hco : wconsistent inst dv.
Hypothesis Hsane : xsane_resources inst.

Lemma zres_wf : wf_resource_ids (xproj inst).
Proof. apply xwf_proj. exact (wc_resource_ids inst dv Hco). Qed.

Lemma zpen_snoc : forall t ps p (u : nat -> Q), (t < length (bx_bins inst))%nat -> (bp_type p < length (bx_items inst))%nat ->
  (forall r, (r < length (bn_resources (bxbin inst t)))%nat -> (u r == bconsumption inst (nth r (bn_resources (bxbin inst t)) dummy_resource) ps)%Q) ->
  (zpen inst t (ps ++ [p]) == zpen inst t ps + qsum (fun r => let res := nth r (bn_resources (bxbin inst t)) dummy_resource in
      if res_penalize res && Qltb (res_capacity res) (u r + item_consumption res (bp_type p) (Z.to_nat (bcount (bp_type p) ps)))%Q && Qle_bool (u r) (res_capacity res)
      then res_penalty res else 0%Q) (nth t (bi_resource_ids (bxitem inst (bp_type p))) []))%Q.
Proof.
  intros t ps p u Ht Hp Hu. rewrite !zpen_proj, map_app. cbn [map].
  pose proof (pen_snoc (xproj inst) t (map bp_type ps) (bp_type p) u zres_wf (xsane_proj inst Hsane) ltac:(rewrite xproj_bins_length; exact Ht) ltac:(rewrite xproj_items_length; exact Hp)) as P.
  rewrite xproj_bin_type in P. cbn [bt_resources xproj_bin] in P. rewrite xproj_item_type in P. cbn [it_resource_ids xproj_item] in P. rewrite xcount_pl in P. apply P.
  intros r Hr. rewrite xproj_consumption. apply Hu. exact Hr.
Qed.

Lemma zpen_nil : forall t, (t < length (bx_bins inst))%nat -> (zpen inst t [] == 0)%Q.
Proof. intros t Ht. rewrite zpen_proj. cbn [map]. apply pen_nil'; [rewrite xproj_bins_length; exact Ht|apply xsane_proj, Hsane]. Qed.

Lemma zno_schedule : forall t x r, (t < length (bx_bins inst))%nat -> (x < length (bx_items inst))%nat -> (r < length (bn_resources (bxbin inst t)))%nat ->
  ~ In r (nth t (bi_resource_ids (bxitem inst x)) []) -> forall c, item_consumption (nth r (bn_resources (bxbin inst t)) dummy_resource) x c = 0%Q.
Proof.
  intros t x r Ht Hx Hr Hn c. apply item_consumption_none. unfold schedule. destruct (nth x (res_item_consumptions _) []) eqn:E; [reflexivity|]. exfalso. apply Hn. apply (wc_resource_ids inst dv Hco x t Hx Ht). split; [exact Hr|]. rewrite E. discriminate.
Qed.

Lemma zno_resource_ids : forall t x, (t < length (bx_bins inst))%nat -> (x < length (bx_items inst))%nat -> length (bn_resources (bxbin inst t)) = 0%nat -> nth t (bi_resource_ids (bxitem inst x)) [] = [].
Proof.
  intros t x Ht Hx E. destruct (wc_resource_ids inst dv Hco x t Hx Ht) as [_ Hids]. destruct (nth t (bi_resource_ids (bxitem inst x)) []) as [|r rs]; [reflexivity|]. destruct (proj1 (Hids r) (or_introl eq_refl)). lia.
Qed.

Lemma zchild_resources_spec : forall n new t ps p profit, (t < length (bx_bins inst))%nat -> (bp_type p < length (bx_items inst))%nat ->
  match new with Some _ => ps = [] | None => ZResState inst t (zn_resources n) (zn_last_copies n) ps end ->
  let '(res, lc, prof) := zchild_resources n new inst t (bp_type p) profit in
  ZResState inst t res lc (ps ++ [p]) /\ (prof == profit - (zpen inst t (ps ++ [p]) - zpen inst t ps))%Q.
Proof.
  intros n new t ps p profit Ht Hx Hn. set (x := bp_type p) in *. set (bt := bxbin inst t). destruct (wc_resource_ids inst dv Hco x t Hx Ht) as [Hnd Hids]. fold bt in Hids.
  unfold zchild_resources. cbv zeta. fold bt. destruct (Nat.eqb_spec (length (bn_resources bt)) 0) as [Ez|Ez].
  - split.
    + constructor; fold bt; try (intros; lia). cbn. lia.
    + rewrite (zpen_snoc t ps p (fun r => bconsumption inst (nth r (bn_resources (bxbin inst t)) dummy_resource) ps) Ht Hx) by (intros; reflexivity). fold x. rewrite (zno_resource_ids t x Ht Hx Ez). cbn. ring.
  - destruct new as [pd|].
    + subst ps. cbn [app]. set (st0 := (repeat 0%Q (length (bn_resources bt)), profit)).
      assert (F := fold_res (znew_resource_step bt x) (fun r _ => item_consumption (nth r (bn_resources bt) dummy_resource) x 0)
         (fun r _ => let res := nth r (bn_resources bt) dummy_resource in if res_penalize res && Qltb (res_capacity res) (item_consumption res x 0) then res_penalty res else 0%Q)).
      specialize (F ltac:(intros st r; unfold znew_resource_step; cbv zeta; cbn [fst snd]; split; [reflexivity|destruct (_ && _); ring])).
      specialize (F (nth t (bi_resource_ids (bxitem inst x)) []) st0 Hnd). cbv zeta in F.
      destruct F as (F1 & F2 & F3). { intros r Hr. apply Hids in Hr. unfold st0. cbn [fst]. rewrite repeat_length. tauto. }
      set (st := fold_left (znew_resource_step bt x) (nth t (bi_resource_ids (bxitem inst x)) []) st0) in *. unfold st0 in F1, F2, F3. cbn [fst snd] in F1, F2, F3. rewrite repeat_length in F1.
      cbv zeta. split.
      * constructor; fold bt.
        -- exact F1.
        -- intros r Hr. rewrite F2. change [p] with ([] ++ [p]). rewrite (bconsumption_snoc inst _ [] p Hx), bconsumption_nil. fold x. change (Z.to_nat (bcount x [])) with 0%nat.
           destruct (in_dec Nat.eq_dec r _) as [Hi|Hi]; [ring|]. rewrite nth_repeat. pose proof (zno_schedule t x r Ht Hx Hr Hi 0) as E. fold bt in E. rewrite E. ring.
        -- intros _. rewrite upd_length. apply repeat_length.
        -- intros _ y Hy. rewrite nth_upd by (rewrite repeat_length; exact Hx). rewrite nth_repeat. change [p] with ([] ++ [p]). rewrite bcount_snoc. fold x. change (bcount y []) with 0. destruct (Nat.eqb x y); reflexivity.
      * rewrite F3. change [p] with ([] ++ [p]) at 1. rewrite (zpen_snoc t [] p (fun _ => 0%Q) Ht Hx) by (intros; rewrite bconsumption_nil; reflexivity). rewrite (zpen_nil t Ht). fold x.
        rewrite (qsum_ext _ _ (fun r => let res := nth r (bn_resources (bxbin inst t)) dummy_resource in
           if res_penalize res && Qltb (res_capacity res) (0 + item_consumption res x (Z.to_nat (bcount x []))) && Qle_bool 0 (res_capacity res) then res_penalty res else 0%Q)); [ring|].
        intros r Hr. cbv zeta. fold bt. change (Z.to_nat (bcount x [])) with 0%nat. set (res := nth r (bn_resources bt) dummy_resource). apply Hids in Hr. destruct (Hsane bt res) as [C _]; [apply nth_In; exact Ht|apply nth_In; tauto|].
        assert (E1 : Qle_bool 0 (res_capacity res) = true) by (apply Qle_bool_iff; exact C). rewrite E1, andb_true_r.
        assert (E2 : Qltb (res_capacity res) (0 + item_consumption res x 0) = Qltb (res_capacity res) (item_consumption res x 0)). { destruct (Qltb (res_capacity res) (item_consumption res x 0)) eqn:E; [apply Qltb_lt in E; apply Qltb_lt; lra|apply Qltb_ge in E; apply Qltb_ge; lra]. }
        rewrite E2. reflexivity.
    + destruct Hn as [R1 R2 R3 R4]. fold bt in R1, R2, R3, R4. set (copy := nth x (zn_last_copies n) 0%nat) in *. set (st0 := (zn_resources n, profit)).
      assert (F := fold_res (zsame_resource_step bt x copy) (fun r u => (u + item_consumption (nth r (bn_resources bt) dummy_resource) x copy)%Q)
         (fun r u => let res := nth r (bn_resources bt) dummy_resource in if res_penalize res && Qltb (res_capacity res) (u + item_consumption res x copy) && Qle_bool u (res_capacity res) then res_penalty res else 0%Q)).
      specialize (F ltac:(intros st r; unfold zsame_resource_step; cbv zeta; cbn [fst snd]; split; [reflexivity|destruct (_ && _); ring])).
      specialize (F (nth t (bi_resource_ids (bxitem inst x)) []) st0 Hnd). cbv zeta in F.
      destruct F as (F1 & F2 & F3). { intros r Hr. apply Hids in Hr. unfold st0. cbn [fst]. rewrite R1. tauto. }
      set (st := fold_left (zsame_resource_step bt x copy) (nth t (bi_resource_ids (bxitem inst x)) []) st0) in *. unfold st0 in F1, F2, F3. cbn [fst snd] in F1, F2, F3.
      assert (Hcopy : copy = Z.to_nat (bcount x ps)) by (apply R4; assumption). cbv zeta. split.
      * constructor; fold bt.
        -- rewrite F1. exact R1.
        -- intros r Hr. rewrite F2. rewrite (bconsumption_snoc inst _ ps p Hx), <- (R2 r Hr). fold x. rewrite <- Hcopy.
           destruct (in_dec Nat.eq_dec r _) as [Hi|Hi]; [reflexivity|]. pose proof (zno_schedule t x r Ht Hx Hr Hi copy) as E. fold bt in E. rewrite E. ring.
        -- intros Hz. rewrite upd_length. apply R3, Hz.
        -- intros Hz y Hy. rewrite nth_upd by (rewrite R3 by exact Hz; exact Hx). rewrite bcount_snoc. fold x. pose proof (xcount_nonneg y ps). destruct (Nat.eqb_spec x y) as [<-|]; [fold copy; rewrite Hcopy; lia|]. rewrite R4 by assumption. f_equal. lia.
      * rewrite F3. rewrite (zpen_snoc t ps p (fun r => nth r (zn_resources n) 0%Q) Ht Hx) by (intros; apply R2; assumption). cbv zeta. fold x bt. rewrite <- Hcopy. ring.
Qed.

(** Hard resources after an insertion. *)
Lemma zhard_step : forall n new t ps p, (t < length (bx_bins inst))%nat -> (bp_type p < length (bx_items inst))%nat ->
  match new with Some _ => ps = [] | None => ZResState inst t (zn_resources n) (zn_last_copies n) ps end ->
  (forall r, In r (bn_resources (bxbin inst t)) -> res_penalize r = false -> (bconsumption inst r ps <= res_capacity r * PSTOL)%Q) ->
  (forall r, In r (nth t (bi_resource_ids (bxitem inst (bp_type p))) []) -> res_penalize (nth r (bn_resources (bxbin inst t)) dummy_resource) = false ->
    (zins_consumption n new (bxbin inst t) (bp_type p) r <= res_capacity (nth r (bn_resources (bxbin inst t)) dummy_resource) * PSTOL)%Q) ->
  forall r, In r (bn_resources (bxbin inst t)) -> res_penalize r = false -> (bconsumption inst r (ps ++ [p]) <= res_capacity r * PSTOL)%Q.
Proof.
  intros n new t ps p Ht Hx Hn Hps Hnew r Hr Hpen. destruct (In_nth _ _ dummy_resource Hr) as (k & Hk & Ek). rewrite (bconsumption_snoc inst r ps p Hx).
  destruct (in_dec Nat.eq_dec k (nth t (bi_resource_ids (bxitem inst (bp_type p))) [])) as [Hi|Hi].
  - specialize (Hnew k Hi). rewrite Ek in Hnew. specialize (Hnew Hpen). unfold zins_consumption in Hnew. rewrite Ek in Hnew. destruct new as [pd|].
    + subst ps. rewrite bconsumption_nil. change (Z.to_nat (bcount (bp_type p) [])) with 0%nat. lra.
    + destruct Hn as [R1 R2 R3 R4]. specialize (R2 k Hk). rewrite Ek in R2. rewrite R4 in Hnew by (try lia; exact Hx). rewrite <- R2. exact Hnew.
  - pose proof (zno_schedule t (bp_type p) k Ht Hx Hk Hi (Z.to_nat (bcount (bp_type p) ps))) as E. rewrite Ek in E. rewrite E. specialize (Hps r Hr Hpen). lra.
Qed.

Lemma zhard_nil : forall t, (t < length (bx_bins inst))%nat -> forall r, In r (bn_resources (bxbin inst t)) -> res_penalize r = false -> (bconsumption inst r [] <= res_capacity r * PSTOL)%Q.
Proof.
  intros t Ht r Hr _. rewrite bconsumption_nil. destruct (Hsane (bxbin inst t) r) as [C _]; [apply nth_In; exact Ht|exact Hr|]. unfold PSTOL. lra.
Qed.
End Res.
