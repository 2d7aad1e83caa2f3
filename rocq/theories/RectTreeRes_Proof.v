(** * Resources, weights and profits of the nodes of the rectangle branching scheme *)

From Coq Require Import List ZArith QArith Bool Lia Lqa Arith Permutation.
From Verif Require Import Util Common_Model Common_Spec Common_Proof OneDim_Model OneDim_Spec OneDim_Proof OneDimBuilder_Spec Tree1D_Model Tree1D_Spec Tree1D_Proof
  Rect_Model Rect_Spec RectSol_Model RectSol_Spec RectSol_Proof RectBuilder_Model RectBuilder_Spec RectFlip_Model RectFlip_Spec RectFlip_Proof
  RectTree_Model RectTree_Spec RectSky_Proof RectTree_Proof.
Import ListNotations.
Open Scope Z_scope.

(** Penalties of a bin of type [t] with items [ps]. *)
Definition rpen (inst : RInstance) (t : nat) (ps : list Place) : Q := rpenalties inst (mkRD t 1 ps).

Lemma rpen_proj : forall inst t ps, (rpen inst t ps == pen (proj inst) t (map pl_type ps))%Q.
Proof.
  intros inst t ps. rewrite <- (pen_penalties (proj inst) t 1). unfold rpen, rpenalties, penalties. cbn [rd_type rd_items bd_type bd_items]. rewrite proj_bin_type. cbn [bt_resources proj_bin].
  apply qsum_ext. intros r _. rewrite proj_consumption. reflexivity.
Qed.

Lemma rcount_snoc : forall x ps p, rcount x (ps ++ [p]) = rcount x ps + (if Nat.eqb (pl_type p) x then 1 else 0).
Proof. intros x ps p. unfold rcount. rewrite filter_app, app_length. cbn [filter]. destruct (Nat.eqb (pl_type p) x); cbn [length]; lia. Qed.

Lemma rconsumption_snoc : forall inst r ps p, (pl_type p < length (rin_items inst))%nat ->
  (rconsumption inst r (ps ++ [p]) == rconsumption inst r ps + item_consumption r (pl_type p) (Z.to_nat (rcount (pl_type p) ps)))%Q.
Proof.
  intros inst r ps p Hp. rewrite <- !proj_consumption, map_app. cbn [map]. rewrite consumption_snoc by (rewrite proj_items_length; exact Hp). rewrite count_pl. reflexivity.
Qed.

Lemma rconsumption_nil : forall inst r, (rconsumption inst r [] == 0)%Q.
Proof. intros inst r. rewrite <- proj_consumption. cbn [map]. rewrite consumption_nil. reflexivity. Qed.

(** The resources, copies and profit of a child, :347-377. *)
Definition child_resources (n : RNode) (new : option (nat * bool)) (inst : RInstance) (bt : RBin) (t x : nat) (profit : Q) : list Q * list nat * Q :=
  if (length (rb_resources bt) =? 0)%nat then ([], [], profit)
  else match new with
       | Some _ =>
           let st := fold_left (rnew_resource_step bt x) (nth t (ri_resource_ids (ritem inst x)) []) (repeat 0%Q (length (rb_resources bt)), profit) in
           (fst st, upd x (fun _ => 1%nat) (repeat 0%nat (length (rin_items inst))), snd st)
       | None =>
           let st := fold_left (rsame_resource_step bt x (nth x (rn_last_copies n) 0%nat)) (nth t (ri_resource_ids (ritem inst x)) []) (rn_resources n, profit) in
           (fst st, upd x S (rn_last_copies n), snd st)
       end.

(** What the resources of a node with items [ps] in its last bin are. *)
Record ResState (inst : RInstance) (t : nat) (res : list Q) (lc : list nat) (ps : list Place) : Prop := {
  rs_len : length res = length (rb_resources (rbin inst t));
  rs_val : forall r, (r < length (rb_resources (rbin inst t)))%nat -> (nth r res 0 == rconsumption inst (nth r (rb_resources (rbin inst t)) dummy_resource) ps)%Q;
  rs_lc_len : length (rb_resources (rbin inst t)) <> 0%nat -> length lc = length (rin_items inst);
  rs_lc : length (rb_resources (rbin inst t)) <> 0%nat -> forall x, (x < length (rin_items inst))%nat -> nth x lc 0%nat = Z.to_nat (rcount x ps)
}.

Section Res.
Variable inst : RInstance.
Variable dv : RDerived.
Hypothesis Hco : rconsistent inst dv.
Hypothesis Hsane : rsane_resources inst.

Lemma res_wf : wf_resource_ids (proj inst).
Proof. apply wf_proj. exact (rc_resource_ids inst dv Hco). Qed.

Lemma rpen_snoc : forall t ps p (u : nat -> Q), (t < length (rin_bins inst))%nat -> (pl_type p < length (rin_items inst))%nat ->
  (forall r, (r < length (rb_resources (rbin inst t)))%nat -> (u r == rconsumption inst (nth r (rb_resources (rbin inst t)) dummy_resource) ps)%Q) ->
  (rpen inst t (ps ++ [p]) == rpen inst t ps + qsum (fun r => let res := nth r (rb_resources (rbin inst t)) dummy_resource in
      if res_penalize res && Qltb (res_capacity res) (u r + item_consumption res (pl_type p) (Z.to_nat (rcount (pl_type p) ps)))%Q && Qle_bool (u r) (res_capacity res)
      then res_penalty res else 0%Q) (nth t (ri_resource_ids (ritem inst (pl_type p))) []))%Q.
Proof.
  intros t ps p u Ht Hp Hu. rewrite !rpen_proj, map_app. cbn [map].
  pose proof (pen_snoc (proj inst) t (map pl_type ps) (pl_type p) u res_wf (sane_proj inst Hsane) ltac:(rewrite proj_bins_length; exact Ht) ltac:(rewrite proj_items_length; exact Hp)) as P.
  rewrite proj_bin_type in P. cbn [bt_resources proj_bin] in P. rewrite proj_item_type in P. cbn [it_resource_ids proj_item] in P. rewrite count_pl in P. apply P.
  intros r Hr. rewrite proj_consumption. apply Hu. exact Hr.
Qed.

Lemma rpen_nil : forall t, (t < length (rin_bins inst))%nat -> (rpen inst t [] == 0)%Q.
Proof. intros t Ht. rewrite rpen_proj. cbn [map]. apply pen_nil'; [rewrite proj_bins_length; exact Ht|apply sane_proj, Hsane]. Qed.

Lemma no_schedule : forall t x r, (t < length (rin_bins inst))%nat -> (x < length (rin_items inst))%nat -> (r < length (rb_resources (rbin inst t)))%nat ->
  ~ In r (nth t (ri_resource_ids (ritem inst x)) []) -> forall c, item_consumption (nth r (rb_resources (rbin inst t)) dummy_resource) x c = 0%Q.
Proof.
  intros t x r Ht Hx Hr Hn c. apply item_consumption_none. unfold schedule. destruct (nth x (res_item_consumptions _) []) eqn:E; [reflexivity|]. exfalso. apply Hn. apply (rc_resource_ids inst dv Hco x t Hx Ht). split; [exact Hr|]. rewrite E. discriminate.
Qed.

Lemma no_resource_ids : forall t x, (t < length (rin_bins inst))%nat -> (x < length (rin_items inst))%nat -> length (rb_resources (rbin inst t)) = 0%nat -> nth t (ri_resource_ids (ritem inst x)) [] = [].
Proof.
  intros t x Ht Hx E. destruct (rc_resource_ids inst dv Hco x t Hx Ht) as [_ Hids]. destruct (nth t (ri_resource_ids (ritem inst x)) []) as [|r rs]; [reflexivity|]. destruct (proj1 (Hids r) (or_introl eq_refl)). lia.
Qed.

Lemma child_resources_spec : forall n new t ps p profit, (t < length (rin_bins inst))%nat -> (pl_type p < length (rin_items inst))%nat ->
  match new with Some _ => ps = [] | None => ResState inst t (rn_resources n) (rn_last_copies n) ps end ->
  let '(res, lc, prof) := child_resources n new inst (rbin inst t) t (pl_type p) profit in
  ResState inst t res lc (ps ++ [p]) /\ (prof == profit - (rpen inst t (ps ++ [p]) - rpen inst t ps))%Q.
Proof.
  intros n new t ps p profit Ht Hx Hn. set (x := pl_type p) in *. set (bt := rbin inst t). destruct (rc_resource_ids inst dv Hco x t Hx Ht) as [Hnd Hids]. fold bt in Hids.
  unfold child_resources. destruct (Nat.eqb_spec (length (rb_resources bt)) 0) as [Ez|Ez].
  - split.
    + constructor; fold bt; try (intros; lia). cbn. lia.
    + rewrite (rpen_snoc t ps p (fun r => rconsumption inst (nth r (rb_resources (rbin inst t)) dummy_resource) ps) Ht Hx) by (intros; reflexivity). fold x. rewrite (no_resource_ids t x Ht Hx Ez). cbn. ring.
  - destruct new as [pd|].
    + subst ps. cbn [app]. set (st0 := (repeat 0%Q (length (rb_resources bt)), profit)).
      assert (F := fold_res (rnew_resource_step bt x) (fun r _ => item_consumption (nth r (rb_resources bt) dummy_resource) x 0)
         (fun r _ => let res := nth r (rb_resources bt) dummy_resource in if res_penalize res && Qltb (res_capacity res) (item_consumption res x 0) then res_penalty res else 0%Q)).
      specialize (F ltac:(intros st r; unfold rnew_resource_step; cbv zeta; cbn [fst snd]; split; [reflexivity|destruct (_ && _); ring])).
      specialize (F (nth t (ri_resource_ids (ritem inst x)) []) st0 Hnd). cbv zeta in F.
      destruct F as (F1 & F2 & F3). { intros r Hr. apply Hids in Hr. unfold st0. cbn [fst]. rewrite repeat_length. tauto. }
      set (st := fold_left (rnew_resource_step bt x) (nth t (ri_resource_ids (ritem inst x)) []) st0) in *. unfold st0 in F1, F2, F3. cbn [fst snd] in F1, F2, F3. rewrite repeat_length in F1.
      cbv zeta. split.
      * constructor; fold bt.
        -- exact F1.
        -- intros r Hr. rewrite F2. change [p] with ([] ++ [p]). rewrite (rconsumption_snoc inst _ [] p Hx), rconsumption_nil. fold x. change (Z.to_nat (rcount x [])) with 0%nat.
           destruct (in_dec Nat.eq_dec r _) as [Hi|Hi]; [ring|]. rewrite nth_repeat. pose proof (no_schedule t x r Ht Hx Hr Hi 0) as E. fold bt in E. rewrite E. ring.
        -- intros _. rewrite upd_length. apply repeat_length.
        -- intros _ y Hy. rewrite nth_upd by (rewrite repeat_length; exact Hx). rewrite nth_repeat. change [p] with ([] ++ [p]). rewrite rcount_snoc. fold x. change (rcount y []) with 0. destruct (Nat.eqb x y); reflexivity.
      * rewrite F3. change [p] with ([] ++ [p]) at 1. rewrite (rpen_snoc t [] p (fun _ => 0%Q) Ht Hx) by (intros; rewrite rconsumption_nil; reflexivity). rewrite (rpen_nil t Ht). fold x.
        rewrite (qsum_ext _ _ (fun r => let res := nth r (rb_resources (rbin inst t)) dummy_resource in
           if res_penalize res && Qltb (res_capacity res) (0 + item_consumption res x (Z.to_nat (rcount x []))) && Qle_bool 0 (res_capacity res) then res_penalty res else 0%Q)); [ring|].
        intros r Hr. cbv zeta. fold bt. change (Z.to_nat (rcount x [])) with 0%nat. set (res := nth r (rb_resources bt) dummy_resource). apply Hids in Hr. destruct (Hsane bt res) as [C _]; [apply nth_In; exact Ht|apply nth_In; tauto|].
        assert (E1 : Qle_bool 0 (res_capacity res) = true) by (apply Qle_bool_iff; exact C). rewrite E1, andb_true_r.
        assert (E2 : Qltb (res_capacity res) (0 + item_consumption res x 0) = Qltb (res_capacity res) (item_consumption res x 0)). { destruct (Qltb (res_capacity res) (item_consumption res x 0)) eqn:E; [apply Qltb_lt in E; apply Qltb_lt; lra|apply Qltb_ge in E; apply Qltb_ge; lra]. }
        rewrite E2. reflexivity.
    + destruct Hn as [R1 R2 R3 R4]. fold bt in R1, R2, R3, R4. set (copy := nth x (rn_last_copies n) 0%nat) in *. set (st0 := (rn_resources n, profit)).
      assert (F := fold_res (rsame_resource_step bt x copy) (fun r u => (u + item_consumption (nth r (rb_resources bt) dummy_resource) x copy)%Q)
         (fun r u => let res := nth r (rb_resources bt) dummy_resource in if res_penalize res && Qltb (res_capacity res) (u + item_consumption res x copy) && Qle_bool u (res_capacity res) then res_penalty res else 0%Q)).
      specialize (F ltac:(intros st r; unfold rsame_resource_step; cbv zeta; cbn [fst snd]; split; [reflexivity|destruct (_ && _); ring])).
      specialize (F (nth t (ri_resource_ids (ritem inst x)) []) st0 Hnd). cbv zeta in F.
      destruct F as (F1 & F2 & F3). { intros r Hr. apply Hids in Hr. unfold st0. cbn [fst]. rewrite R1. tauto. }
      set (st := fold_left (rsame_resource_step bt x copy) (nth t (ri_resource_ids (ritem inst x)) []) st0) in *. unfold st0 in F1, F2, F3. cbn [fst snd] in F1, F2, F3.
      assert (Hcopy : copy = Z.to_nat (rcount x ps)) by (apply R4; assumption). cbv zeta. split.
      * constructor; fold bt.
        -- rewrite F1. exact R1.
        -- intros r Hr. rewrite F2. rewrite (rconsumption_snoc inst _ ps p Hx), <- (R2 r Hr). fold x. rewrite <- Hcopy.
           destruct (in_dec Nat.eq_dec r _) as [Hi|Hi]; [reflexivity|]. pose proof (no_schedule t x r Ht Hx Hr Hi copy) as E. fold bt in E. rewrite E. ring.
        -- intros Hz. rewrite upd_length. apply R3, Hz.
        -- intros Hz y Hy. rewrite nth_upd by (rewrite R3 by exact Hz; exact Hx). rewrite rcount_snoc. fold x. pose proof (rcount_nonneg y ps). destruct (Nat.eqb_spec x y) as [<-|]; [fold copy; rewrite Hcopy; lia|]. rewrite R4 by assumption. f_equal. lia.
      * rewrite F3. rewrite (rpen_snoc t ps p (fun r => nth r (rn_resources n) 0%Q) Ht Hx) by (intros; apply R2; assumption). cbv zeta. fold x bt. rewrite <- Hcopy. ring.
Qed.

(** Hard resources after an insertion. *)
Lemma hard_step : forall n new t ps p, (t < length (rin_bins inst))%nat -> (pl_type p < length (rin_items inst))%nat ->
  match new with Some _ => ps = [] | None => ResState inst t (rn_resources n) (rn_last_copies n) ps end ->
  (forall r, In r (rb_resources (rbin inst t)) -> res_penalize r = false -> (rconsumption inst r ps <= res_capacity r * PSTOL)%Q) ->
  (forall r, In r (nth t (ri_resource_ids (ritem inst (pl_type p))) []) -> res_penalize (nth r (rb_resources (rbin inst t)) dummy_resource) = false ->
    (ins_consumption n new (rbin inst t) (pl_type p) r <= res_capacity (nth r (rb_resources (rbin inst t)) dummy_resource) * PSTOL)%Q) ->
  forall r, In r (rb_resources (rbin inst t)) -> res_penalize r = false -> (rconsumption inst r (ps ++ [p]) <= res_capacity r * PSTOL)%Q.
Proof.
  intros n new t ps p Ht Hx Hn Hps Hnew r Hr Hpen. destruct (In_nth _ _ dummy_resource Hr) as (k & Hk & Ek). rewrite (rconsumption_snoc inst r ps p Hx).
  destruct (in_dec Nat.eq_dec k (nth t (ri_resource_ids (ritem inst (pl_type p))) [])) as [Hi|Hi].
  - specialize (Hnew k Hi). rewrite Ek in Hnew. specialize (Hnew Hpen). unfold ins_consumption in Hnew. rewrite Ek in Hnew. destruct new as [pd|].
    + subst ps. rewrite rconsumption_nil. change (Z.to_nat (rcount (pl_type p) [])) with 0%nat. lra.
    + destruct Hn as [R1 R2 R3 R4]. specialize (R2 k Hk). rewrite Ek in R2. rewrite R4 in Hnew by (try lia; exact Hx). rewrite <- R2. exact Hnew.
  - pose proof (no_schedule t (pl_type p) k Ht Hx Hk Hi (Z.to_nat (rcount (pl_type p) ps))) as E. rewrite Ek in E. rewrite E. specialize (Hps r Hr Hpen). lra.
Qed.

Lemma hard_nil : forall t, (t < length (rin_bins inst))%nat -> forall r, In r (rb_resources (rbin inst t)) -> res_penalize r = false -> (rconsumption inst r [] <= res_capacity r * PSTOL)%Q.
Proof.
  intros t Ht r Hr _. rewrite rconsumption_nil. destruct (Hsane (rbin inst t) r) as [C _]; [apply nth_In; exact Ht|exact Hr|]. unfold PSTOL. lra.
Qed.
End Res.
