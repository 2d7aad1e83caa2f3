(** * Proofs about the assignment MILP: value of the point of a packing *)

From Coq Require Import List ZArith QArith Qround Bool Lia Lqa Permutation Sorted.
From Verif Require Import Util Common_Model Common_Spec Common_Proof OneDim_Model OneDim_Spec OneDim_Proof OneDim_Order
  OneDimDff_Proof OneDimBounds_Spec ReducInv_Proof Bar_Proof BarPack_Proof Milp_Model Milp_Spec Milp_Proof MilpPoint_Proof MilpPacking_Proof.
Import ListNotations.
Open Scope Z_scope.

(** ** Threshold schedules *)

Section Threshold.

Variable i : Instance.
Notation ni := (length (in_item_types i)).
Notation nb := (length (in_bin_types i)).
Notation it x := (item_type i x).
Notation count := (count_occ Nat.eq_dec).

Lemma threshold_loop_end : forall fuel r x n m, (forall c, (item_consumption r x c == if (c <? m)%nat then 1 else 0)%Q) ->
  (n <= m)%nat -> (Z.to_nat (it_copies (it x)) + 2 <= fuel + n)%nat -> (0 <= it_copies (it x)) ->
  (item_consumption r x (threshold_loop i fuel r x n) == 0)%Q -> threshold_loop i fuel r x n = m.
Proof.
  induction fuel as [|fuel IH]; intros r x n m Hm Hn Hf Hc H; cbn [threshold_loop] in *.
  - rewrite Hm in H. destruct (Nat.ltb_spec n m); [discriminate H|lia].
  - destruct (_ && _) eqn:E.
    + apply andb_true_iff in E. destruct E as [_ E]. apply Qeq_bool_iff in E. rewrite Hm in E. destruct (Nat.ltb_spec n m); [|discriminate E]. apply IH; [exact Hm|lia|lia|exact Hc|exact H].
    + rewrite Hm in H. destruct (Nat.ltb_spec n m); [discriminate H|lia].
Qed.

(** Units of the resource: at most the thresholds. *)
Lemma units_bound : forall r xs us, (forall x, In x xs -> 0 <= it_copies (it x)) ->
  (forall x, In x xs -> exists n, forall c, (item_consumption r x c == if (c <? n)%nat then 1 else 0)%Q) ->
  resource_units i r xs = Some us -> forall l,
  (qsum (fun x => schedule_total (schedule r x) (count l x)) xs <= inject_Z (Z.of_nat (length us)))%Q.
Proof.
  intros r xs. induction xs as [|x xs IH]; intros us Hc Hn H l; cbn [resource_units] in H; [injection H as <-; apply Qle_refl|].
  rewrite qsum_cons, schedule_total_sum. destruct (Hn x (or_introl eq_refl)) as (n & Hx).
  destruct (Qeq_bool (item_consumption r x 0) 0) eqn:E0.
  - apply Qeq_bool_iff in E0. rewrite Hx in E0. destruct (Nat.ltb_spec 0 n) as [Hn0|Hn0]; [discriminate E0|].
    rewrite qsum_zero by (intros c _; rewrite Hx; destruct (Nat.ltb_spec c n); [lia|reflexivity]). rewrite Qplus_0_l.
    apply IH; [intros y Hy; apply Hc; right; exact Hy|intros y Hy; apply Hn; right; exact Hy|exact H].
  - destruct (negb _) eqn:Et in H; [discriminate|]. apply negb_false_iff, Qeq_bool_iff in Et. destruct (resource_units i r xs) as [us'|] eqn:E; [|discriminate]. injection H as <-.
    assert (Em : threshold i r x = n) by (unfold threshold; apply (threshold_loop_end _ r x 0 n Hx); [lia|lia|apply Hc; left; reflexivity|exact Et]).
    rewrite app_length, map_length, seq_length, Nat2Z.inj_add, inject_Z_plus, Em. apply Qplus_le_compat.
    + rewrite (qsum_ext _ _ (fun c => if (c <? n)%nat then 1 else 0)%Q) by (intros c _; apply Hx).
      generalize (count l x). intro m. clear. induction m as [|m IH]; [cbn; change 0%Q with (inject_Z 0); rewrite <- Zle_Qle; lia|]. rewrite seq_S, qsum_snoc. cbn [Nat.add].
      destruct (Nat.ltb_spec m n) as [H|H]; [|lra]. destruct (Nat.le_gt_cases (S m) n) as [G|G]; [|lia].
      rewrite (qsum_ext _ _ (fun _ => 1%Q)) by (intros c Hc; apply in_seq in Hc; destruct (Nat.ltb_spec c n); [reflexivity|lia]). rewrite qsum_const_one.
      replace (inject_Z (Z.of_nat m) + 1)%Q with (inject_Z (Z.of_nat m) + inject_Z 1)%Q by reflexivity. rewrite <- inject_Z_plus, <- Zle_Qle. lia.
    + apply IH; [intros y Hy; apply Hc; right; exact Hy|intros y Hy; apply Hn; right; exact Hy|reflexivity].
Qed.

End Threshold.

Section Value.

Variable i : Instance.
Variable prec : list (nat * nat).
Variable ub : list nat.
Variables ml mp : Q.
Hypothesis Hdom : milp_domain i prec.
Hypothesis Hmp : (0 < mp)%Q.

Notation ni := (length (in_item_types i)).
Notation nb := (length (in_bin_types i)).
Notation it x := (item_type i x).
Notation bt t := (bin_type i t).
Notation count := (count_occ Nat.eq_dec).

Variable loads : nat -> list (list nat).
Hypothesis Hl : LoadsOK i prec ub loads.
Notation v := (full_point i prec loads).
Notation value := (qsum (fun c => col_obj c * v (col_var c))%Q).

Lemma y_value : needs_y i = true ->
  (value (y_cols i ub) == qsum (fun t => (if is_bin_packing i then 1%Q else bt_cost (bt t)) * inject_Z (Z.of_nat (length (loads t)))) (seq 0 nb))%Q.
Proof.
  intro Hy. unfold y_cols. rewrite Hy, qsum_flat_map. apply qsum_ext. intros t Ht. apply in_seq in Ht. rewrite qsum_map. cbn [col_obj col_var full_point loads_point].
  apply qsum_scaled_indicator. apply (lo_len _ _ _ _ Hl). lia.
Qed.

Lemma x_value : (value (x_cols i ub mp) == qsum (fun x => (if is_knapsack i then it_profit (it x) / mp else 0) * inject_Z (tot i loads x)) (seq 0 ni))%Q.
Proof.
  unfold x_cols. rewrite qsum_flat_map. apply qsum_ext. intros x Hx. rewrite qsum_flat_map. unfold tot. rewrite <- qsum_inject, <- qsum_scale. apply qsum_ext. intros t Ht. apply in_seq in Ht.
  rewrite qsum_flat_map, <- qsum_inject.
  rewrite <- (qsum_nth_over _ (fun l => inject_Z (Z.of_nat (count l x))) [] (loads t) (ub_of ub t)) by (try (apply (lo_len _ _ _ _ Hl); lia); reflexivity).
  rewrite <- qsum_scale. apply qsum_ext. intros k _. rewrite qsum_map. cbn [col_obj col_var full_point loads_point].
  apply qsum_scaled_indicator. apply (count_slots i prec ub Hdom loads Hl). lia.
Qed.

(** Items of the loads, one by one. *)
Lemma tot_sum : forall (f : nat -> Q), (qsum (fun x => f x * inject_Z (tot i loads x)) (seq 0 ni) == qsum (fun t => qsum (fun l => qsum f l) (loads t)) (seq 0 nb))%Q.
Proof.
  intro f. transitivity (qsum (fun x => qsum (fun t => qsum (fun l => inject_Z (Z.of_nat (count l x)) * f x) (loads t)) (seq 0 nb)) (seq 0 ni))%Q.
  - apply qsum_ext. intros x _. unfold tot. rewrite <- qsum_inject, <- qsum_scale. apply qsum_ext. intros t _. rewrite <- qsum_inject, <- qsum_scale. apply qsum_ext. intros l _. ring.
  - rewrite qsum_exchange. apply qsum_ext. intros t Ht. apply in_seq in Ht. rewrite qsum_exchange. apply qsum_ext. intros l Hll. apply count_weighted. intros x Hx. apply (lo_ids _ _ _ _ Hl t l x); [lia|exact Hll|exact Hx].
Qed.

(** Penalty of one resource for a load. *)
Definition exceeded (r : Resource) (l : list nat) : Q :=
  if res_penalize r && Qltb (res_capacity r) (consumption i r l) then res_penalty r else 0%Q.

Lemma penalize_bin_value : threshold_resources i -> forall t rs r cols rows, (t < nb)%nat -> (forall j, (j < length rs)%nat -> nth_error (bt_resources (bt t)) (r + j) = nth_error rs j) ->
  penalize_bin i ub mp t r rs = Some (cols, rows) -> (value cols * mp == - qsum (fun l => qsum (fun q => exceeded q l) rs) (loads t))%Q.
Proof.
  intros Hth t rs. induction rs as [|resource rs IH]; intros r cols rows Ht Hrs H; cbn [penalize_bin] in H.
  - injection H as <- <-. rewrite (qsum_zero _ (fun l => qsum (fun q => exceeded q l) [])) by (intros l _; reflexivity). cbn. ring.
  - destruct (penalize_bin i ub mp t (S r) rs) as [[cols' rows']|] eqn:E; [|discriminate].
    assert (IHr : (value cols' * mp == - qsum (fun l => qsum (fun q => exceeded q l) rs) (loads t))%Q).
    { apply (IH (S r) cols' rows' Ht); [|exact E]. intros j Hj. specialize (Hrs (S j)). cbn [length nth_error] in Hrs. rewrite <- Hrs by lia. f_equal. lia. }
    assert (Split : (qsum (fun l => qsum (fun q => exceeded q l) (resource :: rs)) (loads t) == qsum (exceeded resource) (loads t) + qsum (fun l => qsum (fun q => exceeded q l) rs) (loads t))%Q).
    { rewrite <- qsum_plus. apply qsum_ext. intros l _. rewrite qsum_cons. reflexivity. }
    rewrite Split. assert (Enth : nth_error (bt_resources (bt t)) r = Some resource) by (specialize (Hrs 0%nat); rewrite Nat.add_0_r in Hrs; rewrite Hrs; [reflexivity|simpl; lia]).
    pose proof (nth_error_In _ _ Enth) as Hin.
    destruct (res_penalize resource) eqn:Ep.
    2:{ injection H as <- <-. rewrite IHr. rewrite (qsum_zero _ (exceeded resource)); [ring|]. intros l _. unfold exceeded. rewrite Ep. reflexivity. }
    destruct (negb (Qeq_bool (res_capacity resource) 1)) eqn:Ec; [discriminate|]. apply negb_false_iff, Qeq_bool_iff in Ec.
    destruct (resource_units i resource (seq 0 ni)) as [us|] eqn:Eu; [|discriminate]. cbv zeta in H. injection H as <- <-.
    rewrite qsum_app, Qmult_plus_distr_l, IHr.
    assert (G : (value (fst (penalize_part i ub mp t r resource us)) * mp == - qsum (exceeded resource) (loads t))%Q); [|rewrite G; ring].
    unfold penalize_part. destruct (Nat.ltb_spec (length us) 2) as [Hus|Hus]; cbn [fst].
    + rewrite qsum_nil, (qsum_zero _ (exceeded resource)); [ring|]. intros l _. unfold exceeded. rewrite Ep. cbn [andb].
      assert (Hq : Qltb (res_capacity resource) (consumption i resource l) = false); [|rewrite Hq; reflexivity]. apply Qltb_ge. rewrite Ec. unfold consumption.
      eapply Qle_trans; [apply (units_bound i resource (seq 0 ni) us)|].
      * intros x Hx. apply in_seq in Hx. destruct (md_items _ _ Hdom x) as (_ & ? & _); [lia|]. lia.
      * intros x Hx. apply in_seq in Hx. apply (Hth t resource x Ht Hin Ep). lia.
      * exact Eu.
      * change 1%Q with (inject_Z 1). rewrite <- Zle_Qle. lia.
    + rewrite qsum_map. cbn [col_obj col_var full_point]. cbv zeta. rewrite (nth_error_nth _ _ dummy_resource Enth).
      rewrite <- (qsum_nth_over _ (exceeded resource) [] (loads t) (ub_of ub t)).
      * rewrite Qmult_comm, <- qsum_scale. setoid_replace (- qsum (fun k => exceeded resource (nth k (loads t) [])) (seq 0 (ub_of ub t)))%Q with ((-1) * qsum (fun k => exceeded resource (nth k (loads t) [])) (seq 0 (ub_of ub t)))%Q by ring.
        rewrite <- qsum_scale. apply qsum_ext. intros k _. unfold exceeded. rewrite Ep. cbn [andb]. destruct (Qltb _ _); field; lra.
      * apply (lo_len _ _ _ _ Hl). lia.
      * unfold exceeded. rewrite Ep. cbn [andb]. assert (Hq : Qltb (res_capacity resource) (consumption i resource []) = false); [|rewrite Hq; reflexivity].
        apply Qltb_ge. rewrite consumption_nil, Ec. discriminate.
Qed.

Lemma penalize_all_value : threshold_resources i -> forall ts cols rows, (forall t, In t ts -> (t < nb)%nat) -> penalize_all i ub mp ts = Some (cols, rows) ->
  (value cols * mp == - qsum (fun t => qsum (fun l => penalties i (mkBD t 1 l)) (loads t)) ts)%Q.
Proof.
  intros Hth ts. induction ts as [|t ts IH]; intros cols rows Ht H; cbn [penalize_all] in H; [injection H as <- <-; cbn; ring|].
  destruct (penalize_bin i ub mp t 0 (bt_resources (bt t))) as [[c1 r1]|] eqn:E1; [|discriminate]. destruct (penalize_all i ub mp ts) as [[c2 r2]|] eqn:E2; [|discriminate]. injection H as <- <-.
  rewrite qsum_app, Qmult_plus_distr_l, (IH c2 r2 (fun u Hu => Ht u (or_intror Hu)) eq_refl), qsum_cons.
  rewrite (penalize_bin_value Hth t _ 0 c1 r1 (Ht t (or_introl eq_refl)) (fun j _ => eq_refl) E1). change (fun l => qsum (fun q => exceeded q l) (bt_resources (bt t))) with (fun l => penalties i (mkBD t 1 l)). ring.
Qed.

Lemma precedence_value : forall ps p cols rows, precedence_model i ub p ps = Some (cols, rows) -> (value cols == 0)%Q.
Proof.
  induction ps as [|[a b] ps IH]; intros p cols rows H; cbn [precedence_model] in H; [injection H as <- <-; reflexivity|].
  destruct (precedence_model i ub (S p) ps) as [[cols' rows']|] eqn:E; [|discriminate]. specialize (IH (S p) cols' rows' E). destruct (single_bin i).
  - destruct (single_precedence i ub a b); [|discriminate]. injection H as <- <-. exact IH.
  - injection H as <- <-. rewrite qsum_cons, IH. cbn [col_obj]. ring.
Qed.

(** The value of the point. *)
Theorem loads_value : forall m, build_model i prec ub ml mp = Some m ->
  match in_objective i with
  | OBinPacking => (milp_value m v == qsum (fun t => inject_Z (Z.of_nat (length (loads t)))) (seq 0 nb))%Q
  | OVariableSizedBinPacking => (milp_value m v == qsum (fun t => bt_cost (bt t) * inject_Z (Z.of_nat (length (loads t)))) (seq 0 nb))%Q
  | OKnapsack => threshold_resources i ->
      (milp_value m v * mp == qsum (fun t => qsum (fun l => qsum (fun x => it_profit (it x)) l - penalties i (mkBD t 1 l)) (loads t)) (seq 0 nb))%Q
  | _ => (milp_value m v == 0)%Q
  end.
Proof.
  intros m H. unfold build_model in H. destruct (divides_by_zero i); [discriminate|].
  destruct (penalize_model i ub mp) as [[c1 r1]|] eqn:E1; [|discriminate]. destruct (precedence_model i ub 0 prec) as [[c2 r2]|] eqn:E2; [|discriminate]. injection H as <-.
  unfold milp_value. cbn [m_cols].
  assert (V : (value (y_cols i ub ++ x_cols i ub mp ++ c1 ++ c2) == value (y_cols i ub) + value (x_cols i ub mp) + value c1)%Q).
  { rewrite !qsum_app, (precedence_value _ _ _ _ E2). ring. }
  assert (Nx : is_knapsack i = false -> (value (x_cols i ub mp) == 0)%Q).
  { intro Hk. rewrite x_value, Hk. apply qsum_zero. intros x _. ring. }
  assert (Nc : is_knapsack i = false -> (value c1 == 0)%Q).
  { intro Hk. unfold penalize_model in E1. rewrite Hk in E1. injection E1 as <- <-. reflexivity. }
  assert (Ny : needs_y i = false -> (value (y_cols i ub) == 0)%Q) by (intro Hy; unfold y_cols; rewrite Hy; reflexivity).
  pose proof y_value as Y. pose proof x_value as X. unfold penalize_model in E1. unfold needs_y, is_bin_packing, is_knapsack in *.
  destruct (in_objective i); try (rewrite V, Nx, Nc, Ny by reflexivity; ring).
  - rewrite V, Nx, Nc, Y by reflexivity. rewrite !Qplus_0_r. apply qsum_ext. intros t _. ring.
  - intro Hth. rewrite V, Ny, X by reflexivity. rewrite Qplus_0_l, Qmult_plus_distr_l.
    rewrite (penalize_all_value Hth _ _ _ (fun t Ht => proj2 (proj1 (in_seq nb 0 t) Ht)) E1).
    rewrite (tot_sum (fun x => it_profit (it x) / mp)%Q).
    transitivity (qsum (fun t => qsum (fun l => qsum (fun x => it_profit (it x)) l) (loads t)) (seq 0 nb) - qsum (fun t => qsum (fun l => penalties i (mkBD t 1 l)) (loads t)) (seq 0 nb))%Q.
    + unfold Qminus. apply Qplus_comp; [|reflexivity]. rewrite Qmult_comm, <- qsum_scale. apply qsum_ext. intros t _. rewrite <- qsum_scale. apply qsum_ext. intros l _. rewrite <- qsum_scale. apply qsum_ext. intros x _. field. lra.
    + unfold Qminus. setoid_replace (- qsum (fun t => qsum (fun l => penalties i (mkBD t 1 l)) (loads t)) (seq 0 nb))%Q with ((-1) * qsum (fun t => qsum (fun l => penalties i (mkBD t 1 l)) (loads t)) (seq 0 nb))%Q by ring.
      rewrite <- qsum_scale, <- qsum_plus. apply qsum_ext. intros t _. rewrite <- qsum_scale, <- qsum_plus. apply qsum_ext. intros l _. ring.
  - rewrite V, Nx, Nc, Y by reflexivity. rewrite !Qplus_0_r. reflexivity.
Qed.

End Value.

(** ** Packings *)

Section PackingValue.

Variable i : Instance.
Variable prec : list (nat * nat).
Variable ub : list nat.
Variables ml mp : Q.
Hypothesis Hdom : milp_domain i prec.
Hypothesis Hml : (0 < ml)%Q.
Hypothesis Hmp : (0 < mp)%Q.
Hypothesis Hub : forall t, (t < length (in_bin_types i))%nat -> Z.of_nat (ub_of ub t) <= bt_copies (bin_type i t).

(** The objective of a list of bins. *)
Definition objective_value (ds : list BinDesc) : Q :=
  match in_objective i with
  | OBinPacking => inject_Z (zsum bd_copies ds)
  | OVariableSizedBinPacking => cost_of i ds
  | OKnapsack => (net_profit i ds / mp)%Q
  | _ => 0%Q
  end.

Theorem packing_point : forall m ds, MilpPacking i prec ub ds -> build_model i prec ub ml mp = Some m ->
  exists v, MilpPoint m v /\ ((in_objective i = OKnapsack -> threshold_resources i) -> (milp_value m v == objective_value ds)%Q).
Proof.
  intros m ds H Hm. pose proof (packing_loads i prec ub ds H Hub) as Hl. pose proof (mk_types _ _ _ _ H) as Ht. exists (full_point i prec (loads_of i ds)). split.
  - apply (loads_are_point i prec ub ml mp Hdom Hml _ Hl m Hm).
  - intro Hth. pose proof (loads_value i prec ub ml mp Hdom Hmp _ Hl m Hm) as V. unfold objective_value.
    assert (L : forall f : nat -> Q, (qsum (fun t => f t * inject_Z (Z.of_nat (length (loads_of i ds t)))) (seq 0 (length (in_bin_types i))) == qsum (fun d => inject_Z (bd_copies d) * f (bd_type d)) ds)%Q).
    { intro f. rewrite <- (loads_sum i (fun t _ => f t) ds Ht). apply qsum_ext. intros t _. rewrite qsum_const. ring. }
    destruct (in_objective i); try exact V.
    + rewrite V. rewrite <- qsum_inject. transitivity (qsum (fun t => 1 * inject_Z (Z.of_nat (length (loads_of i ds t)))) (seq 0 (length (in_bin_types i))))%Q; [apply qsum_ext; intros t _; ring|].
      rewrite (L (fun _ => 1%Q)). apply qsum_ext. intros d _. ring.
    + specialize (V (Hth eq_refl)). apply Qmult_inj_r with (z := mp); [lra|]. rewrite V. rewrite (loads_sum i (fun t l => qsum (fun x => it_profit (item_type i x)) l - penalties i (mkBD t 1 l))%Q ds Ht).
      unfold net_profit. unfold Qdiv. rewrite <- Qmult_assoc, (Qmult_comm (/ mp)), Qmult_inv_r, Qmult_1_r by lra. reflexivity.
    + rewrite V. rewrite (L (fun t => bt_cost (bin_type i t))). reflexivity.
Qed.

End PackingValue.
