(** * Proofs about the search of minimal subsets and the lifting *)

From Coq Require Import List ZArith QArith Bool Lia Lqa Arith Permutation Qround.
From Verif Require Import Util Common_Model Common_Spec Common_Proof OneDim_Model OneDim_Spec OneDim_Order Milp_Model Milp_Spec
  Rect_Model Rect_Spec RectDff_Model RectDff_Proof RectSol_Spec Bar_Spec RectBounds_Model RectBounds_Spec Benders_Model Benders_Spec Benders_Proof.
Import ListNotations.
Open Scope Z_scope.

(** ** Parts of a list *)

Inductive Part {A : Type} : list A -> list A -> Prop :=
| Part_nil : Part [] []
| Part_skip : forall x l l', Part l' l -> Part l' (x :: l)
| Part_keep : forall x l l', Part l' l -> Part (x :: l') (x :: l).

Lemma Part_in : forall (A : Type) (l' l : list A) x, Part l' l -> In x l' -> In x l.
Proof. intros A l' l x H. induction H; intro I; [exact I|right; apply IHPart; exact I|]. destruct I as [->|I]; [left; reflexivity|right; apply IHPart; exact I]. Qed.

Lemma Part_pairs : forall (A : Type) (R : A -> A -> Prop) l' l, Part l' l -> ForallOrdPairs R l -> ForallOrdPairs R l'.
Proof.
  intros A R l' l H. induction H; intro F; [exact F| |].
  - inversion F; subst. apply IHPart. assumption.
  - inversion F; subst. constructor; [|apply IHPart; assumption].
    rewrite Forall_forall in *. intros y Hy. apply H2. apply (Part_in _ _ _ y H). exact Hy.
Qed.

(** The first [k x] items of every type [x]. *)
Fixpoint take_counts (k : nat -> nat) (ps : list Place) : list Place :=
  match ps with
  | [] => []
  | p :: ps' =>
      match k (pl_type p) with
      | O => take_counts k ps'
      | S n => p :: take_counts (fun x => if Nat.eqb x (pl_type p) then n else k x) ps'
      end
  end.

Lemma take_part : forall ps k, Part (take_counts k ps) ps.
Proof.
  induction ps as [|p ps IH]; intro k; [constructor|]. cbn [take_counts]. destruct (k (pl_type p)); [apply Part_skip|apply Part_keep]; apply IH.
Qed.

Lemma take_count : forall ps k x, rcount x (take_counts k ps) = Z.min (Z.of_nat (k x)) (rcount x ps).
Proof.
  induction ps as [|p ps IH]; intros k x.
  - unfold rcount. cbn. lia.
  - cbn [take_counts]. destruct (k (pl_type p)) as [|n] eqn:E.
    + rewrite IH, (rcount_cons x p). pose proof (rcount_nonneg x ps). destruct (Nat.eqb_spec (pl_type p) x) as [<-|Hn]; lia.
    + rewrite !rcount_cons, IH. cbv beta. pose proof (rcount_nonneg x ps).
      destruct (Nat.eqb_spec (pl_type p) x) as [<-|Hn].
      * rewrite Nat.eqb_refl. lia.
      * destruct (Nat.eqb_spec x (pl_type p)); [congruence|]. lia.
Qed.

(** Counts of types that are not asked for. *)
Lemma take_types : forall ps k p, In p (take_counts k ps) -> (0 < k (pl_type p))%nat.
Proof.
  induction ps as [|q ps IH]; intros k p; [intros []|]. cbn [take_counts]. destruct (k (pl_type q)) as [|n] eqn:E.
  - apply IH.
  - intros [<-|H]; [lia|]. apply IH in H. cbv beta in H. destruct (Nat.eqb_spec (pl_type p) (pl_type q)) as [Eq|Eq]; [rewrite Eq, E; lia|exact H].
Qed.

Section Search.
Variable i : RInstance.
Variable extra : nat -> list Place -> Prop.
Hypothesis Hres : rsane_resources i.
Hypothesis Hmono : monotone extra.
Let ni := length (rin_items i).

(** ** Bins with fewer items *)

Lemma rconsumption_mono : forall t r ps qs, In r (rb_resources (rbin i t)) -> (forall x, rcount x ps <= rcount x qs) ->
  (rconsumption i r ps <= rconsumption i r qs)%Q.
Proof.
  intros t r ps qs Hr Hc. assert (Ht : (t < length (rin_bins i))%nat).
  { destruct (Nat.lt_ge_cases t (length (rin_bins i))) as [|H]; [assumption|]. unfold rbin in Hr. rewrite nth_overflow in Hr by exact H. destruct Hr. }
  destruct (Hres (rbin i t) r (nth_In _ _ Ht) Hr) as [_ Hq]. unfold rconsumption. apply qsum_le. intros x _.
  apply schedule_total_mono; [|apply Z2Nat.inj_le; try apply rcount_nonneg; apply Hc].
  intros q Hin. destruct (nth_in_or_default x (res_item_consumptions r) []) as [Hi|Hi]; [apply (Hq _ q Hi Hin)|]. rewrite Hi in Hin. destruct Hin.
Qed.

Lemma part_count : forall ps' ps x, Part ps' ps -> rcount x ps' <= rcount x ps.
Proof. intros ps' ps x H. induction H; rewrite ?rcount_cons; destruct (Nat.eqb (pl_type x0) x) || idtac; try lia. Qed.

Lemma part_extra : forall t ps' ps pre, Part ps' ps -> extra t (pre ++ ps) -> extra t (pre ++ ps').
Proof.
  intros t ps' ps pre H. revert pre. induction H as [|x l l' H IH|x l l' H IH]; intros pre E; [exact E| |].
  - apply IH. apply (Hmono t pre x l). exact E.
  - replace (pre ++ x :: l') with ((pre ++ [x]) ++ l') by (rewrite <- app_assoc; reflexivity). apply IH. rewrite <- app_assoc. exact E.
Qed.

Lemma part_ok : forall t ps' ps, Part ps' ps -> bin_ok i extra t ps -> bin_ok i extra t ps'.
Proof.
  intros t ps' ps H [[G1 G2 G3] E R C X]. constructor.
  - constructor; [intros p Hp; apply G1; apply (Part_in _ _ _ p H Hp)|apply (Part_pairs _ _ _ _ H G2)|].
    intros p d Hp Hd. apply G3; [apply (Part_in _ _ _ p H Hp)|exact Hd].
  - intros p Hp. apply E. apply (Part_in _ _ _ p H Hp).
  - intros r Hr Hn. eapply Qle_trans; [apply (rconsumption_mono t r ps' ps Hr); intro x; apply part_count; exact H|]. apply R; assumption.
  - intros x Hx. specialize (C x Hx). pose proof (part_count ps' ps x H). lia.
  - apply (part_extra t ps' ps [] H X).
Qed.

(** Items that cannot be in a bin alone cannot be in it with others. *)
Lemma proven_never : forall sub t sel, sub_right i extra sub -> (forall x, 0 <= selected sel x) ->
  so_infeasible (sub t sel) = true -> never_together i extra t sel.
Proof.
  intros sub t sel Hsub Hs Hinf ps Hok Hge. destruct (Hsub t sel) as (_ & _ & H). apply (H Hinf (take_counts (fun x => Z.to_nat (selected sel x)) ps)).
  - apply (part_ok t _ ps); [apply take_part|exact Hok].
  - intros x Hx. rewrite take_count. specialize (Hge x Hx). specialize (Hs x). lia.
Qed.

(** ** Aggregated selections *)

Definition cnt (us : list nat) (x : nat) : Z := Z.of_nat (count_occ Nat.eq_dec us x).

Lemma filter_fst_nodup : forall (f : nat * Z -> bool) l, NoDup (map fst l) -> NoDup (map fst (filter f l)).
Proof.
  intros f l. induction l as [|p l IH]; intro H; [constructor|]. cbn [map] in H. apply NoDup_cons_iff in H. destruct H as [H1 H2].
  cbn [filter]. destruct (f p); [|apply IH; exact H2]. cbn [map]. constructor; [|apply IH; exact H2].
  intro C. apply H1. apply in_map_iff in C. destruct C as (q & E & Hq). apply filter_In in Hq. rewrite <- E. apply in_map. apply Hq.
Qed.

Lemma aggregate_distinct : forall us, NoDup (map fst (aggregate i us)).
Proof.
  intro us. unfold aggregate. apply filter_fst_nodup. rewrite map_map. rewrite (map_ext _ (fun x => x)) by reflexivity. rewrite List.map_id. apply seq_NoDup.
Qed.

Lemma aggregate_in : forall us p, In p (aggregate i us) -> (fst p < ni)%nat /\ snd p = cnt us (fst p) /\ 1 <= snd p.
Proof.
  intros us p H. unfold aggregate in H. apply filter_In in H. destruct H as [H E]. apply in_map_iff in H. destruct H as (x & <- & Hx).
  apply in_seq in Hx. cbn [fst snd] in *. apply Z.ltb_lt in E. unfold cnt. fold ni in Hx. split; [lia|]. split; [reflexivity|lia].
Qed.

Lemma aggregate_selected : forall us x, (x < ni)%nat -> selected (aggregate i us) x = cnt us x.
Proof.
  intros us x Hx. destruct (in_dec Nat.eq_dec x (map fst (aggregate i us))) as [I|I].
  - apply in_map_iff in I. destruct I as (p & <- & Hp). rewrite (selected_in _ p (aggregate_distinct us) Hp). apply (aggregate_in us p Hp).
  - rewrite (selected_out _ x I). destruct (Z.eq_dec (cnt us x) 0) as [E|E]; [symmetry; exact E|]. exfalso. apply I.
    apply in_map_iff. exists (x, cnt us x). split; [reflexivity|]. unfold aggregate. apply filter_In. split.
    + apply in_map_iff. exists x. split; [reflexivity|]. apply in_seq. fold ni. lia.
    + cbn [snd]. apply Z.ltb_lt. unfold cnt in *. lia.
Qed.

Lemma aggregate_nonneg : forall us x, 0 <= selected (aggregate i us) x.
Proof.
  intros us x. unfold selected. apply zsum_nonneg. intros p Hp. destruct (aggregate_in us p Hp) as (_ & _ & H). destruct (Nat.eqb (fst p) x); lia.
Qed.

Lemma aggregate_filter : forall us, filter (fun p => 0 <? snd p) (aggregate i us) = aggregate i us.
Proof.
  intro us. unfold aggregate. generalize (map (fun x => (x, Z.of_nat (count_occ Nat.eq_dec us x))) (seq 0 (length (rin_items i)))). intro l.
  induction l as [|p l IH]; [reflexivity|]. cbn [filter]. destruct (0 <? snd p) eqn:E; [|exact IH]. cbn [filter]. rewrite E, IH. reflexivity.
Qed.

Lemma aggregate_ok : forall us, (forall x, (x < ni)%nat -> cnt us x <= ri_copies (ritem i x)) -> selection_ok i (aggregate i us).
Proof.
  intros us H. constructor; [apply aggregate_distinct|]. intros p Hp. destruct (aggregate_in us p Hp) as (A & B & C). split; [exact A|].
  specialize (H _ A). lia.
Qed.

(** What a reported subset is. *)
Definition reported (feas : list (nat * Z) -> Feasibility) (units : list nat) (proven : bool) (c : list (nat * Z) * bool) : Prop :=
  exists us, fst c = aggregate i us /\ (forall x, cnt us x <= cnt units x) /\ feas (fst c) <> Feasible
    /\ (snd c = true -> proven = true /\ feas (fst c) = ProvenNot).

Lemma cnt_app : forall a b x, cnt (a ++ b) x = cnt a x + cnt b x.
Proof. intros. unfold cnt. rewrite count_occ_app. lia. Qed.
Lemma cnt_nonneg : forall a x, 0 <= cnt a x.
Proof. intros. unfold cnt. lia. Qed.
Lemma cnt_cons : forall u a x, cnt (u :: a) x = cnt [u] x + cnt a x.
Proof. intros. apply (cnt_app [u] a). Qed.

Lemma dfs_loop_reported : forall feas maximum rest kept proven any cuts any' cuts',
  dfs_loop i feas maximum kept rest proven any cuts = (any', cuts') ->
  forall c, In c cuts' -> In c cuts \/ reported feas (kept ++ rest) proven c.
Proof.
  intros feas maximum rest. induction rest as [|u rest IH]; intros kept proven any cuts any' cuts' E c Hc.
  - cbn [dfs_loop] in E. injection E as <- <-. left. exact Hc.
  - cbn [dfs_loop] in E. destruct (maximum <=? length cuts)%nat; [injection E as <- <-; left; exact Hc|].
    assert (W : forall pr c0, (pr = true -> proven = true) -> reported feas (kept ++ rest) pr c0 -> reported feas (kept ++ u :: rest) proven c0).
    { intros pr c0 Hpr (us & A & B & C & D). exists us. split; [exact A|]. split; [|split; [exact C|]].
      - intro x. specialize (B x). rewrite cnt_app in *. rewrite cnt_cons. pose proof (cnt_nonneg [u] x). lia.
      - intro T. destruct (D T) as [D1 D2]. split; [apply Hpr; exact D1|exact D2]. }
    assert (G : forall an cs, dfs_loop i feas maximum (kept ++ [u]) rest proven an cs = (any', cuts') -> In c cs \/ reported feas (kept ++ u :: rest) proven c).
    { intros an cs E1. destruct (IH _ _ _ _ _ _ E1 c Hc) as [H|H]; [left; exact H|right]. rewrite <- app_assoc in H. exact H. }
    destruct (feas (aggregate i (kept ++ rest))) eqn:F.
    + apply (G _ _ E).
    + destruct (dfs_loop i feas maximum kept rest (proven && true) false cuts) as [any1 cuts1] eqn:E1.
      apply G in E. destruct E as [E|E]; [|right; exact E].
      assert (K : forall c0, In c0 cuts1 -> In c0 cuts \/ reported feas (kept ++ u :: rest) proven c0).
      { intros c0 H0. destruct (IH _ _ _ _ _ _ E1 c0 H0) as [H|H]; [left; exact H|right]. apply (W (proven && true)); [|exact H]. rewrite andb_true_r. tauto. }
      destruct (negb any1 && (length cuts1 <? maximum)%nat); [|apply K; exact E].
      apply in_app_iff in E. destruct E as [E|[<-|[]]]; [apply K; exact E|]. right. exists (kept ++ rest). cbn [fst snd].
      split; [reflexivity|]. split; [|split; [rewrite F; discriminate|]].
      * intro x. rewrite !cnt_app, (cnt_cons u). pose proof (cnt_nonneg [u] x). lia.
      * rewrite andb_true_r. intro T. split; [exact T|exact F].
    + destruct (dfs_loop i feas maximum kept rest (proven && false) false cuts) as [any1 cuts1] eqn:E1.
      apply G in E. destruct E as [E|E]; [|right; exact E].
      assert (K : forall c0, In c0 cuts1 -> In c0 cuts \/ reported feas (kept ++ u :: rest) proven c0).
      { intros c0 H0. destruct (IH _ _ _ _ _ _ E1 c0 H0) as [H|H]; [left; exact H|right]. apply (W (proven && false)); [|exact H]. rewrite andb_false_r. discriminate. }
      destruct (negb any1 && (length cuts1 <? maximum)%nat); [|apply K; exact E].
      apply in_app_iff in E. destruct E as [E|[<-|[]]]; [apply K; exact E|]. right. exists (kept ++ rest). cbn [fst snd].
      split; [reflexivity|]. split; [|split; [rewrite F; discriminate|]].
      * intro x. rewrite !cnt_app, (cnt_cons u). pose proof (cnt_nonneg [u] x). lia.
      * rewrite andb_false_r. discriminate.
Qed.

Lemma dfs_loop_length : forall feas maximum rest kept proven any cuts any' cuts',
  dfs_loop i feas maximum kept rest proven any cuts = (any', cuts') ->
  (length cuts <= length cuts')%nat /\ (length cuts' <= Nat.max (length cuts) maximum)%nat
  /\ ((1 <= maximum)%nat -> any' = true -> any = true \/ (0 < length cuts')%nat).
Proof.
  intros feas maximum rest. induction rest as [|u rest IH]; intros kept proven any cuts any' cuts' E.
  - cbn [dfs_loop] in E. injection E as <- <-. split; [lia|]. split; [lia|]. intros _ T. left. exact T.
  - cbn [dfs_loop] in E. destruct (Nat.leb_spec maximum (length cuts)) as [L|L].
    { injection E as <- <-. split; [lia|]. split; [lia|]. intros _ T. left. exact T. }
    assert (G : forall pr f cuts0, (let '(any1, cuts1) := dfs_loop i feas maximum kept rest pr false cuts in
        let cuts'' := if negb any1 && (length cuts1 <? maximum)%nat then cuts1 ++ [(f, pr)] else cuts1 in
        dfs_loop i feas maximum (kept ++ [u]) rest proven true cuts'') = (any', cuts0) ->
      (length cuts <= length cuts0)%nat /\ (length cuts0 <= Nat.max (length cuts) maximum)%nat /\ ((1 <= maximum)%nat -> (0 < length cuts0)%nat)).
    { intros pr f cuts0 E0. destruct (dfs_loop i feas maximum kept rest pr false cuts) as [any1 cuts1] eqn:E1. cbv zeta in E0.
      destruct (IH _ _ _ _ _ _ E1) as (A & B & C). destruct (IH _ _ _ _ _ _ E0) as (A' & B' & _).
      destruct any1; cbn [negb andb] in A', B'.
      - split; [lia|]. split; [lia|]. intro M. destruct (C M eq_refl) as [C1|C1]; [discriminate C1|lia].
      - destruct (Nat.ltb_spec (length cuts1) maximum) as [L1|L1]; rewrite ?app_length in A', B'; cbn [length] in A', B'; lia. }
    destruct (feas (aggregate i (kept ++ rest))).
    + apply (IH _ _ _ _ _ _ E).
    + destruct (G _ _ _ E) as (A & B & C). split; [exact A|]. split; [exact B|]. intros M _. right. apply C. exact M.
    + destruct (G _ _ _ E) as (A & B & C). split; [exact A|]. split; [exact B|]. intros M _. right. apply C. exact M.
Qed.

Lemma dfs_reported : forall feas maximum units proven c, In c (dfs i feas maximum units proven) ->
  c = (aggregate i units, proven) \/ reported feas units proven c.
Proof.
  intros feas maximum units proven c H. unfold dfs in H. destruct (dfs_loop i feas maximum [] units proven false []) as [any cuts] eqn:E.
  pose proof (dfs_loop_reported _ _ _ _ _ _ _ _ _ E) as K. cbn [app] in K.
  destruct (negb any && (length cuts <? maximum)%nat).
  - apply in_app_iff in H. destruct H as [H|[<-|[]]]; [|left; reflexivity]. destruct (K c H) as [[]|K1]. right. exact K1.
  - destruct (K c H) as [[]|K1]. right. exact K1.
Qed.

Lemma dfs_length : forall feas maximum units proven, (length (dfs i feas maximum units proven) <= maximum)%nat
  /\ ((1 <= maximum)%nat -> dfs i feas maximum units proven <> []).
Proof.
  intros feas maximum units proven. unfold dfs. destruct (dfs_loop i feas maximum [] units proven false []) as [any cuts] eqn:E.
  destruct (dfs_loop_length _ _ _ _ _ _ _ _ _ E) as (_ & B & C). cbn [length] in B.
  destruct any; cbn [negb andb].
  - split; [lia|]. intros M N. destruct (C M eq_refl) as [C1|C1]; [discriminate C1|]. rewrite N in C1. cbn in C1. lia.
  - destruct (Nat.ltb_spec (length cuts) maximum) as [L|L]; rewrite ?app_length; cbn [length].
    + split; [lia|]. intros _ N. destruct cuts; discriminate N.
    + split; [lia|]. intros M N. subst cuts. cbn in L. lia.
Qed.

(** The units of a selection. *)
Lemma insert_cnt : forall x l y, cnt (insert_unit i x l) y = cnt (x :: l) y.
Proof.
  intros x l y. induction l as [|z l IH]; [reflexivity|]. cbn [insert_unit]. destruct (ri_area (ritem i x) <=? ri_area (ritem i z)); [reflexivity|].
  rewrite cnt_cons, IH, (cnt_cons x l), (cnt_cons x (z :: l)), (cnt_cons z l). lia.
Qed.
Lemma sort_cnt : forall l y, cnt (sort_units i l) y = cnt l y.
Proof. intros l y. induction l as [|x l IH]; [reflexivity|]. unfold sort_units. cbn [fold_right]. fold (sort_units i l). rewrite insert_cnt, (cnt_cons x), IH, <- cnt_cons. reflexivity. Qed.

Lemma repeat_cnt : forall n x y, cnt (repeat x n) y = if Nat.eqb x y then Z.of_nat n else 0.
Proof.
  induction n as [|n IH]; intros x y; [destruct (Nat.eqb x y); reflexivity|]. cbn [repeat]. rewrite cnt_cons, IH. unfold cnt. cbn [count_occ].
  destruct (Nat.eq_dec x y) as [E|E]; destruct (Nat.eqb_spec x y) as [F|F]; try contradiction; lia.
Qed.

Lemma units_cnt : forall sel x, (forall p, In p sel -> 0 <= snd p) ->
  cnt (flat_map (fun p => repeat (fst p) (Z.to_nat (snd p))) sel) x = selected sel x.
Proof.
  intros sel x H. unfold selected. induction sel as [|p sel IH]; [reflexivity|]. cbn [flat_map]. rewrite cnt_app, repeat_cnt, zsum_cons, IH by (intros q Hq; apply H; right; exact Hq).
  rewrite Z2Nat.id by (apply H; left; reflexivity). reflexivity.
Qed.

(** Equal counts give the same aggregated selection. *)
Lemma aggregate_ext : forall a b, (forall x, (x < ni)%nat -> cnt a x = cnt b x) -> aggregate i a = aggregate i b.
Proof.
  intros a b H. unfold aggregate. f_equal. apply map_ext_in. intros x Hx. apply in_seq in Hx. f_equal. apply (H x). fold ni in Hx. lia.
Qed.

(** The subsets reported for a selection of the master. *)
Lemma minimal_reported : forall sub t us proven maximum c,
  In c (minimal_subsets i sub t (aggregate i us) proven maximum) ->
  exists vs, fst c = aggregate i vs /\ (forall x, (x < ni)%nat -> cnt vs x <= cnt us x)
    /\ (fst c = aggregate i us /\ snd c = proven \/ selection_feasibility sub t (fst c) <> Feasible
        /\ (snd c = true -> proven = true /\ selection_feasibility sub t (fst c) = ProvenNot)).
Proof.
  intros sub t us proven maximum c H. unfold minimal_subsets in H.
  set (units := sort_units i (flat_map (fun p => repeat (fst p) (Z.to_nat (snd p))) (aggregate i us))) in *.
  assert (U : forall x, (x < ni)%nat -> cnt units x = cnt us x).
  { intros x Hx. unfold units. rewrite sort_cnt, units_cnt; [apply aggregate_selected; exact Hx|]. intros p Hp. destruct (aggregate_in us p Hp) as (_ & _ & ?). lia. }
  apply dfs_reported in H. destruct H as [->|(vs & A & B & C & D)].
  - exists us. cbn [fst snd]. rewrite (aggregate_ext units us U). split; [reflexivity|]. split; [intros; lia|]. left. split; reflexivity.
  - exists vs. split; [exact A|]. split; [intros x Hx; rewrite <- (U x Hx); apply B|]. right. split; [exact C|exact D].
Qed.

(** Subsets that are proven are never together. *)
Lemma minimal_never : forall sub t us proven maximum c, sub_right i extra sub ->
  (proven = true -> so_infeasible (sub t (aggregate i us)) = true) ->
  In c (minimal_subsets i sub t (aggregate i us) proven maximum) -> snd c = true -> never_together i extra t (fst c).
Proof.
  intros sub t us proven maximum c Hsub Hp H Hc. destruct (minimal_reported sub t us proven maximum c H) as (vs & A & B & [[C D]|[C D]]).
  - rewrite C. apply (proven_never sub); [exact Hsub|apply aggregate_nonneg|]. apply Hp. congruence.
  - destruct (D Hc) as [_ D2]. apply (proven_never sub); [exact Hsub|rewrite A; apply aggregate_nonneg|].
    unfold selection_feasibility in D2. rewrite A, aggregate_filter in D2. rewrite A.
    destruct (aggregate i vs) as [|p l]; [discriminate D2|]. destruct (so_full (sub t (p :: l))); [discriminate D2|].
    destruct (so_infeasible (sub t (p :: l))); [reflexivity|discriminate D2].
Qed.

End Search.
