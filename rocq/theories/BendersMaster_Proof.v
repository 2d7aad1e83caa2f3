(** * The master problem of the Benders decomposition relaxes the packings *)

From Coq Require Import List ZArith QArith Bool Lia Lqa Arith Permutation.
From Verif Require Import Util Common_Model Common_Spec Common_Proof OneDim_Model OneDim_Spec OneDim_Proof OneDim_Order
  OneDimBuilder_Model OneDimBuilder_Spec OneDimBuilder_Proof OneDimSub_Proof OneDimBounds_Spec Milp_Model Milp_Spec
  Rect_Model Rect_Spec RectDff_Model RectDff_Proof RectSol_Spec Bar_Spec RectBounds_Model RectBounds_Spec RectBounds_Proof
  Benders_Model Benders_Spec Benders_Proof BendersCuts_Proof.
Import ListNotations.
Open Scope Z_scope.

(** ** Schedules entered one copy at a time *)

Lemma upd_grow_snoc : forall (q : Q) pre, upd (length pre) (fun _ => q) (grow (S (length pre)) 0%Q pre) = pre ++ [q].
Proof.
  intros q pre. unfold grow. replace (S (length pre) - length pre)%nat with 1%nat by lia. cbn [repeat].
  induction pre as [|a pre IH]; [reflexivity|]. cbn [length app upd]. rewrite IH. reflexivity.
Qed.

Lemma put_schedule_at : forall s r x k y, length (schedule r x) = k ->
  schedule (fold_left (fun r kq => put_consumption x (fst kq) (snd kq) r) (combine (seq k (length s)) s) r) y
  = if Nat.eqb x y then schedule r x ++ s else schedule r y.
Proof.
  induction s as [|q s IH]; intros r x k y Hk.
  - cbn [length seq combine fold_left]. rewrite app_nil_r. destruct (Nat.eqb_spec x y) as [->|]; reflexivity.
  - cbn [length seq combine fold_left fst snd].
    assert (E : forall z, schedule (put_consumption x k q r) z = if Nat.eqb x z then schedule r x ++ [q] else schedule r z).
    { intro z. rewrite OneDimSub_Proof.put_schedule. rewrite <- Hk, upd_grow_snoc. reflexivity. }
    rewrite IH.
    + rewrite !E, Nat.eqb_refl. destruct (Nat.eqb x y); [rewrite <- app_assoc|]; reflexivity.
    + rewrite E, Nat.eqb_refl, app_length. cbn [length]. lia.
Qed.

Lemma put_schedule_ok : forall r x s y, schedule r x = [] ->
  schedule (put_schedule r x s) y = if Nat.eqb x y then s else schedule r y.
Proof. intros r x s y H. unfold put_schedule. rewrite put_schedule_at by (rewrite H; reflexivity). rewrite H. reflexivity. Qed.

Lemma put_fold_frame : forall x kqs r, let r' := fold_left (fun r kq => put_consumption x (fst kq) (snd kq) r) kqs r in
  res_capacity r' = res_capacity r /\ res_penalize r' = res_penalize r /\ res_penalty r' = res_penalty r
  /\ (length (res_item_consumptions r') <= Nat.max (S x) (length (res_item_consumptions r)))%nat.
Proof.
  intros x kqs. induction kqs as [|kq kqs IH]; intro r; cbv zeta; cbn [fold_left].
  - split; [reflexivity|]. split; [reflexivity|]. split; [reflexivity|lia].
  - destruct (IH (put_consumption x (fst kq) (snd kq) r)) as (A & B & C & D). cbn [put_consumption res_capacity res_penalize res_penalty res_item_consumptions] in A, B, C, D.
    split; [exact A|]. split; [exact B|]. split; [exact C|]. rewrite upd_length, grow_length in D. lia.
Qed.

(** Schedule of a type in a list of entries. *)
Fixpoint assoc (es : list (nat * list Q)) (x : nat) : list Q :=
  match es with
  | [] => []
  | e :: es' => if Nat.eqb (fst e) x then snd e else assoc es' x
  end.

Lemma assoc_out : forall es x, ~ In x (map fst es) -> assoc es x = [].
Proof.
  induction es as [|e es IH]; intros x H; [reflexivity|]. cbn [assoc]. destruct (Nat.eqb_spec (fst e) x) as [E|E]; [exfalso; apply H; left; exact E|].
  apply IH. intro C. apply H. right. exact C.
Qed.

Lemma put_entries : forall es r, NoDup (map fst es) -> (forall x, In x (map fst es) -> schedule r x = []) ->
  let r' := fold_left (fun r e => put_schedule r (fst e) (snd e)) es r in
  res_capacity r' = res_capacity r /\ res_penalize r' = res_penalize r /\ res_penalty r' = res_penalty r
  /\ (forall n, (length (res_item_consumptions r) <= n)%nat -> (forall x, In x (map fst es) -> (x < n)%nat) -> (length (res_item_consumptions r') <= n)%nat)
  /\ forall y, schedule r' y = if in_dec Nat.eq_dec y (map fst es) then assoc es y else schedule r y.
Proof.
  intros es. induction es as [|e es IH]; intros r N H; cbv zeta; cbn [fold_left].
  - split; [reflexivity|]. split; [reflexivity|]. split; [reflexivity|]. split; [intros; assumption|]. intro y. reflexivity.
  - cbn [map] in N. apply NoDup_cons_iff in N. destruct N as [N1 N2].
    destruct (put_fold_frame (fst e) (combine (seq 0 (length (snd e))) (snd e)) r) as (A & B & C & D).
    fold (put_schedule r (fst e) (snd e)) in A, B, C, D.
    assert (Hs : forall y, schedule (put_schedule r (fst e) (snd e)) y = if Nat.eqb (fst e) y then snd e else schedule r y).
    { intro y. apply put_schedule_ok. apply H. left. reflexivity. }
    destruct (IH (put_schedule r (fst e) (snd e)) N2) as (A' & B' & C' & D' & E').
    { intros x Hx. rewrite Hs. destruct (Nat.eqb_spec (fst e) x) as [E|E]; [rewrite E in N1; contradiction|]. apply H. right. exact Hx. }
    split; [congruence|]. split; [congruence|]. split; [congruence|]. split.
    + intros n Hn Hx. apply D'; [|intros x Hi; apply Hx; right; exact Hi]. pose proof (Hx (fst e) (or_introl eq_refl)). lia.
    + intro y. rewrite E'. cbn [assoc map]. destruct (in_dec Nat.eq_dec y (map fst es)) as [I|I].
      * destruct (in_dec Nat.eq_dec y (fst e :: map fst es)) as [J|J]; [|exfalso; apply J; right; exact I].
        destruct (Nat.eqb_spec (fst e) y) as [E|E]; [rewrite E in N1; contradiction|reflexivity].
      * rewrite Hs. destruct (in_dec Nat.eq_dec y (fst e :: map fst es)) as [J|J].
        -- destruct J as [J|J]; [|contradiction]. rewrite J, Nat.eqb_refl. reflexivity.
        -- destruct (Nat.eqb_spec (fst e) y) as [E|E]; [exfalso; apply J; left; exact E|reflexivity].
Qed.

(** A cut whose entries are for different item types of the instance. *)
Record cut_wf (n : nat) (c : RCut) : Prop := {
  cw_distinct : NoDup (map fst (ct_consumption c));
  cw_types : forall x, In x (map fst (ct_consumption c)) -> (x < n)%nat
}.

Lemma schedule_empty : forall r y, res_item_consumptions r = [] -> schedule r y = [].
Proof. intros r y H. unfold schedule. rewrite H. destruct y; reflexivity. Qed.

Lemma cut_resource_ok : forall n c, cut_wf n c ->
  res_capacity (cut_resource c) = ct_capacity c /\ res_penalize (cut_resource c) = false
  /\ (length (res_item_consumptions (cut_resource c)) <= n)%nat /\ forall y, schedule (cut_resource c) y = assoc (ct_consumption c) y.
Proof.
  intros n c [N T]. unfold cut_resource.
  destruct (put_entries (ct_consumption c) (mkResource (ct_capacity c) [] false 0) N) as (A & B & _ & D & E).
  { intros x _. apply schedule_empty. reflexivity. }
  split; [exact A|]. split; [exact B|]. split; [apply D; [cbn; lia|exact T]|]. intro y. rewrite E.
  destruct (in_dec Nat.eq_dec y (map fst (ct_consumption c))) as [I|I]; [reflexivity|]. rewrite (assoc_out _ _ I). apply schedule_empty. reflexivity.
Qed.

Lemma combine_seq_keys : forall (A : Type) (l : list A) k, map fst (combine (seq k (length l)) l) = seq k (length l).
Proof. intros A l. induction l as [|a l IH]; intro k; [reflexivity|]. cbn [length seq combine map fst]. rewrite IH. reflexivity. Qed.

Lemma assoc_combine : forall (l : list (list Q)) k y, assoc (combine (seq k (length l)) l) (k + y) = nth y l [].
Proof.
  induction l as [|a l IH]; intros k y; [destruct y; reflexivity|]. cbn [length seq combine assoc fst snd].
  destruct y as [|y].
  - rewrite Nat.add_0_r, Nat.eqb_refl. reflexivity.
  - destruct (Nat.eqb_spec k (k + S y)) as [E|E]; [lia|]. replace (k + S y)%nat with (S k + y)%nat by lia. rewrite IH. reflexivity.
Qed.

Lemma copied_resource_ok : forall r,
  res_capacity (copied_resource r) = res_capacity r /\ res_penalize (copied_resource r) = res_penalize r /\ res_penalty (copied_resource r) = res_penalty r
  /\ (length (res_item_consumptions (copied_resource r)) <= length (res_item_consumptions r))%nat
  /\ forall y, schedule (copied_resource r) y = schedule r y.
Proof.
  intro r. unfold copied_resource. set (es := combine (seq 0 (length (res_item_consumptions r))) (res_item_consumptions r)).
  assert (K : map fst es = seq 0 (length (res_item_consumptions r))) by apply combine_seq_keys.
  destruct (put_entries es (mkResource (res_capacity r) [] (res_penalize r) (res_penalty r))) as (A & B & C & D & E).
  { rewrite K. apply seq_NoDup. }
  { intros x _. apply schedule_empty. reflexivity. }
  split; [exact A|]. split; [exact B|]. split; [exact C|]. split.
  - apply D; [cbn; lia|]. intros x Hx. rewrite K in Hx. apply in_seq in Hx. lia.
  - intro y. rewrite E. pose proof (assoc_combine (res_item_consumptions r) 0 y) as F. cbn [Nat.add] in F. fold es in F.
    destruct (in_dec Nat.eq_dec y (map fst es)) as [I|I]; [exact F|]. rewrite (assoc_out _ _ I) in F. unfold schedule at 2. rewrite <- F. apply schedule_empty. reflexivity.
Qed.

(** ** Consumption of a cut in the master *)

Lemma schedule_total_entry : forall s n, (schedule_total s n == entry_sum s n)%Q.
Proof.
  intros s n. unfold entry_sum. induction n as [|n IH]; [reflexivity|]. rewrite seq_S, qsum_snoc, <- IH. cbn [schedule_total Nat.add].
  assert (E : (match nth_error s n with Some q => q | None => last s 0 end == nth n s (last s 0))%Q).
  { destruct (nth_error s n) eqn:F; [rewrite (nth_error_nth s n (last s 0%Q) F); reflexivity|].
    apply nth_error_None in F. rewrite nth_overflow by exact F. reflexivity. }
  rewrite <- E. try ring.
Qed.

Lemma schedule_total_nil : forall n, (schedule_total [] n == 0)%Q.
Proof.
  intro n. rewrite schedule_total_entry. unfold entry_sum. apply qsum_zero. intros k _. destruct k; reflexivity.
Qed.

Lemma qsum_one : forall (f : nat -> Q) l x, NoDup l -> In x l -> (qsum (fun y => if Nat.eqb x y then f y else 0%Q) l == f x)%Q.
Proof.
  intros f l x. induction l as [|y l IH]; intros N H; [destruct H|]. apply NoDup_cons_iff in N. destruct N as [N1 N2]. rewrite qsum_cons.
  destruct (Nat.eqb_spec x y) as [E|E].
  - subst y. rewrite qsum_zero; [ring|]. intros z Hz. destruct (Nat.eqb_spec x z) as [->|]; [contradiction|reflexivity].
  - destruct H as [H|H]; [congruence|]. rewrite IH by assumption. ring.
Qed.

Lemma assoc_sum : forall es n (count : nat -> nat), NoDup (map fst es) -> (forall x, In x (map fst es) -> (x < n)%nat) ->
  (qsum (fun x => schedule_total (assoc es x) (count x)) (seq 0 n) == qsum (fun e => entry_sum (snd e) (count (fst e))) es)%Q.
Proof.
  induction es as [|e es IH]; intros n count N T.
  - apply qsum_zero. intros x _. apply schedule_total_nil.
  - cbn [map] in N. apply NoDup_cons_iff in N. destruct N as [N1 N2]. rewrite qsum_cons, <- (IH n) by (try assumption; intros x Hx; apply T; right; exact Hx).
    rewrite <- (schedule_total_entry (snd e)).
    rewrite (qsum_ext _ (fun x => schedule_total (assoc (e :: es) x) (count x))
      (fun x => (if Nat.eqb (fst e) x then schedule_total (snd e) (count x) else 0) + schedule_total (assoc es x) (count x))%Q).
    + rewrite qsum_plus, (qsum_one (fun x => schedule_total (snd e) (count x))); [reflexivity|apply seq_NoDup|].
      apply in_seq. pose proof (T (fst e) (or_introl eq_refl)). lia.
    + intros x _. cbn [assoc]. destruct (Nat.eqb_spec (fst e) x) as [E|E]; [|ring]. rewrite <- E, (assoc_out es (fst e) N1), schedule_total_nil. ring.
Qed.

(** ** The master instance *)

Section Master.
Variable i : RInstance.
Variable extra : nat -> list Place -> Prop.
Hypothesis Hdom : bd_domain i.
Hypothesis Hmono : monotone extra.
Variables dff no_good : nat -> list RCut.
Let ni := length (rin_items i).
Let nb := length (rin_bins i).
Hypothesis Hwf : forall t c, (t < nb)%nat -> In c (static_cuts i t ++ dff t ++ no_good t) -> cut_wf ni c.

Let Hr : relaxable i := do_relax i Hdom.

Lemma nth_map_seq : forall (A : Type) (f : nat -> A) n x d, (x < n)%nat -> nth x (map f (seq 0 n)) d = f x.
Proof. intros A f n x d H. rewrite (nth_indep _ d (f O)) by (rewrite map_length, seq_length; exact H). rewrite map_nth, seq_nth by exact H. reflexivity. Qed.

(** The calls on the builder succeed. *)
Lemma master_builds : (rin_objective i = OBinPacking -> forall bt, In bt (rin_bins i) -> rb_copies_min bt = 0) ->
  exists i1, b_build (master_builder i dff no_good) = Built i1.
Proof.
  intro Hmin. unfold b_build, master_builder. cbn [b_objective b_items b_bins]. fold ni nb.
  assert (F : find (fun t => (it_copies t <? it_copies_min t) || (it_length t =? 0)) (map (resolve_min (rin_objective i)) (map (master_item i) (seq 0 ni))) = None).
  { rewrite map_map.
    assert (G : forall x, In x (seq 0 ni) -> 0 < ri_area (ritem i x) /\ 0 <= ri_copies_min (ritem i x) <= ri_copies (ritem i x)).
    { intros x Hx. apply in_seq in Hx. assert (I : In (ritem i x) (rin_items i)) by (apply nth_In; fold ni; lia).
      split; [apply (item_pos i Hr _ I)|apply (do_min i Hdom _ I)]. }
    revert G. generalize (seq 0 ni). intro l. induction l as [|x l IH]; intro G; [reflexivity|]. cbn [map find].
    destruct (G x (or_introl eq_refl)) as [G1 G2].
    assert (E : (it_copies (resolve_min (rin_objective i) (master_item i x)) <? it_copies_min (resolve_min (rin_objective i) (master_item i x)))
      || (it_length (resolve_min (rin_objective i) (master_item i x)) =? 0) = false).
    { unfold resolve_min. cbn [master_item it_copies it_copies_min it_length].
      destruct (Z.eqb_spec (ri_copies_min (ritem i x)) (-1)) as [K|K]; [lia|]. cbn [it_copies it_copies_min it_length]. apply orb_false_iff.
      split; [apply Z.ltb_ge; lia|apply Z.eqb_neq; lia]. }
    rewrite E. apply IH. intros y Hy. apply G. right. exact Hy. }
  rewrite F.
  assert (E1 : existsb (fun t => match rin_objective i with OBinPacking => 0 <? bt_copies_min t | _ => false end) (map (master_bin i dff no_good) (seq 0 nb)) = false).
  { destruct (existsb _ _) eqn:E; [|reflexivity]. apply existsb_exists in E. destruct E as (t & Ht & E).
    apply in_map_iff in Ht. destruct Ht as (u & <- & Hu). apply in_seq in Hu. destruct (rin_objective i); try discriminate.
    cbn [master_bin bt_copies_min] in E. rewrite (Hmin eq_refl (rbin i u)) in E; [discriminate|]. apply nth_In. fold nb. lia. }
  rewrite E1. rewrite !map_length, seq_length.
  match goal with |- exists i1, (if ?b then _ else _) = _ => assert (E2 : b = false) end.
  { clear E1. match goal with |- ?b = false => destruct b eqn:E; [|reflexivity] end. exfalso. apply existsb_exists in E. destruct E as (t & Ht & E).
    apply in_map_iff in Ht. destruct Ht as (u & <- & Hu). apply in_seq in Hu. apply existsb_exists in E. destruct E as (r & Hin & E).
    assert (L : (length (res_item_consumptions r) <= ni)%nat).
    { cbn [master_bin bt_resources] in Hin. apply in_app_iff in Hin. destruct Hin as [Hin|Hin]; apply in_map_iff in Hin; destruct Hin as (c & <- & Hc).
      - apply (cut_resource_ok ni c). apply (Hwf u c); [lia|exact Hc].
      - destruct (copied_resource_ok c) as (_ & _ & _ & D & _). eapply Nat.le_trans; [exact D|]. apply (do_schedules i Hdom (rbin i u) c); [apply nth_In; fold nb; lia|exact Hc]. }
    replace (length (res_item_consumptions r) - ni)%nat with O in E by lia. discriminate E. }
  rewrite E2. destruct (expand_bins _) as [[ids prev] tot]. eexists. reflexivity.
Qed.

Variable i1 : Instance.
Hypothesis Hb1 : b_build (master_builder i dff no_good) = Built i1.
Let HD : holds_data (master_builder i dff no_good) i1 := build_holds _ i1 Hb1.

Lemma mobjective : in_objective i1 = rin_objective i.
Proof. pose proof (hd_objective _ _ HD) as H. cbn in H. congruence. Qed.

Lemma mitems : length (in_item_types i1) = ni /\ forall x, (x < ni)%nat ->
  it_length (item_type i1 x) = ri_area (ritem i x) /\ it_copies (item_type i1 x) = ri_copies (ritem i x)
  /\ (rin_objective i = OKnapsack -> it_profit (item_type i1 x) = ri_profit (ritem i x))
  /\ it_nesting (item_type i1 x) = 0 /\ it_stackability (item_type i1 x) = max_item_pos /\ it_max_weight_after (item_type i1 x) = None
  /\ it_eligibility (item_type i1 x) = master_eligibility i x /\ it_copies_min (item_type i1 x) = ri_copies_min (ritem i x).
Proof.
  destruct (hd_items _ _ HD) as [H1 H2]. cbn [master_builder b_items] in H1, H2. rewrite map_length, seq_length in H1, H2. fold ni in H1, H2. split; [exact H1|].
  intros x Hx. specialize (H2 x Hx). cbv zeta in H2. fold ni in H2. rewrite nth_map_seq in H2 by exact Hx.
  cbn [master_item it_length it_profit it_copies it_copies_min it_weight it_nesting it_stackability it_max_weight_after it_eligibility] in H2.
  assert (K : ri_copies_min (ritem i x) =? -1 = false) by (apply Z.eqb_neq; pose proof (do_min i Hdom (ritem i x) (nth_In _ _ Hx)); lia).
  rewrite K in H2. destruct H2 as (A & B & C & D & E & F & G & H & I). repeat (split; [assumption|]).
  split; [|tauto]. intro Ho. rewrite Ho in B. exact B.
Qed.

Lemma mbins : length (in_bin_types i1) = nb /\ forall t, (t < nb)%nat ->
  bt_length (bin_type i1 t) = rb_area (rbin i t) /\ bt_cost (bin_type i1 t) = rb_cost (rbin i t) /\ bt_copies (bin_type i1 t) = rb_copies (rbin i t)
  /\ bt_copies_min (bin_type i1 t) = rb_copies_min (rbin i t) /\ bt_max_weight (bin_type i1 t) = None
  /\ bt_eligibility_ids (bin_type i1 t) = map (master_eligibility i) (filter (fun x => negb (fits_all i x) && fits_bin i x t) (seq 0 ni))
  /\ bt_resources (bin_type i1 t) = map cut_resource (static_cuts i t ++ dff t ++ no_good t) ++ map copied_resource (rb_resources (rbin i t)).
Proof.
  destruct (hd_bins _ _ HD) as [H1 H2]. cbn [master_builder b_bins] in H1, H2. rewrite map_length, seq_length in H1, H2. fold nb in H1, H2. split; [exact H1|].
  intros t Ht. specialize (H2 t Ht). cbv zeta in H2. fold nb in H2. rewrite nth_map_seq in H2 by exact Ht.
  cbn [master_bin bt_length bt_cost bt_copies bt_copies_min bt_max_weight bt_eligibility_ids bt_resources] in H2. fold ni in H2.
  assert (C : rb_copies (rbin i t) =? -1 = false).
  { apply Z.eqb_neq. destruct (re_bins i Hr (rbin i t)) as (_ & _ & C & _); [apply nth_In; exact Ht|]. lia. }
  rewrite C in H2. tauto.
Qed.

(** A cut of the master counts what the cut counts. *)
Lemma mcut : forall t c l, (t < nb)%nat -> In c (static_cuts i t ++ dff t ++ no_good t) ->
  (consumption i1 (cut_resource c) l == cut_consumption c (fun x => Z.of_nat (count_occ Nat.eq_dec l x)))%Q.
Proof.
  intros t c l Ht Hc. destruct (Hwf t c Ht Hc) as [W1 W2]. destruct (cut_resource_ok ni c (Hwf t c Ht Hc)) as (_ & _ & _ & S).
  unfold consumption. destruct mitems as [L _]. rewrite L, cut_consumption_entries.
  rewrite (qsum_ext _ (fun x => schedule_total (schedule (cut_resource c) x) (count_occ Nat.eq_dec l x))
    (fun x => schedule_total (assoc (ct_consumption c) x) (count_occ Nat.eq_dec l x))) by (intros x _; rewrite S; reflexivity).
  rewrite (assoc_sum (ct_consumption c) ni (count_occ Nat.eq_dec l) W1 W2). apply qsum_ext. intros e _. cbv beta. rewrite Nat2Z.id. reflexivity.
Qed.

Lemma mcopied : forall r ps, (consumption i1 (copied_resource r) (map pl_type ps) == rconsumption i r ps)%Q.
Proof.
  intros r ps. destruct (copied_resource_ok r) as (_ & _ & _ & _ & S). unfold consumption, rconsumption. destruct mitems as [L _]. rewrite L.
  apply qsum_ext. intros x _. rewrite S. unfold schedule. rewrite <- count_relax, Nat2Z.id. reflexivity.
Qed.

(** The items of a bin fit it and are eligible for it. *)
Lemma packed_fits : forall t ps p, bin_ok i extra t ps -> In p ps -> fits_bin i (pl_type p) t = true.
Proof.
  intros t ps p Hok Hp. destruct (bo_geometry _ _ _ _ Hok) as [G1 _ _]. destruct (G1 p Hp) as [T [X1 X2] [Y1 Y2] R].
  unfold fits_bin, ritem_fits. apply andb_true_iff. split.
  - unfold pl_xe, pl_w, pl_ye, pl_h in *. destruct (pl_rot p).
    + rewrite (R eq_refl). apply orb_true_iff. right. cbn [negb andb]. apply andb_true_iff. split; apply Z.leb_le; lia.
    + apply orb_true_iff. left. apply andb_true_iff. split; apply Z.leb_le; lia.
  - unfold religible. apply orb_true_iff. destruct (bo_eligible _ _ _ _ Hok p Hp) as [E|E]; [left; apply Z.eqb_eq; exact E|right].
    apply existsb_exists. exists (ri_eligibility (ritem i (pl_type p))). split; [exact E|apply Z.eqb_refl].
Qed.

Lemma meligible : forall x t, (x < ni)%nat -> (t < nb)%nat -> fits_bin i x t = true -> is_eligible i1 x t.
Proof.
  intros x t Hx Ht F. destruct mitems as [_ I]. destruct (I x Hx) as (_ & _ & _ & _ & _ & _ & E & _). destruct mbins as [_ B]. destruct (B t Ht) as (_ & _ & _ & _ & _ & G & _).
  unfold is_eligible. rewrite E, G. destruct (fits_all i x) eqn:A.
  - left. unfold master_eligibility. rewrite A. reflexivity.
  - right. apply in_map. apply filter_In. split; [apply in_seq; lia|]. rewrite A, F. reflexivity.
Qed.

(** Items that do not fit everywhere have distinct eligibility ids, ... *)
Lemma meligibility_nonneg : forall x, fits_all i x = false -> 0 <= master_eligibility i x.
Proof. intros x A. unfold master_eligibility. rewrite A. lia. Qed.

Lemma meligibility_lt : forall x y, fits_all i x = false -> fits_all i y = false -> (x < y)%nat -> master_eligibility i x < master_eligibility i y.
Proof.
  intros x y Ax Ay L. unfold master_eligibility. rewrite Ax, Ay. replace y with (x + S (y - x - 1))%nat by lia.
  rewrite seq_app, filter_app, app_length. cbn [seq filter plus]. rewrite Ax. cbn [negb length]. lia.
Qed.

(** ... so that the master puts an item in a bin only if it fits and is eligible. *)
Lemma meligible_fits : forall x t, (x < ni)%nat -> (t < nb)%nat -> is_eligible i1 x t -> fits_bin i x t = true.
Proof.
  intros x t Hx Ht H. destruct mitems as [_ I]. destruct (I x Hx) as (_ & _ & _ & _ & _ & _ & E & _). destruct mbins as [_ B]. destruct (B t Ht) as (_ & _ & _ & _ & _ & G & _).
  unfold is_eligible in H. rewrite E, G in H. destruct (fits_all i x) eqn:A.
  - unfold fits_all in A. rewrite forallb_forall in A. apply A, in_seq. fold nb. lia.
  - pose proof (meligibility_nonneg x A) as P. destruct H as [H|H]; [lia|]. apply in_map_iff in H. destruct H as (y & Ey & H).
    apply filter_In in H. destruct H as [_ H]. apply andb_true_iff in H. destruct H as [H1 H2]. apply negb_true_iff in H1.
    destruct (Nat.lt_trichotomy x y) as [L|[->|L]]; [|exact H2|].
    + pose proof (meligibility_lt x y A H1 L). lia.
    + pose proof (meligibility_lt y x H1 A L). lia.
Qed.

Lemma prefix_part : forall (A : Type) (a b : list A), Part a (a ++ b).
Proof.
  intros A a b. induction a as [|x a IH]; [|apply Part_keep; exact IH]. cbn [app]. induction b as [|y b IH]; [constructor|apply Part_skip; exact IH].
Qed.

Lemma map_split : forall (A B : Type) (f : A -> B) ps p x q, map f ps = p ++ x :: q -> exists a c b, ps = a ++ c :: b /\ map f a = p /\ f c = x.
Proof.
  intros A B f ps. induction ps as [|c ps IH]; intros p x q E; [destruct p; discriminate|]. destruct p as [|y p].
  - injection E as E1 E2. exists [], c, ps. split; [reflexivity|]. split; [reflexivity|exact E1].
  - injection E as E1 E2. destruct (IH p x q E2) as (a & d & b & A1 & A2 & A3). exists (c :: a), d, b. subst. split; [reflexivity|]. split; reflexivity.
Qed.

Hypothesis Hvalid : forall t c, (t < nb)%nat -> In c (static_cuts i t ++ dff t ++ no_good t) -> cut_valid i extra t c.

(** A packing of the instance is a packing of the master. *)
Lemma master_relaxes : forall prec ds, bd_packing i extra ds -> PrecOK i1 prec (map relax_desc ds) -> Milp_Spec.Packing i1 prec (map relax_desc ds).
Proof.
  intros prec ds [B1 B2 B3 B4] Hprec. destruct mitems as [L1 I1]. destruct mbins as [M1 Bn1].
  assert (Hp : packing_ok i ds).
  { constructor; [|intros x Hx; apply (B2 x Hx)]. intros d Hd. destruct (B1 d Hd) as (A & B & C). split; [exact A|]. split; [exact B|]. apply (bo_geometry _ _ _ _ C). }
  assert (Hend : forall l, (forall x, In x l -> (x < ni)%nat) -> bin_end i1 l = zsum (fun x => ri_area (ritem i x)) l).
  { intros l H. unfold bin_end.
    rewrite (zsum_ext _ (fun x => it_length (item_type i1 x)) (fun x => ri_area (ritem i x))) by (intros x Hx; apply (I1 x (H x Hx))).
    rewrite (Dff_Axis.zsum_zero _ (fun x => it_nesting (item_type i1 x))); [lia|].
    intros x Hx. apply (I1 x). apply H. destruct l; [destruct Hx|right; exact Hx]. }
  constructor.
  - intros d1 Hd1. apply in_map_iff in Hd1. destruct Hd1 as (d & <- & Hd). destruct (B1 d Hd) as (A & B & _). cbn [relax_desc bd_type bd_copies]. rewrite M1. split; [exact A|lia].
  - intros d1 x Hd1 Hx. apply in_map_iff in Hd1. destruct Hd1 as (d & <- & Hd). cbn [relax_desc bd_items] in Hx. apply in_map_iff in Hx. destruct Hx as (p & <- & Hq).
    rewrite L1. apply (types_ok i ds Hp d Hd p Hq).
  - constructor.
    + intros d1 Hd1. apply in_map_iff in Hd1. destruct Hd1 as (d & <- & Hd). destruct (B1 d Hd) as (Ht & _ & Hok).
      destruct (Bn1 (rd_type d) Ht) as (E1 & _ & _ & _ & E5 & _ & E7).
      assert (Hin : forall x, In x (map pl_type (rd_items d)) -> (x < ni)%nat).
      { intros x Hx. apply in_map_iff in Hx. destruct Hx as (p & <- & Hq). apply (types_ok i ds Hp d Hd p Hq). }
      pose proof (area_fits i Hr ds Hp d Hd) as Hf. rewrite <- (zsum_map _ _ pl_type (fun x => ri_area (ritem i x))) in Hf.
      constructor; cbn [relax_desc bd_type bd_items]; rewrite ?E1, ?E5, ?E7.
      * intros p x q E. rewrite <- end_snoc1.
        assert (Hpx : forall y, In y (p ++ [x]) -> (y < ni)%nat) by (intros y Hy; apply Hin; rewrite E; apply in_app_iff; apply in_app_iff in Hy; destruct Hy as [Hy|[Hy|[]]]; [left; exact Hy|right; left; exact Hy]).
        rewrite Hend by exact Hpx. rewrite E in Hf. replace (p ++ x :: q) with ((p ++ [x]) ++ q) in Hf by (rewrite <- app_assoc; reflexivity).
        rewrite zsum_app in Hf. assert (0 <= zsum (fun x0 => ri_area (ritem i x0)) q); [|lia].
        apply zsum_nonneg. intros y Hy. assert (Hy' : (y < ni)%nat) by (apply Hin; rewrite E; apply in_or_app; right; right; exact Hy).
        destruct (item_pos i Hr (ritem i y) (nth_In _ _ Hy')). lia.
      * intros p x q _. exact Logic.I.
      * intros x Hx. destruct (I1 x (Hin x Hx)) as (_ & _ & _ & _ & E & _). rewrite E, map_length.
        pose proof (small_bins i ds Hp d Hd). pose proof (re_size i Hr). lia.
      * intros a x mm b E. destruct (I1 x) as (_ & _ & _ & _ & _ & E' & _); [apply Hin; rewrite E; apply in_elt|]. rewrite E'. exact Logic.I.
      * intros x Hx. apply meligible; [apply Hin; exact Hx|exact Ht|]. apply in_map_iff in Hx. destruct Hx as (p & <- & Hq). apply (packed_fits (rd_type d) (rd_items d) p Hok Hq).
      * intros r Hrr Hpen p x q E _. destruct (map_split _ _ pl_type (rd_items d) p x q E) as (a & c & b & Ea & Ep & Ex).
        assert (Epx : p ++ [x] = map pl_type (a ++ [c])) by (rewrite map_app; cbn [map]; congruence).
        assert (Hok' : bin_ok i extra (rd_type d) (a ++ [c])).
        { apply (part_ok i extra (do_resources i Hdom) Hmono (rd_type d) (a ++ [c]) (rd_items d)); [|exact Hok]. rewrite Ea.
          replace (a ++ c :: b) with ((a ++ [c]) ++ b) by (rewrite <- app_assoc; reflexivity). apply prefix_part. }
        rewrite Epx. apply in_app_iff in Hrr. destruct Hrr as [Hrr|Hrr]; apply in_map_iff in Hrr; destruct Hrr as (u & <- & Hu).
        -- rewrite (mcut (rd_type d) u _ Ht Hu). destruct (cut_resource_ok ni u (Hwf _ u Ht Hu)) as (Cap & _). rewrite Cap.
           pose proof (Hvalid (rd_type d) u Ht Hu (a ++ [c]) Hok') as V. rewrite cut_consumption_entries in *.
           rewrite (qsum_ext _ _ (fun e => entry_sum (snd e) (Z.to_nat (rcount (fst e) (a ++ [c]))))); [exact V|]. intros e _. rewrite count_relax. reflexivity.
        -- rewrite mcopied. destruct (copied_resource_ok u) as (Cap & Pen & _). rewrite Cap. apply (bo_resources _ _ _ _ Hok' u Hu). rewrite <- Pen. exact Hpen.
    + intros d1 x Hd1 Hx. apply in_map_iff in Hd1. destruct Hd1 as (d & <- & Hd). cbn [relax_desc bd_items] in Hx.
      apply in_map_iff in Hx. destruct Hx as (p & <- & Hq). pose proof (types_ok i ds Hp d Hd p Hq) as T. rewrite packed_relax.
      destruct (I1 _ T) as (_ & E & _). rewrite E. apply (B2 _ T).
    + intros x Hx. rewrite L1 in Hx. rewrite packed_relax. destruct (I1 x Hx) as (_ & _ & _ & _ & _ & _ & _ & E). rewrite E. apply (B2 x Hx).
  - intros x Hx. rewrite L1 in Hx. rewrite packed_relax. destruct (I1 x Hx) as (_ & E & _). rewrite E. apply (B2 x Hx).
  - intros t Ht. rewrite M1 in Ht. rewrite used_relax. destruct (Bn1 t Ht) as (_ & _ & E & _). rewrite E. apply (B3 t Ht).
  - intros _ t Ht. rewrite M1 in Ht. rewrite used_relax. destruct (Bn1 t Ht) as (_ & _ & _ & E & _). rewrite E. apply (B3 t Ht).
  - intros Ho t u Htu Hu. rewrite mobjective in Ho. rewrite M1 in Htu. rewrite used_relax in *. destruct (Bn1 t ltac:(lia)) as (_ & _ & E & _). rewrite E.
    apply (B4 Ho t u); assumption.
  - exact Hprec.
Qed.

(** The values are the same. *)
Lemma master_cost : forall ds, bd_packing i extra ds -> (cost_of i1 (map relax_desc ds) == packing_cost i ds)%Q.
Proof.
  intros ds [B1 _ _ _]. unfold cost_of, packing_cost. rewrite qsum_map. apply qsum_ext. intros d Hd. cbn [relax_desc bd_copies bd_type].
  destruct mbins as [_ B]. destruct (B1 d Hd) as (Ht & _ & _). destruct (B (rd_type d) Ht) as (_ & E & _). rewrite E. reflexivity.
Qed.

Lemma master_penalties : forall d, (rd_type d < nb)%nat -> (penalties i1 (relax_desc d) == rpenalties i d)%Q.
Proof.
  intros d Ht. unfold penalties, rpenalties. cbn [relax_desc bd_type bd_items]. destruct mbins as [_ B]. destruct (B (rd_type d) Ht) as (_ & _ & _ & _ & _ & _ & E).
  rewrite E, qsum_app, !qsum_map. rewrite qsum_zero.
  - rewrite Qplus_0_l. apply qsum_ext. intros r Hrr. destruct (copied_resource_ok r) as (Cap & Pen & Py & _). rewrite Cap, Pen, Py.
    assert (Q : Qltb (res_capacity r) (consumption i1 (copied_resource r) (map pl_type (rd_items d))) = Qltb (res_capacity r) (rconsumption i r (rd_items d))).
    { destruct (Qltb (res_capacity r) (rconsumption i r (rd_items d))) eqn:F.
      - apply Qltb_lt. apply Qltb_lt in F. rewrite mcopied. exact F.
      - apply Qltb_ge. apply Qltb_ge in F. rewrite mcopied. exact F. }
    rewrite Q. reflexivity.
  - intros c Hc. destruct (cut_resource_ok ni c (Hwf _ c Ht Hc)) as (_ & P & _). rewrite P. reflexivity.
Qed.

Lemma master_profit : forall ds, rin_objective i = OKnapsack -> bd_packing i extra ds -> (net_profit i1 (map relax_desc ds) == bd_profit i ds)%Q.
Proof.
  intros ds Ho [B1 _ _ _]. unfold net_profit, bd_profit. rewrite qsum_map. apply qsum_ext. intros d Hd. cbn [relax_desc bd_copies bd_items].
  destruct (B1 d Hd) as (Ht & _ & Hok). change (mkBD (rd_type d) (rd_copies d) (map pl_type (rd_items d))) with (relax_desc d). rewrite (master_penalties d Ht), qsum_map.
  rewrite (qsum_ext _ (fun p => it_profit (item_type i1 (pl_type p))) (fun p => ri_profit (ritem i (pl_type p)))); [reflexivity|].
  intros p Hq. destruct mitems as [_ I]. destruct (I (pl_type p)) as (_ & _ & E & _); [|rewrite (E Ho); reflexivity].
  apply (pk_type _ _ _ (ge_places _ _ _ (bo_geometry _ _ _ _ Hok) p Hq)).
Qed.

End Master.
