(** * The pricing solver: columns, reduced costs, Lagrangian bound *)

From Coq Require Import List ZArith QArith Qround Bool Lia Lqa Sorted Permutation.
From Verif Require Import Util Common_Model Common_Spec OneDim_Model ColGen_Model ColGen_Spec ColGenCap_Proof ColGenCut_Proof ColGenSep_Proof.
Import ListNotations.
Open Scope Z_scope.

(** ** Multisets *)

Lemma occ_app : forall a b x, occ (a ++ b) x = occ a x + occ b x.
Proof. intros. unfold occ. rewrite count_occ_app. lia. Qed.
Lemma occ_nonneg : forall a x, 0 <= occ a x.
Proof. intros. unfold occ. lia. Qed.
Lemma occ_out : forall a x, ~ In x a -> occ a x = 0.
Proof. intros a x H. unfold occ. apply (count_occ_not_In Nat.eq_dec) in H. lia. Qed.
Lemma occ_in : forall a x, 0 < occ a x -> In x a.
Proof. intros a x H. unfold occ in H. apply (count_occ_In Nat.eq_dec). lia. Qed.
Lemma occ_cons : forall a l x, occ (a :: l) x = (if (a =? x)%nat then 1 else 0) + occ l x.
Proof.
  intros. unfold occ. cbn [count_occ]. destruct (Nat.eq_dec a x) as [->|H].
  - rewrite Nat.eqb_refl. lia.
  - rewrite (proj2 (Nat.eqb_neq a x)) by exact H. lia.
Qed.
Lemma occ_filter : forall f l x, occ (filter f l) x = if f x then occ l x else 0.
Proof.
  induction l as [|a l IH]; intros x; [cbn; destruct (f x); reflexivity|]. cbn [filter]. destruct (f a) eqn:E.
  - rewrite !occ_cons, IH. destruct (Nat.eqb_spec a x) as [->|]; [rewrite E|destruct (f x)]; lia.
  - rewrite IH, occ_cons. destruct (Nat.eqb_spec a x) as [->|]; [rewrite E|destruct (f x)]; lia.
Qed.

Lemma qsum_occ : forall n (f : nat -> Q) l, (forall x, In x l -> (x < n)%nat) ->
  (qsum f l == qsum (fun x => inject_Z (occ l x) * f x) (seq 0 n))%Q.
Proof.
  intros n f l. induction l as [|a l IH]; intros H.
  - symmetry. apply qsum_zero. intros x _. change (inject_Z (occ [] x)) with 0%Q. ring.
  - rewrite qsum_cons, IH by (intros x Hx; apply H; right; exact Hx).
    rewrite <- (qsum_pick n a f) by (apply H; left; reflexivity). rewrite <- qsum_plus. apply qsum_ext. intros x _.
    rewrite occ_cons, inject_Z_plus. destruct (a =? x)%nat; [change (inject_Z 1) with 1%Q|change (inject_Z 0) with 0%Q]; ring.
Qed.

(** ** The sub-problem *)

Section Kp.
Variables (i : CInst) (fx : CFix) (sf : bool) (duals : list Q) (cut_duals : list (Triple * Q)) (t : nat).
Let k := ckp i fx sf duals cut_duals t.
Let ids := kp_ids (kp_items k).

Lemma kp_ids_eq : ids = filter (fun x => 0 <? ckp_copies i fx t x (cprofit i sf duals x)) (seq 0 (cni i)).
Proof.
  unfold ids, k, ckp, kp_ids. cbn [kp_items]. unfold ckp_items. generalize (seq 0 (cni i)). induction l as [|x l IH]; [reflexivity|].
  cbn [flat_map filter]. cbv zeta. rewrite map_app, IH. set (c := ckp_copies _ _ _ _ _).
  destruct (Z.leb_spec c 0), (Z.ltb_spec 0 c); try lia; reflexivity.
Qed.

Lemma kp_items_eq : kp_items k = map (fun x => (x, cprofit i sf duals x, ckp_copies i fx t x (cprofit i sf duals x))) ids.
Proof.
  unfold ids, k, ckp, kp_ids. cbn [kp_items]. unfold ckp_items. generalize (seq 0 (cni i)). induction l as [|x l IH]; [reflexivity|].
  cbn [flat_map]. cbv zeta. rewrite !map_app, <- IH. destruct (_ <=? 0); reflexivity.
Qed.

Lemma ids_nodup : NoDup ids.
Proof. rewrite kp_ids_eq. apply NoDup_filter, seq_NoDup. Qed.
Lemma ids_lt : forall x, In x ids -> (x < cni i)%nat.
Proof. intros x. rewrite kp_ids_eq, filter_In, in_seq. lia. Qed.
Lemma ids_length : length (kp_items k) = length ids.
Proof. unfold ids, kp_ids. rewrite map_length. reflexivity. Qed.

Lemma kp_profit_eq : forall p, (p < length ids)%nat -> kp_profit k p = cprofit i sf duals (nth p ids O).
Proof.
  intros p H. unfold kp_profit. rewrite kp_items_eq.
  set (F := fun x => (x, cprofit i sf duals x, ckp_copies i fx t x (cprofit i sf duals x))).
  rewrite (nth_indep _ (O, 0%Q, 0) (F O)) by (rewrite map_length; exact H). rewrite map_nth. reflexivity.
Qed.
Lemma kp_copies_eq : forall p, (p < length ids)%nat -> kp_copies k p = ckp_copies i fx t (nth p ids O) (cprofit i sf duals (nth p ids O)).
Proof.
  intros p H. unfold kp_copies. rewrite kp_items_eq.
  set (F := fun x => (x, cprofit i sf duals x, ckp_copies i fx t x (cprofit i sf duals x))).
  rewrite (nth_indep _ (O, 0%Q, 0) (F O)) by (rewrite map_length; exact H). rewrite map_nth. reflexivity.
Qed.
End Kp.

(** Positions. *)
Lemma position_some : forall ids x p, kp_position ids x = Some p -> (p < length ids)%nat /\ nth p ids O = x.
Proof.
  induction ids as [|y ids IH]; intros x p H; [discriminate|]. cbn in H. destruct (Nat.eqb_spec y x) as [->|Hn].
  - injection H as <-. cbn. split; [lia|reflexivity].
  - destruct (kp_position ids x) as [q|] eqn:E; [|discriminate]. injection H as <-. destruct (IH x q E) as [A B]. cbn. split; [lia|exact B].
Qed.
Lemma position_in : forall ids x, In x ids -> exists p, kp_position ids x = Some p.
Proof.
  induction ids as [|y ids IH]; intros x H; [destruct H|]. cbn. destruct (Nat.eqb_spec y x) as [->|Hn]; [exists O; reflexivity|].
  destruct H as [->|H]; [congruence|]. destruct (IH x H) as [p ->]. exists (S p). reflexivity.
Qed.
Lemma position_none : forall ids x, kp_position ids x = None <-> ~ In x ids.
Proof.
  intros ids x. split; intro H.
  - intro Hi. destruct (position_in ids x Hi) as [p E]. congruence.
  - destruct (kp_position ids x) as [p|] eqn:E; [|reflexivity]. destruct (position_some _ _ _ E) as [A B]. elim H. rewrite <- B. apply nth_In. exact A.
Qed.

Lemma occ_types : forall ids ps p, NoDup ids -> (forall q, In q ps -> (q < length ids)%nat) -> (p < length ids)%nat ->
  occ (map (fun q => nth q ids O) ps) (nth p ids O) = occ ps p.
Proof.
  intros ids ps p ND H Hp. induction ps as [|q ps IH]; [reflexivity|]. cbn [map]. rewrite !occ_cons, IH by (intros r Hr; apply H; right; exact Hr).
  f_equal. destruct (Nat.eqb_spec q p) as [->|Hn]; [rewrite Nat.eqb_refl; reflexivity|].
  rewrite (proj2 (Nat.eqb_neq _ _)); [reflexivity|]. intro E. apply Hn.
  exact (proj1 (NoDup_nth ids O) ND q p (H q (or_introl eq_refl)) Hp E).
Qed.

Lemma terms_nodup : forall (counted : nat -> Z) n l, NoDup l ->
  NoDup (map fst (flat_map (fun x => if 0 <? counted x then [((n + x)%nat, inject_Z (counted x))] else []) l)).
Proof.
  intros counted n. induction l as [|x l IH]; intros ND; [constructor|]. inversion ND as [|? ? Hx Hl]; subst. cbn [flat_map]. rewrite map_app.
  apply nodup_app_intro; [destruct (0 <? counted x); repeat constructor; intros []|apply IH; exact Hl|].
  intros r Hr Hr2. destruct (0 <? counted x); [|destruct Hr]. destruct Hr as [Hr|[]]. cbn in Hr. subst r.
  apply in_map_iff in Hr2. destruct Hr2 as ([r q] & Er & Hr). cbn in Er. subst r. apply in_flat_map in Hr. destruct Hr as (y & Hy & Hr).
  destruct (0 <? counted y); [|destruct Hr]. destruct Hr as [Hr|[]]. injection Hr as Hr _. assert (x = y) by lia. subst y. contradiction.
Qed.

(** ** The column describes its pattern *)

Section Price.
Variables (i : CInst) (fx : CFix) (sf : bool) (duals : list Q) (cut_duals : list (Triple * Q)) (t : nat).
Let k := ckp i fx sf duals cut_duals t.
Let ids := kp_ids (kp_items k).

Lemma klen : length (kp_items k) = length ids.
Proof. exact (ids_length i fx sf duals cut_duals t). Qed.
Lemma knodup : NoDup ids.
Proof. exact (ids_nodup i fx sf duals cut_duals t). Qed.

Lemma column_describes : forall ps, (t < cnb i)%nat -> (forall p, In p ps -> (p < length (kp_items k))%nat) ->
  let col := ckp_column i k [(1, ps)] in
  describes i col /\ cc_type col = t /\ cc_items col = kp_types k ps /\ cc_objective col = pattern_objective i t (kp_types k ps).
Proof.
  intros ps Ht Hps col.
  assert (ND : NoDup ids) by apply knodup.
  assert (HL : forall p, In p ps -> (p < length ids)%nat) by (intros p Hp; rewrite <- klen; apply Hps; exact Hp).
  assert (EI : cc_items col = kp_types k ps) by reflexivity.
  split; [|split; [reflexivity|split; [reflexivity|reflexivity]]].
  set (counted := fun x => match kp_position ids x with Some p => ksol_copies [(1, ps)] p | None => 0 end).
  assert (EC : forall x, In x ids -> counted x = occ (cc_items col) x).
  { intros x Hx. unfold counted. destruct (position_in ids x Hx) as [p E]. rewrite E. destruct (position_some _ _ _ E) as [A B].
    unfold ksol_copies. rewrite zsum_cons, zsum_nil. cbn [fst snd]. rewrite EI. unfold kp_types. fold ids. rewrite <- B, occ_types by assumption. lia. }
  assert (EE : cc_elements col = (t, 1%Q) :: flat_map (fun x => if 0 <? counted x then [((cnb i + x)%nat, inject_Z (counted x))] else []) ids) by reflexivity.
  assert (HI : forall x, In x (cc_items col) -> In x ids).
  { intros x Hx. rewrite EI in Hx. unfold kp_types in Hx. apply in_map_iff in Hx. destruct Hx as (p & <- & Hp). apply nth_In. apply HL. exact Hp. }
  constructor.
  - exact Ht.
  - intros x Hx. apply (ids_lt i fx sf duals cut_duals t). apply HI. exact Hx.
  - rewrite EE. cbn [map fst]. constructor.
    + rewrite in_map_iff. intros ([r q] & Er & Hr). cbn in Er. subst r. apply in_flat_map in Hr. destruct Hr as (x & Hx & Hr).
      destruct (0 <? counted x); [|destruct Hr]. destruct Hr as [Hr|[]]. injection Hr as Hr _. lia.
    + apply terms_nodup. exact ND.
  - intros r q. rewrite EE. cbn [In]. change (cc_type col) with t. split.
    + intros [H|H]; [left; injection H as <- <-; auto|]. right. apply in_flat_map in H. destruct H as (x & Hx & Hr).
      destruct (Z.ltb_spec 0 (counted x)) as [Hc|Hc]; [|destruct Hr]. destruct Hr as [Hr|[]]. injection Hr as <- <-. exists x.
      rewrite (EC x Hx) in *. split; [reflexivity|]. split; [apply occ_in; exact Hc|reflexivity].
    + intros [[-> ->]|(x & -> & Hx & ->)]; [left; reflexivity|]. right. apply in_flat_map. exists x. split; [apply HI; exact Hx|].
      rewrite (EC x (HI x Hx)). pose proof (occ_one _ _ Hx). destruct (Z.ltb_spec 0 (occ (cc_items col) x)); [left; reflexivity|lia].
Qed.

(** ** The value of a pattern in the sub-problem *)

Definition cpenalty (d : Q) : Q := match cn_objective i with OKnapsack => (d * cn_mult_profit i)%Q | _ => (- d)%Q end.

Lemma schedule_one : forall n, (schedule_total [1%Q] n == inject_Z (Z.of_nat n))%Q.
Proof.
  induction n as [|n IH]; [reflexivity|]. cbn [schedule_total]. rewrite IH, Nat2Z.inj_succ. unfold Z.succ. rewrite inject_Z_plus.
  destruct n as [|[|n]]; reflexivity.
Qed.
Lemma schedule_nil : forall n, (schedule_total [] n == 0)%Q.
Proof. induction n as [|n IH]; [reflexivity|]. cbn [schedule_total]. rewrite IH. destruct n; reflexivity. Qed.

Lemma present_sum : forall ps w, (forall p, In p ps -> (p < length ids)%nat) ->
  (qsum (fun p => if (match kp_position ids w with Some q => (p =? q)%nat | None => false end) then inject_Z (occ ps p) else 0) (seq 0 (length ids))
   == inject_Z (occ (kp_types k ps) w))%Q.
Proof.
  intros ps w H. destruct (kp_position ids w) as [q|] eqn:E.
  - destruct (position_some _ _ _ E) as [A B]. rewrite <- B. unfold kp_types. fold ids. rewrite occ_types by (auto; apply knodup).
    rewrite <- (qsum_pick (length ids) q (fun p => inject_Z (occ ps p)) A). apply qsum_ext. intros p _. rewrite (Nat.eqb_sym q p). reflexivity.
  - apply position_none in E. rewrite occ_out.
    + apply qsum_zero. reflexivity.
    + intro Hi. apply E. unfold kp_types in Hi. apply in_map_iff in Hi. destruct Hi as (p & <- & Hp). apply nth_In, H, Hp.
Qed.

Lemma covers_two_b : forall c l, covers c l = two c l.
Proof.
  intros [[x y] z] l. unfold covers, two, tmembers. cbn [fst snd filter].
  assert (G : forall w, (if in_dec Nat.eq_dec w l then true else false) = inb w l).
  { intros w. destruct (in_dec Nat.eq_dec w l) as [H|H]; symmetry; [apply inb_in|apply inb_false]; exact H. }
  rewrite !G. destruct (inb x l), (inb y l), (inb z l); reflexivity.
Qed.

(** The resource of a cut is exceeded exactly when two of its item types are in
    the bin. *)
Lemma resource_penalty : forall ps c d, (forall p, In p ps -> (p < length ids)%nat) -> proper c ->
  (forall x, In x (tmembers c) -> occ (kp_types k ps) x <= 1) ->
  (qsum (fun r => if res_penalize r && Qltb (res_capacity r) (kp_consumption k r ps) then res_penalty r else 0) (ckp_resource i ids (c, d))
   == if covers c (kp_types k ps) then cpenalty d else 0)%Q.
Proof.
  intros ps [[x y] z] d H Hp H1. unfold proper in Hp. cbn in Hp. rewrite covers_two_b.
  set (T := kp_types k ps) in *.
  assert (Hx : occ T x <= 1) by (apply H1; cbn; auto). assert (Hy : occ T y <= 1) by (apply H1; cbn; auto).
  assert (Hz : occ T z <= 1) by (apply H1; cbn; auto).
  pose proof (occ_pos T x) as Ex. pose proof (occ_pos T y) as Ey. pose proof (occ_pos T z) as Ez.
  pose proof (occ_nonneg T x) as Nx. pose proof (occ_nonneg T y) as Ny. pose proof (occ_nonneg T z) as Nz.
  assert (HT : forall w, kp_position ids w = None -> occ T w = 0).
  { intros w Hw. apply position_none in Hw. apply occ_out. intro Hi. apply Hw. unfold T, kp_types in Hi. apply in_map_iff in Hi.
    destruct Hi as (p & <- & Hq). apply nth_In, H, Hq. }
  unfold ckp_resource. cbn [fst snd]. set (present := ckp_present ids (x, y, z)).
  assert (EP : present = (match kp_position ids x with Some q => [q] | None => [] end)
                         ++ (match kp_position ids y with Some q => [q] | None => [] end)
                         ++ (match kp_position ids z with Some q => [q] | None => [] end)).
  { unfold present, ckp_present, tmembers. cbn [flat_map fst snd]. rewrite app_nil_r. reflexivity. }
  destruct (Nat.ltb_spec (length present) 2) as [L|L].
  - cbn [qsum fold_right]. unfold two. rewrite <- Ex, <- Ey, <- Ez.
    pose proof (HT x) as Gx. pose proof (HT y) as Gy. pose proof (HT z) as Gz. rewrite EP in L. rewrite !app_length in L.
    destruct (kp_position ids x), (kp_position ids y), (kp_position ids z); cbn in L; try lia;
      repeat match goal with K : None = None -> _ |- _ => rewrite (K eq_refl) in * end; rewrite ?andb_false_r; reflexivity.
  - cbn [qsum fold_right res_penalize res_capacity res_penalty andb].
    set (r := mkResource _ _ _ _).
    assert (EK : (kp_consumption k r ps == inject_Z (occ T x + occ T y + occ T z))%Q).
    { unfold kp_consumption. rewrite klen.
      rewrite !inject_Z_plus. unfold T. rewrite <- !(present_sum ps _ H). rewrite <- !qsum_plus. apply qsum_ext. intros p Hq. apply in_seq in Hq.
      unfold r. cbn [res_item_consumptions].
      set (F := fun p => if existsb (Nat.eqb p) present then [1%Q] else []).
      rewrite (nth_indep _ [] (F O)) by (rewrite map_length, seq_length; lia).
      rewrite map_nth, seq_nth by lia. cbn [plus]. unfold F.
      assert (EX : existsb (Nat.eqb p) present =
         (match kp_position ids x with Some q => (p =? q)%nat | None => false end)
         || (match kp_position ids y with Some q => (p =? q)%nat | None => false end)
         || (match kp_position ids z with Some q => (p =? q)%nat | None => false end)).
      { rewrite EP, !existsb_app. destruct (kp_position ids x), (kp_position ids y), (kp_position ids z); cbn; rewrite ?orb_false_r, ?orb_assoc; reflexivity. }
      rewrite EX. change (occ ps p) with (Z.of_nat (count_occ Nat.eq_dec ps p)).
      assert (D : forall u v q, u <> v -> kp_position ids u = Some q -> kp_position ids v = Some q -> False).
      { intros u v q Hn A B. apply position_some in A, B. apply Hn. destruct A as [_ <-], B as [_ <-]. reflexivity. }
      destruct (kp_position ids x) as [qx|] eqn:Px, (kp_position ids y) as [qy|] eqn:Py, (kp_position ids z) as [qz|] eqn:Pz;
        repeat match goal with |- context [(p =? ?q)%nat] => destruct (Nat.eqb_spec p q); [subst q|] end; cbn [orb];
        rewrite ?schedule_one, ?schedule_nil; try ring;
        exfalso; first [apply (D x y p); [lia|assumption..]|apply (D x z p); [lia|assumption..]|apply (D y z p); [lia|assumption..]]. }
    assert (EB : Qltb 1 (kp_consumption k r ps) = two (x, y, z) T).
    { assert (EB1 : Qltb 1 (kp_consumption k r ps) = (1 <? occ T x + occ T y + occ T z)).
      { unfold Qltb. apply eq_true_iff_eq. rewrite negb_true_iff, <- not_true_iff_false, Qle_bool_iff, EK. change 1%Q with (inject_Z 1).
        rewrite <- Zle_Qle, Z.ltb_lt. lia. }
      rewrite EB1. unfold two. rewrite <- Ex, <- Ey, <- Ez.
      destruct (Z.ltb_spec 0 (occ T x)), (Z.ltb_spec 0 (occ T y)), (Z.ltb_spec 0 (occ T z)); cbn; first [apply Z.ltb_lt; lia|apply Z.ltb_ge; lia]. }
    rewrite EB. unfold cpenalty. destruct (two _ _); cbn; ring.
Qed.

Lemma kp_value_pattern : forall ps, (forall p, In p ps -> (p < length ids)%nat) ->
  (forall cd, In cd cut_duals -> proper (fst cd) /\ forall x, In x (tmembers (fst cd)) -> occ (kp_types k ps) x <= 1) ->
  (kp_value k ps == qsum (cprofit i sf duals) (kp_types k ps)
     - qsum (fun cd => if covers (fst cd) (kp_types k ps) then cpenalty (snd cd) else 0) cut_duals)%Q.
Proof.
  intros ps H Hc. unfold kp_value. apply Qplus_comp.
  - unfold kp_types. rewrite qsum_map. apply qsum_ext. intros p Hp. fold ids.
    rewrite (kp_profit_eq i fx sf duals cut_duals t p (H p Hp) : kp_profit k p = _). reflexivity.
  - apply Qopp_comp. change (kp_resources k) with (flat_map (ckp_resource i ids) cut_duals).
    assert (G : forall l, (forall cd, In cd l -> proper (fst cd) /\ forall x, In x (tmembers (fst cd)) -> occ (kp_types k ps) x <= 1) ->
      (qsum (fun r => if res_penalize r && Qltb (res_capacity r) (kp_consumption k r ps) then res_penalty r else 0) (flat_map (ckp_resource i ids) l)
       == qsum (fun cd => if covers (fst cd) (kp_types k ps) then cpenalty (snd cd) else 0) l)%Q).
    { clear Hc. induction l as [|[c d] l IH]; intros Hc; [reflexivity|]. cbn [flat_map]. rewrite qsum_app, qsum_cons. apply Qplus_comp.
      + destruct (Hc (c, d) (or_introl eq_refl)) as [A B]. cbn [fst snd] in *. apply resource_penalty; assumption.
      + apply IH. intros cd Hcd. apply Hc. right. exact Hcd. }
    apply G. exact Hc.
Qed.
End Price.

(** ** Every pattern against the bound of its sub-problem *)

(** The copies of an item type left for a bin of type [t]. *)
Definition available (i : CInst) (fx : CFix) (t x : nat) : Z :=
  qtrunc (inject_Z (ci_copies (citem i x)) - inject_Z (ci_copies_fixed (citem i x))
          - (nth x (fx_filled fx) 0 - nth x (fx_fixed fx) 0) + inject_Z (occ (cb_fixed (cbin i t)) x))%Q.

Section Pattern.
Variables (i : CInst) (fx : CFix) (sf : bool) (duals : list Q) (cut_duals : list (Triple * Q)) (t : nat).
Variable fits : nat -> list nat -> Prop.
Hypothesis Hher : hereditary i fits.
Hypothesis Hcuts : sound_cuts i cut_duals.
Hypothesis Hmult : (0 < cn_mult_profit i)%Q.
Let k := ckp i fx sf duals cut_duals t.
Let ids := kp_ids (kp_items k).

Record admissible (items : list nat) : Prop := {
  ad_items : forall x, In x items -> (x < cni i)%nat /\ occ items x <= ci_copies (citem i x) /\ occ items x <= available i fx t x;
  ad_fits : fits t items
}.

Lemma cpenalty_nonneg : forall cd, In cd cut_duals -> (0 <= cpenalty i (snd cd))%Q.
Proof.
  intros cd H. destruct (Hcuts cd H) as (_ & _ & S). unfold cpenalty. destruct (cn_objective i); try lra. apply Qmult_le_0_compat; lra.
Qed.

Theorem pattern_best : forall items a, admissible items -> kp_bound_valid fits k a ->
  (qsum (cprofit i sf duals) items - qsum (fun cd => if covers (fst cd) items then cpenalty i (snd cd) else 0) cut_duals <= ka_bound a)%Q.
Proof.
  intros items a [Had Hfit] Hval.
  set (good := fun x => negb (Qle_bool (cprofit i sf duals x) 0)).
  set (fixed := cb_fixed (cbin i t)).
  destruct (Hher t items Hfit) as [Hfx Hsub]. fold fixed in Hfx, Hsub.
  set (items' := filter good items ++ filter (fun x => negb (good x)) fixed).
  assert (EO : forall x, occ items' x = if good x then occ items x else occ fixed x).
  { intros x. unfold items'. rewrite occ_app, !occ_filter. destruct (good x); cbn [negb]; lia. }
  assert (HF : fits t items').
  { apply Hsub. intros x. rewrite EO. specialize (Hfx x). destruct (good x); lia. }
  assert (HI : forall x, In x items' -> In x items /\ In x ids /\ occ items' x <= ckp_copies i fx t x (cprofit i sf duals x)).
  { intros x Hx. pose proof (occ_one _ _ Hx) as H1.
    assert (Hin : In x items). { apply occ_in. specialize (Hfx x). rewrite EO in H1. destruct (good x); lia. }
    destruct (Had x Hin) as (A & _ & B).
    assert (C : occ items' x <= ckp_copies i fx t x (cprofit i sf duals x)).
    { rewrite EO. unfold ckp_copies, good. cbv zeta. destruct (Qle_bool _ 0); cbn [negb]; [unfold fixed; lia|]. exact B. }
    split; [exact Hin|]. split; [|exact C]. unfold ids, k. rewrite kp_ids_eq. apply filter_In. split; [apply in_seq; lia|apply Z.ltb_lt; lia]. }
  set (pos := fun x => match kp_position ids x with Some p => p | None => O end).
  set (ps := map pos items').
  assert (HP : forall x, In x ids -> (pos x < length ids)%nat /\ nth (pos x) ids O = x).
  { intros x Hx. unfold pos. destruct (position_in ids x Hx) as [p E]. rewrite E. apply position_some. exact E. }
  assert (EL : length (kp_items k) = length ids) by (apply ids_length).
  assert (HB : forall p, In p ps -> (p < length ids)%nat).
  { intros p Hp. apply in_map_iff in Hp. destruct Hp as (x & <- & Hx). apply HP. apply HI. exact Hx. }
  assert (ET : kp_types k ps = items').
  { unfold kp_types, ps. fold ids. rewrite map_map. rewrite <- (List.map_id items') at 2. apply map_ext_in. intros x Hx. apply HP, HI, Hx. }
  assert (Hps : kp_within k ps).
  { split; [intros p Hp; rewrite EL; apply HB; exact Hp|]. intros p Hp. rewrite EL in Hp.
    assert (ND : NoDup ids) by (apply ids_nodup).
    rewrite <- (occ_types ids ps p ND HB Hp). change (map (fun q => nth q ids 0%nat) ps) with (kp_types k ps). rewrite ET.
    rewrite (kp_copies_eq i fx sf duals cut_duals t p Hp : kp_copies k p = _). change (kp_ids (kp_items (ckp i fx sf duals cut_duals t))) with ids.
    destruct (in_dec Nat.eq_dec (nth p ids O) items') as [Hx|Hx]; [apply HI; exact Hx|]. rewrite occ_out by exact Hx.
    assert (Hi : In (nth p ids O) ids) by (apply nth_In; exact Hp).
    assert (EI : ids = filter (fun x => 0 <? ckp_copies i fx t x (cprofit i sf duals x)) (seq 0 (cni i))) by apply kp_ids_eq.
    rewrite EI in Hi at 2. apply filter_In in Hi. destruct Hi as [_ Hi]. apply Z.ltb_lt in Hi. lia. }
  specialize (Hval ps Hps). rewrite ET in Hval. specialize (Hval HF).
  assert (HC : forall cd, In cd cut_duals -> proper (fst cd) /\ forall x, In x (tmembers (fst cd)) -> occ (kp_types k ps) x <= 1).
  { intros cd Hcd. destruct (Hcuts cd Hcd) as (A & B & _). split; [exact A|]. intros x Hx. rewrite ET.
    destruct (in_dec Nat.eq_dec x items') as [Hi|Hi]; [|rewrite occ_out by exact Hi; lia]. apply HI in Hi. destruct Hi as [Hi _].
    destruct (Had x Hi) as (_ & C & _). rewrite (proj2 (B x Hx)) in C. rewrite EO. specialize (Hfx x). destruct (good x); lia. }
  rewrite (kp_value_pattern i fx sf duals cut_duals t ps HB HC : (kp_value k ps == _)%Q) in Hval.
  change (kp_types (ckp i fx sf duals cut_duals t) ps) with (kp_types k ps) in Hval. rewrite ET in Hval.
  eapply Qle_trans; [|exact Hval].
  assert (L1 : (qsum (cprofit i sf duals) items <= qsum (cprofit i sf duals) items')%Q).
  { assert (Bd : forall x, In x items -> (x < cni i)%nat) by (intros x Hx; apply Had; exact Hx).
    rewrite (qsum_occ (cni i) _ items Bd), (qsum_occ (cni i) _ items') by (intros x Hx; apply Bd, HI, Hx).
    apply qsum_le. intros x _. rewrite EO. unfold good. destruct (Qle_bool (cprofit i sf duals x) 0) eqn:E; cbn [negb]; [|lra].
    apply Qle_bool_iff in E. assert (G : (inject_Z (occ fixed x) <= inject_Z (occ items x))%Q) by (rewrite <- Zle_Qle; apply Hfx). nra. }
  assert (L2 : (qsum (fun cd => if covers (fst cd) items' then cpenalty i (snd cd) else 0) cut_duals
                <= qsum (fun cd => if covers (fst cd) items then cpenalty i (snd cd) else 0) cut_duals)%Q).
  { apply qsum_le. intros cd Hcd. pose proof (cpenalty_nonneg cd Hcd) as N. rewrite !covers_two_b. destruct (two (fst cd) items') eqn:E.
    - destruct (Hcuts cd Hcd) as (A & _). apply (two_covers _ _ A) in E.
      assert (E2 : two (fst cd) items = true).
      { apply (two_covers _ _ A). destruct E as (u & v & E1 & E2 & E3 & E4 & E5). exists u, v. repeat split; try assumption; apply HI; assumption. }
      rewrite E2. lra.
    - destruct (two (fst cd) items); lra. }
  lra.
Qed.
End Pattern.

(** ** The bound on the reduced costs *)

Lemma qmin_le : forall a b, (qmin a b <= a)%Q /\ (qmin a b <= b)%Q.
Proof.
  intros a b. unfold qmin, Qltb. destruct (Qle_bool a b) eqn:E; cbn [negb].
  - apply Qle_bool_iff in E. lra.
  - apply not_true_iff_false in E. rewrite Qle_bool_iff in E. lra.
Qed.
Lemma qmax_le : forall a b, (a <= qmax a b)%Q /\ (b <= qmax a b)%Q.
Proof.
  intros a b. unfold qmax, Qltb. destruct (Qle_bool b a) eqn:E; cbn [negb].
  - apply Qle_bool_iff in E. lra.
  - apply not_true_iff_false in E. rewrite Qle_bool_iff in E. lra.
Qed.

Section Bound.
Variables (i : CInst) (solver : CKp -> KAns) (fx : CFix) (sf : bool) (duals : list Q) (cut_duals : list (Triple * Q)).

(** [better a b]: [a] is at most [b] when minimising, at least when maximising. *)
Definition better (a b : Q) : Prop := match cn_objective i with OKnapsack => (b <= a)%Q | _ => (a <= b)%Q end.
Lemma better_refl : forall a, better a a.
Proof. intros a. unfold better. destruct (cn_objective i); lra. Qed.
Lemma better_trans : forall a b c, better a b -> better b c -> better a c.
Proof. intros a b c. unfold better. destruct (cn_objective i); lra. Qed.

(** The bound contributed by a bin type. *)
Definition type_bound (t : nat) : Q :=
  let kb := ka_bound (solver (ckp i fx sf duals cut_duals t)) in
  match cn_objective i with
  | OVariableSizedBinPacking | OBinPacking => (if sf then 0 else cb_cost (cbin i t) / cn_mult_cost i) - nth t duals 0 - kb
  | OFeasibility => (if sf then 0 else 1) - nth t duals 0 - kb
  | _ => kb / cn_mult_profit i - nth t duals 0
  end%Q.

Lemma step_better : forall t b, (better (cbound_step i sf duals t (ka_bound (solver (ckp i fx sf duals cut_duals t))) b) b)
  /\ (minimizes (cn_objective i) \/ cn_objective i = OKnapsack ->
      better (cbound_step i sf duals t (ka_bound (solver (ckp i fx sf duals cut_duals t))) b) (type_bound t)).
Proof.
  intros t b. unfold better, cbound_step, type_bound. split.
  - destruct (cn_objective i); try apply Qle_refl; first [apply qmin_le|apply qmax_le].
  - intros [[H|[H|H]]|H]; rewrite H; first [apply qmin_le|apply qmax_le].
Qed.

Lemma solutions_better : forall t k l acc, let f := fun acc s =>
    if ksol_bins s =? 0 then acc
    else (fst acc ++ [ckp_column i k s], cbound_step i sf duals t (ka_bound (solver (ckp i fx sf duals cut_duals t))) (snd acc)) in
  better (snd (fold_left f l acc)) (snd acc)
  /\ (minimizes (cn_objective i) \/ cn_objective i = OKnapsack -> (exists s, In s l /\ ksol_bins s <> 0) ->
      better (snd (fold_left f l acc)) (type_bound t)).
Proof.
  intros t k l acc f. revert acc. induction l as [|s l IH]; intros acc.
  - split; [apply better_refl|]. intros _ (s & [] & _).
  - cbn [fold_left]. destruct (IH (f acc s)) as [I1 I2]. split.
    + eapply better_trans; [exact I1|]. unfold f. destruct (_ =? 0); [apply better_refl|]. cbn [snd]. apply step_better.
    + intros Ho (s2 & [->|Hs] & H2).
      * eapply better_trans; [exact I1|]. unfold f. apply Z.eqb_neq in H2. rewrite H2. cbn [snd]. apply step_better. exact Ho.
      * apply I2; [exact Ho|]. exists s2. split; assumption.
Qed.

Lemma price_better : better (snd (cprice i solver fx sf duals cut_duals)) 0
  /\ (minimizes (cn_objective i) \/ cn_objective i = OKnapsack -> forall t, (t < cnb i)%nat -> nth t (fx_bins fx) 0 <> cb_copies (cbin i t) ->
      (exists s, In s (ka_solutions (solver (ckp i fx sf duals cut_duals t))) /\ ksol_bins s <> 0) ->
      better (snd (cprice i solver fx sf duals cut_duals)) (type_bound t)).
Proof.
  unfold cprice.
  assert (G : forall l acc, better (snd (fold_left (cprice_bin i solver fx sf duals cut_duals) l acc)) (snd acc)
    /\ (minimizes (cn_objective i) \/ cn_objective i = OKnapsack -> forall t, In t l -> nth t (fx_bins fx) 0 <> cb_copies (cbin i t) ->
        (exists s, In s (ka_solutions (solver (ckp i fx sf duals cut_duals t))) /\ ksol_bins s <> 0) ->
        better (snd (fold_left (cprice_bin i solver fx sf duals cut_duals) l acc)) (type_bound t))).
  { induction l as [|u l IH]; intros acc; [split; [apply better_refl|intros _ t []]|]. cbn [fold_left].
    destruct (IH (cprice_bin i solver fx sf duals cut_duals acc u)) as [I1 I2].
    pose proof (solutions_better u (ckp i fx sf duals cut_duals u) (ka_solutions (solver (ckp i fx sf duals cut_duals u))) acc) as [S1 S2].
    split.
    - eapply better_trans; [exact I1|]. unfold cprice_bin. destruct (_ =? _); [apply better_refl|exact S1].
    - intros Ho t [->|Ht] Hn Hs.
      + eapply better_trans; [exact I1|]. unfold cprice_bin. apply Z.eqb_neq in Hn. rewrite Hn. apply S2; assumption.
      + apply I2; assumption. }
  destruct (G (seq 0 (cnb i)) ([], 0%Q)) as [G1 G2]. split; [exact G1|]. intros Ho t Ht. apply G2; [exact Ho|]. apply in_seq. lia.
Qed.

(** Every column priced describes a packing returned for its bin type. *)
Lemma price_columns : forall col, In col (fst (cprice i solver fx sf duals cut_duals)) ->
  exists t s, (t < cnb i)%nat /\ In s (ka_solutions (solver (ckp i fx sf duals cut_duals t))) /\ ksol_bins s <> 0
    /\ col = ckp_column i (ckp i fx sf duals cut_duals t) s.
Proof.
  unfold cprice.
  set (P := fun col => exists t s, (t < cnb i)%nat /\ In s (ka_solutions (solver (ckp i fx sf duals cut_duals t))) /\ ksol_bins s <> 0
    /\ col = ckp_column i (ckp i fx sf duals cut_duals t) s).
  assert (G : forall l acc, (forall t, In t l -> (t < cnb i)%nat) -> (forall c, In c (fst acc) -> P c) ->
    forall c, In c (fst (fold_left (cprice_bin i solver fx sf duals cut_duals) l acc)) -> P c).
  { induction l as [|t l IH]; intros acc Hl Ha; [exact Ha|]. cbn [fold_left]. apply IH; [intros u Hu; apply Hl; right; exact Hu|].
    unfold cprice_bin. destruct (_ =? _); [exact Ha|]. cbv zeta.
    set (k := ckp i fx sf duals cut_duals t).
    assert (G2 : forall ss acc, (forall s, In s ss -> In s (ka_solutions (solver k))) -> (forall c, In c (fst acc) -> P c) ->
      forall c, In c (fst (fold_left (fun acc s => if ksol_bins s =? 0 then acc
        else (fst acc ++ [ckp_column i k s], cbound_step i sf duals t (ka_bound (solver k)) (snd acc))) ss acc)) -> P c).
    { induction ss as [|s ss IHs]; intros acc2 Hss Ha2; [exact Ha2|]. cbn [fold_left]. apply IHs; [intros u Hu; apply Hss; right; exact Hu|].
      destruct (Z.eqb_spec (ksol_bins s) 0) as [|Hn]; [exact Ha2|]. cbn [fst]. intros c Hc. apply in_app_iff in Hc.
      destruct Hc as [Hc|[<-|[]]]; [apply Ha2; exact Hc|]. exists t, s. split; [apply Hl; left; reflexivity|]. split; [apply Hss; left; reflexivity|]. auto. }
    apply G2; [auto|exact Ha]. }
  apply G; [intros t Ht; apply in_seq in Ht; lia|intros c []].
Qed.
End Bound.

(** ** Reduced costs *)

Section Reduced.
Variables (i : CInst) (solver : CKp -> KAns) (fx : CFix) (sf : bool) (duals : list Q) (cut_duals : list (Triple * Q)).
Variable fits : nat -> list nat -> Prop.
Hypothesis Hher : hereditary i fits.
Hypothesis Hcuts : sound_cuts i cut_duals.
Hypothesis Hmult : (0 < cn_mult_profit i)%Q.
Hypothesis Hobj : minimizes (cn_objective i) \/ cn_objective i = OKnapsack.

Lemma qsum_opp : forall A (f : A -> Q) l, (qsum (fun x => - f x) l == - qsum f l)%Q.
Proof. intros A f l. induction l as [|a l IH]; [reflexivity|]. rewrite !qsum_cons, IH. ring. Qed.

Lemma reduced_cost_min : forall t items, minimizes (cn_objective i) ->
  (reduced_cost i sf duals cut_duals t items == (if sf then 0 else pattern_objective i t items) - nth t duals 0
    - (qsum (cprofit i sf duals) items - qsum (fun cd => if covers (fst cd) items then cpenalty i (snd cd) else 0) cut_duals))%Q.
Proof.
  intros t items H. unfold reduced_cost.
  assert (E1 : (qsum (cprofit i sf duals) items == qsum (fun x => nth (cnb i + x) duals 0%Q) items)%Q).
  { apply qsum_ext. intros x _. unfold cprofit. destruct H as [H|[H|H]]; rewrite H; reflexivity. }
  assert (E2 : (qsum (fun cd => if covers (fst cd) items then cpenalty i (snd cd) else 0) cut_duals
     == - qsum (fun cd => if covers (fst cd) items then snd cd else 0) cut_duals)%Q).
  { rewrite <- qsum_opp. apply qsum_ext. intros cd _. unfold cpenalty. destruct H as [H|[H|H]]; rewrite H; destruct (covers _ _); ring. }
  rewrite E1, E2. ring.
Qed.

Lemma reduced_cost_max : forall t items, cn_objective i = OKnapsack ->
  (reduced_cost i sf duals cut_duals t items ==
    (qsum (cprofit i sf duals) items - qsum (fun cd => if covers (fst cd) items then cpenalty i (snd cd) else 0) cut_duals) / cn_mult_profit i
    - nth t duals 0)%Q.
Proof.
  intros t items H. unfold reduced_cost, pattern_objective. rewrite H.
  assert (E1 : (qsum (cprofit i sf duals) items == (if sf then 0 else qsum (fun x => ci_profit (citem i x)) items)
     + - (cn_mult_profit i) * qsum (fun x => nth (cnb i + x) duals 0%Q) items)%Q).
  { rewrite <- qsum_scale. destruct sf.
    - rewrite Qplus_0_l. apply qsum_ext. intros x _. unfold cprofit. rewrite H. ring.
    - rewrite <- qsum_plus. apply qsum_ext. intros x _. unfold cprofit. rewrite H. ring. }
  assert (E2 : (qsum (fun cd => if covers (fst cd) items then cpenalty i (snd cd) else 0) cut_duals
     == cn_mult_profit i * qsum (fun cd => if covers (fst cd) items then snd cd else 0) cut_duals)%Q).
  { rewrite <- qsum_scale. apply qsum_ext. intros cd _. unfold cpenalty. rewrite H. destruct (covers _ _); ring. }
  rewrite E1, E2. destruct sf; field; lra.
Qed.

Theorem reduced_cost_bounded : forall t items,
  (t < cnb i)%nat -> nth t (fx_bins fx) 0 <> cb_copies (cbin i t) ->
  kp_bound_valid fits (ckp i fx sf duals cut_duals t) (solver (ckp i fx sf duals cut_duals t)) ->
  (exists s, In s (ka_solutions (solver (ckp i fx sf duals cut_duals t))) /\ ksol_bins s <> 0) ->
  admissible i fx t fits items ->
  better i (snd (cprice i solver fx sf duals cut_duals)) (reduced_cost i sf duals cut_duals t items).
Proof.
  intros t items Ht Hn Hv Hs Ha. destruct (price_better i solver fx sf duals cut_duals) as [_ PB].
  eapply better_trans; [apply (PB Hobj t Ht Hn Hs)|].
  pose proof (pattern_best i fx sf duals cut_duals t fits Hher Hcuts Hmult items _ Ha Hv) as L.
  destruct Hobj as [H|H].
  - unfold better. pose proof (reduced_cost_min t items H) as R. unfold type_bound. unfold pattern_objective in R.
    destruct H as [H|[H|H]]; rewrite H in R |- *; rewrite R; cbv zeta; destruct sf; lra.
  - unfold better, type_bound. rewrite H. rewrite (reduced_cost_max t items H). cbv zeta.
    assert (G : ((qsum (cprofit i sf duals) items - qsum (fun cd => if covers (fst cd) items then cpenalty i (snd cd) else 0) cut_duals) / cn_mult_profit i
                 <= ka_bound (solver (ckp i fx sf duals cut_duals t)) / cn_mult_profit i)%Q).
    { unfold Qdiv. apply Qmult_le_compat_r; [exact L|]. apply Qinv_le_0_compat. lra. }
    lra.
Qed.
End Reduced.

(** ** The Lagrangian bound at the root *)

Lemma qtrunc_int : forall q n, (q == inject_Z n)%Q -> 0 <= n -> qtrunc q = n.
Proof.
  intros q n E H. rewrite qtrunc_floor; [rewrite (Qfloor_comp _ _ E); apply Qfloor_Z|]. rewrite E. change 0%Q with (inject_Z 0). rewrite <- Zle_Qle. exact H.
Qed.

Lemma nth_repeat0 : forall A (a : A) n k, nth k (repeat a n) a = a.
Proof. intros A a n. induction n as [|n IH]; intros [|k]; cbn; auto. Qed.

Lemma available_root : forall i t x, no_fixed_items i -> 0 <= ci_copies (citem i x) -> available i (cfix0 i) t x = ci_copies (citem i x).
Proof.
  intros i t x [N1 N2] H. unfold available. apply qtrunc_int; [|exact H]. unfold cfix0. cbn [fx_filled fx_fixed]. rewrite nth_repeat0, N1, N2.
  change (inject_Z 0) with 0%Q. change (inject_Z (occ [] x)) with 0%Q. ring.
Qed.

Lemma items_swap : forall n (f : nat -> Q) (bins : CBins), (forall b, In b bins -> forall x, In x (b_items b) -> (x < n)%nat) ->
  (qsum (fun b => inject_Z (b_copies b) * qsum f (b_items b)) bins == qsum (fun x => inject_Z (used_items bins x) * f x) (seq 0 n))%Q.
Proof.
  intros n f. induction bins as [|b bins IH]; intros H.
  - symmetry. apply qsum_zero. intros x _. unfold used_items. rewrite zsum_nil. change (inject_Z 0) with 0%Q. ring.
  - rewrite qsum_cons, IH by (intros c Hc; apply H; right; exact Hc).
    rewrite (qsum_occ n f (b_items b)) by (apply H; left; reflexivity). rewrite <- qsum_scale, <- qsum_plus. apply qsum_ext. intros x _.
    unfold used_items at 2. rewrite zsum_cons, inject_Z_plus, inject_Z_mult. fold (used_items bins x). ring.
Qed.

Definition cut_use (c : Triple) (bins : CBins) : Z := zsum (fun b => b_copies b * (if covers c (b_items b) then 1 else 0)) bins.

Lemma cuts_swap : forall (cds : list (Triple * Q)) (bins : CBins),
  (qsum (fun b => inject_Z (b_copies b) * qsum (fun cd => if covers (fst cd) (b_items b) then snd cd else 0) cds) bins
   == qsum (fun cd => inject_Z (cut_use (fst cd) bins) * snd cd) cds)%Q.
Proof.
  intros cds. induction bins as [|b bins IH].
  - symmetry. apply qsum_zero. intros x _. unfold cut_use. rewrite zsum_nil. change (inject_Z 0) with 0%Q. ring.
  - rewrite qsum_cons, IH, <- qsum_scale, <- qsum_plus. apply qsum_ext. intros cd _. unfold cut_use at 2. rewrite zsum_cons, inject_Z_plus, inject_Z_mult.
    fold (cut_use (fst cd) bins). destruct (covers _ _); [change (inject_Z 1) with 1%Q|change (inject_Z 0) with 0%Q]; ring.
Qed.

Lemma cut_use_one : forall c (bins : CBins), proper c -> (forall b, In b bins -> 0 <= b_copies b) ->
  (forall x, In x (tmembers c) -> used_items bins x <= 1) -> 0 <= cut_use c bins <= 1.
Proof.
  intros c bins Hp Hb Hu. split.
  - apply zsum_nonneg. intros b Hi. specialize (Hb b Hi). destruct (covers _ _); lia.
  - pose proof (cut_valid c (map (fun b => (mkCC 0 [] (b_type b) (b_items b), b_copies b)) bins) Hp) as V.
    assert (G : (inject_Z (cut_use c bins) <= inject_Z 1)%Q).
    { eapply Qle_trans; [|apply V].
      - rewrite qsum_map. unfold cut_use. rewrite <- qsum_inject. apply Qle_lteq. right. apply qsum_ext. intros b _. cbn [fst snd].
        rewrite coefficient_two. cbn [cc_items]. rewrite covers_two_b, inject_Z_mult.
        destruct (two _ _); [change (inject_Z 1) with 1%Q|change (inject_Z 0) with 0%Q]; ring.
      - intros p Hi. apply in_map_iff in Hi. destruct Hi as (b & <- & Hi). apply Hb. exact Hi.
      - intros x Hx. rewrite zsum_map. exact (Hu x Hx). }
    rewrite <- Zle_Qle in G. exact G.
Qed.

Lemma seq_plus : forall len n k, map (fun x => (n + x)%nat) (seq k len) = seq (n + k) len.
Proof.
  induction len as [|len IH]; intros n k; [reflexivity|]. cbn [seq map]. f_equal. rewrite IH. f_equal. lia.
Qed.

Section Lagrange.
Variables (i : CInst) (solver : CKp -> KAns) (duals : list Q) (cut_duals : list (Triple * Q)).
Variable fits : nat -> list nat -> Prop.
Hypothesis Hher : hereditary i fits.
Hypothesis Hcuts : sound_cuts i cut_duals.
Hypothesis Hmult : (0 < cn_mult_profit i)%Q.
Hypothesis Hobj : minimizes (cn_objective i) \/ cn_objective i = OKnapsack.
Hypothesis Hnofixed : no_fixed_items i.
Hypothesis Hsolver : forall t, (t < cnb i)%nat -> cb_copies (cbin i t) <> 0 ->
  let k := ckp i (cfix0 i) false duals cut_duals t in
  kp_bound_valid fits k (solver k) /\ exists s, In s (ka_solutions (solver k)) /\ ksol_bins s <> 0.

Let rcb := snd (cprice i solver (cfix0 i) false duals cut_duals).

Lemma used_items_ge : forall bins b x, In b bins -> (forall c, In c bins -> 0 <= b_copies c) -> 0 < b_copies b -> occ (b_items b) x <= used_items bins x.
Proof.
  intros bins b x H Hc Hb. apply in_split in H. destruct H as (l1 & l2 & ->). unfold used_items. rewrite zsum_app, zsum_cons.
  assert (0 <= zsum (fun b => b_copies b * occ (b_items b) x) l1)
    by (apply zsum_nonneg; intros c Hi; pose proof (Hc c ltac:(apply in_or_app; left; exact Hi)); pose proof (occ_nonneg (b_items c) x); nia).
  assert (0 <= zsum (fun b => b_copies b * occ (b_items b) x) l2)
    by (apply zsum_nonneg; intros c Hi; pose proof (Hc c ltac:(apply in_or_app; right; right; exact Hi)); pose proof (occ_nonneg (b_items c) x); nia).
  pose proof (occ_nonneg (b_items b) x). nia.
Qed.

Lemma used_bins_ge : forall bins b, In b bins -> (forall c, In c bins -> 0 <= b_copies c) -> b_copies b <= used_bins bins (b_type b).
Proof.
  intros bins b H Hc. apply in_split in H. destruct H as (l1 & l2 & ->). unfold used_bins. rewrite zsum_app, zsum_cons, Nat.eqb_refl.
  assert (0 <= zsum (fun c => if (b_type c =? b_type b)%nat then b_copies c else 0) l1)
    by (apply zsum_nonneg; intros c Hi; pose proof (Hc c ltac:(apply in_or_app; left; exact Hi)); destruct (_ =? _)%nat; lia).
  assert (0 <= zsum (fun c => if (b_type c =? b_type b)%nat then b_copies c else 0) l2)
    by (apply zsum_nonneg; intros c Hi; pose proof (Hc c ltac:(apply in_or_app; right; right; exact Hi)); destruct (_ =? _)%nat; lia).
  lia.
Qed.

Lemma bin_reduced : forall bins b, solves i fits bins -> In b bins -> 0 < b_copies b ->
  better i rcb (reduced_cost i false duals cut_duals (b_type b) (b_items b)).
Proof.
  intros bins b [[W1 W2 W3] Hmin Hf] Hb Hc.
  assert (HC : forall c, In c bins -> 0 <= b_copies c) by (intros c Hi; apply W1; exact Hi).
  destruct (W1 b Hb) as (T & _ & I).
  assert (Hopen : cb_copies (cbin i (b_type b)) <> 0).
  { pose proof (used_bins_ge bins b Hb HC). pose proof (W2 _ T). lia. }
  destruct (Hsolver (b_type b) T Hopen) as [V S].
  apply reduced_cost_bounded with (fits := fits); auto.
  - unfold cfix0. cbn [fx_bins]. rewrite nth_repeat0. congruence.
  - constructor; [|apply Hf; assumption]. intros x Hx. split; [apply I; exact Hx|].
    assert (G : occ (b_items b) x <= ci_copies (citem i x)).
    { eapply Z.le_trans; [apply used_items_ge; eassumption|]. apply W3, I, Hx. }
    split; [exact G|]. rewrite available_root; [exact G|exact Hnofixed|]. pose proof (occ_nonneg (b_items b) x). lia.
Qed.

(** The objective split along the duals. *)
Lemma objective_split : forall bins, solves i fits bins ->
  (objective_of i bins
   == qsum (fun b => inject_Z (b_copies b) * reduced_cost i false duals cut_duals (b_type b) (b_items b)) bins
      + (qsum (fun t => inject_Z (used_bins bins t) * nth t duals 0) (seq 0 (cnb i))
         + qsum (fun x => inject_Z (used_items bins x) * nth (cnb i + x) duals 0) (seq 0 (cni i))
         + qsum (fun cd => inject_Z (cut_use (fst cd) bins) * snd cd) cut_duals))%Q.
Proof.
  intros bins [[W1 W2 W3] _ _].
  rewrite <- (by_type (cnb i) (fun t => nth t duals 0%Q) bins) by (intros b Hb; apply W1; exact Hb).
  rewrite <- (items_swap (cni i) (fun x => nth (cnb i + x) duals 0%Q) bins) by (intros b Hb; apply W1; exact Hb).
  rewrite <- cuts_swap, <- !qsum_plus. apply qsum_ext. intros b _. unfold reduced_cost. ring.
Qed.

Lemma crows_bins : forall t, (t < cnb i)%nat -> nth t (crows i) (0, 0) = (cb_copies_min (cbin i t), cb_copies (cbin i t)).
Proof.
  intros t H. unfold crows. rewrite app_nth1 by (rewrite map_length; exact H).
  change (0, 0) with ((fun b => (cb_copies_min b, cb_copies b)) (mkCB 0 0 0 [])). rewrite map_nth. reflexivity.
Qed.
Lemma crows_items : forall x, nth (cnb i + x) (crows i) (0, 0) = (ci_copies_min (citem i x), ci_copies (citem i x)).
Proof.
  intros x. unfold crows. rewrite app_nth2 by (rewrite map_length; unfold cnb; lia). rewrite map_length. unfold cnb.
  replace (length (cn_bins i) + x - length (cn_bins i))%nat with x by lia.
  change (0, 0) with ((fun b => (ci_copies_min b, ci_copies b)) (mkCI 0 0 0 0)). rewrite map_nth. reflexivity.
Qed.

Lemma dual_value_split : forall m, (dual_value m i duals cut_duals ==
  qsum (fun t => nth t duals 0 * inject_Z (if Bool.eqb m (Qltb 0 (nth t duals 0)) then cb_copies_min (cbin i t) else cb_copies (cbin i t))) (seq 0 (cnb i))
  + qsum (fun x => nth (cnb i + x) duals 0 * inject_Z (if Bool.eqb m (Qltb 0 (nth (cnb i + x) duals 0)) then ci_copies_min (citem i x) else ci_copies (citem i x))) (seq 0 (cni i))
  + qsum snd cut_duals)%Q.
Proof.
  intros m. unfold dual_value. apply Qplus_comp; [|reflexivity].
  rewrite seq_app, qsum_app. cbn [plus]. apply Qplus_comp.
  - apply qsum_ext. intros t Ht. apply in_seq in Ht. cbv zeta. rewrite crows_bins by lia. reflexivity.
  - pose proof (seq_plus (cni i) (cnb i) 0) as E. rewrite Nat.add_0_r in E. rewrite <- E, qsum_map.
    apply qsum_ext. intros x _. cbv zeta. rewrite crows_items. reflexivity.
Qed.

Lemma zq_le : forall a b, a <= b -> (inject_Z a <= inject_Z b)%Q.
Proof. intros a b H. rewrite <- Zle_Qle. exact H. Qed.

(** A row within its bounds against the value of its dual. *)
Lemma row_min : forall d lower u upper, lower <= u <= upper -> (d * inject_Z (if Bool.eqb true (Qltb 0 d) then lower else upper) <= inject_Z u * d)%Q.
Proof.
  intros d lower u upper [H1 H2]. apply zq_le in H1, H2. unfold Qltb. destruct (Qle_bool d 0) eqn:E; cbn [negb Bool.eqb].
  - apply Qle_bool_iff in E. nra.
  - apply not_true_iff_false in E. rewrite Qle_bool_iff in E. nra.
Qed.
Lemma row_max : forall d lower u upper, lower <= u <= upper -> (inject_Z u * d <= d * inject_Z (if Bool.eqb false (Qltb 0 d) then lower else upper))%Q.
Proof.
  intros d lower u upper [H1 H2]. apply zq_le in H1, H2. unfold Qltb. destruct (Qle_bool d 0) eqn:E; cbn [negb Bool.eqb].
  - apply Qle_bool_iff in E. nra.
  - apply not_true_iff_false in E. rewrite Qle_bool_iff in E. nra.
Qed.

Lemma cut_use_solution : forall bins cd, solves i fits bins -> In cd cut_duals -> 0 <= cut_use (fst cd) bins <= 1.
Proof.
  intros bins cd [[W1 W2 W3] _ _] Hcd. destruct (Hcuts cd Hcd) as (A & B & _). apply cut_use_one; [exact A|intros b Hb; apply W1; exact Hb|].
  intros x Hx. destruct (B x Hx) as [B1 B2]. rewrite <- B2. apply W3. exact B1.
Qed.

Theorem lagrangian : forall bins cap, solves i fits bins -> total_bins bins <= cap ->
  match cn_objective i with
  | OKnapsack => (objective_of i bins <= dual_value false i duals cut_duals + inject_Z cap * rcb)%Q
  | _ => (dual_value true i duals cut_duals + inject_Z cap * rcb <= objective_of i bins)%Q
  end.
Proof.
  intros bins cap Hs Hcap. pose proof Hs as [[W1 W2 W3] Hmin _].
  pose proof (bin_reduced bins) as BR. pose proof (price_better i solver (cfix0 i) false duals cut_duals) as [P0 _]. fold rcb in P0.
  apply zq_le in Hcap.
  assert (EB : (inject_Z (total_bins bins) * rcb == qsum (fun b => inject_Z (b_copies b) * rcb) bins)%Q).
  { unfold total_bins. rewrite <- qsum_inject. rewrite Qmult_comm, <- qsum_scale. apply qsum_ext. intros; ring. }
  destruct Hobj as [H|H].
  - assert (G : (dual_value true i duals cut_duals + inject_Z cap * rcb <= objective_of i bins)%Q).
    { assert (Bt : forall a b, better i a b -> (a <= b)%Q) by (intros a b; unfold better; destruct H as [H|[H|H]]; rewrite H; auto).
      rewrite (objective_split bins Hs), (dual_value_split true).
      assert (L1 : (qsum (fun b => inject_Z (b_copies b) * rcb) bins
         <= qsum (fun b => inject_Z (b_copies b) * reduced_cost i false duals cut_duals (b_type b) (b_items b)) bins)%Q).
      { apply qsum_le. intros b Hb. destruct (W1 b Hb) as (_ & N & _). destruct (Z.eq_dec (b_copies b) 0) as [->|Hn]; [change (inject_Z 0) with 0%Q; lra|].
        specialize (BR b Hs Hb ltac:(lia)). apply Bt in BR. apply zq_le in N. change (inject_Z 0) with 0%Q in N. nra. }
      assert (L2 : (qsum (fun t => nth t duals 0 * inject_Z (if Bool.eqb true (Qltb 0 (nth t duals 0)) then cb_copies_min (cbin i t) else cb_copies (cbin i t))) (seq 0 (cnb i))
         <= qsum (fun t => inject_Z (used_bins bins t) * nth t duals 0) (seq 0 (cnb i)))%Q).
      { apply qsum_le. intros t Ht. apply in_seq in Ht. apply row_min. apply W2. lia. }
      assert (L3 : (qsum (fun x => nth (cnb i + x) duals 0 * inject_Z (if Bool.eqb true (Qltb 0 (nth (cnb i + x) duals 0)) then ci_copies_min (citem i x) else ci_copies (citem i x))) (seq 0 (cni i))
         <= qsum (fun x => inject_Z (used_items bins x) * nth (cnb i + x) duals 0) (seq 0 (cni i)))%Q).
      { apply qsum_le. intros x Hx. apply in_seq in Hx. apply row_min. split; [apply Hmin|apply W3]; lia. }
      assert (L4 : (qsum snd cut_duals <= qsum (fun cd => inject_Z (cut_use (fst cd) bins) * snd cd) cut_duals)%Q).
      { apply qsum_le. intros cd Hcd. destruct (cut_use_solution bins cd Hs Hcd) as [_ U]. apply zq_le in U. change (inject_Z 1) with 1%Q in U.
        destruct (Hcuts cd Hcd) as (_ & _ & S). assert (S2 : (snd cd <= 0)%Q) by (destruct H as [H|[H|H]]; rewrite H in S; exact S). nra. }
      apply Bt in P0. rewrite <- EB in L1. nra. }
    destruct H as [H|[H|H]]; rewrite H; exact G.
  - rewrite H. assert (Bt : forall a b, better i a b -> (b <= a)%Q) by (intros a b; unfold better; rewrite H; auto).
    rewrite (objective_split bins Hs), (dual_value_split false).
    assert (L1 : (qsum (fun b => inject_Z (b_copies b) * reduced_cost i false duals cut_duals (b_type b) (b_items b)) bins
       <= qsum (fun b => inject_Z (b_copies b) * rcb) bins)%Q).
    { apply qsum_le. intros b Hb. destruct (W1 b Hb) as (_ & N & _). destruct (Z.eq_dec (b_copies b) 0) as [->|Hn]; [change (inject_Z 0) with 0%Q; lra|].
      specialize (BR b Hs Hb ltac:(lia)). apply Bt in BR. apply zq_le in N. change (inject_Z 0) with 0%Q in N. nra. }
    assert (L2 : (qsum (fun t => inject_Z (used_bins bins t) * nth t duals 0) (seq 0 (cnb i))
       <= qsum (fun t => nth t duals 0 * inject_Z (if Bool.eqb false (Qltb 0 (nth t duals 0)) then cb_copies_min (cbin i t) else cb_copies (cbin i t))) (seq 0 (cnb i)))%Q).
    { apply qsum_le. intros t Ht. apply in_seq in Ht. apply row_max. apply W2. lia. }
    assert (L3 : (qsum (fun x => inject_Z (used_items bins x) * nth (cnb i + x) duals 0) (seq 0 (cni i))
       <= qsum (fun x => nth (cnb i + x) duals 0 * inject_Z (if Bool.eqb false (Qltb 0 (nth (cnb i + x) duals 0)) then ci_copies_min (citem i x) else ci_copies (citem i x))) (seq 0 (cni i)))%Q).
    { apply qsum_le. intros x Hx. apply in_seq in Hx. apply row_max. split; [apply Hmin|apply W3]; lia. }
    assert (L4 : (qsum (fun cd => inject_Z (cut_use (fst cd) bins) * snd cd) cut_duals <= qsum snd cut_duals)%Q).
    { apply qsum_le. intros cd Hcd. destruct (cut_use_solution bins cd Hs Hcd) as [_ U]. apply zq_le in U. change (inject_Z 1) with 1%Q in U.
      destruct (Hcuts cd Hcd) as (_ & _ & S). rewrite H in S. nra. }
    apply Bt in P0. rewrite <- EB in L1. nra.
Qed.
End Lagrange.
