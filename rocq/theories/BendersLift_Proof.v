(** * Proofs about the lifting of no-good cuts *)

From Coq Require Import List ZArith QArith Bool Lia Lqa Arith Permutation Qround.
From Verif Require Import Util Common_Model Common_Spec Common_Proof OneDim_Model OneDim_Spec OneDim_Order Milp_Model Milp_Spec
  Rect_Model Rect_Spec RectDff_Model RectDff_Proof RectSol_Spec Bar_Spec RectBounds_Model RectBounds_Spec Benders_Model Benders_Spec Benders_Proof BendersCuts_Proof.
Import ListNotations.
Open Scope Z_scope.

Section Lift.
Variable i : RInstance.
Variable bar : RInstance -> option Q.
Variable t : nat.
Let ni := length (rin_items i).

(** ** What the loop adds *)

Lemma lift_loop_adds : forall in_cut candidates m entries cut,
  let r := lift_loop i bar t in_cut candidates m entries cut in
  ct_capacity r = ct_capacity cut /\ exists added, ct_consumption r = ct_consumption cut ++ added
    /\ (forall e, In e added -> In (fst e) candidates /\ in_cut (fst e) = false /\ fits_bin i (fst e) t = true
        /\ exists alpha, 0 < alpha /\ snd e = threshold_schedule alpha)
    /\ (NoDup candidates -> NoDup (map fst added)).
Proof.
  intros in_cut candidates. induction candidates as [|j cs IH]; intros m entries cut; cbv zeta; cbn [lift_loop].
  - split; [reflexivity|]. exists []. rewrite app_nil_r. split; [reflexivity|]. split; [intros e []|intros _; constructor].
  - assert (W : forall m1 en1, let r := lift_loop i bar t in_cut cs m1 en1 cut in
      ct_capacity r = ct_capacity cut /\ exists added, ct_consumption r = ct_consumption cut ++ added
      /\ (forall e, In e added -> In (fst e) (j :: cs) /\ in_cut (fst e) = false /\ fits_bin i (fst e) t = true
          /\ exists alpha, 0 < alpha /\ snd e = threshold_schedule alpha)
      /\ (NoDup (j :: cs) -> NoDup (map fst added))).
    { intros m1 en1. cbv zeta. destruct (IH m1 en1 cut) as (A & added & B & C & D). split; [exact A|]. exists added. split; [exact B|]. split.
      - intros e He. destruct (C e He) as (C1 & C2). split; [right; exact C1|exact C2].
      - intro N. apply D. inversion N; assumption. }
    destruct (in_cut j || negb (fits_bin i j t)) eqn:F; [apply W|]. cbv zeta.
    apply orb_false_iff in F. destruct F as [F1 F2]. apply negb_false_iff in F2.
    set (alpha := lift_alpha m (bar (lift_instance i t entries j))).
    destruct (Z.ltb_spec 0 alpha) as [L|L]; [|apply W].
    destruct (IH (m + inject_Z alpha)%Q (entries ++ [mkSE j 1 (inject_Z alpha)]) (mkRC (ct_capacity cut) (ct_consumption cut ++ [(j, threshold_schedule alpha)]))) as (A & added & B & C & D).
    split; [exact A|]. cbn [ct_consumption] in B. exists ((j, threshold_schedule alpha) :: added). rewrite B, <- app_assoc. split; [reflexivity|]. split.
    + intros e [<-|He].
      * cbn [fst snd]. split; [left; reflexivity|]. split; [exact F1|]. split; [exact F2|]. exists alpha. split; [exact L|reflexivity].
      * destruct (C e He) as (C1 & C2). split; [right; exact C1|exact C2].
    + intro N. apply NoDup_cons_iff in N. destruct N as [N1 N2]. cbn [map]. constructor; [|apply D; exact N2].
      intro Hi. apply in_map_iff in Hi. destruct Hi as (e & E & He). destruct (C e He) as (C1 & _). apply N1. cbn [fst] in E. rewrite <- E. exact C1.
Qed.

(** The first addition is computed from the cut itself. *)
Lemma lift_loop_first : forall in_cut candidates m entries cut,
  let r := lift_loop i bar t in_cut candidates m entries cut in
  r = cut \/ exists j rest, In j candidates /\ in_cut j = false /\ fits_bin i j t = true
    /\ 0 < lift_alpha m (bar (lift_instance i t entries j))
    /\ ct_consumption r = ct_consumption cut ++ (j, threshold_schedule (lift_alpha m (bar (lift_instance i t entries j)))) :: rest.
Proof.
  intros in_cut candidates. induction candidates as [|j cs IH]; intros m entries cut; cbv zeta; cbn [lift_loop]; [left; reflexivity|].
  assert (W : let r := lift_loop i bar t in_cut cs m entries cut in
    r = cut \/ exists j0 rest, In j0 (j :: cs) /\ in_cut j0 = false /\ fits_bin i j0 t = true
    /\ 0 < lift_alpha m (bar (lift_instance i t entries j0))
    /\ ct_consumption r = ct_consumption cut ++ (j0, threshold_schedule (lift_alpha m (bar (lift_instance i t entries j0)))) :: rest).
  { cbv zeta. destruct (IH m entries cut) as [E|(j0 & rest & A & B)]; [left; exact E|right]. exists j0, rest. split; [right; exact A|exact B]. }
  destruct (in_cut j || negb (fits_bin i j t)) eqn:F; [exact W|]. cbv zeta.
  apply orb_false_iff in F. destruct F as [F1 F2]. apply negb_false_iff in F2.
  destruct (Z.ltb_spec 0 (lift_alpha m (bar (lift_instance i t entries j)))) as [L|L]; [|exact W].
  right. set (alpha := lift_alpha m (bar (lift_instance i t entries j))) in *.
  destruct (lift_loop_adds in_cut cs (m + inject_Z alpha)%Q (entries ++ [mkSE j 1 (inject_Z alpha)]) (mkRC (ct_capacity cut) (ct_consumption cut ++ [(j, threshold_schedule alpha)]))) as (_ & added & B & _).
  exists j, added. split; [left; reflexivity|]. split; [exact F1|]. split; [exact F2|]. split; [exact L|]. rewrite B. cbn [ct_consumption]. rewrite <- app_assoc. reflexivity.
Qed.

(** A lifted cut is at least as strong as the cut. *)
Lemma lifted_stronger : forall cut count, (cut_consumption cut count <= cut_consumption (lift_no_good_cut i bar t cut) count)%Q.
Proof.
  intros cut count. unfold lift_no_good_cut.
  destruct (lift_loop_adds (fun j => existsb (fun e => Nat.eqb (fst e) j) (ct_consumption cut)) (seq 0 (length (rin_items i))) (ct_capacity cut + 1)
    (map (fun e => mkSE (fst e) (Z.of_nat (length (snd e)) - 1) 1) (ct_consumption cut)) cut) as (_ & added & B & C & _).
  rewrite !cut_consumption_entries, B, qsum_app.
  assert (0 <= qsum (fun e => entry_sum (snd e) (Z.to_nat (count (fst e)))) added)%Q; [|lra].
  apply qsum_nonneg. intros e He. destruct (C e He) as (_ & _ & _ & alpha & La & E). rewrite E, threshold_sum by lia.
  change 0%Q with (inject_Z 0). rewrite <- Zle_Qle. lia.
Qed.

Lemma lifted_capacity : forall cut, ct_capacity (lift_no_good_cut i bar t cut) = ct_capacity cut.
Proof.
  intro cut. unfold lift_no_good_cut.
  apply (lift_loop_adds (fun j => existsb (fun e => Nat.eqb (fst e) j) (ct_consumption cut)) (seq 0 (length (rin_items i))) (ct_capacity cut + 1)
    (map (fun e => mkSE (fst e) (Z.of_nat (length (snd e)) - 1) 1) (ct_consumption cut)) cut).
Qed.

(** ** The bar relaxation of the lifting problem *)

(** Position of a type in a list of types; the length of the list if it is not there. *)
Fixpoint position (l : list nat) (x : nat) : nat :=
  match l with
  | [] => O
  | y :: l' => if Nat.eqb y x then O else S (position l' x)
  end.

Lemma position_out : forall l x, ~ In x l -> position l x = length l.
Proof.
  induction l as [|y l IH]; intros x H; [reflexivity|]. cbn [position length]. destruct (Nat.eqb_spec y x) as [E|E]; [exfalso; apply H; left; exact E|].
  f_equal. apply IH. intro C. apply H. right. exact C.
Qed.
Lemma position_in : forall l x, In x l -> (position l x < length l)%nat /\ nth (position l x) l O = x.
Proof.
  induction l as [|y l IH]; intros x H; [destruct H|]. cbn [position length]. destruct (Nat.eqb_spec y x) as [E|E]; [split; [lia|exact E]|].
  destruct H as [H|H]; [contradiction|]. destruct (IH x H) as [A B]. split; [lia|exact B].
Qed.

Variable sel : list (nat * Z).
Variable j : nat.
Hypothesis Hsel : selection_ok i sel.
Hypothesis Hj : ~ In j (map fst sel).
Hypothesis Hjn : (j < ni)%nat.

Definition sel_entries : list SEntry := map (fun p => mkSE (fst p) (snd p) 1) sel.

(** The entries computed from the schedules of the cut. *)
Lemma entries_of_cut : map (fun e => mkSE (fst e) (Z.of_nat (length (snd e)) - 1) 1) (ct_consumption (no_good_cut sel)) = sel_entries.
Proof.
  clear Hj Hjn. unfold no_good_cut, sel_entries. cbn [ct_consumption]. rewrite map_map. apply map_ext_in. intros p Hp. cbn [fst snd].
  destruct (sl_items i sel Hsel p Hp) as (_ & H). unfold threshold_schedule. rewrite app_length, repeat_length. cbn [length]. f_equal. lia.
Qed.

Let sub := lift_instance i t sel_entries j.
Let types := map fst sel ++ [j].
Definition renamed (p : Place) : Place := mkPl (position (map fst sel ++ [j]) (pl_type p)) (pl_x p) (pl_y p) (pl_rot p).

Lemma types_length : length types = S (length sel).
Proof. unfold types. rewrite app_length, map_length. cbn. lia. Qed.
Lemma types_distinct : NoDup types.
Proof.
  unfold types. apply Permutation_NoDup with (l := j :: map fst sel).
  - change (j :: map fst sel) with ([j] ++ map fst sel). apply Permutation_app_comm.
  - constructor; [exact Hj|apply Hsel].
Qed.

Lemma sub_items : rin_items sub = map (fun p => sub_item i (fst p) 1 (snd p) 0) sel ++ [sub_item i j 0 1 1].
Proof. unfold sub, lift_instance. cbn [rin_items]. unfold sel_entries. rewrite map_map. reflexivity. Qed.
Lemma sub_length : length (rin_items sub) = S (length sel).
Proof. rewrite sub_items, app_length, map_length. cbn. lia. Qed.

(** The item of a type of the instance. *)
Lemma sub_at : forall k, (k < S (length sel))%nat ->
  let it := ritem sub k in let x := nth k types O in
  ri_x it = ri_x (ritem i x) /\ ri_y it = ri_y (ritem i x) /\ ri_oriented it = ri_oriented (ritem i x) /\ ri_eligibility it = ri_eligibility (ritem i x)
  /\ (ri_profit it = if (k <? length sel)%nat then 1 else 0)%Q
  /\ ri_copies it = (if (k <? length sel)%nat then selected sel x else 1)
  /\ ri_copies_min it = (if (k <? length sel)%nat then 0 else 1).
Proof.
  intros k Hk. cbv zeta. destruct (Nat.ltb_spec k (length sel)) as [L|L].
  - assert (Ei : ritem sub k = sub_item i (fst (nth k sel (O, 0))) 1 (snd (nth k sel (O, 0))) 0).
    { unfold ritem. rewrite sub_items, app_nth1 by (rewrite map_length; exact L).
      rewrite (nth_indep _ _ (sub_item i (fst (O, 0)) 1 (snd (O, 0)) 0)) by (rewrite map_length; exact L).
      apply (map_nth (fun p => sub_item i (fst p) 1 (snd p) 0)). }
    assert (Et : nth k types O = fst (nth k sel (O, 0))).
    { unfold types. rewrite app_nth1 by (rewrite map_length; exact L). change O with (fst (O, 0)) at 1. apply (map_nth fst). }
    rewrite Ei, Et. rewrite (selected_in sel (nth k sel (O, 0))) by (try apply Hsel; apply nth_In; exact L).
    unfold sub_item. cbn [ri_x ri_y ri_oriented ri_eligibility ri_profit ri_copies ri_copies_min]. repeat (split; [reflexivity|]). reflexivity.
  - assert (E : k = length sel) by lia. subst k.
    assert (Ei : ritem sub (length sel) = sub_item i j 0 1 1).
    { unfold ritem. rewrite sub_items, app_nth2 by (rewrite map_length; lia). rewrite map_length, Nat.sub_diag. reflexivity. }
    assert (Et : nth (length sel) types O = j).
    { unfold types. rewrite app_nth2 by (rewrite map_length; lia). rewrite map_length, Nat.sub_diag. reflexivity. }
    rewrite Ei, Et. unfold sub_item. cbn [ri_x ri_y ri_oriented ri_eligibility ri_profit ri_copies ri_copies_min]. repeat (split; [reflexivity|]). reflexivity.
Qed.

Lemma renamed_type : forall p, In (pl_type p) types -> (pl_type (renamed p) < S (length sel))%nat /\ nth (pl_type (renamed p)) types O = pl_type p.
Proof.
  intros p H. unfold renamed. cbn [pl_type]. fold types. destruct (position_in types (pl_type p) H) as [A B]. rewrite types_length in A. split; assumption.
Qed.

Lemma renamed_size : forall p, In (pl_type p) types -> pl_w sub (renamed p) = pl_w i p /\ pl_h sub (renamed p) = pl_h i p.
Proof.
  intros p H. destruct (renamed_type p H) as [A B]. destruct (sub_at _ A) as (X & Y & _). rewrite B in X, Y.
  unfold pl_w, pl_h. change (pl_rot (renamed p)) with (pl_rot p). rewrite X, Y. split; reflexivity.
Qed.

Lemma renamed_count : forall qs k, (forall p, In p qs -> In (pl_type p) types) -> (k < S (length sel))%nat ->
  rcount k (map renamed qs) = rcount (nth k types O) qs.
Proof.
  intros qs k H Hk. induction qs as [|p qs IH]; [reflexivity|]. cbn [map]. rewrite !rcount_cons, IH by (intros q Hq; apply H; right; exact Hq).
  f_equal. destruct (renamed_type p (H p (or_introl eq_refl))) as [A B].
  destruct (Nat.eqb_spec (pl_type (renamed p)) k) as [E|E], (Nat.eqb_spec (pl_type p) (nth k types O)) as [F|F]; try reflexivity; exfalso.
  - apply F. rewrite <- E. symmetry. exact B.
  - apply E. rewrite <- B in F. apply (NoDup_nth types O) in F; [exact F|apply types_distinct|rewrite types_length; exact A|rewrite types_length; exact Hk].
Qed.

Lemma pairs_map : forall (A B : Type) (R : A -> A -> Prop) (S : B -> B -> Prop) (f : A -> B) l,
  (forall a b, In a l -> In b l -> R a b -> S (f a) (f b)) -> ForallOrdPairs R l -> ForallOrdPairs S (map f l).
Proof.
  intros A B R S0 f l. induction l as [|a l IH]; intros H F; [constructor|]. inversion F; subst. cbn [map]. constructor.
  - rewrite Forall_forall in *. intros y Hy. apply in_map_iff in Hy. destruct Hy as (z & <- & Hz). apply H; [left; reflexivity|right; exact Hz|]. apply H2. exact Hz.
  - apply IH; [|assumption]. intros x y Hx Hy. apply H; right; assumption.
Qed.

(** Number of places of the selected types. *)
Lemma count_by_types : forall qs, (forall p, In p qs -> In (pl_type p) types) ->
  zsum (fun p => if Nat.eqb (pl_type p) j then 0 else 1) qs = zsum (fun s => rcount (fst s) qs) sel.
Proof.
  induction qs as [|p qs IH]; intro H; [symmetry; apply (Dff_Axis.zsum_zero _ (fun s => rcount (fst s) [])); intros; reflexivity|].
  rewrite zsum_cons, IH by (intros q Hq; apply H; right; exact Hq).
  rewrite (zsum_ext _ (fun s => rcount (fst s) (p :: qs)) (fun s => (if Nat.eqb (pl_type p) (fst s) then 1 else 0) + rcount (fst s) qs)) by (intros; apply rcount_cons).
  rewrite (zsum_plus _ (fun s => if Nat.eqb (pl_type p) (fst s) then 1 else 0) (fun s => rcount (fst s) qs)). f_equal.
  assert (Ex : zsum (fun s : nat * Z => if Nat.eqb (pl_type p) (fst s) then 1 else 0) sel = selected (map (fun s => (fst s, 1)) sel) (pl_type p)).
  { unfold selected. rewrite zsum_map. apply zsum_ext. intros s _. cbn [fst snd]. rewrite Nat.eqb_sym. reflexivity. }
  rewrite Ex. assert (Ef : map fst (map (fun s : nat * Z => (fst s, 1)) sel) = map fst sel) by (rewrite map_map; reflexivity).
  specialize (H p (or_introl eq_refl)). unfold types in H. apply in_app_iff in H. destruct (Nat.eqb_spec (pl_type p) j) as [E|E].
  - rewrite selected_out; [reflexivity|]. rewrite Ef, E. exact Hj.
  - destruct H as [H|[H|[]]]; [|congruence]. rewrite <- Ef in H. apply in_map_iff in H. destruct H as (s & Es & Hs).
    rewrite <- Es. rewrite (selected_in _ s); [|rewrite Ef; apply Hsel|exact Hs]. apply in_map_iff in Hs. destruct Hs as (u & <- & _). reflexivity.
Qed.

Variable extra : nat -> list Place -> Prop.
Hypothesis Hres : rsane_resources i.
Hypothesis Hmono : monotone extra.

(** A bin with the candidate gives a packing of the lifting problem. *)
Lemma lift_packing : forall ps, bin_ok i extra t ps -> 1 <= rcount j ps ->
  exists ds, bar_packing sub ds /\ (rprofit sub ds == inject_Z (zsum (fun s => Z.min (rcount (fst s) ps) (snd s)) sel))%Q.
Proof.
  intros ps Hok Hc.
  set (k := fun x => if Nat.eqb x j then 1%nat else Z.to_nat (selected sel x)).
  set (qs := take_counts k ps).
  assert (Hq : bin_ok i extra t qs) by (apply (part_ok i extra Hres Hmono t qs ps); [apply take_part|exact Hok]).
  assert (Ht : forall p, In p qs -> In (pl_type p) types).
  { intros p Hp. apply take_types in Hp. unfold k in Hp. unfold types. apply in_app_iff. destruct (Nat.eqb_spec (pl_type p) j) as [E|E]; [right; left; symmetry; exact E|left].
    destruct (in_dec Nat.eq_dec (pl_type p) (map fst sel)) as [I|I]; [exact I|]. rewrite (selected_out sel _ I) in Hp. cbn in Hp. lia. }
  assert (Hcj : rcount j qs = 1).
  { unfold qs. rewrite take_count. unfold k. rewrite Nat.eqb_refl. lia. }
  assert (Hcs : forall s, In s sel -> rcount (fst s) qs = Z.min (rcount (fst s) ps) (snd s)).
  { intros s Hs. unfold qs. rewrite take_count. unfold k. destruct (Nat.eqb_spec (fst s) j) as [E|E]; [exfalso; apply Hj; rewrite <- E; apply in_map; exact Hs|].
    rewrite (selected_in sel s) by (try apply Hsel; exact Hs). destruct (sl_items i sel Hsel s Hs) as (_ & ?). lia. }
  exists [mkRD 0 1 (map renamed qs)].
  assert (Hrc : forall x, (x < length (rin_items sub))%nat -> rpacked x [mkRD 0 1 (map renamed qs)] = rcount (nth x types O) qs).
  { intros x Hx. rewrite sub_length in Hx. unfold rpacked. rewrite zsum_cons, zsum_nil. cbn [rd_copies rd_items]. rewrite renamed_count by assumption. lia. }
  assert (Hlim : forall x, (x < S (length sel))%nat -> (if (x <? length sel)%nat then 0 else 1) <= rcount (nth x types O) qs <= (if (x <? length sel)%nat then selected sel (nth x types O) else 1)).
  { intros x Hx. destruct (Nat.ltb_spec x (length sel)) as [L|L].
    - unfold types. rewrite app_nth1 by (rewrite map_length; exact L). change O with (fst (O, 0)). rewrite (map_nth fst).
      pose proof (nth_In sel (O, 0) L) as Hin. rewrite (Hcs _ Hin). rewrite (selected_in sel _ (sl_distinct i sel Hsel) Hin).
      pose proof (rcount_nonneg (fst (nth x sel (O, 0))) ps). destruct (sl_items i sel Hsel _ Hin) as (_ & ?). lia.
    - assert (E : x = length sel) by lia. subst x. unfold types. rewrite app_nth2 by (rewrite map_length; lia). rewrite map_length, Nat.sub_diag. cbn [nth]. lia. }
  split.
  - constructor.
    + constructor.
      * intros d [<-|[]]. cbn [rd_type rd_copies rd_items]. split; [cbn; lia|]. split; [lia|]. destruct Hq as [[G1 G2 G3] _ _ _ _].
        change (rbin sub 0) with (sub_bin i t). constructor.
        -- intros p Hp. apply in_map_iff in Hp. destruct Hp as (q & <- & Hq). destruct (G1 q Hq) as [P1 P2 P3 P4].
           destruct (renamed_size q (Ht q Hq)) as [W H]. destruct (renamed_type q (Ht q Hq)) as [A B]. destruct (sub_at _ A) as (_ & _ & O & _). rewrite B in O.
           unfold pl_xe, pl_ye in *. constructor; unfold pl_xe, pl_ye; rewrite ?W, ?H.
           ++ rewrite sub_length. exact A.
           ++ exact P2.
           ++ exact P3.
           ++ rewrite O. exact P4.
        -- apply (pairs_map _ _ (disjoint i) (disjoint sub) renamed qs); [|exact G2]. intros a b Ha Hb D. unfold disjoint, pl_xe, pl_ye in *.
           destruct (renamed_size a (Ht a Ha)) as [Wa HHa]. destruct (renamed_size b (Ht b Hb)) as [Wb Hhb]. rewrite Wa, HHa, Wb, Hhb. exact D.
        -- intros p d Hp Hd. apply in_map_iff in Hp. destruct Hp as (q & <- & Hq). specialize (G3 q d Hq Hd). unfold avoids, pl_xe, pl_ye in *.
           destruct (renamed_size q (Ht q Hq)) as [W H]. rewrite W, H. exact G3.
      * intros x Hx. rewrite (Hrc x Hx). rewrite sub_length in Hx. destruct (sub_at x Hx) as (_ & _ & _ & _ & _ & Cp & _). rewrite Cp. apply (Hlim x Hx).
    + intros d p [<-|[]] Hp. cbn [rd_type rd_items] in *. apply in_map_iff in Hp. destruct Hp as (q & <- & Hq').
      destruct (renamed_type q (Ht q Hq')) as [A B]. destruct (sub_at _ A) as (_ & _ & _ & E & _). rewrite B in E. rewrite E. apply (bo_eligible i extra t qs Hq q Hq').
    + intros u Hu. cbn in Hu. assert (u = O) by lia. subst u. cbn. lia.
    + intros x Hx. rewrite (Hrc x Hx). rewrite sub_length in Hx. destruct (sub_at x Hx) as (_ & _ & _ & _ & _ & _ & Cm). rewrite Cm. apply (Hlim x Hx).
  - unfold rprofit. rewrite qsum_cons. change (qsum _ []) with 0%Q. cbn [rd_copies rd_items]. rewrite qsum_map.
    rewrite (qsum_ext _ _ (fun p => inject_Z (if Nat.eqb (pl_type p) j then 0 else 1))).
    + rewrite (qsum_inject _ (fun p => if Nat.eqb (pl_type p) j then 0 else 1)), count_by_types by exact Ht.
      rewrite (zsum_ext _ (fun s => rcount (fst s) qs) (fun s => Z.min (rcount (fst s) ps) (snd s))) by exact Hcs.
      change (inject_Z 1) with 1%Q. ring.
    + intros p Hp. destruct (renamed_type p (Ht p Hp)) as [A B]. destruct (sub_at _ A) as (_ & _ & _ & _ & Pr & _). rewrite Pr.
      destruct (Nat.ltb_spec (pl_type (renamed p)) (length sel)) as [L|L].
      * unfold types in B. rewrite app_nth1 in B by (rewrite map_length; exact L). destruct (Nat.eqb_spec (pl_type p) j) as [E|E]; [|reflexivity].
        exfalso. apply Hj. rewrite <- E, <- B. apply nth_In. rewrite map_length. exact L.
      * assert (E : pl_type (renamed p) = length sel) by lia. rewrite E in B. unfold types in B. rewrite app_nth2 in B by (rewrite map_length; lia).
        rewrite map_length, Nat.sub_diag in B. cbn [nth] in B. rewrite <- B, Nat.eqb_refl. reflexivity.
Qed.

End Lift.

(** The coefficient of the candidate is not too large. *)
Lemma lift_alpha_le : forall m s (n c : Z), (m == inject_Z n)%Q -> (inject_Z c <= s)%Q -> 0 < lift_alpha m (Some s) ->
  lift_alpha m (Some s) <= n - 1 - c.
Proof.
  intros m s n c Hm Hs L. unfold lift_alpha in *. destruct (Qltb 0 (m - 1 - s)); [|lia]. pose proof (Qfloor_le (m - 1 - s + (1 # 1000000))) as F.
  set (a := Qfloor (m - 1 - s + (1 # 1000000))) in *.
  destruct (Z.le_gt_cases a (n - 1 - c)) as [|G]; [assumption|exfalso].
  assert (G' : (inject_Z (n - 1 - c + 1) <= inject_Z a)%Q) by (rewrite <- Zle_Qle; lia).
  unfold Z.sub in G'. rewrite !inject_Z_plus, !inject_Z_opp in G'. change (inject_Z 1) with 1%Q in G'. lra.
Qed.

Section Valid.
Variable i : RInstance.
Variable extra : nat -> list Place -> Prop.
Hypothesis Hres : rsane_resources i.
Hypothesis Hmono : monotone extra.

(** A cut lifted by at most one item type excludes no bin. *)
Lemma lifted_valid : forall bar t sel, bar_right bar -> selection_ok i sel ->
  (length (ct_consumption (lift_no_good_cut i bar t (no_good_cut sel))) <= S (length sel))%nat ->
  never_together i extra t sel -> cut_valid i extra t (lift_no_good_cut i bar t (no_good_cut sel)).
Proof.
  intros bar t sel Hbar Hsel Hlen Hnever.
  assert (Hvalid : cut_valid i extra t (no_good_cut sel)) by (apply no_good_valid; assumption).
  unfold lift_no_good_cut in *. rewrite (entries_of_cut i sel Hsel) in *.
  set (in_cut := fun j => existsb (fun e => Nat.eqb (fst e) j) (ct_consumption (no_good_cut sel))) in *.
  destruct (lift_loop_first i bar t in_cut (seq 0 (length (rin_items i))) (ct_capacity (no_good_cut sel) + 1) (sel_entries sel) (no_good_cut sel)) as [E|(j & rest & A & B & C & D & E)].
  - rewrite E. exact Hvalid.
  - set (r := lift_loop i bar t in_cut (seq 0 (length (rin_items i))) (ct_capacity (no_good_cut sel) + 1) (sel_entries sel) (no_good_cut sel)) in *.
    assert (Hcap : ct_capacity r = ct_capacity (no_good_cut sel)) by (apply lift_loop_adds).
    assert (Hrest : rest = []).
    { rewrite E in Hlen. rewrite app_length in Hlen. unfold no_good_cut in Hlen. cbn [ct_consumption length] in Hlen. rewrite map_length in Hlen.
      destruct rest; [reflexivity|]. cbn [length] in Hlen. lia. }
    subst rest. intros ps Hok. rewrite Hcap, cut_consumption_entries, E, qsum_app. rewrite <- (cut_consumption_entries (no_good_cut sel) (fun x => rcount x ps)).
    rewrite qsum_cons. change (qsum _ []) with 0%Q. cbn [fst snd].
    assert (Hjn : ~ In j (map fst sel)).
    { intro I. unfold in_cut, no_good_cut in B. cbn [ct_consumption] in B. apply in_map_iff in I. destruct I as (s & Es & Hs).
      assert (X : existsb (fun e => Nat.eqb (fst e) j) (map (fun p => (fst p, threshold_schedule (snd p))) sel) = true).
      { apply existsb_exists. exists (fst s, threshold_schedule (snd s)). split; [apply in_map_iff; exists s; split; [reflexivity|exact Hs]|]. cbn [fst]. apply Nat.eqb_eq. exact Es. }
      congruence. }
    apply in_seq in A.
    set (alpha := lift_alpha (ct_capacity (no_good_cut sel) + 1) (bar (lift_instance i t (sel_entries sel) j))) in *.
    rewrite (no_good_consumption sel (fun x => rcount x ps)) by (try (intros; apply rcount_nonneg); intros p Hp; destruct (sl_items i sel Hsel p Hp) as (_ & ?); lia).
    rewrite threshold_sum by lia. rewrite Z2Nat.id by apply rcount_nonneg.
    destruct (Z.le_gt_cases (rcount j ps) 0) as [Hz|Hp].
    + specialize (Hvalid ps Hok). rewrite (no_good_consumption sel (fun x => rcount x ps)) in Hvalid by (try (intros; apply rcount_nonneg); intros p Hp; destruct (sl_items i sel Hsel p Hp) as (_ & ?); lia).
      pose proof (rcount_nonneg j ps). rewrite (Z.min_l (rcount j ps) alpha) by lia. replace (rcount j ps) with 0 by lia. change (inject_Z 0) with 0%Q. lra.
    + destruct (lift_packing i t sel j Hsel Hjn (proj2 A) extra Hres Hmono ps Hok ltac:(lia)) as (ds & P & V).
      destruct (bar (lift_instance i t (sel_entries sel) j)) as [b|] eqn:Eb; [|unfold alpha, lift_alpha in D; lia].
      pose proof (Hbar _ b Eb ds P) as Hb. rewrite V in Hb.
      assert (Em : (ct_capacity (no_good_cut sel) + 1 == inject_Z (zsum snd sel))%Q) by (unfold no_good_cut; cbn [ct_capacity]; ring).
      pose proof (lift_alpha_le _ _ _ _ Em Hb D) as L. fold alpha in L.
      set (mn := zsum (fun s => Z.min (rcount (fst s) ps) (snd s)) sel) in *.
      assert (K : (inject_Z (mn + Z.min (rcount j ps) alpha) <= inject_Z (zsum snd sel - 1))%Q) by (rewrite <- Zle_Qle; lia).
      unfold Z.sub in K. rewrite !inject_Z_plus in K. rewrite inject_Z_opp in K. change (inject_Z 1) with 1%Q in K. lra.
Qed.

End Valid.
