(** * C73: the rectangleguillotine instance builder *)

From Coq Require Import Ascii String List ZArith QArith Bool Lia Lqa Arith Sorted.
From Verif Require Import Util Common_Model OneDim_Model OneDim_Spec OneDimBuilder_Model OneDimBuilder_Spec OneDimBuilder_Proof
  Guil_Model GuilBuilder_Model GuilBuilder_Spec GuilStack_Proof GuilBuilder_Proof.
Import ListNotations.
Open Scope Z_scope.

(** Every instance built after any sequence of calls (the caller catching the
    exceptions and going on) has consistent computed attributes, is within
    bounds and holds the data entered in the builder. *)
Theorem C73_built : forall o calls b i d, hrun o calls = Some b -> h_build b = HBuilt i d ->
  hconsistent i d /\ hwell_bounded i /\ hholds_data b i.
Proof.
  intros o calls b i d Hb Hi. pose proof (hrun_inv o calls b Hb) as Hinv. split; [|split].
  - apply (hbuild_consistent b i d Hi).
  - apply (hbuild_bounded b i d Hi Hinv).
  - apply (hbuild_holds b i d Hi).
Qed.
Print Assumptions C73_built.

(** When no item type has a negative number of copies, the stacks of the
    instance are the entered ones, or one per item type when no stack is named;
    mixing named and unnamed stacks is refused, and nothing else about the
    stacks is. *)
Theorem C73_stacks : forall o calls b, hrun o calls = Some b -> (forall t, In t (h_items b) -> 0 <= gi_copies t) ->
  (forall i d, h_build b = HBuilt i d -> hstacked (h_stacks b) i) /\
  ((exists s, In s (h_stacks b) /\ 0 <= s) -> (exists s, In s (h_stacks b) /\ s < 0) -> h_build b = HBuildThrow) /\
  (~ ((exists s, In s (h_stacks b) /\ 0 <= s) /\ (exists s, In s (h_stacks b) /\ s < 0)) ->
    exists ids pos offsets fl, h_build_stacks (map gi_copies (h_items b)) (h_stacks b) = HSOk ids pos offsets fl).
Proof.
  intros o calls b Hb Hpos. pose proof (hrun_inv o calls b Hb) as Hinv. split; [|split].
  - intros i d Hi. apply (hbuild_stacked b i d Hi Hinv Hpos).
  - intros (s & Hs & P) (s' & Hs' & N). unfold h_build. cbv zeta.
    assert (E : h_build_stacks (map gi_copies (h_items b)) (h_stacks b) = HSThrow).
    { unfold h_build_stacks. replace (existsb (fun s => 0 <=? s) (h_stacks b)) with true by (symmetry; apply existsb_exists; exists s; split; [exact Hs|apply Z.leb_le, P]).
      replace (existsb (fun s => negb (0 <=? s)) (h_stacks b)) with true by (symmetry; apply existsb_exists; exists s'; split; [exact Hs'|apply negb_true_iff, Z.leb_gt, N]). reflexivity. }
    rewrite E. destruct (_ && _); [reflexivity|]. destruct (_ || _); reflexivity.
  - intro H. destruct Hinv as (_ & _ & HL).
    assert (Hp : forall x, 0 <= nth x (map gi_copies (h_items b)) 0).
    { intro x. change 0 with (gi_copies gdummy_item) at 2. rewrite map_nth. destruct (Nat.lt_ge_cases x (length (h_items b))) as [Hx|Hx].
      - apply Hpos. apply nth_In. exact Hx.
      - rewrite nth_overflow by exact Hx. cbn. lia. }
    pose proof (build_stacks_spec (map gi_copies (h_items b)) (h_stacks b) ltac:(rewrite map_length; exact HL) Hp) as B.
    destruct (h_build_stacks _ _) as [ids pos offsets fl| |]; [eauto 10|contradiction|contradiction].
Qed.
Print Assumptions C73_stacks.

(** Each call that enters data returns exactly when its arguments are valid,
    throws exactly when they are not, and then leaves the builder unchanged. *)
Theorem C73_calls : forall b c, hdirect c = true ->
  match hstep b c with
  | HOk _ => haccepted b c /\ ~ hunchecked b c
  | HThrow b' => b' = b /\ ~ haccepted b c
  | HUndef => hunchecked b c
  end.
Proof. exact hacceptance. Qed.
Print Assumptions C73_calls.

(** Each setter stores its argument in the field of the type it names and
    changes nothing else. *)
Theorem C73_bin_setters : forall b id k q dx dy lx ly n m l r bo to b1 b2 b3 b4 b5,
  id = Z.of_nat k ->
  h_set_bin_cost b id q = HOk b1 -> h_add_defect b id dx dy lx ly = HOk b2 ->
  h_set_bin_copies b id n = HOk b3 -> h_set_bin_copies_min b id m = HOk b4 -> h_add_trims b id l r bo to = HOk b5 ->
  let old := nth k (h_bins b) gdummy_bin in
  let new b' := nth k (h_bins b') gdummy_bin in
  new b1 = mkGBT (if Qeq_bool q (-1) then inject_Z (gb_w old * gb_h old) else q) (gb_copies old) (gb_copies_min old) (gb_w old) (gb_h old) (gb_defects old) (gb_bottom old) (gb_top old) (gb_left old) (gb_right old) (gb_resources old) /\
  new b2 = mkGBT (gb_cost old) (gb_copies old) (gb_copies_min old) (gb_w old) (gb_h old) (gb_defects old ++ [mkGD dx dy lx ly]) (gb_bottom old) (gb_top old) (gb_left old) (gb_right old) (gb_resources old) /\
  new b3 = mkGBT (gb_cost old) n (gb_copies_min old) (gb_w old) (gb_h old) (gb_defects old) (gb_bottom old) (gb_top old) (gb_left old) (gb_right old) (gb_resources old) /\
  new b4 = mkGBT (gb_cost old) (gb_copies old) m (gb_w old) (gb_h old) (gb_defects old) (gb_bottom old) (gb_top old) (gb_left old) (gb_right old) (gb_resources old) /\
  new b5 = mkGBT (gb_cost old) (gb_copies old) (gb_copies_min old) (gb_w old) (gb_h old) (gb_defects old) bo to l r (gb_resources old) /\
  (forall j, j <> k -> forall b', In b' [b1; b2; b3; b4; b5] -> nth j (h_bins b') gdummy_bin = nth j (h_bins b) gdummy_bin) /\
  (forall b', In b' [b1; b2; b3; b4; b5] -> h_items b' = h_items b /\ h_stacks b' = h_stacks b /\ h_objective b' = h_objective b /\ h_params b' = h_params b /\
     length (h_bins b') = length (h_bins b)).
Proof.
  intros b id k q dx dy lx ly n m l r bo to b1 b2 b3 b4 b5 -> H1 H2 H3 H4 H5 old new.
  assert (Hon : forall f b', hon_bin b (Z.of_nat k) f = HOk b' ->
     (k < length (h_bins b))%nat /\ b' = hset_bins b (upd k f (h_bins b))).
  { intros f b'. unfold hon_bin. destruct (bad_id (Z.of_nat k) (h_bins b)) eqn:E; [discriminate|].
    apply bad_id_false in E. unfold in_range in E. rewrite Nat2Z.id. intro H. injection H as <-. split; [lia|reflexivity]. }
  unfold h_set_bin_cost in H1. destruct (bad_id _ _) in H1; [discriminate|]. destruct (_ && _) in H1; [discriminate|].
  unfold h_set_bin_copies in H3. destruct (bad_id _ _) in H3; [discriminate|]. destruct (_ && _) in H3; [discriminate|].
  unfold h_set_bin_copies_min in H4. destruct (bad_id _ _) in H4; [discriminate|]. destruct (m <? 0) in H4; [discriminate|].
  destruct (_ && _) in H4; [discriminate|].
  unfold h_add_trims in H5. cbv zeta in H5. repeat (match type of H5 with (if ?c then _ else _) = _ => destruct c in H5; [discriminate|] end).
  apply Hon in H1, H2, H3, H4, H5.
  destruct H1 as [Hk ->], H2 as [_ ->], H3 as [_ ->], H4 as [_ ->], H5 as [_ ->].
  unfold new, hset_bins. cbn [h_bins]. rewrite !nth_upd_same by assumption.
  do 5 (split; [reflexivity|]). split.
  - intros j Hj b' Hb'. simpl in Hb'. destruct Hb' as [<-|[<-|[<-|[<-|[<-|[]]]]]]; cbn [h_bins]; apply nth_upd_other; congruence.
  - intros b' Hb'. simpl in Hb'. destruct Hb' as [<-|[<-|[<-|[<-|[<-|[]]]]]]; cbn [h_bins h_items h_stacks h_objective h_params];
      rewrite upd_length; auto 10.
Qed.
Print Assumptions C73_bin_setters.

Theorem C73_item_setters : forall b id k p n m b1 b2 b3,
  id = Z.of_nat k ->
  h_set_item_profit b id p = HOk b1 -> h_set_item_copies b id n = HOk b2 -> h_set_item_copies_min b id m = HOk b3 ->
  let old := nth k (h_items b) gdummy_item in
  let new b' := nth k (h_items b') gdummy_item in
  new b1 = mkGI p (gi_copies old) (gi_copies_min old) (gi_w old) (gi_h old) (gi_stack_id old) (gi_stack_pos old) (gi_oriented old) (gi_resource_ids old) /\
  new b2 = mkGI (gi_profit old) n (gi_copies_min old) (gi_w old) (gi_h old) (gi_stack_id old) (gi_stack_pos old) (gi_oriented old) (gi_resource_ids old) /\
  new b3 = mkGI (gi_profit old) (gi_copies old) m (gi_w old) (gi_h old) (gi_stack_id old) (gi_stack_pos old) (gi_oriented old) (gi_resource_ids old) /\
  (forall j, j <> k -> forall b', In b' [b1; b2; b3] -> nth j (h_items b') gdummy_item = nth j (h_items b) gdummy_item) /\
  (forall b', In b' [b1; b2; b3] -> h_bins b' = h_bins b /\ h_stacks b' = h_stacks b /\ h_objective b' = h_objective b /\ h_params b' = h_params b /\
     length (h_items b') = length (h_items b)).
Proof.
  intros b id k p n m b1 b2 b3 -> H1 H2 H3 old new.
  assert (Hon : forall f b', hon_item b (Z.of_nat k) f = HOk b' ->
     (k < length (h_items b))%nat /\ b' = hset_items b (upd k f (h_items b))).
  { intros f b'. unfold hon_item. destruct (bad_id (Z.of_nat k) (h_items b)) eqn:E; [discriminate|].
    apply bad_id_false in E. unfold in_range in E. rewrite Nat2Z.id. intro H. injection H as <-. split; [lia|reflexivity]. }
  unfold h_set_item_copies in H2. destruct (bad_id _ _) in H2; [discriminate|]. destruct (_ && _) in H2; [discriminate|].
  unfold h_set_item_copies_min in H3. destruct (bad_id _ _) in H3; [discriminate|]. destruct (m <? -1) in H3; [discriminate|].
  apply Hon in H1, H2, H3. destruct H1 as [Hk ->], H2 as [_ ->], H3 as [_ ->].
  unfold new, hset_items. cbn [h_items]. rewrite !nth_upd_same by assumption.
  do 3 (split; [reflexivity|]). split.
  - intros j Hj b' Hb'. simpl in Hb'. destruct Hb' as [<-|[<-|[<-|[]]]]; cbn [h_items]; apply nth_upd_other; congruence.
  - intros b' Hb'. simpl in Hb'. destruct Hb' as [<-|[<-|[<-|[]]]]; cbn [h_bins h_items h_stacks h_objective h_params];
      rewrite upd_length; auto 10.
Qed.
Print Assumptions C73_item_setters.

(** The orientation of the items and the parameters: what each call sets. *)
Theorem C73_parameter_setters : forall b n z v o b' p', let p := h_params b in
  (forall f, In (f : HCall) [HSetFirst o; HSetMin1 n; HSetMax1 n; HSetMin2 n; HSetMax2 n; HSetMinWaste n; HSetNumber1 n; HSetNumber2 n; HSetThrough v; HSetThickness n; HSetWasteCost z] ->
    hstep b f = HOk b' -> p' = h_params b' ->
    h_items b' = h_items b /\ h_stacks b' = h_stacks b /\ h_bins b' = h_bins b /\ h_objective b' = h_objective b /\ gp_stages p' = gp_stages p /\ gp_cut_type p' = gp_cut_type p /\ gp_costs p' = gp_costs p /\
    gp_first p' = (match f with HSetFirst _ => o | _ => gp_first p end) /\
    gp_min1 p' = (match f with HSetMin1 _ => n | _ => gp_min1 p end) /\ gp_max1 p' = (match f with HSetMax1 _ => n | _ => gp_max1 p end) /\
    gp_min2 p' = (match f with HSetMin2 _ => n | _ => gp_min2 p end) /\ gp_max2 p' = (match f with HSetMax2 _ => n | _ => gp_max2 p end) /\
    gp_min_waste p' = (match f with HSetMinWaste _ => n | _ => gp_min_waste p end) /\
    gp_number1 p' = (match f with HSetNumber1 _ => n | _ => gp_number1 p end) /\ gp_number2 p' = (match f with HSetNumber2 _ => n | _ => gp_number2 p end) /\
    gp_through_defects p' = (match f with HSetThrough _ => v | _ => gp_through_defects p end) /\
    gp_ct p' = (match f with HSetThickness _ => n | _ => gp_ct p end) /\ gp_waste_cost p' = (match f with HSetWasteCost _ => z | _ => gp_waste_cost p end)).
Proof.
  intros b n z v o b' p' p f Hf H ->. simpl in Hf.
  repeat (destruct Hf as [<-|Hf]; [cbn [hstep] in H; injection H as <-; repeat split|]). destruct Hf.
Qed.
Print Assumptions C73_parameter_setters.

(** Bin types with limited copies keep at least one, and their minimum. *)
Theorem C73_bin_minimum : forall o calls b i d t, hrun o calls = Some b -> h_build b = HBuilt i d ->
  (t < length (h_bins b))%nat -> gb_copies (nth t (h_bins b) gdummy_bin) <> -1 ->
  1 <= gb_copies (gbin i t) /\ gb_copies_min (gbin i t) <= gb_copies (gbin i t).
Proof.
  intros o calls b i d t Hb Hi Ht Hc. pose proof (hrun_inv o calls b Hb) as [H1 _].
  destruct (hbuild_holds b i d Hi) as [_ _ _ [_ H5]]. specialize (H5 t Ht). cbv zeta in H5.
  destruct H5 as (_ & _ & _ & E4 & _ & _ & _ & _ & _ & _ & E7).
  destruct (H1 (nth t (h_bins b) gdummy_bin) (nth_In _ _ Ht)) as [_ [K|K] _]; [contradiction|].
  apply Z.eqb_neq in Hc. rewrite Hc in E7. lia.
Qed.
Print Assumptions C73_bin_minimum.

(** ** Trims *)

Definition infinite_dimension (c : HCall) : bool := match c with HBinsInfiniteX | HBinsInfiniteY => true | _ => false end.
Definition all_fit (b : HBuilder) : Prop := forall t, In t (h_bins b) -> trims_fit t.
Definition fkeeps (r : HRes) : Prop := match r with HOk b | HThrow b => all_fit b | HUndef => True end.

Lemma fkeeps_then : forall r f, fkeeps r -> (forall b, all_fit b -> fkeeps (f b)) -> fkeeps (hthen r f).
Proof. intros [b|b|] f H Hf; simpl in *; auto. Qed.
Lemma fkeeps_fold : forall (A : Type) (f : HBuilder -> A -> HRes) (l : list A) r,
  fkeeps r -> (forall b a, all_fit b -> fkeeps (f b a)) -> fkeeps (fold_left (fun r a => hthen r (fun b => f b a)) l r).
Proof. intros A f l. induction l as [|a l IH]; intros r Hr Hf; simpl; [assumption|]. apply IH; [|assumption]. apply fkeeps_then; auto. Qed.

Lemma fdirect_keeps : forall b c, hdirect c = true -> infinite_dimension c = false -> all_fit b -> fkeeps (hstep b c).
Proof.
  intros b c Hd Hi Hb.
  assert (Kbin : forall id f, (forall t, trims_fit t -> trims_fit (f t)) -> fkeeps (hon_bin b id f)).
  { intros id f Hf. unfold hon_bin. destruct (bad_id id _); [exact Hb|]. intros t Ht. apply upd_in in Ht. destruct Ht as [Ht|(x & Hx & ->)]; auto. }
  assert (Kitem : forall id f, fkeeps (hon_item b id f)).
  { intros id f. unfold hon_item. destruct (bad_id id _); exact Hb. }
  assert (Mbin : forall f, (forall t, trims_fit t -> trims_fit (f t)) -> fkeeps (HOk (hset_bins b (map f (h_bins b))))).
  { intros f Hf t Ht. apply in_map_iff in Ht. destruct Ht as (x & <- & Hx). auto. }
  split_call c; try discriminate; cbn [hstep]; try exact Hb; try (apply Kbin; intros t Ht; exact Ht); try (apply Mbin; intros t Ht; exact Ht); try apply Kitem.
  - unfold h_set_fixed. destruct (bad_id _ _); exact Hb.
  - unfold h_set_variable. destruct (bad_id _ _); exact Hb.
  - unfold h_add_bin. destruct (x <=? 0) eqn:E; [exact Hb|]. destruct (y <=? 0) eqn:E1; [exact Hb|]. apply Z.leb_gt in E, E1.
    intros t Ht. apply in_app_or in Ht. destruct Ht as [Ht|[<-|[]]]; [auto|]. unfold trims_fit. cbn. lia.
  - unfold h_set_bin_cost. destruct (bad_id _ _); [exact Hb|]. destruct (_ && _); [exact Hb|]. apply Kbin. intros t Ht. exact Ht.
  - unfold h_add_trims. destruct (bad_id id (h_bins b)) eqn:Eid; [exact Hb|]. cbv zeta.
    repeat match goal with |- context [if ?c <? ?e then _ else _] => destruct (Z.ltb_spec c e); [exact Hb|]
      | |- context [if ?c <=? ?e then _ else _] => destruct (Z.leb_spec c e); [exact Hb|] end.
    unfold hon_bin. rewrite Eid. intros t Ht. cbn [hset_bins h_bins] in Ht. apply In_nth with (d := gdummy_bin) in Ht.
    destruct Ht as (n & Hn & <-). rewrite upd_length in Hn.
    apply bad_id_false in Eid. unfold in_range in Eid. rewrite nth_upd by lia.
    destruct (Nat.eqb (Z.to_nat id) n) eqn:En; [|apply Hb; apply nth_In; exact Hn].
    apply Nat.eqb_eq in En. subst n. unfold trims_fit. cbn. lia.
  - unfold h_add_consumption. destruct (bad_id id (h_bins b)); [exact Hb|].
    destruct (bad_id rid _); [exact Hb|]. destruct (k <? 0); [exact Hb|]. destruct (x <? 0); [exact I|]. apply Kbin. intros t Ht. exact Ht.
  - unfold h_set_bin_copies. destruct (bad_id _ _); [exact Hb|]. destruct (_ && _); [exact Hb|]. apply Kbin. intros t Ht. exact Ht.
  - unfold h_set_bin_copies_min. destruct (bad_id _ _); [exact Hb|]. destruct (n <? 0); [exact Hb|]. destruct (_ && _); [exact Hb|]. apply Kbin. intros t Ht. exact Ht.
  - unfold h_add_item. destruct (x <? 0); [exact Hb|]. destruct (y <? 0); exact Hb.
  - unfold h_set_item_copies. destruct (bad_id _ _); [exact Hb|]. destruct (_ && _); [exact Hb|]. apply Kitem.
  - unfold h_set_item_copies_min. destruct (bad_id _ _); [exact Hb|]. destruct (_ <? -1); [exact Hb|]. apply Kitem.
  - unfold h_items_infinite. destruct (existsb _ _); [exact I|exact Hb].
Qed.

Lemma fstep_keeps : forall b c, infinite_dimension c = false -> all_fit b -> fkeeps (hstep b c).
Proof.
  intros b c Hi Hb. destruct (hdirect c) eqn:Hd; [apply fdirect_keeps; assumption|].
  split_call c; try discriminate; cbn [hstep].
  - unfold h_predefined. destruct (_ =? _)%string; [exact Hb|].
    destruct (_ =? _)%char; [cbn; repeat match goal with |- context [if ?c then _ else _] => destruct c end; exact Hb|].
    destruct (negb _); [exact Hb|]. destruct (_ <=? 1); [exact Hb|]. unfold h_set_stages, h_set_cut_type, hthen.
    repeat match goal with |- context [if ?c then _ else _] => destruct c; try exact Hb end.
  - unfold h_copy_bin. destruct (nth_error _ _) as [t|]; [|exact I].
    apply fkeeps_then; [apply (fdirect_keeps b (HAddBin (gb_w t) (gb_h t))); auto|].
    generalize (length (h_bins b)) as id0. clear b Hb. intros id0 b Hb. cbv zeta.
    apply fkeeps_then; [apply (fdirect_keeps (mkH (h_objective b) (h_params b) (h_items b) (h_stacks b) (h_bins b) _) (HSetBinCost _ _)); auto|].
    clear b Hb. intros b Hb.
    apply fkeeps_then; [apply (fdirect_keeps b (HSetBinCopies _ _)); auto|]. clear b Hb. intros b Hb.
    apply fkeeps_then; [apply (fdirect_keeps b (HSetBinCopiesMin _ _)); auto|]. clear b Hb. intros b Hb.
    apply fkeeps_then; [apply (fdirect_keeps b (HAddTrims _ _ _ _ _)); auto|]. clear b Hb. intros b Hb.
    apply fkeeps_then.
    { apply (fkeeps_fold _ (fun b d => h_add_defect b _ (gd_x d) (gd_y d) (gd_w d) (gd_h d))); [exact Hb|].
      intros b' e Hb'. apply (fdirect_keeps b' (HAddDefect _ _ _ _ _)); auto. }
    clear b Hb. intros b Hb. apply (fkeeps_fold _ (fun b res => h_add_resource b _ (res_capacity res) (res_penalize res) (res_penalty res))); [exact Hb|].
    intros b' e Hb'. apply (fdirect_keeps b' (HAddResource _ _ _ _)); auto.
  - unfold h_copy_item. destruct (nth_error _ _) as [t|]; [|exact I].
    apply fkeeps_then; [apply (fdirect_keeps b (HAddItem _ _ _ _)); auto|].
    generalize (Z.of_nat (length (h_items b))) as zid. clear b Hb. intros zid b Hb.
    apply fkeeps_then; [apply (fdirect_keeps b (HSetItemProfit _ _)); auto|]. clear b Hb. intros b Hb.
    apply fkeeps_then; [apply (fdirect_keeps b (HSetItemCopies _ _)); auto|]. clear b Hb. intros b Hb.
    apply (fkeeps_fold _ (fun b ko => match snd ko with
          | None => HOk b
          | Some sub =>
              match nth_error (gin_bins i) (fst ko) with
              | None => HUndef
              | Some obt => h_copy_resources b (Z.of_nat sub) zid id (gb_resources obt)
              end
          end)); [exact Hb|].
    clear b Hb. intros b [o [sub|]] Hb; simpl; [|exact Hb].
    destruct (nth_error (gin_bins i) o) as [obt|]; [|exact I].
    unfold h_copy_resources.
    apply (fkeeps_fold _ (fun b kres => if (id <? length (res_item_consumptions (snd kres)))%nat
      then h_copy_schedule b (Z.of_nat sub) (fst kres) zid (nth id (res_item_consumptions (snd kres)) [])
      else HOk b)); [exact Hb|].
    clear b Hb. intros b [k res] Hb; simpl.
    destruct (id <? length (res_item_consumptions res))%nat; [|exact Hb].
    unfold h_copy_schedule.
    apply (fkeeps_fold _ (fun b kq => h_add_consumption b (Z.of_nat sub) k zid (fst kq) (snd kq))); [exact Hb|].
    clear b Hb. intros b [c q] Hb; simpl. apply (fdirect_keeps b (HAddConsumption _ _ _ _ _)); auto.
Qed.

(** As long as no infinite dimension is set, the trims of every plate leave a
    part of it. *)
Theorem C73_trims : forall o calls b i d, hrun o calls = Some b -> forallb (fun c => negb (infinite_dimension c)) calls = true ->
  h_build b = HBuilt i d -> forall t, In t (gin_bins i) -> trims_fit t /\ 0 < usable_area t.
Proof.
  intros o calls b i d Hb Hc Hi t Ht.
  assert (A : all_fit b).
  { clear i d Hi t Ht. revert b Hb. unfold hrun. induction calls as [|c calls IH] using rev_ind; intros b H.
    - injection H as <-. intros t [].
    - rewrite forallb_app in Hc. cbn in Hc. rewrite !andb_true_iff, negb_true_iff in Hc. destruct Hc as (Hc & Hc1 & _).
      rewrite hrun_snoc in H. destruct (hrun_from _ calls) as [b0|]; [|discriminate].
      pose proof (fstep_keeps b0 c Hc1 (IH Hc b0 eq_refl)) as K.
      destruct (hstep b0 c); simpl in K; try discriminate; injection H as <-; assumption. }
  destruct (gin_bins_in b i d Hi t Ht) as (x & Hx & ->). rewrite (hbins_nth b i d Hi x Hx).
  specialize (A _ (nth_In (h_bins b) gdummy_bin Hx)). split; [exact A|]. unfold trims_fit in A. unfold usable_area. cbn. nia.
Qed.
Print Assumptions C73_trims.

(** ** Parameters *)

Lemma resize_costs : forall p, costs_for_cuts (hresize_costs p) /\ firstn (length (gp_costs p)) (gp_costs (hresize_costs p)) = gp_costs p.
Proof.
  intro p. unfold hresize_costs, costs_for_cuts. fold (hrequired_costs p).
  destruct (Z.ltb_spec (Z.of_nat (length (gp_costs p))) (hrequired_costs p)) as [L|L].
  - split.
    + change (hrequired_costs p <= Z.of_nat (length (grow (Z.to_nat (hrequired_costs p)) (mkGCC 0 0) (gp_costs p)))).
      unfold grow. rewrite app_length, repeat_length. lia.
    + cbn [gp_costs gp_with_costs]. unfold grow. rewrite firstn_app, Nat.sub_diag, firstn_all. cbn. apply app_nil_r.
  - split; [exact L|apply firstn_all].
Qed.

(** Calls on the bin and item types. *)
Definition on_types (c : HCall) : bool :=
  match c with
  | HAddBin _ _ | HSetBinCost _ _ | HAddTrims _ _ _ _ _ | HAddDefect _ _ _ _ _ | HAddResource _ _ _ _ | HAddConsumption _ _ _ _ _
  | HSetBinCopies _ _ | HSetBinCopiesMin _ _ | HBinsInfiniteX | HBinsInfiniteY | HBinsInfinite | HBinsUnweighted | HAddItem _ _ _ _
  | HSetItemProfit _ _ | HSetItemCopies _ _ | HSetItemCopiesMin _ _ | HItemsUnweighted | HItemsOriented _ | HItemsInfinite | HMultiply _
  | HCopyBin _ _ | HCopyItem _ _ => true
  | _ => false
  end.

Definition same_settings (b : HBuilder) (r : HRes) : Prop :=
  match r with HOk b' | HThrow b' => h_params b' = h_params b /\ h_objective b' = h_objective b | HUndef => True end.
Lemma settings_then : forall b r f, same_settings b r -> (forall c, same_settings c (f c)) -> same_settings b (hthen r f).
Proof.
  intros b [c|c|] f H Hf; cbn in *; auto. specialize (Hf c). destruct H as [H1 H2]. destruct (f c); cbn in *; try exact I; destruct Hf; split; congruence.
Qed.
Lemma settings_fold : forall b (A : Type) (f : HBuilder -> A -> HRes) (l : list A) r,
  same_settings b r -> (forall c a, same_settings c (f c a)) -> same_settings b (fold_left (fun r a => hthen r (fun b => f b a)) l r).
Proof. intros b A f l. induction l as [|a l IH]; intros r Hr Hf; simpl; [assumption|]. apply IH; [|assumption]. apply settings_then; auto. Qed.

Lemma settings_direct : forall b c, hdirect c = true -> on_types c = true -> same_settings b (hstep b c).
Proof.
  intros b c Hd Ht. assert (R : h_params b = h_params b /\ h_objective b = h_objective b) by auto.
  split_call c; try discriminate; cbn [hstep];
  unfold h_add_bin, h_set_bin_cost, h_add_trims, h_add_defect, h_add_resource, h_add_consumption, h_set_bin_copies, h_set_bin_copies_min,
    h_bins_infinite_x, h_bins_infinite_y, h_bins_infinite, h_bins_unweighted, h_add_item, h_set_item_profit, h_set_item_copies, h_set_item_copies_min,
    h_items_unweighted, h_items_oriented, h_items_infinite, h_multiply, hon_bin, hon_item; cbv zeta;
  repeat match goal with |- same_settings _ (if ?c then _ else _) => destruct c end; try exact R; exact I.
Qed.

Lemma settings_types : forall b c, on_types c = true -> same_settings b (hstep b c).
Proof.
  intros b c Ht. destruct (hdirect c) eqn:Hd; [apply settings_direct; assumption|].
  split_call c; try discriminate; cbn [hstep].
  - unfold h_copy_bin. destruct (nth_error _ _) as [t|]; [|exact I].
    apply settings_then; [apply (settings_direct b (HAddBin (gb_w t) (gb_h t))); auto|].
    generalize (length (h_bins b)) as id0. clear b. intros id0 b. cbv zeta.
    apply settings_then; [apply (settings_direct (mkH (h_objective b) (h_params b) (h_items b) (h_stacks b) (h_bins b) _) (HSetBinCost _ _)); auto|].
    clear b. intros b.
    apply settings_then; [apply (settings_direct b (HSetBinCopies _ _)); auto|]. clear b. intros b.
    apply settings_then; [apply (settings_direct b (HSetBinCopiesMin _ _)); auto|]. clear b. intros b.
    apply settings_then; [apply (settings_direct b (HAddTrims _ _ _ _ _)); auto|]. clear b. intros b.
    apply settings_then.
    { apply (settings_fold b _ (fun b d => h_add_defect b _ (gd_x d) (gd_y d) (gd_w d) (gd_h d))); [split; reflexivity|].
      intros b' e. apply (settings_direct b' (HAddDefect _ _ _ _ _)); auto. }
    clear b. intros b. apply (settings_fold b _ (fun b res => h_add_resource b _ (res_capacity res) (res_penalize res) (res_penalty res))); [split; reflexivity|].
    intros b' e. apply (settings_direct b' (HAddResource _ _ _ _)); auto.
  - unfold h_copy_item. destruct (nth_error _ _) as [t|]; [|exact I].
    apply settings_then; [apply (settings_direct b (HAddItem _ _ _ _)); auto|].
    generalize (Z.of_nat (length (h_items b))) as zid. clear b. intros zid b.
    apply settings_then; [apply (settings_direct b (HSetItemProfit _ _)); auto|]. clear b. intros b.
    apply settings_then; [apply (settings_direct b (HSetItemCopies _ _)); auto|]. clear b. intros b.
    apply (settings_fold b _ (fun b ko => match snd ko with
          | None => HOk b
          | Some sub =>
              match nth_error (gin_bins i) (fst ko) with
              | None => HUndef
              | Some obt => h_copy_resources b (Z.of_nat sub) zid id (gb_resources obt)
              end
          end)); [split; reflexivity|].
    clear b. intros b [o [sub|]]; simpl; [|split; reflexivity].
    destruct (nth_error (gin_bins i) o) as [obt|]; [|exact I].
    unfold h_copy_resources.
    apply (settings_fold b _ (fun b kres => if (id <? length (res_item_consumptions (snd kres)))%nat
      then h_copy_schedule b (Z.of_nat sub) (fst kres) zid (nth id (res_item_consumptions (snd kres)) [])
      else HOk b)); [split; reflexivity|].
    clear b. intros b [k res]; simpl.
    destruct (id <? length (res_item_consumptions res))%nat; [|split; reflexivity].
    unfold h_copy_schedule.
    apply (settings_fold b _ (fun b kq => h_add_consumption b (Z.of_nat sub) k zid (fst kq) (snd kq))); [split; reflexivity|].
    clear b. intros b [c q]; simpl. apply (settings_direct b (HAddConsumption _ _ _ _ _)); auto.
Qed.

Lemma predefined_costs : forall b s b', (h_predefined b s = HOk b' \/ h_predefined b s = HThrow b') ->
  (costs_for_cuts (h_params b) -> costs_for_cuts (h_params b')) /\ firstn (length (gp_costs (h_params b))) (gp_costs (h_params b')) = gp_costs (h_params b).
Proof.
  intros b s b' H.
  assert (Self : (costs_for_cuts (h_params b) -> costs_for_cuts (h_params b)) /\ firstn (length (gp_costs (h_params b))) (gp_costs (h_params b)) = gp_costs (h_params b)) by (split; [auto|apply firstn_all]).
  unfold h_predefined in H. destruct (_ =? _)%string.
  { destruct H as [H|H]; [|discriminate]. injection H as <-. cbn [h_params hset_params].
    match goal with |- context [hresize_costs ?p] => pose proof (resize_costs p) as [R1 R2] end. split; [intros _; exact R1|exact R2]. }
  destruct (_ =? _)%char.
  { unfold h_stages_unlimited in H. cbn [hthen] in H.
    match type of H with context [hresize_costs ?p] => pose proof (resize_costs p) as [R1 R2] end.
    repeat match type of H with context [if ?c then _ else _] => destruct c end; (destruct H as [H|H]; try discriminate; injection H as <-); (split; [intros _; exact R1|exact R2]). }
  destruct (negb _); [destruct H as [H|H]; [discriminate|injection H as <-; exact Self]|].
  destruct (_ <=? 1); [destruct H as [H|H]; [discriminate|injection H as <-; exact Self]|].
  unfold h_set_stages at 1 2 in H. cbn [hthen] in H.
  set (b1 := hset_params b _) in H.
  assert (K1 : costs_for_cuts (h_params b1) /\ firstn (length (gp_costs (h_params b))) (gp_costs (h_params b1)) = gp_costs (h_params b)).
  { unfold b1. cbn [h_params hset_params]. match goal with |- context [hresize_costs ?p] => pose proof (resize_costs p) as [R1 R2] end. split; [exact R1|exact R2]. }
  clearbody b1.
  assert (K2 : forall ct, let p := hresize_costs (gp_with_cut_type ct (h_params b1)) in costs_for_cuts p /\ firstn (length (gp_costs (h_params b))) (gp_costs p) = gp_costs (h_params b)).
  { intros ct p. pose proof (resize_costs (gp_with_cut_type ct (h_params b1))) as [R1 R2]. split; [exact R1|]. destruct K1 as [_ K1]. fold p in R2. cbn [gp_costs gp_with_cut_type] in R2.
    assert (L : (length (gp_costs (h_params b)) <= length (gp_costs (h_params b1)))%nat) by (rewrite <- K1; rewrite firstn_length; lia).
    transitivity (firstn (length (gp_costs (h_params b))) (gp_costs (h_params b1))); [|exact K1].
    transitivity (firstn (length (gp_costs (h_params b))) (firstn (length (gp_costs (h_params b1))) (gp_costs p))); [rewrite firstn_firstn; f_equal; lia|rewrite R2; reflexivity]. }
  unfold h_set_cut_type, hthen in H.
  repeat match type of H with context [if ?c then _ else _] => destruct c end; (destruct H as [H|H]; try discriminate; injection H as <-);
    try (split; [intros _; apply K1|apply K1]); try (split; [intros _; apply (K2 GRoadef2018)|apply (K2 GRoadef2018)]); try (split; [intros _; apply (K2 GNonExact)|apply (K2 GNonExact)]);
    try (split; [intros _; apply (K2 GExact)|apply (K2 GExact)]); try (split; [intros _; apply (K2 GHomogenous)|apply (K2 GHomogenous)]).
Qed.

(** Cutting costs: after a call that sets the stages or the cut type there is a
    cost for the bin and for each kind of cut; no call but set_parameters takes
    a cost away; and the costs entered before are changed only by the setter
    of the costs, at the stage it names. *)
Theorem C73_cutting_costs : forall b c b', (hstep b c = HOk b' \/ hstep b c = HThrow b') -> (forall p, c <> HSetParams p) ->
  (sets_stages c = true \/ costs_for_cuts (h_params b) -> costs_for_cuts (h_params b')) /\
  (length (gp_costs (h_params b)) <= length (gp_costs (h_params b')))%nat /\
  forall k, (k < length (gp_costs (h_params b)))%nat ->
    nth k (gp_costs (h_params b')) (mkGCC 0 0) =
    match c with
    | HSetFixed s v => if s =? Z.of_nat k then mkGCC v (gcc_variable (nth k (gp_costs (h_params b)) (mkGCC 0 0))) else nth k (gp_costs (h_params b)) (mkGCC 0 0)
    | HSetVariable s v => if s =? Z.of_nat k then mkGCC (gcc_fixed (nth k (gp_costs (h_params b)) (mkGCC 0 0))) v else nth k (gp_costs (h_params b)) (mkGCC 0 0)
    | _ => nth k (gp_costs (h_params b)) (mkGCC 0 0)
    end.
Proof.
  intros b c b' H Hp.
  assert (Fin : forall p, firstn (length (gp_costs (h_params b))) (gp_costs p) = gp_costs (h_params b) ->
    (length (gp_costs (h_params b)) <= length (gp_costs p))%nat /\ forall k, (k < length (gp_costs (h_params b)))%nat -> nth k (gp_costs p) (mkGCC 0 0) = nth k (gp_costs (h_params b)) (mkGCC 0 0)).
  { intros p E. split; [rewrite <- E, firstn_length; lia|]. intros k Hk.
    transitivity (nth k (firstn (length (gp_costs (h_params b))) (gp_costs p)) (mkGCC 0 0)); [|rewrite E; reflexivity].
    rewrite <- (firstn_skipn (length (gp_costs (h_params b))) (gp_costs p)) at 1. rewrite app_nth1; [reflexivity|]. rewrite E. exact Hk. }
  assert (Same : h_params b' = h_params b -> sets_stages c = false -> (sets_stages c = true \/ costs_for_cuts (h_params b) -> costs_for_cuts (h_params b')) /\
    (length (gp_costs (h_params b)) <= length (gp_costs (h_params b')))%nat /\
    forall k, (k < length (gp_costs (h_params b)))%nat -> nth k (gp_costs (h_params b')) (mkGCC 0 0) = nth k (gp_costs (h_params b)) (mkGCC 0 0)).
  { intros -> E. rewrite E. split; [intros [A|A]; [discriminate|exact A]|]. auto. }
  assert (Sized : forall p, gp_costs p = gp_costs (h_params b) -> h_params b' = hresize_costs p -> (sets_stages c = true \/ costs_for_cuts (h_params b) -> costs_for_cuts (h_params b')) /\
    (length (gp_costs (h_params b)) <= length (gp_costs (h_params b')))%nat /\
    forall k, (k < length (gp_costs (h_params b)))%nat -> nth k (gp_costs (h_params b')) (mkGCC 0 0) = nth k (gp_costs (h_params b)) (mkGCC 0 0)).
  { intros p E ->. destruct (resize_costs p) as [R1 R2]. rewrite E in R2. split; [intros _; exact R1|]. apply Fin. exact R2. }
  destruct (on_types c) eqn:T.
  { pose proof (settings_types b c T) as K.
    assert (E : h_params b' = h_params b) by (destruct H as [H|H]; rewrite H in K; apply K).
    destruct (Same E) as (S1 & S2 & S3); [split_call c; try discriminate; reflexivity|]. split; [exact S1|]. split; [exact S2|].
    split_call c; try discriminate; exact S3. }
  split_call c; try discriminate; try (exfalso; eapply Hp; reflexivity); cbn [hstep] in H;
    try (destruct H as [H|H]; [|discriminate]; injection H as <-; apply Same; reflexivity);
    try (destruct H as [H|H]; [|discriminate]; injection H as <-; split; [intros [A|A]; [discriminate|exact A]|]; split; [reflexivity|]; intros; reflexivity);
    try (destruct H as [H|H]; [|discriminate]; injection H as <-; eapply Sized; [|reflexivity]; reflexivity).
  - unfold h_set_fixed in H. destruct (bad_id s _) eqn:E.
    + destruct H as [H|H]; [discriminate|]. injection H as <-. split; [intros [A|A]; [discriminate|exact A]|]. split; [auto|]. intros k Hk.
      apply bad_id_true in E. unfold in_range in E. destruct (Z.eqb_spec s (Z.of_nat k)); [lia|reflexivity].
    + destruct H as [H|H]; [|discriminate]. injection H as <-. apply bad_id_false in E. unfold in_range in E. unfold costs_for_cuts. cbn [h_params hset_params gp_costs gp_with_costs gp_stages gp_cut_type].
      rewrite upd_length. split; [intros [A|A]; [discriminate|exact A]|]. split; [auto|]. intros k Hk. rewrite nth_upd by lia.
      destruct (Nat.eqb_spec (Z.to_nat s) k), (Z.eqb_spec s (Z.of_nat k)); try lia; reflexivity.
  - unfold h_set_variable in H. destruct (bad_id s _) eqn:E.
    + destruct H as [H|H]; [discriminate|]. injection H as <-. split; [intros [A|A]; [discriminate|exact A]|]. split; [auto|]. intros k Hk.
      apply bad_id_true in E. unfold in_range in E. destruct (Z.eqb_spec s (Z.of_nat k)); [lia|reflexivity].
    + destruct H as [H|H]; [|discriminate]. injection H as <-. apply bad_id_false in E. unfold in_range in E. unfold costs_for_cuts. cbn [h_params hset_params gp_costs gp_with_costs gp_stages gp_cut_type].
      rewrite upd_length. split; [intros [A|A]; [discriminate|exact A]|]. split; [auto|]. intros k Hk. rewrite nth_upd by lia.
      destruct (Nat.eqb_spec (Z.to_nat s) k), (Z.eqb_spec s (Z.of_nat k)); try lia; reflexivity.
  - destruct (predefined_costs b str b' H) as [P1 P2]. split; [intros [A|A]; [discriminate|apply P1, A]|]. apply Fin. exact P2.
Qed.
Print Assumptions C73_cutting_costs.

(** The strings of set_predefined, as documented. *)
Theorem C73_predefined : forall b,
  (exists b', hstep b (HPredefined "roadef2018") = HOk b' /\ h_items b' = h_items b /\ let p := h_params b' in
     gp_stages p = 3 /\ gp_cut_type p = GRoadef2018 /\ gp_first p = GVertical /\ gp_min1 p = 100 /\ gp_max1 p = 3500 /\ gp_min2 p = 100 /\
     gp_max2 p = gp_max2 (h_params b) /\ gp_min_waste p = 20 /\ gp_through_defects p = false) /\
  (forall c ori rest, orientation_of c = Some ori -> exists b', hstep b (HPredefined (String "U" (String c rest))) = HOk b' /\
     map gi_oriented (h_items b') = map (fun _ => ori) (h_items b) /\ let p := h_params b' in
     (forall t, In t (h_bins b) -> gb_w t + gb_h t <= gp_stages p) /\ gp_cut_type p = GExact /\ gp_first p = GAny /\
     gp_min1 p = gp_min1 (h_params b) /\ gp_max1 p = gp_max1 (h_params b) /\ gp_min2 p = gp_min2 (h_params b) /\ gp_max2 p = gp_max2 (h_params b)) /\
  (forall n c1 c2 c3 ct fo ori, 2 <= Z.of_nat n <= 9 -> cut_type_of c1 = Some ct -> first_of c2 = Some fo -> orientation_of c3 = Some ori ->
     exists b', hstep b (HPredefined (String (ascii_of_nat (48 + n)) (String c1 (String c2 (String c3 EmptyString))))) = HOk b' /\
     map gi_oriented (h_items b') = map (fun _ => ori) (h_items b) /\ let p := h_params b' in
     gp_stages p = Z.of_nat n /\ gp_cut_type p = ct /\ gp_first p = fo /\
     gp_min1 p = gp_min1 (h_params b) /\ gp_max1 p = gp_max1 (h_params b) /\ gp_min2 p = gp_min2 (h_params b) /\ gp_max2 p = gp_max2 (h_params b)).
Proof.
  intro b.
  assert (RS : forall p, gp_stages (hresize_costs p) = gp_stages p /\ gp_cut_type (hresize_costs p) = gp_cut_type p /\ gp_first (hresize_costs p) = gp_first p /\
    gp_min1 (hresize_costs p) = gp_min1 p /\ gp_max1 (hresize_costs p) = gp_max1 p /\ gp_min2 (hresize_costs p) = gp_min2 p /\ gp_max2 (hresize_costs p) = gp_max2 p /\
    gp_min_waste (hresize_costs p) = gp_min_waste p /\ gp_through_defects (hresize_costs p) = gp_through_defects p).
  { intro p. unfold hresize_costs. destruct (_ <? _); auto 20. }
  split; [|split].
  - eexists. split; [reflexivity|]. split; [reflexivity|]. cbn [h_params hset_params]. cbv zeta.
    match goal with |- context [hresize_costs ?p] => destruct (RS p) as (-> & -> & -> & -> & -> & -> & -> & -> & ->) end. repeat split.
  - intros c ori rest Ho. cbn [hstep]. unfold h_predefined. change (String "U" (String c rest) =? "roadef2018")%string with false. cbv iota.
    change (hchar (String "U" (String c rest)) 0) with "U"%char. change (hchar (String "U" (String c rest)) 1) with c. cbn [Ascii.eqb Bool.eqb]. unfold h_stages_unlimited. cbn [hthen].
    assert (M : forall l m, m <= fold_left (fun m t => Z.max m (gb_w t + gb_h t)) l m /\ forall t, In t l -> gb_w t + gb_h t <= fold_left (fun m t => Z.max m (gb_w t + gb_h t)) l m).
    { induction l as [|u l IH]; intro m; cbn [fold_left]; [split; [lia|intros t []]|]. destruct (IH (Z.max m (gb_w u + gb_h u))) as [A1 A2]. split; [lia|]. intros t [<-|Ht]; [lia|apply A2, Ht]. }
    unfold orientation_of in Ho. destruct (c =? "R")%char; [|destruct (c =? "O")%char; [|discriminate]]; injection Ho as <-;
      (eexists; split; [reflexivity|]; split; [cbn; rewrite map_map; reflexivity|]; cbn [h_params hset_params h_items_oriented hset_items]; cbv zeta;
       match goal with |- context [hresize_costs ?p] => destruct (RS p) as (-> & -> & -> & -> & -> & -> & -> & _ & _) end; split; [apply (M (h_bins b) 0)|repeat split]).
  - intros n c1 c2 c3 ct fo ori Hn H1 H2 H3. cbn [hstep]. unfold h_predefined.
    set (s := String (ascii_of_nat (48 + n)) (String c1 (String c2 (String c3 EmptyString)))).
    assert (E1 : (s =? "roadef2018")%string = false) by (assert (n = 2 \/ n = 3 \/ n = 4 \/ n = 5 \/ n = 6 \/ n = 7 \/ n = 8 \/ n = 9)%nat as C by lia; unfold s; destruct C as [->|[->|[->|[->|[->|[->|[->| ->]]]]]]]; reflexivity).
    assert (E2 : (hchar s 0 =? "U")%char = false) by (assert (n = 2 \/ n = 3 \/ n = 4 \/ n = 5 \/ n = 6 \/ n = 7 \/ n = 8 \/ n = 9)%nat as C by lia; unfold s; destruct C as [->|[->|[->|[->|[->|[->|[->| ->]]]]]]]; reflexivity).
    assert (E3 : hdigit (hchar s 0) = Z.of_nat n) by (assert (n = 2 \/ n = 3 \/ n = 4 \/ n = 5 \/ n = 6 \/ n = 7 \/ n = 8 \/ n = 9)%nat as C by lia; unfold s; destruct C as [->|[->|[->|[->|[->|[->|[->| ->]]]]]]]; reflexivity).
    rewrite E1, E2, E3. change (String.length s =? 4)%nat with true. cbn [negb].
    replace (Z.of_nat n <=? 1) with false by (symmetry; apply Z.leb_gt; lia).
    change (hchar s 1) with c1. change (hchar s 2) with c2. change (hchar s 3) with c3. unfold h_set_stages, h_set_cut_type.
    unfold cut_type_of in H1. unfold first_of in H2. unfold orientation_of in H3.
    assert (Fin : exists b', h_items_oriented (hset_params (hset_params (hset_params b (hresize_costs (gp_with_stages (Z.of_nat n) (h_params b)))) (hresize_costs (gp_with_cut_type ct (hresize_costs (gp_with_stages (Z.of_nat n) (h_params b))))))
       (gp_with_first fo (hresize_costs (gp_with_cut_type ct (hresize_costs (gp_with_stages (Z.of_nat n) (h_params b))))))) ori = HOk b' /\
       map gi_oriented (h_items b') = map (fun _ => ori) (h_items b) /\ let p := h_params b' in
       gp_stages p = Z.of_nat n /\ gp_cut_type p = ct /\ gp_first p = fo /\
       gp_min1 p = gp_min1 (h_params b) /\ gp_max1 p = gp_max1 (h_params b) /\ gp_min2 p = gp_min2 (h_params b) /\ gp_max2 p = gp_max2 (h_params b)).
    { eexists. split; [reflexivity|]. split; [cbn; rewrite map_map; reflexivity|]. cbn [h_params hset_params hset_items]. cbv zeta.
      cbn [gp_stages gp_cut_type gp_first gp_min1 gp_max1 gp_min2 gp_max2 gp_with_first].
      match goal with |- context [hresize_costs (gp_with_cut_type ct ?q)] => destruct (RS (gp_with_cut_type ct q)) as (-> & -> & _ & -> & -> & -> & -> & _ & _) end.
      cbn [gp_stages gp_cut_type gp_first gp_min1 gp_max1 gp_min2 gp_max2 gp_with_cut_type].
      match goal with |- context [hresize_costs ?q] => destruct (RS q) as (-> & _ & _ & -> & -> & -> & -> & _ & _) end. repeat split. }
    destruct (c1 =? "R")%char; [|destruct (c1 =? "N")%char; [|destruct (c1 =? "E")%char; [|destruct (c1 =? "H")%char; [|discriminate]]]]; injection H1 as <-;
    (destruct (c2 =? "V")%char; [|destruct (c2 =? "H")%char; [|destruct (c2 =? "A")%char; [|discriminate]]]; injection H2 as <-);
    (destruct (c3 =? "R")%char; [|destruct (c3 =? "O")%char; [|discriminate]]; injection H3 as <-); exact Fin.
Qed.
Print Assumptions C73_predefined.

(** ** Infinite copies *)

Lemma harea_max_spec : forall l m, m <= fold_left (fun m t => Z.max m (gb_area t)) l m /\ (forall u, In u l -> gb_area u <= fold_left (fun m t => Z.max m (gb_area t)) l m)
  /\ (fold_left (fun m t => Z.max m (gb_area t)) l m = m \/ exists u, In u l /\ gb_area u = fold_left (fun m t => Z.max m (gb_area t)) l m).
Proof.
  induction l as [|v l IH]; intro m; cbn [fold_left]; [split; [lia|]; split; [intros u []|auto]|]. destruct (IH (Z.max m (gb_area v))) as (A1 & A2 & A3).
  split; [lia|]. split; [intros u [<-|Hu]; [lia|apply A2, Hu]|]. destruct A3 as [A3|(u & Hu & A3)]; [|right; exists u; split; [right; exact Hu|exact A3]].
  destruct (Z.max_spec m (gb_area v)) as [[B1 B2]|[B1 B2]]; [right; exists v; split; [left; reflexivity|congruence]|left; congruence].
Qed.
Lemma gb_area_usable : forall t, gb_area t = usable_area t.
Proof. intro t. unfold gb_area, usable_area. ring. Qed.

Lemma infinite_enough : forall m a n, 0 < m -> 0 < a -> (Z.quot (m - 1) a + 1 <= n <-> m <= n * a).
Proof.
  intros m a n Hm Ha. rewrite Z.quot_div_nonneg by lia. pose proof (Z.div_mod (m - 1) a ltac:(lia)). pose proof (Z.mod_pos_bound (m - 1) a Ha). split; intro; nia.
Qed.

(** The attribute "all item types have infinite copies" holds exactly when the
    copies of each item type fill each plate (if a plate has an area at all). *)
Theorem C73_all_infinite : forall o calls b i d, hrun o calls = Some b -> h_build b = HBuilt i d ->
  (exists t, In t (gin_bins i) /\ 0 < usable_area t) -> (hd_all_infinite d = true <-> fills_plates i).
Proof.
  intros o calls b i d Hb Hi (t0 & Ht0 & P0). destruct (C73_built o calls b i d Hb Hi) as (_ & [W _] & [_ _ _ [LB HB]]).
  destruct (hbuild_eq b i d Hi) as (sids & spos & offsets & fl & _ & _ & _ & _ & _ & _ & _ & _ & _ & _ & Ed).
  assert (EA : hd_all_infinite d = forallb (fun t => negb (gi_copies t <? hinfinite_copies (harea_max (h_bins b)) t)) (map (hresolve_min (h_objective b)) (h_items b))) by (rewrite Ed; reflexivity).
  rewrite EA, forallb_forall. destruct (harea_max_spec (h_bins b) 0) as (A1 & A2 & A3). fold (harea_max (h_bins b)) in *. set (m := harea_max (h_bins b)) in *.
  assert (Hbins : forall x, (x < length (h_bins b))%nat -> usable_area (gbin i x) = gb_area (nth x (h_bins b) gdummy_bin)).
  { intros x Hx. rewrite (hbins_nth b i d Hi x Hx). rewrite gb_area_usable. reflexivity. }
  assert (Hm : 0 < m).
  { destruct (gin_bins_in b i d Hi t0 Ht0) as (x & Hx & ->). rewrite (Hbins x Hx) in P0. specialize (A2 _ (nth_In _ gdummy_bin Hx)). lia. }
  pose proof (gin_map_items b i d Hi _ (fun t => (gi_copies t, gi_w t, gi_h t)) (fun _ _ _ _ => eq_refl)) as GM.
  split.
  - intros H t x Ht Hx. destruct (proj1 (GM _) (ex_intro _ x (conj Hx eq_refl))) as (u & Hu & Eu). injection Eu as E1 E2 E3.
    specialize (H u Hu). apply negb_true_iff, Z.ltb_ge in H. unfold hinfinite_copies, gi_area in H. rewrite E1, E2, E3 in H. destruct (W x Hx) as (W1 & W2 & _).
    apply infinite_enough in H; [|exact Hm|nia]. destruct (gin_bins_in b i d Hi t Ht) as (y & Hy & ->). rewrite (Hbins y Hy). specialize (A2 _ (nth_In _ gdummy_bin Hy)). lia.
  - intros H u Hu. destruct (proj2 (GM _) (ex_intro _ u (conj Hu eq_refl))) as (x & Hx & Ex). injection Ex as E1 E2 E3. destruct (W x Hx) as (W1 & W2 & _).
    apply negb_true_iff, Z.ltb_ge. unfold hinfinite_copies, gi_area. rewrite <- E1, <- E2, <- E3. apply infinite_enough; [exact Hm|nia|].
    destruct A3 as [A3|(t & Ht & A3)]; [lia|]. apply In_nth with (d := gdummy_bin) in Ht. destruct Ht as (y & Hy & <-). rewrite <- A3, <- (Hbins y Hy).
    apply H; [|exact Hx]. unfold gbin. apply nth_In. rewrite LB. exact Hy.
Qed.
Print Assumptions C73_all_infinite.

(** Unlimited copies of item types: as many as needed to fill the largest plate. *)
Theorem C73_infinite_copies : forall b b', hstep b HItemsInfinite = HOk b' ->
  length (h_items b') = length (h_items b) /\
  forall x, (x < length (h_items b))%nat -> let t := nth x (h_items b) gdummy_item in let n := gi_copies (nth x (h_items b') gdummy_item) in
    0 < gi_w t * gi_h t ->
    (forall bt, In bt (h_bins b) -> usable_area bt <= n * (gi_w t * gi_h t)) /\
    ((exists bt, In bt (h_bins b) /\ 0 < usable_area bt) -> exists bt, In bt (h_bins b) /\ (n - 1) * (gi_w t * gi_h t) < usable_area bt).
Proof.
  intros b b' H. cbn in H. unfold h_items_infinite in H. destruct (existsb _ _); [discriminate|]. injection H as <-. split; [cbn; apply map_length|].
  intros x Hx t n Ht. assert (En : n = hinfinite_copies (harea_max (h_bins b)) t).
  { unfold n. cbn [h_items hset_items]. rewrite (nth_indep _ gdummy_item ((fun t => gi_with_copies (hinfinite_copies (harea_max (h_bins b)) t) t) gdummy_item)) by (rewrite map_length; exact Hx).
    rewrite (map_nth (fun t => gi_with_copies (hinfinite_copies (harea_max (h_bins b)) t) t)). reflexivity. }
  destruct (harea_max_spec (h_bins b) 0) as (A1 & A2 & A3). fold (harea_max (h_bins b)) in *. unfold hinfinite_copies in En. change (gi_area t) with (gi_w t * gi_h t) in En.
  set (a := gi_w t * gi_h t) in *. set (m := harea_max (h_bins b)) in *.
  destruct (Z.eq_dec m 0) as [E|E].
  - split; [intros bt Hbt; specialize (A2 bt Hbt); rewrite gb_area_usable in A2|intros (bt & Hbt & P); specialize (A2 bt Hbt); rewrite gb_area_usable in A2; lia].
    assert (0 <= n); [|nia]. subst n. rewrite E in *. rewrite En. change (0 - 1) with (- (1)). destruct (Z.eq_dec a 1) as [->|]; [cbn; lia|]. rewrite (Z.quot_opp_l 1 a) by lia. rewrite Z.quot_small by lia. lia.
  - assert (0 < m) by lia. rewrite Z.quot_div_nonneg in En by lia. pose proof (Z.div_mod (m - 1) a ltac:(lia)). pose proof (Z.mod_pos_bound (m - 1) a Ht).
    split; [intros bt Hbt; specialize (A2 bt Hbt); rewrite gb_area_usable in A2; nia|]. intros _. destruct A3 as [A3|(bt & Hbt & A3)]; [contradiction|]. exists bt. split; [exact Hbt|]. rewrite gb_area_usable in A3. nia.
Qed.
Print Assumptions C73_infinite_copies.

(** An infinite dimension is large enough for all the items side by side on a
    plate without trims, whatever their orientations; the other dimension and
    the trims do not change. *)
Theorem C73_infinite_dimension : forall b b1 b2, (forall t, In t (h_items b) -> 0 <= gi_copies t) ->
  hstep b HBinsInfiniteX = HOk b1 -> hstep b HBinsInfiniteY = HOk b2 ->
  (forall t, In t (h_bins b1) ->
    zsum (fun it => gi_copies it * gi_w it) (h_items b) <= gb_w t /\ zsum (fun it => gi_copies it * gi_h it) (h_items b) <= gb_w t) /\
  (forall t, In t (h_bins b2) ->
    zsum (fun it => gi_copies it * gi_w it) (h_items b) <= gb_h t /\ zsum (fun it => gi_copies it * gi_h it) (h_items b) <= gb_h t) /\
  map gb_h (h_bins b1) = map gb_h (h_bins b) /\ map gb_w (h_bins b2) = map gb_w (h_bins b) /\
  map gb_left (h_bins b1) = map gb_left (h_bins b) /\ map gb_right (h_bins b1) = map gb_right (h_bins b) /\
  map gb_bottom (h_bins b2) = map gb_bottom (h_bins b) /\ map gb_top (h_bins b2) = map gb_top (h_bins b).
Proof.
  intros b b1 b2 Hc H1 H2. cbn in H1, H2. unfold h_bins_infinite_x in H1. unfold h_bins_infinite_y in H2. injection H1 as <-. injection H2 as <-. simpl.
  split; [|split; [|rewrite !map_map; repeat split; reflexivity]]; intros t Ht;
  (apply in_map_iff in Ht; destruct Ht as (u & <- & _); simpl; unfold hmax_length_sum;
   rewrite (fold_sum _ (fun it => gi_copies it * Z.max (gi_w it) (gi_h it)));
   split; (rewrite Z.add_0_l; apply zsum_le; intros it Hit; specialize (Hc it Hit); nia)).
Qed.
Print Assumptions C73_infinite_dimension.

(** ** Copies of the types of another instance *)

Lemma hlast_upd : forall {A} (f : A -> A) (l : list A) a, upd (length l) f (l ++ [a]) = l ++ [f a].
Proof. intros A f l a. induction l as [|b l IH]; cbn; [reflexivity|]. f_equal. exact IH. Qed.
Lemma hlast_ok : forall {A} (l : list A) a, bad_id (Z.of_nat (length l)) (l ++ [a]) = false.
Proof. intros A l a. unfold bad_id. rewrite app_length. cbn. apply orb_false_iff. split; [apply Z.ltb_ge; lia|apply Z.leb_gt; lia]. Qed.
Lemma hthen_ok : forall r f b', hthen r f = HOk b' -> exists b, r = HOk b /\ f b = HOk b'.
Proof. intros r f b' H. destruct r as [b|b|]; cbn in H; [exists b; auto|discriminate|discriminate]. Qed.
Lemma hon_last_item : forall b items t g b', h_items b = items ++ [t] -> hon_item b (Z.of_nat (length items)) g = HOk b' ->
  h_items b' = items ++ [g t] /\ h_stacks b' = h_stacks b.
Proof. intros b items t g b' Hb H. unfold hon_item in H. rewrite Hb, hlast_ok in H. injection H as <-. cbn. rewrite Nat2Z.id, hlast_upd. auto. Qed.

Lemma hadd_consumption_items : forall b z r x c q b', h_add_consumption b z r x c q = HOk b' -> h_items b' = h_items b /\ h_stacks b' = h_stacks b.
Proof.
  intros b z r x c q b' H. unfold h_add_consumption, hon_bin in H.
  repeat match type of H with (if ?c then _ else _) = _ => destruct c; try discriminate end. injection H as <-. split; reflexivity.
Qed.
Lemma hfold_items : forall {A} (f : HBuilder -> A -> HRes) l b b', (forall b x b1, f b x = HOk b1 -> h_items b1 = h_items b /\ h_stacks b1 = h_stacks b) ->
  fold_left (fun r x => hthen r (fun b => f b x)) l (HOk b) = HOk b' -> h_items b' = h_items b /\ h_stacks b' = h_stacks b.
Proof.
  intros A f l b b' Hf. revert b b'. induction l as [|x l IH]; intros b b' H; cbn [fold_left] in H.
  - injection H as <-. split; reflexivity.
  - unfold hthen at 2 in H. cbn in H. destruct (f b x) as [b1|b1|] eqn:E.
    + destruct (IH b1 b' H), (Hf b x b1 E). split; congruence.
    + exfalso. clear -H. induction l as [|y l IH]; cbn in H; [discriminate|apply IH, H].
    + exfalso. clear -H. induction l as [|y l IH]; cbn in H; [discriminate|apply IH, H].
Qed.
Lemma hcopy_resources_items : forall rs b z x ox b', h_copy_resources b z x ox rs = HOk b' -> h_items b' = h_items b /\ h_stacks b' = h_stacks b.
Proof.
  intros rs b z x ox b' H. unfold h_copy_resources in H. refine (hfold_items (fun b kres => if (ox <? length (res_item_consumptions (snd kres)))%nat
      then h_copy_schedule b z (fst kres) x (nth ox (res_item_consumptions (snd kres)) []) else HOk b) _ b b' _ H).
  intros b0 [k res] b1 E. cbn [fst snd] in E. destruct (_ <? _)%nat; [|injection E as <-; split; reflexivity]. unfold h_copy_schedule in E.
  refine (hfold_items (fun b kq => h_add_consumption b z k x (fst kq) (snd kq)) _ b0 b1 _ E).
  intros b2 [c q] b3 E2. apply (hadd_consumption_items _ _ _ _ _ _ _ E2).
Qed.

(** A copied item type is added after the others with the same sizes, profit,
    copies, orientation and stack; its minimum number of copies is the default
    one. *)
Theorem C73_copy_item : forall b i id b', hstep b (HCopyItem i id) = HOk b' ->
  exists t, nth_error (gin_items i) id = Some t /\ h_stacks b' = h_stacks b ++ [Z.of_nat (gi_stack_id t)] /\
  h_items b' = h_items b ++ [mkGI (gi_profit t) (gi_copies t) (-1) (gi_w t) (gi_h t) 0 0 (gi_oriented t) []].
Proof.
  intros b i id b' H. cbn [hstep] in H. unfold h_copy_item in H. destruct (nth_error (gin_items i) id) as [t|]; [|discriminate]. exists t. split; [reflexivity|].
  unfold h_add_item in H. destruct (gi_w t <? 0); [discriminate|]. destruct (gi_h t <? 0); [discriminate|]. cbn [hthen] in H.
  match type of H with hthen (h_set_item_profit ?b0 _ _) _ = _ => set (b0' := b0) in H end.
  assert (H0 : h_items b0' = h_items b ++ [mkGI (inject_Z (gi_w t * gi_h t)) 1 (-1) (gi_w t) (gi_h t) 0 0 (gi_oriented t) []]) by reflexivity.
  assert (S0 : h_stacks b0' = h_stacks b ++ [Z.of_nat (gi_stack_id t)]) by reflexivity. clearbody b0'.
  apply hthen_ok in H. destruct H as (b1 & E1 & H). apply (hon_last_item _ (h_items b) _ _ _ H0) in E1. destruct E1 as [B1 S1].
  apply hthen_ok in H. destruct H as (b2 & E2 & H). unfold h_set_item_copies in E2. rewrite B1, hlast_ok in E2. destruct (negb _ && _); [discriminate|].
  apply (hon_last_item _ (h_items b) _ _ _ B1) in E2. destruct E2 as [B2 S2].
  assert (E : h_items b' = h_items b2 /\ h_stacks b' = h_stacks b2).
  { refine (hfold_items (fun b1 ko => match snd ko with None => HOk b1 | Some sub => match nth_error (gin_bins i) (fst ko) with None => HUndef
      | Some obt => h_copy_resources b1 (Z.of_nat sub) (Z.of_nat (length (h_items b))) id (gb_resources obt) end end) _ _ b' _ H).
    clear. intros c [k [sub|]] c1 E; cbn [fst snd] in E; [|injection E as <-; split; reflexivity]. destruct (nth_error _ _); [|discriminate]. apply (hcopy_resources_items _ _ _ _ _ _ E). }
  destruct E as [E1 E2]. split; [congruence|]. rewrite E1, B2. reflexivity.
Qed.
Print Assumptions C73_copy_item.

Lemma hfold_bin : forall {A} (f : HBuilder -> A -> HRes) (g : GBinType -> A -> GBinType) l (bins : list GBinType) t b b',
  (forall b x b1 t, h_bins b = bins ++ [t] -> f b x = HOk b1 -> h_bins b1 = bins ++ [g t x] /\ h_items b1 = h_items b) ->
  h_bins b = bins ++ [t] -> fold_left (fun r x => hthen r (fun b => f b x)) l (HOk b) = HOk b' ->
  h_bins b' = bins ++ [fold_left g l t] /\ h_items b' = h_items b.
Proof.
  intros A f g l bins t b b' Hf. revert t b. induction l as [|x l IH]; intros t b Hb H; cbn [fold_left] in *.
  - injection H as <-. auto.
  - unfold hthen at 2 in H. cbn in H. destruct (f b x) as [b1|b1|] eqn:E.
    + destruct (Hf b x b1 t Hb E) as [E1 E2]. destruct (IH _ b1 E1 H) as [E3 E4]. split; [exact E3|congruence].
    + exfalso. clear -H. induction l as [|y l IH]; cbn in H; [discriminate|apply IH, H].
    + exfalso. clear -H. induction l as [|y l IH]; cbn in H; [discriminate|apply IH, H].
Qed.
Lemma hon_last : forall b bins t g b', h_bins b = bins ++ [t] -> hon_bin b (Z.of_nat (length bins)) g = HOk b' ->
  h_bins b' = bins ++ [g t] /\ h_items b' = h_items b.
Proof.
  intros b bins t g b' Hb H. unfold hon_bin in H. rewrite Hb, hlast_ok in H. injection H as <-. cbn. rewrite Nat2Z.id, hlast_upd. auto.
Qed.
Lemma hfold_defects : forall l t, fold_left (fun t d => gb_with_defects (gb_defects t ++ [mkGD (gd_x d) (gd_y d) (gd_w d) (gd_h d)]) t) l t = gb_with_defects (gb_defects t ++ l) t.
Proof. induction l as [|[x y lx ly] l IH]; intro t; cbn [fold_left]; [rewrite app_nil_r; destruct t; reflexivity|]. rewrite IH. unfold gb_with_defects. cbn. rewrite <- app_assoc. reflexivity. Qed.
Lemma hfold_resources : forall l t, fold_left (fun t r => gb_with_resources (gb_resources t ++ [mkResource (res_capacity r) [] (res_penalize r) (res_penalty r)]) t) l t
  = gb_with_resources (gb_resources t ++ map (fun r => mkResource (res_capacity r) [] (res_penalize r) (res_penalty r)) l) t.
Proof. induction l as [|r l IH]; intro t; cbn [fold_left map]; [rewrite app_nil_r; destruct t; reflexivity|]. rewrite IH. unfold gb_with_resources. cbn. rewrite <- app_assoc. reflexivity. Qed.

(** A copied bin type is added after the others with all its fields but the
    consumptions of its resources. *)
Theorem C73_copy_bin : forall b i id b', hstep b (HCopyBin i id) = HOk b' ->
  exists t, nth_error (gin_bins i) id = Some t /\ h_items b' = h_items b /\
  h_bins b' = h_bins b ++ [mkGBT (if Qeq_bool (gb_cost t) (-1) then inject_Z (gb_w t * gb_h t) else gb_cost t) (gb_copies t) (gb_copies_min t) (gb_w t) (gb_h t)
    (gb_defects t) (gb_bottom t) (gb_top t) (gb_left t) (gb_right t) (map (fun r => mkResource (res_capacity r) [] (res_penalize r) (res_penalty r)) (gb_resources t))].
Proof.
  intros b i id b' H. cbn [hstep] in H. unfold h_copy_bin in H. destruct (nth_error (gin_bins i) id) as [t|]; [|discriminate]. exists t. split; [reflexivity|].
  unfold h_add_bin in H. destruct (gb_w t <=? 0); [discriminate|]. destruct (gb_h t <=? 0); [discriminate|]. cbn [hthen] in H.
  match type of H with hthen (h_set_bin_cost ?b0 _ _) _ = _ => set (b0' := b0) in H end.
  assert (H0 : h_bins b0' = h_bins b ++ [mkGBT (inject_Z (gb_w t * gb_h t)) 1 0 (gb_w t) (gb_h t) [] (mkGT 0 true) (mkGT 0 false) (mkGT 0 true) (mkGT 0 false) []]) by reflexivity.
  assert (I0 : h_items b0' = h_items b) by reflexivity. clearbody b0'.
  apply hthen_ok in H. destruct H as (b1 & E1 & H). unfold h_set_bin_cost in E1. rewrite H0 in E1. rewrite hlast_ok in E1. destruct (_ && _); [discriminate|].
  apply (hon_last _ (h_bins b) _ _ _ H0) in E1. destruct E1 as [B1 I1].
  apply hthen_ok in H. destruct H as (b2 & E2 & H). unfold h_set_bin_copies in E2. rewrite B1, hlast_ok in E2. destruct (negb _ && _); [discriminate|].
  apply (hon_last _ (h_bins b) _ _ _ B1) in E2. destruct E2 as [B2 I2].
  apply hthen_ok in H. destruct H as (b3 & E3 & H). unfold h_set_bin_copies_min in E3. rewrite B2, hlast_ok in E3. destruct (_ <? 0); [discriminate|]. destruct (negb _ && _); [discriminate|].
  apply (hon_last _ (h_bins b) _ _ _ B2) in E3. destruct E3 as [B3 I3].
  apply hthen_ok in H. destruct H as (b4 & E4 & H). unfold h_add_trims in E4. cbv zeta in E4.
  repeat (match type of E4 with (if ?c then _ else _) = _ => destruct c; [discriminate|] end).
  apply (hon_last _ (h_bins b) _ _ _ B3) in E4. destruct E4 as [B4 I4].
  apply hthen_ok in H. destruct H as (b7 & E7 & H).
  apply (hfold_bin (fun b d => h_add_defect b _ (gd_x d) (gd_y d) (gd_w d) (gd_h d)) (fun t d => gb_with_defects (gb_defects t ++ [mkGD (gd_x d) (gd_y d) (gd_w d) (gd_h d)]) t) _ (h_bins b) _ _ _) with (2 := B4) in E7;
    [|intros c e c1 u Hc E; apply (hon_last _ (h_bins b) _ _ _ Hc) in E; exact E]. destruct E7 as [B7 I7].
  apply (hfold_bin (fun b r => h_add_resource b _ (res_capacity r) (res_penalize r) (res_penalty r)) (fun t r => gb_with_resources (gb_resources t ++ [mkResource (res_capacity r) [] (res_penalize r) (res_penalty r)]) t) _ (h_bins b) _ _ _) with (2 := B7) in H;
    [|intros c e c1 u Hc E; apply (hon_last _ (h_bins b) _ _ _ Hc) in E; exact E]. destruct H as [B8 I8].
  split; [congruence|]. rewrite B8. rewrite hfold_resources, hfold_defects. reflexivity.
Qed.
Print Assumptions C73_copy_bin.

(** An instance with two plates, trims, a defect, a resource and two stacks,
    entered with several calls, three of which throw. *)
Definition ex_hcalls : list HCall :=
  [HSetObjective OKnapsack; HPredefined "3NVO"; HSetFixed 0 7; HSetFixed 9 7; HAddBin 10 8; HAddBin 0 8; HAddTrims 0 (mkGT 1 true) (mkGT 1 false) (mkGT 2 true) (mkGT 0 false);
   HAddTrims 0 (mkGT 5 true) (mkGT 5 true) (mkGT 0 true) (mkGT 0 true); HSetBinCost 0 6; HSetBinCopies 0 (-1); HAddResource 0 8 false 0; HAddDefect 0 1 1 2 2;
   HAddItem 3 2 false 1; HSetItemProfit 0 7; HSetItemCopies 0 3; HAddItem 4 5 true 0; HSetItemCopies 1 2; HSetItemCopiesMin 1 1; HAddItem 2 2 false 1;
   HAddConsumption 0 0 0 0 5; HAddBin 4 4; HSetBinCopies 1 2].
Definition ex_hbuilt : option (GInstance * HDerived) :=
  match hrun OBinPacking ex_hcalls with
  | Some b => match h_build b with HBuilt i d => Some (i, d) | _ => None end
  | None => None
  end.
Example C73_example : match ex_hbuilt with
  | Some (i, d) => hd_number_of_items d = 6 /\ hd_item_area d = 62 /\ hd_bin_area d = 320 /\
      hd_bin_type_ids d = [0; 0; 0; 0; 0; 0; 1; 1]%nat /\ hd_previous d = [0; 48; 96; 144; 192; 240; 288; 304] /\ hd_defects d = 1%nat /\
      map gi_resource_ids (gin_items i) = [[[0]; []]; [[]; []]; [[]; []]]%nat /\ map gi_copies_min (gin_items i) = [0; 1; 0] /\
      map gi_stack_id (gin_items i) = [1; 0; 1]%nat /\ map gi_stack_pos (gin_items i) = [0; 0; 3]%nat /\
      gin_stack_offsets i = [0; 2; 6]%nat /\ gin_stack_items i = [1; 1; 0; 0; 0; 2]%nat /\
      gp_stages (gin_params i) = 3 /\ gp_cut_type (gin_params i) = GNonExact /\ map gcc_fixed (gp_costs (gin_params i)) = [7; 0; 0; 0; 0] /\
      hd_all_infinite d = false /\ hd_all_oriented d = false
  | None => False
  end.
Proof. vm_compute. auto 30. Qed.

(** The hypotheses about the copies hold on it, and both copies are possible. *)
Example C73_nonvacuous : match ex_hbuilt with
  | Some (i, d) => exists b0 b1 b2, hrun OBinPacking ex_hcalls = Some b0 /\ (forall t, In t (h_items b0) -> 0 <= gi_copies t) /\
      forallb (fun c => negb (infinite_dimension c)) ex_hcalls = true /\
      hstep (h_new OKnapsack) (HCopyBin i 0) = HOk b1 /\ hstep b1 (HCopyItem i 0) = HOk b2 /\
      h_stacks b2 = [1] /\ map res_item_consumptions (flat_map gb_resources (h_bins b2)) = [[[5%Q]]]
  | None => False
  end.
Proof.
  vm_compute. eexists. eexists. eexists. split; [reflexivity|]. split; [intros t [<-|[<-|[<-|[]]]]; discriminate|].
  split; [reflexivity|]. split; [reflexivity|]. split; [reflexivity|]. split; reflexivity.
Qed.

(** ** Findings *)

(** set_predefined throws after having changed the builder: with "U" the number
    of stages, the cut type and the first cut are set before the exception, with
    "2RVX" too. *)
Theorem C73_predefined_throw_refuted : exists b,
  (exists b', hstep (h_new OKnapsack) (HPredefined "U") = HThrow b' /\ h_params b' <> h_params (h_new OKnapsack)) /\
  (exists b', hstep b (HPredefined "2RVX") = HThrow b' /\ gp_stages (h_params b) = 3 /\ gp_stages (h_params b') = 2 /\ gp_cut_type (h_params b') = GRoadef2018).
Proof.
  exists (h_new OKnapsack). split; eexists.
  - split; [vm_compute; reflexivity|]. intro H. apply (f_equal gp_stages) in H. vm_compute in H. discriminate.
  - split; [vm_compute; reflexivity|]. repeat split.
Qed.
Print Assumptions C73_predefined_throw_refuted.

(** set_predefined takes any character after '1' as a number of stages: "ANVR" is
    accepted and gives 17 stages. *)
Theorem C73_predefined_digit_refuted : exists b', hstep (h_new OKnapsack) (HPredefined "ANVR") = HOk b' /\ gp_stages (h_params b') = 17.
Proof. eexists. split; vm_compute; reflexivity. Qed.
Print Assumptions C73_predefined_digit_refuted.

(** The default parameters, without any call that sets the stages, have no
    cutting cost at all: set_fixed_cutting_cost refuses stage 0, and an instance
    with the cutting cost objective is built whose table of costs is empty, although
    the solution reads its first element for each bin (solution.cpp:58). *)
Theorem C73_default_costs_refuted : exists calls b i d,
  hrun OBinPackingCuttingCost calls = Some b /\ h_build b = HBuilt i d /\ gp_costs (gin_params i) = [] /\ ~ costs_for_cuts (gin_params i) /\
  hstep b (HSetFixed 0 1) = HThrow b.
Proof.
  exists [HAddBin 10 10; HAddItem 4 5 false (-1)]. eexists. eexists. eexists.
  split; [vm_compute; reflexivity|]. split; [vm_compute; reflexivity|]. split; [reflexivity|]. split; [|reflexivity].
  unfold costs_for_cuts. cbn. lia.
Qed.
Print Assumptions C73_default_costs_refuted.

(** Unlimited copies of an item type (-1, which set_item_type_copies accepts)
    break the stacks: alone it makes build throw a length error, after an item
    type with 5 copies it makes build write out of range. *)
Theorem C73_unlimited_items_refuted : exists b1 b2,
  hcalls_from (h_new OKnapsack) [HAddBin 10 10; HAddItem 4 5 false (-1); HSetItemCopies 0 (-1); HSetItemCopiesMin 0 (-1)] = HOk b1 /\ h_build b1 = HBuildThrow /\
  hcalls_from (h_new OKnapsack) [HAddBin 10 10; HAddItem 4 5 false (-1); HSetItemCopies 0 5; HAddItem 4 5 false (-1); HSetItemCopies 1 (-1)] = HOk b2 /\ h_build b2 = HBuildUndef.
Proof. eexists. eexists. split; [vm_compute; reflexivity|]. split; [vm_compute; reflexivity|]. split; vm_compute; reflexivity. Qed.
Print Assumptions C73_unlimited_items_refuted.

(** An item type with a side of length 0, which the builder accepts, makes
    build divide by zero. *)
Theorem C73_zero_area_refuted : exists calls b, hcalls_from (h_new OKnapsack) calls = HOk b /\ h_build b = HBuildUndef.
Proof. exists [HAddBin 10 10; HAddItem 0 5 false (-1)]. eexists. split; vm_compute; reflexivity. Qed.
Print Assumptions C73_zero_area_refuted.

(** A resource consumption for an item type that is never added is accepted and
    makes build write out of range. *)
Theorem C73_missing_item_refuted : exists calls b, hcalls_from (h_new OKnapsack) calls = HOk b /\ h_build b = HBuildUndef.
Proof. exists [HAddBin 10 10; HAddResource 0 8 false 0; HAddItem 4 5 false (-1); HAddConsumption 0 0 3 0 1]. eexists. split; vm_compute; reflexivity. Qed.
Print Assumptions C73_missing_item_refuted.

(** Infinite dimensions do not count the trims: with trims of 9 on both sides
    of the plate and one item 4 x 5, the plate gets width 5, less than its
    trims, and the item does not fit. *)
Theorem C73_infinite_trims_refuted : exists calls b i d,
  hcalls_from (h_new OOpenDimensionX) calls = HOk b /\ h_build b = HBuilt i d /\
  map gb_w (gin_bins i) = [5] /\ map usable_area (gin_bins i) = [-1300] /\ forall t, In t (gin_bins i) -> ~ trims_fit t.
Proof.
  exists [HAddBin 100 100; HAddTrims 0 (mkGT 9 true) (mkGT 9 true) (mkGT 0 true) (mkGT 0 true); HAddItem 4 5 false (-1); HBinsInfiniteX]. eexists. eexists. eexists.
  split; [vm_compute; reflexivity|]. split; [vm_compute; reflexivity|]. split; [reflexivity|]. split; [reflexivity|].
  intros t [<-|[]]. unfold trims_fit. cbn. lia.
Qed.
Print Assumptions C73_infinite_trims_refuted.

(** Unlimited copies of a plate become the number of items even when this is
    below its minimum number of copies. *)
Theorem C73_unlimited_minimum_refuted : exists calls b i d,
  hcalls_from (h_new OBinPacking) calls = HOk b /\ h_build b = HBuilt i d /\ map gb_copies (gin_bins i) = [1] /\ map gb_copies_min (gin_bins i) = [3].
Proof.
  exists [HAddBin 10 10; HSetBinCopies 0 (-1); HSetBinCopiesMin 0 3; HAddItem 4 5 false (-1)]. eexists. eexists. eexists.
  split; [vm_compute; reflexivity|]. split; [vm_compute; reflexivity|]. split; reflexivity.
Qed.
Print Assumptions C73_unlimited_minimum_refuted.

(** The default cost of a plate is its whole area, with its trims, but
    set_bin_types_unweighted makes it the area without them. *)
Theorem C73_default_cost_refuted : exists b b1 b2,
  hcalls_from (h_new OVariableSizedBinPacking) [HAddBin 10 10; HAddTrims 0 (mkGT 1 true) (mkGT 1 true) (mkGT 1 true) (mkGT 1 true)] = HOk b /\
  hstep b (HSetBinCost 0 (-1)) = HOk b1 /\ map gb_cost (h_bins b1) = [100%Q] /\ hstep b HBinsUnweighted = HOk b2 /\ map gb_cost (h_bins b2) = [64%Q].
Proof. eexists. eexists. eexists. split; [vm_compute; reflexivity|]. split; [vm_compute; reflexivity|]. split; [reflexivity|]. split; vm_compute; reflexivity. Qed.
Print Assumptions C73_default_cost_refuted.

(** A copied item type loses its minimum number of copies: an item type with 5
    copies of which at least 2 must be packed becomes one whose 5 copies must be
    packed in bin packing, and none in the knapsack problem. *)
Theorem C73_copy_minimum_refuted : exists i b1 b2,
  map gi_copies_min (gin_items i) = [2] /\ hcalls_from (h_new OBinPacking) [HAddBin 10 10; HCopyItem i 0] = HOk b1 /\
  hcalls_from (h_new OKnapsack) [HAddBin 10 10; HCopyItem i 0] = HOk b2 /\
  (match h_build b1 with HBuilt j _ => map gi_copies_min (gin_items j) = [5] | _ => False end) /\
  (match h_build b2 with HBuilt j _ => map gi_copies_min (gin_items j) = [0] | _ => False end).
Proof.
  exists (mkGIn OBinPacking hdefault_params [] [mkGI 1 5 2 4 5 0 0 false []] [0; 5]%nat [0; 0; 0; 0; 0]%nat). eexists. eexists.
  split; [reflexivity|]. split; [vm_compute; reflexivity|]. split; [vm_compute; reflexivity|]. split; vm_compute; reflexivity.
Qed.
Print Assumptions C73_copy_minimum_refuted.
