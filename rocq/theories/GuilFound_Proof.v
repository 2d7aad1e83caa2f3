(** * Proofs for C75: cuttable placements are found *)

From Coq Require Import List ZArith QArith Bool Lia Arith Permutation Sorted.
From Verif Require Import Util Common_Model OneDim_Model Guil_Model GuilSol_Model GuilBuild_Model GuilBuild_Spec GuilBuild_Proof.
Import ListNotations.
Open Scope Z_scope.

Lemma vertical_next : forall o d, o <> GAny -> gvertical o (d + 1) = negb (gvertical o d).
Proof.
  intros o d Ho.
  assert (H' : d mod 2 = 0 \/ d mod 2 = 1) by (pose proof (Z.mod_pos_bound d 2 ltac:(lia)); lia).
  destruct o; [| |congruence]; unfold gvertical; rewrite <- Zplus_mod_idemp_l; destruct H' as [-> | ->]; reflexivity.
Qed.

Section Found.
Variable srt : bool -> list Placement -> list Placement.
Hypothesis Hsort : Sorts srt.
Variable i : GInstance.
Variable o : GOrient.
Local Notation ct := (gp_ct (gin_params i)).
Hypothesis Hct : 0 <= ct.

(** ** The groups *)

Definition good_group (v : bool) (q : Placement) (g : CutGroup) : Prop :=
  (exists s, cg_items g = q :: s) /\ (forall p, In p (cg_items g) -> pl_start v q <= pl_start v p /\ pl_end v p <= cg_cut g)
  /\ exists p, In p (cg_items g) /\ pl_end v p = cg_cut g.

Fixpoint Chain (v : bool) (lo : Z) (gs : list CutGroup) : Prop :=
  match gs with
  | [] => True
  | g :: gs' => (exists q, good_group v q g /\ lo <= pl_start v q) /\ Chain v (cg_cut g + ct) gs'
  end.

Lemma chain_fold : forall v l lo cur q, good_group v q cur -> lo <= pl_start v q -> 0 <= cg_cut cur ->
  (forall p, In p l -> pl_start v q <= pl_start v p) -> (forall p, In p l -> 0 <= pl_end v p) ->
  StronglySorted (fun a b => pl_start v a <= pl_start v b) l ->
  forall groups, exists more cur', fold_left (group_step ct v) l (groups, cur) = (groups ++ more, cur')
    /\ Chain v lo (more ++ [cur']) /\ cg_items cur' <> [].
Proof.
  intros v. induction l as [|a l IH]; intros lo cur q Hg Hlo Hc Hq Hpos Hs groups.
  - exists [], cur. rewrite app_nil_r. split; [reflexivity|]. split; [cbn; split; [exists q; auto|exact I]|].
    destruct Hg as ((s & ->) & _). discriminate.
  - cbn [fold_left]. unfold group_step at 2. replace (cg_cut cur <? 0) with false by (symmetry; apply Z.ltb_ge; exact Hc).
    assert (Ha := Hpos a (or_introl eq_refl)). inversion Hs as [|? ? Hs' Hall]; subst. rewrite Forall_forall in Hall.
    destruct (cg_cut cur + ct <=? pl_start v a) eqn:E.
    + apply Z.leb_le in E.
      destruct (IH (cg_cut cur + ct) (mkCG (pl_end v a) [a]) a) with (groups := groups ++ [cur]) as (more & cur' & EF & C & N); cbn [cg_cut cg_items].
      * split; [exists []; reflexivity|]. split; [intros p [<-|[]]; cbn; lia|]. exists a. split; [left; reflexivity|reflexivity].
      * exact E.
      * exact Ha.
      * intros p Hp. apply Hall. exact Hp.
      * intros p Hp. apply Hpos. right. exact Hp.
      * exact Hs'.
      * exists (cur :: more), cur'. split; [rewrite EF, <- app_assoc; reflexivity|]. split; [|exact N].
        cbn. split; [exists q; auto|exact C].
    + destruct Hg as ((s & Es) & G2 & G3).
      apply (IH lo (mkCG (if cg_cut cur <? pl_end v a then pl_end v a else cg_cut cur) (cg_items cur ++ [a])) q); cbn [cg_cut cg_items].
      * split; [exists (s ++ [a]); cbn [cg_items]; rewrite Es; reflexivity|]. cbn [cg_items cg_cut]. split.
        -- intros p Hp. apply in_app_or in Hp. destruct Hp as [Hp|[<-|[]]].
           ++ destruct (G2 p Hp). destruct (_ <? _) eqn:El; [apply Z.ltb_lt in El; lia|lia].
           ++ split; [apply Hq; left; reflexivity|]. destruct (_ <? _) eqn:El; [lia|apply Z.ltb_ge in El; lia].
        -- destruct (_ <? _) eqn:El.
           ++ exists a. split; [apply in_or_app; right; left; reflexivity|reflexivity].
           ++ destruct G3 as (p & Hp & Ep). exists p. split; [apply in_or_app; left; exact Hp|exact Ep].
      * exact Hlo.
      * destruct (_ <? _); lia.
      * intros p Hp. apply Hq. right. exact Hp.
      * intros p Hp. apply Hpos. right. exact Hp.
      * exact Hs'.
Qed.

Lemma groups_chain : forall v lo items, (forall p, In p items -> lo <= pl_start v p /\ 0 <= pl_end v p) ->
  Chain v lo (find_groups srt ct v items).
Proof.
  intros v lo items H. unfold find_groups. destruct (Hsort v items) as [Hp Hs].
  assert (Hin : forall p, In p (srt v items) -> lo <= pl_start v p /\ 0 <= pl_end v p)
    by (intros p Hx; apply H; eapply Permutation_in; eassumption).
  destruct (srt v items) as [|q s]; [exact I|]. cbn [fold_left]. unfold group_step at 2. cbn [cg_cut cg_items Z.ltb Z.compare app].
  inversion Hs as [|? ? Hs' Hall]; subst. rewrite Forall_forall in Hall.
  destruct (chain_fold v s lo (mkCG (pl_end v q) [q]) q) with (groups := @nil CutGroup) as (more & cur & -> & C & N); cbn [cg_cut cg_items].
  - split; [exists []; reflexivity|]. split; [intros p [<-|[]]; cbn; lia|]. exists q. split; [left; reflexivity|reflexivity].
  - apply (Hin q (or_introl eq_refl)).
  - apply (Hin q (or_introl eq_refl)).
  - exact Hall.
  - intros p Hx. apply (Hin p (or_intror Hx)).
  - exact Hs'.
  - destruct (cg_items cur); [congruence|]. exact C.
Qed.

Lemma fold_grows : forall v l groups cur, groups <> [] -> fst (fold_left (group_step ct v) l (groups, cur)) <> [].
Proof.
  intros v. induction l as [|a l IH]; intros groups cur H; [exact H|]. cbn [fold_left]. unfold group_step at 2.
  destruct (_ <? 0); [apply IH; exact H|]. destruct (_ <=? _); apply IH; [destruct groups; discriminate|exact H].
Qed.

Lemma fold_splits : forall v x l cur, 0 <= cg_cut cur <= x -> (forall p, In p l -> pl_end v p <= x \/ x + ct <= pl_start v p) ->
  (exists p, In p l /\ x + ct <= pl_start v p) -> fst (fold_left (group_step ct v) l ([], cur)) <> [].
Proof.
  intros v x. induction l as [|a l IH]; intros cur Hc Ha (p & Hp & Hx); [destruct Hp|].
  cbn [fold_left]. unfold group_step at 2. replace (cg_cut cur <? 0) with false by (symmetry; apply Z.ltb_ge; lia).
  destruct (cg_cut cur + ct <=? pl_start v a) eqn:E.
  - apply fold_grows. discriminate.
  - apply Z.leb_gt in E. destruct Hp as [->|Hp]; [lia|]. destruct (Ha a (or_introl eq_refl)) as [H|H]; [|lia].
    apply IH.
    + cbn [cg_cut]. destruct (_ <? _) eqn:El; [apply Z.ltb_lt in El; lia|lia].
    + intros z Hz. apply Ha. right. exact Hz.
    + exists p. auto.
Qed.

Lemma one_group_no_cut : forall v items g, (forall p, In p items -> pl_start v p < pl_end v p /\ 0 <= pl_end v p) ->
  find_groups srt ct v items = [g] -> NoCut ct v items.
Proof.
  intros v items g Hpos H x Ha (p & Hp & Hpx) (z & Hz & Hzx). unfold find_groups in H. destruct (Hsort v items) as [Hperm Hs].
  assert (Hin : forall p, In p (srt v items) -> In p items) by (intros; eapply Permutation_in; eassumption).
  assert (Hni : forall p, In p items -> In p (srt v items)) by (intros; eapply Permutation_in; [apply Permutation_sym|]; eassumption).
  destruct (srt v items) as [|q s] eqn:Es; [destruct (Hni p Hp)|].
  cbn [fold_left] in H. unfold group_step at 2 in H. cbn [cg_cut cg_items Z.ltb Z.compare app] in H.
  inversion Hs as [|? ? Hs' Hall]; subst. rewrite Forall_forall in Hall.
  assert (Hqp : pl_start v q <= pl_start v p) by (destruct (Hni p Hp) as [<-|Hx]; [lia|apply Hall; exact Hx]).
  pose proof (Hpos p Hp) as Hp1. pose proof (Hpos q (Hin q (or_introl eq_refl))) as Hq1.
  assert (Hq : pl_end v q <= x) by (destruct (Ha q (Hin q (or_introl eq_refl))) as [Hx|Hx]; lia).
  assert (F : fst (fold_left (group_step ct v) s ([], mkCG (pl_end v q) [q])) <> []).
  { apply (fold_splits v x); cbn [cg_cut].
    - lia.
    - intros y Hy. apply Ha, Hin. right. exact Hy.
    - exists z. split; [|exact Hzx]. destruct (Hni z Hz) as [<-|Hx]; [lia|exact Hx]. }
  destruct (chain_fold v s (pl_start v q) (mkCG (pl_end v q) [q]) q) with (groups := @nil CutGroup) as (more & cur & E & _ & N); cbn [cg_cut cg_items].
  - split; [exists []; reflexivity|]. split; [intros y [<-|[]]; cbn; lia|]. exists q. split; [left; reflexivity|reflexivity].
  - lia.
  - lia.
  - exact Hall.
  - intros y Hy. apply (Hpos y (Hin y (or_intror Hy))).
  - exact Hs'.
  - rewrite E in H, F. cbn [fst app] in *. destruct (cg_items cur) eqn:Ec; [congruence|].
    destruct more as [|m [|m' more]]; [congruence|discriminate|discriminate].
Qed.

(** ** The loop *)

Lemma loop_found : forall rec l r b t depth p ns0, 1 <= depth -> gn_d (gnode ns0 p) = depth - 1 ->
  gn_l (gnode ns0 p) = l -> gn_r (gnode ns0 p) = r -> gn_b (gnode ns0 p) = b -> gn_t (gnode ns0 p) = t ->
  let v := gvertical o depth in
  (forall l r b t items depth' bn bins', gs_orient bn = o -> Entry (gs_nodes bn) l r b t depth' -> 1 < depth' ->
     rec l r b t items depth' [bn] = GROk bins' ->
     exists ns', bins' = [gwith_nodes bn ns'] /\ After (gs_nodes bn) ns' (length (gs_nodes bn) - 1) items) ->
  forall items, Clear ct v items ->
  (forall q, In q items -> pl_start v q < pl_end v q /\ pl_end v q <= far v (gnode ns0 p)) ->
  forall gs bn prev, gs_orient bn = o -> Ready i o ns0 (gs_nodes bn) p prev depth -> Chain v prev gs -> ClearOf ct prev v items ->
  (forall g z, In g gs -> In z (cg_items g) -> In z items) ->
  (forall g q bn', In g gs -> good_group v q g -> gs_orient bn' = o ->
     Entry (gs_nodes bn') (if v then pl_start v q else l) (if v then cg_cut g else r) (if v then b else pl_start v q)
       (if v then t else cg_cut g) (depth + 1) ->
     exists bins', rec (if v then pl_start v q else l) (if v then cg_cut g else r) (if v then b else pl_start v q)
       (if v then t else cg_cut g) (cg_items g) (depth + 1) [bn'] = GROk bins') ->
  exists bins', fst (fold_left (region_step i v l r b t depth rec) gs (GROk [bn], prev)) = GROk bins'.
Proof.
  intros rec l r b t depth p ns0 Hd Hdp Hl Hr Hb Ht v Hrec items Hclear Hfar.
  induction gs as [|g gs IH]; intros bn prev Ho HR HC Hlo Hin Hfound; [eexists; reflexivity|].
  destruct HC as [(q & Hg & Hq) HC]. pose proof Hg as ((s & Es) & G2 & (z & Hz & Ez)).
  assert (Hqg : In q (cg_items g)) by (rewrite Es; left; reflexivity).
  assert (Hqi : In q items) by (apply (Hin g); [left; reflexivity|exact Hqg]).
  assert (Hzi : In z items) by (apply (Hin g); [left; reflexivity|exact Hz]).
  destruct (Hfar q Hqi) as [Q1 Q2]. destruct (Hfar z Hzi) as [Z1 Z2]. destruct (G2 q Hqg) as [_ Q3].
  cbn [fold_left]. unfold region_step at 2. cbn [fst snd]. rewrite Es.
  assert (Hfirst : exists bn1, (if prev <? pl_start v q - ct then (gof (gadd_node i [bn] depth (pl_start v q - ct)), pl_start v q) else (GROk [bn], prev))
      = (GROk [bn1], pl_start v q) /\ gs_orient bn1 = o /\ Ready i o ns0 (gs_nodes bn1) p (pl_start v q) depth).
  { destruct (prev <? pl_start v q - ct) eqn:E.
    - apply Z.ltb_lt in E.
      destruct (add_ready i o ns0 bn p prev depth (pl_start v q - ct) Hd Ho Hdp HR) as [[A _]|[_ (ns & E' & R & _)]].
      + fold v in A. lia.
      + exists (gwith_nodes bn ns). rewrite E'. split; [reflexivity|]. split; [exact Ho|].
        replace (pl_start v q - ct + ct) with (pl_start v q) in R by lia. exact R.
    - apply Z.ltb_ge in E. exists bn. assert (prev = pl_start v q) as <- by (specialize (Hlo q Hqi); lia).
      split; [reflexivity|]. split; [exact Ho|exact HR]. }
  destruct Hfirst as (bn1 & E1 & Ho1 & R1). rewrite E1.
  destruct (add_ready i o ns0 bn1 p (pl_start v q) depth (cg_cut g) Hd Ho1 Hdp R1) as [[A _]|[_ (ns & E' & R & Hlast & Hpiece & _ & Hcs & _)]].
  { fold v in A. lia. }
  rewrite E'. rewrite <- Es. fold v in Hpiece.
  assert (HE : Entry (gs_nodes (gwith_nodes bn1 ns)) (if v then pl_start v q else l) (if v then cg_cut g else r)
      (if v then b else pl_start v q) (if v then t else cg_cut g) (depth + 1)).
  { cbn [gwith_nodes gs_nodes]. constructor; try rewrite Hpiece; unfold piece;
      cbn [gn_d gn_l gn_r gn_b gn_t gn_children gn_f]; rewrite ?Hl, ?Hr, ?Hb, ?Ht; try reflexivity; try lia.
    - intros ->. simpl in Hlast. lia.
    - right. reflexivity.
    - intros _. discriminate. }
  destruct (Hfound g q (gwith_nodes bn1 ns) (or_introl eq_refl) Hg Ho1 HE) as (bins1 & Er). rewrite Er.
  destruct (Hrec _ _ _ _ _ _ _ _ (Ho1 : gs_orient (gwith_nodes bn1 ns) = o) HE ltac:(lia) Er) as (ns' & -> & HA). cbn [gwith_nodes gs_nodes] in HA.
  apply IH.
  - exact Ho1.
  - cbn [gwith_nodes gs_nodes].
    apply (after_ready i o ns0 ns ns' p _ depth (cg_items g) R Hlast Hcs); [| |exact HA]; rewrite Hpiece; [reflexivity|].
    unfold piece. cbn [gn_d]. destruct (rd_frame _ _ _ _ _ _ _ R) as (_ & F2 & _). lia.
  - exact HC.
  - destruct (Hclear z Hzi) as [_ Hc]. rewrite Ez in Hc. exact Hc.
  - intros g' y Hg' Hy. apply (Hin g'); [right; exact Hg'|exact Hy].
  - intros g' q' bn' Hg' Hgood Hob HEb. apply Hfound; try assumption. right. exact Hg'.
Qed.

(** ** The region *)

Lemma chain_nonempty : forall v gs lo g, Chain v lo gs -> In g gs -> cg_items g <> [].
Proof.
  intros v. induction gs as [|a gs IH]; intros lo g HC Hg; [destruct Hg|]. destruct HC as [(q & ((s & Es) & _) & _) HC].
  destruct Hg as [<-|Hg]; [rewrite Es; discriminate|]. eapply IH; eassumption.
Qed.

Lemma concat_split : forall gs g, In g gs -> (forall g, In g gs -> cg_items g <> []) ->
  exists others, Permutation (concat (map cg_items gs)) (cg_items g ++ others) /\ (length gs = 1%nat \/ (1 <= length others)%nat).
Proof.
  intros gs g Hg Hne. apply in_split in Hg. destruct Hg as (g1 & g2 & ->).
  exists (concat (map cg_items (g1 ++ g2))). rewrite !map_app, !concat_app. cbn [map concat]. split.
  - apply Permutation_app_swap_app.
  - assert (H : g1 ++ g2 = [] \/ exists g' l, g1 ++ g2 = g' :: l) by (destruct (g1 ++ g2); [left; reflexivity|right; eauto]).
    destruct H as [H|(g' & l & H)].
    + left. apply app_eq_nil in H. destruct H as [-> ->]. reflexivity.
    + right. assert (Hg' : In g' (g1 ++ g :: g2)).
      { assert (X : In g' (g1 ++ g2)) by (rewrite H; left; reflexivity). apply in_app_or in X. apply in_or_app. simpl. tauto. }
      specialize (Hne _ Hg'). rewrite <- concat_app, <- map_app, H. cbn [map concat]. rewrite app_length.
      destruct (cg_items g'); [congruence|simpl; lia].
Qed.

Lemma set_found : forall l r b t q bn depth, Entry (gs_nodes bn) l r b t depth -> Sized i [q] ->
  pl_l q = l -> pl_r q = r -> pl_b q = b -> pl_t q = t -> exists bins', gof (gset_item i [bn] (pl_item q)) = GROk bins'.
Proof.
  intros l r b t q bn depth [_ _ _ E1 E2 E3 E4 _ _ _] Hs H1 H2 H3 H4. destruct (Hs q (or_introl eq_refl)) as [S1 S2].
  unfold gset_item. cbn [gback rev app]. apply Nat.ltb_lt in S1. rewrite S1, E1, E2, E3, E4, <- H1, <- H2, <- H3, <- H4.
  destruct S2 as [[A B]|[A B]]; rewrite A, B, !Z.eqb_refl; cbn [andb orb]; rewrite ?orb_true_r; eexists; reflexivity.
Qed.

Definition Phase (fuel : nat) (l r b t : Z) (v : bool) (depth : Z) (items : list Placement) : Prop :=
  (2 * length items <= fuel)%nat
  \/ ((2 * length items <= Datatypes.S fuel)%nat /\ NoCut ct (negb v) items
      /\ forall q, items = [q] -> pl_start (negb v) q = (if v then b else l) /\ pl_end (negb v) q = (if v then t else r))
  \/ (1 < depth /\ exists q, items = [q] /\ pl_l q = l /\ pl_r q = r /\ pl_b q = b /\ pl_t q = t).

Lemma region_found : o <> GAny -> forall fuel l r b t items depth bn, gs_orient bn = o -> Entry (gs_nodes bn) l r b t depth ->
  0 <= l -> 0 <= b -> Inside l r b t items -> Cuttable ct items -> (forall v, Clear ct v items) ->
  ClearOf ct l true items -> ClearOf ct b false items -> Sized i items ->
  Phase fuel l r b t (gvertical o depth) depth items ->
  exists bins', build_region srt i o fuel l r b t items depth [bn] = GROk bins'.
Proof.
  intros Hoa. induction fuel as [|fuel IH]; intros l r b t items depth bn Ho HE Hl0 Hb0 Hin Hcut Hclear Hcl Hcb Hsz HP.
  - destruct items as [|q its]; [eexists; reflexivity|].
    destruct HP as [H|[(H & _)|(Hd & q' & Eq & A1 & A2 & A3 & A4)]]; [simpl in H; lia|simpl in H; lia|].
    inversion Eq; subst q' its. cbn [build_region]. replace (1 <? depth) with true by (symmetry; apply Z.ltb_lt; exact Hd).
    cbn [exact_item]. rewrite A1, A2, A3, A4, !Z.eqb_refl. cbn [andb]. eapply set_found; eassumption.
  - destruct items as [|q0 its]; [eexists; reflexivity|]. cbn [build_region]. set (items := q0 :: its) in *.
    destruct (if 1 <? depth then exact_item l r b t items else None) as [x|] eqn:Ee.
    { destruct (1 <? depth); [|discriminate]. unfold items in *. destruct its; [|discriminate]. cbn in Ee.
      destruct ((pl_l q0 =? l) && (pl_r q0 =? r) && (pl_b q0 =? b) && (pl_t q0 =? t)) eqn:E; [|discriminate].
      rewrite !andb_true_iff, !Z.eqb_eq in E. destruct E as [[[A1 A2] A3] A4]. inversion Ee; subst x. eapply set_found; eassumption. }
    set (v := gvertical o depth) in *.
    assert (HP' : (2 * length items <= Datatypes.S fuel)%nat
      \/ ((2 * length items <= Datatypes.S (Datatypes.S fuel))%nat /\ NoCut ct (negb v) items
         /\ forall q, items = [q] -> pl_start (negb v) q = (if v then b else l) /\ pl_end (negb v) q = (if v then t else r))).
    { destruct HP as [H|[H|(Hd & q' & Eq & A1 & A2 & A3 & A4)]]; [left; exact H|right; exact H|]. exfalso.
      rewrite Eq in Ee. cbn [exact_item] in Ee. apply Z.ltb_lt in Hd. rewrite Hd, A1, A2, A3, A4, !Z.eqb_refl in Ee. discriminate. }
    clear HP. assert (Hse : forall (w : bool) p, In p items -> (if w then l else b) <= pl_start w p /\ pl_start w p < pl_end w p /\ pl_end w p <= (if w then r else t)).
    { intros w p Hp. specialize (Hin p Hp). unfold pl_start, pl_end. destruct w; lia. }
    assert (Hpos : forall (w : bool) p, In p items -> 0 <= pl_end w p).
    { intros w p Hp. specialize (Hse w p Hp). destruct w; lia. }
    assert (HCh : Chain v (if v then l else b) (find_groups srt ct v items)).
    { apply groups_chain. intros p Hp. split; [apply (Hse v p Hp)|apply Hpos; exact Hp]. }
    pose proof (find_groups_concat srt ct v items) as Hcat. destruct (Hsort v items) as [Hperm _]. rewrite <- Hcat in Hperm.
    assert (Hgin : forall g z, In g (find_groups srt ct v items) -> In z (cg_items g) -> In z items).
    { intros g z Hg Hz. eapply Permutation_in; [exact Hperm|]. apply in_concat. exists (cg_items g). split; [apply in_map; exact Hg|exact Hz]. }
    pose proof HE as [D0 D1 D2 E1 E2 E3 E4 E5 E6 E7].
    apply (loop_found (build_region srt i o fuel) l r b t depth (length (gs_nodes bn) - 1) (gs_nodes bn) D0 D2 E1 E2 E3 E4)
      with (items := items).
    + intros l' r' b' t' items' depth' bn' bins'' Ho' HE' _ H'. eapply region_sound; eassumption.
    + apply Hclear.
    + intros q Hq. fold v. split; [apply (Hse v q Hq)|]. destruct (Hse v q Hq) as (_ & _ & H). unfold far. rewrite E2, E4. destruct v; exact H.
    + exact Ho.
    + eapply entry_ready. exact HE.
    + exact HCh.
    + assert (Hc0 : forall w : bool, ClearOf ct (if w then l else b) w items) by (intros []; assumption). apply Hc0.
    + exact Hgin.
    + fold v. intros g q bn' Hg ((s & Es) & G2 & (z & Hz & Ez)) Ho' HE'.
      assert (Hq : In q (cg_items g)) by (rewrite Es; left; reflexivity).
      pose proof (Hgin g q Hg Hq) as Hqi. pose proof (Hgin g z Hg Hz) as Hzi.
      destruct (concat_split _ g Hg (fun g' => chain_nonempty v _ _ g' HCh)) as (others & Hoth & Hsize).
      assert (Hsub : Permutation items (cg_items g ++ others)) by (rewrite <- Hoth; symmetry; exact Hperm).
      pose proof (Permutation_length Hsub) as HL. rewrite app_length in HL.
      assert (Hne : (1 <= length (cg_items g))%nat) by (rewrite Es; simpl; lia).
      pose proof (Hse v q Hqi) as Sq. pose proof (Hse v z Hzi) as Sz. destruct (G2 q Hq) as [_ Gq].
      apply IH.
      * exact Ho'.
      * exact HE'.
      * destruct v; lia.
      * destruct v; lia.
      * intros p Hp. specialize (G2 p Hp). specialize (Hgin g p Hg Hp). pose proof (Hin p Hgin) as Hi.
        clear - Hi G2. unfold pl_start, pl_end in *. destruct v; lia.
      * intros kept rest Hk Hl2. apply (Hcut kept (rest ++ others)); [|exact Hl2].
        rewrite Hsub, Hk, app_assoc. reflexivity.
      * intros w p Hp. destruct (Hclear w p (Hgin g p Hg Hp)) as [C1 C2]. split; intros y Hy; [apply C1|apply C2]; apply (Hgin g y Hg Hy).
      * intros y Hy. destruct v eqn:Ev; [|apply Hcl; apply (Hgin g y Hg Hy)]. destruct (Hclear true q Hqi) as [C1 _]. apply C1. apply (Hgin g y Hg Hy).
      * intros y Hy. destruct v eqn:Ev; [apply Hcb; apply (Hgin g y Hg Hy)|]. destruct (Hclear false q Hqi) as [C1 _]. apply C1. apply (Hgin g y Hg Hy).
      * intros y Hy. apply Hsz. apply (Hgin g y Hg Hy).
      * destruct Hsize as [Hone|Hmore].
        -- assert (Hgs : find_groups srt ct v items = [g]).
           { destruct (find_groups srt ct v items) as [|a [|a' gs]]; try discriminate. destruct Hg as [->|[]]. reflexivity. }
           assert (Hno : NoCut ct v items).
           { eapply one_group_no_cut; [|exact Hgs]. intros p Hp. split; [apply (Hse v p Hp)|apply Hpos; exact Hp]. }
           rewrite Hgs in Hperm. cbn [map concat] in Hperm. rewrite app_nil_r in Hperm.
           rewrite (vertical_next o depth Hoa). fold v. unfold Phase. rewrite (Permutation_length Hperm), negb_involutive.
           destruct HP' as [HF|(HF & Hno' & Htight)].
           ++ right. left. split; [lia|]. split; [eapply no_cut_perm; [apply Permutation_sym; exact Hperm|exact Hno]|].
              intros y Hy. rewrite Hy in Es, Hz. inversion Es; subst y. destruct Hz as [<-|[]]. rewrite Ez. destruct v; cbn [negb]; auto.
           ++ right. right. split; [lia|]. destruct its as [|q1 its'].
              ** destruct (Htight q0 eq_refl) as [T1 T2]. unfold items in Hperm. apply Permutation_sym, Permutation_length_1_inv in Hperm.
                 exists q0. rewrite Hperm. split; [reflexivity|]. rewrite Hperm in Es, Hz. inversion Es; subst q. destruct Hz as [<-|[]].
                 unfold pl_start, pl_end in *. destruct v; cbn [negb] in *; auto.
              ** exfalso. destruct (Hcut items [] ltac:(rewrite app_nil_r; reflexivity) ltac:(unfold items; simpl; lia)) as (w & x & X1 & X2 & X3).
                 assert (w = v \/ w = negb v) as [-> | ->] by (destruct w, v; auto); [exact (Hno x X1 X2 X3)|exact (Hno' x X1 X2 X3)].
        -- left. destruct HP' as [HF|(HF & _)]; lia.
Qed.

Lemma try_found : forall fuel t items, o <> GAny -> (t < length (gin_bins i))%nat -> TrimsNonneg (gbin i t) ->
  Inside (use_l (gbin i t)) (use_r (gbin i t)) (use_b (gbin i t)) (use_t (gbin i t)) items ->
  Cuttable ct items -> (forall v, Clear ct v items) -> ClearOf ct (use_l (gbin i t)) true items ->
  ClearOf ct (use_b (gbin i t)) false items -> Sized i items -> (2 * length items <= fuel)%nat ->
  exists bins, try_region srt i fuel t items o = GROk bins.
Proof.
  intros fuel t items Hoa Ht Htr Hin Hcut Hclear Hcl Hcb Hsz Hf. unfold try_region, gadd_bin.
  apply Nat.ltb_lt in Ht. rewrite Ht. cbn [app]. apply region_found; try assumption.
  - reflexivity.
  - cbn [gs_nodes]. apply init_entry. exact Htr.
  - destruct Htr as (H1 & _). unfold use_l. destruct (gt_hard _); lia.
  - destruct Htr as (_ & _ & H3 & _). unfold use_b. destruct (gt_hard _); lia.
  - left. exact Hf.
Qed.

(** ** Only cuttable placements are found *)

Lemma filter_perm : forall {A} (f : A -> bool) l l', Permutation l l' -> Permutation (filter f l) (filter f l').
Proof.
  intros A f l l' H. induction H; simpl.
  - constructor.
  - destruct (f x); [constructor|]; assumption.
  - destruct (f x), (f y); try apply perm_swap; reflexivity.
  - etransitivity; eassumption.
Qed.

Lemma filter_all : forall {A} (f : A -> bool) l, (forall x, In x l -> f x = true) -> filter f l = l.
Proof.
  intros A f. induction l as [|x l IH]; intros H; [reflexivity|]. simpl. rewrite (H x (or_introl eq_refl)). f_equal.
  apply IH. intros y Hy. apply H. right. exact Hy.
Qed.

Lemma filter_none : forall {A} (f : A -> bool) l, (forall x, In x l -> f x = false) -> filter f l = [].
Proof.
  intros A f. induction l as [|x l IH]; intros H; [reflexivity|]. simpl. rewrite (H x (or_introl eq_refl)).
  apply IH. intros y Hy. apply H. right. exact Hy.
Qed.

Definition Sizes (items : list Placement) : Prop :=
  forall (v : bool) p, In p items -> pl_start v p < pl_end v p /\ 0 <= pl_start v p.

Lemma cuttable_app : forall v x A B, Sizes (A ++ B) -> (forall p, In p A -> pl_end v p <= x) -> (forall p, In p B -> x + ct <= pl_start v p) ->
  Cuttable ct A -> Cuttable ct B -> Cuttable ct (A ++ B).
Proof.
  intros v x A B Hs HA HB CA CB kept others Hp Hk.
  set (f := fun p => pl_end v p <=? x).
  assert (FA : filter f A = A) by (apply filter_all; intros p H; apply Z.leb_le, HA, H).
  assert (FB : filter f B = []).
  { apply filter_none. intros p H. apply Z.leb_gt. specialize (HB p H). destruct (Hs v p); [apply in_or_app; auto|lia]. }
  set (g := fun p => negb (f p)).
  assert (GA : filter g A = []) by (apply filter_none; intros p H; unfold g, f; apply negb_false_iff, Z.leb_le, HA, H).
  assert (GB : filter g B = B).
  { apply filter_all. intros p H. apply negb_true_iff, Z.leb_gt. specialize (HB p H). destruct (Hs v p); [apply in_or_app; auto|lia]. }
  assert (PA : Permutation A (filter f kept ++ filter f others)).
  { apply (filter_perm f) in Hp. rewrite !filter_app, FA, FB, app_nil_r in Hp. exact Hp. }
  assert (PB : Permutation B (filter g kept ++ filter g others)).
  { apply (filter_perm g) in Hp. rewrite !filter_app, GA, GB in Hp. exact Hp. }
  destruct (filter f kept) as [|a fa] eqn:Ea.
  - assert (Eg : filter g kept = kept).
    { apply filter_all. intros y Hy. unfold g. apply negb_true_iff. destruct (f y) eqn:Ey; [|reflexivity].
      assert (In y (filter f kept)) by (apply filter_In; auto). rewrite Ea in H. destruct H. }
    rewrite Eg in PB. exact (CB kept _ PB Hk).
  - destruct (filter g kept) as [|c gc] eqn:Ec.
    + assert (Ef : filter f kept = kept).
      { apply filter_all. intros y Hy. destruct (f y) eqn:Ey; [reflexivity|].
        assert (In y (filter g kept)) by (apply filter_In; split; [exact Hy|unfold g; rewrite Ey; reflexivity]). rewrite Ec in H. destruct H. }
      rewrite <- Ea, Ef in PA. exact (CA kept _ PA Hk).
    + exists v, x.
      assert (Hside : forall y, In y kept -> pl_end v y <= x \/ x + ct <= pl_start v y).
      { intros y Hy. assert (Hy' : In y (A ++ B)) by (eapply Permutation_in; [apply Permutation_sym; exact Hp|apply in_or_app; auto]).
        apply in_app_or in Hy'. destruct Hy'; auto. }
      split; [exact Hside|].
      assert (Ha : In a (filter f kept)) by (rewrite Ea; left; reflexivity). apply filter_In in Ha.
      assert (Hc : In c (filter g kept)) by (rewrite Ec; left; reflexivity). apply filter_In in Hc.
      split; [exists a|exists c].
      * split; [apply Ha|apply Z.leb_le, Ha].
      * split; [apply Hc|]. destruct Hc as [Hc1 Hc2]. unfold g, f in Hc2. apply negb_true_iff, Z.leb_gt in Hc2.
        destruct (Hside c Hc1); lia.
Qed.

Lemma chain_starts : forall v gs lo, Sizes (concat (map cg_items gs)) -> Chain v lo gs ->
  forall p, In p (concat (map cg_items gs)) -> lo <= pl_start v p.
Proof.
  intros v. induction gs as [|g gs IH]; intros lo Hs HC p Hp; [destruct Hp|].
  destruct HC as [(q & ((s & Es) & G2 & _) & Hq) HC]. cbn [map concat] in Hp, Hs. apply in_app_or in Hp.
  destruct Hp as [Hp|Hp]; [destruct (G2 p Hp); lia|].
  assert (H : cg_cut g + ct <= pl_start v p).
  { apply (IH (cg_cut g + ct)); [|exact HC|exact Hp]. intros w y Hy. apply Hs. apply in_or_app. auto. }
  assert (Hqg : In q (cg_items g)) by (rewrite Es; left; reflexivity). destruct (G2 q Hqg).
  destruct (Hs v q ltac:(apply in_or_app; auto)). lia.
Qed.

Lemma chain_cuttable : forall v gs lo, Sizes (concat (map cg_items gs)) -> Chain v lo gs ->
  (forall g, In g gs -> Cuttable ct (cg_items g)) -> Cuttable ct (concat (map cg_items gs)).
Proof.
  intros v. induction gs as [|g gs IH]; intros lo Hs HC Hall.
  - intros kept others Hp Hk. apply Permutation_length in Hp. rewrite app_length in Hp. cbn in Hp. lia.
  - cbn [map concat] in *. destruct HC as [(q & (_ & G2 & _) & Hq) HC].
    assert (Hs' : Sizes (concat (map cg_items gs))) by (intros w y Hy; apply Hs; apply in_or_app; auto).
    apply (cuttable_app v (cg_cut g)).
    + exact Hs.
    + intros p Hp. apply (G2 p Hp).
    + apply chain_starts; assumption.
    + apply Hall. left. reflexivity.
    + eapply IH; [exact Hs'|exact HC|]. intros g' Hg'. apply Hall. right. exact Hg'.
Qed.

Lemma loop_groups : forall rec v l r b t depth gs acc bins', fst (fold_left (region_step i v l r b t depth rec) gs acc) = GROk bins' ->
  forall g, In g gs -> exists l' r' b' t' bins bins'', rec l' r' b' t' (cg_items g) (depth + 1) bins = GROk bins''.
Proof.
  intros rec v l r b t depth. induction gs as [|g gs IH]; intros acc bins' H g' Hg'; [destruct Hg'|].
  cbn [fold_left] in H. destruct Hg' as [<-|Hg']; [|exact (IH _ _ H g' Hg')].
  destruct (region_step i v l r b t depth rec acc g) as [x prev'] eqn:Es.
  assert (Hx : exists bs, x = GROk bs).
  { destruct x as [| | |bs]; try (rewrite step_stuck in H by discriminate; discriminate). eexists; reflexivity. }
  destruct Hx as (bs & ->). unfold region_step in Es. destruct acc as [a prev]. cbn [fst snd] in Es.
  destruct a as [| | |bins]; try (inversion Es; fail).
  destruct (if prev <? _ then _ else _) as [first pr] in Es. destruct first as [| | |bins1]; try (inversion Es; fail).
  destruct (gof (gadd_node i bins1 depth (cg_cut g))) as [| | |bins2]; try (inversion Es; fail).
  inversion Es. do 6 eexists. eassumption.
Qed.

Lemma region_cuttable : forall fuel l r b t items depth bins bins', Sizes items ->
  build_region srt i o fuel l r b t items depth bins = GROk bins' -> Cuttable ct items.
Proof.
  assert (Short : forall items, (length items < 2)%nat -> Cuttable ct items).
  { intros items HL kept others Hp Hk. apply Permutation_length in Hp. rewrite app_length in Hp. lia. }
  induction fuel as [|fuel IH]; intros l r b t items depth bins bins' Hs H.
  - destruct items as [|q [|q' its]]; try (apply Short; simpl; lia). cbn [build_region exact_item] in H.
    destruct (1 <? depth); discriminate.
  - destruct items as [|q [|q' its]]; try (apply Short; simpl; lia). cbn [build_region] in H. set (items := q :: q' :: its) in *.
    assert (E : (if 1 <? depth then exact_item l r b t items else None) = None) by (destruct (1 <? depth); reflexivity).
    rewrite E in H. set (v := gvertical o depth) in *.
    pose proof (find_groups_concat srt ct v items) as Hcat. destruct (Hsort v items) as [Hperm _]. rewrite <- Hcat in Hperm.
    assert (Hs' : Sizes (concat (map cg_items (find_groups srt ct v items)))) by (intros w p Hp; apply Hs; eapply Permutation_in; eassumption).
    assert (C : Cuttable ct (concat (map cg_items (find_groups srt ct v items)))).
    { apply (chain_cuttable v _ 0).
      - exact Hs'.
      - apply groups_chain. intros p Hp. destruct (Hs v p Hp). lia.
      - intros g Hg. destruct (loop_groups _ _ _ _ _ _ _ _ _ _ H g Hg) as (l' & r' & b' & t' & bs & bs' & Er).
        eapply IH; [|exact Er]. intros w p Hp. apply Hs'. apply in_concat. exists (cg_items g). split; [apply in_map; exact Hg|exact Hp]. }
    intros kept others Hp Hk. apply (C kept others); [|exact Hk]. rewrite Hperm. exact Hp.
Qed.

End Found.
