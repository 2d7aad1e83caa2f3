(** * Bins of the nodes of the boxstacks branching scheme *)

From Coq Require Import List ZArith QArith Bool Lia Lqa Arith.
From Verif Require Import Util Common_Model Common_Proof OneDim_Model OneDim_Proof Rect_Model RectFlip_Model RectTree_Model RectSky_Proof RectTree_Proof RectTreeNode_Proof
  Box_Model Stack_Model Stack_Spec Stack_Proof StackTree_Model StackTree_Spec StackSky_Proof StackTree_Proof.
Import ListNotations.
Open Scope Z_scope.

Section Bin.
Variable inst : KInstance.
Variable t : nat.

Lemma stack_group : forall s p, vstack_ok inst t s -> In p (sd_items s) -> item_group inst p = sgroup inst s.
Proof.
  intros s p H Hp. unfold sgroup. destruct (sd_items s) as [|q l] eqn:E; [destruct Hp|]. cbn [hd]. apply (vk_same _ _ _ H); rewrite E; [exact Hp|left; reflexivity].
Qed.

Lemma vbin_inside : forall un st q, vbin_ok inst un (mkKD t 1 st) -> In q st -> inside (v_y (kb_box (kbin inst t))) q.
Proof. intros un st q H Hq. destruct (kg_inside _ _ (vb_geom _ _ _ H) q Hq) as (A & B & C & D). cbn [kd_type] in *. split; [exact A|]. split; assumption. Qed.

Lemma vbin_empty : forall un, vbin_ok inst un (mkKD t 1 []).
Proof.
  intros un. constructor; cbn [kd_stacks].
  - constructor; cbn [kd_stacks]; [intros s []|intros s []|constructor].
  - intros s f [].
  - intros s [].
  - intros H. contradiction.
  - destruct un; cbn; try exact I; intros a b [].
  - intros _. destruct un; cbn; try exact I; intros a b p q [].
Qed.

Lemma vbin_new : forall un l st s, let bt := kbin inst t in
  VSky inst un (v_x (kb_box bt)) (v_y (kb_box bt)) (v_z (kb_box bt)) l st -> vbin_ok inst un (mkKD t 1 st) ->
  VFits inst un (v_x (kb_box bt)) (v_y (kb_box bt)) (v_z (kb_box bt)) l s -> vstack_ok inst t s ->
  (forall f, In f (kb_defects bt) -> off_defect s f) -> total_ok inst (mkKD t 1 (st ++ [s])) -> un <> UOnlyY -> un <> UIncreasingY ->
  (kb_defects bt = [] -> un = UIncreasingX -> forall q, In q st ->
     ((sgroup inst q < sgroup inst s)%nat -> sd_x s <= sd_x q) /\ ((sgroup inst s < sgroup inst q)%nat -> sd_x q <= sd_x s)) ->
  vbin_ok inst un (mkKD t 1 (st ++ [s])).
Proof.
  intros un l st s bt K V F Hs Hdf Hw Hu1 Hu2 Hinc. pose proof (fun q Hq => vbin_inside un st q V Hq) as Hin. pose proof V as [V1 V2 V3 V4 V5 V6]. cbn [kd_type kd_stacks] in V1, V2, V3, V4, V5, V6. fold bt in V2, V6.
  assert (Hleft : forall q, In q st -> rows_meet q s -> sd_xe q <= sd_x s).
  { intros q Hq Hr. destruct (vfits_left inst _ _ _ _ _ _ _ q K F Hq (Hin q Hq) Hr) as (u & _ & _ & _ & _ & _ & U1 & U2). lia. }
  constructor; cbn [kd_type kd_stacks]; fold bt.
  - destruct V1 as [G1 G2 G3]. cbn [kd_type kd_stacks] in G1, G2, G3. constructor; cbn [kd_type kd_stacks]; fold bt.
    + intros q Hq. apply in_snoc in Hq. destruct Hq as [Hq| ->]; [apply G1, Hq|]. destruct F as [F1 F2 _ _ _]. lia.
    + intros q Hq. apply in_snoc in Hq. destruct Hq as [Hq| ->]; [apply G2, Hq|]. apply (vf_z _ _ _ _ _ _ _ F).
    + apply fop_snoc; [exact G3|]. intros q Hq. unfold sapart. destruct (Z.le_gt_cases (sd_ye q) (sd_y s)) as [|N1]; [tauto|]. destruct (Z.le_gt_cases (sd_ye s) (sd_y q)) as [|N2]; [tauto|].
      left. apply Hleft; [exact Hq|]. split; assumption.
  - intros q f Hq. apply in_snoc in Hq. destruct Hq as [Hq| ->]; [apply V2, Hq|apply Hdf].
  - intros q Hq. apply in_snoc in Hq. destruct Hq as [Hq| ->]; [apply V3, Hq|exact Hs].
  - intros _. exact Hw.
  - destruct un; cbn [unloading_ok] in *; try exact I; [|contradiction]. intros a b Ha Hb Hr Hab p q Hp Hq. apply in_snoc in Ha, Hb. destruct Ha as [Ha| ->]; destruct Hb as [Hb| ->].
    + exact (V5 a b Ha Hb Hr Hab p q Hp Hq).
    + rewrite (stack_group a p (V3 a Ha) Hp), (stack_group s q Hs Hq). destruct (vfits_left inst _ _ _ _ _ _ _ a K F Ha (Hin a Ha) Hr) as (u & Hu & U1 & U2 & U3 & U4 & U5 & U6).
      destruct (list_eq_dec Nat.eq_dec (vp_items u) []) as [E|E]; [pose proof (vy_none _ _ _ _ _ _ _ K u Hu E); destruct (Hin a Ha) as (I1 & _); lia|].
      pose proof (vy_group _ _ _ _ _ _ _ K eq_refl u a Hu E Ha U3 U4). pose proof (vf_group _ _ _ _ _ _ _ F eq_refl u Hu E U1 U2). lia.
    + exfalso. assert (Hr' : rows_meet b s) by (destruct Hr; split; assumption). pose proof (Hleft b Hb Hr'). destruct (Hin b Hb) as (I1 & _). pose proof (vf_x _ _ _ _ _ _ _ F). lia.
    + exfalso. pose proof (vf_x _ _ _ _ _ _ _ F). lia.
  - intros En. specialize (V6 En). specialize (Hinc En). destruct un; cbn [increasing_ok] in *; try exact I; [|contradiction]. intros a b p q Ha Hb Hp Hq Hg. apply in_snoc in Ha, Hb. destruct Ha as [Ha| ->]; destruct Hb as [Hb| ->].
    + exact (V6 a b p q Ha Hb Hp Hq Hg).
    + rewrite (stack_group a p (V3 a Ha) Hp), (stack_group s q Hs Hq) in Hg. apply (Hinc eq_refl a Ha). exact Hg.
    + rewrite (stack_group s p Hs Hp), (stack_group b q (V3 b Hb) Hq) in Hg. apply (Hinc eq_refl b Hb). exact Hg.
    + lia.
Qed.

Lemma ord_pairs_upd : forall (f : KSDesc -> KSDesc) k l, (forall s, sd_x (f s) = sd_x s /\ sd_xe (f s) = sd_xe s /\ sd_y (f s) = sd_y s /\ sd_ye (f s) = sd_ye s) ->
  ForallOrdPairs sapart l -> ForallOrdPairs sapart (upd k f l).
Proof.
  intros f k l Hf. revert k. induction l as [|a l IH]; intros k H; [destruct k; exact H|]. inversion H as [|a' l' H1 H2]; subst. destruct (Hf a) as (A1 & A2 & A3 & A4). destruct k as [|k]; cbn [upd].
  - constructor; [|exact H2]. rewrite Forall_forall in *. intros b Hb. specialize (H1 b Hb). unfold sapart in *. rewrite A1, A2, A3, A4. exact H1.
  - constructor; [|apply IH, H2]. rewrite Forall_forall in *. intros b Hb. apply in_upd in Hb. destruct Hb as [Hb|(c & Hc & ->)]; [apply H1, Hb|]. specialize (H1 c Hc). destruct (Hf c) as (B1 & B2 & B3 & B4). unfold sapart in *. rewrite B1, B2, B3, B4. exact H1.
Qed.

Lemma vbin_above : forall un st k s p, vbin_ok inst un (mkKD t 1 st) -> nth_error st k = Some s -> vstack_ok inst t (spush p s) -> vstack_ok inst t s ->
  total_ok inst (mkKD t 1 (upd k (spush p) st)) -> vbin_ok inst un (mkKD t 1 (upd k (spush p) st)).
Proof.
  intros un st k s p V Hk Hs Hs0 Hw. destruct V as [V1 V2 V3 V4 V5 V6]. cbn [kd_type kd_stacks] in V1, V2, V3, V4, V5, V6.
  assert (C : forall a, In a (upd k (spush p) st) -> vstack_ok inst t a /\ exists a0, In a0 st /\ sd_x a = sd_x a0 /\ sd_xe a = sd_xe a0 /\ sd_y a = sd_y a0 /\ sd_ye a = sd_ye a0
    /\ forall q, In q (sd_items a) -> exists q0, In q0 (sd_items a0) /\ item_group inst q = item_group inst q0).
  { intros a Ha. destruct (in_upd_cases _ _ _ _ _ Ha) as [(b & Eb & ->)|(j & _ & Ej)].
    - assert (b = s) by congruence. subst b. split; [exact Hs|]. exists s. split; [eapply nth_error_In; exact Hk|]. do 4 (split; [reflexivity|]). intros q Hq.
      destruct (sd_items s) as [|q0 l0] eqn:E0; [destruct (vk_ne _ _ _ Hs0 E0)|]. exists q0. split; [left; reflexivity|]. apply (vk_same _ _ _ Hs); [exact Hq|]. cbn [spush sd_items]. rewrite E0. left. reflexivity.
    - apply nth_error_In in Ej. split; [apply V3, Ej|]. exists a. split; [exact Ej|]. do 4 (split; [reflexivity|]). intros q Hq. exists q. auto. }
  constructor; cbn [kd_type kd_stacks].
  - destruct V1 as [G1 G2 G3]. cbn [kd_type kd_stacks] in G1, G2, G3. constructor; cbn [kd_type kd_stacks].
    + intros a Ha. destruct (C a Ha) as (_ & a0 & H0 & -> & -> & -> & -> & _). apply G1, H0.
    + intros a Ha. destruct (C a Ha) as (Ok & _). pose proof (vk_height _ _ _ Ok (length (sd_items a)) (le_n _)) as Hh. rewrite firstn_all in Hh. exact Hh.
    + apply ord_pairs_upd; [|exact G3]. intros a. repeat split.
  - intros a f Ha Hf. destruct (C a Ha) as (_ & a0 & H0 & E1 & E2 & E3 & E4 & _). unfold off_defect. rewrite E1, E2, E3, E4. exact (V2 a0 f H0 Hf).
  - intros a Ha. apply (C a Ha).
  - intros _. exact Hw.
  - destruct un; cbn [unloading_ok] in *; try exact I; intros a b Ha Hb Hr Hab q1 q2 Hq1 Hq2;
      destruct (C a Ha) as (_ & a0 & Ha0 & A1 & A2 & A3 & A4 & A5); destruct (C b Hb) as (_ & b0 & Hb0 & B1 & B2 & B3 & B4 & B5);
      destruct (A5 q1 Hq1) as (p1 & Hp1 & ->); destruct (B5 q2 Hq2) as (p2 & Hp2 & ->); apply (V5 a0 b0); try assumption;
      unfold rows_meet, columns_meet in *; lia.
  - intros En. specialize (V6 En). destruct un; cbn [increasing_ok] in *; try exact I; intros a b q1 q2 Ha Hb Hq1 Hq2 Hg;
      destruct (C a Ha) as (_ & a0 & Ha0 & A1 & A2 & A3 & A4 & A5); destruct (C b Hb) as (_ & b0 & Hb0 & B1 & B2 & B3 & B4 & B5);
      destruct (A5 q1 Hq1) as (p1 & Hp1 & E1); destruct (B5 q2 Hq2) as (p2 & Hp2 & E2); rewrite E1, E2 in Hg; rewrite ?A1, ?A3, ?B1, ?B3; apply (V6 a0 b0 p1 p2); assumption.
Qed.

Lemma vstack_new : forall x r xs ys, (x < length (kx_items inst))%nat -> In r (ki_rotations (kitem inst x)) ->
  0 < v_x (ksize inst (x, r)) -> 0 < v_y (ksize inst (x, r)) -> 0 <= v_z (kb_box (kbin inst t)) -> v_z (ksize inst (x, r)) <= v_z (kb_box (kbin inst t)) ->
  vtoo_dense (kbin inst t) (ki_weight (kitem inst x)) (v_x (ksize inst (x, r))) (v_y (ksize inst (x, r))) = false ->
  vstack_ok inst t (mkKSD xs (xs + v_x (ksize inst (x, r))) ys (ys + v_y (ksize inst (x, r))) [(x, r)]).
Proof.
  intros x r xs ys Hx Hr Px Py Pz Hz Hde. constructor; cbn [sd_items sd_x sd_xe sd_y sd_ye].
  - discriminate.
  - intros p [<-|[]]. cbn [fst snd]. split; [exact Hx|]. split; [exact Hr|]. unfold item_size. unfold ksize in *. cbn [fst snd] in *. lia.
  - intros p q [<-|[]] [<-|[]]. auto.
  - intros k Hk. cbn [length] in Hk. destruct k as [|[|k]]; [cbn; exact Pz| |lia]. unfold stack_height. cbn [firstn tl]. rewrite zsum_cons, !zsum_nil. unfold kheight. unfold ksize in Hz. cbn [fst snd] in *. lia.
  - intros d Ed. pose proof (vdense_false _ _ _ _ Hde Px Py d Ed) as A. rewrite qsum_cons. change (qsum (kweight inst) []) with 0%Q. rewrite Qplus_0_r. unfold kweight. cbn [fst].
    unfold base. cbn [sd_x sd_xe sd_y sd_ye]. replace (xs + v_x (ksize inst (x, r)) - xs) with (v_x (ksize inst (x, r))) by lia. replace (ys + v_y (ksize inst (x, r)) - ys) with (v_y (ksize inst (x, r))) by lia. exact A.
  - cbn [length]. lia.
  - intros below p above w E Hne. exfalso. destruct below as [|b below]; [injection E as _ <-; apply Hne; reflexivity|]. injection E as _ E. destruct below; discriminate.
Qed.

Lemma vstack_push : forall u s x r, vstack_ok inst t s -> Shows inst u s -> (x < length (kx_items inst))%nat -> In r (ki_rotations (kitem inst x)) ->
  0 < v_x (ksize inst (x, r)) -> 0 < v_y (ksize inst (x, r)) ->
  v_x (ksize inst (x, r)) = sd_xe s - sd_x s -> v_y (ksize inst (x, r)) = sd_ye s - sd_y s ->
  ki_stackability (kitem inst x) = ki_stackability (kitem inst (last (vp_items u) 0%nat)) -> ki_group (kitem inst x) = ki_group (kitem inst (last (vp_items u) 0%nat)) ->
  vp_ze u + (v_z (ksize inst (x, r)) - ki_nesting (kitem inst x)) <= v_z (kb_box (kbin inst t)) ->
  vtoo_dense (kbin inst t) (vp_weight u + ki_weight (kitem inst x)) (v_x (ksize inst (x, r))) (v_y (ksize inst (x, r))) = false ->
  Z.of_nat (length (vp_items u)) + 1 <= Z.min (vp_max u) (ki_max_stackability (kitem inst x)) ->
  (forall q, vp_rem u = Some q -> (ki_weight (kitem inst x) <= q)%Q) ->
  vstack_ok inst t (spush (x, r) s).
Proof.
  intros u s x r V Sh Hx Hr Px Py Ex Ey Est Egr Hz Hde Hn Hrem. pose proof (vk_ne _ _ _ V) as Hne.
  assert (L : exists q, In q (sd_items s) /\ fst q = last (vp_items u) 0%nat).
  { rewrite (sh_items _ _ _ Sh). destruct (exists_last_or_nil _ (sd_items s)) as [E|(l & q & E)]; [contradiction|]. exists q. rewrite E. split; [apply in_snoc; right; reflexivity|]. rewrite map_app. cbn [map]. rewrite last_snoc. reflexivity. }
  destruct L as (q0 & Hq0 & Eq0). rewrite <- Eq0 in Est, Egr.
  assert (Hsame : forall q, In q (sd_items s) -> ki_stackability (kitem inst (fst q)) = ki_stackability (kitem inst x) /\ item_group inst q = item_group inst (x, r)).
  { intros q Hq. destruct (vk_same _ _ _ V q q0 Hq Hq0) as [A B]. split; [congruence|]. unfold item_group in *. cbn [fst]. congruence. }
  constructor; cbn [spush sd_items sd_x sd_xe sd_y sd_ye].
  - intro E. apply app_eq_nil in E. destruct E. discriminate.
  - intros p Hp. apply in_snoc in Hp. destruct Hp as [Hp| ->]; [apply (vk_item _ _ _ V), Hp|]. cbn [fst snd]. auto.
  - intros p q Hp Hq. apply in_snoc in Hp, Hq. destruct Hp as [Hp| ->]; destruct Hq as [Hq| ->].
    + apply (vk_same _ _ _ V); assumption.
    + apply Hsame, Hp.
    + destruct (Hsame q Hq) as [A B]. cbn [fst]. split; congruence.
    + auto.
  - intros k Hk. rewrite app_length in Hk. cbn [length] in Hk. destruct (Nat.leb_spec k (length (sd_items s))) as [C|C].
    + rewrite firstn_app. replace (k - length (sd_items s))%nat with 0%nat by lia. cbn [firstn]. rewrite app_nil_r. apply (vk_height _ _ _ V), C.
    + rewrite firstn_all2 by (rewrite app_length; cbn [length]; lia). rewrite stack_height_snoc. destruct (sd_items s) as [|q l] eqn:E; [contradiction|]. rewrite <- E in *. rewrite <- (sh_ze _ _ _ Sh). unfold kheight. unfold ksize in Hz. cbn [fst snd] in *. lia.
  - intros d Ed. pose proof (vdense_false _ _ _ _ Hde Px Py d Ed) as A. rewrite qsum_snoc. unfold kweight at 2. cbn [fst]. rewrite <- (sh_weight _ _ _ Sh).
    unfold base. cbn [spush sd_x sd_xe sd_y sd_ye]. rewrite <- Ex, <- Ey. exact A.
  - intros _ p Hp. rewrite app_length. cbn [length]. assert (Lu : length (vp_items u) = length (sd_items s)) by (rewrite (sh_items _ _ _ Sh), map_length; reflexivity).
    apply in_snoc in Hp. destruct Hp as [Hp| ->]; [pose proof (sh_max _ _ _ Sh p Hp); lia|cbn [fst]; lia].
  - intros below p above w E Ha Ew. destruct (snoc_split _ _ _ _ _ _ E) as [(Ea & _)|(above' & -> & E')]; [contradiction|].
    destruct (sh_rem _ _ _ Sh below p above' w E' Ew) as (q & Eq & Hq). specialize (Hrem q Eq). rewrite qsum_snoc. unfold kweight at 2. cbn [fst]. lra.
Qed.

(** Weights and moments of the groups. *)
Lemma gweight_one : forall h x r, (gweight inst h [(x, r)] == if Nat.leb h (ki_group (kitem inst x)) then ki_weight (kitem inst x) else 0)%Q.
Proof. intros h x r. unfold gweight. rewrite qsum_cons. change (qsum _ []) with 0%Q. cbn [fst]. unfold kweight. cbn [fst]. destruct (Nat.leb _ _); ring. Qed.

Lemma gweight_snoc : forall h ps p, (gweight inst h (ps ++ [p]) == gweight inst h ps + gweight inst h [p])%Q.
Proof. intros h ps p. unfold gweight. rewrite qsum_app. reflexivity. Qed.

Lemma add_groups_nth : forall g v l h, (h < length l)%nat -> (nth h (add_groups g v l) 0 == nth h l 0 + if Nat.leb h g then v else 0)%Q.
Proof.
  intros g v l h Hh. unfold add_groups. rewrite (proj2 (add_groups_spec (S g) v l) h Hh). destruct (Nat.ltb_spec h (S g)), (Nat.leb_spec h g); try lia; reflexivity.
Qed.
Lemma add_groups_length : forall g v l, length (add_groups g v l) = length l.
Proof. intros g v l. apply (add_groups_spec (S g) v l). Qed.

Lemma group_lt : forall x, (x < length (kx_items inst))%nat -> (ki_group (kitem inst x) < kgroups inst)%nat.
Proof.
  intros x Hx. unfold kgroups. assert (M : forall l n, (n <= fold_left (fun n it => Nat.max n (S (ki_group it))) l n)%nat).
  { induction l as [|a l IH]; intro n; cbn [fold_left]; [lia|]. specialize (IH (Nat.max n (S (ki_group a)))). lia. }
  assert (G : forall l n it, In it l -> (ki_group it < fold_left (fun n it => Nat.max n (S (ki_group it))) l n)%nat).
  { induction l as [|a l IH]; intros n it H; [destruct H|]. cbn [fold_left]. destruct H as [->|H]; [|apply IH, H]. specialize (M l (Nat.max n (S (ki_group it)))). lia. }
  apply G. apply nth_In. exact Hx.
Qed.

Lemma mid_new : forall xs xj y ye ps, (mid (mkKSD xs (xs + xj) y ye ps) == vcenter xs xj)%Q.
Proof. intros. unfold mid, vcenter. cbn [sd_x sd_xe]. rewrite !inject_Z_plus. field. Qed.
End Bin.

(** ** Directions *)

(** The stack of the instance for a stack of the instance of the direction. *)
Definition orient (dir : bool) (s : KSDesc) : KSDesc := if dir then mkKSD (sd_y s) (sd_ye s) (sd_x s) (sd_xe s) (sd_items s) else s.

Lemma orient_false : forall st, map (orient false) st = st.
Proof. intros st. apply List.map_id. Qed.

Lemma orient_items : forall dir s, sd_items (orient dir s) = sd_items s.
Proof. intros [|] s; reflexivity. Qed.
Lemma orient_base : forall dir s, base (orient dir s) = base s.
Proof. intros [|] s; [unfold base; cbn; ring|reflexivity]. Qed.
Lemma orient_kd_items : forall dir t c st, kd_items (mkKD t c (map (orient dir) st)) = kd_items (mkKD t c st).
Proof. intros dir t c st. unfold kd_items. cbn [kd_stacks]. rewrite !flat_map_concat_map, map_map. f_equal. apply map_ext. intros s. apply orient_items. Qed.

Section Dir.
Variable s : VScheme.
Hypothesis Hd : vdomain s.

Definition dir_allowed (dir : bool) : Prop := dir = true -> vs_direction s <> Some false.

Lemma dir_upright : forall dir x r, dir_allowed dir -> dir = true -> (x < length (kx_items (vs_i s)))%nat -> In r (ki_rotations (kitem (vs_i s) x)) -> upright r.
Proof. intros dir x r Ha E Hx Hr. destruct (vd_upright s Hd) as [C|C]; [destruct (Ha E C)|]. exact (C _ r (nth_In _ _ Hx) Hr). Qed.

Lemma dir_size : forall dir x r, dir_allowed dir -> (x < length (kx_items (vs_i s)))%nat -> In r (ki_rotations (kitem (vs_i s) x)) ->
  ksize (vinst s dir) (x, r) = if dir then swap_box (ksize (vs_i s) (x, r)) else ksize (vs_i s) (x, r).
Proof.
  intros [|] x r Ha Hx Hr; cbn [vinst]; [|reflexivity]. unfold ksize. cbn [fst snd]. rewrite kflip_item_eq. cbn [kflip_item ki_box]. apply rotate_swap. exact (dir_upright true x r Ha eq_refl Hx Hr).
Qed.

Lemma dir_height : forall dir ps, dir_allowed dir -> (forall p, In p ps -> (fst p < length (kx_items (vs_i s)))%nat /\ In (snd p) (ki_rotations (kitem (vs_i s) (fst p)))) ->
  stack_height (vinst s dir) ps = stack_height (vs_i s) ps.
Proof.
  intros dir ps Ha Hp. unfold stack_height. f_equal.
  - apply zsum_ext. intros [x r] Hin. destruct (Hp _ Hin) as [H1 H2]. cbn [fst snd] in *. pose proof (dir_size dir x r Ha H1 H2) as E. unfold ksize in E. cbn [fst snd] in E. unfold kheight. cbn [fst snd]. rewrite E. destruct dir; reflexivity.
  - apply zsum_ext. intros p _. destruct (vdom_item s dir (fst p)) as (_ & _ & _ & _ & _ & _ & -> & _). reflexivity.
Qed.

Lemma dir_weight : forall dir ps, (qsum (kweight (vinst s dir)) ps == qsum (kweight (vs_i s)) ps)%Q.
Proof. intros dir ps. apply qsum_ext. intros p _. unfold kweight. destruct (vdom_item s dir (fst p)) as (_ & _ & _ & -> & _). reflexivity. Qed.

Lemma dir_group : forall dir p, item_group (vinst s dir) p = item_group (vs_i s) p.
Proof. intros dir p. unfold item_group. destruct (vdom_item s dir (fst p)) as (_ & _ & -> & _). reflexivity. Qed.

Lemma dir_bases : forall dir, dir_allowed dir -> same_bases (vinst s dir).
Proof.
  intros [|] Ha; cbn [vinst]; [|apply (vd_bases s Hd)]. intros p q Hp Hq Hrp Hrq Hst Hg. destruct (vdom_lengths s true) as [L _]. cbn [vinst] in L. rewrite L in Hp, Hq.
  pose proof (vdom_item s true (fst p)) as Ep. pose proof (vdom_item s true (fst q)) as Eq0. cbv zeta in Ep, Eq0. cbn [vinst] in Ep, Eq0. destruct Ep as (_ & _ & _ & _ & Ep1 & Ep2 & _). destruct Eq0 as (_ & _ & _ & _ & Eq1 & Eq2 & _).
  rewrite Ep1 in Hrp. rewrite Eq1 in Hrq. rewrite Ep2, Eq2 in Hst. pose proof (dir_group true p) as G1. pose proof (dir_group true q) as G2. cbn [vinst] in G1, G2. rewrite G1, G2 in Hg.
  pose proof (vd_bases s Hd p q Hp Hq Hrp Hrq Hst Hg) as B.
  pose proof (dir_size true (fst p) (snd p) Ha Hp Hrp) as S1. pose proof (dir_size true (fst q) (snd q) Ha Hq Hrq) as S2. cbn [vinst] in S1, S2. unfold ksize in S1, S2. cbn [fst snd] in S1, S2.
  unfold item_size in *. rewrite S1, S2. cbn [swap_box v_x v_y]. tauto.
Qed.

Lemma dir_ok : forall dir t st, dir_allowed dir -> vbin_ok (vinst s dir) (vunloading s dir) (mkKD t 1 st) -> vbin_ok (vs_i s) (vs_unloading s) (mkKD t 1 (map (orient dir) st)).
Proof.
  intros [|] t st Ha H; [|rewrite orient_false; exact H]. destruct H as [H1 H2 H3 H4 H5 H6]. cbn [kd_type kd_stacks] in *.
  assert (Eb : kbin (vinst s true) t = kflip_bin (kbin (vs_i s) t)) by apply kflip_bin_eq. rewrite Eb in H2, H6. cbn [kflip_bin kb_defects] in H2, H6.
  assert (Hit : forall a p, In a st -> In p (sd_items a) -> (fst p < length (kx_items (vs_i s)))%nat /\ In (snd p) (ki_rotations (kitem (vs_i s) (fst p)))).
  { intros a p Hain Hp. destruct (vk_item _ _ _ (H3 a Hain) p Hp) as (A & B & _). destruct (vdom_lengths s true) as [L _]. rewrite L in A. destruct (vdom_item s true (fst p)) as (_ & _ & _ & _ & E & _). rewrite E in B. auto. }
  assert (Hg : forall p, item_group (vs_i s) p = item_group (vinst s true) p) by (intros p; symmetry; apply dir_group).
  constructor; cbn [kd_type kd_stacks].
  - destruct H1 as [G1 G2 G3]. cbn [kd_type kd_stacks] in G1, G2, G3. rewrite Eb in G1, G2. cbn [kflip_bin kb_box swap_box v_x v_y v_z] in G1, G2. constructor; cbn [kd_type kd_stacks].
    + intros a Hin. apply in_map_iff in Hin. destruct Hin as (b & <- & Hb). specialize (G1 b Hb). cbn. lia.
    + intros a Hin. apply in_map_iff in Hin. destruct Hin as (b & <- & Hb). rewrite orient_items. rewrite <- (dir_height true (sd_items b) Ha (fun p Hp => Hit b p Hb Hp)). apply G2, Hb.
    + clear - G3. induction G3 as [|a l F G IH]; [constructor|]. cbn [map]. constructor; [|exact IH]. rewrite Forall_forall in *. intros b Hb. apply in_map_iff in Hb. destruct Hb as (c & <- & Hc). specialize (F c Hc). unfold sapart in *. cbn. tauto.
  - intros a f Hin Hf. apply in_map_iff in Hin. destruct Hin as (b & <- & Hb). specialize (H2 b (swap_defect f) Hb (in_map _ _ _ Hf)). unfold off_defect in *. cbn in *. tauto.
  - intros a Hin. apply in_map_iff in Hin. destruct Hin as (b & <- & Hb). pose proof (H3 b Hb) as V. pose proof (fun p Hp => Hit b p Hb Hp) as Hi. constructor; rewrite ?orient_items.
    + apply (vk_ne _ _ _ V).
    + intros p Hp. destruct (Hi p Hp) as [A B]. split; [exact A|]. split; [exact B|]. destruct (vk_item _ _ _ V p Hp) as (_ & _ & C & D). pose proof (dir_size true (fst p) (snd p) Ha A B) as E. unfold ksize in E. cbn [fst snd] in E. unfold item_size in *. rewrite E in C, D. cbn in C, D. cbn. auto.
    + intros p q Hp Hq. destruct (vk_same _ _ _ V p q Hp Hq) as [A B]. rewrite !Hg. split; [|exact B]. destruct (vdom_item s true (fst p)) as (_ & _ & _ & _ & _ & E1 & _). destruct (vdom_item s true (fst q)) as (_ & _ & _ & _ & _ & E2 & _). congruence.
    + intros k Hk. pose proof (vk_height _ _ _ V k Hk) as A. rewrite Eb in A. cbn [kflip_bin kb_box swap_box v_z] in A. rewrite (dir_height true) in A; [exact A|exact Ha|]. intros p Hp. apply Hi. rewrite <- (firstn_skipn k (sd_items b)). apply in_or_app. left. exact Hp.
    + intros d Ed. rewrite <- (dir_weight true), orient_base. apply (vk_density _ _ _ V). rewrite Eb. exact Ed.
    + intros Hl p Hp. destruct (vdom_item s true (fst p)) as (_ & _ & _ & _ & _ & _ & _ & E & _). rewrite <- E. apply (vk_number _ _ _ V Hl p Hp).
    + intros below p above w E Hne Ew. rewrite <- (dir_weight true). apply (vk_above _ _ _ V below p above w E Hne). destruct (vdom_item s true (fst p)) as (_ & _ & _ & _ & _ & _ & _ & _ & E2). rewrite E2. exact Ew.
  - intros Hne. assert (Hne' : st <> []) by (intro E; apply Hne; rewrite E; reflexivity). specialize (H4 Hne'). unfold total_ok in *. rewrite orient_kd_items. cbn [kd_type] in *. rewrite Eb in H4. eapply most_compat; [apply dir_weight|exact H4].
  - cbn [vunloading] in H5. destruct (vs_unloading s) eqn:Eu; cbn [flip_unloading unloading_ok] in *; try exact I; intros a b Hina Hinb Hr Hab p q Hp Hq;
      apply in_map_iff in Hina, Hinb; destruct Hina as (a' & <- & Ha'); destruct Hinb as (b' & <- & Hb'); rewrite !Hg; rewrite orient_items in Hp, Hq; apply (H5 a' b' Ha' Hb'); try assumption.
  - intros En. cbn [vunloading] in H6. rewrite En in H6. specialize (H6 eq_refl). destruct (vs_unloading s) eqn:Eu; cbn [flip_unloading increasing_ok] in *; try exact I; intros a b p q Hina Hinb Hp Hq Hgr;
      apply in_map_iff in Hina, Hinb; destruct Hina as (a' & <- & Ha'); destruct Hinb as (b' & <- & Hb'); rewrite !Hg in Hgr; rewrite orient_items in Hp, Hq; cbn [orient sd_x sd_y]; apply (H6 a' b' p q Ha' Hb'); assumption.
Qed.
End Dir.
