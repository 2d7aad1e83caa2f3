(** * Proofs about the cheap bounds of the boxstacks optimize function *)

From Coq Require Import List ZArith QArith Bool Lia Lqa Arith.
From Verif Require Import Util Common_Model OneDim_Model OneDimBuilder_Model OneDimBuilder_Proof OneDimSub_Proof Tree1D_Spec OneDimBounds_Spec Rect_Model Box_Model Box_Spec Stack_Model Stack_Spec
  BoxBuilder_Model BoxBuilder_Spec BoxBuilder_Proof BoxFlip_Model BoxFlip_Proof BoxDff_Model BoxDff_Proof
  BoxBounds_Model BoxBounds_Spec BoxBounds_Proof StackBounds_Model StackBounds_Spec.
Import ListNotations.
Open Scope Z_scope.

(** ** Stacks seen as boxes *)

(** [j] has the same bins and items that are not higher in a stack. *)
Record kbelow (i : KInstance) (j : BInstance) : Prop := {
  kw_nitems : length (bx_items j) = length (kx_items i);
  kw_nbins : length (bx_bins j) = length (kx_bins i);
  kw_item : forall x, (x < length (kx_items i))%nat -> let it := kitem i x in let jt := bxitem j x in
    bi_profit jt = ki_profit it /\ bi_copies jt = ki_copies it /\ bi_rotations jt = ki_rotations it /\ bi_weight jt = ki_weight it /\
    forall r, In r (ki_rotations it) -> v_x (rotate (bi_box jt) r) = v_x (rotate (ki_box it) r) /\ v_y (rotate (bi_box jt) r) = v_y (rotate (ki_box it) r) /\
      0 < v_z (rotate (bi_box jt) r) <= v_z (rotate (ki_box it) r) - Z.max (ki_nesting it) 0;
  kw_bin : forall t, (t < length (kx_bins i))%nat -> let bt := kbin i t in let jt := bxbin j t in
    bn_box jt = kb_box bt /\ bn_cost jt = kb_cost bt /\ bn_copies jt = kb_copies bt /\ bn_copies_min jt = kb_copies_min bt /\
    bn_max_weight jt = kb_max_weight bt /\ bn_resources jt = []
}.

Lemma fop_flat_map : forall (A B : Type) (R : B -> B -> Prop) (f : A -> list B) l,
  (forall a, In a l -> ForallOrdPairs R (f a)) -> ForallOrdPairs (fun a b => forall x y, In x (f a) -> In y (f b) -> R x y) l -> ForallOrdPairs R (flat_map f l).
Proof.
  intros A B R f l. induction l as [|a l IH]; intros H1 H2; [constructor|]. cbn [flat_map]. inversion H2 as [|u v F1 F2]; subst.
  assert (G : ForallOrdPairs R (flat_map f l)) by (apply IH; [intros b Hb; apply H1; right; exact Hb|exact F2]).
  assert (K : forall x y, In x (f a) -> In y (flat_map f l) -> R x y).
  { intros x y Hx Hy. apply in_flat_map in Hy. destruct Hy as (b & Hb & Hy). rewrite Forall_forall in F1. apply (F1 b Hb x y Hx Hy). }
  specialize (H1 a (or_introl eq_refl)). clear IH H2 F1 F2. induction H1 as [|x m Hx Hm IHm]; [exact G|]. cbn [app]. constructor.
  - apply Forall_app. split; [exact Hx|]. rewrite Forall_forall. intros y Hy. apply K; [left; reflexivity|exact Hy].
  - apply IHm. intros u v Hu Hv. apply K; [right; exact Hu|exact Hv].
Qed.

Section Embed.

Variable i : KInstance.
Variable j : BInstance.
Hypothesis Hb : kbelow i j.

Definition jz (p : nat * Rotation) : Z := v_z (rotate (bi_box (bxitem j (fst p))) (snd p)).
Fixpoint kplaces (x y z : Z) (ps : list (nat * Rotation)) : list BPlace :=
  match ps with [] => [] | p :: l => mkBP (fst p) (mkV x y z) (snd p) :: kplaces x y (z + jz p) l end.
Definition kplace_stack (s : KSDesc) : list BPlace := kplaces (sd_x s) (sd_y s) 0 (sd_items s).
Definition kbox_desc (d : KDesc) : XDesc := mkXD (kd_type d) (kd_copies d) (flat_map kplace_stack (kd_stacks d)).
Definition bp_pair (q : BPlace) : nat * Rotation := (bp_type q, bp_rot q).

Lemma kplaces_pairs : forall x y ps z, map bp_pair (kplaces x y z ps) = ps.
Proof. intros x y ps. induction ps as [|[a r] l IH]; intro z; [reflexivity|]. cbn [kplaces map fst snd bp_pair bp_type bp_rot]. rewrite IH. reflexivity. Qed.

Lemma kdesc_pairs : forall d, map bp_pair (xd_items (kbox_desc d)) = kd_items d.
Proof.
  intro d. cbn [kbox_desc xd_items]. unfold kd_items. induction (kd_stacks d) as [|s l IH]; [reflexivity|]. cbn [flat_map]. rewrite map_app, IH.
  unfold kplace_stack. rewrite kplaces_pairs. reflexivity.
Qed.

Lemma bcount_pairs : forall x l, bcount x l = kcount x (map bp_pair l).
Proof.
  intros x l. unfold bcount, kcount. induction l as [|q l IH]; [reflexivity|]. cbn [map filter]. rewrite zsum_cons, <- IH. cbn [bp_pair fst].
  destruct (Nat.eqb (bp_type q) x); cbn [length]; lia.
Qed.

Lemma kpacked_boxes : forall x ds, bpacked x (map kbox_desc ds) = kpacked x ds.
Proof.
  intros x ds. unfold bpacked, kpacked. rewrite zsum_map. apply zsum_ext. intros d _. rewrite bcount_pairs, kdesc_pairs. reflexivity.
Qed.
Lemma kused_boxes : forall t ds, bused_bins t (map kbox_desc ds) = kused t ds.
Proof. intros t ds. unfold bused_bins, kused. rewrite zsum_map. apply zsum_ext. intros d _. reflexivity. Qed.
Lemma kbins_boxes : forall ds, bbins_used (map kbox_desc ds) = kbins_used ds.
Proof. intros ds. unfold bbins_used, kbins_used. rewrite zsum_map. apply zsum_ext. intros d _. reflexivity. Qed.

(** A sum over the items of a bin. *)
Lemma items_sum : forall (f : nat -> Q) d, (qsum (fun q => f (bp_type q)) (xd_items (kbox_desc d)) == qsum (fun p => f (fst p)) (kd_items d))%Q.
Proof. intros f d. rewrite <- (kdesc_pairs d), qsum_map. apply qsum_ext. intros q _. reflexivity. Qed.

(** One stack. *)
Variable s : KSDesc.
Hypothesis Hs : kstack_items i s.

Lemma jz_item : forall p, In p (sd_items s) -> (fst p < length (kx_items i))%nat /\ In (snd p) (bi_rotations (bxitem j (fst p))) /\
  v_x (rotate (bi_box (bxitem j (fst p))) (snd p)) = sd_xe s - sd_x s /\ v_y (rotate (bi_box (bxitem j (fst p))) (snd p)) = sd_ye s - sd_y s /\
  0 < jz p <= kheight i p - Z.max (ki_nesting (kitem i (fst p))) 0.
Proof.
  intros p Hp. destruct (Hs p Hp) as (A & B & C & D). destruct (kw_item i j Hb (fst p) A) as (_ & _ & E & _ & F). specialize (F (snd p) B). destruct F as (F1 & F2 & F3).
  rewrite F1, F2, E. unfold jz, kheight. tauto.
Qed.

Lemma stack_high : zsum jz (sd_items s) <= stack_height i (sd_items s).
Proof.
  assert (G : forall ps, (forall p, In p ps -> In p (sd_items s)) -> zsum jz ps <= zsum (kheight i) ps - zsum (fun p => ki_nesting (kitem i (fst p))) ps).
  { induction ps as [|p l IH]; intro H; [rewrite !zsum_nil; lia|]. rewrite !zsum_cons. specialize (IH (fun q Hq => H q (or_intror Hq))).
    destruct (jz_item p (H p (or_introl eq_refl))) as (_ & _ & _ & _ & J). lia. }
  unfold stack_height. pose proof jz_item as J. destruct (sd_items s) as [|p l] eqn:E; cbn [tl]; [rewrite !zsum_nil; lia|]. rewrite !zsum_cons.
  specialize (G l (fun q Hq => or_intror Hq)). destruct (J p (or_introl eq_refl)) as (_ & _ & _ & _ & J1). lia.
Qed.

Lemma kplaces_in : forall x y ps z q, (forall p, In p ps -> 0 <= jz p) -> In q (kplaces x y z ps) ->
  v_x (bp_pos q) = x /\ v_y (bp_pos q) = y /\ z <= v_z (bp_pos q) /\ v_z (bp_pos q) + jz (bp_pair q) <= z + zsum jz ps /\ In (bp_pair q) ps.
Proof.
  intros x y ps. induction ps as [|p l IH]; intros z q Hz Hq; [destruct Hq|]. cbn [kplaces] in Hq. rewrite zsum_cons.
  assert (N : 0 <= zsum jz l) by (apply zsum_nonneg; intros p' Hp'; apply Hz; right; exact Hp'). pose proof (Hz p (or_introl eq_refl)) as Hp. destruct Hq as [<-|Hq].
  - destruct p as [a r]. unfold bp_pair. cbn [bp_pos v_x v_y v_z bp_type bp_rot fst snd]. repeat split; try lia. left. reflexivity.
  - destruct (IH _ q (fun p' Hp' => Hz p' (or_intror Hp')) Hq) as (A & B & C & D & E). repeat split; try assumption; try lia. right. exact E.
Qed.

Lemma jend_z : forall q, bp_end j q AZ = v_z (bp_pos q) + jz (bp_pair q).
Proof. intro q. unfold bp_end. rewrite bp_size_rotate. reflexivity. Qed.

Lemma kplaces_fop : forall x y ps z, (forall p, In p ps -> 0 <= jz p) -> ForallOrdPairs (bdisjoint j) (kplaces x y z ps).
Proof.
  intros x y ps. induction ps as [|p l IH]; intros z Hz; [constructor|]. cbn [kplaces]. constructor; [|apply IH; intros p' Hp'; apply Hz; right; exact Hp'].
  rewrite Forall_forall. intros q Hq. destruct (kplaces_in _ _ _ _ q (fun p' Hp' => Hz p' (or_intror Hp')) Hq) as (_ & _ & C & _). exists AZ. left. rewrite jend_z.
  destruct p as [a r]. unfold bp_pair. cbn [vat bp_pos v_z bp_type bp_rot fst snd]. exact C.
Qed.

(** Where the boxes of a stack are. *)
Lemma stack_boxes : forall q, In q (kplace_stack s) -> (bp_type q < length (bx_items j))%nat /\ In (bp_rot q) (bi_rotations (bxitem j (bp_type q))) /\
  vat (bp_pos q) AX = sd_x s /\ bp_end j q AX = sd_xe s /\ vat (bp_pos q) AY = sd_y s /\ bp_end j q AY = sd_ye s /\
  0 <= vat (bp_pos q) AZ /\ bp_end j q AZ <= stack_height i (sd_items s).
Proof.
  intros q Hq. assert (Hz : forall p, In p (sd_items s) -> 0 <= jz p) by (intros p Hp; destruct (jz_item p Hp) as (_ & _ & _ & _ & J); lia).
  destruct (kplaces_in _ _ _ _ q Hz Hq) as (A & B & C & D & E). destruct (jz_item _ E) as (J1 & J2 & J3 & J4 & J5). cbn [bp_pair fst snd] in J1, J2, J3, J4.
  pose proof stack_high as SH. unfold bp_end at 1 2. rewrite !bp_size_rotate, jend_z. cbn [vat]. rewrite A, B, J3, J4, (kw_nitems i j Hb). repeat split; try assumption; lia.
Qed.
Lemma stack_fop : ForallOrdPairs (bdisjoint j) (kplace_stack s).
Proof. apply kplaces_fop. intros p Hp. destruct (jz_item p Hp) as (_ & _ & _ & _ & J). lia. Qed.
End Embed.

Section Packing.

Variable i : KInstance.
Variable j : BInstance.
Hypothesis Hb : kbelow i j.
Variable ds : list KDesc.
Hypothesis Hp : kpacking i ds.
Let bs := map (kbox_desc j) ds.

Lemma stacks_fop : forall l, (forall s, In s l -> kstack_items i s) -> ForallOrdPairs sapart l -> ForallOrdPairs (bdisjoint j) (flat_map (kplace_stack j) l).
Proof.
  intros l S A. apply fop_flat_map; [intros s Hs; apply (stack_fop i j Hb s (S s Hs))|].
  induction A as [|s l F A IH]; [constructor|]. constructor; [|apply IH; intros s' Hs'; apply S; right; exact Hs'].
  rewrite Forall_forall in F |- *. intros s' Hs' q q' Hq Hq'. specialize (F s' Hs').
  destruct (stack_boxes i j Hb s (S s (or_introl eq_refl)) q Hq) as (_ & _ & Q3 & Q4 & Q5 & Q6 & _).
  destruct (stack_boxes i j Hb s' (S s' (or_intror Hs')) q' Hq') as (_ & _ & R3 & R4 & R5 & R6 & _).
  destruct F as [F|[F|[F|F]]]; [exists AX; left|exists AX; right|exists AY; left|exists AY; right]; congruence || lia.
Qed.

Lemma embed_packing : bpacking_ok j bs.
Proof.
  constructor.
  - intros e He. unfold bs in He. apply in_map_iff in He. destruct He as (d & <- & Hd). destruct (kk_bins i ds Hp d Hd) as (T & C & G & _ & S).
    cbn [kbox_desc xd_type xd_copies xd_items]. split; [rewrite (kw_nbins i j Hb); exact T|]. split; [exact C|].
    destruct (kw_bin i j Hb (kd_type d) T) as (B1 & _). constructor; [|apply stacks_fop; [exact S|apply (kg_apart i d G)]].
    intros q Hq. apply in_flat_map in Hq. destruct Hq as (s & Hs & Hq). destruct (stack_boxes i j Hb s (S s Hs) q Hq) as (Q1 & Q2 & Q3 & Q4 & Q5 & Q6 & Q7 & Q8).
    destruct (kg_inside i d G s Hs) as (I1 & I2 & I3 & I4). pose proof (kg_high i d G s Hs) as I5. constructor; [exact Q1| |exact Q2].
    rewrite B1. intros []; cbn [vat] in *; lia.
  - intros x Hx. rewrite (kw_nitems i j Hb) in Hx. unfold bs. rewrite kpacked_boxes. destruct (kw_item i j Hb x Hx) as (_ & C & _). cbv zeta in C. rewrite C.
    apply (kk_items i ds Hp x Hx).
Qed.

Lemma embed_box : (forall x, (x < length (kx_items i))%nat -> bi_copies_min (bxitem j x) <= kpacked x ds) -> xbox_packing j bs.
Proof.
  intro H. constructor; [exact embed_packing| |].
  - intros t Ht. rewrite (kw_nbins i j Hb) in Ht. unfold bs. rewrite kused_boxes. destruct (kw_bin i j Hb t Ht) as (_ & _ & C & D & _). cbv zeta in C, D. rewrite C, D. apply (kk_used i ds Hp t Ht).
  - intros x Hx. rewrite (kw_nitems i j Hb) in Hx. unfold bs. rewrite kpacked_boxes. apply H. exact Hx.
Qed.

Lemma embed_all : kall_packed i ds -> ball_packed j bs.
Proof.
  intros H x Hx. rewrite (kw_nitems i j Hb) in Hx. unfold bs. rewrite kpacked_boxes, (H x Hx). destruct (kw_item i j Hb x Hx) as (_ & C & _). symmetry. exact C.
Qed.
Lemma embed_order : kin_order i ds -> xin_order j bs.
Proof.
  intros H t u Htu Hu. rewrite (kw_nbins i j Hb) in Htu. unfold bs in *. rewrite kused_boxes in *. rewrite (H t u Htu Hu).
  destruct (kw_bin i j Hb t ltac:(lia)) as (_ & _ & C & _). symmetry. exact C.
Qed.

Lemma item_types : forall d p, In d ds -> In p (kd_items d) -> (fst p < length (kx_items i))%nat.
Proof.
  intros d p Hd Hq. unfold kd_items in Hq. apply in_flat_map in Hq. destruct Hq as (s & Hs & Hq). destruct (kk_bins i ds Hp d Hd) as (_ & _ & _ & _ & S). apply (S s Hs p Hq).
Qed.

Lemma embed_profit : (bprofit j bs == kprofit_of i ds)%Q.
Proof.
  unfold bprofit, kprofit_of, bs. rewrite qsum_map. apply qsum_ext. intros d Hd. cbn [kbox_desc xd_copies].
  pose proof (items_sum j (fun x => bi_profit (bxitem j x)) d) as E. cbv beta in E. fold (kbox_desc j d). rewrite E.
  assert (X : (qsum (fun p => bi_profit (bxitem j (fst p))) (kd_items d) == qsum (kprofit i) (kd_items d))%Q).
  { apply qsum_ext. intros p Hq. destruct (kw_item i j Hb (fst p) (item_types d p Hd Hq)) as (P & _). cbv zeta in P. rewrite P. reflexivity. }
  rewrite X. reflexivity.
Qed.

Lemma embed_net : (bnet_profit j bs == kprofit_of i ds)%Q.
Proof.
  unfold bnet_profit. rewrite embed_profit.
  assert (X : (qsum (bpenalties j) bs == 0)%Q).
  { unfold bs. rewrite qsum_map. rewrite (qsum_ext _ _ (fun _ => 0%Q)); [induction ds as [|d l IH]; [reflexivity|]|].
    - clear. induction (d :: l) as [|e m IHm]; [reflexivity|]. rewrite qsum_cons, IHm. reflexivity.
    - intros d Hd. unfold bpenalties. cbn [kbox_desc xd_type]. destruct (kk_bins i ds Hp d Hd) as (T & _). destruct (kw_bin i j Hb (kd_type d) T) as (_ & _ & _ & _ & _ & R). cbv zeta in R. rewrite R. reflexivity. }
  rewrite X. ring.
Qed.

Lemma embed_cost : (xpacking_cost j bs == kcost_of i ds)%Q.
Proof.
  unfold xpacking_cost, kcost_of, bs. rewrite qsum_map. apply qsum_ext. intros d Hd. cbn [kbox_desc xd_copies xd_type].
  destruct (kk_bins i ds Hp d Hd) as (T & _). destruct (kw_bin i j Hb (kd_type d) T) as (_ & C & _). cbv zeta in C. rewrite C. reflexivity.
Qed.

Lemma embed_weights : xweights_ok j bs.
Proof.
  intros e He. unfold bs in He. apply in_map_iff in He. destruct He as (d & <- & Hd). destruct (kk_bins i ds Hp d Hd) as (T & _ & _ & W & _).
  destruct (kw_bin i j Hb (kd_type d) T) as (_ & _ & _ & _ & M & _). cbv zeta in M. cbn [kbox_desc xd_type]. rewrite M. fold (kbox_desc j d).
  unfold total_ok, most in W. unfold within_tol. destruct (kb_max_weight (kbin i (kd_type d))) as [m|]; [|exact I].
  pose proof (items_sum j (fun x => bi_weight (bxitem j x)) d) as E. cbv beta in E. rewrite E.
  assert (X : (qsum (fun p => bi_weight (bxitem j (fst p))) (kd_items d) == qsum (kweight i) (kd_items d))%Q).
  { apply qsum_ext. intros p Hq. destruct (kw_item i j Hb (fst p) (item_types d p Hd Hq)) as (_ & _ & _ & P & _). cbv zeta in P. rewrite P. reflexivity. }
  rewrite X. exact W.
Qed.
End Packing.

(** ** Trivial bounds *)

Definition kflat_item (it : KItem) : BItem := mkBI (ki_box it) (ki_profit it) (ki_copies it) (ki_copies_min it) (ki_rotations it) (ki_weight it) [].
Definition kflat_bin (bt : KBin) : BBin := mkBB (kb_box bt) (kb_cost bt) (kb_copies bt) (kb_copies_min bt) (kb_max_weight bt) [].
Definition kflat (i : KInstance) : BInstance := mkBInst (kx_objective i) (map kflat_item (kx_items i)) (map kflat_bin (kx_bins i)).

Lemma kflat_items : forall i x, bxitem (kflat i) x = kflat_item (kitem i x).
Proof. intros i x. unfold bxitem, kitem. cbn [kflat bx_items]. change dummy_bitem with (kflat_item dummy_kitem). apply map_nth. Qed.
Lemma kflat_bins : forall i t, bxbin (kflat i) t = kflat_bin (kbin i t).
Proof. intros i t. unfold bxbin, kbin. cbn [kflat bx_bins]. change dummy_bbin with (kflat_bin dummy_kbin). apply map_nth. Qed.

Lemma rotate_pos : forall v r, (forall a, 0 < vat v a) -> forall a, 0 < vat (rotate v r) a.
Proof. intros v r H a. pose proof (H AX). pose proof (H AY). pose proof (H AZ). destruct r, a; assumption. Qed.

Lemma kflat_below : forall i, krelaxable i -> unnested i -> kbelow i (kflat i).
Proof.
  intros i Hr Hn. constructor.
  - cbn [kflat bx_items]. apply map_length.
  - cbn [kflat bx_bins]. apply map_length.
  - intros x Hx. cbv zeta. rewrite kflat_items. cbn [kflat_item bi_profit bi_copies bi_rotations bi_weight bi_box].
    destruct (kre_items i Hr (kitem i x) (nth_In _ _ Hx)) as (A & _). pose proof (Hn (kitem i x) (nth_In _ _ Hx)) as N.
    do 4 (split; [reflexivity|]). intros r _. split; [reflexivity|]. split; [reflexivity|]. pose proof (rotate_pos _ r A AZ) as P. cbn [vat] in P. lia.
  - intros t Ht. cbv zeta. rewrite kflat_bins. repeat split.
Qed.

Lemma kflat_number : forall i, xnumber_of_items (kflat i) = knumber_of_items i.
Proof. intros i. unfold xnumber_of_items, knumber_of_items. cbn [kflat bx_items]. rewrite zsum_map. apply zsum_ext. intros it _. reflexivity. Qed.

Lemma kflat_relaxable : forall i, krelaxable i -> xrelaxable (kflat i).
Proof.
  intros i Hr. constructor.
  - intros it Hit. cbn [kflat bx_items] in Hit. apply in_map_iff in Hit. destruct Hit as (k & <- & Hk). destruct (kre_items i Hr k Hk) as (A & _ & B & _). split; assumption.
  - intros bt Hbt. cbn [kflat bx_bins] in Hbt. apply in_map_iff in Hbt. destruct Hbt as (k & <- & Hk). exact (kre_bins i Hr k Hk).
  - rewrite kflat_number. apply (kre_size i Hr).
Qed.

Lemma fold_left_map : forall (A B C : Type) (f : C -> B -> C) (g : A -> B) l c, fold_left f (map g l) c = fold_left (fun c a => f c (g a)) l c.
Proof. intros A B C f g l. induction l as [|a l IH]; intro c; [reflexivity|]. cbn [map fold_left]. apply IH. Qed.

Lemma kflat_capacity : forall i, xtotal_capacity (kflat i) = ktotal_capacity i.
Proof. intro i. unfold xtotal_capacity. cbn [kflat bx_bins]. rewrite fold_left_map. reflexivity. Qed.
Lemma kflat_volume : forall i, xitem_volume (kflat i) = kitem_volume i.
Proof. intro i. unfold xitem_volume. cbn [kflat bx_items]. rewrite fold_left_map. reflexivity. Qed.
Lemma kflat_fill : forall i order remaining bound, xtrivial_fill (kflat i) order remaining bound = ktrivial_fill i order remaining bound.
Proof.
  intros i order. induction order as [|x l IH]; intros r b; [reflexivity|]. cbn [xtrivial_fill ktrivial_fill]. rewrite kflat_items, !IH. reflexivity.
Qed.
Lemma kflat_trivial_bins : forall l r b, xtrivial_bins (map kflat_bin l) r b = ktrivial_bins l r b.
Proof. intros l. induction l as [|bt l IH]; intros r b; [reflexivity|]. cbn [map xtrivial_bins ktrivial_bins]. rewrite !IH. reflexivity. Qed.
Lemma kflat_fits : forall i x, bfits_some_bin (kflat i) x = kfits_some_bin i x.
Proof.
  intros i x. unfold bfits_some_bin, kfits_some_bin. rewrite kflat_items. cbn [kflat bx_bins]. induction (kx_bins i) as [|bt l IH]; [reflexivity|]. cbn [map existsb]. rewrite IH. f_equal.
  unfold bfits, kfits. cbn [kflat_item kflat_bin bi_rotations bi_box bn_box]. induction (ki_rotations (kitem i x)) as [|r rs IHr]; [reflexivity|]. cbn [existsb]. rewrite IHr. f_equal.
  cbn [axes forallb vat]. rewrite andb_true_r, andb_assoc. reflexivity.
Qed.
Lemma kflat_sorted : forall i order, sorted_by (ktrivial_before i) (ktrivial_items i) order -> sorted_by (xtrivial_before (kflat i)) (xtrivial_items (kflat i)) order.
Proof.
  intros i order [H1 H2]. split.
  - unfold xtrivial_items. cbn [kflat bx_items]. rewrite map_length. rewrite (filter_ext _ _ (kflat_fits i)). exact H1.
  - clear H1. induction H2 as [|x l H2 IH F]; constructor; [exact IH|]. eapply Forall_impl; [|exact F]. intros y Hy. unfold xtrivial_before. rewrite !kflat_items. exact Hy.
Qed.
Lemma kflat_penalties : forall i, (xnegative_penalty_sum (kflat i) == 0)%Q.
Proof.
  intro i. unfold xnegative_penalty_sum. cbn [kflat bx_bins]. rewrite fold_left_map.
  assert (G : forall l q, (q == 0)%Q -> (fold_left (fun c a => c + inject_Z (bn_copies (kflat_bin a)) * negative_penalty_sum (bn_resources (kflat_bin a))) l q == 0)%Q).
  { intros l. induction l as [|bt l IH]; intros q Hq; [exact Hq|]. cbn [fold_left]. apply IH. cbn [kflat_bin bn_resources bn_copies]. unfold negative_penalty_sum. cbn [fold_left]. rewrite Hq. ring. }
  apply G. reflexivity.
Qed.

Theorem ktrivial_right : forall i order, krelaxable i -> unnested i ->
  (kx_objective i = OKnapsack -> (forall it, In it (kx_items i) -> (0 <= ki_profit it)%Q) /\ sorted_by (ktrivial_before i) (ktrivial_items i) order) ->
  kclaim_right i (koptimize_trivial_bound i order).
Proof.
  intros i order Hr Hn Hk. pose proof (kflat_below i Hr Hn) as Hb. pose proof (kflat_relaxable i Hr) as Hx.
  assert (X : xclaim_right (kflat i) (xoptimize_trivial_bound (kflat i) order)).
  { apply xtrivial_right; [exact Hx|]. intro Ho. destruct (Hk Ho) as [P S]. split; [|apply kflat_sorted; exact S].
    intros it Hit. cbn [kflat bx_items] in Hit. apply in_map_iff in Hit. destruct Hit as (k & <- & Hi). apply P. exact Hi. }
  assert (Hm : forall ds, kpacking i ds -> xbox_packing (kflat i) (map (kbox_desc (kflat i)) ds)).
  { intros ds Hp. apply (embed_box i _ Hb ds Hp). intros x Hi. rewrite kflat_items. apply (kk_items i ds Hp x Hi). }
  unfold koptimize_trivial_bound. unfold xoptimize_trivial_bound in X. change (bx_objective (kflat i)) with (kx_objective i) in X.
  destruct (kx_objective i) eqn:E; try exact Logic.I; cbn [kclaim_right xclaim_right] in *.
  - intros ds Hp Ha Ho. specialize (X _ (Hm ds Hp) (embed_all i _ Hb ds Ha) (embed_order i _ Hb ds Ho)). rewrite kbins_boxes in X.
    cbn [kflat bx_bins] in X. rewrite kflat_trivial_bins, kflat_volume in X. exact X.
  - intros ds Hp. specialize (X _ (Hm ds Hp)). pose proof (embed_net i _ Hb ds Hp) as N. unfold xtrivial_knapsack in X. rewrite kflat_fill, kflat_capacity in X.
    pose proof (kflat_penalties i) as Pz. lra.
Qed.

(** ** Box relaxation *)

Definition kshrink (it : KItem) : Vec := mkV (v_x (ki_box it)) (v_y (ki_box it)) (kitem_z it).
Definition kw_item_of (it : KItem) : BItem := mkBI (kshrink it) (ki_profit it) (ki_copies it) (-1) (ki_rotations it) (ki_weight it) [].

Lemma kbox_bin_ok : forall o its l g t,
  (forall a, 1 <= vat (kb_box t) a) -> (0 < kb_cost t)%Q -> 1 <= kb_copies t -> 0 <= kb_copies_min t <= kb_copies t ->
  wcalls_from (mkW o its l g) (kbox_bin_calls (length l) t) = WOk (mkW o its (l ++ [kflat_bin t]) g).
Proof.
  intros o its l g t Hv Hc Hn Hm. unfold kbox_bin_calls.
  pose proof (Hv AX) as H1. pose proof (Hv AY) as H2. pose proof (Hv AZ) as H3. cbn [vat] in H1, H2, H3.
  rewrite wcalls_cons. cbn [wstep]. unfold w_add_bin.
  replace (v_x (kb_box t) <=? 0) with false by (symmetry; apply Z.leb_gt; lia).
  replace (v_y (kb_box t) <=? 0) with false by (symmetry; apply Z.leb_gt; lia).
  replace (v_z (kb_box t) <=? 0) with false by (symmetry; apply Z.leb_gt; lia).
  unfold wset_bins. cbn [wthen w_bins w_objective w_items w_orig].
  rewrite wcalls_cons. cbn [wstep]. unfold w_set_bin_cost. cbn [w_bins]. rewrite last_ok.
  destruct (Qle_bool (kb_cost t) 0) eqn:E1; [apply Qle_bool_iff in E1; lra|]. cbn [andb].
  rewrite won_last_bin. cbn [wthen].
  destruct (Qeq_bool (kb_cost t) (-1)) eqn:E2; [apply Qeq_bool_iff in E2; lra|].
  rewrite wcalls_cons. cbn [wstep]. unfold w_set_bin_copies. cbn [w_bins]. rewrite last_ok, last_nth. cbn [bn_copies_min bn_with_cost].
  replace (negb (kb_copies t =? -1) && ((kb_copies t <=? 0) || (kb_copies t <? 0))) with false.
  2: { symmetry. apply andb_false_iff. right. apply orb_false_iff. rewrite Z.leb_gt, Z.ltb_ge. lia. }
  rewrite won_last_bin. cbn [wthen].
  rewrite wcalls_cons. cbn [wstep]. unfold w_set_bin_copies_min. cbn [w_bins]. rewrite last_ok, last_nth. cbn [bn_copies bn_with_copies].
  replace (kb_copies_min t <? 0) with false by (symmetry; apply Z.ltb_ge; lia).
  replace (negb (kb_copies t =? -1) && (kb_copies t <? kb_copies_min t)) with false by (symmetry; apply andb_false_iff; right; apply Z.ltb_ge; lia).
  rewrite won_last_bin. cbn [wthen].
  rewrite wcalls_cons. cbn [wstep]. unfold w_set_bin_weight. rewrite won_last_bin. reflexivity.
Qed.

Lemma kbox_bins_ok : forall i o its g n, krelaxable i -> (n <= length (kx_bins i))%nat ->
  wcalls_from (mkW o its [] g) (flat_map (fun k => kbox_bin_calls k (kbin i k)) (seq 0 n)) =
  WOk (mkW o its (map (fun k => kflat_bin (kbin i k)) (seq 0 n)) g).
Proof.
  intros i o its g n Hf. induction n as [|n IH]; intro Hn; [reflexivity|].
  rewrite seq_S, flat_map_app, map_app, wcalls_app, IH by lia. cbn [wthen flat_map map plus]. rewrite app_nil_r.
  destruct (kre_bins i Hf (kbin i n)) as (A1 & A2 & A3 & A4); [apply nth_In; lia|].
  pose proof (kbox_bin_ok o its (map (fun k => kflat_bin (kbin i k)) (seq 0 n)) g (kbin i n) A1 A4 A2 A3) as E.
  rewrite map_length, seq_length in E. exact E.
Qed.

Lemma kshrink_pos : forall it, (forall a, 0 < vat (ki_box it) a) -> ki_nesting it < v_z (ki_box it) -> forall a, 0 < vat (kshrink it) a.
Proof. intros it H N a. pose proof (H AX). pose proof (H AY). pose proof (H AZ). unfold kshrink, kitem_z. destruct a; cbn [vat v_x v_y v_z] in *; lia. Qed.

Lemma kbox_item_ok : forall o l bs g t, (forall a, 0 < vat (kshrink t) a) -> 1 <= ki_copies t ->
  wcalls_from (mkW o l bs g) (kbox_item_calls (length l) t) = WOk (mkW o (l ++ [kw_item_of t]) bs g).
Proof.
  intros o l bs g t Hv Hn. unfold kbox_item_calls. fold (kshrink t). cbn [app].
  pose proof (Hv AX) as H1. pose proof (Hv AY) as H2. pose proof (Hv AZ) as H3. cbn [vat] in H1, H2, H3.
  rewrite wcalls_cons. cbn [wstep]. unfold w_add_item.
  replace (v_x (kshrink t) <? 0) with false by (symmetry; apply Z.ltb_ge; lia).
  replace (v_y (kshrink t) <? 0) with false by (symmetry; apply Z.ltb_ge; lia).
  replace (v_z (kshrink t) <? 0) with false by (symmetry; apply Z.ltb_ge; lia).
  unfold wset_items. cbn [wthen w_bins w_objective w_items w_orig].
  rewrite wcalls_cons. cbn [wstep]. unfold w_set_item_profit. rewrite won_last_item. cbn [wthen].
  rewrite wcalls_cons. cbn [wstep]. unfold w_set_item_copies. cbn [w_items]. rewrite last_ok.
  replace (negb (ki_copies t =? -1) && (ki_copies t <=? 0)) with false
    by (symmetry; apply andb_false_iff; right; apply Z.leb_gt; lia).
  rewrite won_last_item. cbn [wthen].
  rewrite wcalls_cons. cbn [wstep]. unfold w_set_item_weight. rewrite won_last_item. cbn [wthen].
  unfold bi_with_profit, bi_with_copies, bi_with_weight.
  cbn [bi_box bi_profit bi_copies bi_copies_min bi_rotations bi_weight bi_resource_ids].
  assert (Hr : forall rl acc,
    wcalls_from (mkW o (l ++ [mkBI (kshrink t) (ki_profit t) (ki_copies t) (-1) acc (ki_weight t) []]) bs g)
      (map (WAddRotation (Z.of_nat (length l))) rl) =
    WOk (mkW o (l ++ [mkBI (kshrink t) (ki_profit t) (ki_copies t) (-1) (acc ++ rl) (ki_weight t) []]) bs g)).
  { induction rl as [|r rl IH]; intro acc; cbn [map]; [rewrite app_nil_r; reflexivity|].
    rewrite wcalls_cons. cbn [wstep]. unfold w_add_rotation. rewrite won_last_item. cbn [wthen]. unfold bi_with_rotations.
    cbn [bi_box bi_profit bi_copies bi_copies_min bi_rotations bi_weight bi_resource_ids].
    rewrite IH, <- app_assoc. reflexivity. }
  apply Hr.
Qed.

Lemma kbox_items_ok : forall i o bs g n, krelaxable i -> (n <= length (kx_items i))%nat ->
  wcalls_from (mkW o [] bs g) (flat_map (fun x => kbox_item_calls x (kitem i x)) (seq 0 n)) =
  WOk (mkW o (map (fun x => kw_item_of (kitem i x)) (seq 0 n)) bs g).
Proof.
  intros i o bs g n Hf. induction n as [|n IH]; intro Hn; [reflexivity|].
  rewrite seq_S, flat_map_app, map_app, wcalls_app, IH by lia. cbn [wthen flat_map map plus]. rewrite app_nil_r.
  destruct (kre_items i Hf (kitem i n)) as (A1 & A2 & A3 & _); [apply nth_In; lia|].
  pose proof (kbox_item_ok o (map (fun x => kw_item_of (kitem i x)) (seq 0 n)) bs g (kitem i n) (kshrink_pos _ A1 A2) A3) as E.
  rewrite map_length, seq_length in E. exact E.
Qed.

Definition kbox_builder (i : KInstance) : BBuilder :=
  mkW (kx_objective i) (map (fun x => kw_item_of (kitem i x)) (seq 0 (length (kx_items i)))) (map (fun k => kflat_bin (kbin i k)) (seq 0 (length (kx_bins i)))) [].

Lemma kbox_calls_ok : forall i, krelaxable i -> wcalls_from (w_new ODefault) (kbox_calls i) = WOk (kbox_builder i).
Proof.
  intros i Hf. unfold kbox_calls. rewrite wcalls_cons. cbn [wstep wthen]. unfold w_new.
  cbn [w_objective w_items w_bins w_orig].
  rewrite wcalls_app, kbox_bins_ok by auto. cbn [wthen]. apply kbox_items_ok; auto.
Qed.

Lemma shrunk_sizes : forall it r, (0 < ki_nesting it -> r = XYZ \/ r = YXZ) -> (forall a, 0 < vat (ki_box it) a) -> ki_nesting it < v_z (ki_box it) ->
  v_x (rotate (kshrink it) r) = v_x (rotate (ki_box it) r) /\ v_y (rotate (kshrink it) r) = v_y (rotate (ki_box it) r) /\
  0 < v_z (rotate (kshrink it) r) <= v_z (rotate (ki_box it) r) - Z.max (ki_nesting it) 0.
Proof.
  intros it r Hu Hv Hn. pose proof (Hv AX) as P1. pose proof (Hv AY) as P2. pose proof (Hv AZ) as P3. cbn [vat] in P1, P2, P3.
  destruct (Z_lt_le_dec 0 (ki_nesting it)) as [L|L].
  - destruct (Hu L) as [-> | ->]; unfold kshrink, kitem_z; cbn [rotate v_x v_y v_z]; repeat split; try reflexivity; lia.
  - assert (E : kshrink it = ki_box it) by (unfold kshrink, kitem_z; rewrite Z.max_r, Z.sub_0_r by lia; destruct (ki_box it); reflexivity). rewrite E.
    pose proof (rotate_pos _ r Hv AZ) as P. cbn [vat] in P. repeat split; try reflexivity; lia.
Qed.

Theorem kbox_built : forall i, krelaxable i -> nested_upright i -> kx_objective i <> OOpenDimensionX -> kx_objective i <> OOpenDimensionY ->
  exists j e, w_build (kbox_builder i) = WBuilt j e /\ bx_objective j = kx_objective i /\ kbelow i j /\
    forall x, (x < length (kx_items i))%nat -> bi_copies_min (bxitem j x) = match kx_objective i with OKnapsack => 0 | _ => ki_copies (kitem i x) end.
Proof.
  intros i Hf Hup Ox Oy. set (b := kbox_builder i).
  assert (Lb : length (w_bins b) = length (kx_bins i)) by (simpl; rewrite map_length, seq_length; reflexivity).
  assert (Li : length (w_items b) = length (kx_items i)) by (simpl; rewrite map_length, seq_length; reflexivity).
  assert (Bin : forall k, (k < length (kx_bins i))%nat -> nth k (w_bins b) dummy_bbin = kflat_bin (kbin i k)).
  { intros k Hk. simpl. rewrite nth_indep with (d' := kflat_bin (kbin i 0%nat)) by (rewrite map_length, seq_length; assumption).
    rewrite (map_nth (fun k => kflat_bin (kbin i k))), seq_nth by assumption. reflexivity. }
  assert (Item : forall x, (x < length (kx_items i))%nat -> nth x (w_items b) dummy_bitem = kw_item_of (kitem i x)).
  { intros x Hx. simpl. rewrite nth_indep with (d' := kw_item_of (kitem i 0%nat)) by (rewrite map_length, seq_length; assumption).
    rewrite (map_nth (fun x => kw_item_of (kitem i x))), seq_nth by assumption. reflexivity. }
  assert (Hw : exists j e, w_build b = WBuilt j e).
  { unfold w_build. cbv zeta.
    destruct (find _ _) as [t|] eqn:Ef.
    { exfalso. apply find_some in Ef. destruct Ef as [Hin Hbad]. apply in_map_iff in Hin. destruct Hin as (u & <- & Hu).
      apply In_nth with (d := dummy_bitem) in Hu. destruct Hu as (x & Hx & <-). rewrite Li in Hx. rewrite (Item x Hx) in Hbad.
      destruct (kre_items i Hf (kitem i x)) as (A1 & A2 & A3 & _); [apply nth_In; assumption|].
      unfold kw_item_of, wresolve_item, bi_with_min, bi_with_rotations, vol in Hbad.
      cbn [bi_box bi_copies bi_copies_min] in Hbad.
      change (-1 =? -1) with true in Hbad. cbv iota in Hbad.
      pose proof (kshrink_pos _ A1 A2) as A4. pose proof (A4 AX) as B1. pose proof (A4 AY) as B2. pose proof (A4 AZ) as B3. cbn [vat] in B1, B2, B3.
      apply orb_prop in Hbad. rewrite Z.ltb_lt, Z.eqb_eq in Hbad. destruct Hbad as [Hbad|Hbad]; [|nia].
      destruct (w_objective b); lia. }
    match goal with |- context [wexpand_bins ?l] => destruct (wexpand_bins l) as [[ids prev] p] end.
    match goal with |- context [if ?c then _ else _] => destruct c eqn:Eo end.
    { exfalso. change (w_objective b) with (kx_objective i) in Eo. destruct (kx_objective i); try discriminate; congruence. }
    match goal with |- context [if ?c then _ else _] => destruct c eqn:Er end; [|eauto].
    exfalso. apply existsb_exists in Er. destruct Er as (t & Ht & Er).
    apply existsb_exists in Er. destruct Er as (r & Hr & _).
    apply In_nth with (d := dummy_bbin) in Ht. destruct Ht as (k & Hk & <-). rewrite Lb in Hk.
    rewrite (Bin k Hk) in Hr. destruct Hr. }
  destruct Hw as (j & e & Hw). exists j, e. split; [exact Hw|].
  destruct (wbuild_holds b j e Hw) as [H1 [H3 H4] [H5 H6]].
  rewrite Li in H3, H4. rewrite Lb in H5, H6.
  split; [exact H1|]. split; [constructor; [exact H3|exact H5| |]|].
  - intros x Hx. cbv zeta. specialize (H4 x Hx). cbv zeta in H4. rewrite (Item x Hx) in H4.
    cbn [kw_item_of bi_box bi_profit bi_copies bi_weight bi_rotations bi_copies_min] in H4.
    destruct H4 as (G1 & G2 & G3 & G4 & G5 & _). destruct (kre_items i Hf (kitem i x)) as (A1 & A2 & _ & A3); [apply nth_In; assumption|].
    split; [assumption|]. split; [assumption|]. split; [rewrite G5; destruct (ki_rotations (kitem i x)); [contradiction|reflexivity]|]. split; [assumption|].
    intros r Hr. rewrite G1. apply shrunk_sizes; try assumption. intro L. apply (Hup (kitem i x) r (nth_In _ _ Hx) Hr L).
  - intros k Hk. cbv zeta. specialize (H6 k Hk). cbv zeta in H6. rewrite (Bin k Hk) in H6.
    cbn [kflat_bin bn_box bn_cost bn_copies bn_copies_min bn_max_weight bn_resources] in H6.
    destruct H6 as (G1 & G2 & G3 & G4 & G5 & G6).
    destruct (kre_bins i Hf (kbin i k)) as (_ & A & _); [apply nth_In; assumption|].
    replace (kb_copies (kbin i k) =? -1) with false in G6 by (symmetry; apply Z.eqb_neq; lia). repeat split; assumption.
  - intros x Hx. specialize (H4 x Hx). cbv zeta in H4. rewrite (Item x Hx) in H4.
    destruct H4 as (_ & _ & _ & _ & _ & G). rewrite G, H1. cbn [kw_item_of bi_copies_min bi_copies]. change (w_objective b) with (kx_objective i).
    change (-1 =? -1) with true. cbv iota. destruct (kx_objective i); reflexivity.
Qed.

Theorem kbox_right : forall i solve, krelaxable i -> nested_upright i ->
  kx_objective i = OKnapsack \/ kx_objective i = OBinPacking \/ kx_objective i = OVariableSizedBinPacking ->
  (forall j, xbounds_right j (solve j)) -> kclaim_right i (koptimize_box_bound solve i).
Proof.
  intros i solve Hr Hup Ho Hs. unfold koptimize_box_bound. rewrite (kbox_calls_ok i Hr).
  destruct (kbox_built i Hr Hup) as (j & e & E & Oj & Hb & Hm); [destruct Ho as [->|[->| ->]]; discriminate|destruct Ho as [->|[->| ->]]; discriminate|].
  rewrite E. cbv zeta. specialize (Hs j). destruct Ho as [Ho|[Ho|Ho]]; rewrite Ho in Oj, Hm |- *; cbn [kclaim_right].
  - intros ds Hp. pose proof (xr_profit _ _ Hs Oj (map (kbox_desc j) ds)) as X. pose proof (embed_net i j Hb ds Hp) as N.
    rewrite <- N. apply X; [|apply (embed_weights i j Hb ds Hp)]. apply (embed_box i j Hb ds Hp). intros x Hx. rewrite (Hm x Hx). unfold kpacked. apply zsum_nonneg.
    intros d Hd. apply Z.mul_nonneg_nonneg; [destruct (kk_bins i ds Hp d Hd) as (_ & C & _); lia|]. unfold kcount. apply zsum_nonneg. intros p _. destruct (Nat.eqb (fst p) x); lia.
  - intros ds Hp Ha Hor. rewrite <- (kbins_boxes j). apply (xr_bins _ _ Hs Oj); [|apply (embed_weights i j Hb ds Hp)|apply (embed_all i j Hb ds Ha)|apply (embed_order i j Hb ds Hor)].
    apply (embed_box i j Hb ds Hp). intros x Hx. rewrite (Hm x Hx), (Ha x Hx). lia.
  - intros ds Hp Ha. rewrite <- (embed_cost i j Hb ds Hp). apply (xr_cost _ _ Hs Oj); [|apply (embed_weights i j Hb ds Hp)|apply (embed_all i j Hb ds Ha)].
    apply (embed_box i j Hb ds Hp). intros x Hx. rewrite (Hm x Hx), (Ha x Hx). lia.
Qed.
