(** * Proofs about the cheap bounds of the rectangleguillotine optimize function

    The items of a guillotine packing form a rectangle packing. *)

From Coq Require Import List ZArith QArith Bool Lia Lqa Arith Permutation Sorted.
From Verif Require Import Util Common_Model Common_Spec Common_Proof OneDim_Model OneDim_Spec OneDim_Proof OneDimBuilder_Model OneDimBuilder_Spec
  OneDimBuilder_Proof OneDimSub_Proof OneDimDff_Model OneDimDff_Spec OneDimDff_Proof OneDimBounds_Model OneDimBounds_Spec OneDimBounds_Proof
  Dff_Model Dff_Spec Dff_Axis Dff_Proof
  Rect_Model Rect_Spec RectDff_Model RectDff_Proof RectDff_Props RectSol_Model RectSol_Spec RectSol_Proof RectSol_Props Bar_Model Bar_Spec Bar_Proof BarPack_Proof
  RectBuilder_Model RectBuilder_Spec RectBuilder_Proof RectFlip_Model RectFlip_Proof
  RectBounds_Model RectBounds_Spec RectBounds_Proof Guil_Model Guil_Spec GuilSol_Model GuilSol_Spec GuilBounds_Model GuilBounds_Spec.
Import ListNotations.
Open Scope Z_scope.

(** ** The knapsack bound with all the item types *)

Lemma rknapsack_all : forall i ds order, relaxable i -> bar_packing i ds ->
  (forall it, In it (rin_items i) -> (0 <= ri_profit it)%Q) ->
  sorted_by (rtrivial_before i) (seq 0 (length (rin_items i))) order ->
  (rnet_profit i ds <= rtrivial_knapsack i order)%Q.
Proof.
  intros i ds order Hr BP Hprofit [Hperm Hsort]. pose proof (net_profit_bound i ds BP) as HN. pose proof (bp_packing i ds BP) as Hp. unfold rtrivial_knapsack. set (n := length (rin_items i)) in *.
  assert (HS : (rprofit i ds == qsum (fun j => inject_Z (rpacked j ds) * ri_profit (ritem i j)) (seq 0 n))%Q).
  { unfold rprofit. rewrite (rqpacked_sum n ds _ (types_ok i ds Hp)). reflexivity. }
  assert (Hin : forall j, In j order -> (j < n)%nat /\ True).
  { intros j Hj. apply (Permutation_in j (Permutation_sym Hperm)) in Hj. apply in_seq in Hj. split; [lia|exact Logic.I]. }
  rewrite (rfill_dantzig i Hr) by (intros j Hj; apply Hin; assumption).
  set (counts := map (fun j => rpacked j ds) order).
  assert (Ep : (qsum (fun j => inject_Z (rpacked j ds) * ri_profit (ritem i j)) (seq 0 n) == choice_profit (map (rditem i) order) counts)%Q).
  { transitivity (qsum (fun j => inject_Z (rpacked j ds) * ri_profit (ritem i j)) order)%Q.
    - rewrite <- (qsum_perm _ _ _ _ Hperm). reflexivity.
    - unfold choice_profit, counts. clear. induction order as [|j l IH]; [reflexivity|].
      cbn [map combine]. rewrite !qsum_cons, IH. cbn [fst snd rditem di_profit]. ring. }
  assert (Ev : choice_volume (map (rditem i) order) counts = zsum (fun j => rpacked j ds * ri_area (ritem i j)) order).
  { unfold choice_volume, counts. clear. induction order as [|j l IH]; [reflexivity|].
    cbn [map combine]. rewrite !zsum_cons, IH. cbn [fst snd rditem di_volume]. lia. }
  assert (Hv : choice_volume (map (rditem i) order) counts <= rtotal_capacity i).
  { rewrite Ev, <- (zsum_perm _ _ _ _ Hperm). etransitivity; [exact (tpacked_area i Hr ds BP)|exact (tused_area i Hr ds BP)]. }
  assert (Hg : good_items (map (rditem i) order)).
  { apply Forall_forall. intros it Hit. apply in_map_iff in Hit. destruct Hit as (j & <- & Hj).
    destruct (Hin j Hj) as [Hj' _]. cbn [rditem di_profit di_volume di_copies]. split; [apply Hprofit; apply nth_In; assumption|].
    split; [apply (tarea_gt0 i Hr); assumption|]. destruct (item_pos i Hr (ritem i j) (nth_In _ _ Hj')). lia. }
  assert (Hc : choice (map (rditem i) order) counts).
  { unfold choice, counts. revert Hin. generalize order. intro o. induction o as [|j l IH]; intro Hin; simpl; constructor; [|apply IH; intros k Hk; apply Hin; right; exact Hk].
    cbn [rditem di_copies]. pose proof (tpacked_ge0 i ds BP j). destruct (Hin j (or_introl eq_refl)) as [Hj _]. pose proof (pa_copies i ds Hp j Hj). lia. }
  assert (Hs : ratio_sorted (map (rditem i) order)).
  { unfold ratio_sorted. clear -Hsort. induction Hsort as [|x l Hl IH Hx]; simpl; constructor; [assumption|].
    apply Forall_forall. intros b Hb. apply in_map_iff in Hb. destruct Hb as (y & <- & Hy).
    rewrite Forall_forall in Hx. specialize (Hx y Hy). unfold rtrivial_before in Hx.
    unfold Qltb in Hx. apply negb_false_iff in Hx. apply Qle_bool_iff in Hx. exact Hx. }
  assert (HR : exists rho, (0 <= rho)%Q /\ forall it, In it (map (rditem i) order) -> (di_profit it <= rho * inject_Z (di_volume it))%Q).
  { clear -Hg. induction Hg as [|it l Hit Hg IH].
    - exists 0%Q. split; [lra|]. intros it [].
    - destruct IH as (rho & R1 & R2). destruct Hit as (G1 & G2 & _).
      exists (rho + di_profit it)%Q. split; [lra|].
      assert (V1 : (1 <= inject_Z (di_volume it))%Q) by (change 1%Q with (inject_Z 1); rewrite <- Zle_Qle; lia).
      intros y [<-|Hy]; [nra|]. specialize (R2 y Hy).
      unfold good_items in Hg. rewrite Forall_forall in Hg. destruct (Hg y Hy) as (_ & G3 & _).
      assert (0 < inject_Z (di_volume y))%Q by (change 0%Q with (inject_Z 0); rewrite <- Zlt_Qlt; assumption). nra. }
  destruct HR as (rho & R1 & R2).
  pose proof (choice_volume_nonneg _ _ Hc Hg) as Hv0. rewrite Zle_Qle in Hv.
  assert (HU : (choice_profit (map (rditem i) order) counts
    <= dantzig_fill (map (rditem i) order) (inject_Z (rtotal_capacity i)) 0 + rho * 0)%Q).
  { apply dantzig_fill_upper; try assumption; lra. }
  rewrite HS in HN. lra.
Qed.

(** ** A guillotine packing as a rectangle packing *)

Definition gplace (i : GInstance) (ox oy : Z) (n : GNode) : Place :=
  let it := gitem i (Z.to_nat (gn_item n)) in
  mkPl (Z.to_nat (gn_item n)) (gn_l n - ox) (gn_b n - oy) (negb ((gwidth_of n =? gi_w it) && (gheight_of n =? gi_h it))).
Definition gdesc (i : GInstance) (ox oy : nat -> Z) (v : GView) : RDesc :=
  mkRD (gv_type v) (gv_copies v) (map (gplace i (ox (gv_type v)) (oy (gv_type v))) (item_nodes (gv_nodes v))).

(** The rectangle instance [j] has the items of [i], and its bins contain the usable part
    of the plates once moved by [ox], [oy]. *)
Record covers (i : GInstance) (j : RInstance) (ox oy : nat -> Z) : Prop := {
  cv_items : length (rin_items j) = length (gin_items i);
  cv_item : forall x, (x < length (gin_items i))%nat -> ri_x (ritem j x) = gi_w (gitem i x) /\ ri_y (ritem j x) = gi_h (gitem i x)
    /\ ri_oriented (ritem j x) = gi_oriented (gitem i x) /\ ri_copies (ritem j x) = gi_copies (gitem i x);
  cv_bins : length (rin_bins j) = length (gin_bins i);
  cv_bin : forall t, (t < length (gin_bins i))%nat -> ox t <= inner_l (gbin i t) /\ inner_r (gbin i t) - ox t <= rb_x (rbin j t)
    /\ oy t <= inner_b (gbin i t) /\ inner_t (gbin i t) - oy t <= rb_y (rbin j t) /\ rb_defects (rbin j t) = []
}.

Section Cover.
Variable i : GInstance.
Variable j : RInstance.
Variables ox oy : nat -> Z.
Hypothesis HC : covers i j ox oy.

Lemma gplace_dims : forall a b n, gplaced i n -> pl_w j (gplace i a b n) = gwidth_of n /\ pl_h j (gplace i a b n) = gheight_of n.
Proof.
  intros a b n [T D]. destruct (cv_item _ _ _ _ HC _ T) as (E1 & E2 & _). unfold pl_w, pl_h, gplace. cbn [pl_rot pl_type]. rewrite E1, E2.
  destruct (Z.eqb_spec (gwidth_of n) (gi_w (gitem i (Z.to_nat (gn_item n))))), (Z.eqb_spec (gheight_of n) (gi_h (gitem i (Z.to_nat (gn_item n))))); cbn [andb negb]; lia.
Qed.

Lemma gplace_ends : forall a b n, gplaced i n -> pl_xe j (gplace i a b n) = gn_r n - a /\ pl_ye j (gplace i a b n) = gn_t n - b.
Proof.
  intros a b n H. destruct (gplace_dims a b n H) as [E1 E2]. unfold pl_xe, pl_ye. rewrite E1, E2. unfold gwidth_of, gheight_of, gplace. cbn [pl_x pl_y]. lia.
Qed.

Lemma gdesc_geometry : forall v, (gv_type v < length (gin_bins i))%nat -> gbin_geometry i v ->
  geometry_ok j (rbin j (gv_type v)) (rd_items (gdesc i ox oy v)).
Proof.
  intros v Ht [G1 G2 G3]. destruct (cv_bin _ _ _ _ HC _ Ht) as (B1 & B2 & B3 & B4 & B5). cbn [gdesc rd_items]. constructor.
  - intros p Hp. apply in_map_iff in Hp. destruct Hp as (n & <- & Hn). pose proof (G1 n Hn) as P. destruct (G2 n Hn) as (I1 & I2 & I3 & I4).
    destruct (gplace_ends (ox (gv_type v)) (oy (gv_type v)) n P) as [E1 E2]. destruct P as [T D]. constructor.
    + rewrite (cv_items _ _ _ _ HC). exact T.
    + rewrite E1. cbn [gplace pl_x]. lia.
    + rewrite E2. cbn [gplace pl_y]. lia.
    + cbn [gplace pl_rot pl_type]. destruct (cv_item _ _ _ _ HC _ T) as (_ & _ & E3 & _). rewrite E3. intro R.
      destruct D as [[D1 D2]|[D1 _]]; [|exact D1]. rewrite D1, D2, !Z.eqb_refl in R. discriminate.
  - revert G1 G3. clear -HC. generalize (item_nodes (gv_nodes v)) as l. intros l G1 G3. induction G3 as [|n l Hn G3 IH]; cbn [map]; constructor.
    + rewrite Forall_forall in *. intros p Hp. apply in_map_iff in Hp. destruct Hp as (m & <- & Hm). specialize (Hn m Hm).
      destruct (gplace_ends (ox (gv_type v)) (oy (gv_type v)) n (G1 n (or_introl eq_refl))) as [E1 E2].
      destruct (gplace_ends (ox (gv_type v)) (oy (gv_type v)) m (G1 m (or_intror Hm))) as [F1 F2].
      unfold disjoint. rewrite E1, E2, F1, F2. unfold apart in Hn. cbn [gplace pl_x pl_y]. lia.
    + apply IH. intros m Hm. apply G1. right. exact Hm.
  - intros p d _ Hd. rewrite B5 in Hd. destruct Hd.
Qed.

Lemma gdesc_count : forall v x, rcount x (rd_items (gdesc i ox oy v)) = gcount x (gv_items v).
Proof.
  intros v x. rewrite <- count_relax. unfold gcount. f_equal. cbn [gdesc rd_items]. rewrite map_map. reflexivity.
Qed.
Lemma gdesc_packed : forall vs x, rpacked x (map (gdesc i ox oy) vs) = gpacked x vs.
Proof. intros vs x. unfold rpacked, gpacked. rewrite zsum_map. apply zsum_ext. intros v _. rewrite gdesc_count. reflexivity. Qed.
Lemma gdesc_used : forall vs t, rused_bins t (map (gdesc i ox oy) vs) = gused t vs.
Proof. intros vs t. unfold rused_bins, gused. rewrite zsum_map. reflexivity. Qed.
Lemma gdesc_bins : forall vs, rbins_used (map (gdesc i ox oy) vs) = gbins_used vs.
Proof. intro vs. unfold rbins_used, gbins_used. rewrite zsum_map. reflexivity. Qed.

Lemma gdesc_packing : forall vs, gpacking i vs -> packing_ok j (map (gdesc i ox oy) vs).
Proof.
  intros vs [P1 P2 P3]. constructor.
  - intros d Hd. apply in_map_iff in Hd. destruct Hd as (v & <- & Hv). destruct (P1 v Hv) as (T & C & G).
    split; [cbn [gdesc rd_type]; rewrite (cv_bins _ _ _ _ HC); exact T|]. split; [exact C|apply gdesc_geometry; assumption].
  - intros x Hx. rewrite (cv_items _ _ _ _ HC) in Hx. rewrite gdesc_packed. destruct (cv_item _ _ _ _ HC x Hx) as (_ & _ & _ & E). rewrite E. apply P3. exact Hx.
Qed.
Lemma gdesc_all : forall vs, gall_packed i vs -> rall_packed j (map (gdesc i ox oy) vs).
Proof.
  intros vs H x Hx. rewrite (cv_items _ _ _ _ HC) in Hx. rewrite gdesc_packed. destruct (cv_item _ _ _ _ HC x Hx) as (_ & _ & _ & E). rewrite E. apply H. exact Hx.
Qed.

End Cover.

(** ** The rectangle instance of the usable parts *)

Definition flat_item (it : GItem) : RItem :=
  mkRI (gi_w it) (gi_h it) (gi_profit it) (gi_copies it) (gi_copies_min it) 0 (gi_oriented it) 0 (-1) (gi_resource_ids it).
Definition flat_bin (bt : GBinType) : RBin :=
  mkRB (inner_r bt - inner_l bt) (inner_t bt - inner_b bt) (gb_cost bt) (gb_copies bt) (gb_copies_min bt) None no_truck [] [] (gb_resources bt).
Definition gflat (i : GInstance) : RInstance :=
  mkRInst (gin_objective i) default_params (map flat_item (gin_items i)) (map flat_bin (gin_bins i)).

Section Flat.
Variable i : GInstance.
Let ox t := inner_l (gbin i t).
Let oy t := inner_b (gbin i t).
Let fdesc := gdesc i ox oy.

Lemma flat_ritem : forall x, (x < length (gin_items i))%nat -> ritem (gflat i) x = flat_item (gitem i x).
Proof.
  intros x Hx. unfold ritem, gflat. cbn [rin_items]. rewrite (nth_indep _ dummy_ritem (flat_item gdummy_item)) by (rewrite map_length; exact Hx). apply map_nth.
Qed.
Lemma flat_rbin : forall t, (t < length (gin_bins i))%nat -> rbin (gflat i) t = flat_bin (gbin i t).
Proof.
  intros t Ht. unfold rbin, gflat. cbn [rin_bins]. rewrite (nth_indep _ dummy_rbin (flat_bin gdummy_bin)) by (rewrite map_length; exact Ht). apply map_nth.
Qed.

Lemma flat_covers : covers i (gflat i) ox oy.
Proof.
  constructor.
  - apply map_length.
  - intros x Hx. rewrite (flat_ritem x Hx). cbn. repeat split.
  - apply map_length.
  - intros t Ht. rewrite (flat_rbin t Ht). unfold ox, oy. cbn. repeat split; lia.
Qed.

Lemma flat_relaxable : grelaxable i -> relaxable (gflat i).
Proof.
  intros [R1 _ R2 R3]. constructor.
  - intros it Hit. cbn in Hit. apply in_map_iff in Hit. destruct Hit as (x & <- & Hx). apply (R1 x Hx).
  - intros bt Hbt. cbn in Hbt. apply in_map_iff in Hbt. destruct Hbt as (x & <- & Hx). destruct (R2 x Hx) as (A & B & C & D & E). cbn. repeat split; try lia. exact E.
  - unfold rnumber_of_items, gflat. cbn [rin_items]. rewrite zsum_map. exact R3.
Qed.

Lemma flat_packing : forall vs, gpacking i vs -> bar_packing (gflat i) (map fdesc vs).
Proof.
  intros vs P. constructor.
  - apply (gdesc_packing i (gflat i) ox oy flat_covers vs P).
  - intros d p Hd Hp. left. apply in_map_iff in Hd. destruct Hd as (v & <- & Hv). cbn [fdesc gdesc rd_items] in Hp. apply in_map_iff in Hp. destruct Hp as (n & <- & Hn).
    destruct (gq_bins _ _ P v Hv) as (_ & _ & [G _ _]). destruct (G n Hn) as [T _]. cbn [gplace pl_type]. rewrite (flat_ritem _ T). reflexivity.
  - intros t Ht. cbn [gflat rin_bins] in Ht. rewrite map_length in Ht. unfold fdesc. rewrite (flat_rbin t Ht), gdesc_used. apply (gq_used _ _ P t Ht).
  - intros x Hx. cbn [gflat rin_items] in Hx. rewrite map_length in Hx. unfold fdesc. rewrite (flat_ritem x Hx), gdesc_packed. apply (gq_packed _ _ P x Hx).
Qed.

Lemma flat_order : forall vs, gin_order i vs -> rin_order (gflat i) (map fdesc vs).
Proof.
  intros vs H t u Htu Hu. cbn [gflat rin_bins] in Htu. rewrite map_length in Htu. unfold fdesc in *. rewrite gdesc_used in *. rewrite (flat_rbin t) by lia. apply (H t u Htu Hu).
Qed.

Lemma flat_net : forall vs, gpacking i vs -> (rnet_profit (gflat i) (map fdesc vs) == gnet_profit i vs)%Q.
Proof.
  intros vs P. unfold rnet_profit, rprofit, gnet_profit. rewrite !qsum_map.
  assert (E1 : (qsum (fun v => inject_Z (rd_copies (fdesc v)) * qsum (fun p => ri_profit (ritem (gflat i) (pl_type p))) (rd_items (fdesc v))) vs
    == qsum (fun v => inject_Z (gv_copies v) * qsum (fun x => gi_profit (gitem i x)) (gv_items v)) vs)%Q).
  { apply qsum_ext. intros v Hv. cbn [fdesc gdesc rd_copies rd_items]. unfold gv_items, gitems_of. rewrite !qsum_map. apply Qmult_comp; [reflexivity|].
    apply qsum_ext. intros n Hn. destruct (gq_bins _ _ P v Hv) as (_ & _ & [G _ _]). destruct (G n Hn) as [T _]. cbn [gplace pl_type]. rewrite (flat_ritem _ T). reflexivity. }
  assert (E2 : (qsum (fun v => rpenalties (gflat i) (fdesc v)) vs == qsum (gpenalties i) vs)%Q).
  { apply qsum_ext. intros v Hv. destruct (gq_bins _ _ P v Hv) as (T & _). unfold rpenalties, gpenalties. cbn [fdesc gdesc rd_type]. rewrite (flat_rbin _ T). cbn [flat_bin rb_resources].
    apply qsum_ext. intros r _. assert (E : (rconsumption (gflat i) r (rd_items (fdesc v)) == gconsumption i r (gv_items v))%Q).
    { unfold rconsumption, gconsumption. cbn [gflat rin_items]. rewrite map_length. apply qsum_ext. intros x _. unfold fdesc. rewrite gdesc_count. unfold gcount. rewrite Nat2Z.id. reflexivity. }
    assert (EB : Qle_bool (rconsumption (gflat i) r (rd_items (fdesc v))) (res_capacity r) = Qle_bool (gconsumption i r (gv_items v)) (res_capacity r))
      by (rewrite E; reflexivity).
    unfold Qltb. first [rewrite EB | change (rconsumption (gflat i) r (rd_items (fdesc v))) with (rconsumption (gflat i) r (rd_items (gdesc i ox oy v))) in EB; rewrite EB]. reflexivity. }
  rewrite E1, E2. clear. induction vs as [|v l IH]; [reflexivity|]. rewrite !qsum_cons. lra.
Qed.

Lemma flat_cost : forall vs, gpacking i vs -> (packing_cost (gflat i) (map fdesc vs) == gcost_of i vs)%Q.
Proof.
  intros vs P. unfold packing_cost, gcost_of. rewrite qsum_map. apply qsum_ext. intros v Hv. destruct (gq_bins _ _ P v Hv) as (T & _).
  cbn [fdesc gdesc rd_type rd_copies]. rewrite (flat_rbin _ T). reflexivity.
Qed.

(** ** Same areas *)

Lemma flat_area : forall bt, rb_area (flat_bin bt) = gb_area bt.
Proof. intro bt. unfold rb_area, flat_bin, gb_area, inner_l, inner_r, inner_b, inner_t. cbn [rb_x rb_y]. ring. Qed.

Lemma flat_fill : forall order r b, (forall x, In x order -> (x < length (gin_items i))%nat) -> rtrivial_fill (gflat i) order r b = gtrivial_fill i order r b.
Proof.
  induction order as [|x l IH]; intros r b H; [reflexivity|]. cbn [rtrivial_fill gtrivial_fill]. rewrite (flat_ritem x) by (apply H; left; reflexivity).
  change (ri_area (flat_item (gitem i x))) with (gi_area (gitem i x)). cbn [flat_item ri_copies ri_profit].
  assert (H' : forall x, In x l -> (x < length (gin_items i))%nat) by (intros y Hy; apply H; right; exact Hy).
  rewrite !IH by exact H'. reflexivity.
Qed.

Lemma flat_capacity : rtotal_capacity (gflat i) = gtotal_capacity i.
Proof.
  unfold rtotal_capacity, gtotal_capacity. cbn [gflat rin_bins]. rewrite !fold_sum, zsum_map. f_equal. apply zsum_ext. intros bt Hbt. rewrite (flat_area bt). reflexivity.
Qed.

Lemma flat_penalties : negative_penalty_sum (gflat i) = gnegative_penalty_sum i.
Proof. unfold negative_penalty_sum, gnegative_penalty_sum. cbn [gflat rin_bins]. rewrite qsum_map. reflexivity. Qed.

Lemma flat_trivial_bins : forall bts r b, rtrivial_bins (map flat_bin bts) r b = gtrivial_bins bts r b.
Proof.
  induction bts as [|bt l IH]; intros r b; [reflexivity|]. cbn [map rtrivial_bins gtrivial_bins]. rewrite (flat_area bt).
  change (rb_copies (flat_bin bt)) with (gb_copies bt). rewrite !IH. reflexivity.
Qed.

Lemma flat_item_area : ritem_area (gflat i) = gitem_area i.
Proof. unfold ritem_area, gitem_area. cbn [gflat rin_items]. rewrite !fold_sum, zsum_map. reflexivity. Qed.

Lemma combine_map : forall (A B : Type) (f : A -> B) (l : list A) (ids : list nat), combine ids (map f l) = map (fun p : nat * A => (fst p, f (snd p))) (combine ids l).
Proof. intros A B f l. induction l as [|a l IH]; intros [|k ids]; [reflexivity..|]. cbn [map combine fst snd]. rewrite IH. reflexivity. Qed.
Lemma flat_map_map : forall (A B C : Type) (f : B -> list C) (g : A -> B) l, flat_map f (map g l) = flat_map (fun a => f (g a)) l.
Proof. intros. induction l as [|a l IH]; [reflexivity|]. cbn [map flat_map]. rewrite IH. reflexivity. Qed.

Lemma flat_map_same : forall (A B : Type) (f g : A -> list B) l, (forall a, In a l -> f a = g a) -> flat_map f l = flat_map g l.
Proof. intros A B f g l H. induction l as [|a l IH]; [reflexivity|]. cbn [flat_map]. rewrite (H a (or_introl eq_refl)), IH; [reflexivity|]. intros x Hx. apply H. right. exact Hx. Qed.

Lemma flat_calls : relax_calls (gflat i) = grelax_calls i.
Proof.
  unfold relax_calls, grelax_calls. cbn [gflat rin_objective rin_bins].
  assert (E : relaxed_items (gflat i) = map flat_item (grelaxed_items i)).
  { unfold relaxed_items, grelaxed_items. cbn [gflat rin_items]. generalize (gin_items i). intro l. induction l as [|it l IH]; [reflexivity|]. cbn [map filter].
    change (ri_area (flat_item it)) with (gi_area it). destruct (negb (gi_area it <=? 0)); cbn [map]; rewrite IH; reflexivity. }
  rewrite E, !map_length, !combine_map, !flat_map_map. f_equal. f_equal.
  assert (F : forall p, In p (combine (seq 0 (length (gin_bins i))) (gin_bins i)) -> relax_bin_calls (fst p) (flat_bin (snd p)) = grelax_bin_calls (fst p) (snd p)).
  { intros [k bt] Hp. apply in_combine_r in Hp. unfold relax_bin_calls, grelax_bin_calls. cbn [fst snd]. rewrite (flat_area bt). reflexivity. }
  apply flat_map_same. exact F.
Qed.

End Flat.
(** ** The claims *)

Lemma map_fold_right : forall (l : list Z) a, fold_right Z.max 0 (map (fun x => x - a) l) <= fold_right Z.max 0 l \/ a < 0.
Proof. intros l a. destruct (Z_lt_le_dec a 0) as [|A]; [right; assumption|left]. induction l as [|x l IH]; cbn [map fold_right]; lia. Qed.

Lemma inner_nonneg : forall i bt, grelaxable i -> In bt (gin_bins i) -> 0 <= inner_l bt /\ 0 <= inner_b bt /\ inner_r bt <= gb_w bt /\ inner_t bt <= gb_h bt.
Proof.
  intros i bt R H. pose proof (gr_trims i R bt) as T. pose proof (T (gb_bottom bt) H ltac:(cbn; tauto)). pose proof (T (gb_top bt) H ltac:(cbn; tauto)).
  pose proof (T (gb_left bt) H ltac:(cbn; tauto)). pose proof (T (gb_right bt) H ltac:(cbn; tauto)). unfold inner_l, inner_b, inner_r, inner_t. lia.
Qed.

Lemma quot_le_mono : forall a f g, 0 <= a -> 1 <= f -> f <= g -> Z.quot (a + g - 1) g <= Z.quot (a + f - 1) f.
Proof.
  intros a f g A F G. rewrite !Z.quot_div_nonneg by lia. apply Z.lt_succ_r. apply Z.div_lt_upper_bound; [lia|].
  pose proof (Z.mul_div_le (a + f - 1) f ltac:(lia)). pose proof (Z.mul_succ_div_gt (a + f - 1) f ltac:(lia)).
  assert (0 <= (a + f - 1) / f) by (apply Z.div_pos; lia). nia.
Qed.

Lemma max_fold_mono : forall (A : Type) (f : A -> Z) l a b, a <= b -> fold_left (fun m x => Z.max m (f x)) l a <= fold_left (fun m x => Z.max m (f x)) l b.
Proof. intros A f l. induction l as [|x l IH]; intros a b H; cbn [fold_left]; [exact H|]. apply IH. lia. Qed.

Lemma flat_open : forall i horizontal, grelaxable i -> (0 < length (gin_bins i))%nat -> gtrivial_open i horizontal <= rtrivial_open (gflat i) horizontal.
Proof.
  intros i h R Hb. unfold gtrivial_open, rtrivial_open. rewrite flat_item_area, (flat_rbin i 0 Hb). cbn [gflat rin_items flat_bin rb_x rb_y].
  assert (E : forall a, fold_left (fun b it => Z.max b (min_extent h it)) (map flat_item (gin_items i)) a = fold_left (fun b it => Z.max b (gmin_extent h it)) (gin_items i) a).
  { intro a. revert a. generalize (gin_items i). intro l. induction l as [|x l IH]; intro a; [reflexivity|]. cbn [map fold_left]. rewrite IH. reflexivity. }
  rewrite E. apply max_fold_mono.
  destruct (gr_bins i R (gbin i 0) (nth_In _ _ Hb)) as (A & B & _). pose proof (inner_nonneg i (gbin i 0) R (nth_In _ _ Hb)) as (U1 & U2 & U3 & U4).
  assert (AR : 0 <= gitem_area i).
  { unfold gitem_area. rewrite fold_sum. cbn [Z.add]. apply zsum_nonneg. intros it Hit. destruct (gr_items i R it Hit) as (W & H & C). unfold gi_area. nia. }
  destruct h.
  - destruct (Z.ltb_spec 0 (gb_h (gbin i 0))), (Z.ltb_spec 0 (inner_t (gbin i 0) - inner_b (gbin i 0))); try lia. apply quot_le_mono; lia.
  - destruct (Z.ltb_spec 0 (gb_w (gbin i 0))), (Z.ltb_spec 0 (inner_r (gbin i 0) - inner_l (gbin i 0))); try lia. apply quot_le_mono; lia.
Qed.

Lemma flat_extents : forall i v, grelaxable i -> (gv_type v < length (gin_bins i))%nat -> gbin_geometry i v ->
  rightmost (gflat i) (rd_items (gdesc i (fun t => inner_l (gbin i t)) (fun t => inner_b (gbin i t)) v)) <= gitems_right v
  /\ topmost (gflat i) (rd_items (gdesc i (fun t => inner_l (gbin i t)) (fun t => inner_b (gbin i t)) v)) <= gitems_top v.
Proof.
  intros i v R T [G _ _]. pose proof (inner_nonneg i (gbin i (gv_type v)) R (nth_In _ _ T)) as (U1 & U2 & _). unfold rightmost, topmost, gitems_right, gitems_top. cbn [gdesc rd_items].
  revert G. generalize (item_nodes (gv_nodes v)) as l. intros l G. induction l as [|n l IH]; [split; apply Z.le_refl|]. cbn [map fold_right].
  destruct (IH (fun m Hm => G m (or_intror Hm))) as [I1 I2].
  destruct (gplace_ends i (gflat i) _ _ (flat_covers i) (inner_l (gbin i (gv_type v))) (inner_b (gbin i (gv_type v))) n (G n (or_introl eq_refl))) as [E1 E2].
  rewrite E1, E2. lia.
Qed.

Theorem gtrivial_right : forall i order, grelaxable i ->
  (gin_objective i = OKnapsack -> (forall it, In it (gin_items i) -> (0 <= gi_profit it)%Q)
     /\ sorted_by (gtrivial_before i) (seq 0 (length (gin_items i))) order) ->
  gclaim_right i (goptimize_trivial_bound i order).
Proof.
  intros i order R HK. pose proof (flat_relaxable i R) as Hr. unfold goptimize_trivial_bound.
  destruct (gin_objective i) eqn:E; try exact Logic.I; cbn [gclaim_right].
  - intros vs P Hall Ho. pose proof (rtrivial_bins_valid (gflat i) Hr _ (flat_packing i vs P) (gdesc_all i (gflat i) _ _ (flat_covers i) vs Hall) (flat_order i vs Ho)) as B.
    cbn [gflat rin_bins] in B. change (mkRInst (gin_objective i) default_params (map flat_item (gin_items i)) (map flat_bin (gin_bins i))) with (gflat i) in B.
    rewrite flat_item_area, flat_trivial_bins, gdesc_bins in B. exact B.
  - intros v P Ht Hc Hall. pose proof (gq_bins _ _ P v (or_introl eq_refl)) as (T' & _ & G). pose proof T' as T. rewrite Ht in T.
    pose proof (flat_open i true R ltac:(lia)) as L. pose proof (flat_packing i [v] P) as FP. pose proof (gdesc_all i (gflat i) _ _ (flat_covers i) [v] Hall) as FA.
    destruct (flat_extents i v R T' G) as [X _]. cbn [map] in FP, FA. unfold gdesc in FP, FA at 1. rewrite Ht, Hc in FP, FA. unfold gdesc in X. cbn [rd_items] in X. rewrite Ht in X.
    pose proof (rtrivial_open_valid (gflat i) true _ Hr FP FA) as V. cbn iota in V. lia.
  - intros v P Ht Hc Hall. pose proof (gq_bins _ _ P v (or_introl eq_refl)) as (T' & _ & G). pose proof T' as T. rewrite Ht in T.
    pose proof (flat_open i false R ltac:(lia)) as L. pose proof (flat_packing i [v] P) as FP. pose proof (gdesc_all i (gflat i) _ _ (flat_covers i) [v] Hall) as FA.
    destruct (flat_extents i v R T' G) as [_ X]. cbn [map] in FP, FA. unfold gdesc in FP, FA at 1. rewrite Ht, Hc in FP, FA. unfold gdesc in X. cbn [rd_items] in X. rewrite Ht in X.
    pose proof (rtrivial_open_valid (gflat i) false _ Hr FP FA) as V. cbn iota in V. lia.
  - intros vs P. destruct (HK eq_refl) as [K1 [K2 K3]]. rewrite <- (flat_net i vs P).
    assert (Hin : forall x, In x order -> (x < length (gin_items i))%nat).
    { intros x Hx. apply (Permutation_in x (Permutation_sym K2)) in Hx. apply in_seq in Hx. lia. }
    assert (EK : gtrivial_knapsack i order = rtrivial_knapsack (gflat i) order).
    { unfold gtrivial_knapsack, rtrivial_knapsack. rewrite flat_capacity, (flat_fill i order) by exact Hin. rewrite flat_penalties. reflexivity. }
    rewrite EK. apply rknapsack_all; [exact Hr|apply flat_packing; exact P| |].
    + intros it Hit. cbn [gflat rin_items] in Hit. apply in_map_iff in Hit. destruct Hit as (x & <- & Hx). apply (K1 x Hx).
    + split; [cbn [gflat rin_items]; rewrite map_length; exact K2|]. clear -K3 Hin. induction K3 as [|x l Hl IH Hx]; constructor.
      * apply IH. intros y Hy. apply Hin. right. exact Hy.
      * rewrite Forall_forall in *. intros y Hy. specialize (Hx y Hy). unfold rtrivial_before. rewrite !flat_ritem by (apply Hin; cbn; tauto). exact Hx.
Qed.

Theorem gonedimensional_right : forall i solve, grelaxable i ->
  gin_objective i = OBinPacking \/ gin_objective i = OKnapsack \/ gin_objective i = OVariableSizedBinPacking ->
  (gin_objective i = OBinPacking -> forall bt, In bt (gin_bins i) -> gb_copies_min bt = 0) ->
  (forall i1, bounds1_right i1 (solve i1)) ->
  gclaim_right i (goptimize_onedimensional_bound solve i).
Proof.
  intros i solve R Ho Hmin Hs. pose proof (flat_relaxable i R) as Hr.
  assert (E : goptimize_onedimensional_bound solve i = optimize_onedimensional_bound solve (gflat i)).
  { unfold goptimize_onedimensional_bound, optimize_onedimensional_bound. rewrite flat_calls, flat_penalties. reflexivity. }
  assert (C : rclaim_right (gflat i) (optimize_onedimensional_bound solve (gflat i))).
  { apply onedimensional_right; try assumption. intros O bt Hbt. cbn [gflat rin_bins] in Hbt. apply in_map_iff in Hbt. destruct Hbt as (x & <- & Hx). apply (Hmin O x Hx). }
  rewrite E. unfold optimize_onedimensional_bound in *. destruct (calls_from b_new (relax_calls (gflat i))) as [b|b|]; try exact C.
  destruct (b_build b) as [i1| |]; try exact C. cbn [gflat rin_objective] in *.
  destruct Ho as [O|[O|O]]; rewrite O in *; cbn [rclaim_right gclaim_right] in *.
  - intros vs P Hall Hord. rewrite <- (gdesc_bins i (fun t => inner_l (gbin i t)) (fun t => inner_b (gbin i t))). apply C; [apply flat_packing; exact P|apply (gdesc_all i (gflat i) _ _ (flat_covers i)); exact Hall|apply flat_order; exact Hord].
  - intros vs P. rewrite <- (flat_net i vs P). apply C. apply flat_packing. exact P.
  - intros vs P Hall. rewrite <- (flat_cost i vs P). apply C; [apply flat_packing; exact P|apply (gdesc_all i (gflat i) _ _ (flat_covers i)); exact Hall].
Qed.

(** ** Dual feasible functions *)

Definition dff_item (it : GItem) : RItem := mkRI (gi_w it) (gi_h it) (gi_profit it) (gi_copies it) (-1) 0 (gi_oriented it) 0 (-1) [].
Definition dff_bin (bt : GBinType) : RBin := mkRB (gb_w bt) (gb_h bt) (gb_cost bt) (gb_copies bt) 0 None no_truck [] [] [].

Lemma dff_bin_ok : forall o p its l g bt, 0 < gb_w bt -> 0 < gb_h bt -> 1 <= gb_copies bt -> (0 < gb_cost bt)%Q ->
  ucalls_from (mkU o p its l g) (gdff_bin_calls (length l) bt) = UOk (mkU o p its (l ++ [dff_bin bt]) g).
Proof.
  intros o p its l g t Hx Hy Hn Hc. unfold gdff_bin_calls. rewrite ucalls_cons. cbn [ustep]. unfold u_add_bin.
  replace (gb_w t <=? 0) with false by (symmetry; apply Z.leb_gt; assumption).
  replace (gb_h t <=? 0) with false by (symmetry; apply Z.leb_gt; assumption).
  unfold uset_bins. cbn [uthen u_bins u_objective u_params u_items u_orig].
  rewrite ucalls_cons. cbn [ustep]. unfold u_set_bin_cost. cbn [u_bins]. rewrite last_ok.
  destruct (Qle_bool (gb_cost t) 0) eqn:E1; [apply Qle_bool_iff in E1; lra|]. cbn [andb].
  rewrite uon_last_bin. cbn [uthen].
  destruct (Qeq_bool (gb_cost t) (-1)) eqn:E2; [apply Qeq_bool_iff in E2; lra|].
  rewrite ucalls_cons. cbn [ustep]. unfold u_set_bin_copies. cbn [u_bins]. rewrite last_ok, last_nth. cbn [rb_copies_min rb_with_cost].
  replace (negb (gb_copies t =? -1) && ((gb_copies t <=? 0) || (gb_copies t <? 0))) with false.
  2: { symmetry. apply andb_false_iff. right. apply orb_false_iff. rewrite Z.leb_gt, Z.ltb_ge. lia. }
  rewrite uon_last_bin. reflexivity.
Qed.

Lemma dff_item_ok : forall o p l bs g it, 0 < gi_w it -> 0 < gi_h it -> 1 <= gi_copies it ->
  ucalls_from (mkU o p l bs g) (gdff_item_calls (length l) it) = UOk (mkU o p (l ++ [dff_item it]) bs g).
Proof.
  intros o p l bs g t Hx Hy Hn. unfold gdff_item_calls. rewrite ucalls_cons. cbn [ustep]. unfold u_add_item.
  replace (gi_w t <? 0) with false by (symmetry; apply Z.ltb_ge; lia).
  replace (gi_h t <? 0) with false by (symmetry; apply Z.ltb_ge; lia).
  unfold uset_items. cbn [uthen u_bins u_objective u_params u_items u_orig].
  rewrite ucalls_cons. cbn [ustep]. unfold u_set_item_profit. rewrite uon_last_item. cbn [uthen].
  rewrite ucalls_cons. cbn [ustep]. unfold u_set_item_copies. cbn [u_items]. rewrite last_ok.
  replace (negb (gi_copies t =? -1) && (gi_copies t <=? 0)) with false.
  2: { symmetry. apply andb_false_iff. right. apply Z.leb_gt. lia. }
  rewrite uon_last_item. reflexivity.
Qed.

Lemma dff_bins_ok : forall o p its g bts pre, (forall bt, In bt bts -> 0 < gb_w bt /\ 0 < gb_h bt /\ 1 <= gb_copies bt /\ (0 < gb_cost bt)%Q) ->
  ucalls_from (mkU o p its pre g) (flat_map (fun q => gdff_bin_calls (fst q) (snd q)) (combine (seq (length pre) (length bts)) bts))
  = UOk (mkU o p its (pre ++ map dff_bin bts) g).
Proof.
  intros o p its g bts. induction bts as [|bt bts IH]; intros pre H; cbn [length seq combine flat_map map fst snd]; [rewrite app_nil_r; reflexivity|].
  destruct (H bt (or_introl eq_refl)) as (A & B & C & D). rewrite ucalls_app, (dff_bin_ok o p its pre g bt A B C D). cbn [uthen].
  replace (Datatypes.S (length pre)) with (length (pre ++ [dff_bin bt])) by (rewrite app_length; cbn [length]; lia).
  rewrite IH by (intros x Hx; apply H; right; exact Hx). rewrite <- app_assoc. reflexivity.
Qed.

Lemma dff_items_ok : forall o p bs g its pre, (forall it, In it its -> 0 < gi_w it /\ 0 < gi_h it /\ 1 <= gi_copies it) ->
  ucalls_from (mkU o p pre bs g) (flat_map (fun q => gdff_item_calls (fst q) (snd q)) (combine (seq (length pre) (length its)) its))
  = UOk (mkU o p (pre ++ map dff_item its) bs g).
Proof.
  intros o p bs g its. induction its as [|it its IH]; intros pre H; cbn [length seq combine flat_map map fst snd]; [rewrite app_nil_r; reflexivity|].
  destruct (H it (or_introl eq_refl)) as (A & B & C). rewrite ucalls_app, (dff_item_ok o p pre bs g it A B C). cbn [uthen].
  replace (Datatypes.S (length pre)) with (length (pre ++ [dff_item it])) by (rewrite app_length; cbn [length]; lia).
  rewrite IH by (intros x Hx; apply H; right; exact Hx). rewrite <- app_assoc. reflexivity.
Qed.

Section DffBuild.
Variable i : GInstance.
Hypothesis R : grelaxable i.

Lemma whole_pos : forall bt, In bt (gin_bins i) -> 0 < gb_w bt /\ 0 < gb_h bt /\ 1 <= gb_copies bt /\ (0 < gb_cost bt)%Q.
Proof.
  intros bt H. destruct (gr_bins i R bt H) as (A & B & C & _ & D). pose proof (inner_nonneg i bt R H). repeat split; try lia. exact D.
Qed.

Definition dff_builder : RBuilder := mkU (gin_objective i) default_params (map dff_item (gin_items i)) (map dff_bin (gin_bins i)) [].

Lemma dff_calls_ok : ucalls_from u_new (gdff_calls i) = UOk dff_builder.
Proof.
  unfold gdff_calls. rewrite ucalls_cons. cbn [ustep uthen u_new u_params u_items u_bins u_orig].
  change (seq 0 (length (gin_bins i))) with (seq (length (@nil RBin)) (length (gin_bins i))).
  change (seq 0 (length (gin_items i))) with (seq (length (@nil RItem)) (length (gin_items i))).
  rewrite ucalls_app, dff_bins_ok by exact whole_pos. cbn [uthen app].
  rewrite dff_items_ok by (intros it Hit; apply (gr_items i R it Hit)). reflexivity.
Qed.

Hypothesis Ho : gin_objective i = OBinPacking \/ gin_objective i = OFeasibility.

Lemma dff_builds : exists j d, u_build dff_builder = UBuilt j d.
Proof.
  unfold u_build, dff_builder. cbn [u_objective u_items u_bins u_params].
  destruct (find _ _) as [t|] eqn:Ef.
  { exfalso. apply find_some in Ef. destruct Ef as [Hin Hbad]. rewrite map_map in Hin. apply in_map_iff in Hin. destruct Hin as (it & <- & Hit).
    destruct (gr_items i R it Hit) as (A & B & C). unfold dff_item, rresolve_min, ri_with_min, ri_area in Hbad. cbn [ri_x ri_y ri_copies ri_copies_min] in Hbad.
    change (-1 =? -1) with true in Hbad. cbv iota in Hbad. apply orb_prop in Hbad. rewrite Z.ltb_lt, Z.eqb_eq in Hbad.
    destruct Hbad as [Hbad|Hbad]; [|nia]. destruct (gin_objective i); lia. }
  match goal with |- context [if ?c then _ else _] => destruct c eqn:Er end.
  { exfalso. apply existsb_exists in Er. destruct Er as (t & Ht & Er). apply in_map_iff in Ht. destruct Ht as (bt & <- & _). cbn in Er. discriminate. }
  destruct (rexpand_bins _) as [[ids prev] q]. destruct Ho as [E|E]; rewrite E; eexists; eexists; reflexivity.
Qed.
End DffBuild.

Theorem gdff_valid : forall nan i, nan <= 0 -> grelaxable i -> length (gin_bins i) = 1%nat ->
  gin_objective i = OBinPacking \/ gin_objective i = OFeasibility ->
  exists fuel, forall iterations, (fuel <= iterations)%nat -> gdff_right i (goptimize_dff nan iterations i).
Proof.
  intros nan i Hnan R H1 Ho. destruct (dff_builds i R Ho) as (j & d & Hb).
  pose proof (rbuild_holds _ _ _ Hb) as HD. destruct HD as [D1 _ [D3 D4] [D5 D6]]. cbn [dff_builder u_objective u_items u_bins] in D1, D3, D4, D5, D6.
  rewrite map_length in D3, D4, D5, D6.
  assert (IT : forall x, (x < length (gin_items i))%nat -> nth x (map dff_item (gin_items i)) dummy_ritem = dff_item (gitem i x)).
  { intros x Hx. rewrite (nth_indep _ dummy_ritem (dff_item gdummy_item)) by (rewrite map_length; exact Hx). apply map_nth. }
  assert (BT : forall t, (t < length (gin_bins i))%nat -> nth t (map dff_bin (gin_bins i)) dummy_rbin = dff_bin (gbin i t)).
  { intros x Hx. rewrite (nth_indep _ dummy_rbin (dff_bin gdummy_bin)) by (rewrite map_length; exact Hx). apply map_nth. }
  assert (DI : forall x, (x < length (gin_items i))%nat -> ri_x (ritem j x) = gi_w (gitem i x) /\ ri_y (ritem j x) = gi_h (gitem i x)
    /\ ri_oriented (ritem j x) = gi_oriented (gitem i x) /\ ri_copies (ritem j x) = gi_copies (gitem i x)).
  { intros x Hx. specialize (D4 x Hx). cbv zeta in D4. rewrite (IT x Hx) in D4. cbn [dff_item ri_x ri_y ri_oriented ri_copies] in D4. tauto. }
  assert (DB : forall t, (t < length (gin_bins i))%nat -> rb_x (rbin j t) = gb_w (gbin i t) /\ rb_y (rbin j t) = gb_h (gbin i t)
    /\ rb_defects (rbin j t) = [] /\ rb_copies (rbin j t) = gb_copies (gbin i t)).
  { intros t Ht. specialize (D6 t Ht). cbv zeta in D6. rewrite (BT t Ht) in D6. cbn [dff_bin rb_x rb_y rb_defects rb_copies] in D6.
    destruct (whole_pos i R (gbin i t) (nth_In _ _ Ht)) as (_ & _ & C & _).
    replace (gb_copies (gbin i t) =? -1) with false in D6 by (symmetry; apply Z.eqb_neq; lia). tauto. }
  assert (CV : covers i j (fun _ => 0) (fun _ => 0)).
  { constructor; [exact D3|exact DI|exact D5|]. intros t Ht. destruct (DB t Ht) as (B1 & B2 & B3 & _). rewrite B1, B2, B3.
    pose proof (inner_nonneg i (gbin i t) R (nth_In _ _ Ht)). repeat split; lia. }
  assert (DM : rdff_domain j).
  { constructor; [congruence| |].
    - intros it Hit. apply In_nth with (d := dummy_ritem) in Hit. destruct Hit as (x & Hx & <-). rewrite D3 in Hx. fold (ritem j x).
      destruct (DI x Hx) as (E1 & E2 & _ & E4). rewrite E1, E2, E4. apply (gr_items i R). apply nth_In. exact Hx.
    - intros bt Hbt. apply In_nth with (d := dummy_rbin) in Hbt. destruct Hbt as (t & Ht & <-). rewrite D5 in Ht. fold (rbin j t).
      destruct (DB t Ht) as (E1 & E2 & _). rewrite E1, E2. destruct (whole_pos i R (gbin i t) (nth_In _ _ Ht)) as (A & B & _). lia. }
  unfold goptimize_dff. rewrite (dff_calls_ok i R), Hb.
  destruct Ho as [O|O].
  - destruct (C18_bin_packing_bound nan j Hnan DM ltac:(congruence)) as (fuel & Hf). exists fuel. intros it Hit.
    destruct (Hf it Hit) as (b & E & V). rewrite E. cbn [gdff_right]. intros vs P Hall.
    rewrite <- (gdesc_bins i (fun _ => 0) (fun _ => 0)). apply V; [apply gdesc_packing; assumption|apply (gdesc_all i j _ _ CV); exact Hall].
  - destruct (DB 0%nat ltac:(lia)) as (_ & _ & _ & EC). assert (H0 : (0 < length (gin_bins i))%nat) by lia. destruct (whole_pos i R (gbin i 0) (nth_In _ _ H0)) as (_ & _ & C & _).
    destruct (C18_infeasibility nan j Hnan DM ltac:(congruence) ltac:(lia)) as (fuel & Hf). exists fuel. intros it Hit.
    destruct (Hf it Hit) as (v & E & V). rewrite E. destruct v; cbn [gdff_right]; intros vs P Hall.
    + apply (V eq_refl (map (gdesc i (fun _ => 0) (fun _ => 0)) vs)); [apply gdesc_packing; assumption|apply (gdesc_all i j _ _ CV); exact Hall|].
      rewrite gdesc_used, EC. apply (gq_used _ _ P). lia.
    + apply zsum_nonneg. intros v Hv. destruct (gq_bins _ _ P v Hv) as (_ & K & _). lia.
Qed.
