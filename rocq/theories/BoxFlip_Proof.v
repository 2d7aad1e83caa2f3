(** * Proofs about flipping boxes *)

From Coq Require Import List ZArith QArith Bool Lia Lqa Arith.
From Verif Require Import Util Common_Model OneDim_Model OneDim_Spec OneDimBuilder_Model OneDimBuilder_Spec OneDimBuilder_Proof
  OneDimSub_Proof Box_Model Box_Spec BoxSol_Model BoxSol_Spec BoxSol_Proof BoxBuilder_Model BoxBuilder_Spec BoxBuilder_Proof
  BoxFlip_Model BoxFlip_Spec.
Import ListNotations.
Open Scope Z_scope.

(** ** Exchanges *)

Lemma other_twice : forall d a, other_axis d (other_axis d a) = a.
Proof. intros [] []; reflexivity. Qed.
Lemma exchange_rot_twice : forall d r, exchange_rot d (exchange_rot d r) = r.
Proof. intros [] []; reflexivity. Qed.
Lemma exchange_at : forall d v a, vat (exchange d v) a = vat v (other_axis d a).
Proof. intros d v []; reflexivity. Qed.
Lemma exchange_twice : forall d v, exchange d (exchange d v) = v.
Proof. intros [] [x y z]; reflexivity. Qed.
Lemma exchange_rot_sizes : forall d b r a, vat (rotate b (exchange_rot d r)) a = vat (rotate b r) (other_axis d a).
Proof. intros [] b [] []; reflexivity. Qed.

Lemma convert_exchange : forall d v, convert_point_back v d = exchange d v.
Proof. intros [] [x y z]; reflexivity. Qed.
Lemma flip_box_exchange : forall d v, flip_box d v = exchange d v.
Proof. intros [] [x y z]; reflexivity. Qed.
Lemma flipped_rotation : forall d r, get_flipped_rotation r d = exchange_rot d r.
Proof. intros [] []; reflexivity. Qed.
Lemma flip_rotations_map : forall d l, flip_rotations d l = map (exchange_rot d) l.
Proof.
  intros d l. unfold flip_rotations.
  assert (G : forall acc, fold_left (fun acc r => acc ++ [get_flipped_rotation r d]) l acc = acc ++ map (exchange_rot d) l).
  { induction l as [|r l IH]; intro acc; simpl; [rewrite app_nil_r; reflexivity|]. rewrite IH, flipped_rotation, <- app_assoc. reflexivity. }
  apply G.
Qed.

Lemma bp_size_rotate : forall i p a, bp_size i p a = vat (rotate (bi_box (bxitem i (bp_type p))) (bp_rot p)) a.
Proof. intros i [x v []] []; reflexivity. Qed.

(** ** The builder calls *)

Lemma wcalls_app : forall b l1 l2, wcalls_from b (l1 ++ l2) = wthen (wcalls_from b l1) (fun b' => wcalls_from b' l2).
Proof.
  intros b l1 l2. unfold wcalls_from. rewrite fold_left_app.
  assert (Hstuck : forall r, (forall b', r <> WOk b') -> fold_left (fun r c => wthen r (fun b => wstep b c)) l2 r = r).
  { intros r Hr. induction l2 as [|c l2 IH]; [reflexivity|]. simpl.
    destruct r as [b'|b'|]; [exfalso; apply (Hr b'); reflexivity|exact IH|exact IH]. }
  destruct (fold_left _ l1 (WOk b)) as [b'|b'|]; simpl; [reflexivity|apply Hstuck; discriminate|apply Hstuck; discriminate].
Qed.

Lemma wcalls_cons : forall b c l, wcalls_from b (c :: l) = wthen (wstep b c) (fun b' => wcalls_from b' l).
Proof. intros b c l. apply (wcalls_app b [c] l). Qed.

Lemma won_last_bin : forall o its l t g f,
  won_bin (mkW o its (l ++ [t]) g) (Z.of_nat (length l)) f = WOk (mkW o its (l ++ [f t]) g).
Proof. intros. unfold won_bin, wset_bins. cbn [w_bins w_objective w_items w_orig]. rewrite last_ok, Nat2Z.id, upd_last. reflexivity. Qed.

Lemma won_last_item : forall o l t bs g f,
  won_item (mkW o (l ++ [t]) bs g) (Z.of_nat (length l)) f = WOk (mkW o (l ++ [f t]) bs g).
Proof. intros. unfold won_item, wset_items. cbn [w_bins w_objective w_items w_orig]. rewrite last_ok, Nat2Z.id, upd_last. reflexivity. Qed.

Definition flip_bin (d : Axis) (t : BBin) : BBin :=
  mkBB (exchange d (bn_box t)) (bn_cost t) (bn_copies t) 0 (bn_max_weight t) [].

Lemma bflip_bin_ok : forall d o its l g t,
  (forall a, 0 < vat (bn_box t) a) -> (0 < bn_cost t)%Q -> 1 <= bn_copies t ->
  wcalls_from (mkW o its l g) (bflip_bin_calls d (Z.of_nat (length l)) t) = WOk (mkW o its (l ++ [flip_bin d t]) g).
Proof.
  intros d o its l g t Hb Hc Hn. unfold bflip_bin_calls. rewrite flip_box_exchange.
  assert (Hb' : forall a, 0 < vat (exchange d (bn_box t)) a) by (intro a; rewrite exchange_at; apply Hb).
  pose proof (Hb' AX) as H1. pose proof (Hb' AY) as H2. pose proof (Hb' AZ) as H3. cbn [vat] in H1, H2, H3.
  rewrite wcalls_cons. cbn [wstep]. unfold w_add_bin.
  set (v := exchange d (bn_box t)) in *.
  replace (v_x v <=? 0) with false by (symmetry; apply Z.leb_gt; assumption).
  replace (v_y v <=? 0) with false by (symmetry; apply Z.leb_gt; assumption).
  replace (v_z v <=? 0) with false by (symmetry; apply Z.leb_gt; assumption).
  unfold wset_bins. cbn [wthen w_bins w_objective w_items w_orig].
  rewrite wcalls_cons. cbn [wstep]. unfold w_set_bin_cost. cbn [w_bins]. rewrite last_ok.
  destruct (Qle_bool (bn_cost t) 0) eqn:E1; [apply Qle_bool_iff in E1; lra|]. cbn [andb].
  rewrite won_last_bin. cbn [wthen].
  destruct (Qeq_bool (bn_cost t) (-1)) eqn:E2; [apply Qeq_bool_iff in E2; lra|].
  rewrite wcalls_cons. cbn [wstep]. unfold w_set_bin_copies. cbn [w_bins]. rewrite last_ok, last_nth. cbn [bn_copies_min bn_with_cost].
  replace (negb (bn_copies t =? -1) && ((bn_copies t <=? 0) || (bn_copies t <? 0))) with false.
  2: { symmetry. apply andb_false_iff. right. apply orb_false_iff. rewrite Z.leb_gt, Z.ltb_ge. lia. }
  rewrite won_last_bin. cbn [wthen].
  rewrite wcalls_cons. cbn [wstep]. unfold w_set_bin_weight. rewrite won_last_bin. reflexivity.
Qed.

Lemma bflip_bins_ok : forall d i o its g n, bflippable i -> (n <= length (bx_bins i))%nat ->
  wcalls_from (mkW o its [] g) (flat_map (fun k => bflip_bin_calls d (Z.of_nat k) (bxbin i k)) (seq 0 n)) =
  WOk (mkW o its (map (fun k => flip_bin d (bxbin i k)) (seq 0 n)) g).
Proof.
  intros d i o its g n Hf. induction n as [|n IH]; intro Hn; [reflexivity|].
  rewrite seq_S, flat_map_app, map_app, wcalls_app, IH by lia. cbn [wthen flat_map map plus]. rewrite app_nil_r.
  destruct (bf_bins i Hf (bxbin i n)) as (A1 & A2 & A3); [apply nth_In; lia|].
  pose proof (bflip_bin_ok d o its (map (fun k => flip_bin d (bxbin i k)) (seq 0 n)) g (bxbin i n) A1 A2 A3) as E.
  rewrite map_length, seq_length in E. exact E.
Qed.

Definition flip_bitem (d : Axis) (t : BItem) : BItem :=
  mkBI (bi_box t) (bi_profit t) (bi_copies t) (-1) (map (exchange_rot d) (bi_rotations t)) (bi_weight t) [].

Lemma bflip_item_ok : forall d o l bs g t, (forall a, 0 < vat (bi_box t) a) -> 1 <= bi_copies t ->
  wcalls_from (mkW o l bs g) (bflip_item_calls d (Z.of_nat (length l)) t) = WOk (mkW o (l ++ [flip_bitem d t]) bs g).
Proof.
  intros d o l bs g t Hb Hn. unfold bflip_item_calls. rewrite flip_rotations_map. cbn [app].
  pose proof (Hb AX) as H1. pose proof (Hb AY) as H2. pose proof (Hb AZ) as H3. cbn [vat] in H1, H2, H3.
  rewrite wcalls_cons. cbn [wstep]. unfold w_add_item.
  replace (v_x (bi_box t) <? 0) with false by (symmetry; apply Z.ltb_ge; lia).
  replace (v_y (bi_box t) <? 0) with false by (symmetry; apply Z.ltb_ge; lia).
  replace (v_z (bi_box t) <? 0) with false by (symmetry; apply Z.ltb_ge; lia).
  unfold wset_items. cbn [wthen w_bins w_objective w_items w_orig].
  rewrite wcalls_cons. cbn [wstep]. unfold w_set_item_profit. rewrite won_last_item. cbn [wthen].
  rewrite wcalls_cons. cbn [wstep]. unfold w_set_item_copies. cbn [w_items]. rewrite last_ok.
  replace (negb (bi_copies t =? -1) && (bi_copies t <=? 0)) with false
    by (symmetry; apply andb_false_iff; right; apply Z.leb_gt; lia).
  rewrite won_last_item. cbn [wthen]. unfold bi_with_profit, bi_with_copies.
  cbn [bi_box bi_profit bi_copies bi_copies_min bi_rotations bi_weight bi_resource_ids].
  rewrite wcalls_app.
  assert (Hr : forall rl acc,
    wcalls_from (mkW o (l ++ [mkBI (bi_box t) (bi_profit t) (bi_copies t) (-1) acc 0 []]) bs g)
      (map (WAddRotation (Z.of_nat (length l))) rl) =
    WOk (mkW o (l ++ [mkBI (bi_box t) (bi_profit t) (bi_copies t) (-1) (acc ++ rl) 0 []]) bs g)).
  { induction rl as [|r rl IH]; intro acc; cbn [map]; [rewrite app_nil_r; reflexivity|].
    rewrite wcalls_cons. cbn [wstep]. unfold w_add_rotation. rewrite won_last_item. cbn [wthen]. unfold bi_with_rotations.
    cbn [bi_box bi_profit bi_copies bi_copies_min bi_rotations bi_weight bi_resource_ids].
    rewrite IH, <- app_assoc. reflexivity. }
  rewrite Hr. cbn [wthen app]. rewrite wcalls_cons. cbn [wstep]. unfold w_set_item_weight. rewrite won_last_item. reflexivity.
Qed.

Lemma bflip_items_ok : forall d i o bs g n, bflippable i -> (n <= length (bx_items i))%nat ->
  wcalls_from (mkW o [] bs g) (flat_map (fun x => bflip_item_calls d (Z.of_nat x) (bxitem i x)) (seq 0 n)) =
  WOk (mkW o (map (fun x => flip_bitem d (bxitem i x)) (seq 0 n)) bs g).
Proof.
  intros d i o bs g n Hf. induction n as [|n IH]; intro Hn; [reflexivity|].
  rewrite seq_S, flat_map_app, map_app, wcalls_app, IH by lia. cbn [wthen flat_map map plus]. rewrite app_nil_r.
  destruct (bf_items i Hf (bxitem i n)) as (A1 & A2 & _); [apply nth_In; lia|].
  pose proof (bflip_item_ok d o (map (fun x => flip_bitem d (bxitem i x)) (seq 0 n)) bs g (bxitem i n) A1 A2) as E.
  rewrite map_length, seq_length in E. exact E.
Qed.

Definition bflip_builder (d : Axis) (i : BInstance) : BBuilder :=
  mkW (bflip_objective (bx_objective i))
    (map (fun x => flip_bitem d (bxitem i x)) (seq 0 (length (bx_items i))))
    (map (fun k => flip_bin d (bxbin i k)) (seq 0 (length (bx_bins i)))) [].

Lemma bflip_calls_ok : forall o d i, bflippable i -> wcalls_from (w_new o) (bflip_calls d i) = WOk (bflip_builder d i).
Proof.
  intros o d i Hf. unfold bflip_calls. cbn [app]. rewrite wcalls_cons. cbn [wstep wthen]. unfold w_new.
  cbn [w_objective w_items w_bins w_orig].
  rewrite wcalls_app, bflip_bins_ok by auto. cbn [wthen]. apply bflip_items_ok; auto.
Qed.

(** ** build *)

Lemma list_nth_map : forall (A B : Type) (f : A -> B) (l : list A) d, map (fun k => f (nth k l d)) (seq 0 (length l)) = map f l.
Proof.
  intros A B f l d. induction l as [|a l IH] using rev_ind; [reflexivity|].
  rewrite app_length. cbn [length]. rewrite Nat.add_1_r, seq_S, !map_app. cbn [map plus].
  rewrite app_nth2, Nat.sub_diag by lia. cbn [nth]. f_equal.
  rewrite <- IH. apply map_ext_in. intros k Hk. apply in_seq in Hk. rewrite app_nth1 by lia. reflexivity.
Qed.

Lemma wids_length : forall bins, (forall t, In t bins -> 0 <= bn_copies t) ->
  Z.of_nat (length (fst (fst (wexpand_bins bins)))) = zsum bn_copies bins.
Proof.
  intros bins H. pose proof (wexpand_spec bins) as X. destruct (wexpand_bins bins) as [[ids prev] p]. cbn [fst].
  destruct X as [-> _].
  assert (G : forall n, (n <= length bins)%nat ->
    Z.of_nat (length (flat_map (fun t => repeat t (Z.to_nat (bn_copies (nth t bins dummy_bbin)))) (seq 0 n))) =
    zsum bn_copies (firstn n bins)).
  { induction n as [|n IH]; intro Hn; [reflexivity|].
    assert (Hf : firstn (S n) bins = firstn n bins ++ [nth n bins dummy_bbin]).
    { clear -Hn. revert n Hn. induction bins as [|a bins IHr]; intros n Hn; simpl in Hn; [lia|].
      destruct n as [|n]; [reflexivity|]. simpl. f_equal. apply IHr. lia. }
    rewrite Hf, zsum_snoc, seq_S, flat_map_app, app_length, Nat2Z.inj_add, IH by lia. cbn [flat_map plus].
    rewrite app_nil_r, repeat_length. specialize (H (nth n bins dummy_bbin) (nth_In _ _ Hn)). lia. }
  rewrite G, firstn_all by lia. reflexivity.
Qed.

Theorem bflip_ok : forall o d i, bflippable i ->
  exists j e, bflip o d i = WBuilt j e /\ bx_objective j = bflip_objective (bx_objective i) /\
    bswapped d i j /\ wconsistent j e /\
    (forall x, (x < length (bx_items i))%nat ->
       bi_copies_min (bxitem j x) = match bx_objective i with OKnapsack => 0 | _ => bi_copies (bxitem i x) end) /\
    (forall k, (k < length (bx_bins i))%nat -> bn_copies_min (bxbin j k) = 0 /\ bn_resources (bxbin j k) = []).
Proof.
  intros o d i Hf. unfold bflip. rewrite (bflip_calls_ok o d i Hf). set (b := bflip_builder d i).
  assert (Lb : length (w_bins b) = length (bx_bins i)) by (simpl; rewrite map_length, seq_length; reflexivity).
  assert (Li : length (w_items b) = length (bx_items i)) by (simpl; rewrite map_length, seq_length; reflexivity).
  assert (Bin : forall k, (k < length (bx_bins i))%nat -> nth k (w_bins b) dummy_bbin = flip_bin d (bxbin i k)).
  { intros k Hk. simpl. rewrite nth_indep with (d' := flip_bin d (bxbin i 0%nat)) by (rewrite map_length, seq_length; assumption).
    rewrite (map_nth (fun k => flip_bin d (bxbin i k))), seq_nth by assumption. reflexivity. }
  assert (Item : forall x, (x < length (bx_items i))%nat -> nth x (w_items b) dummy_bitem = flip_bitem d (bxitem i x)).
  { intros x Hx. simpl. rewrite nth_indep with (d' := flip_bitem d (bxitem i 0%nat)) by (rewrite map_length, seq_length; assumption).
    rewrite (map_nth (fun x => flip_bitem d (bxitem i x))), seq_nth by assumption. reflexivity. }
  assert (Inv : winv b).
  { pose proof (bflip_calls_ok o d i Hf) as E. unfold wcalls_from in E.
    assert (G : forall l r b', match r with WOk b0 => winv b0 | _ => True end ->
      fold_left (fun r c => wthen r (fun b => wstep b c)) l r = WOk b' -> winv b').
    { induction l as [|c l IH]; intros r b' Hr El; simpl in El; [subst r; exact Hr|].
      apply (IH _ _ ) in El; [exact El|]. destruct r as [b0|b0|]; simpl; auto.
      pose proof (wstep_keeps b0 c Hr) as K. unfold wkeeps in K. destruct (wstep b0 c); auto. }
    refine (G _ (WOk (w_new o)) _ _ E). apply (wrun_inv o [] (w_new o) eq_refl). }
  assert (Hb : exists j e, w_build b = WBuilt j e).
  { unfold w_build. cbv zeta.
    destruct (find _ _) as [t|] eqn:Ef.
    { exfalso. apply find_some in Ef. destruct Ef as [Hin Hbad]. apply in_map_iff in Hin. destruct Hin as (u & <- & Hu).
      apply In_nth with (d := dummy_bitem) in Hu. destruct Hu as (x & Hx & <-). rewrite Li in Hx. rewrite (Item x Hx) in Hbad.
      destruct (bf_items i Hf (bxitem i x)) as (A1 & A2 & A3); [apply nth_In; assumption|].
      unfold flip_bitem, wresolve_item, bi_with_min, bi_with_rotations, vol in Hbad.
      cbn [bi_box bi_copies bi_copies_min] in Hbad.
      change (-1 =? -1) with true in Hbad. cbv iota in Hbad.
      pose proof (A1 AX) as B1. pose proof (A1 AY) as B2. pose proof (A1 AZ) as B3. cbn [vat] in B1, B2, B3.
      apply orb_prop in Hbad. rewrite Z.ltb_lt, Z.eqb_eq in Hbad. destruct Hbad as [Hbad|Hbad]; [|nia].
      destruct (w_objective b); lia. }
    match goal with |- context [wexpand_bins ?l] => set (bins := l) end.
    assert (Hz : zsum bn_copies bins = zsum bn_copies (bx_bins i) /\ forall t, In t bins -> 0 <= bn_copies t).
    { assert (Em : map bn_copies bins = map bn_copies (bx_bins i)).
      { subst bins. rewrite map_map. apply nth_ext with (d := 0) (d' := 0).
        - rewrite !map_length. assumption.
        - intros k Hk. rewrite map_length, Lb in Hk.
          match goal with |- nth k (map ?f _) 0 = _ =>
            rewrite nth_indep with (d' := f dummy_bbin) by (rewrite map_length; lia); rewrite (map_nth f) end.
          rewrite nth_indep with (d' := bn_copies dummy_bbin) (l := map bn_copies (bx_bins i)) by (rewrite map_length; lia).
          rewrite (map_nth bn_copies). fold (bxbin i k). unfold wresolve_copies. cbn [bn_copies bn_with_copies].
          rewrite (Bin k Hk). cbn [flip_bin bn_copies].
          destruct (bf_bins i Hf (bxbin i k)) as (_ & _ & A); [apply nth_In; assumption|].
          replace (bn_copies (bxbin i k) =? -1) with false by (symmetry; apply Z.eqb_neq; lia). reflexivity. }
      split.
      - rewrite (zsum_as_map _ bn_copies bins), Em, <- (zsum_as_map _ bn_copies). reflexivity.
      - intros t Ht. apply (in_map bn_copies) in Ht. rewrite Em in Ht. apply in_map_iff in Ht. destruct Ht as (u & <- & Hu).
        destruct (bf_bins i Hf u Hu) as (_ & _ & A). lia. }
    destruct Hz as [Hz1 Hz2]. pose proof (wids_length bins Hz2) as Hl.
    destruct (wexpand_bins bins) as [[ids prev] p]. cbn [fst] in Hl.
    match goal with |- context [if ?c then _ else _] => destruct c eqn:Eo end.
    { exfalso. change (w_objective b) with (bflip_objective (bx_objective i)) in Eo.
      assert (Ho : bx_objective i = OOpenDimensionX \/ bx_objective i = OOpenDimensionY \/ bx_objective i = OOpenDimensionZ).
      { destruct (bx_objective i); cbn [bflip_objective] in Eo; try discriminate; auto. }
      pose proof (bf_open i Hf Ho) as Hop. rewrite Hl, Hz1, Hop in Eo.
      destruct (bflip_objective (bx_objective i)); discriminate. }
    match goal with |- context [if ?c then _ else _] => destruct c eqn:Er end; [|eauto].
    exfalso. apply existsb_exists in Er. destruct Er as (t & Ht & Er).
    apply existsb_exists in Er. destruct Er as (r & Hr & _).
    apply In_nth with (d := dummy_bbin) in Ht. destruct Ht as (k & Hk & <-). rewrite Lb in Hk.
    rewrite (Bin k Hk) in Hr. destruct Hr. }
  destruct Hb as (j & e & Hb). exists j, e. split; [exact Hb|].
  destruct (wbuild_holds b j e Hb) as [H1 [H3 H4] [H5 H6]].
  rewrite Li in H3, H4. rewrite Lb in H5, H6.
  assert (Ho : bx_objective j = bflip_objective (bx_objective i)) by exact H1.
  split; [assumption|].
  split; [|split; [|split]].
  - constructor.
    + split; [assumption|]. intros x Hx. cbv zeta. specialize (H4 x Hx). cbv zeta in H4. rewrite (Item x Hx) in H4.
      cbn [flip_bitem bi_box bi_profit bi_copies bi_weight bi_rotations bi_copies_min] in H4.
      destruct H4 as (G1 & G2 & G3 & G4 & G5 & _). repeat (split; [assumption|]). rewrite G5.
      destruct (bf_items i Hf (bxitem i x)) as (_ & _ & A3); [apply nth_In; assumption|].
      destruct (bi_rotations (bxitem i x)); [contradiction|reflexivity].
    + split; [assumption|]. intros k Hk. cbv zeta. specialize (H6 k Hk). cbv zeta in H6. rewrite (Bin k Hk) in H6.
      cbn [flip_bin bn_box bn_cost bn_copies bn_copies_min bn_max_weight bn_resources] in H6.
      destruct H6 as (G1 & G2 & G3 & G4 & G5 & G6).
      destruct (bf_bins i Hf (bxbin i k)) as (_ & _ & A); [apply nth_In; assumption|].
      replace (bn_copies (bxbin i k) =? -1) with false in G6 by (symmetry; apply Z.eqb_neq; lia).
      split; [intro a; rewrite G1; apply exchange_at|]. auto.
  - apply (wbuild_consistent b j e Hb Inv).
  - intros x Hx. specialize (H4 x Hx). cbv zeta in H4. rewrite (Item x Hx) in H4.
    destruct H4 as (_ & _ & _ & _ & _ & G). rewrite G, Ho. cbn [flip_bitem bi_copies_min bi_copies].
    change (-1 =? -1) with true. cbv iota. destruct (bx_objective i); reflexivity.
  - intros k Hk. specialize (H6 k Hk). cbv zeta in H6. rewrite (Bin k Hk) in H6. destruct H6 as (_ & _ & G3 & _ & G5 & _). auto.
Qed.

(** ** Packings *)

Lemma bswap_place_twice : forall d p, bswap_place d (bswap_place d p) = p.
Proof.
  intros d [t v r]. unfold bswap_place. cbn [bp_type bp_pos bp_rot]. rewrite exchange_twice, exchange_rot_twice. reflexivity.
Qed.
Lemma bswap_desc_twice : forall d b, bswap_desc d (bswap_desc d b) = b.
Proof.
  intros d [t c ps]. unfold bswap_desc. cbn [xd_type xd_copies xd_items]. f_equal. rewrite map_map. rewrite <- List.map_id.
  apply map_ext. apply bswap_place_twice.
Qed.

Lemma bswapped_sym : forall d i j, bswapped d i j -> bswapped d j i.
Proof.
  intros d i j [[S3 S4] [S5 S6]]. constructor.
  - split; [congruence|]. intros x Hx. rewrite S3 in Hx. specialize (S4 x Hx). cbv zeta in *.
    destruct S4 as (A1 & A2 & A3 & A4 & A5). repeat (split; [congruence|]). rewrite A5, map_map.
    rewrite <- List.map_id at 1. apply map_ext. intro r. symmetry. apply exchange_rot_twice.
  - split; [congruence|]. intros k Hk. rewrite S5 in Hk. specialize (S6 k Hk). cbv zeta in *.
    destruct S6 as (A1 & A2 & A3 & A4). repeat split; try congruence. intro a. rewrite A1, other_twice. reflexivity.
Qed.

Section Swap.

Variable d : Axis.
Variables i j : BInstance.
Hypothesis Hs : bswapped d i j.

Lemma bswap_ends : forall p a, (bp_type p < length (bx_items i))%nat ->
  vat (bp_pos (bswap_place d p)) a = vat (bp_pos p) (other_axis d a) /\
  bp_size j (bswap_place d p) a = bp_size i p (other_axis d a) /\
  bp_end j (bswap_place d p) a = bp_end i p (other_axis d a).
Proof.
  intros p a Hp. destruct Hs as [[_ S4] _]. specialize (S4 _ Hp). cbv zeta in S4. destruct S4 as (A1 & _).
  assert (E : bp_size j (bswap_place d p) a = bp_size i p (other_axis d a)).
  { rewrite !bp_size_rotate. cbn [bswap_place bp_type bp_rot]. rewrite A1. apply exchange_rot_sizes. }
  unfold bp_end. rewrite E. cbn [bswap_place bp_pos]. rewrite exchange_at. auto.
Qed.

Lemma bswap_count : forall x ps, bcount x (map (bswap_place d) ps) = bcount x ps.
Proof.
  intros x ps. unfold bcount. f_equal. induction ps as [|p ps IH]; [reflexivity|]. simpl.
  destruct (Nat.eqb (bp_type p) x); simpl; rewrite IH; reflexivity.
Qed.

Lemma bswap_packed : forall x ds, bpacked x (map (bswap_desc d) ds) = bpacked x ds.
Proof.
  intros x ds. unfold bpacked. rewrite zsum_map. apply zsum_ext. intros b _. simpl. rewrite bswap_count. reflexivity.
Qed.

Lemma bswap_geometry : forall k ps, (k < length (bx_bins i))%nat ->
  bgeometry_ok i (bxbin i k) ps -> bgeometry_ok j (bxbin j k) (map (bswap_place d) ps).
Proof.
  intros k ps Hk [G1 G2].
  pose proof Hs as [[S3 S4] [S5 S6]]. specialize (S6 k Hk). cbv zeta in S6.
  destruct S6 as (A1 & _).
  assert (Ht : forall p, In p ps -> (bp_type p < length (bx_items i))%nat) by (intros p Hp; apply (G1 p Hp)).
  constructor.
  - intros q Hq. apply in_map_iff in Hq. destruct Hq as (p & <- & Hp). destruct (G1 p Hp) as [P1 P2 P3]. constructor.
    + simpl. rewrite S3. assumption.
    + intro a. destruct (bswap_ends p a P1) as (B1 & _ & B3). rewrite B1, B3, (A1 a). apply P2.
    + cbn [bswap_place bp_type bp_rot]. specialize (S4 _ P1). cbv zeta in S4. destruct S4 as (_ & _ & _ & _ & R). rewrite R.
      apply in_map. exact P3.
  - clear G1. induction G2 as [|p ps Hp G2 IH]; simpl; [constructor|].
    constructor; [|apply IH; intros q Hq; apply Ht; right; assumption].
    apply Forall_forall. intros q Hq. apply in_map_iff in Hq. destruct Hq as (p' & <- & Hp').
    rewrite Forall_forall in Hp. destruct (Hp p' Hp') as (a & Ha). exists (other_axis d a).
    destruct (bswap_ends p (other_axis d a) (Ht p (or_introl eq_refl))) as (B1 & _ & B3).
    destruct (bswap_ends p' (other_axis d a) (Ht p' (or_intror Hp'))) as (C1 & _ & C3).
    rewrite B1, B3, C1, C3, other_twice. exact Ha.
Qed.

Lemma bswap_packing : forall ds, bpacking_ok i ds -> bpacking_ok j (map (bswap_desc d) ds).
Proof.
  intros ds [P1 P2]. pose proof Hs as [[S3 S4] [S5 S6]]. constructor.
  - intros e He. apply in_map_iff in He. destruct He as (b & <- & Hd). destruct (P1 b Hd) as (Q1 & Q2 & Q3). simpl.
    rewrite S5. split; [assumption|]. split; [assumption|]. apply bswap_geometry; assumption.
  - intros x Hx. rewrite S3 in Hx. rewrite bswap_packed. specialize (S4 x Hx). cbv zeta in S4.
    destruct S4 as (_ & _ & -> & _). auto.
Qed.

Lemma bswap_values : forall ds, bpacking_ok i ds ->
  (bprofit j (map (bswap_desc d) ds) == bprofit i ds)%Q /\
  (qsum (fun b => inject_Z (xd_copies b) * bn_cost (bxbin j (xd_type b))) (map (bswap_desc d) ds) ==
   qsum (fun b => inject_Z (xd_copies b) * bn_cost (bxbin i (xd_type b))) ds)%Q /\
  (forall t, bused_bins t (map (bswap_desc d) ds) = bused_bins t ds).
Proof.
  intros ds [P1 P2]. pose proof Hs as [[S3 S4] [S5 S6]].
  split; [|split].
  - unfold bprofit. rewrite qsum_map. apply qsum_ext. intros b Hd. simpl. rewrite qsum_map.
    apply Qmult_comp; [reflexivity|]. apply qsum_ext. intros p Hp. simpl.
    destruct (P1 b Hd) as (_ & _ & [G _]). destruct (G p Hp) as [Ht _ _].
    specialize (S4 _ Ht). cbv zeta in S4. destruct S4 as (_ & -> & _). reflexivity.
  - rewrite qsum_map. apply qsum_ext. intros b Hd. simpl. destruct (P1 b Hd) as (Ht & _).
    specialize (S6 _ Ht). cbv zeta in S6. destruct S6 as (_ & -> & _). reflexivity.
  - intro t. unfold bused_bins. rewrite zsum_map. reflexivity.
Qed.

Lemma bswap_weight : forall ps, (forall p, In p ps -> (bp_type p < length (bx_items i))%nat) ->
  (qsum (fun p => bi_weight (bxitem j (bp_type p))) (map (bswap_place d) ps) == qsum (fun p => bi_weight (bxitem i (bp_type p))) ps)%Q.
Proof.
  intros ps H. rewrite qsum_map. apply qsum_ext. intros p Hp. simpl. pose proof Hs as [[S3 S4] _].
  specialize (S4 _ (H p Hp)). cbv zeta in S4. destruct S4 as (_ & _ & _ & -> & _). reflexivity.
Qed.

Lemma bswap_extents : forall a ps, (forall p, In p ps -> (bp_type p < length (bx_items i))%nat) ->
  extent j a (map (bswap_place d) ps) = extent i (other_axis d a) ps.
Proof.
  intros a ps H. unfold extent. rewrite map_map. f_equal. apply map_ext_in. intros p Hp.
  apply (bswap_ends p a (H p Hp)).
Qed.

End Swap.

(** ** unflip_solution *)

Lemma bunflip_desc : forall d bins acc,
  xdesc_run acc (flat_map (fun pos => bunflip_bin_calls d (length acc + pos) (nth pos bins (xraw_bin 0 0 []))) (seq 0 (length bins))) =
  acc ++ map (bswap_desc d) (map xview_bin bins).
Proof.
  assert (Happ : forall l1 l2 ds, xdesc_run ds (l1 ++ l2) = xdesc_run (xdesc_run ds l1) l2).
  { induction l1 as [|c l1 IH]; intros l2 ds; [reflexivity|]. destruct c; simpl; apply IH. }
  intros d bins. induction bins as [|b bins IH] using rev_ind; intro acc.
  - simpl. rewrite app_nil_r. reflexivity.
  - rewrite app_length. cbn [length]. rewrite Nat.add_1_r, seq_S, flat_map_app, Happ. cbn [plus flat_map]. rewrite app_nil_r.
    assert (E : flat_map (fun pos => bunflip_bin_calls d (length acc + pos) (nth pos (bins ++ [b]) (xraw_bin 0 0 []))) (seq 0 (length bins)) =
      flat_map (fun pos => bunflip_bin_calls d (length acc + pos) (nth pos bins (xraw_bin 0 0 []))) (seq 0 (length bins))).
    { rewrite !flat_map_concat_map. f_equal. apply map_ext_in. intros k Hk. apply in_seq in Hk. rewrite app_nth1 by lia. reflexivity. }
    rewrite E, IH. rewrite app_nth2, Nat.sub_diag by lia. cbn [nth]. rewrite !map_app. cbn [map].
    unfold bunflip_bin_calls. cbn [xdesc_run]. rewrite !app_assoc. set (ds := acc ++ map (bswap_desc d) (map xview_bin bins)).
    assert (Hl : (length acc + length bins)%nat = length ds) by (subst ds; rewrite app_length, !map_length; reflexivity).
    rewrite Hl. clearbody ds. clear.
    assert (G : forall ps done, xdesc_run (ds ++ [mkXD (xs_type b) (xs_copies b) done])
      (map (fun p => XAddItem (length ds) (mkBP (bp_type p) (convert_point_back (bp_pos p) d) (get_flipped_rotation (bp_rot p) d))) ps) =
      ds ++ [mkXD (xs_type b) (xs_copies b) (done ++ map (bswap_place d) ps)]).
    { induction ps as [|p ps IHp]; intro done; cbn [map xdesc_run]; [rewrite app_nil_r; reflexivity|].
      rewrite upd_last. cbn [xd_type xd_copies xd_items]. rewrite IHp, <- app_assoc, convert_exchange, flipped_rotation. reflexivity. }
    rewrite G. reflexivity.
Qed.

Lemma bunflip_calls_desc : forall d s, xdesc_run [] (bunflip_calls d s) = map (bswap_desc d) (xview s).
Proof. intros d s. apply (bunflip_desc d (xc_bins (xsol_core s)) []). Qed.

Lemma xb_run_app : forall i l1 l2 bins, xb_run i bins (l1 ++ l2) =
  match xb_run i bins l1 with Some bins' => xb_run i bins' l2 | None => None end.
Proof.
  intros i l1. induction l1 as [|c l1 IH]; intros l2 bins; [reflexivity|]. simpl.
  destruct (xb_call i bins c); [apply IH|reflexivity].
Qed.

Lemma can_rotate_in : forall it r, In r (bi_rotations it) -> can_rotate it r = true.
Proof. intros it r H. apply existsb_exists. exists r. split; [assumption|]. destruct r; reflexivity. Qed.

(** The calls are accepted when the ids are in range and the orientations
    allowed. *)
Lemma bunflip_run : forall d i s,
  (forall b, In b (xview s) -> (xd_type b < length (bx_bins i))%nat /\
     forall p, In p (xd_items b) -> (bp_type p < length (bx_items i))%nat /\
       In (exchange_rot d (bp_rot p)) (bi_rotations (bxitem i (bp_type p)))) ->
  exists bins, xb_run i [] (bunflip_calls d s) = Some bins.
Proof.
  intros d i s H. unfold bunflip_calls, xview in *. set (bs := xc_bins (xsol_core s)) in *. clearbody bs. clear s.
  assert (G : forall n, (n <= length bs)%nat -> exists bins,
    xb_run i [] (flat_map (fun pos => bunflip_bin_calls d pos (nth pos bs (xraw_bin 0 0 []))) (seq 0 n)) = Some bins /\ length bins = n).
  { induction n as [|n IH]; intro Hn; [exists []; split; reflexivity|].
    destruct IH as (bins & E & L); [lia|]. rewrite seq_S, flat_map_app, xb_run_app, E. cbn [flat_map plus]. rewrite app_nil_r.
    set (b := nth n bs (xraw_bin 0 0 [])).
    destruct (H (xview_bin b)) as [H1 H2]; [apply in_map; apply nth_In; lia|]. cbn [xview_bin xd_type xd_items] in H1, H2.
    unfold bunflip_bin_calls. cbn [xb_run xb_call]. unfold xb_add_bin, xin_range. cbn [forallb].
    replace (xs_type b <? length (bx_bins i))%nat with true by (symmetry; apply Nat.ltb_lt; assumption). cbn [andb].
    assert (K : forall ps bins', length bins' = S n ->
      (forall p, In p ps -> (bp_type p < length (bx_items i))%nat /\ In (exchange_rot d (bp_rot p)) (bi_rotations (bxitem i (bp_type p)))) ->
      exists bins'', xb_run i bins' (map (fun p => XAddItem n (mkBP (bp_type p) (convert_point_back (bp_pos p) d) (get_flipped_rotation (bp_rot p) d))) ps)
        = Some bins'' /\ length bins'' = S n).
    { induction ps as [|p ps IHp]; intros bins' L' Hps; [exists bins'; auto|]. cbn [map xb_run xb_call]. unfold xb_add_item. cbn [bp_type bp_rot].
      destruct (Hps p (or_introl eq_refl)) as [K1 K2].
      replace (n <? length bins')%nat with true by (symmetry; apply Nat.ltb_lt; lia).
      replace (bp_type p <? length (bx_items i))%nat with true by (symmetry; apply Nat.ltb_lt; assumption).
      rewrite flipped_rotation, (can_rotate_in _ _ K2).
      cbn [andb negb]. apply IHp; [rewrite upd_length; assumption|]. intros q Hq. apply Hps. right. assumption. }
    apply K; [rewrite app_length; simpl; lia|]. intros p Hp. apply H2. assumption. }
  destruct (G (length bs) (Nat.le_refl _)) as (bins & E & _). eauto.
Qed.
