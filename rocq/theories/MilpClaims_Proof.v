(** * Proofs about the assignment MILP: the claims *)

From Coq Require Import List ZArith QArith Qround Bool Lia Lqa Permutation Sorted.
From Verif Require Import Util Common_Model Common_Spec Common_Proof OneDim_Model OneDim_Spec OneDim_Proof OneDim_Order
  OneDimDff_Proof OneDimBounds_Spec ReducInv_Proof Bar_Proof BarPack_Proof Milp_Model Milp_Spec Milp_Proof MilpPoint_Proof
  MilpPacking_Proof MilpValue_Proof.
Import ListNotations.
Open Scope Z_scope.

(** ** Keeping some copies only *)

Fixpoint keep (need : nat -> nat) (l : list nat) : list nat * (nat -> nat) :=
  match l with
  | [] => ([], need)
  | x :: l' =>
      if (need x =? 0)%nat then keep need l'
      else let p := keep (fun y => if Nat.eqb y x then pred (need y) else need y) l' in (x :: fst p, snd p)
  end.

Notation count := (count_occ Nat.eq_dec).

Lemma keep_spec : forall l need x, count (fst (keep need l)) x = Nat.min (need x) (count l x) /\ snd (keep need l) x = (need x - count l x)%nat.
Proof.
  induction l as [|y l IH]; intros need x; cbn [keep].
  - cbn [fst snd count_occ]. lia.
  - destruct (Nat.eqb_spec (need y) 0) as [E|E].
    + destruct (IH need x) as [I1 I2]. cbn [count_occ]. destruct (Nat.eq_dec y x) as [->|Hne]; lia.
    + cbn [fst snd]. destruct (IH (fun z => if Nat.eqb z y then pred (need z) else need z) x) as [I1 I2]. rewrite I2. cbn [count_occ].
      destruct (Nat.eq_dec y x) as [->|Hne]; rewrite I1; [rewrite Nat.eqb_refl; lia|]. destruct (Nat.eqb_spec x y); [congruence|lia].
Qed.

Fixpoint keep_all (need : nat -> nat) (ls : list (list nat)) : list (list nat) :=
  match ls with
  | [] => []
  | l :: ls' => fst (keep need l) :: keep_all (snd (keep need l)) ls'
  end.

Lemma keep_all_length : forall ls need, length (keep_all need ls) = length ls.
Proof. induction ls as [|l ls IH]; intro need; [reflexivity|]. cbn [keep_all length]. rewrite IH. reflexivity. Qed.
Lemma keep_all_sub : forall ls need l', In l' (keep_all need ls) -> exists l, In l ls /\ forall x, (count l' x <= count l x)%nat.
Proof.
  induction ls as [|l ls IH]; intros need l' H; [destruct H|]. cbn [keep_all] in H. destruct H as [<-|H].
  - exists l. split; [left; reflexivity|]. intro x. destruct (keep_spec l need x). lia.
  - destruct (IH _ l' H) as (m & Hm & G). exists m. split; [right; exact Hm|exact G].
Qed.
Lemma keep_all_count : forall ls need x, zsum (fun l => Z.of_nat (count l x)) (keep_all need ls) = Z.min (Z.of_nat (need x)) (zsum (fun l => Z.of_nat (count l x)) ls).
Proof.
  induction ls as [|l ls IH]; intros need x; cbn [keep_all]; [rewrite !zsum_nil; lia|]. rewrite !zsum_cons, IH. destruct (keep_spec l need x) as [I1 I2]. rewrite I1, I2.
  assert (0 <= zsum (fun l0 => Z.of_nat (count l0 x)) ls) by (apply zsum_nonneg; intros; lia). lia.
Qed.

Section Claims.

Variable i : Instance.
Variable prec : list (nat * nat).
Hypothesis Hdom : milp_domain i prec.

Notation ni := (length (in_item_types i)).
Notation nb := (length (in_bin_types i)).
Notation it x := (item_type i x).
Notation bt t := (bin_type i t).
Notation fits := (item_type_fits_bin_type i).

Lemma milp_bin_sub : forall t l l', (t < nb)%nat -> (forall x, In x l -> (x < ni)%nat) -> (forall x, (count l' x <= count l x)%nat) -> MilpBinOK i (mkBD t 1 l) -> MilpBinOK i (mkBD t 1 l').
Proof.
  intros t l l' Ht Hids Hc [B1 B2 B3 B4]. cbn [bd_items bd_type] in *.
  assert (Hsub : forall x, In x l' -> In x l) by (intros x Hx; apply (count_occ_In Nat.eq_dec); apply (count_occ_In Nat.eq_dec) in Hx; specialize (Hc x); lia).
  assert (Hids' : forall x, In x l' -> (x < ni)%nat) by auto.
  constructor; cbn [bd_items bd_type].
  - eapply Z.le_trans; [|exact B1]. rewrite <- (zcount_weighted _ l' ni Hids'), <- (zcount_weighted _ l ni Hids). apply zsum_le. intros x _. specialize (Hc x).
    destruct (sane_items _ (md_sane _ _ Hdom) x) as (H0 & _). nia.
  - unfold within in *. destruct (bt_max_weight (bt t)) as [w|]; [|exact Logic.I]. eapply Qle_trans; [|exact B2]. unfold total_weight.
    rewrite <- (count_weighted _ l' ni Hids'), <- (count_weighted _ l ni Hids). apply qsum_le. intros x _. specialize (Hc x). apply Qmult_le_compat_r; [rewrite <- Zle_Qle; lia|].
    apply (sane_items _ (md_sane _ _ Hdom) x).
  - intros x Hx. apply B3. auto.
  - intros r Hr Hp. eapply Qle_trans; [|apply (B4 r Hr Hp)]. unfold consumption. apply qsum_le. intros x _. apply schedule_total_mono; [|apply Hc].
    destruct (sane_res _ (md_sane _ _ Hdom) (bt t) r (nth_In _ _ Ht) Hr) as [_ H0]. intros q Hq. unfold schedule in Hq. destruct (Nat.lt_ge_cases x (length (res_item_consumptions r))) as [Hx|Hx].
    + apply (H0 (nth x (res_item_consumptions r) [])); [apply nth_In; exact Hx|exact Hq].
    + rewrite nth_overflow in Hq by exact Hx. destruct Hq.
Qed.

(** The answer of the nested call for a bin type is the number of bins of a
    packing of all the items that fit in it. *)
Definition sub_right (sub : nat -> option nat) : Prop :=
  forall t n, (t < nb)%nat -> sub t = Some n ->
    exists ls, length ls = n /\ (forall l, In l ls -> MilpBinOK i (mkBD t 1 l) /\ forall x, In x l -> (x < ni)%nat) /\
      forall x, (x < ni)%nat -> fits x t = true -> zsum (fun l => Z.of_nat (count l x)) ls = it_copies (it x).

(** Bounds on the bins are enough when every packing can be turned into one
    within the bounds that is at least as good. *)
Definition at_least_as_good (ds' ds : list BinDesc) : Prop :=
  match in_objective i with
  | OBinPacking => zsum bd_copies ds' <= zsum bd_copies ds
  | OVariableSizedBinPacking => (cost_of i ds' <= cost_of i ds)%Q
  | OKnapsack => (net_profit i ds' == net_profit i ds)%Q
  | _ => True
  end.
Definition enough (ub : list nat) : Prop :=
  (forall t, (t < nb)%nat -> Z.of_nat (ub_of ub t) <= bt_copies (bt t)) /\
  forall ds, Packing i prec ds -> exists ds', MilpPacking i prec ub ds' /\ at_least_as_good ds' ds.

Lemma good_refl : forall ds, at_least_as_good ds ds.
Proof. intro ds. unfold at_least_as_good. destruct (in_objective i); try exact Logic.I; try lia; try reflexivity. apply Qle_refl. Qed.

Lemma claims_enough : forall ub ml mp eps m a, (0 < ml)%Q -> (0 < mp)%Q -> (0 <= eps)%Q -> enough ub ->
  (in_objective i = OKnapsack -> threshold_resources i) ->
  build_model i prec ub ml mp = Some m -> honest_answer m a -> claim_right i prec (milp_claim i mp eps a).
Proof.
  intros ub ml mp eps m a Hml Hmp He [Hub Hen] Hth Hm Ha ds Hds. destruct (Hen ds Hds) as (ds' & Hds' & Hg).
  destruct (packing_point i prec ub ml mp Hdom Hml Hmp Hub m ds' Hds' Hm) as (v & Hv & Hval). specialize (Hval Hth).
  destruct a as [b|]; cbn [honest_answer] in Ha; [|exact (Ha v Hv)]. specialize (Ha v Hv). cbn [milp_claim].
  assert (Em : m_maximize m = is_knapsack i).
  { unfold build_model in Hm. destruct (divides_by_zero i); [discriminate|]. destruct (penalize_model i ub mp) as [[c1 r1]|]; [|discriminate].
    destruct (precedence_model i ub 0 prec) as [[c2 r2]|]; [|discriminate]. injection Hm as <-. reflexivity. }
  rewrite Em in Ha. unfold at_least_as_good, objective_value, is_knapsack in *. destruct (in_objective i); try exact Logic.I.
  - rewrite Hval in Ha. assert (C : (b - eps <= inject_Z (zsum bd_copies ds))%Q).
    { assert ((inject_Z (zsum bd_copies ds') <= inject_Z (zsum bd_copies ds))%Q) by (rewrite <- Zle_Qle; exact Hg). lra. }
    apply Qceiling_resp_le in C. rewrite Qceiling_Z in C. exact C.
  - rewrite Hval in Ha. rewrite <- Hg. apply Qle_shift_div_r in Ha || idtac.
    assert (E : (net_profit i ds' == net_profit i ds' / mp * mp)%Q) by (field; lra). rewrite E. apply Qmult_le_compat_r; [exact Ha|lra].
  - rewrite Hval in Ha. lra.
Qed.

Lemma packed_positive : forall x ds, 0 < packed x ds -> (forall d, In d ds -> 0 <= bd_copies d) -> exists d, In d ds /\ 0 < bd_copies d /\ In x (bd_items d).
Proof.
  intros x ds. induction ds as [|d ds IH]; intros H Hc; [unfold packed in H; rewrite zsum_nil in H; lia|]. unfold packed in *. rewrite zsum_cons in H.
  pose proof (Hc d (or_introl eq_refl)). destruct (Z.eq_dec (bd_copies d * Z.of_nat (count (bd_items d) x)) 0) as [E|E].
  - destruct IH as (d' & Hd & G); [lia|intros d' Hd'; apply Hc; right; exact Hd'|]. exists d'. split; [right; exact Hd|exact G].
  - exists d. split; [left; reflexivity|]. split; [nia|]. apply (count_occ_In Nat.eq_dec). nia.
Qed.

Lemma used_positive : forall d ds, In d ds -> (forall e, In e ds -> 0 <= bd_copies e) -> bd_copies d <= used_bins (bd_type d) ds.
Proof.
  intros d ds Hd Hc. unfold used_bins. pose proof (zmember _ (fun e => if Nat.eqb (bd_type e) (bd_type d) then bd_copies e else 0) ds d) as Z. cbv beta in Z. rewrite Nat.eqb_refl in Z. apply Z; [|exact Hd].
  intros e He. specialize (Hc e He). destruct (Nat.eqb _ _); lia.
Qed.

Lemma milp_bin_fits : forall d x, MilpBinOK i d -> In x (bd_items d) -> fits x (bd_type d) = true.
Proof.
  intros d x B Hx. unfold item_type_fits_bin_type. apply andb_true_iff. split.
  - apply Z.leb_le. eapply Z.le_trans; [|exact (mb_length _ _ B)]. apply (zmember _ (fun y => it_length (it y)) _ x); [|exact Hx]. intros y _. apply (sane_items _ (md_sane _ _ Hdom) y).
  - unfold eligible. apply orb_true_iff. destruct (mb_eligible _ _ B x Hx) as [E|E]; [left; apply Z.eqb_eq; exact E|right]. apply existsb_exists. eexists. split; [exact E|]. apply Z.eqb_refl.
Qed.

Lemma trivial_enough : forall ub, enough ub -> trivially_infeasible i ub = true -> forall ds, ~ Packing i prec ds.
Proof.
  intros ub [Hub Hen] Ht ds Hds. destruct (Hen ds Hds) as (ds' & H & _). unfold trivially_infeasible in Ht. apply existsb_exists in Ht. destruct Ht as (x & Hx & Ht). apply in_seq in Hx.
  apply andb_true_iff in Ht. destruct Ht as [T1 T2]. apply negb_true_iff, Z.eqb_neq in T1. apply negb_true_iff in T2.
  destruct (mk_copies _ _ _ _ H x ltac:(lia)) as [C _]. destruct (md_items _ _ Hdom x ltac:(lia)) as (_ & _ & Cm).
  assert (Hc : forall d, In d ds' -> 0 <= bd_copies d) by (intros d Hd; apply (mk_types _ _ _ _ H d Hd)).
  destruct (packed_positive x ds' ltac:(lia) Hc) as (d & Hd & Hdc & Hdx). destruct (mk_types _ _ _ _ H d Hd) as [Hdt _].
  pose proof (used_positive d ds' Hd Hc) as U. pose proof (mk_used _ _ _ _ H (bd_type d) Hdt) as Uu.
  assert (F : existsb (fun t => (0 <? nth t ub 0%nat)%nat && fits x t) (seq 0 nb) = true); [|congruence].
  apply existsb_exists. exists (bd_type d). split; [apply in_seq; lia|]. apply andb_true_iff. split.
  - apply Nat.ltb_lt. unfold ub_of in Uu. lia.
  - apply milp_bin_fits; [|exact Hdx]. apply (mk_bins _ _ _ _ H d Hd Hdc).
Qed.

(** ** Bounds that are the copies *)

Lemma copies_ub : forall t, (t < nb)%nat -> Z.of_nat (ub_of (copies_upper_bounds i) t) = bt_copies (bt t).
Proof.
  intros t Ht. unfold ub_of, copies_upper_bounds. rewrite (nth_indep _ _ (Z.to_nat (bt_copies dummy_bin))) by (rewrite map_length; exact Ht).
  rewrite (map_nth (fun b => Z.to_nat (bt_copies b)) (in_bin_types i) dummy_bin t). destruct (md_bins _ _ Hdom t Ht) as [H _]. unfold bin_type in *. lia.
Qed.

Lemma enough_copies : no_nesting i -> enough (copies_upper_bounds i).
Proof.
  intro Hn. split; [intros t Ht; rewrite (copies_ub t Ht); lia|]. intros ds Hds. exists ds. split; [|apply good_refl].
  apply packing_milp; [apply (md_sane _ _ Hdom)|exact Hn|exact Hds|]. intros t Ht. rewrite (copies_ub t Ht). split; [apply (pk_bins _ _ _ Hds t Ht)|lia].
Qed.

(** ** Bounds of a full packing in order *)

Lemma solution_counts_nth : forall ds t, (t < nb)%nat -> (forall d, In d ds -> 0 <= bd_copies d) -> Z.of_nat (ub_of (solution_counts i (map desc_bin ds)) t) = used_bins t ds.
Proof.
  intros ds t Ht Hc. unfold ub_of, solution_counts. set (F := fun u => Z.to_nat _). rewrite (nth_indep _ 0%nat (F 0%nat)) by (rewrite map_length, seq_length; exact Ht).
  rewrite (map_nth F), seq_nth by exact Ht. unfold F. cbn [Nat.add]. rewrite zsum_map. cbn [desc_bin fst snd].
  change (zsum (fun d => if Nat.eqb (bd_type d) t then bd_copies d else 0) ds) with (used_bins t ds). pose proof (used_nonneg t ds Hc). lia.
Qed.

Lemma total_used : forall ds, (forall d, In d ds -> (bd_type d < nb)%nat) -> zsum bd_copies ds = zsum (fun t => used_bins t ds) (seq 0 nb).
Proof.
  intros ds H. unfold used_bins. rewrite zsum_swap. apply zsum_ext. intros d Hd. specialize (H d Hd). symmetry.
  pose proof (zsum_by_class _ (fun _ : nat => bd_type d) (fun _ => bd_copies d) [0%nat] (seq 0 nb) (seq_NoDup nb 0)) as Z. rewrite zsum_cons, zsum_nil in Z. cbv beta in Z.
  rewrite (zsum_ext _ _ (fun u => zsum (fun _ : nat => if Nat.eqb (bd_type d) u then 1 else 0) [0%nat] * bd_copies d)).
  - rewrite Z; [lia|]. intros p _. apply in_seq. lia.
  - intros u _. rewrite zsum_cons, zsum_nil. destruct (Nat.eqb _ _); lia.
Qed.

Lemma enough_counts : no_nesting i -> in_objective i = OBinPacking -> forall best, Packing i prec best -> enough (solution_counts i (map desc_bin best)).
Proof.
  intros Hn Ho best Hb. assert (Hbc : forall d, In d best -> 0 <= bd_copies d) by (intros d Hd; apply (pk_types _ _ _ Hb d Hd)).
  assert (Hub : forall t, (t < nb)%nat -> Z.of_nat (ub_of (solution_counts i (map desc_bin best)) t) = used_bins t best) by (intros t Ht; apply solution_counts_nth; assumption).
  split; [intros t Ht; rewrite (Hub t Ht); apply (pk_bins _ _ _ Hb t Ht)|]. intros ds Hds.
  assert (Hdc : forall d, In d ds -> 0 <= bd_copies d) by (intros d Hd; apply (pk_types _ _ _ Hds d Hd)).
  destruct (forallb (fun t => used_bins t ds <=? used_bins t best) (seq 0 nb)) eqn:E.
  - rewrite forallb_forall in E. exists ds. split; [|apply good_refl]. apply packing_milp; [apply (md_sane _ _ Hdom)|exact Hn|exact Hds|]. intros t Ht. rewrite (Hub t Ht). split.
    + apply Z.leb_le. apply E. apply in_seq. lia.
    + apply (pk_bins _ _ _ Hb t Ht).
  - exists best. split.
    + apply packing_milp; [apply (md_sane _ _ Hdom)|exact Hn|exact Hb|]. intros t Ht. rewrite (Hub t Ht). split; [lia|]. apply (pk_bins _ _ _ Hb t Ht).
    + unfold at_least_as_good. rewrite Ho. rewrite (total_used best), (total_used ds) by (intros d Hd; first [apply (pk_types _ _ _ Hb d Hd)|apply (pk_types _ _ _ Hds d Hd)]).
      assert (Ex : exists t, (t < nb)%nat /\ used_bins t best < used_bins t ds).
      { assert (Hx : exists t, In t (seq 0 nb) /\ (used_bins t ds <=? used_bins t best) = false).
        { clear - E. induction (seq 0 nb) as [|t l IH]; [discriminate|]. cbn [forallb] in E. apply andb_false_iff in E. destruct E as [E|E]; [exists t; split; [left; reflexivity|exact E]|].
          destruct (IH E) as (u & Hu & G). exists u. split; [right; exact Hu|exact G]. }
        destruct Hx as (t & Ht & G). apply in_seq in Ht. apply Z.leb_gt in G. exists t. split; [lia|exact G]. }
      destruct Ex as (t & Ht & Hlt). apply zsum_le. intros u Hu. apply in_seq in Hu. destruct (lt_eq_lt_dec u t) as [[Hut| ->]|Hut].
      * rewrite (pk_order _ _ _ Hds Ho u t); [|lia|pose proof (used_nonneg t best Hbc); lia]. apply (pk_bins _ _ _ Hb u). lia.
      * lia.
      * destruct (Z.lt_ge_cases 0 (used_bins u best)) as [Hu0|Hu0].
        { pose proof (pk_order _ _ _ Hb Ho t u ltac:(lia) Hu0). pose proof (pk_bins _ _ _ Hds t Ht). lia. }
        { pose proof (used_nonneg u ds Hdc). lia. }
Qed.

(** ** Bounds of single-type packings *)

Definition others (t : nat) (ds : list BinDesc) : list BinDesc := filter (fun d => negb (Nat.eqb (bd_type d) t)) ds.
Definition of_type (t : nat) (ds : list BinDesc) : list BinDesc := filter (fun d => Nat.eqb (bd_type d) t) ds.

Lemma zsum_split_type : forall (f : BinDesc -> Z) t ds, zsum f ds = zsum f (of_type t ds) + zsum f (others t ds).
Proof.
  intros f t ds. unfold of_type, others. induction ds as [|d ds IH]; [reflexivity|]. cbn [filter]. destruct (Nat.eqb (bd_type d) t); cbn [negb]; rewrite !zsum_cons; lia.
Qed.
Lemma qsum_split_type : forall (f : BinDesc -> Q) t ds, (qsum f ds == qsum f (of_type t ds) + qsum f (others t ds))%Q.
Proof.
  intros f t ds. unfold of_type, others. induction ds as [|d ds IH]; [reflexivity|]. cbn [filter]. destruct (Nat.eqb (bd_type d) t); cbn [negb]; rewrite !qsum_cons, IH; ring.
Qed.

(** Replacing the bins of one type. *)
Lemma replace_type : forall ub ds t ls, in_objective i = OVariableSizedBinPacking -> (t < nb)%nat -> (0 <= bt_cost (bt t))%Q ->
  (forall d, In d ds -> (bd_type d < nb)%nat /\ 0 <= bd_copies d) ->
  (forall d x, In d ds -> In x (bd_items d) -> (x < ni)%nat) ->
  (forall d, In d ds -> 0 < bd_copies d -> MilpBinOK i d) ->
  (forall l, In l ls -> MilpBinOK i (mkBD t 1 l) /\ forall x, In x l -> (x < ni)%nat) ->
  (forall x, (x < ni)%nat -> fits x t = true -> zsum (fun l => Z.of_nat (count l x)) ls = it_copies (it x)) ->
  (forall x, (x < ni)%nat -> packed x ds <= it_copies (it x)) ->
  Z.of_nat (length ls) = Z.of_nat (ub_of ub t) -> Z.of_nat (ub_of ub t) < used_bins t ds ->
  exists ds', (forall d, In d ds' -> (bd_type d < nb)%nat /\ 0 <= bd_copies d) /\
    (forall d x, In d ds' -> In x (bd_items d) -> (x < ni)%nat) /\
    (forall d, In d ds' -> 0 < bd_copies d -> MilpBinOK i d) /\
    (forall x, (x < ni)%nat -> packed x ds' = packed x ds) /\
    (forall u, u <> t -> used_bins u ds' = used_bins u ds) /\
    used_bins t ds' = Z.of_nat (ub_of ub t) /\ (cost_of i ds' <= cost_of i ds)%Q.
Proof.
  intros ub ds t ls Ho Ht Hcost Hty Hit Hbin Hls Hfull Hcop Hlen Hlt.
  assert (Hc : forall d, In d ds -> 0 <= bd_copies d) by (intros d Hd; apply Hty; exact Hd).
  set (need := fun x => Z.to_nat (packed x (of_type t ds))).
  assert (Hof : forall d, In d (of_type t ds) -> In d ds /\ bd_type d = t) by (intros d Hd; apply filter_In in Hd; destruct Hd as [H1 H2]; apply Nat.eqb_eq in H2; auto).
  assert (Hoth : forall d, In d (others t ds) -> In d ds /\ bd_type d <> t) by (intros d Hd; apply filter_In in Hd; destruct Hd as [H1 H2]; apply negb_true_iff, Nat.eqb_neq in H2; auto).
  assert (Hn0 : forall x, 0 <= packed x (of_type t ds)) by (intro x; apply zsum_nonneg; intros d Hd; specialize (Hc d (proj1 (Hof d Hd))); nia).
  set (new := map (fun l => mkBD t 1 l) (keep_all need ls)).
  exists (new ++ others t ds).
  assert (Hnew : forall d, In d new -> bd_type d = t /\ bd_copies d = 1 /\ exists l, In l ls /\ forall x, (count (bd_items d) x <= count l x)%nat).
  { intros d Hd. apply in_map_iff in Hd. destruct Hd as (l & <- & Hl). split; [reflexivity|]. split; [reflexivity|]. apply keep_all_sub in Hl. exact Hl. }
  assert (Hnit : forall d x, In d new -> In x (bd_items d) -> (x < ni)%nat).
  { intros d x Hd Hx. destruct (Hnew d Hd) as (_ & _ & l & Hl & Hcl). apply (proj2 (Hls l Hl)). apply (count_occ_In Nat.eq_dec). apply (count_occ_In Nat.eq_dec) in Hx. specialize (Hcl x). lia. }
  assert (Hused : forall u, used_bins u new = if Nat.eqb t u then Z.of_nat (ub_of ub t) else 0).
  { intro u. unfold used_bins, new. rewrite zsum_map. cbn [bd_type bd_copies]. destruct (Nat.eqb t u).
    - rewrite <- Hlen, <- (keep_all_length ls need). clear. induction (keep_all need ls) as [|l L IH]; [reflexivity|]. rewrite zsum_cons, IH. cbn [length]. lia.
    - apply zsum_const0. }
  split; [|split; [|split; [|split; [|split; [|split]]]]].
  - intros d H. apply in_app_or in H. destruct H as [H|H].
    + destruct (Hnew d H) as (E & E2 & _). rewrite E, E2. split; [exact Ht|lia].
    + apply Hty, Hoth. exact H.
  - intros d x Hd Hx. apply in_app_or in Hd. destruct Hd as [Hd|Hd]; [apply (Hnit d x Hd Hx)|apply (Hit d x (proj1 (Hoth d Hd)) Hx)].
  - intros d Hd Hdc. apply in_app_or in Hd. destruct Hd as [Hd|Hd]; [|apply Hbin; [apply Hoth; exact Hd|exact Hdc]].
    destruct (Hnew d Hd) as (E1 & E2 & l & Hl & Hcl). destruct (Hls l Hl) as [Hb Hi]. pose proof (milp_bin_sub t l (bd_items d) Ht Hi Hcl Hb) as B. destruct d as [dt dc di]. cbn in E1, E2. subst. exact B.
  - intros x Hx. unfold packed. rewrite zsum_app, (zsum_split_type _ t ds). f_equal. unfold new. rewrite zsum_map. cbn [bd_copies bd_items].
    rewrite (zsum_ext _ _ (fun l => Z.of_nat (count l x))) by (intros l _; lia). rewrite keep_all_count. unfold need. rewrite Z2Nat.id by apply Hn0.
    change (zsum (fun d => bd_copies d * Z.of_nat (count (bd_items d) x)) (of_type t ds)) with (packed x (of_type t ds)).
    destruct (Z.eq_dec (packed x (of_type t ds)) 0) as [E|E].
    + rewrite E. apply Z.min_l. apply zsum_nonneg. intros l _. lia.
    + assert (Hf : fits x t = true).
      { destruct (packed_positive x (of_type t ds)) as (d & Hd & Hdc & Hdx); [pose proof (Hn0 x); lia|intros d Hd; apply Hc, Hof; exact Hd|]. destruct (Hof d Hd) as [Hd' <-]. apply milp_bin_fits; [|exact Hdx]. apply Hbin; assumption. }
      rewrite (Hfull x Hx Hf). apply Z.min_l. eapply Z.le_trans; [|apply (Hcop x Hx)]. unfold packed at 2. rewrite (zsum_split_type _ t ds).
      assert (0 <= zsum (fun d => bd_copies d * Z.of_nat (count (bd_items d) x)) (others t ds)) by (apply zsum_nonneg; intros d Hd; specialize (Hc d (proj1 (Hoth d Hd))); nia).
      unfold packed. lia.
  - intros u Hu. unfold used_bins. rewrite zsum_app. change (zsum _ new) with (used_bins u new). rewrite (Hused u). destruct (Nat.eqb_spec t u); [congruence|]. cbn [Z.add].
    rewrite (zsum_split_type _ t ds). rewrite (zsum_ext _ _ (fun _ => 0) (of_type t ds)); [rewrite zsum_const0; reflexivity|]. intros d Hd. destruct (Hof d Hd) as [_ E]. rewrite E. destruct (Nat.eqb_spec t u); [congruence|reflexivity].
  - unfold used_bins. rewrite zsum_app. change (zsum _ new) with (used_bins t new). rewrite (Hused t), Nat.eqb_refl.
    rewrite (zsum_ext _ _ (fun _ => 0) (others t ds)); [rewrite zsum_const0; lia|]. intros d Hd. destruct (Hoth d Hd) as [_ E]. destruct (Nat.eqb_spec (bd_type d) t); [congruence|reflexivity].
  - unfold cost_of. rewrite qsum_app, (qsum_split_type _ t ds). apply Qplus_le_compat; [|apply Qle_refl].
    assert (E1 : (qsum (fun d => inject_Z (bd_copies d) * bt_cost (bt (bd_type d))) new == bt_cost (bt t) * inject_Z (used_bins t new))%Q).
    { unfold used_bins. rewrite <- qsum_inject, <- qsum_scale. apply qsum_ext. intros d Hd. destruct (Hnew d Hd) as (E & _). rewrite E, Nat.eqb_refl. ring. }
    assert (E2 : (qsum (fun d => inject_Z (bd_copies d) * bt_cost (bt (bd_type d))) (of_type t ds) == bt_cost (bt t) * inject_Z (used_bins t ds))%Q).
    { unfold used_bins. rewrite (zsum_split_type _ t ds). rewrite (zsum_ext _ _ (fun _ => 0) (others t ds)).
      - rewrite zsum_const0, Z.add_0_r, <- qsum_inject, <- qsum_scale. apply qsum_ext. intros d Hd. destruct (Hof d Hd) as [_ E]. rewrite E, Nat.eqb_refl. ring.
      - intros d Hd. destruct (Hoth d Hd) as [_ E]. destruct (Nat.eqb_spec (bd_type d) t); [congruence|reflexivity]. }
    rewrite E1, E2, (Hused t), Nat.eqb_refl, !(Qmult_comm (bt_cost (bt t))). apply Qmult_le_compat_r; [|exact Hcost]. rewrite <- Zle_Qle. lia.
Qed.

Lemma vsbp_ub : forall sub t, (t < nb)%nat -> ub_of (vsbp_upper_bounds i sub) t = instance_upper_bound i sub t.
Proof.
  intros sub t Ht. unfold ub_of, vsbp_upper_bounds. rewrite (nth_indep _ 0%nat (instance_upper_bound i sub 0)) by (rewrite map_length, seq_length; exact Ht).
  rewrite (map_nth (instance_upper_bound i sub)), seq_nth by exact Ht. reflexivity.
Qed.

Lemma instance_ub_le : forall sub t, (t < nb)%nat -> Z.of_nat (instance_upper_bound i sub t) <= bt_copies (bt t).
Proof.
  intros sub t Ht. destruct (md_bins _ _ Hdom t Ht) as [H _]. unfold instance_upper_bound. destruct (filter _ _); [simpl; lia|].
  destruct (Z.eqb_spec (bt_copies (bt t)) (-1)); [lia|]. cbn [negb]. destruct (sub t); lia.
Qed.

Lemma enough_single : no_nesting i -> in_objective i = OVariableSizedBinPacking -> (forall t, (t < nb)%nat -> (0 <= bt_cost (bt t))%Q) ->
  forall sub, sub_right sub -> enough (vsbp_upper_bounds i sub).
Proof.
  intros Hn Ho Hcost sub Hsub. set (ub := vsbp_upper_bounds i sub).
  assert (Hub : forall t, (t < nb)%nat -> Z.of_nat (ub_of ub t) <= bt_copies (bt t)) by (intros t Ht; unfold ub; rewrite (vsbp_ub sub t Ht); apply instance_ub_le; exact Ht).
  split; [exact Hub|]. intros ds Hds.
  assert (G : forall j, (j <= nb)%nat -> exists ds', (forall d, In d ds' -> (bd_type d < nb)%nat /\ 0 <= bd_copies d) /\
    (forall d x, In d ds' -> In x (bd_items d) -> (x < ni)%nat) /\
    (forall d, In d ds' -> 0 < bd_copies d -> MilpBinOK i d) /\
    (forall x, (x < ni)%nat -> packed x ds' = packed x ds) /\
    (forall t, (t < nb)%nat -> (t < j)%nat -> Z.min (used_bins t ds) (Z.of_nat (ub_of ub t)) = used_bins t ds') /\
    (forall t, (j <= t)%nat -> used_bins t ds' = used_bins t ds) /\ (cost_of i ds' <= cost_of i ds)%Q).
  { induction j as [|j IH]; intro Hj.
    - exists ds. split; [apply (pk_types _ _ _ Hds)|]. split; [apply (pk_items _ _ _ Hds)|]. split; [intros d Hd _; apply bin_milp; [apply (md_sane _ _ Hdom)|exact Hn|apply (ok_bins _ _ (pk_ok _ _ _ Hds) d Hd)]|].
      split; [reflexivity|]. split; [intros t _ Ht; lia|]. split; [reflexivity|apply Qle_refl].
    - destruct (IH ltac:(lia)) as (ds1 & A1 & A2 & A3 & A4 & A5 & A6 & A7). assert (Hjn : (j < nb)%nat) by lia.
      destruct (Z.le_gt_cases (used_bins j ds1) (Z.of_nat (ub_of ub j))) as [Hle|Hgt].
      + exists ds1. split; [exact A1|]. split; [exact A2|]. split; [exact A3|]. split; [exact A4|]. split; [|split; [intros t Ht; apply A6; lia|exact A7]].
        intros t Ht Htj. destruct (Nat.eq_dec t j) as [->|Hne]; [|apply A5; lia]. rewrite (A6 j) in Hle |- * by lia. lia.
      + assert (Hls : exists ls, (forall l, In l ls -> MilpBinOK i (mkBD j 1 l) /\ forall x, In x l -> (x < ni)%nat) /\
          (forall x, (x < ni)%nat -> fits x j = true -> zsum (fun l => Z.of_nat (count l x)) ls = it_copies (it x)) /\ Z.of_nat (length ls) = Z.of_nat (ub_of ub j)).
        { pose proof (pk_bins _ _ _ Hds j Hjn) as Hcj. rewrite <- (A6 j) in Hcj by lia. destruct (md_bins _ _ Hdom j Hjn) as [Hc0 _]. unfold ub in Hgt |- *. rewrite (vsbp_ub sub j Hjn) in *. unfold instance_upper_bound in *.
          destruct (filter (fun x => fits x j) (seq 0 ni)) as [|y ys] eqn:Ef.
          - exists []. split; [intros l []|]. split; [|reflexivity]. intros x Hx Hf. exfalso. assert (Hin : In x (filter (fun x => fits x j) (seq 0 ni))) by (apply filter_In; split; [apply in_seq; lia|exact Hf]). rewrite Ef in Hin. destruct Hin.
          - destruct (Z.eqb_spec (bt_copies (bt j)) (-1)) as [E|E]; [lia|]. cbn [negb] in *. destruct (sub j) as [n|] eqn:Es; [|lia]. destruct (Hsub j n Hjn Es) as (ls & L1 & L2 & L3).
            exists ls. split; [exact L2|]. split; [exact L3|]. lia. }
        destruct Hls as (ls & L1 & L2 & L3).
        destruct (replace_type ub ds1 j ls Ho Hjn (Hcost j Hjn) A1 A2 A3 L1 L2) as (ds2 & B1 & B2 & B3 & B4 & B5 & B6 & B7); [intros x Hx; rewrite (A4 x Hx); apply (pk_copies _ _ _ Hds x Hx)|exact L3|exact Hgt|].
        exists ds2. split; [exact B1|]. split; [exact B2|]. split; [exact B3|]. split; [intros x Hx; rewrite (B4 x Hx); apply A4; exact Hx|]. split; [|split].
        * intros t Ht Htj. destruct (Nat.eq_dec t j) as [->|Hne]; [rewrite B6; rewrite (A6 j) in Hgt by lia; lia|]. rewrite (B5 t Hne). apply A5; lia.
        * intros t Ht. rewrite B5 by lia. apply A6. lia.
        * eapply Qle_trans; [exact B7|exact A7]. }
  destruct (G nb (le_n _)) as (ds' & A1 & A2 & A3 & A4 & A5 & A6 & A7). exists ds'. split; [|unfold at_least_as_good; rewrite Ho; exact A7]. constructor.
  - exact A1.
  - exact A2.
  - exact A3.
  - intros x Hx. rewrite (A4 x Hx). split; [apply (ok_copies_min _ _ (pk_ok _ _ _ Hds) x Hx)|apply (pk_copies _ _ _ Hds x Hx)].
  - intros t Ht. rewrite <- (A5 t Ht Ht). lia.
  - intros Hy t Ht. rewrite <- (A5 t Ht Ht). pose proof (pk_mandatory _ _ _ Hds Hy t Ht). lia.
  - intro Hb. unfold is_bin_packing in Hb. rewrite Ho in Hb. discriminate.
  - intros a b Hab Ha. destruct (md_prec _ _ Hdom a b Hab) as [Ha' Hb']. rewrite (A4 a Ha') in Ha. rewrite (A4 b Hb'). apply (pk_prec _ _ _ Hds a b Hab Ha).
Qed.

(** All the bounds. *)
Definition best_right (best : Solution) : Prop :=
  in_objective i = OBinPacking -> c_number_of_items (s_core best) = in_number_of_items i -> Packing i prec (view best).

Lemma solution_view : forall s, solution_bins s = map desc_bin (view s).
Proof. intro s. unfold solution_bins, view. rewrite map_map. reflexivity. Qed.

Lemma enough_all : no_nesting i -> (in_objective i = OVariableSizedBinPacking -> forall t, (t < nb)%nat -> (0 <= bt_cost (bt t))%Q) ->
  forall sub best, sub_right sub -> best_right best -> enough (upper_bounds i sub best).
Proof.
  intros Hn Hcost sub best Hsub Hbest. unfold upper_bounds. destruct (in_objective i) eqn:Ho; try (apply enough_copies; exact Hn).
  - unfold bin_packing_upper_bounds. destruct (Z.eqb_spec (c_number_of_items (s_core best)) (in_number_of_items i)) as [E|E]; [|apply enough_copies; exact Hn].
    rewrite solution_view. apply enough_counts; [exact Hn|exact Ho|]. apply Hbest; [exact Ho|exact E].
  - apply enough_single; [exact Hn|exact Ho|apply Hcost; reflexivity|exact Hsub].
Qed.

(** ** Sequential feasibility *)

Lemma first_bins_room : forall bts (used : nat -> Z) n, (forall t, (t < length bts)%nat -> 0 <= used t <= bt_copies (nth t bts dummy_bin)) ->
  (forall t u, (t < u < length bts)%nat -> 0 < used u -> used t = bt_copies (nth t bts dummy_bin)) ->
  zsum used (seq 0 (length bts)) <= n -> forall t, (t < length bts)%nat -> used t <= nth t (first_bins bts n) 0.
Proof.
  induction bts as [|b bts IH]; intros used n Hu Ho Hs t Ht; [simpl in Ht; lia|]. cbn [first_bins length] in *.
  pose proof (Hu 0%nat ltac:(lia)) as H0. cbn [nth] in H0.
  assert (Hs' : zsum used (seq 0 (S (length bts))) = used 0%nat + zsum (fun u => used (S u)) (seq 0 (length bts))) by (cbn [seq]; rewrite zsum_cons, <- seq_shift, zsum_map; reflexivity).
  assert (Hrest : 0 <= zsum (fun u => used (S u)) (seq 0 (length bts))) by (apply zsum_nonneg; intros u Hx; apply in_seq in Hx; apply (Hu (S u)); lia).
  destruct (Z.leb_spec n 0) as [Hn|Hn].
  - assert (Hz : forall u, (u < S (length bts))%nat -> used u <= 0).
    { intros u Hu'. destruct u as [|u]; [lia|]. pose proof (zmember _ (fun u => used (S u)) (seq 0 (length bts)) u) as M. cbv beta in M.
      assert (used (S u) <= zsum (fun u => used (S u)) (seq 0 (length bts))); [|lia]. apply M; [intros w Hw; apply in_seq in Hw; apply (Hu (S w)); lia|apply in_seq; lia]. }
    specialize (Hz t Ht). destruct t; cbn [nth]; lia.
  - cbv zeta. destruct (Z.eqb_spec (bt_copies b) (-1)) as [E|E]; [lia|].
    destruct t as [|t]; cbn [nth]; [lia|]. 
    destruct (Z.le_gt_cases (used (S t)) 0) as [Hz|Hz].
    + assert (Hnn : 0 <= nth t (first_bins bts (n - Z.min (bt_copies b) n)) 0); [|lia].
      assert (Hall : forall m l u, 0 <= nth u (first_bins l m) 0 \/ exists w, (w < length l)%nat /\ bt_copies (nth w l dummy_bin) < 0).
      { intros m l. revert m. induction l as [|c l IHl]; intros m u; cbn [first_bins]; [left; destruct u; simpl; lia|]. destruct (Z.leb_spec m 0); [left; destruct u; simpl; lia|]. cbv zeta.
        destruct (Z.lt_ge_cases (bt_copies c) 0) as [Hc|Hc]; [right; exists 0%nat; simpl; split; [lia|exact Hc]|]. destruct u as [|u]; cbn [nth]; [left; destruct (Z.eqb_spec (bt_copies c) (-1)); lia|].
        destruct (IHl (m - (if bt_copies c =? -1 then m else Z.min (bt_copies c) m)) u) as [G|(w & Hw & G)]; [left; exact G|right; exists (S w); simpl; split; [lia|exact G]]. }
      destruct (Hall (n - Z.min (bt_copies b) n) bts t) as [G|(w & Hw & G)]; [exact G|]. pose proof (Hu (S w) ltac:(lia)) as Hw'. cbn [nth] in Hw'. lia.
    + pose proof (Ho 0%nat (S t) ltac:(lia) Hz) as H1. cbn [nth] in H1.
      apply (IH (fun u => used (S u))); [intros u Hx; apply (Hu (S u)); lia|intros u w Hx Hw; apply (Ho (S u) (S w)); [lia|exact Hw]| |lia].
      rewrite Hs' in Hs. lia.
Qed.

(** The nested call says infeasible only when no packing of all the copies of
    the items fits in the first [n] bins. *)
Definition sub_answers_right (sub : Z -> SubAnswer) : Prop :=
  forall n, sub n = SubInfeasible -> forall ds, Packing i prec ds ->
    (forall t, (t < nb)%nat -> used_bins t ds <= nth t (first_bins (in_bin_types i) n) 0) -> False.

Lemma sequential_loop_right : in_objective i = OBinPacking -> forall sub, sub_answers_right sub -> forall ds, Packing i prec ds ->
  forall fuel n bound, bound <= zsum bd_copies ds -> fst (sequential_loop sub fuel n bound) <= zsum bd_copies ds.
Proof.
  intros Ho sub Hsub ds Hds fuel. induction fuel as [|fuel IH]; intros n bound Hb; cbn [sequential_loop]; [exact Hb|].
  destruct (sub n) as [s| |] eqn:Es; [exact Hb| |apply IH; exact Hb]. apply IH. apply Z.max_lub; [exact Hb|].
  destruct (Z.lt_ge_cases n (zsum bd_copies ds)) as [Hlt|Hge]; [lia|]. exfalso.
  assert (Hdc : forall d, In d ds -> 0 <= bd_copies d) by (intros d Hd; apply (pk_types _ _ _ Hds d Hd)).
  apply (Hsub n Es ds Hds). apply first_bins_room.
  - intros t Ht. split; [apply used_nonneg; exact Hdc|apply (pk_bins _ _ _ Hds t Ht)].
  - intros t u Htu Hu. apply (pk_order _ _ _ Hds Ho t u Htu Hu).
  - rewrite <- total_used; [exact Hge|]. intros d Hd. apply (pk_types _ _ _ Hds d Hd).
Qed.

End Claims.
