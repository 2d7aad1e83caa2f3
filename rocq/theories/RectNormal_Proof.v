(** * Rectangle packings within the reachable lengths *)

From Coq Require Import List ZArith QArith Bool Lia Arith Sorted.
From Verif Require Import Util Common_Model Rect_Model Rect_Spec Block_Model RectBlock_Model RectBlock_Spec RectBlock_Proof Normal_Proof RectSpaces_Model RectSpaces_Spec RectSpaces_Proof.
Import ListNotations.
Open Scope Z_scope.

Section Normal.
Variable i : RInstance.
Variable ps : list Place.
Let p0 : Place := mkPl 0 0 0 false.
Let at_ (j : nat) : Place := nth j ps p0.

Lemma zsum_indicator : forall (g : nat -> Z) x n, (x < n)%nat -> zsum (fun y => if Nat.eqb x y then g y else 0) (seq 0 n) = g x.
Proof.
  intros g x n H. assert (T : forall k s, zsum (fun y => if Nat.eqb x y then g y else 0) (seq s k) = if (Nat.leb s x && Nat.ltb x (s + k))%bool then g x else 0).
  { induction k as [|k IHk]; intro s; cbn [seq].
    - rewrite zsum_nil. destruct (Nat.leb_spec s x), (Nat.ltb_spec x (s + 0)); simpl; try reflexivity; lia.
    - rewrite zsum_cons, IHk. destruct (Nat.eqb_spec x s), (Nat.leb_spec s x), (Nat.leb_spec (S s) x), (Nat.ltb_spec x (s + S k)), (Nat.ltb_spec x (S s + k)); simpl; try lia; subst; lia. }
  rewrite T. destruct (Nat.ltb_spec x (0 + n)); [reflexivity|lia].
Qed.

Lemma filter_seq_length : forall (f : Place -> bool), length (filter (fun j => f (at_ j)) (seq 0 (length ps))) = length (filter f ps).
Proof.
  intro f. unfold at_. clear at_. assert (G : forall l k (h : nat -> Place), (forall j, (j < length l)%nat -> h (k + j)%nat = nth j l p0) ->
    length (filter (fun j => f (h j)) (seq k (length l))) = length (filter f l)).
  { induction l as [|a l IH]; intros k h H; [reflexivity|]. cbn [length seq filter].
    assert (E : h k = a) by (rewrite <- (Nat.add_0_r k), H by (cbn; lia); reflexivity). rewrite E.
    specialize (IH (S k) h ltac:(intros j Hj; rewrite Nat.add_succ_l, <- Nat.add_succ_r, H by (cbn; lia); reflexivity)).
    destruct (f a); cbn [length]; rewrite IH; reflexivity. }
  apply (G ps 0%nat (fun j => nth j ps p0)). intros; reflexivity.
Qed.

(** Distinct items of the packing, side by side. *)
Lemma chain_stackable : forall side c, NoDup c -> (forall k, In k c -> (k < length ps)%nat) ->
  (forall p, In p ps -> (pl_type p < length (rin_items i))%nat /\ (pl_rot p = true -> ri_oriented (ritem i (pl_type p)) = false)) ->
  (forall x, (x < length (rin_items i))%nat -> rcount x ps <= ri_copies (ritem i x)) ->
  stackable i side (zsum (fun k => side (pl_type (at_ k)) (pl_rot (at_ k))) c).
Proof.
  intros side c N I T C.
  pose (cnt := fun (rot : bool) x => zsum (fun k => if (Nat.eqb (pl_type (at_ k)) x && Bool.eqb (pl_rot (at_ k)) rot)%bool then 1 else 0) c).
  assert (Hin : forall k, In k c -> In (at_ k) ps) by (intros k Hk; apply nth_In; auto).
  exists (cnt false), (cnt true). split.
  - intros x Hx. assert (NN : forall rot, 0 <= cnt rot x) by (intro rot; apply zsum_nonneg; intros k _; destruct (_ && _)%bool; lia).
    split; [apply NN|]. split; [apply NN|]. split.
    + eapply Z.le_trans; [|apply C; assumption]. unfold cnt. rewrite <- zsum_plus.
      rewrite (zsum_ext _ _ (fun k => if Nat.eqb (pl_type (at_ k)) x then 1 else 0))
        by (intros k _; destruct (Nat.eqb (pl_type (at_ k)) x), (pl_rot (at_ k)); reflexivity).
      assert (E : zsum (fun k => if Nat.eqb (pl_type (at_ k)) x then 1 else 0) c = Z.of_nat (length (filter (fun k => Nat.eqb (pl_type (at_ k)) x) c))).
      { clear. induction c as [|k c IH]; [reflexivity|]. rewrite zsum_cons, IH. cbn [filter]. destruct (Nat.eqb (pl_type (at_ k)) x); cbn [length]; lia. }
      rewrite E. unfold rcount. rewrite <- (filter_seq_length (fun p => Nat.eqb (pl_type p) x)). apply inj_le. apply NoDup_incl_length.
      * apply NoDup_filter. assumption.
      * intros k Hk. apply filter_In in Hk. destruct Hk as [Hk1 Hk2]. apply filter_In. split; [|assumption]. apply in_seq. specialize (I k Hk1). lia.
    + intro Ho. unfold cnt. rewrite (zsum_ext _ _ (fun _ => 0)).
      * clear. induction c; [reflexivity|]. rewrite zsum_cons. lia.
      * intros k Hk. destruct (Nat.eqb_spec (pl_type (at_ k)) x) as [E|E]; [|reflexivity]. destruct (pl_rot (at_ k)) eqn:Er; [|reflexivity].
        destruct (T _ (Hin k Hk)) as [_ T2]. specialize (T2 Er). congruence.
  - rewrite (zsum_ext _ (fun x => cnt false x * side x false + cnt true x * side x true)
      (fun x => zsum (fun k => if Nat.eqb (pl_type (at_ k)) x then side x (pl_rot (at_ k)) else 0) c)).
    + clear - Hin T. induction c as [|k c IH].
      * rewrite zsum_nil. symmetry. clear. induction (seq 0 (length (rin_items i))) as [|y l IH]; [reflexivity|]. rewrite zsum_cons, zsum_nil. lia.
      * rewrite zsum_cons, IH by (intros; apply Hin; right; assumption).
        rewrite (zsum_ext _ (fun x => zsum _ (k :: c)) (fun x => (if Nat.eqb (pl_type (at_ k)) x then side x (pl_rot (at_ k)) else 0)
          + zsum (fun k => if Nat.eqb (pl_type (at_ k)) x then side x (pl_rot (at_ k)) else 0) c)) by (intros; rewrite zsum_cons; reflexivity).
        rewrite zsum_plus. f_equal. symmetry. apply (zsum_indicator (fun x => side x (pl_rot (at_ k)))). apply (T _ (Hin k (or_introl eq_refl))).
    + intros x _. unfold cnt. clear. induction c as [|k c IH]; [reflexivity|]. rewrite !zsum_cons, <- IH.
      destruct (Nat.eqb (pl_type (at_ k)) x), (pl_rot (at_ k)); cbn [andb Bool.eqb]; lia.
Qed.

Lemma at_all : map at_ (seq 0 (length ps)) = ps.
Proof.
  unfold at_. clear at_. apply (nth_ext _ _ p0 p0); rewrite map_length, seq_length; [reflexivity|]. intros n Hn.
  rewrite nth_indep with (d' := nth 0%nat ps p0) by (rewrite map_length, seq_length; assumption).
  rewrite (map_nth (fun j => nth j ps p0) (seq 0 (length ps)) 0%nat), seq_nth by assumption. reflexivity.
Qed.

Lemma ord_pairs_map : forall (f g : nat -> Place) l,
  (forall a b, In a l -> In b l -> disjoint i (f a) (f b) -> disjoint i (g a) (g b)) ->
  ForallOrdPairs (disjoint i) (map f l) -> ForallOrdPairs (disjoint i) (map g l).
Proof.
  intros f g. induction l as [|a l IH]; intros H F; [constructor|]. cbn [map] in *. inversion F as [|? ? F1 F2]; subst. constructor.
  - rewrite Forall_forall in *. intros q Hq. apply in_map_iff in Hq. destruct Hq as (b & <- & Hb). apply H; [left; reflexivity|right; assumption|].
    apply F1. apply in_map. assumption.
  - apply IH; [|assumption]. intros; apply H; [right; assumption|right; assumption|assumption].
Qed.

(** Every packing without defects can be pushed so that its extent is made of items
    side by side. *)
Theorem push_packing : forall bt, (forall it, In it (rin_items i) -> 0 < ri_x it /\ 0 < ri_y it /\ 0 <= ri_copies it) -> rb_defects bt = [] -> geometry_ok i bt ps ->
  (forall x, (x < length (rin_items i))%nat -> rcount x ps <= ri_copies (ritem i x)) ->
  exists ps', same_items ps ps' /\ geometry_ok i bt ps' /\
    forall p, In p ps' -> stackable i (fun x rot => pl_w i (mkPl x 0 0 rot)) (pl_xe i p) /\ stackable i (fun x rot => pl_h i (mkPl x 0 0 rot)) (pl_ye i p).
Proof.
  intros bt Hpos Hd [G1 G2 _] C.
  assert (Hat : forall j, (j < length ps)%nat -> place_ok i bt (at_ j)) by (intros j Hj; apply G1, nth_In, Hj).
  assert (W : forall j, (j < length ps)%nat -> 0 < pl_w i (at_ j) /\ 0 < pl_h i (at_ j)).
  { intros j Hj. destruct (Hat j Hj) as [T _ _ _]. destruct (Hpos (ritem i (pl_type (at_ j))) (nth_In _ _ T)) as (A & B & _).
    unfold pl_w, pl_h. destruct (pl_rot (at_ j)); lia. }
  destruct (push_left (fun j => pl_x (at_ j)) (fun j => pl_w i (at_ j)) (length ps)) as (nx & X1 & X2 & X3).
  { intros j Hj. destruct (Hat j Hj) as [_ A _ _]. apply A. }
  { intros j Hj. apply (W j Hj). }
  destruct (push_left (fun j => pl_y (at_ j)) (fun j => pl_h i (at_ j)) (length ps)) as (ny & Y1 & Y2 & Y3).
  { intros j Hj. destruct (Hat j Hj) as [_ _ A _]. apply A. }
  { intros j Hj. apply (W j Hj). }
  pose (mv := fun j => mkPl (pl_type (at_ j)) (nx j) (ny j) (pl_rot (at_ j))).
  assert (Hin : forall p, In p (map mv (seq 0 (length ps))) -> exists j, (j < length ps)%nat /\ p = mv j).
  { intros p Hp. apply in_map_iff in Hp. destruct Hp as (j & <- & Hj). apply in_seq in Hj. exists j. split; [lia|reflexivity]. }
  exists (map mv (seq 0 (length ps))). split; [|split; [constructor|]].
  - unfold same_items. rewrite <- at_all at 1. generalize (seq 0 (length ps)). intro l. induction l; cbn [map]; constructor; auto.
  - intros p Hp. destruct (Hin p Hp) as (j & Hj & ->). destruct (Hat j Hj) as [T A B R]. specialize (X1 j Hj). specialize (Y1 j Hj).
    unfold pl_xe, pl_ye, pl_w, pl_h, mv in *. constructor; cbn [pl_type pl_x pl_y pl_rot]; unfold pl_xe, pl_ye, pl_w, pl_h in *; cbn [pl_type pl_x pl_y pl_rot] in *; try assumption; lia.
  - apply (ord_pairs_map at_ mv); [|rewrite at_all; assumption]. intros a b Ha Hb D. apply in_seq in Ha. apply in_seq in Hb.
    pose proof (X2 a b ltac:(lia) ltac:(lia)). pose proof (X2 b a ltac:(lia) ltac:(lia)).
    pose proof (Y2 a b ltac:(lia) ltac:(lia)). pose proof (Y2 b a ltac:(lia) ltac:(lia)).
    unfold disjoint, pl_xe, pl_ye, pl_w, pl_h, mv in *. cbn [pl_type pl_x pl_y pl_rot] in *. destruct D as [D|[D|[D|D]]]; auto.
  - intros p f _ Hf. rewrite Hd in Hf. destruct Hf.
  - intros p Hp. destruct (Hin p Hp) as (j & Hj & ->).
    assert (T : forall p, In p ps -> (pl_type p < length (rin_items i))%nat /\ (pl_rot p = true -> ri_oriented (ritem i (pl_type p)) = false)).
    { intros q Hq. destruct (G1 q Hq) as [A _ _ B]. auto. }
    destruct (X3 j Hj) as (c & N & I & E). destruct (Y3 j Hj) as (c' & N' & I' & E').
    split.
    + pose proof (chain_stackable (fun x rot => pl_w i (mkPl x 0 0 rot)) c N I T C) as S. unfold pl_xe, pl_w, mv in *. cbn [pl_type pl_x pl_y pl_rot] in *.
      rewrite E. exact S.
    + pose proof (chain_stackable (fun x rot => pl_h i (mkPl x 0 0 rot)) c' N' I' T C) as S. unfold pl_ye, pl_h, mv in *. cbn [pl_type pl_x pl_y pl_rot] in *.
      rewrite E'. exact S.
Qed.

End Normal.
