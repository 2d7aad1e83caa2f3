(** * The bound of clautiaux2007 for items that may be rotated

    A packing of an instance in N bins gives a packing of the modified instance
    in 2N bins. *)

From Coq Require Import List ZArith QArith Qminmax Bool Lia Arith Permutation Sorted Psatz.
From Verif Require Import Util Common_Model OneDim_Model Dff_Model Dff_Spec Dff_Proof Dff_Axis OneDimDff_Model OneDimDff_Proof.
From Verif Require Import Geom Dff_Pack Rect_Model Rect_Spec RectDff_Model RectDff_Proof.
Import ListNotations.
Open Scope Z_scope.

(** ** Positions in a list of keys *)

Definition key_eq_dec : forall a b : nat * bool, {a = b} + {a <> b}.
Proof. decide equality; [apply Bool.bool_dec|apply Nat.eq_dec]. Defined.

Fixpoint index_of (k : nat * bool) (l : list (nat * bool)) : nat :=
  match l with [] => O | a :: r => if key_eq_dec a k then O else S (index_of k r) end.

Lemma index_of_in : forall k l d, In k l -> (index_of k l < length l)%nat /\ nth (index_of k l) l d = k.
Proof.
  intros k l d. induction l as [|a l IH]; intro H; [destruct H|]. simpl. destruct (key_eq_dec a k) as [->|N]; [split; [lia|reflexivity]|].
  destruct H as [->|H]; [congruence|]. destruct (IH H). split; [lia|assumption].
Qed.

Lemma nodup_flat_map_fst : forall (f : nat -> list (nat * bool)) l, NoDup l ->
  (forall x k, In k (f x) -> fst k = x) -> (forall x, NoDup (f x)) -> NoDup (flat_map f l).
Proof.
  intros f l Hl H1 H2. induction Hl as [|x l Hx Hl IH]; simpl; [constructor|].
  apply nodup_app_intro; [apply H2|assumption|].
  intros k Hk Hk2. apply in_flat_map in Hk2. destruct Hk2 as (y & Hy & Hk2).
  apply H1 in Hk. apply H1 in Hk2. congruence.
Qed.

Section Modified.

Variable i : RInstance.
Hypothesis Hits : positive_items i.
Hypothesis Hone : length (rin_bins i) = 1%nat.
Hypothesis Hbins : positive_bins i.
Variable cb : Z.
Hypothesis Hcb : 0 <= cb.

Let bt := rbin i 0.
Let m := modified_instance i cb.
Let n := length (rin_items i).
Let X := rb_x bt.
Let Y := rb_y bt.

Definition squarei (x : nat) : bool := ri_x (ritem i x) =? ri_y (ritem i x).
Definition keys1 (x : nat) : list (nat * bool) := if squarei x then [(x, false)] else [(x, false); (x, true)].
Definition keys : list (nat * bool) := flat_map keys1 (seq 0 n).
Definition citem (k : nat * bool) : RItem :=
  let it := ritem i (fst k) in
  clautiaux_item (if snd k then ri_y it else ri_x it) (if snd k then ri_x it else ri_y it) true
    (if squarei (fst k) then 2 * ri_copies it else ri_copies it) (ri_profit it).
Definition dd : nat := length (clautiaux_dummy bt cb).

Lemma modified_items : rin_items m = clautiaux_dummy bt cb ++ map citem keys.
Proof.
  unfold m, modified_instance. cbn [rin_items]. f_equal. unfold keys.
  rewrite (flat_map_seq_nth _ _ _ dummy_ritem). fold n.
  induction (seq 0 n) as [|x s IH]; [reflexivity|]. cbn [flat_map]. rewrite map_app, IH. f_equal.
  unfold keys1, clautiaux_items, squarei, ritem. destruct (ri_x _ =? ri_y _) eqn:E; cbn [map]; unfold citem, squarei, ritem; cbn [fst snd]; rewrite E; reflexivity.
Qed.

Lemma keys_nodup : NoDup keys.
Proof.
  apply nodup_flat_map_fst; [apply seq_NoDup| |].
  - intros x k Hk. unfold keys1 in Hk. destruct (squarei x); simpl in Hk; intuition (subst; reflexivity).
  - intro x. unfold keys1. destruct (squarei x); repeat constructor; simpl; intuition congruence.
Qed.

Lemma keys_in : forall k, In k keys <-> (fst k < n)%nat /\ (snd k = true -> squarei (fst k) = false).
Proof.
  intros [x b]. unfold keys. rewrite in_flat_map. cbn [fst snd]. split.
  - intros (y & Hy & Hk). apply in_seq in Hy. unfold keys1 in Hk. destruct (squarei y) eqn:E.
    + destruct Hk as [H|[]]. injection H as <- <-. split; [lia|discriminate].
    + destruct Hk as [H|[H|[]]]; injection H as <- <-; split; try lia; try discriminate. auto.
  - intros [H1 H2]. exists x. split; [apply in_seq; lia|]. unfold keys1. destruct (squarei x) eqn:E.
    + destruct b; [specialize (H2 eq_refl); discriminate|left; reflexivity].
    + destruct b; simpl; auto.
Qed.

(** Type of the copy of item type [x], transposed or not. *)
Definition key (x : nat) (b : bool) : nat * bool := (x, b && negb (squarei x)).
Definition ty (x : nat) (b : bool) : nat := (dd + index_of (key x b) keys)%nat.

Lemma key_in : forall x b, (x < n)%nat -> In (key x b) keys.
Proof.
  intros x b Hx. apply keys_in. unfold key. cbn [fst snd]. split; [assumption|].
  intro H. apply andb_true_iff in H. destruct H as [_ H]. destruct (squarei x); [discriminate|reflexivity].
Qed.

Lemma ty_item : forall x b, (x < n)%nat -> (ty x b < length (rin_items m))%nat /\ ritem m (ty x b) = citem (key x b).
Proof.
  intros x b Hx. destruct (index_of_in (key x b) keys (0%nat, false) (key_in x b Hx)) as [H1 H2].
  unfold ritem. rewrite modified_items, app_length, map_length. unfold ty. fold dd. split; [lia|].
  rewrite app_nth2 by (unfold dd; lia). unfold dd. replace (length (clautiaux_dummy bt cb) + index_of (key x b) keys - length (clautiaux_dummy bt cb))%nat
    with (index_of (key x b) keys) by lia.
  rewrite (nth_indep _ dummy_ritem (citem (0%nat, false))) by (rewrite map_length; assumption).
  rewrite map_nth, H2. reflexivity.
Qed.

Lemma ty_inj : forall x b y c, (x < n)%nat -> (y < n)%nat -> ty x b = ty y c -> key x b = key y c.
Proof.
  intros x b y c Hx Hy H. unfold ty in H. assert (E : index_of (key x b) keys = index_of (key y c) keys) by lia.
  destruct (index_of_in (key x b) keys (0%nat, false) (key_in x b Hx)) as [_ H1].
  destruct (index_of_in (key y c) keys (0%nat, false) (key_in y c Hy)) as [_ H2].
  rewrite E in H1. congruence.
Qed.

Lemma ty_cover : forall z, (z < length (rin_items m))%nat -> (z < dd)%nat \/ exists x b, (x < n)%nat /\ z = ty x b /\ key x b = (x, b).
Proof.
  intros z Hz. rewrite modified_items, app_length, map_length in Hz. fold dd in Hz.
  destruct (Nat.lt_ge_cases z dd) as [|Hge]; [left; assumption|right].
  destruct (nth (z - dd) keys (0%nat, false)) as [x b] eqn:E.
  assert (Hin : In (x, b) keys) by (rewrite <- E; apply nth_In; lia).
  apply keys_in in Hin. cbn [fst snd] in Hin. destruct Hin as [Hx Hs].
  assert (Ek : key x b = (x, b)).
  { unfold key. destruct b; [rewrite Hs by reflexivity; reflexivity|reflexivity]. }
  exists x, b. split; [assumption|]. split; [|assumption]. unfold ty. rewrite Ek.
  assert (index_of (x, b) keys = z - dd)%nat; [|lia].
  destruct (index_of_in (x, b) keys (0%nat, false)) as [H1 H2]; [rewrite <- Ek; apply key_in; assumption|].
  apply (proj1 (NoDup_nth keys (0%nat, false)) keys_nodup); [assumption|lia|congruence].
Qed.

(** ** The modified instance is in the domain *)

Lemma modified_positive : positive_items m.
Proof.
  intros it Hit. rewrite modified_items, in_app_iff in Hit. destruct Hit as [Hit|Hit].
  - assert (HB : 1 <= X /\ 1 <= Y) by (apply Hbins; apply nth_In; lia).
    unfold X, Y in HB. unfold clautiaux_dummy in Hit.
    destruct (Z.ltb_spec (rb_y bt) (rb_x bt)); [|destruct (Z.ltb_spec (rb_x bt) (rb_y bt)); [|destruct Hit]];
      (destruct (Z.ltb_spec 0 cb); [|destruct Hit]); destruct Hit as [<-|[]]; simpl; lia.
  - apply in_map_iff in Hit. destruct Hit as (k & <- & Hk). apply keys_in in Hk. destruct Hk as [Hk _].
    destruct (Hits (ritem i (fst k))) as (H1 & H2 & H3); [apply nth_In; assumption|].
    unfold citem. cbn [clautiaux_item ri_x ri_y ri_copies]. destruct (snd k), (squarei (fst k)); lia.
Qed.

Lemma modified_bins : length (rin_bins m) = 1%nat /\ positive_bins m.
Proof.
  split; [reflexivity|]. intros b [<-|[]]. assert (HB : 1 <= X /\ 1 <= Y) by (apply Hbins; apply nth_In; lia).
  unfold X, Y, bt in HB. simpl. lia.
Qed.

(** ** The packing *)

Variable bs : list (list Place).
Hypothesis Hbs : forall ps, In ps bs -> geometry_ok i bt ps.
Hypothesis Hall : forall x, (x < n)%nat -> zsum (rcount x) bs = ri_copies (ritem i x).
Hypothesis Hcb2 : cb <= Z.of_nat (length bs).

Definition place_a (p : Place) : Place := mkPl (ty (pl_type p) (pl_rot p)) (pl_x p) (pl_y p) false.
Definition place_b (p : Place) : Place := mkPl (ty (pl_type p) (negb (pl_rot p))) (pl_y p) (pl_x p) false.
Definition place_d : list Place :=
  if Y <? X then [mkPl 0 0 Y false] else if X <? Y then [mkPl 0 X 0 false] else [].

Definition cn : nat := Z.to_nat cb.
Definition modified_packing : list RDesc :=
  map (fun ps => mkRD 0 1 (place_d ++ map place_a ps)) (firstn cn bs)
  ++ map (fun ps => mkRD 0 1 (map place_a ps)) (skipn cn bs)
  ++ map (fun ps => mkRD 0 1 (map place_b ps)) bs.

Lemma citem_dims : forall x b, (x < n)%nat ->
  ri_x (citem (key x b)) = (if b then ri_y (ritem i x) else ri_x (ritem i x))
  /\ ri_y (citem (key x b)) = (if b then ri_x (ritem i x) else ri_y (ritem i x)).
Proof.
  intros x b Hx. unfold citem, key. cbn [fst snd clautiaux_item ri_x ri_y].
  destruct (squarei x) eqn:E, b; cbn [andb negb]; try (split; reflexivity).
  unfold squarei in E. apply Z.eqb_eq in E. rewrite E. split; reflexivity.
Qed.

Lemma dims_a : forall p, (pl_type p < n)%nat -> pl_w m (place_a p) = pl_w i p /\ pl_h m (place_a p) = pl_h i p.
Proof.
  intros p Hp. unfold pl_w, pl_h, place_a. cbn [pl_rot pl_type].
  destruct (ty_item (pl_type p) (pl_rot p) Hp) as [_ E]. rewrite E.
  destruct (citem_dims (pl_type p) (pl_rot p) Hp) as [E1 E2]. rewrite E1, E2. destruct (pl_rot p); auto.
Qed.

Lemma dims_b : forall p, (pl_type p < n)%nat -> pl_w m (place_b p) = pl_h i p /\ pl_h m (place_b p) = pl_w i p.
Proof.
  intros p Hp. unfold pl_w, pl_h, place_b. cbn [pl_rot pl_type].
  destruct (ty_item (pl_type p) (negb (pl_rot p)) Hp) as [_ E]. rewrite E.
  destruct (citem_dims (pl_type p) (negb (pl_rot p)) Hp) as [E1 E2]. rewrite E1, E2. destruct (pl_rot p); auto.
Qed.

Let mb := rbin m 0.

Lemma mb_side : X <= rb_x mb /\ Y <= rb_x mb /\ X <= rb_y mb /\ Y <= rb_y mb
  /\ (Y < X -> rb_y mb = X) /\ (X < Y -> rb_x mb = Y).
Proof. unfold mb, m. simpl. fold bt. unfold X, Y. lia. Qed.

Lemma ord_pairs_map : forall A B (f : A -> B) (R : A -> A -> Prop) (R' : B -> B -> Prop) l,
  (forall a b, In a l -> In b l -> R a b -> R' (f a) (f b)) -> ForallOrdPairs R l -> ForallOrdPairs R' (map f l).
Proof.
  intros A B f R R' l H HF. induction HF as [|a l Ha HF IH]; simpl; constructor.
  - apply Forall_forall. intros b Hb. apply in_map_iff in Hb. destruct Hb as (c & <- & Hc).
    rewrite Forall_forall in Ha. apply H; [left; reflexivity|right; assumption|apply Ha; assumption].
  - apply IH. intros; apply H; try (right; assumption). assumption.
Qed.

Lemma geometry_a : forall ps, In ps bs -> geometry_ok m mb (map place_a ps).
Proof.
  intros ps Hps. destruct (Hbs ps Hps) as [Hp Hd _]. pose proof mb_side as HS.
  constructor.
  - intros q Hq. apply in_map_iff in Hq. destruct Hq as (p & <- & Hin). destruct (Hp p Hin) as [T PX PY R].
    destruct (dims_a p T) as [D1 D2]. unfold pl_xe, pl_ye in *. fold X in PX. fold Y in PY. constructor.
    + apply ty_item; assumption.
    + unfold pl_xe. rewrite D1. cbn [place_a pl_x]. lia.
    + unfold pl_ye. rewrite D2. cbn [place_a pl_y]. lia.
    + discriminate.
  - eapply ord_pairs_map; [|exact Hd]. intros p q Ip Iq Hpq.
    destruct (dims_a p (pk_type _ _ _ (Hp p Ip))) as [D1 D2]. destruct (dims_a q (pk_type _ _ _ (Hp q Iq))) as [D3 D4].
    unfold disjoint, pl_xe, pl_ye in *. rewrite D1, D2, D3, D4. exact Hpq.
  - intros p d _ [].
Qed.

Lemma geometry_b : forall ps, In ps bs -> geometry_ok m mb (map place_b ps).
Proof.
  intros ps Hps. destruct (Hbs ps Hps) as [Hp Hd _]. pose proof mb_side as HS.
  constructor.
  - intros q Hq. apply in_map_iff in Hq. destruct Hq as (p & <- & Hin). destruct (Hp p Hin) as [T PX PY R].
    destruct (dims_b p T) as [D1 D2]. unfold pl_xe, pl_ye in *. fold X in PX. fold Y in PY. constructor.
    + apply ty_item; assumption.
    + unfold pl_xe. rewrite D1. cbn [place_b pl_x]. lia.
    + unfold pl_ye. rewrite D2. cbn [place_b pl_y]. lia.
    + discriminate.
  - eapply ord_pairs_map; [|exact Hd]. intros p q Ip Iq Hpq.
    destruct (dims_b p (pk_type _ _ _ (Hp p Ip))) as [D1 D2]. destruct (dims_b q (pk_type _ _ _ (Hp q Iq))) as [D3 D4].
    unfold disjoint, pl_xe, pl_ye in *. rewrite D1, D2, D3, D4. cbn [place_b pl_x pl_y]. tauto.
  - intros p d _ [].
Qed.

(** The dummy item, when there is one. *)
Lemma dummy_cases : 0 < cb ->
  (Y < X /\ place_d = [mkPl 0 0 Y false] /\ dd = 1%nat
     /\ ri_x (ritem m 0) = X /\ ri_y (ritem m 0) = X - Y /\ ri_copies (ritem m 0) = cb)
  \/ (X < Y /\ place_d = [mkPl 0 X 0 false] /\ dd = 1%nat
     /\ ri_x (ritem m 0) = Y - X /\ ri_y (ritem m 0) = Y /\ ri_copies (ritem m 0) = cb)
  \/ (X = Y /\ place_d = [] /\ dd = 0%nat).
Proof.
  intro Hpos. unfold place_d, dd, ritem. rewrite modified_items. unfold clautiaux_dummy. fold X Y.
  destruct (Z.ltb_spec Y X); [left|destruct (Z.ltb_spec X Y); [right; left|right; right; split; [lia|split; reflexivity]]];
    (destruct (Z.ltb_spec 0 cb); [|lia]); repeat split; assumption.
Qed.

Lemma geometry_da : 0 < cb -> forall ps, In ps bs -> geometry_ok m mb (place_d ++ map place_a ps).
Proof.
  intros Hpos ps Hps. destruct (geometry_a ps Hps) as [Gp Gd Gf]. pose proof mb_side as HS.
  assert (HL : (dd <= length (rin_items m))%nat) by (rewrite modified_items, app_length; unfold dd; lia).
  assert (HB : 1 <= X /\ 1 <= Y) by (apply Hbins; apply nth_In; lia).
  destruct (Hbs ps Hps) as [Hp _ _].
  assert (HX : forall q, In q (map place_a ps) -> pl_xe m q <= X /\ pl_ye m q <= Y).
  { intros q Hq. apply in_map_iff in Hq. destruct Hq as (p & <- & Hin). destruct (Hp p Hin) as [T PX PY R].
    destruct (dims_a p T) as [D1 D2]. unfold pl_xe, pl_ye in *. rewrite D1, D2. cbn [place_a pl_x pl_y]. unfold X, Y. lia. }
  destruct (dummy_cases Hpos) as [(C1 & C2 & C3 & C4 & C5 & _)|[(C1 & C2 & C3 & C4 & C5 & _)|(C1 & C2 & _)]]; rewrite C2.
  - constructor.
    + intros q [<-|Hq]; [|apply Gp; assumption]. constructor; unfold pl_xe, pl_ye, pl_w, pl_h; cbn [pl_type pl_rot pl_x pl_y]; try rewrite C4; try rewrite C5; try lia.
    + constructor; [|assumption]. apply Forall_forall. intros q Hq. right. right. right.
      destruct (HX q Hq). cbn [pl_y]. lia.
    + intros p d _ [].
  - constructor.
    + intros q [<-|Hq]; [|apply Gp; assumption]. constructor; unfold pl_xe, pl_ye, pl_w, pl_h; cbn [pl_type pl_rot pl_x pl_y]; try rewrite C4; try rewrite C5; try lia.
    + constructor; [|assumption]. apply Forall_forall. intros q Hq. right. left.
      destruct (HX q Hq). cbn [pl_x]. lia.
    + intros p d _ [].
  - constructor; assumption.
Qed.

(** ** Counting *)

Lemma rcount_app : forall z l1 l2, rcount z (l1 ++ l2) = rcount z l1 + rcount z l2.
Proof. intros. unfold rcount. rewrite filter_app, app_length, Nat2Z.inj_add. reflexivity. Qed.

Lemma rcount_cons : forall z p l, rcount z (p :: l) = (if Nat.eqb (pl_type p) z then 1 else 0) + rcount z l.
Proof. intros. unfold rcount. cbn [filter]. destruct (Nat.eqb (pl_type p) z); cbn [length]; lia. Qed.

Lemma ty_eqb : forall x b y c, (x < n)%nat -> (y < n)%nat ->
  Nat.eqb (ty x b) (ty y c) = Nat.eqb x y && (squarei y || eqb b c).
Proof.
  intros x b y c Hx Hy. destruct (Nat.eqb_spec (ty x b) (ty y c)) as [E|N].
  - apply ty_inj in E; try assumption. unfold key in E. injection E as -> E. rewrite Nat.eqb_refl. simpl.
    destruct (squarei y), b, c; simpl in *; congruence.
  - destruct (Nat.eqb_spec x y) as [->|]; [|reflexivity]. simpl.
    destruct (squarei y) eqn:E, b, c; simpl; try reflexivity; exfalso; apply N; unfold ty, key; rewrite E; reflexivity.
Qed.

Lemma count_ab : forall ps x b, (forall p, In p ps -> (pl_type p < n)%nat) -> (x < n)%nat ->
  rcount (ty x b) (map place_a ps) + rcount (ty x b) (map place_b ps) = (if squarei x then 2 else 1) * rcount x ps.
Proof.
  intros ps x b Hp Hx. induction ps as [|p ps IH]; [unfold rcount; simpl; destruct (squarei x); reflexivity|].
  cbn [map]. rewrite !rcount_cons. specialize (IH (fun q Hq => Hp q (or_intror Hq))).
  specialize (Hp p (or_introl eq_refl)). cbn [place_a place_b pl_type]. rewrite !ty_eqb by assumption.
  destruct (Nat.eqb (pl_type p) x), (squarei x), (pl_rot p), b; cbn [andb orb negb eqb]; lia.
Qed.

Lemma count_dummy : forall ps z, (z < dd)%nat -> rcount z (map place_a ps) = 0 /\ rcount z (map place_b ps) = 0.
Proof.
  intros ps z Hz. induction ps as [|p ps [I1 I2]]; [split; reflexivity|]. cbn [map]. rewrite !rcount_cons, I1, I2.
  cbn [place_a place_b pl_type].
  destruct (Nat.eqb_spec (ty (pl_type p) (pl_rot p)) z); [unfold ty in *; lia|].
  destruct (Nat.eqb_spec (ty (pl_type p) (negb (pl_rot p))) z); [unfold ty in *; lia|]. split; reflexivity.
Qed.

Lemma modified_packed : forall z, rpacked z modified_packing
  = cb * rcount z place_d + zsum (fun ps => rcount z (map place_a ps) + rcount z (map place_b ps)) bs.
Proof.
  intro z. unfold rpacked, modified_packing. rewrite !zsum_app, !zsum_map. cbn [rd_copies rd_items].
  rewrite (zsum_ext _ _ (fun ps => rcount z place_d + rcount z (map place_a ps)) (firstn cn bs))
    by (intros; rewrite rcount_app; lia).
  rewrite (zsum_ext _ _ (fun ps => rcount z (map place_a ps)) (skipn cn bs)) by (intros; lia).
  rewrite (zsum_ext _ (fun x => 1 * rcount z (map place_b x)) (fun ps => rcount z (map place_b ps)) bs) by (intros; lia).
  rewrite !zsum_plus.
  assert (ES : zsum (fun ps => rcount z (map place_a ps)) bs
    = zsum (fun ps => rcount z (map place_a ps)) (firstn cn bs) + zsum (fun ps => rcount z (map place_a ps)) (skipn cn bs)).
  { rewrite <- zsum_app, firstn_skipn. reflexivity. }
  assert (E : zsum (fun _ => rcount z place_d) (firstn cn bs) = cb * rcount z place_d).
  { assert (EL : length (firstn cn bs) = cn) by (rewrite firstn_length; unfold cn; lia).
    replace cb with (Z.of_nat (length (firstn cn bs))) by (rewrite EL; unfold cn; lia). clear.
    induction (firstn cn bs) as [|a l IH]; [reflexivity|]. rewrite zsum_cons, IH. cbn [length]. lia. }
  rewrite E. lia.
Qed.

Theorem modified_packing_ok : packing_ok m modified_packing /\ rall_packed m modified_packing
  /\ rbins_used modified_packing = 2 * Z.of_nat (length bs).
Proof.
  assert (HA : rall_packed m modified_packing).
  { intros z Hz. rewrite modified_packed. destruct (ty_cover z Hz) as [Hd|(x & b & Hx & -> & Ek)].
    - rewrite (zsum_zero _ _ bs); [|intros ps _; destruct (count_dummy ps z Hd) as [-> ->]; reflexivity].
      assert (Hpos : 0 < cb).
      { unfold dd, clautiaux_dummy in Hd. destruct (Z.ltb_spec 0 cb); [assumption|].
        destruct (rb_y bt <? rb_x bt), (rb_x bt <? rb_y bt); simpl in Hd; lia. }
      destruct (dummy_cases Hpos) as [(C1 & C2 & C3 & C4 & C5 & C6)|[(C1 & C2 & C3 & C4 & C5 & C6)|(C1 & C2 & C3)]]; try lia;
        rewrite C3 in Hd; assert (z = 0%nat) by lia; subst z; rewrite C2, C6, rcount_cons; cbn; lia.
    - assert (ED : rcount (ty x b) place_d = 0 \/ cb = 0).
      { destruct (Z.eq_dec cb 0) as [|N]; [right; assumption|left].
        destruct (dummy_cases ltac:(lia)) as [(C1 & C2 & C3 & _)|[(C1 & C2 & C3 & _)|(C1 & C2 & C3)]]; rewrite C2; [| |reflexivity];
          rewrite rcount_cons; cbn [pl_type]; (destruct (Nat.eqb_spec 0 (ty x b)) as [E|]; [unfold ty in E; lia|reflexivity]). }
      assert (EZ : cb * rcount (ty x b) place_d = 0) by (destruct ED as [->| ->]; lia). rewrite EZ.
      rewrite (zsum_ext _ _ (fun ps => (if squarei x then 2 else 1) * rcount x ps) bs).
      2:{ intros ps Hps. apply count_ab; [|assumption]. intros p Hp.
          apply (pk_type _ _ _ (ge_places _ _ _ (Hbs ps Hps) p Hp)). }
      rewrite zsum_mult, Hall by assumption. destruct (ty_item x b Hx) as [_ ->]. rewrite Ek. unfold citem.
      cbn [fst snd clautiaux_item ri_copies]. destruct (squarei x); lia. }
  split; [|split; [exact HA|]].
  - constructor; [|intros z Hz; rewrite (HA z Hz); lia].
    intros d Hd. unfold modified_packing in Hd. rewrite !in_app_iff, !in_map_iff in Hd.
    destruct Hd as [(ps & <- & Hps)|[(ps & <- & Hps)|(ps & <- & Hps)]]; cbn [rd_type rd_copies rd_items];
      (split; [simpl; lia|]); (split; [lia|]).
    + apply geometry_da; [|rewrite <- (firstn_skipn cn bs); apply in_or_app; left; assumption].
      destruct (Z.eq_dec cb 0) as [E|]; [|lia]. unfold cn in Hps. rewrite E in Hps. destruct Hps.
    + apply geometry_a. rewrite <- (firstn_skipn cn bs). apply in_or_app. right. assumption.
    + apply geometry_b. assumption.
  - unfold rbins_used, modified_packing. rewrite !zsum_app, !zsum_map. cbn [rd_copies]. rewrite !zsum_one.
    rewrite firstn_length, skipn_length. lia.
Qed.

End Modified.
