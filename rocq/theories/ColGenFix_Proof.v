(** * The state of the pricing solver for a set of fixed columns *)

From Coq Require Import List ZArith QArith Bool Lia Arith Lqa.
From Verif Require Import Util Common_Model Common_Spec Common_Proof OneDim_Model ColGen_Model ColGen_Spec ColGenPrice_Proof.
Import ListNotations.
Open Scope Z_scope.

Definition row_sum (r : nat) (l : list (nat * Q)) : Q := qsum (fun e => if (fst e =? r)%nat then snd e else 0)%Q l.

Lemma row_sum_out : forall r l, (forall q, ~ In (r, q) l) -> (row_sum r l == 0)%Q.
Proof.
  intros r l H. unfold row_sum. induction l as [|[s q] l IH]; [reflexivity|]. rewrite qsum_cons. cbn [fst snd].
  destruct (Nat.eqb_spec s r) as [->|_]; [exfalso; apply (H q); left; reflexivity|].
  rewrite IH; [ring|]. intros q' Hq. apply (H q'). right. exact Hq.
Qed.

Lemma row_sum_in : forall r q l, NoDup (map fst l) -> In (r, q) l -> (row_sum r l == q)%Q.
Proof.
  intros r q l. unfold row_sum. induction l as [|[s p] l IH]; intros ND Hin; [destruct Hin|]. rewrite qsum_cons. cbn [fst snd].
  cbn [map fst] in ND. apply NoDup_cons_iff in ND. destruct ND as [N1 N2]. destruct Hin as [Hin|Hin].
  - injection Hin as -> ->. rewrite Nat.eqb_refl.
    assert (E : (row_sum r l == 0)%Q). { apply row_sum_out. intros q' Hq. apply N1. exact (in_map fst l (r, q') Hq). }
    unfold row_sum in E. rewrite E. ring.
  - destruct (Nat.eqb_spec s r) as [->|_]; [exfalso; apply N1; exact (in_map fst l (r, q) Hin)|]. rewrite IH by assumption. ring.
Qed.

Lemma fixed_fold : forall value l acc x, (x < length acc)%nat ->
  length (fold_left (fun l x => upd x (fun q => q + value)%Q l) l acc) = length acc /\
  (nth x (fold_left (fun l x => upd x (fun q => q + value)%Q l) l acc) 0 == nth x acc 0 + value * inject_Z (occ l x))%Q.
Proof.
  intros value l. induction l as [|y l IH]; intros acc x Hx; cbn [fold_left].
  - split; [reflexivity|]. change (inject_Z (occ [] x)) with 0%Q. ring.
  - destruct (IH (upd y (fun q => q + value)%Q acc) x ltac:(rewrite upd_length; exact Hx)) as [L E]. rewrite upd_length in L. split; [exact L|].
    rewrite E. unfold occ. cbn [count_occ]. destruct (Nat.eq_dec y x) as [->|Hne].
    + rewrite nth_upd_same by exact Hx. rewrite Nat2Z.inj_succ. unfold Z.succ. rewrite inject_Z_plus. change (inject_Z 1) with 1%Q. ring.
    + rewrite nth_upd_other by congruence. reflexivity.
Qed.

Section Fix.
Variable i : CInst.

Record FixOf (filled fixed : nat -> Q) (used : nat -> Z) (fx : CFix) : Prop := {
  fo_lb : length (fx_bins fx) = cnb i;
  fo_lf : length (fx_filled fx) = cni i;
  fo_lx : length (fx_fixed fx) = cni i;
  fo_filled : forall x, (x < cni i)%nat -> (nth x (fx_filled fx) 0 == filled x)%Q;
  fo_fixed : forall x, (x < cni i)%nat -> (nth x (fx_fixed fx) 0 == fixed x)%Q;
  fo_bins : forall t, (t < cnb i)%nat -> nth t (fx_bins fx) 0 = used t
}.

(** The terms of one column. *)
Lemma elements_fold : forall n l filled fixed used fx, 0 <= n -> (forall t, (t < cnb i)%nat -> 0 <= used t) ->
  (forall e, In e l -> (fst e < cnb i)%nat \/ exists x, (x < cni i)%nat /\ fst e = (cnb i + x)%nat) ->
  FixOf filled fixed used fx ->
  FixOf (fun x => filled x + inject_Z n * row_sum (cnb i + x) l)%Q
    (fun x => fixed x + inject_Z n * qsum (fun e => if (fst e <? cnb i)%nat then inject_Z (occ (cb_fixed (cbin i (fst e))) x) else 0)%Q l)%Q
    (fun t => used t + n * zsum (fun e => if (fst e =? t)%nat then 1 else 0) l)
    (fold_left (cfix_element i (inject_Z n)) l fx).
Proof.
  intros n l. induction l as [|[r q] l IH]; intros filled fixed used fx Hn Hu Hl [F1 F2 F3 F4 F5 F6]; cbn [fold_left].
  - unfold row_sum. constructor; try assumption; intros y Hy; rewrite ?zsum_nil; cbn [qsum fold_right].
    + rewrite F4 by exact Hy. ring.
    + rewrite F5 by exact Hy. ring.
    + rewrite F6 by exact Hy. lia.
  - specialize (IH (fun x => filled x + inject_Z n * (if (r =? cnb i + x)%nat then q else 0))%Q
      (fun x => fixed x + inject_Z n * (if (r <? cnb i)%nat then inject_Z (occ (cb_fixed (cbin i r)) x) else 0))%Q
      (fun t => used t + n * (if (r =? t)%nat then 1 else 0)) (cfix_element i (inject_Z n) fx (r, q)) Hn).
    cut (FixOf (fun x => filled x + inject_Z n * (if (r =? cnb i + x)%nat then q else 0))%Q
      (fun x => fixed x + inject_Z n * (if (r <? cnb i)%nat then inject_Z (occ (cb_fixed (cbin i r)) x) else 0))%Q
      (fun t => used t + n * (if (r =? t)%nat then 1 else 0)) (cfix_element i (inject_Z n) fx (r, q))).
    + intro C. destruct IH as [G1 G2 G3 G4 G5 G6]; [| |exact C|].
      * intros t Ht. specialize (Hu t Ht). destruct (r =? t)%nat; lia.
      * intros e He. apply Hl. right. exact He.
      * constructor; try assumption; intros y Hy.
        -- rewrite G4 by exact Hy. unfold row_sum. rewrite qsum_cons. cbn [fst snd]. ring.
        -- rewrite G5 by exact Hy. rewrite qsum_cons. cbn [fst snd]. ring.
        -- rewrite G6 by exact Hy. rewrite zsum_cons. cbn [fst snd]. lia.
    + clear IH. unfold cfix_element. cbn [fst snd].
      destruct (Hl (r, q) (or_introl eq_refl)) as [Hr|(x & Hx & Hr)]; cbn [fst] in Hr.
      * destruct (Nat.ltb_spec r (cnb i)) as [_|]; [|lia]. constructor; cbn [fx_bins fx_filled fx_fixed]; try assumption.
        -- rewrite upd_length. exact F1.
        -- destruct (cni i) as [|m] eqn:Em.
           ++ destruct (fx_fixed fx); [|discriminate]. clear. induction (cb_fixed (cbin i r)) as [|a l IH]; [reflexivity|]. cbn [fold_left]. destruct a; exact IH.
           ++ rewrite <- F3. apply (fixed_fold (inject_Z n) _ _ 0%nat). lia.
        -- intros y Hy. destruct (Nat.eqb_spec r (cnb i + y)) as [E|_]; [lia|]. rewrite F4 by exact Hy. ring.
        -- intros y Hy. rewrite (proj2 (fixed_fold (inject_Z n) _ _ y ltac:(rewrite F3; exact Hy))), F5 by exact Hy. reflexivity.
        -- intros t Ht. destruct (Nat.eqb_spec r t) as [->|Hne].
           ++ rewrite nth_upd_same by lia. rewrite F6 by exact Ht. rewrite Z.mul_1_r. apply qtrunc_int; [rewrite inject_Z_plus; reflexivity|].
              specialize (Hu t Ht). lia.
           ++ rewrite nth_upd_other by exact Hne. rewrite F6 by exact Ht. lia.
      * destruct (Nat.ltb_spec r (cnb i)) as [|_]; [lia|]. constructor; cbn [fx_bins fx_filled fx_fixed]; try assumption.
        -- rewrite upd_length. exact F2.
        -- intros y Hy. destruct (Nat.eqb_spec r (cnb i + y)) as [E|Hne].
           ++ replace (r - cnb i)%nat with y by lia. rewrite nth_upd_same by lia. rewrite F4 by exact Hy. reflexivity.
           ++ rewrite nth_upd_other by lia. rewrite F4 by exact Hy. ring.
        -- intros y Hy. rewrite F5 by exact Hy. ring.
        -- intros t Ht. destruct (Nat.eqb_spec r t) as [->|_]; [lia|]. rewrite F6 by exact Ht. lia.
Qed.

Lemma fixof_ext : forall f1 g1 u1 f2 g2 u2 fx, (forall x, (x < cni i)%nat -> (f1 x == f2 x)%Q) -> (forall x, (x < cni i)%nat -> (g1 x == g2 x)%Q) ->
  (forall t, (t < cnb i)%nat -> u1 t = u2 t) -> FixOf f1 g1 u1 fx -> FixOf f2 g2 u2 fx.
Proof.
  intros f1 g1 u1 f2 g2 u2 fx A B C [F1 F2 F3 F4 F5 F6]. constructor; try assumption; intros y Hy.
  - rewrite <- A by exact Hy. auto.
  - rewrite <- B by exact Hy. auto.
  - rewrite <- C by exact Hy. auto.
Qed.

Lemma describes_terms : forall col e, describes i col -> In e (cc_elements col) ->
  (fst e < cnb i)%nat \/ exists x, (x < cni i)%nat /\ fst e = (cnb i + x)%nat.
Proof.
  intros col [r q] [D1 D2 D3 D4] He. apply D4 in He. destruct He as [[-> _]|(x & -> & Hx & _)]; cbn [fst]; [left; exact D1|].
  right. exists x. auto.
Qed.

(** Sums over the terms of a column. *)
Lemma describes_items : forall col x, describes i col -> (x < cni i)%nat -> (row_sum (cnb i + x) (cc_elements col) == inject_Z (occ (cc_items col) x))%Q.
Proof.
  intros col x [D1 D2 D3 D4] Hx. destruct (in_dec Nat.eq_dec x (cc_items col)) as [Hin|Hout].
  - apply row_sum_in; [exact D3|]. apply D4. right. exists x. auto.
  - unfold occ. rewrite (proj1 (count_occ_not_In Nat.eq_dec _ _) Hout). apply row_sum_out. intros q Hq. apply D4 in Hq.
    destruct Hq as [[E _]|(y & E & Hy & _)]; [lia|]. apply Hout. replace x with y by lia. exact Hy.
Qed.

Lemma type_sum : forall (f : nat -> Q) col, describes i col -> (qsum (fun e => if (fst e <? cnb i)%nat then f (fst e) else 0) (cc_elements col) == f (cc_type col))%Q.
Proof.
  intros f col [D1 D2 D3 D4].
  assert (G : forall l, NoDup (map fst l) -> (forall e, In e l -> (fst e < cnb i)%nat -> fst e = cc_type col) ->
    (qsum (fun e : nat * Q => if (fst e <? cnb i)%nat then f (fst e) else 0) l == if in_dec Nat.eq_dec (cc_type col) (map fst l) then f (cc_type col) else 0)%Q).
  { induction l as [|e l IH]; intros ND H; [reflexivity|]. rewrite qsum_cons. cbn [map] in ND |- *. apply NoDup_cons_iff in ND. destruct ND as [N1 N2].
    rewrite IH by (try assumption; intros e' He'; apply H; right; exact He'). destruct (Nat.ltb_spec (fst e) (cnb i)) as [L|L].
    - rewrite (H e (or_introl eq_refl) L) in *. destruct (in_dec Nat.eq_dec (cc_type col) (map fst l)) as [C|C]; [contradiction|].
      destruct (in_dec Nat.eq_dec (cc_type col) (cc_type col :: map fst l)) as [C'|C']; [ring|exfalso; apply C'; left; reflexivity].
    - destruct (in_dec Nat.eq_dec (cc_type col) (map fst l)) as [C|C], (in_dec Nat.eq_dec (cc_type col) (fst e :: map fst l)) as [C'|C'];
        try ring; [exfalso; apply C'; right; exact C|]. destruct C' as [C'|C']; [lia|contradiction]. }
  rewrite G; [|exact D3|].
  - destruct (in_dec _ _ _) as [C|C]; [reflexivity|]. exfalso. apply C. apply (in_map fst _ (cc_type col, 1%Q)). apply D4. left. auto.
  - intros [r q] He Hr. apply D4 in He. cbn [fst] in *. destruct He as [[E _]|(y & E & _)]; [exact E|lia].
Qed.

Lemma bin_sum : forall col t, describes i col -> (t < cnb i)%nat -> zsum (fun e => if (fst e =? t)%nat then 1 else 0) (cc_elements col) = if (cc_type col =? t)%nat then 1 else 0.
Proof.
  intros col t [D1 D2 D3 D4] Ht.
  assert (G : forall l : list (nat * Q), NoDup (map fst l) -> zsum (fun e => if (fst e =? t)%nat then 1 else 0) l = if in_dec Nat.eq_dec t (map fst l) then 1 else 0).
  { induction l as [|e l IH]; intros ND; [reflexivity|]. rewrite zsum_cons. cbn [map] in ND |- *. apply NoDup_cons_iff in ND. destruct ND as [N1 N2].
    rewrite IH by exact N2. destruct (Nat.eqb_spec (fst e) t) as [Et|Hne].
    - rewrite Et in N1. destruct (in_dec Nat.eq_dec t (map fst l)) as [C|C]; [contradiction|]. destruct (in_dec Nat.eq_dec t (fst e :: map fst l)) as [C'|C']; [reflexivity|exfalso; apply C'; left; exact Et].
    - destruct (in_dec Nat.eq_dec t (map fst l)) as [C|C], (in_dec Nat.eq_dec t (fst e :: map fst l)) as [C'|C']; try reflexivity.
      + exfalso. apply C'. right. exact C.
      + destruct C' as [C'|C']; contradiction. }
  rewrite G by exact D3. destruct (Nat.eqb_spec (cc_type col) t) as [E|Hne]; destruct (in_dec Nat.eq_dec t (map fst (cc_elements col))) as [C|C]; try reflexivity; exfalso.
  - apply C. apply (in_map fst _ (t, 1%Q)). apply D4. left. auto.
  - apply in_map_iff in C. destruct C as ([r q] & E & Hin). cbn [fst] in E. subst r. apply D4 in Hin. destruct Hin as [[E _]|(x & E & _)]; [congruence|lia].
Qed.

Definition col_bins (cols : list (CCol * Z)) : CBins := map (fun p => (cc_type (fst p), snd p, cc_items (fst p))) cols.
Definition col_values (cols : list (CCol * Z)) : list (CCol * Q) := map (fun p => (fst p, inject_Z (snd p))) cols.

Theorem initialize_spec : forall cols, (forall p, In p cols -> describes i (fst p) /\ 0 <= snd p) ->
  FixOf (fun x => inject_Z (used_items (col_bins cols) x))
    (fun x => inject_Z (zsum (fun b => b_copies b * occ (cb_fixed (cbin i (b_type b))) x) (col_bins cols)))
    (used_bins (col_bins cols)) (cinitialize i (col_values cols)).
Proof.
  intros cols H. unfold cinitialize. induction cols as [|[col n] cols IH] using rev_ind.
  - cbn. constructor; cbn [cfix0 fx_bins fx_filled fx_fixed]; try apply repeat_length; intros y _; rewrite nth_repeat0; reflexivity.
  - unfold col_values, col_bins in *. rewrite !map_app, fold_left_app. cbn [map fold_left fst snd].
    specialize (IH ltac:(intros p Hp; apply H, in_or_app; left; exact Hp)).
    destruct (H (col, n) ltac:(apply in_or_app; right; left; reflexivity)) as [D Hn]. cbn [fst snd] in D, Hn.
    set (fx := fold_left _ _ _) in *.
    assert (K : forall f : nat * Z * list nat -> Z, zsum f (map (fun p : CCol * Z => (cc_type (fst p), snd p, cc_items (fst p))) cols ++ [(cc_type col, n, cc_items col)])
      = zsum f (map (fun p : CCol * Z => (cc_type (fst p), snd p, cc_items (fst p))) cols) + f (cc_type col, n, cc_items col)) by (intro f; rewrite zsum_snoc; reflexivity).
    assert (U0 : forall t, (t < cnb i)%nat -> 0 <= used_bins (map (fun p : CCol * Z => (cc_type (fst p), snd p, cc_items (fst p))) cols) t).
    { intros t _. unfold used_bins. apply zsum_nonneg. intros b Hb. apply in_map_iff in Hb. destruct Hb as (p & <- & Hp). unfold b_type, b_copies. cbn [fst snd].
      destruct (H p ltac:(apply in_or_app; left; exact Hp)) as [_ Hp0]. destruct (_ =? _)%nat; lia. }
    destruct (Qltb (inject_Z n) (1 # 2)) eqn:Eh.
    + assert (E0 : n = 0).
      { apply Qltb_lt in Eh. unfold Qlt in Eh. cbn in Eh. lia. }
      subst n. eapply fixof_ext; [| | |exact IH]; intros y Hy; unfold used_items, used_bins; rewrite K; unfold b_type, b_copies, b_items; cbn [fst snd];
        [f_equiv; lia|f_equiv; lia|]. destruct (_ =? _)%nat; lia.
    + pose proof (elements_fold n (cc_elements col) _ _ _ fx Hn U0 (fun e He => describes_terms col e D He) IH) as G.
      eapply fixof_ext; [| | |exact G]; intros y Hy; cbv beta.
      * unfold used_items. rewrite K. rewrite describes_items by assumption. unfold b_copies, b_items. cbn [fst snd]. rewrite inject_Z_plus, inject_Z_mult. reflexivity.
      * rewrite K. rewrite (type_sum (fun t => inject_Z (occ (cb_fixed (cbin i t)) y)) col D). unfold b_copies, b_type. cbn [fst snd]. rewrite inject_Z_plus, inject_Z_mult. reflexivity.
      * unfold used_bins. rewrite K. rewrite bin_sum by assumption. unfold b_copies, b_type. cbn [fst snd]. destruct (_ =? _)%nat; lia.
Qed.
End Fix.
