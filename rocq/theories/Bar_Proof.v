(** * Proofs about the bar relaxation *)

From Coq Require Import List ZArith QArith Qabs Bool Lia Lqa.
From Verif Require Import Util Common_Model Common_Spec Common_Proof Rect_Model Rect_Spec Geom Scale_Model Scale_Spec Bar_Model Bar_Spec.
Import ListNotations.
Open Scope Z_scope.

(** ** Sums *)

Lemma qsum_nil : forall A (f : A -> Q), qsum f [] = 0%Q.
Proof. reflexivity. Qed.
Lemma qsum_sift : forall A (f : A -> Q) p l, (qsum f (filter p l) == qsum (fun x => if p x then f x else 0) l)%Q.
Proof.
  intros A f p l. induction l as [|x l IH]; [reflexivity|]. cbn [filter]. rewrite qsum_cons. destruct (p x).
  - rewrite qsum_cons, IH. reflexivity.
  - rewrite IH. ring.
Qed.
Lemma qsum_exchange : forall A B (f : A -> B -> Q) la lb, (qsum (fun a => qsum (f a) lb) la == qsum (fun b => qsum (fun a => f a b) la) lb)%Q.
Proof.
  intros A B f la lb. induction la as [|a la IH].
  - rewrite qsum_nil. symmetry. apply qsum_zero. reflexivity.
  - rewrite qsum_cons, IH, <- qsum_plus. apply qsum_ext. intros b _. rewrite qsum_cons. reflexivity.
Qed.
Lemma qsum_one : forall A (f : A -> Q) l x, NoDup l -> In x l -> (forall y, In y l -> y <> x -> f y == 0)%Q -> (qsum f l == f x)%Q.
Proof.
  intros A f l x Hn. induction Hn as [|y l Hy Hn IH]; intros Hx H0; [destruct Hx|]. rewrite qsum_cons. destruct Hx as [->|Hx].
  - rewrite (qsum_zero _ f l); [ring|]. intros z Hz. apply H0; [right; assumption|]. intros ->. contradiction.
  - rewrite IH; [|assumption|intros z Hz; apply H0; right; assumption]. rewrite (H0 y (or_introl eq_refl)); [ring|]. intros ->. contradiction.
Qed.
Lemma qsum_flat_map : forall A B (g : A -> list B) (f : B -> Q) l, (qsum f (flat_map g l) == qsum (fun x => qsum f (g x)) l)%Q.
Proof.
  intros A B g f l. induction l as [|x l IH]; [reflexivity|]. cbn [flat_map]. rewrite qsum_app, qsum_cons, IH. reflexivity.
Qed.
Lemma zsum_by_class : forall A (cl : A -> nat) (f : nat -> Z) ps L, NoDup L -> (forall p, In p ps -> In (cl p) L) ->
  zsum (fun v => zsum (fun p => if Nat.eqb (cl p) v then 1 else 0) ps * f v) L = zsum (fun p => f (cl p)) ps.
Proof.
  intros A cl f ps L HL. induction ps as [|p ps IH]; intro H.
  - rewrite zsum_nil. clear HL H. induction L as [|v L IHL]; [reflexivity|]. rewrite zsum_cons, IHL, zsum_nil. lia.
  - rewrite zsum_cons, <- IH by (intros q Hq; apply H; right; assumption). specialize (H p (or_introl eq_refl)). clear IH.
    rewrite (zsum_ext _ _ (fun v => (if Nat.eqb (cl p) v then f v else 0) + zsum (fun p => if Nat.eqb (cl p) v then 1 else 0) ps * f v) L).
    2:{ intros v _. rewrite zsum_cons. destruct (Nat.eqb_spec (cl p) v); lia. }
    rewrite zsum_plus. f_equal. induction HL as [|v L Hv HL IHL]; [destruct H|]. rewrite zsum_cons. destruct H as [->|H].
    + rewrite Nat.eqb_refl. rewrite (zsum_ext _ _ (fun _ => 0) L).
      * clear. induction L as [|w L IHL]; [rewrite zsum_nil; lia|]. rewrite zsum_cons. lia.
      * intros w Hw. destruct (Nat.eqb_spec (cl p) w); [subst; contradiction|reflexivity].
    + rewrite (IHL H). destruct (Nat.eqb_spec (cl p) v); [subst; contradiction|lia].
Qed.
Lemma qsum_by_class : forall A (cl : A -> nat) (f : nat -> Q) ps L, NoDup L -> (forall p, In p ps -> In (cl p) L) ->
  (qsum (fun v => inject_Z (zsum (fun p => if Nat.eqb (cl p) v then 1 else 0)%Z ps) * f v) L == qsum (fun p => f (cl p)) ps)%Q.
Proof.
  intros A cl f ps L HL H. rewrite (qsum_ext _ _ (fun v => qsum (fun p => if Nat.eqb (cl p) v then f v else 0%Q) ps) L).
  - rewrite qsum_exchange. apply qsum_ext. intros p Hp. rewrite (qsum_one _ _ L (cl p) HL (H p Hp)).
    + rewrite Nat.eqb_refl. reflexivity.
    + intros v _ Hv. destruct (Nat.eqb_spec (cl p) v); [congruence|reflexivity].
  - intros v _. rewrite <- qsum_inject, Qmult_comm, <- qsum_scale. apply qsum_ext. intros p _. destruct (Nat.eqb_spec (cl p) v); [change (inject_Z 1) with 1%Q|change (inject_Z 0) with 0%Q]; ring.
Qed.

(** ** Rows and coefficients *)

Definition rkey (r : BRow * option Q * option Q) : BRow := fst (fst r).

Lemma coefficient_cons : forall l u o p ts r,
  (coefficient (mkBC l u o (p :: ts)) r == (if brow_eq_dec (fst p) r then snd p else 0) + coefficient (mkBC l u o ts) r)%Q.
Proof.
  intros l u o p ts r. unfold coefficient. cbn [bc_terms filter]. destruct (brow_eq_dec (fst p) r); [rewrite qsum_cons; reflexivity|ring].
Qed.
Lemma coefficient_nil : forall l u o r, (coefficient (mkBC l u o []) r == 0)%Q.
Proof. reflexivity. Qed.

Lemma coefficient_dual : forall (duals : BRow -> Q) c keys, NoDup keys -> (forall p, In p (bc_terms c) -> In (fst p) keys) ->
  (qsum (fun r => duals r * coefficient c r) keys == qsum (fun p => snd p * duals (fst p)) (bc_terms c))%Q.
Proof.
  intros duals [l u o ts] keys Hn H. cbn [bc_terms] in *. induction ts as [|p ts IH].
  - rewrite qsum_nil. apply qsum_zero. intros r _. rewrite coefficient_nil. ring.
  - rewrite qsum_cons, <- IH by (intros q Hq; apply H; right; assumption).
    rewrite (qsum_ext _ _ (fun r => (duals r * (if brow_eq_dec (fst p) r then snd p else 0)) + duals r * coefficient (mkBC l u o ts) r)%Q).
    + rewrite qsum_plus. apply Qplus_comp; [|reflexivity]. rewrite (qsum_one _ _ keys (fst p) Hn (H p (or_introl eq_refl))).
      * destruct (brow_eq_dec (fst p) (fst p)); [ring|congruence].
      * intros r _ Hr. destruct (brow_eq_dec (fst p) r); [congruence|ring].
    + intros r _. rewrite coefficient_cons. ring.
Qed.

Lemma activity_dual : forall (duals : BRow -> Q) cs keys, NoDup keys -> (forall c p, In c cs -> In p (bc_terms (fst c)) -> In (fst p) keys) ->
  (qsum (fun r => duals r * activity cs r) keys == qsum (fun c => qsum (fun p => snd p * duals (fst p)) (bc_terms (fst c)) * snd c) cs)%Q.
Proof.
  intros duals cs keys Hn H. unfold activity.
  rewrite (qsum_ext _ _ (fun r => qsum (fun c => duals r * coefficient (fst c) r * snd c) cs)%Q keys).
  - rewrite qsum_exchange. apply qsum_ext. intros c Hc. rewrite <- (coefficient_dual duals (fst c) keys Hn (fun p => H c p Hc)).
    rewrite Qmult_comm, <- qsum_scale. apply qsum_ext. intros r _. ring.
  - intros r _. rewrite <- qsum_scale. apply qsum_ext. intros c _. ring.
Qed.

Section Bar.
Variable i : RInstance.

Lemma eligible_nodup : forall t, NoDup (eligible_variants i t).
Proof. intro t. unfold eligible_variants. apply NoDup_filter, seq_NoDup. Qed.
Lemma eligible_in : forall t v, In v (eligible_variants i t) -> (v < length (variants i))%nat
  /\ va_w (variant i v) <= rb_x (rbin i t) /\ va_h (variant i v) <= rb_y (rbin i t).
Proof.
  intros t v H. apply filter_In in H. destruct H as [H1 H2]. apply in_seq in H1. apply andb_prop in H2. destruct H2 as [H2 _].
  apply negb_true_iff in H2. apply orb_false_elim in H2. destruct H2 as [H2 H3]. apply Z.ltb_ge in H2, H3. lia.
Qed.
Lemma variant_in : forall v, (v < length (variants i))%nat -> exists x, (x < length (rin_items i))%nat
  /\ va_type (variant i v) = x /\ ((va_w (variant i v) = ri_x (ritem i x) /\ va_h (variant i v) = ri_y (ritem i x))
     \/ (va_w (variant i v) = ri_y (ritem i x) /\ va_h (variant i v) = ri_x (ritem i x))).
Proof.
  intros v H. pose proof (nth_In (variants i) dummy_variant H) as Hin. fold (variant i v) in Hin. unfold variants in Hin. apply in_flat_map in Hin.
  destruct Hin as (x & Hx & Hv). apply in_seq in Hx. exists x. split; [lia|]. destruct Hv as [Hv|Hv].
  - rewrite <- Hv. cbn. auto.
  - destruct (ri_oriented (ritem i x)); [destruct Hv|]. destruct Hv as [Hv|[]]. rewrite <- Hv. cbn. auto.
Qed.

Lemma keys_eq : map rkey (bar_rows i) =
  flat_map (fun t => RowCap t :: ColCap t :: flat_map (fun v => [Link1 t v; Link2 t v]) (eligible_variants i t)) (seq 0 (nbins i))
  ++ map ItemRow (seq 0 (length (rin_items i))).
Proof.
  assert (F : forall A B C (f : B -> C) (g : A -> list B) l, map f (flat_map g l) = flat_map (fun x => map f (g x)) l).
  { intros A B C f g l. induction l as [|x l IH]; [reflexivity|]. cbn [flat_map]. rewrite map_app, IH. reflexivity. }
  unfold bar_rows. rewrite map_app, map_map, F. cbn [rkey fst]. f_equal. apply flat_map_ext. intro t. cbn [map rkey fst]. rewrite F. reflexivity.
Qed.
Lemma keys_in : forall r, In r (map rkey (bar_rows i)) <-> match r with
  | RowCap t | ColCap t => (t < length (rin_bins i))%nat
  | Link1 t v | Link2 t v => (t < length (rin_bins i))%nat /\ In v (eligible_variants i t)
  | ItemRow x => (x < length (rin_items i))%nat end.
Proof.
  intro r. rewrite keys_eq, in_app_iff, in_flat_map, in_map_iff. unfold nbins. split.
  - intros [(t & Ht & H)|(x & <- & Hx)]; [|apply in_seq in Hx; lia]. apply in_seq in Ht. destruct H as [<-|[<-|H]]; [lia|lia|].
    apply in_flat_map in H. destruct H as (v & Hv & [<-|[<-|[]]]); (split; [lia|assumption]).
  - destruct r as [t|t|t v|t v|x]; intro H.
    + left. exists t. split; [apply in_seq; lia|left; reflexivity].
    + left. exists t. split; [apply in_seq; lia|right; left; reflexivity].
    + left. exists t. split; [apply in_seq; lia|right; right]. apply in_flat_map. exists v. split; [tauto|left; reflexivity].
    + left. exists t. split; [apply in_seq; lia|right; right]. apply in_flat_map. exists v. split; [tauto|right; left; reflexivity].
    + right. exists x. split; [reflexivity|apply in_seq; lia].
Qed.
Lemma flat_map_nodup : forall A B (g : A -> list B) l, NoDup l -> (forall x, In x l -> NoDup (g x)) ->
  (forall x y b, In x l -> In y l -> In b (g x) -> In b (g y) -> x = y) -> NoDup (flat_map g l).
Proof.
  intros A B g l Hn. induction Hn as [|x l Hx Hn IH]; intros H1 H2; [constructor|]. cbn [flat_map]. apply nodup_app_intro.
  - apply H1. left. reflexivity.
  - apply IH; [intros y Hy; apply H1; right; assumption|]. intros y z b Hy Hz. apply H2; right; assumption.
  - intros b Hb Hb'. apply in_flat_map in Hb'. destruct Hb' as (y & Hy & Hb'). assert (E : x = y) by (apply (H2 x y b); [left; reflexivity|right; assumption|assumption|assumption]). subst y. contradiction.
Qed.
Lemma keys_nodup : NoDup (map rkey (bar_rows i)).
Proof.
  rewrite keys_eq. apply nodup_app_intro.
  - apply flat_map_nodup; [apply seq_NoDup| |].
    + intros t _. constructor; [|constructor].
      * intros [H|H]; [discriminate|]. apply in_flat_map in H. destruct H as (v & _ & [H|[H|[]]]); discriminate.
      * intros H. apply in_flat_map in H. destruct H as (v & _ & [H|[H|[]]]); discriminate.
      * apply flat_map_nodup; [apply eligible_nodup| |].
        -- intros v _. constructor; [intros [H|[]]; discriminate|]. constructor; [intros []|constructor].
        -- intros v w b _ _ [<-|[<-|[]]] [H|[H|[]]]; congruence.
    + intros t u b _ _ Ht Hu. cbn in Ht, Hu. rewrite in_flat_map in Ht, Hu.
      destruct Ht as [<-|[<-|(v & _ & [<-|[<-|[]]])]]; destruct Hu as [H|[H|(w & _ & [H|[H|[]]])]]; congruence.
  - apply FinFun.Injective_map_NoDup; [intros x y H; congruence|apply seq_NoDup].
  - intros r Hr Hx. apply in_map_iff in Hx. destruct Hx as (x & <- & _). apply in_flat_map in Hr. destruct Hr as (t & _ & [H|[H|H]]); try discriminate.
    apply in_flat_map in H. destruct H as (v & _ & [H|[H|[]]]); discriminate.
Qed.

Lemma static_in : forall c, In c (static_columns i) -> exists t, (t < length (rin_bins i))%nat /\ (c = k_column i t \/ exists v, In v (eligible_variants i t) /\ c = n_column i t v).
Proof.
  intros c H. apply in_flat_map in H. destruct H as (t & Ht & H). apply in_seq in Ht. unfold nbins in Ht. exists t. split; [lia|]. destruct H as [H|H]; [left; auto|right].
  apply in_map_iff in H. destruct H as (v & <- & Hv). exists v. auto.
Qed.
Lemma static_terms : forall c p, In c (static_columns i) -> In p (bc_terms c) -> In (fst p) (map rkey (bar_rows i)).
Proof.
  intros c p Hc Hp. apply keys_in. destruct (static_in c Hc) as (t & Ht & [->|(v & Hv & ->)]).
  - destruct Hp as [<-|[<-|[]]]; exact Ht.
  - destruct (eligible_in t v Hv) as (Hl & _). destruct (variant_in v Hl) as (x & Hx & E & _). destruct Hp as [<-|[<-|[<-|[]]]]; cbn [fst]; [auto|auto|lia].
Qed.
Lemma bar_terms : forall c p, bar_pattern i c -> In p (bc_terms c) -> In (fst p) (map rkey (bar_rows i)).
Proof.
  intros c p (rows & t & a & Ht & _ & ->) Hp. apply keys_in. destruct Hp as [<-|Hp]; [destruct rows; exact Ht|].
  apply in_map_iff in Hp. destruct Hp as (v & <- & Hv). apply filter_In in Hv. destruct rows; cbn [fst]; tauto.
Qed.

(** Coefficients. *)
Ltac coefs := 
  repeat match goal with |- context [coefficient (mkBC ?l ?u ?o (?p :: ?ts)) ?r] => rewrite (coefficient_cons l u o p ts r) end;
  repeat match goal with |- context [coefficient (mkBC ?l ?u ?o []) ?r] => rewrite (coefficient_nil l u o r) end; cbn [fst snd];
  repeat match goal with |- context [brow_eq_dec ?a ?b] => destruct (brow_eq_dec a b); try congruence end.

Lemma k_cap : forall rows t u, (coefficient (k_column i t) (bar_cap rows u) == if Nat.eqb t u then - inject_Z (bar_number i rows u) else 0)%Q.
Proof.
  intros rows t u. unfold k_column, bar_cap, bar_number. destruct rows, (Nat.eqb_spec t u) as [->|N]; coefs; try ring.
Qed.
Lemma k_link : forall rows t u v, (coefficient (k_column i t) (bar_link rows u v) == 0)%Q.
Proof. intros rows t u v. unfold k_column, bar_link. destruct rows; coefs; ring. Qed.
Lemma k_item : forall t x, (coefficient (k_column i t) (ItemRow x) == 0)%Q.
Proof. intros t x. unfold k_column. coefs; ring. Qed.
Lemma n_cap : forall rows t v u, (coefficient (n_column i t v) (bar_cap rows u) == 0)%Q.
Proof. intros rows t v u. unfold n_column, bar_cap. destruct rows; coefs; ring. Qed.
Lemma n_link : forall rows t v u w, (coefficient (n_column i t v) (bar_link rows u w)
  == if Nat.eqb t u && Nat.eqb v w then - inject_Z (bar_length i (negb rows) w) else 0)%Q.
Proof.
  intros rows t v u w. unfold n_column, bar_link, bar_length. destruct rows, (Nat.eqb_spec t u) as [->|N], (Nat.eqb_spec v w) as [->|N']; cbn [andb negb]; coefs; ring.
Qed.
Lemma n_item : forall t v x, (coefficient (n_column i t v) (ItemRow x) == if Nat.eqb (va_type (variant i v)) x then 1 else 0)%Q.
Proof. intros t v x. unfold n_column. destruct (Nat.eqb_spec (va_type (variant i v)) x) as [<-|N]; coefs; ring. Qed.
Lemma coefficient_terms : forall l u o ts r, (coefficient (mkBC l u o ts) r == qsum (fun p => if brow_eq_dec (fst p) r then snd p else 0) ts)%Q.
Proof.
  intros l u o ts r. unfold coefficient. cbn [bc_terms]. rewrite qsum_sift. apply qsum_ext. intros p _. destruct (brow_eq_dec (fst p) r); reflexivity.
Qed.
Lemma bar_coef_cap : forall rows t a rows' u, (coefficient (bar_column i rows t a) (bar_cap rows' u) == if Bool.eqb rows rows' && Nat.eqb t u then 1 else 0)%Q.
Proof.
  intros rows t a rows' u. unfold bar_column. rewrite coefficient_cons, coefficient_terms, qsum_map, (qsum_zero _ _ (filter _ _)).
  - cbn [fst snd]. unfold bar_cap. destruct rows, rows', (Nat.eqb_spec t u) as [->|N]; cbn [Bool.eqb andb]; coefs; ring.
  - intros v _. cbn [fst snd]. unfold bar_cap. destruct rows, rows'; coefs; reflexivity.
Qed.
Lemma bar_coef_item : forall rows t a x, (coefficient (bar_column i rows t a) (ItemRow x) == 0)%Q.
Proof.
  intros rows t a x. unfold bar_column. rewrite coefficient_cons, coefficient_terms, qsum_map, (qsum_zero _ _ (filter _ _)).
  - cbn [fst snd]. destruct rows; coefs; ring.
  - intros v _. cbn [fst snd]. destruct rows; coefs; reflexivity.
Qed.
Lemma bar_coef_link : forall rows t a rows' u v, In v (eligible_variants i u) -> 0 <= a v ->
  (coefficient (bar_column i rows t a) (bar_link rows' u v) == if Bool.eqb rows rows' && Nat.eqb t u then inject_Z (a v) else 0)%Q.
Proof.
  intros rows t a rows' u v Hv Ha. unfold bar_column. rewrite coefficient_cons, coefficient_terms, qsum_map, qsum_sift. cbn [fst snd].
  assert (E : ((if brow_eq_dec (if rows then RowCap t else ColCap t) (bar_link rows' u v) then 1 else 0) == 0)%Q) by (unfold bar_link; destruct rows, rows'; coefs; reflexivity).
  rewrite E. clear E. destruct (Bool.eqb rows rows' && Nat.eqb t u) eqn:E.
  - apply andb_prop in E. destruct E as [E1 E2]. apply eqb_prop in E1. apply Nat.eqb_eq in E2. subst rows' u.
    rewrite (qsum_one _ _ _ v (eligible_nodup t) Hv).
    + unfold bar_link. destruct (Z.ltb_spec 0 (a v)) as [L|L]; [destruct rows; coefs; ring|]. assert (a v = 0) as -> by lia. change (inject_Z 0) with 0%Q. ring.
    + intros w _ N. unfold bar_link. destruct (0 <? a w); [|reflexivity]. destruct rows; coefs; reflexivity.
  - rewrite (qsum_zero _ _ (eligible_variants i t)); [ring|]. intros w _. destruct (0 <? a w); [|reflexivity]. unfold bar_link.
    destruct rows, rows'; coefs; try reflexivity; exfalso; cbn [Bool.eqb andb] in E; (match goal with H : _ = _ |- _ => inversion H; subst end); rewrite Nat.eqb_refl in E; discriminate.
Qed.
End Bar.
