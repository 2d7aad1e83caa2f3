(** * Companions, the distribution of the entries, and the boxes they fill *)

From Coq Require Import List ZArith QArith Bool Arith Lia Permutation.
From Verif Require Import Util Common_Model Rect_Model Rect_Spec Reduc_Model Reduc_Spec.
Import ListNotations.
Open Scope Z_scope.

(** ** Counting *)

Definition lcount (z : nat) (cs : list Comp) : Z := zsum (fun c => rcount z (place_comp 0 0 c)) cs.
Definition unitc (z x : nat) (e : list Comp) : Z := (if Nat.eqb x z then 1 else 0) + lcount z e.

Lemma rcount_nil : forall z, rcount z [] = 0.
Proof. reflexivity. Qed.
Lemma rcount_cons : forall z p l, rcount z (p :: l) = (if Nat.eqb (pl_type p) z then 1 else 0) + rcount z l.
Proof. intros z p l. unfold rcount. cbn [filter]. destruct (Nat.eqb (pl_type p) z); cbn [length]; lia. Qed.
Lemma rcount_app : forall z l l', rcount z (l ++ l') = rcount z l + rcount z l'.
Proof. intros z l l'. induction l as [|p l IH]; [reflexivity|]. cbn [app]. rewrite !rcount_cons, IH. lia. Qed.
Lemma rcount_flat_map : forall (A : Type) (f : A -> list Place) z l, rcount z (flat_map f l) = zsum (fun a => rcount z (f a)) l.
Proof. intros A f z l. induction l as [|a l IH]; [reflexivity|]. cbn [flat_map]. rewrite rcount_app, IH, zsum_cons. reflexivity. Qed.
Lemma rcount_nonneg : forall z l, 0 <= rcount z l.
Proof. intros; unfold rcount; lia. Qed.

(** Induction on companions. *)
Section CompInd.
Variable P : Comp -> Prop.
Hypothesis step : forall x dx dy r cs, Forall P cs -> P (mkComp x dx dy r cs).
Fixpoint comp_ind' (c : Comp) : P c :=
  match c with
  | mkComp x dx dy r cs =>
      step x dx dy r cs ((fix go (l : list Comp) : Forall P l :=
        match l with [] => Forall_nil P | a :: l' => Forall_cons a (comp_ind' a) (go l') end) cs)
  end.
End CompInd.

Definition shift (x y : Z) (p : Place) : Place := mkPl (pl_type p) (x + pl_x p) (y + pl_y p) (pl_rot p).

Lemma place_shift : forall c x y, place_comp x y c = map (shift x y) (place_comp 0 0 c).
Proof.
  induction c as [t dx dy r cs IH] using comp_ind'. intros x y. cbn [place_comp map].
  unfold shift at 1. cbn [pl_type pl_x pl_y pl_rot]. f_equal.
  clear - IH. induction cs as [|c cs IHc]; [reflexivity|]. inversion IH as [|? ? Hc Hcs]. subst.
  cbn [flat_map]. rewrite map_app, (IHc Hcs). f_equal. rewrite (Hc (x + dx) (y + dy)), (Hc (0 + dx) (0 + dy)), map_map.
  apply map_ext. intros [pt px py pr]. unfold shift. cbn. f_equal; lia.
Qed.

Lemma rcount_shift : forall z x y l, rcount z (map (shift x y) l) = rcount z l.
Proof. intros z x y l. induction l as [|p l IH]; [reflexivity|]. cbn [map]. rewrite !rcount_cons, IH. reflexivity. Qed.

Lemma rcount_place : forall z x dx dy r e, rcount z (place_comp 0 0 (mkComp x dx dy r e)) = unitc z x e.
Proof.
  intros. cbn [place_comp]. rewrite rcount_cons. cbn [pl_type]. unfold unitc, lcount. f_equal.
  rewrite rcount_flat_map. apply zsum_ext. intros c _. rewrite place_shift. apply rcount_shift.
Qed.

Lemma lcount_nil : forall z, lcount z [] = 0.
Proof. reflexivity. Qed.
Lemma lcount_cons : forall z x dx dy r e l, lcount z (mkComp x dx dy r e :: l) = unitc z x e + lcount z l.
Proof. intros. unfold lcount. rewrite zsum_cons, rcount_place. reflexivity. Qed.
Lemma lcount_app : forall z l l', lcount z (l ++ l') = lcount z l + lcount z l'.
Proof. intros. unfold lcount. apply zsum_app. Qed.
Lemma lcount_flat : forall z l, rcount z (flat_map (place_comp 0 0) l) = lcount z l.
Proof. intros. apply rcount_flat_map. Qed.
Lemma lcount_concat : forall z ls, lcount z (concat ls) = zsum (lcount z) ls.
Proof. intros z ls. induction ls as [|l ls IH]; [reflexivity|]. cbn [concat]. rewrite lcount_app, IH, zsum_cons. reflexivity. Qed.
Lemma unitc_app : forall z x e f, unitc z x (e ++ f) = unitc z x e + lcount z f.
Proof. intros. unfold unitc. rewrite lcount_app. lia. Qed.
Lemma lcount_nonneg : forall z l, 0 <= lcount z l.
Proof. intros. apply zsum_nonneg. intros. apply rcount_nonneg. Qed.
Lemma unitc_nonneg : forall z x l, 0 <= unitc z x l.
Proof. intros. unfold unitc. pose proof (lcount_nonneg z l). destruct (Nat.eqb x z); lia. Qed.

(** ** The distribution of the entries *)

Definition occ (x : nat) (l : list Comp) : nat := length (filter (fun c => Nat.eqb (co_type c) x) l).
Lemma occ_nil : forall x, occ x [] = O.
Proof. reflexivity. Qed.
Lemma occ_cons : forall x c l, occ x (c :: l) = ((if Nat.eqb (co_type c) x then 1 else 0) + occ x l)%nat.
Proof. intros. unfold occ. cbn [filter]. destruct (Nat.eqb (co_type c) x); reflexivity. Qed.
Lemma occ_app : forall x l l', occ x (l ++ l') = (occ x l + occ x l')%nat.
Proof. intros. unfold occ. rewrite filter_app, app_length. reflexivity. Qed.

Definition same_head (c c' : Comp) : Prop :=
  co_type c = co_type c' /\ co_dx c = co_dx c' /\ co_dy c = co_dy c' /\ co_rot c = co_rot c'.
(** [c'] is [c] with one of the entries [lo .. hi-1] of its type. *)
Definition given (ent : nat -> nat -> option (list Comp)) (hi : nat -> nat) (c c' : Comp) : Prop :=
  same_head c c' /\ exists k, (k < hi (co_type c))%nat /\ ent (co_type c) k = Some (co_nested c').

Definition entd (ent : nat -> nat -> option (list Comp)) (x k : nat) : list Comp :=
  match ent x k with Some e => e | None => [] end.

Lemma zsum_pick_seq : forall (f : nat -> Z) x n, (x < n)%nat -> zsum (fun y => if Nat.eqb x y then f y else 0) (seq 0 n) = f x.
Proof.
  intros f x n. revert x. induction n as [|n IH]; intros x Hx; [lia|].
  rewrite seq_S, zsum_snoc. cbn [plus]. destruct (Nat.eqb x n) eqn:E.
  - apply Nat.eqb_eq in E. subst x. rewrite (zsum_ext _ _ (fun _ => 0)).
    + assert (zsum (fun _ : nat => 0) (seq 0 n) = 0) as ->; [|lia]. clear. induction (seq 0 n) as [|a l IH]; [reflexivity|]. rewrite zsum_cons, IH. lia.
    + intros y Hy. apply in_seq in Hy. destruct (Nat.eqb n y) eqn:E; [apply Nat.eqb_eq in E; lia|reflexivity].
  - apply Nat.eqb_neq in E. rewrite IH by lia. lia.
Qed.

Lemma Forall2_weaken : forall (A B : Type) (P Q : A -> B -> Prop) l l', (forall a b, P a b -> Q a b) -> Forall2 P l l' -> Forall2 Q l l'.
Proof. intros A B P Q l l' H F. induction F; constructor; auto. Qed.

Lemma hand_out_ok : forall ent n l cnt,
  (forall c, In c l -> (co_type c < n)%nat) ->
  (forall c k, In c l -> (cnt (co_type c) <= k < cnt (co_type c) + occ (co_type c) l)%nat -> ent (co_type c) k <> None) ->
  exists l' cnt', hand_out ent cnt l = Some (l', cnt')
    /\ (forall x, cnt' x = (cnt x + occ x l)%nat)
    /\ Forall2 (given ent (fun x => cnt x + occ x l)%nat) l l'
    /\ forall z, lcount z l' = zsum (fun x => zsum (fun k => unitc z x (entd ent x k)) (seq (cnt x) (occ x l))) (seq 0 n).
Proof.
  intros ent n l. induction l as [|[x dx dy r e0] l IH]; intros cnt T E.
  - exists [], cnt. split; [reflexivity|]. split; [intros x; rewrite occ_nil; lia|]. split; [constructor|].
    intros z. rewrite lcount_nil. symmetry. rewrite (zsum_ext _ _ (fun _ => 0)); [|reflexivity].
    clear. induction (seq 0 n) as [|a l IH]; [reflexivity|]. rewrite zsum_cons, IH. lia.
  - cbn [hand_out]. pose proof (E _ (cnt x) (or_introl eq_refl)) as E0. cbn [co_type] in E0.
    rewrite occ_cons in E0. cbn [co_type] in E0. rewrite Nat.eqb_refl in E0. specialize (E0 ltac:(lia)).
    destruct (ent x (cnt x)) as [e|] eqn:Ee; [|congruence].
    destruct (IH (bump_at x cnt)) as (l' & cnt' & H1 & H2 & H3 & H4).
    + intros c Hc. apply T. right. exact Hc.
    + intros c k Hc Hk. apply E; [right; exact Hc|]. rewrite occ_cons. cbn [co_type]. unfold bump_at in Hk.
      destruct (Nat.eqb x (co_type c)); lia.
    + rewrite H1. exists (mkComp x dx dy r e :: l'), cnt'. split; [reflexivity|]. split; [|split].
      * intros y. rewrite H2, occ_cons. cbn [co_type]. unfold bump_at. destruct (Nat.eqb x y); lia.
      * constructor.
        -- split; [repeat split|]. exists (cnt x). cbn [co_type co_nested]. split; [|exact Ee]. rewrite occ_cons. cbn [co_type]. rewrite Nat.eqb_refl. lia.
        -- revert H3. apply Forall2_weaken. intros c c' [Hs [k [Hk He]]]. split; [exact Hs|]. exists k. split; [|exact He].
           rewrite occ_cons. cbn [co_type]. unfold bump_at in Hk. destruct (Nat.eqb x (co_type c)); lia.
      * intros z. rewrite lcount_cons, H4.
        assert (Ex : unitc z x e = zsum (fun y => if Nat.eqb x y then unitc z y (entd ent y (cnt y)) else 0) (seq 0 n)).
        { rewrite (zsum_pick_seq (fun y => unitc z y (entd ent y (cnt y))) x n) by (apply (T _ (or_introl eq_refl))).
          unfold entd. rewrite Ee. reflexivity. }
        rewrite Ex, <- zsum_plus. apply zsum_ext. intros y _. rewrite occ_cons. cbn [co_type]. unfold bump_at.
        destruct (Nat.eqb x y); [|cbn [plus]; lia]. cbn [plus seq]. rewrite zsum_cons. reflexivity.
Qed.

Lemma hand_out_all_ok : forall ent n ls cnt,
  (forall c, In c (concat ls) -> (co_type c < n)%nat) ->
  (forall c k, In c (concat ls) -> (cnt (co_type c) <= k < cnt (co_type c) + occ (co_type c) (concat ls))%nat -> ent (co_type c) k <> None) ->
  exists ls' cnt', hand_out_all ent cnt ls = Some (ls', cnt')
    /\ (forall x, cnt' x = (cnt x + occ x (concat ls))%nat)
    /\ Forall2 (Forall2 (given ent (fun x => cnt x + occ x (concat ls))%nat)) ls ls'
    /\ forall z, zsum (lcount z) ls' = zsum (fun x => zsum (fun k => unitc z x (entd ent x k)) (seq (cnt x) (occ x (concat ls)))) (seq 0 n).
Proof.
  intros ent n ls. induction ls as [|l ls IH]; intros cnt T E.
  - exists [], cnt. split; [reflexivity|]. split; [intros x; cbn; lia|]. split; [constructor|].
    intros z. rewrite zsum_nil. symmetry. rewrite (zsum_ext _ _ (fun _ => 0)); [|reflexivity].
    clear. induction (seq 0 n) as [|a l IH]; [reflexivity|]. rewrite zsum_cons, IH. lia.
  - cbn [concat hand_out_all] in *.
    destruct (hand_out_ok ent n l cnt) as (l' & cnt1 & H1 & H2 & H3 & H4).
    + intros c Hc. apply T. apply in_or_app. left. exact Hc.
    + intros c k Hc Hk. apply E; [apply in_or_app; left; exact Hc|]. rewrite occ_app. lia.
    + rewrite H1. destruct (IH cnt1) as (ls' & cnt2 & G1 & G2 & G3 & G4).
      * intros c Hc. apply T. apply in_or_app. right. exact Hc.
      * intros c k Hc Hk. apply E; [apply in_or_app; right; exact Hc|]. rewrite occ_app. rewrite H2 in Hk. lia.
      * rewrite G1. exists (l' :: ls'), cnt2. split; [reflexivity|]. split; [|split].
        -- intros x. rewrite G2, H2, occ_app. lia.
        -- constructor.
           ++ revert H3. apply Forall2_weaken. intros c c' [Hs [k [Hk He]]]. split; [exact Hs|]. exists k. split; [|exact He]. rewrite occ_app. lia.
           ++ revert G3. apply Forall2_weaken. intros a b. apply Forall2_weaken. intros c c' [Hs [k [Hk He]]]. split; [exact Hs|]. exists k. split; [|exact He].
              rewrite occ_app. rewrite H2 in Hk. lia.
        -- intros z. rewrite zsum_cons, H4, G4, <- zsum_plus. apply zsum_ext. intros x _. rewrite H2, occ_app, seq_app, zsum_app. reflexivity.
Qed.

(** ** Boxes *)

Section Boxes.
Variable i : RInstance.

Record Box : Type := mkBox { bx0 : Z; by0 : Z; bx1 : Z; by1 : Z }.
Definition apart (a b : Box) : Prop := bx1 a <= bx0 b \/ bx1 b <= bx0 a \/ by1 a <= by0 b \/ by1 b <= by0 a.
Definition within (a b : Box) : Prop := bx0 b <= bx0 a /\ bx1 a <= bx1 b /\ by0 b <= by0 a /\ by1 a <= by1 b.

Record boxed (b : Box) (ps : list Place) : Prop := {
  bo_in : forall p, In p ps -> (pl_type p < length (rin_items i))%nat /\ within (mkBox (pl_x p) (pl_y p) (pl_xe i p) (pl_ye i p)) b
    /\ (pl_rot p = true -> ri_oriented (ritem i (pl_type p)) = false);
  bo_disjoint : ForallOrdPairs (disjoint i) ps
}.

Lemma within_trans : forall a b c, within a b -> within b c -> within a c.
Proof. unfold within. intros; lia. Qed.

Lemma boxed_wide : forall a b ps, boxed a ps -> within a b -> boxed b ps.
Proof.
  intros a b ps [A B] H. split; [|exact B]. intros p Hp. destruct (A p Hp) as (T & I & R). split; [exact T|]. split; [|exact R].
  eapply within_trans; eassumption.
Qed.

Lemma ord_pairs_app : forall (A : Type) (R : A -> A -> Prop) l l', ForallOrdPairs R l -> ForallOrdPairs R l' ->
  (forall a b, In a l -> In b l' -> R a b) -> ForallOrdPairs R (l ++ l').
Proof.
  intros A R l l' H H' X. induction H as [|a l Ha Hl IH]; [exact H'|]. cbn [app]. constructor.
  - apply Forall_app. split; [exact Ha|]. apply Forall_forall. intros b Hb. apply X; [left; reflexivity|exact Hb].
  - apply IH. intros b c Hb Hc. apply X; [right; exact Hb|exact Hc].
Qed.

Lemma apart_disjoint : forall a b p q, apart a b -> within (mkBox (pl_x p) (pl_y p) (pl_xe i p) (pl_ye i p)) a ->
  within (mkBox (pl_x q) (pl_y q) (pl_xe i q) (pl_ye i q)) b -> disjoint i p q.
Proof. intros a b p q. unfold apart, within, disjoint. cbn. lia. Qed.

Lemma boxed_nil : forall b, boxed b [].
Proof. intros b. split; [intros p []|constructor]. Qed.

Lemma boxed_app : forall a b c ps qs, boxed a ps -> boxed b qs -> apart a b -> within a c -> within b c -> boxed c (ps ++ qs).
Proof.
  intros a b c ps qs [A1 A2] [B1 B2] S Ha Hb. split.
  - intros p Hp. apply in_app_or in Hp. destruct Hp as [Hp|Hp].
    + destruct (A1 p Hp) as (T & I & R). split; [exact T|]. split; [|exact R]. eapply within_trans; eassumption.
    + destruct (B1 p Hp) as (T & I & R). split; [exact T|]. split; [|exact R]. eapply within_trans; eassumption.
  - apply ord_pairs_app; [exact A2|exact B2|]. intros p q Hp Hq. eapply apart_disjoint; [exact S| |].
    + apply (A1 p Hp).
    + apply (B1 q Hq).
Qed.

Lemma boxed_flat : forall (A : Type) (box : A -> Box) (f : A -> list Place) c l,
  (forall a, In a l -> boxed (box a) (f a) /\ within (box a) c) -> ForallOrdPairs (fun a b => apart (box a) (box b)) l -> boxed c (flat_map f l).
Proof.
  intros A box f c l H P. induction P as [|a l Ha Hl IH]; [apply boxed_nil|]. cbn [flat_map].
  assert (H' : forall b, In b l -> boxed (box b) (f b) /\ within (box b) c) by (intros b Hb; apply H; right; exact Hb).
  specialize (IH H'). destruct (H a (or_introl eq_refl)) as [Ba Wa]. destruct Ba as [A1 A2]. destruct IH as [B1 B2]. split.
  - intros p Hp. apply in_app_or in Hp. destruct Hp as [Hp|Hp]; [|apply B1; exact Hp].
    destruct (A1 p Hp) as (T & I & R). split; [exact T|]. split; [|exact R]. eapply within_trans; eassumption.
  - apply ord_pairs_app; [exact A2|exact B2|]. intros p q Hp Hq. apply in_flat_map in Hq. destruct Hq as (b & Hb & Hq).
    rewrite Forall_forall in Ha. eapply apart_disjoint; [apply (Ha b Hb)| |].
    + apply (A1 p Hp).
    + apply (H' b Hb). exact Hq.
Qed.

Lemma boxed_shift : forall b ps x y, boxed b ps -> boxed (mkBox (x + bx0 b) (y + by0 b) (x + bx1 b) (y + by1 b)) (map (shift x y) ps).
Proof.
  intros b ps x y [A B]. split.
  - intros p Hp. apply in_map_iff in Hp. destruct Hp as (q & <- & Hq). destruct (A q Hq) as (T & I & R).
    split; [exact T|]. split; [|exact R]. revert I. unfold within, shift, pl_xe, pl_ye, pl_w, pl_h. cbn. lia.
  - clear A. induction B as [|p l Hp Hl IH]; [constructor|]. cbn [map]. constructor; [|exact IH].
    apply Forall_forall. intros q Hq. apply in_map_iff in Hq. destruct Hq as (q0 & <- & Hq). rewrite Forall_forall in Hp. specialize (Hp q0 Hq).
    revert Hp. unfold disjoint, shift, pl_xe, pl_ye, pl_w, pl_h. cbn. lia.
Qed.

Lemma boxed_geometry : forall bt w h ps, w <= rb_x bt -> h <= rb_y bt -> rb_defects bt = [] -> boxed (mkBox 0 0 w h) ps -> geometry_ok i bt ps.
Proof.
  intros bt w h ps Hw Hh Hd [A B]. split; [|exact B|].
  - intros p Hp. destruct (A p Hp) as (T & I & R). unfold within in I. cbn in I. split; [exact T|lia|lia|exact R].
  - rewrite Hd. intros p d _ [].
Qed.

End Boxes.
