(** * Guillotine patterns as trees of combinations *)

From Coq Require Import List ZArith QArith Bool Lia Lqa.
From Verif Require Import Util Common_Model Common_Proof Guil_Model Guil_Spec Hyper_Model Hyper_Spec HyperDp_Proof.
Import ListNotations.
Open Scope Z_scope.

(** A pattern: an item, or two patterns side by side or one above the other. *)
Inductive Pat : Type := PItem (j : nat) (rotate : bool) | PV (a b : Pat) | PH (a b : Pat).

Fixpoint pitems (P : Pat) : list nat :=
  match P with PItem j _ => [j] | PV a b | PH a b => pitems a ++ pitems b end.
Definition pvert (P : Pat) : bool := match P with PH _ _ => false | _ => true end.

Section Pat.
Variable i : GInstance.
Variable ct : Z.
Hypothesis Hct : 0 <= ct.
Hypothesis Hpos : forall it, In it (gin_items i) -> 1 <= gi_w it /\ 1 <= gi_h it.

Fixpoint pw (P : Pat) : Z :=
  match P with
  | PItem j rotate => if rotate then gi_h (gitem i j) else gi_w (gitem i j)
  | PV a b => pw a + pw b + ct
  | PH a b => Z.max (pw a) (pw b)
  end.
Fixpoint ph (P : Pat) : Z :=
  match P with
  | PItem j rotate => if rotate then gi_w (gitem i j) else gi_h (gitem i j)
  | PV a b => Z.max (ph a) (ph b)
  | PH a b => ph a + ph b + ct
  end.
Fixpoint pok (P : Pat) : Prop :=
  match P with
  | PItem j rotate => (j < length (gin_items i))%nat /\ (rotate = true -> gi_oriented (gitem i j) = false)
  | PV a b | PH a b => pok a /\ pok b
  end.
Definition pprofit (P : Pat) : Q := items_profit i (pitems P).

Lemma ppos : forall P, pok P -> 1 <= pw P /\ 1 <= ph P.
Proof.
  induction P as [j r|a IHa b IHb|a IHa b IHb]; cbn [pok pw ph].
  - intros [Hj _]. pose proof (Hpos (gitem i j) (nth_In _ _ Hj)). destruct r; lia.
  - intros [Ha Hb]. specialize (IHa Ha). specialize (IHb Hb). lia.
  - intros [Ha Hb]. specialize (IHa Ha). specialize (IHb Hb). lia.
Qed.

Lemma pitems_lt : forall P, pok P -> forall x, In x (pitems P) -> (x < length (gin_items i))%nat.
Proof.
  induction P as [j r|a IHa b IHb|a IHa b IHb]; cbn [pok pitems].
  - intros [Hj _] x [<-|[]]. exact Hj.
  - intros [Ha Hb] x Hx. apply in_app_or in Hx. destruct Hx; auto.
  - intros [Ha Hb] x Hx. apply in_app_or in Hx. destruct Hx; auto.
Qed.

Lemma pprofit_app : forall a b, (pprofit (PV a b) == pprofit a + pprofit b)%Q.
Proof. intros a b. unfold pprofit, items_profit. cbn [pitems]. apply qsum_app. Qed.
Lemma pprofit_app_h : forall a b, (pprofit (PH a b) == pprofit a + pprofit b)%Q.
Proof. intros a b. unfold pprofit, items_profit. cbn [pitems]. apply qsum_app. Qed.
Lemma pprofit_item : forall j r, (pprofit (PItem j r) == gi_profit (gitem i j))%Q.
Proof. intros j r. unfold pprofit, items_profit. cbn [pitems]. rewrite qsum_cons. unfold qsum. cbn [fold_right]. ring. Qed.

(** Every way to cut items out of a plate is a pattern that fits in it. *)
Lemma cuttable_pat : forall R L, cuttable ct R L -> forall xs, Forall2 (piece i) L xs ->
  xs = [] \/ exists P, pok P /\ pitems P = xs /\ pw P <= rr R - rl R /\ ph P <= rt R - rb R.
Proof.
  intros R L HC. induction HC as [R|R|l r b t x L1 L2 Hx1 Hx2 H1 IH1 H2 IH2|l r b t y L1 L2 Hy1 Hy2 H1 IH1 H2 IH2];
    intros xs HF.
  - inversion HF. left. reflexivity.
  - inversion HF as [|? x ? xs' HP HF' E1 E2]. subst. inversion HF'. subst. right.
    destruct HP as [Hx [[A B]|(O & A & B)]].
    + exists (PItem x false). cbn [pok pitems pw ph]. split; [split; [exact Hx|discriminate]|]. split; [reflexivity|lia].
    + exists (PItem x true). cbn [pok pitems pw ph]. split; [split; [exact Hx|auto]|]. split; [reflexivity|lia].
  - apply Forall2_app_inv_l in HF. destruct HF as (xs1 & xs2 & F1 & F2 & ->).
    cbn [rl rr rb rt] in *.
    destruct (IH1 _ F1) as [->|(P1 & A1 & A2 & A3 & A4)]; destruct (IH2 _ F2) as [->|(P2 & B1 & B2 & B3 & B4)].
    + left. reflexivity.
    + right. exists P2. split; [exact B1|]. split; [exact B2|]. lia.
    + right. exists P1. rewrite app_nil_r. split; [exact A1|]. split; [exact A2|]. lia.
    + right. exists (PV P1 P2). cbn [pok pitems pw ph]. rewrite A2, B2. split; [auto|]. split; [reflexivity|]. lia.
  - apply Forall2_app_inv_l in HF. destruct HF as (xs1 & xs2 & F1 & F2 & ->).
    cbn [rl rr rb rt] in *.
    destruct (IH1 _ F1) as [->|(P1 & A1 & A2 & A3 & A4)]; destruct (IH2 _ F2) as [->|(P2 & B1 & B2 & B3 & B4)].
    + left. reflexivity.
    + right. exists P2. split; [exact B1|]. split; [exact B2|]. lia.
    + right. exists P1. rewrite app_nil_r. split; [exact A1|]. split; [exact A2|]. lia.
    + right. exists (PH P1 P2). cbn [pok pitems pw ph]. rewrite A2, B2. split; [auto|]. split; [reflexivity|]. lia.
Qed.

Lemma plate_pat : forall w h xs, cut_from_plate i ct w h xs ->
  xs = [] \/ exists P, pok P /\ pitems P = xs /\ pw P <= w /\ ph P <= h.
Proof.
  intros w h xs (L & HC & HF). destruct (cuttable_pat _ _ HC _ HF) as [->|(P & A & B & C & D)]; [auto|right].
  exists P. cbn [rl rr rb rt] in *. split; [exact A|]. split; [exact B|]. lia.
Qed.

(** ** The numbers of copies as sorted lists *)
Fixpoint canon (s n : nat) (xs : list nat) : list (nat * Z) :=
  match n with
  | O => []
  | S n => (if 0 <? copies_of s xs then [(s, copies_of s xs)] else []) ++ canon (S s) n xs
  end.

Lemma canon_keys : forall n s xs p, In p (canon s n xs) -> (s <= fst p < s + n)%nat /\ snd p = copies_of (fst p) xs /\ 0 < snd p.
Proof.
  induction n as [|n IH]; intros s xs p Hp; [destruct Hp|]. cbn [canon] in Hp. apply in_app_or in Hp.
  destruct Hp as [Hp|Hp].
  - destruct (Z.ltb_spec 0 (copies_of s xs)) as [H|H]; [|destruct Hp]. destruct Hp as [<-|[]]. cbn [fst snd].
    split; [lia|]. split; [reflexivity|exact H].
  - specialize (IH _ _ _ Hp). destruct IH as (A & B & C). split; [lia|auto].
Qed.

Lemma copies_app : forall x xs ys, copies_of x (xs ++ ys) = copies_of x xs + copies_of x ys.
Proof. intros x xs ys. unfold copies_of. rewrite count_occ_app. lia. Qed.
Lemma copies_nonneg : forall x xs, 0 <= copies_of x xs.
Proof. intros. unfold copies_of. lia. Qed.

Lemma hmerge_nil_l : forall l, hmerge [] l = l.
Proof. destruct l; reflexivity. Qed.
Lemma hmerge_nil_r : forall l, hmerge l [] = l.
Proof. destruct l as [|[j n] l]; reflexivity. Qed.
Lemma hmerge_lt : forall j n r l, (forall p, In p l -> (j < fst p)%nat) -> hmerge ((j, n) :: r) l = (j, n) :: hmerge r l.
Proof.
  intros j n r [|[j2 n2] l] Hl.
  - rewrite !hmerge_nil_r. reflexivity.
  - assert (H : (j < j2)%nat) by (apply (Hl (j2, n2)); left; reflexivity).
    cbn [hmerge]. apply Nat.ltb_lt in H. rewrite H. reflexivity.
Qed.
Lemma hmerge_gt : forall j n r l, (forall p, In p l -> (j < fst p)%nat) -> hmerge l ((j, n) :: r) = (j, n) :: hmerge l r.
Proof.
  intros j n r [|[j2 n2] l] Hl.
  - rewrite !hmerge_nil_l. reflexivity.
  - assert (H : (j < j2)%nat) by (apply (Hl (j2, n2)); left; reflexivity).
    cbn [hmerge]. assert (H2 : Nat.ltb j2 j = false) by (apply Nat.ltb_ge; lia). apply Nat.ltb_lt in H.
    rewrite H2, H. reflexivity.
Qed.
Lemma hmerge_eq : forall j n m r l, hmerge ((j, n) :: r) ((j, m) :: l) = (j, n + m) :: hmerge r l.
Proof. intros. cbn [hmerge]. rewrite Nat.ltb_irrefl. reflexivity. Qed.

Lemma hmerge_canon : forall n s xs ys, hmerge (canon s n xs) (canon s n ys) = canon s n (xs ++ ys).
Proof.
  induction n as [|n IH]; intros s xs ys; [reflexivity|]. cbn [canon]. rewrite copies_app.
  pose proof (copies_nonneg s xs) as N1. pose proof (copies_nonneg s ys) as N2.
  assert (G : forall zs p, In p (canon (S s) n zs) -> (s < fst p)%nat).
  { intros zs p Hp. destruct (canon_keys _ _ _ _ Hp) as [A _]. lia. }
  destruct (Z.ltb_spec 0 (copies_of s xs)) as [H1|H1]; destruct (Z.ltb_spec 0 (copies_of s ys)) as [H2|H2];
    destruct (Z.ltb_spec 0 (copies_of s xs + copies_of s ys)) as [H3|H3]; try lia; cbn [app].
  - rewrite hmerge_eq, IH. reflexivity.
  - rewrite hmerge_lt by apply G. rewrite IH. f_equal. f_equal. lia.
  - rewrite hmerge_gt by apply G. rewrite IH. f_equal. f_equal. lia.
  - apply IH.
Qed.

Definition copies_ok (s n : nat) (xs : list nat) : Prop :=
  forall j, (s <= j < s + n)%nat -> 0 < copies_of j xs -> copies_of j xs <= gi_copies (gitem i j).

Lemma hvalid_nil_l : forall items j n r,
  hvalid items [] ((j, n) :: r) = (if n <=? gi_copies (nth j items gdummy_item) then hvalid items [] r else false).
Proof. reflexivity. Qed.
Lemma hvalid_nil_r : forall items j n r,
  hvalid items ((j, n) :: r) [] = (if n <=? gi_copies (nth j items gdummy_item) then hvalid items r [] else false).
Proof. reflexivity. Qed.
Lemma hvalid_lt : forall items j n r l, (forall p, In p l -> (j < fst p)%nat) ->
  hvalid items ((j, n) :: r) l = (if n <=? gi_copies (nth j items gdummy_item) then hvalid items r l else false).
Proof.
  intros items j n r [|[j2 n2] l] Hl; [reflexivity|].
  assert (H : (j < j2)%nat) by (apply (Hl (j2, n2)); left; reflexivity).
  cbn [hvalid]. apply Nat.ltb_lt in H. rewrite H. reflexivity.
Qed.
Lemma hvalid_gt : forall items j n r l, (forall p, In p l -> (j < fst p)%nat) ->
  hvalid items l ((j, n) :: r) = (if n <=? gi_copies (nth j items gdummy_item) then hvalid items l r else false).
Proof.
  intros items j n r [|[j2 n2] l] Hl; [reflexivity|].
  assert (H : (j < j2)%nat) by (apply (Hl (j2, n2)); left; reflexivity).
  cbn [hvalid]. assert (H2 : Nat.ltb j2 j = false) by (apply Nat.ltb_ge; lia). apply Nat.ltb_lt in H.
  rewrite H2, H. reflexivity.
Qed.
Lemma hvalid_eq : forall items j n m r l, hvalid items ((j, n) :: r) ((j, m) :: l)
  = (if n + m <=? gi_copies (nth j items gdummy_item) then hvalid items r l else false).
Proof. intros. cbn [hvalid]. rewrite Nat.ltb_irrefl. reflexivity. Qed.

Lemma hvalid_canon : forall n s xs ys,
  hvalid (gin_items i) (canon s n xs) (canon s n ys) = true <-> copies_ok s n (xs ++ ys).
Proof.
  induction n as [|n IH]; intros s xs ys.
  { split; [intros _ j Hj; lia|reflexivity]. }
  cbn [canon]. unfold copies_ok in *.
  pose proof (copies_nonneg s xs) as N1. pose proof (copies_nonneg s ys) as N2.
  assert (G : forall zs p, In p (canon (S s) n zs) -> (s < fst p)%nat).
  { intros zs p Hp. destruct (canon_keys _ _ _ _ Hp) as [A _]. lia. }
  assert (K : forall c : Z, c = copies_of s (xs ++ ys) -> 0 < c ->
    ((if c <=? gi_copies (nth s (gin_items i) gdummy_item)
      then hvalid (gin_items i) (canon (S s) n xs) (canon (S s) n ys) else false) = true
     <-> (forall j, (s <= j < s + S n)%nat -> 0 < copies_of j (xs ++ ys) -> copies_of j (xs ++ ys) <= gi_copies (gitem i j)))).
  { intros c Ec Hc. fold (gitem i s). destruct (Z.leb_spec c (gi_copies (gitem i s))) as [HL|HL].
    - rewrite IH. split; intros H j Hj; [|apply H; lia].
      destruct (Nat.eq_dec j s) as [->|]; [intros _; lia|apply H; lia].
    - split; [discriminate|]. intros H. specialize (H s ltac:(lia) ltac:(lia)). lia. }
  rewrite copies_app in K.
  destruct (Z.ltb_spec 0 (copies_of s xs)) as [H1|H1]; destruct (Z.ltb_spec 0 (copies_of s ys)) as [H2|H2]; cbn [app].
  - rewrite hvalid_eq. apply K; lia.
  - rewrite hvalid_lt by apply G. apply K; lia.
  - rewrite hvalid_gt by apply G. apply K; lia.
  - rewrite IH. split; intros H j Hj; [|apply H; lia].
    destruct (Nat.eq_dec j s) as [->|]; [rewrite copies_app; lia|apply H; lia].
Qed.

Definition nitems : nat := length (gin_items i).
Definition pcopies (P : Pat) : list (nat * Z) := canon 0 nitems (pitems P).

Lemma within_ok : forall xs, (forall x, In x xs -> (x < nitems)%nat) -> (within_copies i xs <-> copies_ok 0 nitems xs).
Proof.
  intros xs Hx. unfold within_copies, copies_ok. split; intros H.
  - intros j Hj Hc. apply H. apply (count_occ_In Nat.eq_dec). unfold copies_of in Hc. lia.
  - intros x Hin. apply H; [specialize (Hx x Hin); lia|]. apply (count_occ_In Nat.eq_dec) in Hin. unfold copies_of. lia.
Qed.

Lemma pcopies_item : forall j r, (j < nitems)%nat -> pcopies (PItem j r) = [(j, 1)].
Proof.
  intros j r Hj. unfold pcopies. cbn [pitems].
  assert (Z0 : forall n s, (forall k, (s <= k < s + n)%nat -> k <> j) -> canon s n [j] = []).
  { induction n as [|n IH]; intros s Hs; [reflexivity|]. cbn [canon]. rewrite IH by (intros k Hk; apply Hs; lia).
    unfold copies_of. cbn [count_occ]. destruct (Nat.eq_dec j s) as [->|]; [exfalso; apply (Hs s); lia|reflexivity]. }
  assert (G : forall n s, (s <= j < s + n)%nat -> canon s n [j] = [(j, 1)]).
  { induction n as [|n IH]; intros s Hs; [lia|]. cbn [canon].
    destruct (Nat.eq_dec s j) as [->|Hne].
    - rewrite Z0 by (intros k Hk; lia). unfold copies_of. cbn [count_occ].
      destruct (Nat.eq_dec j j); [reflexivity|contradiction].
    - rewrite IH by lia. unfold copies_of. cbn [count_occ]. destruct (Nat.eq_dec j s); [congruence|reflexivity]. }
  apply G. lia.
Qed.

Lemma within_app : forall xs ys, within_copies i (xs ++ ys) -> within_copies i xs /\ within_copies i ys.
Proof.
  intros xs ys H. split; intros x Hx; pose proof (H x) as Hc; rewrite in_app_iff in Hc; rewrite copies_app in Hc;
    pose proof (copies_nonneg x xs); pose proof (copies_nonneg x ys); [specialize (Hc (or_introl Hx))|specialize (Hc (or_intror Hx))]; lia.
Qed.
End Pat.

(** ** The tables without cut thickness *)
Section Flat.
Variable i : GInstance.
Variables W H : Z.
Hypothesis HW : 1 <= W.
Hypothesis HH : 1 <= H.
Hypothesis Hpos : forall it, In it (gin_items i) -> 1 <= gi_w it /\ 1 <= gi_h it.
Local Notation dp := (hdp (gin_items i) W H 0).
Local Notation D := (hget W dp).
Local Notation R := (hgetr W (hrdp dp W H 0)).

Lemma dp_nonneg : forall w h, 1 <= w <= W -> 1 <= h <= H -> (0 <= D w h)%Q.
Proof. intros w h Hw Hh. destruct (dp_facts (gin_items i) W H 0 ltac:(lia) w h Hw Hh) as [A _]. exact A. Qed.

Lemma dp_super_w : forall a b h, 1 <= a -> 1 <= b -> a + b <= W -> 1 <= h <= H -> (D a h + D b h <= D (a + b) h)%Q.
Proof.
  intros a b h Ha Hb Hab Hh.
  destruct (dp_facts (gin_items i) W H 0 ltac:(lia) (a + b) h ltac:(lia) Hh) as (_ & _ & A & _).
  destruct (Z.le_ge_cases a b) as [L|L].
  - specialize (A a Ha ltac:(lia)). replace (a + b - a - 0) with b in A by lia. exact A.
  - specialize (A b Hb ltac:(lia)). replace (a + b - b - 0) with a in A by lia. lra.
Qed.

Lemma dp_super_h : forall w a b, 1 <= a -> 1 <= b -> a + b <= H -> 1 <= w <= W -> (D w a + D w b <= D w (a + b))%Q.
Proof.
  intros w a b Ha Hb Hab Hw.
  destruct (dp_facts (gin_items i) W H 0 ltac:(lia) w (a + b) Hw ltac:(lia)) as (_ & _ & _ & A & _).
  destruct (Z.le_ge_cases a b) as [L|L].
  - specialize (A a Ha ltac:(lia)). replace (a + b - a - 0) with b in A by lia. exact A.
  - specialize (A b Hb ltac:(lia)). replace (a + b - b - 0) with a in A by lia. lra.
Qed.

Lemma dp_mono : forall w h w' h', 1 <= w -> w <= w' <= W -> 1 <= h -> h <= h' <= H -> (D w h <= D w' h')%Q.
Proof.
  intros w h w' h' Hw Hw' Hh Hh'. apply (Qle_trans _ (D w' h)).
  - destruct (Z.eq_dec w w') as [<-|Hne]; [apply Qle_refl|].
    pose proof (dp_super_w w (w' - w) h Hw ltac:(lia) ltac:(lia) ltac:(lia)) as A.
    pose proof (dp_nonneg (w' - w) h ltac:(lia) ltac:(lia)) as B.
    replace (w + (w' - w)) with w' in A by lia. lra.
  - destruct (Z.eq_dec h h') as [<-|Hne]; [apply Qle_refl|].
    pose proof (dp_super_h w' h (h' - h) Hh ltac:(lia) ltac:(lia) ltac:(lia)) as A.
    pose proof (dp_nonneg w' (h' - h) ltac:(lia) ltac:(lia)) as B.
    replace (h + (h' - h)) with h' in A by lia. lra.
Qed.

(** The table bounds every pattern of its cell, whatever the copies. *)
Lemma pat_dp : forall P, pok i P -> pw i 0 P <= W -> ph i 0 P <= H -> (pprofit i P <= D (pw i 0 P) (ph i 0 P))%Q.
Proof.
  induction P as [j r|a IHa b IHb|a IHa b IHb]; intros HP Hw Hh.
  - pose proof (ppos i 0 ltac:(lia) Hpos _ HP) as PP. rewrite pprofit_item. destruct HP as [Hj Hr]. cbn [pw ph] in *.
    destruct (dp_facts (gin_items i) W H 0 ltac:(lia) _ _ (conj (proj1 PP) Hw) (conj (proj2 PP) Hh)) as (_ & A & _).
    apply A; [apply nth_In; exact Hj|]. destruct r; [right; auto|left; auto].
  - destruct HP as [Ha Hb]. pose proof (ppos i 0 ltac:(lia) Hpos _ Ha). pose proof (ppos i 0 ltac:(lia) Hpos _ Hb).
    rewrite pprofit_app. cbn [pw ph] in *. specialize (IHa Ha ltac:(lia) ltac:(lia)). specialize (IHb Hb ltac:(lia) ltac:(lia)).
    replace (pw i 0 a + pw i 0 b + 0) with (pw i 0 a + pw i 0 b) by lia.
    pose proof (dp_super_w (pw i 0 a) (pw i 0 b) (Z.max (ph i 0 a) (ph i 0 b)) ltac:(lia) ltac:(lia) ltac:(lia) ltac:(lia)).
    pose proof (dp_mono (pw i 0 a) (ph i 0 a) (pw i 0 a) (Z.max (ph i 0 a) (ph i 0 b)) ltac:(lia) ltac:(lia) ltac:(lia) ltac:(lia)).
    pose proof (dp_mono (pw i 0 b) (ph i 0 b) (pw i 0 b) (Z.max (ph i 0 a) (ph i 0 b)) ltac:(lia) ltac:(lia) ltac:(lia) ltac:(lia)).
    lra.
  - destruct HP as [Ha Hb]. pose proof (ppos i 0 ltac:(lia) Hpos _ Ha). pose proof (ppos i 0 ltac:(lia) Hpos _ Hb).
    rewrite pprofit_app_h. cbn [pw ph] in *. specialize (IHa Ha ltac:(lia) ltac:(lia)). specialize (IHb Hb ltac:(lia) ltac:(lia)).
    replace (ph i 0 a + ph i 0 b + 0) with (ph i 0 a + ph i 0 b) by lia.
    pose proof (dp_super_h (Z.max (pw i 0 a) (pw i 0 b)) (ph i 0 a) (ph i 0 b) ltac:(lia) ltac:(lia) ltac:(lia) ltac:(lia)).
    pose proof (dp_mono (pw i 0 a) (ph i 0 a) (Z.max (pw i 0 a) (pw i 0 b)) (ph i 0 a) ltac:(lia) ltac:(lia) ltac:(lia) ltac:(lia)).
    pose proof (dp_mono (pw i 0 b) (ph i 0 b) (Z.max (pw i 0 a) (pw i 0 b)) (ph i 0 b) ltac:(lia) ltac:(lia) ltac:(lia) ltac:(lia)).
    lra.
Qed.

(** The second table is finite, decreases along a combination by at least the
    value of what is added, and completes the first one. *)
Lemma rdp_some : forall w h, 1 <= w <= W -> 1 <= h <= H -> exists r, R w h = Some r /\ (0 <= r)%Q.
Proof.
  assert (A : forall h, 1 <= h <= H -> exists r, R W h = Some r /\ (0 <= r)%Q).
  { intros h Hh. destruct (Z.eq_dec h H) as [->|Hne].
    - exists 0%Q. split; [apply rdp_corner; lia|lra].
    - destruct (rdp_facts W H 0 HW HH ltac:(lia) dp W h ltac:(lia) Hh) as (_ & B & _); [congruence|].
      specialize (B H ltac:(lia)). rewrite (rdp_corner W H 0 HW HH dp) in B. cbn [hadd_ext option_map] in B.
      pose proof (dp_nonneg W (H - h - 0) ltac:(lia) ltac:(lia)).
      destruct (R W h) as [r|]; cbn [ext_le] in B; [|contradiction]. exists r. split; [reflexivity|]. lra. }
  intros w h Hw Hh. destruct (Z.eq_dec w W) as [->|Hne]; [apply A; exact Hh|].
  destruct (A h Hh) as (r & E & Hr).
  destruct (rdp_facts W H 0 HW HH ltac:(lia) dp w h Hw Hh) as (B & _ & _); [congruence|].
  specialize (B W ltac:(lia)). rewrite E in B. cbn [hadd_ext option_map] in B.
  pose proof (dp_nonneg (W - w - 0) h ltac:(lia) ltac:(lia)).
  destruct (R w h) as [r'|]; cbn [ext_le] in B; [|contradiction]. exists r'. split; [reflexivity|]. lra.
Qed.

Definition Rv (w h : Z) : Q := match R w h with Some r => r | None => 0%Q end.
Lemma rdp_val : forall w h, 1 <= w <= W -> 1 <= h <= H -> R w h = Some (Rv w h) /\ (0 <= Rv w h)%Q.
Proof. intros w h Hw Hh. unfold Rv. destruct (rdp_some w h Hw Hh) as (r & E & Hr). rewrite E. auto. Qed.

Lemma Rv_step_w : forall w a h, 1 <= w -> 1 <= a -> w + a <= W -> 1 <= h <= H -> (Rv (w + a) h + D a h <= Rv w h)%Q.
Proof.
  intros w a h Hw Ha Hwa Hh.
  destruct (rdp_facts W H 0 HW HH ltac:(lia) dp w h ltac:(lia) Hh) as (B & _ & _); [intros E; inversion E; lia|].
  specialize (B (w + a) ltac:(lia)). destruct (rdp_val (w + a) h ltac:(lia) Hh) as [E1 _].
  destruct (rdp_val w h ltac:(lia) Hh) as [E2 _]. rewrite E1, E2 in B. cbn [hadd_ext option_map ext_le] in B.
  replace (w + a - w - 0) with a in B by lia. exact B.
Qed.
Lemma Rv_step_h : forall w h a, 1 <= h -> 1 <= a -> h + a <= H -> 1 <= w <= W -> (Rv w (h + a) + D w a <= Rv w h)%Q.
Proof.
  intros w h a Hh Ha Hha Hw.
  destruct (rdp_facts W H 0 HW HH ltac:(lia) dp w h ltac:(lia) ltac:(lia)) as (_ & B & _); [intros E; inversion E; lia|].
  specialize (B (h + a) ltac:(lia)). destruct (rdp_val w (h + a) Hw ltac:(lia)) as [E1 _].
  destruct (rdp_val w h Hw ltac:(lia)) as [E2 _]. rewrite E1, E2 in B. cbn [hadd_ext option_map ext_le] in B.
  replace (h + a - h - 0) with a in B by lia. exact B.
Qed.

Lemma Rv_anti : forall w h w' h', 1 <= w -> w <= w' <= W -> 1 <= h -> h <= h' <= H -> (Rv w' h' <= Rv w h)%Q.
Proof.
  intros w h w' h' Hw Hw' Hh Hh'. apply (Qle_trans _ (Rv w h')).
  - destruct (Z.eq_dec w w') as [<-|Hne]; [apply Qle_refl|].
    pose proof (Rv_step_w w (w' - w) h' Hw ltac:(lia) ltac:(lia) ltac:(lia)) as A.
    pose proof (dp_nonneg (w' - w) h' ltac:(lia) ltac:(lia)) as B.
    replace (w + (w' - w)) with w' in A by lia. lra.
  - destruct (Z.eq_dec h h') as [<-|Hne]; [apply Qle_refl|].
    pose proof (Rv_step_h w h (h' - h) Hh ltac:(lia) ltac:(lia) ltac:(lia)) as A.
    pose proof (dp_nonneg w (h' - h) ltac:(lia) ltac:(lia)) as B.
    replace (h + (h' - h)) with h' in A by lia. lra.
Qed.

Lemma Rv_top : forall n w h, 1 <= w <= W -> 1 <= h <= H -> (Z.to_nat ((W - w) + (H - h)) <= n)%nat ->
  (D w h + Rv w h <= D W H)%Q.
Proof.
  induction n as [|n IH]; intros w h Hw Hh Hn.
  - assert (w = W /\ h = H) as [-> ->] by lia. unfold Rv. rewrite (rdp_corner W H 0 HW HH dp). lra.
  - assert (A : (w, h) = (W, H) \/ (w, h) <> (W, H)).
    { destruct (Z.eq_dec w W), (Z.eq_dec h H); [left; congruence|right; congruence..]. }
    destruct A as [A|A]; [inversion A; subst; unfold Rv; rewrite (rdp_corner W H 0 HW HH dp); lra|].
    destruct (rdp_facts W H 0 HW HH ltac:(lia) dp w h Hw Hh A) as (_ & _ & B).
    destruct (rdp_val w h Hw Hh) as [E _]. rewrite E in B. destruct B as [B|[(t & Ht & B)|(t & Ht & B)]]; [discriminate| |].
    + destruct (rdp_val t h ltac:(lia) Hh) as [Et _]. rewrite Et in B. cbn [hadd_ext option_map] in B.
      injection B as B. specialize (IH t h ltac:(lia) Hh ltac:(lia)).
      pose proof (dp_super_w w (t - w - 0) h ltac:(lia) ltac:(lia) ltac:(lia) Hh) as S1.
      replace (w + (t - w - 0)) with t in S1 by lia. rewrite B. lra.
    + destruct (rdp_val w t Hw ltac:(lia)) as [Et _]. rewrite Et in B. cbn [hadd_ext option_map] in B.
      injection B as B. specialize (IH w t Hw ltac:(lia) ltac:(lia)).
      pose proof (dp_super_h w h (t - h - 0) ltac:(lia) ltac:(lia) ltac:(lia) Hw) as S1.
      replace (h + (t - h - 0)) with t in S1 by lia. rewrite B. lra.
Qed.

(** The priority of a pattern: its profit and the value of the rest of the
    plate.  It decreases when patterns are combined and stays below the bound. *)
Definition pprio (P : Pat) : Q := (pprofit i P + Rv (pw i 0 P) (ph i 0 P))%Q.

Lemma pprio_top : forall P, pok i P -> pw i 0 P <= W -> ph i 0 P <= H -> (pprio P <= D W H)%Q.
Proof.
  intros P HP Hw Hh. pose proof (ppos i 0 ltac:(lia) Hpos P HP). pose proof (pat_dp P HP Hw Hh).
  pose proof (Rv_top _ (pw i 0 P) (ph i 0 P) ltac:(lia) ltac:(lia) (le_n _)). unfold pprio. lra.
Qed.

Lemma pprio_profit : forall P, pok i P -> pw i 0 P <= W -> ph i 0 P <= H -> (pprofit i P <= pprio P)%Q.
Proof.
  intros P HP Hw Hh. pose proof (ppos i 0 ltac:(lia) Hpos P HP).
  destruct (rdp_val (pw i 0 P) (ph i 0 P) ltac:(lia) ltac:(lia)) as [_ A]. unfold pprio. lra.
Qed.

Lemma pprio_v : forall a b, pok i a -> pok i b -> pw i 0 (PV a b) <= W -> ph i 0 (PV a b) <= H ->
  (pprio (PV a b) <= pprio a)%Q /\ (pprio (PV a b) <= pprio b)%Q.
Proof.
  assert (G : forall a b hh, pok i a -> pok i b -> pw i 0 a + pw i 0 b <= W -> ph i 0 a <= hh -> ph i 0 b <= hh -> hh <= H ->
    (pprofit i a + pprofit i b + Rv (pw i 0 a + pw i 0 b) hh <= pprio a)%Q).
  { intros a b hh Ha Hb Hw H1 H2 H3. pose proof (ppos i 0 ltac:(lia) Hpos _ Ha). pose proof (ppos i 0 ltac:(lia) Hpos _ Hb).
    pose proof (pat_dp b Hb ltac:(lia) ltac:(lia)).
    pose proof (dp_mono (pw i 0 b) (ph i 0 b) (pw i 0 b) hh ltac:(lia) ltac:(lia) ltac:(lia) ltac:(lia)).
    pose proof (Rv_step_w (pw i 0 a) (pw i 0 b) hh ltac:(lia) ltac:(lia) ltac:(lia) ltac:(lia)).
    pose proof (Rv_anti (pw i 0 a) (ph i 0 a) (pw i 0 a) hh ltac:(lia) ltac:(lia) ltac:(lia) ltac:(lia)).
    unfold pprio. lra. }
  intros a b Ha Hb Hw Hh. unfold pprio at 1 3. rewrite pprofit_app. cbn [pw ph] in *.
  replace (pw i 0 a + pw i 0 b + 0) with (pw i 0 a + pw i 0 b) in * by lia.
  pose proof (G a b _ Ha Hb Hw (Z.le_max_l _ _) (Z.le_max_r _ _) Hh) as G1.
  pose proof (G b a (Z.max (ph i 0 a) (ph i 0 b)) Hb Ha ltac:(lia) (Z.le_max_r _ _) (Z.le_max_l _ _) Hh) as G2.
  replace (pw i 0 b + pw i 0 a) with (pw i 0 a + pw i 0 b) in G2 by lia. split; lra.
Qed.

Lemma pprio_h : forall a b, pok i a -> pok i b -> pw i 0 (PH a b) <= W -> ph i 0 (PH a b) <= H ->
  (pprio (PH a b) <= pprio a)%Q /\ (pprio (PH a b) <= pprio b)%Q.
Proof.
  assert (G : forall a b ww, pok i a -> pok i b -> ph i 0 a + ph i 0 b <= H -> pw i 0 a <= ww -> pw i 0 b <= ww -> ww <= W ->
    (pprofit i a + pprofit i b + Rv ww (ph i 0 a + ph i 0 b) <= pprio a)%Q).
  { intros a b ww Ha Hb Hw H1 H2 H3. pose proof (ppos i 0 ltac:(lia) Hpos _ Ha). pose proof (ppos i 0 ltac:(lia) Hpos _ Hb).
    pose proof (pat_dp b Hb ltac:(lia) ltac:(lia)).
    pose proof (dp_mono (pw i 0 b) (ph i 0 b) ww (ph i 0 b) ltac:(lia) ltac:(lia) ltac:(lia) ltac:(lia)).
    pose proof (Rv_step_h ww (ph i 0 a) (ph i 0 b) ltac:(lia) ltac:(lia) ltac:(lia) ltac:(lia)).
    pose proof (Rv_anti (pw i 0 a) (ph i 0 a) ww (ph i 0 a) ltac:(lia) ltac:(lia) ltac:(lia) ltac:(lia)).
    unfold pprio. lra. }
  intros a b Ha Hb Hw Hh. unfold pprio at 1 3. rewrite pprofit_app_h. cbn [pw ph] in *.
  replace (ph i 0 a + ph i 0 b + 0) with (ph i 0 a + ph i 0 b) in * by lia.
  pose proof (G a b _ Ha Hb Hh (Z.le_max_l _ _) (Z.le_max_r _ _) Hw) as G1.
  pose proof (G b a (Z.max (pw i 0 a) (pw i 0 b)) Hb Ha ltac:(lia) (Z.le_max_r _ _) (Z.le_max_l _ _) Hw) as G2.
  replace (ph i 0 b + ph i 0 a) with (ph i 0 a + ph i 0 b) in G2 by lia. split; lra.
Qed.
End Flat.
