(** * Proofs about the formatter *)

From Coq Require Import List ZArith QArith Bool Lia Lqa.
From Verif Require Import Util Common_Model Common_Spec Common_Proof Formatter_Model Formatter_Spec.
Import ListNotations.
Open Scope Z_scope.

Lemma xle_refl : forall a, xle a a.
Proof. intros [q| |]; simpl; auto. apply Qle_refl. Qed.

Lemma xle_trans : forall a b c, xle a b -> xle b c -> xle a c.
Proof. intros [p| |] [q| |] [r| |]; simpl; try tauto. intros; lra. Qed.

Lemma xltb_true : forall a b, xltb a b = true -> xle a b /\ ~ xeq a b.
Proof.
  intros [p| |] [q| |]; simpl; try discriminate; try tauto.
  unfold Qltb. rewrite negb_true_iff. intro H. assert (~ (q <= p)%Q).
  { intro H1. apply Qle_bool_iff in H1. congruence. }
  split; [lra|]. intro. lra.
Qed.

Lemma xltb_false : forall a b, xltb a b = false -> xle b a.
Proof.
  intros [p| |] [q| |]; simpl; try discriminate; try tauto.
  unfold Qltb. rewrite negb_false_iff. intro H. apply Qle_bool_iff. assumption.
Qed.

Lemma qltb_true : forall a b, Qltb a b = true <-> (a < b)%Q.
Proof.
  intros a b. unfold Qltb. rewrite negb_true_iff. split.
  - intro H. apply Qnot_le_lt. intro H1. apply Qle_bool_iff in H1. congruence.
  - intro H. apply not_true_is_false. intro H1. apply Qle_bool_iff in H1. lra.
Qed.

Lemma qltb_false : forall a b, Qltb a b = false <-> (b <= a)%Q.
Proof.
  intros a b. unfold Qltb. rewrite negb_false_iff. apply Qle_bool_iff.
Qed.

Lemma interleaving_in : forall (A : Type) (threads : list (list A)) h, interleaving threads h ->
  forall x, In x h <-> exists l, In l threads /\ In x l.
Proof.
  intros A threads h H. induction H as [threads H|before x l after h H IH]; intro y.
  - split; [intros []|]. intros (l & Hl & Hy). rewrite (H l Hl) in Hy. destruct Hy.
  - simpl. rewrite IH. split.
    + intros [->|(l' & Hl & Hy)].
      * exists (y :: l). split; [apply in_elt|left; reflexivity].
      * apply in_app_or in Hl. destruct Hl as [Hl|[<-|Hl]].
        -- exists l'. split; [apply in_or_app; left|]; assumption.
        -- exists (x :: l). split; [apply in_elt|right; assumption].
        -- exists l'. split; [apply in_or_app; right; right|]; assumption.
    + intros (l' & Hl & Hy). apply in_app_or in Hl. destruct Hl as [Hl|[<-|Hl]].
      * right. exists l'. split; [apply in_or_app; left|]; assumption.
      * destruct Hy as [->|Hy]; [left; reflexivity|]. right. exists l. split; [apply in_elt|assumption].
      * right. exists l'. split; [apply in_or_app; right; right|]; assumption.
Qed.

Section Formatter.

Variable Sol : Type.
Variable lt : Sol -> Sol -> bool.
Variable copies : Sol -> list Z.
Variables feasible full : Sol -> bool.
Variables profit cost : Sol -> Q.
Variables bins x_max y_max : Sol -> Z.
Variable objective : Objective.
Variable instance_bins : Z.
Variable P : Sol -> Prop.
Hypothesis Hlt : PartialOrderOn P lt.

Notation is_opt := (is_proven_optimal Sol feasible full profit cost bins x_max y_max objective).
Notation step := (fstep Sol lt copies feasible full profit cost bins x_max y_max objective instance_bins).
Notation run := (frun Sol lt copies feasible full profit cost bins x_max y_max objective instance_bins).
Notation best st := (fo_best Sol (fs_out Sol st)).
Notation bounds st := (fo_bounds Sol (fs_out Sol st)).

(** A pool of size one. *)
Definition single (p : Pool Sol) (s : Sol) : Prop := p = mkPool Sol 1 [s] s s.

Lemma single_add : forall p b s, single p b -> P b -> P s ->
  pool_add Sol lt copies p s = if lt b s then (1, mkPool Sol 1 [s] s s) else (-1, p).
Proof.
  intros p b s -> Hb Hs. unfold pool_add. simpl.
  destruct (lt b s) eqn:E; simpl; [|reflexivity].
  unfold entry_cmp.
  destruct (lt s b) eqn:E2.
  - pose proof (po_trans _ _ Hlt b s b Hb Hs Hb E E2). rewrite (po_irrefl _ _ Hlt b Hb) in H. discriminate.
  - rewrite E. reflexivity.
Qed.

Definition call_ok (c : Call Sol) : Prop := match c with UpdSolution _ s => P s | _ => True end.

(** Invariant of the formatter. *)
Definition inv (st : FState Sol) : Prop := single (fo_pool Sol (fs_out Sol st)) (best st) /\ P (best st).

Lemma inv_new : forall empty, P empty -> inv (fs_new Sol feasible full profit cost bins x_max y_max objective empty).
Proof. intros e H. split; [reflexivity|assumption]. Qed.

Definition new_best (st : FState Sol) (c : Call Sol) : Sol :=
  match c with UpdSolution _ s => if lt (best st) s then s else best st | _ => best st end.

Lemma step_best : forall st c, inv st -> call_ok c -> inv (step st c) /\ best (step st c) = new_best st c.
Proof.
  intros st c [H1 H2] Hc.
  assert (same : forall st', fo_pool Sol (fs_out Sol st') = fo_pool Sol (fs_out Sol st) ->
    inv st' /\ best st' = best st).
  { intros st' E. unfold inv, fo_best. rewrite E. auto. }
  destruct c as [s| |q|n|q|x|y|]; simpl in *.
  - rewrite (single_add _ _ s H1 H2 Hc). destruct (lt (best st) s) eqn:E; simpl.
    + split; [split; [reflexivity|assumption]|reflexivity].
    + apply same. reflexivity.
  - destruct (bo_infeasible (bounds st)); apply same; reflexivity.
  - destruct (xltb q (bo_knapsack (bounds st))); apply same; reflexivity.
  - destruct (bo_bin_packing (bounds st) <? n); apply same; reflexivity.
  - destruct (Qltb (bo_variable (bounds st)) q); apply same; reflexivity.
  - destruct (bo_x (bounds st) <? x); apply same; reflexivity.
  - destruct (bo_y (bounds st) <? y); apply same; reflexivity.
  - exact (same (mkFS Sol (fs_out Sol st) true (fs_log Sol st)) eq_refl).
Qed.

(** The bounds after a call. *)
Definition new_bounds (b : Bounds) (c : Call Sol) : Bounds :=
  match c with
  | UpdSolution _ _ | MemoryStop _ => b
  | UpdInfeasible _ => mkBounds (bo_knapsack b) (bo_bin_packing b) (bo_variable b) (bo_x b) (bo_y b) true
  | UpdKnapsack _ q => if xltb q (bo_knapsack b) then
      mkBounds q (bo_bin_packing b) (bo_variable b) (bo_x b) (bo_y b) (bo_infeasible b) else b
  | UpdBinPacking _ n => if bo_bin_packing b <? n then
      mkBounds (bo_knapsack b) n (bo_variable b) (bo_x b) (bo_y b)
        (if instance_bins <? n then true else bo_infeasible b) else b
  | UpdVariable _ q => if Qltb (bo_variable b) q then
      mkBounds (bo_knapsack b) (bo_bin_packing b) q (bo_x b) (bo_y b) (bo_infeasible b) else b
  | UpdX _ x => if bo_x b <? x then
      mkBounds (bo_knapsack b) (bo_bin_packing b) (bo_variable b) x (bo_y b) (bo_infeasible b) else b
  | UpdY _ y => if bo_y b <? y then
      mkBounds (bo_knapsack b) (bo_bin_packing b) (bo_variable b) (bo_x b) y (bo_infeasible b) else b
  end.

Lemma step_bounds : forall st c, bounds (step st c) = new_bounds (bounds st) c.
Proof.
  intros st c. destruct c as [s| |q|n|q|x|y|]; simpl.
  - destruct (pool_add Sol lt copies (fo_pool Sol (fs_out Sol st)) s) as [r p].
    destruct (r =? 1); reflexivity.
  - destruct (bo_infeasible (bounds st)) eqn:E; [|reflexivity].
    destruct (bounds st) as [k b v x y i]; simpl in *. congruence.
  - destruct (xltb q (bo_knapsack (bounds st))); reflexivity.
  - destruct (bo_bin_packing (bounds st) <? n); reflexivity.
  - destruct (Qltb (bo_variable (bounds st)) q); reflexivity.
  - destruct (bo_x (bounds st) <? x); reflexivity.
  - destruct (bo_y (bounds st) <? y); reflexivity.
  - reflexivity.
Qed.

Lemma new_bounds_tighter : forall b c, tighter b (new_bounds b c).
Proof.
  intros b c.
  assert (R : tighter b b).
  { constructor; try lia; try apply xle_refl; try apply Qle_refl; auto. }
  destruct c as [s| |q|n|q|x|y|]; simpl; try exact R.
  - constructor; simpl; try lia; try apply xle_refl; try apply Qle_refl; auto.
  - destruct (xltb q (bo_knapsack b)) eqn:E; [|exact R]. apply xltb_true in E.
    constructor; simpl; try lia; try apply xle_refl; try apply Qle_refl; auto. apply E.
  - destruct (bo_bin_packing b <? n) eqn:E; [|exact R]. apply Z.ltb_lt in E.
    constructor; simpl; try lia; try apply xle_refl; try apply Qle_refl; auto.
    intro. destruct (instance_bins <? n); auto.
  - destruct (Qltb (bo_variable b) q) eqn:E; [|exact R]. apply qltb_true in E.
    constructor; simpl; try lia; try apply xle_refl; try apply Qle_refl; auto. lra.
  - destruct (bo_x b <? x) eqn:E; [|exact R]. apply Z.ltb_lt in E.
    constructor; simpl; try lia; try apply xle_refl; try apply Qle_refl; auto.
  - destruct (bo_y b <? y) eqn:E; [|exact R]. apply Z.ltb_lt in E.
    constructor; simpl; try lia; try apply xle_refl; try apply Qle_refl; auto.
Qed.

Lemma tighter_refl : forall b, tighter b b.
Proof. intro b. constructor; try lia; try apply xle_refl; try apply Qle_refl; auto. Qed.

Lemma tighter_trans : forall a b c, tighter a b -> tighter b c -> tighter a c.
Proof.
  intros a b c [H1 H2 H3 H4 H5 H6] [J1 J2 J3 J4 J5 J6].
  constructor; try lia; try lra; auto. apply (xle_trans _ _ _ J1 H1).
Qed.

Lemma step_end : forall st c, fs_end Sol st = true -> fs_end Sol (step st c) = true.
Proof.
  intros st c H. destruct c as [s| |q|n|q|x|y|]; simpl.
  - destruct (pool_add Sol lt copies (fo_pool Sol (fs_out Sol st)) s) as [r p].
    destruct (r =? 1); simpl; [destruct (is_opt _); auto|assumption].
  - destruct (bo_infeasible (bounds st)); [assumption|reflexivity].
  - destruct (xltb q (bo_knapsack (bounds st))); simpl; [destruct (is_opt _); auto|assumption].
  - destruct (bo_bin_packing (bounds st) <? n); simpl; [destruct (is_opt _); auto|assumption].
  - destruct (Qltb (bo_variable (bounds st)) q); simpl; [destruct (is_opt _); auto|assumption].
  - destruct (bo_x (bounds st) <? x); simpl; [destruct (is_opt _); auto|assumption].
  - destruct (bo_y (bounds st) <? y); simpl; [destruct (is_opt _); auto|assumption].
  - reflexivity.
Qed.

Lemma run_snoc : forall st h c, run st (h ++ [c]) = step (run st h) c.
Proof. intros. unfold frun. rewrite fold_left_app. reflexivity. Qed.

Lemma run_app : forall st h1 h2, run st (h1 ++ h2) = run (run st h1) h2.
Proof. intros. unfold frun. apply fold_left_app. Qed.

Lemma run_inv : forall st h, inv st -> (forall c, In c h -> call_ok c) -> inv (run st h).
Proof.
  intros st h. induction h as [|c h IH] using rev_ind; intros H Hc; [exact H|].
  rewrite run_snoc. apply step_best.
  - apply IH; [assumption|]. intros c' Hc'. apply Hc. apply in_or_app. left. assumption.
  - apply Hc. apply in_elt.
Qed.

(** The incumbent changes only for a strictly better one, bounds tighten, the
    end flag stays up. *)
Lemma run_monotone : forall st h, inv st -> (forall c, In c h -> call_ok c) ->
  (best (run st h) = best st \/ lt (best st) (best (run st h)) = true) /\
  tighter (bounds st) (bounds (run st h)) /\
  (fs_end Sol st = true -> fs_end Sol (run st h) = true).
Proof.
  intros st h. induction h as [|c h IH] using rev_ind; intros H Hc.
  { simpl. split; [left; reflexivity|]. split; [apply tighter_refl|auto]. }
  assert (Hh : forall c, In c h -> call_ok c).
  { intros c' Hc'. apply Hc. apply in_or_app. left. assumption. }
  assert (Hcc : call_ok c) by (apply Hc; apply in_elt).
  destruct (IH H Hh) as (I1 & I2 & I3). rewrite run_snoc.
  pose proof (run_inv st h H Hh) as HI.
  destruct (step_best _ c HI Hcc) as [HI' E].
  split; [|split].
  - rewrite E. unfold new_best. destruct c as [s| |q|n|q|x|y|]; try exact I1.
    destruct (lt (best (run st h)) s) eqn:L; [|exact I1].
    right. destruct I1 as [I1|I1]; [rewrite <- I1; assumption|].
    apply (po_trans _ _ Hlt _ (best (run st h)) _); [apply H|apply HI|exact Hcc|assumption|assumption].
  - rewrite step_bounds. apply (tighter_trans _ _ _ I2). apply new_bounds_tighter.
  - intro He. apply step_end. auto.
Qed.

(** The final incumbent. *)
Lemma run_final_best : forall empty h, P empty -> (forall c, In c h -> call_ok c) ->
  let b := best (run (fs_new Sol feasible full profit cost bins x_max y_max objective empty) h) in
  (b = empty \/ In (UpdSolution Sol b) h) /\
  (forall s, s = empty \/ In (UpdSolution Sol s) h -> lt b s = false).
Proof.
  intros empty h He. induction h as [|c h IH] using rev_ind; intros Hc; cbv zeta.
  { simpl. split; [left; reflexivity|]. intros s [->|[]]. apply (po_irrefl _ _ Hlt _ He). }
  assert (Hh : forall c, In c h -> call_ok c).
  { intros c' Hc'. apply Hc. apply in_or_app. left. assumption. }
  assert (Hcc : call_ok c) by (apply Hc; apply in_elt).
  destruct (IH Hh) as [I1 I2]. rewrite run_snoc.
  pose proof (run_inv _ h (inv_new _ He) Hh) as HI.
  destruct (step_best _ c HI Hcc) as [HI' E]. rewrite E. clear E IH.
  set (st := run _ h) in *.
  assert (PS : forall s, s = empty \/ In (UpdSolution Sol s) h -> P s).
  { intros s [->|Hs]; [assumption|apply (Hh _ Hs)]. }
  destruct c as [s| |q|n|q|x|y|]; simpl;
    try (split; [destruct I1 as [I1|I1]; [left; assumption|right; apply in_or_app; left; assumption]
                |intros s' [->|Hs']; [apply I2; left; reflexivity|];
                 apply in_app_or in Hs'; destruct Hs' as [Hs'|[Hs'|[]]]; [apply I2; right; assumption|discriminate]]).
  destruct (lt (best st) s) eqn:L.
  - split; [right; apply in_elt|]. intros s' Hs'.
    assert (Hcase : (s' = empty \/ In (UpdSolution Sol s') h) \/ s' = s).
    { destruct Hs' as [Hs'|Hs']; [left; left; assumption|].
      apply in_app_or in Hs'. destruct Hs' as [Hs'|[Hs'|[]]]; [left; right; assumption|right; congruence]. }
    destruct Hcase as [Hcase | ->]; [|apply (po_irrefl _ _ Hlt _ Hcc)].
    destruct (lt s s') eqn:L2; [|reflexivity].
    rewrite <- (I2 s' Hcase). symmetry.
    apply (po_trans _ _ Hlt _ s _); try assumption; [apply HI|apply PS; assumption].
  - split; [destruct I1 as [I1|I1]; [left; assumption|right; apply in_or_app; left; assumption]|].
    intros s' [->|Hs']; [apply I2; left; reflexivity|].
    apply in_app_or in Hs'. destruct Hs' as [Hs'|[Hs'|[]]]; [apply I2; right; assumption|].
    injection Hs' as ->. assumption.
Qed.

Lemma run_best_bounds : forall st h, bounds st = no_bounds ->
  best_bounds instance_bins h (bounds (run st h)).
Proof.
  intros st h H0. induction h as [|c h IH] using rev_ind.
  { simpl. rewrite H0. constructor; simpl; auto; try (intros ? []; fail); try tauto.
    split; [discriminate|]. intros [[]|(n & [] & _)]. }
  rewrite run_snoc, step_bounds. set (b := bounds (run st h)) in *.
  assert (Hold : forall c', In c' h -> In c' (h ++ [c])) by (intros; apply in_or_app; left; assumption).
  assert (Hin : forall c', In c' (h ++ [c]) -> In c' h \/ c' = c).
  { intros c' Hc'. apply in_app_or in Hc'. destruct Hc' as [|[|[]]]; auto. }
  destruct IH as [K1 K2 B1 B2 V1 V2 X1 X2 Y1 Y2 F].
  assert (K2' : bo_knapsack b = PInf \/ In (UpdKnapsack Sol (bo_knapsack b)) (h ++ [c])) by (destruct K2; auto).
  assert (B2' : bo_bin_packing b = 0 \/ In (UpdBinPacking Sol (bo_bin_packing b)) (h ++ [c])) by (destruct B2; auto).
  assert (V2' : bo_variable b = 0%Q \/ In (UpdVariable Sol (bo_variable b)) (h ++ [c])) by (destruct V2; auto).
  assert (X2' : bo_x b = 0 \/ In (UpdX Sol (bo_x b)) (h ++ [c])) by (destruct X2; auto).
  assert (Y2' : bo_y b = 0 \/ In (UpdY Sol (bo_y b)) (h ++ [c])) by (destruct Y2; auto).
  assert (Hnew : In c (h ++ [c])) by apply in_elt.
  assert (FF : (forall n, c <> UpdBinPacking Sol n) -> c <> UpdInfeasible Sol ->
     (bo_infeasible b = true <->
      In (UpdInfeasible Sol) (h ++ [c]) \/
      (exists n, In (UpdBinPacking Sol n) (h ++ [c]) /\ 0 < n /\ instance_bins < n))).
  { intros N1 N2. rewrite F. split.
    - intros [A|(n & A & B)]; [left; auto|right; exists n; auto].
    - intros [A|(n & A & B)].
      + left. destruct (Hin _ A); [assumption|congruence].
      + right. exists n. split; [|assumption]. destruct (Hin _ A) as [|E]; [assumption|]. destruct (N1 n). auto. }
  destruct c as [s| |q|n|q|x|y|]; simpl new_bounds.
  - constructor; auto; try (intros ? Hq; destruct (Hin _ Hq); [solve [auto]|congruence]).
    apply FF; congruence.
  - constructor; simpl; auto; try (intros ? Hq; destruct (Hin _ Hq); [solve [auto]|congruence]).
    split; auto.
  - destruct (xltb q (bo_knapsack b)) eqn:E.
    + apply xltb_true in E. destruct E as [E _].
      constructor; simpl; auto; try (intros ? Hq; destruct (Hin _ Hq); [solve [auto]|congruence]).
      * intros q' Hq. destruct (Hin _ Hq) as [Hq'|Hq'].
        -- apply (xle_trans _ _ _ E). auto.
        -- injection Hq' as ->. apply xle_refl.
      * apply FF; congruence.
    + apply xltb_false in E.
      constructor; simpl; auto; try (intros ? Hq; destruct (Hin _ Hq); [solve [auto]|congruence]).
      apply FF; congruence.
  - destruct (bo_bin_packing b <? n) eqn:E.
    + apply Z.ltb_lt in E.
      constructor; simpl; auto; try (intros ? Hq; destruct (Hin _ Hq); [solve [auto]|congruence]).
      * intros q' Hq. destruct (Hin _ Hq) as [Hq'|Hq'].
        -- specialize (B1 _ Hq'). lia.
        -- injection Hq' as ->. lia.
      * assert (Hb0 : 0 <= bo_bin_packing b).
        { unfold b. clear -H0. induction h as [|c h IH] using rev_ind; [simpl; rewrite H0; simpl; lia|].
          rewrite run_snoc, step_bounds.
          pose proof (ti_bin_packing _ _ (new_bounds_tighter (bounds (run st h)) c)). lia. }
        destruct (instance_bins <? n) eqn:E2.
        -- apply Z.ltb_lt in E2. split; [intros _|auto]. right. exists n. split; [assumption|lia].
        -- apply Z.ltb_ge in E2. rewrite F. split.
           ++ intros [A|(m & A & B)]; [left; auto|right; exists m; auto].
           ++ intros [A|(m & A & B)].
              ** left. destruct (Hin _ A); [assumption|congruence].
              ** right. exists m. split; [|assumption]. destruct (Hin _ A) as [|EE]; [assumption|].
                 injection EE as ->. lia.
    + apply Z.ltb_ge in E.
      constructor; simpl; auto; try (intros ? Hq; destruct (Hin _ Hq); [solve [auto]|congruence]).
      split.
        * rewrite F. intros [A|(m & A & B)]; [left; auto|right; exists m; auto].
        * intros [A|(m & A & B)].
           ++ apply F. left. destruct (Hin _ A); [assumption|congruence].
           ++ apply F. destruct (Hin _ A) as [A'|EE]; [right; exists m; auto|]. injection EE as ->.
              destruct B2 as [B2|B2]; [lia|]. right. exists (bo_bin_packing b). split; [assumption|lia].
  - destruct (Qltb (bo_variable b) q) eqn:E.
    + apply qltb_true in E.
      constructor; simpl; auto; try (intros ? Hq; destruct (Hin _ Hq); [solve [auto]|congruence]).
      * intros q' Hq. destruct (Hin _ Hq) as [Hq'|Hq'].
        -- specialize (V1 _ Hq'). lra.
        -- injection Hq' as ->. apply Qle_refl.
      * apply FF; congruence.
    + apply qltb_false in E.
      constructor; simpl; auto; try (intros ? Hq; destruct (Hin _ Hq); [solve [auto]|congruence]).
      apply FF; congruence.
  - destruct (bo_x b <? x) eqn:E.
    + apply Z.ltb_lt in E.
      constructor; simpl; auto; try (intros ? Hq; destruct (Hin _ Hq); [solve [auto]|congruence]).
      * intros q' Hq. destruct (Hin _ Hq) as [Hq'|Hq'].
        -- specialize (X1 _ Hq'). lia.
        -- injection Hq' as ->. lia.
      * apply FF; congruence.
    + apply Z.ltb_ge in E.
      constructor; simpl; auto; try (intros ? Hq; destruct (Hin _ Hq); [solve [auto]|congruence]).
      apply FF; congruence.
  - destruct (bo_y b <? y) eqn:E.
    + apply Z.ltb_lt in E.
      constructor; simpl; auto; try (intros ? Hq; destruct (Hin _ Hq); [solve [auto]|congruence]).
      * intros q' Hq. destruct (Hin _ Hq) as [Hq'|Hq'].
        -- specialize (Y1 _ Hq'). lia.
        -- injection Hq' as ->. lia.
      * apply FF; congruence.
    + apply Z.ltb_ge in E.
      constructor; simpl; auto; try (intros ? Hq; destruct (Hin _ Hq); [solve [auto]|congruence]).
      apply FF; congruence.
  - constructor; auto; try (intros ? Hq; destruct (Hin _ Hq); [solve [auto]|congruence]).
    apply FF; congruence.
Qed.

(** The outputs given to the callback. *)
Lemma step_log : forall st c, inv st -> call_ok c ->
  (fs_out Sol (step st c) = fs_out Sol st /\ fs_log Sol (step st c) = fs_log Sol st /\
   (c = MemoryStop Sol \/ fs_end Sol (step st c) = fs_end Sol st))
  \/ (fs_log Sol (step st c) = fs_out Sol (step st c) :: fs_log Sol st /\
      improves lt (fs_out Sol st) (fs_out Sol (step st c)) /\
      fs_end Sol (step st c) = (if is_opt (fs_out Sol (step st c)) then true else fs_end Sol st)).
Proof.
  intros st c [H1 H2] Hc.
  destruct c as [s| |q|n|q|x|y|]; simpl in *.
  - rewrite (single_add _ _ s H1 H2 Hc). destruct (lt (best st) s) eqn:E; simpl.
    + right. split; [reflexivity|]. split; [left; assumption|reflexivity].
    + left. split; [|auto]. destruct (fs_out Sol st). reflexivity.
  - destruct (bo_infeasible (bounds st)) eqn:E; [left; auto|]. right. split; [reflexivity|].
    split; [right; unfold some_strictly_tighter; simpl; tauto|reflexivity].
  - destruct (xltb q (bo_knapsack (bounds st))) eqn:E; [|left; auto]. right. split; [reflexivity|].
    split; [|reflexivity]. right. left. apply xltb_true. assumption.
  - destruct (bo_bin_packing (bounds st) <? n) eqn:E; [|left; auto]. right. split; [reflexivity|].
    split; [|reflexivity]. right. right. left. apply Z.ltb_lt. assumption.
  - destruct (Qltb (bo_variable (bounds st)) q) eqn:E; [|left; auto]. right. split; [reflexivity|].
    split; [|reflexivity]. right. right. right. left. apply qltb_true. assumption.
  - destruct (bo_x (bounds st) <? x) eqn:E; [|left; auto]. right. split; [reflexivity|].
    split; [|reflexivity]. do 4 right. left. apply Z.ltb_lt. assumption.
  - destruct (bo_y (bounds st) <? y) eqn:E; [|left; auto]. right. split; [reflexivity|].
    split; [|reflexivity]. do 5 right. left. apply Z.ltb_lt. assumption.
  - left. auto.
Qed.

Notation new := (fs_new Sol feasible full profit cost bins x_max y_max objective).

Lemma run_log : forall empty h, P empty -> (forall c, In c h -> call_ok c) ->
  let st := run (new empty) h in
  improving_log lt (out_new Sol empty) (fs_log Sol st) /\
  hd (out_new Sol empty) (fs_log Sol st) = fs_out Sol st.
Proof.
  intros empty h He. induction h as [|c h IH] using rev_ind; intros Hc; cbv zeta.
  { split; [exact I|reflexivity]. }
  assert (Hh : forall c, In c h -> call_ok c).
  { intros c' Hc'. apply Hc. apply in_or_app. left. assumption. }
  assert (Hcc : call_ok c) by (apply Hc; apply in_elt).
  destruct (IH Hh) as [I1 I2]. rewrite run_snoc.
  destruct (step_log _ c (run_inv _ h (inv_new _ He) Hh) Hcc) as [(E1 & E2 & _)|(E1 & E2 & _)].
  - rewrite E1, E2. auto.
  - rewrite E1. simpl. rewrite I2. auto.
Qed.

(** The end flag is up exactly when the output was proven optimal at some
    point. *)
Lemma run_end : forall empty h, P empty -> (forall c, In c h -> call_ok c) -> ~ In (MemoryStop Sol) h ->
  (fs_end Sol (run (new empty) h) = true <->
   exists h1 h2, h = h1 ++ h2 /\ is_opt (fs_out Sol (run (new empty) h1)) = true).
Proof.
  intros empty h He. induction h as [|c h IH] using rev_ind; intros Hc Hm.
  { simpl. split.
    - intro H. exists [], []. split; [reflexivity|assumption].
    - intros (h1 & h2 & E & H). symmetry in E. apply app_eq_nil in E. destruct E as [-> ->]. assumption. }
  assert (Hh : forall c, In c h -> call_ok c).
  { intros c' Hc'. apply Hc. apply in_or_app. left. assumption. }
  assert (Hcc : call_ok c) by (apply Hc; apply in_elt).
  assert (Hm' : ~ In (MemoryStop Sol) h) by (intro; apply Hm; apply in_or_app; left; assumption).
  assert (Hcm : c <> MemoryStop Sol) by (intros ->; apply Hm; apply in_elt).
  specialize (IH Hh Hm'). rewrite run_snoc.
  assert (Hpre : forall h1 h2, h ++ [c] = h1 ++ h2 -> h1 = h ++ [c] \/ exists h3, h = h1 ++ h3).
  { intros h1 h2 E. destruct (exists_last_or_nil _ h2) as [->|(h3 & z & ->)].
    - left. rewrite app_nil_r in E. auto.
    - right. exists h3. rewrite app_assoc in E. apply app_inj_tail in E. apply E. }
  destruct (step_log _ c (run_inv _ h (inv_new _ He) Hh) Hcc) as [(E1 & _ & [E2|E2])|(_ & _ & E2)].
  - congruence.
  - rewrite E2, IH. split.
    + intros (h1 & h2 & -> & H). exists h1, (h2 ++ [c]). split; [symmetry; apply app_assoc|assumption].
    + intros (h1 & h2 & E & H). destruct (Hpre _ _ E) as [-> |(h3 & ->)].
      * exists h, []. split; [rewrite app_nil_r; reflexivity|]. rewrite run_snoc, E1 in H. assumption.
      * exists h1, h3. auto.
  - rewrite E2. split.
    + destruct (is_opt _) eqn:O.
      * intros _. exists (h ++ [c]), []. split; [rewrite app_nil_r; reflexivity|]. rewrite run_snoc. assumption.
      * intro H. apply IH in H. destruct H as (h1 & h2 & -> & H).
        exists h1, (h2 ++ [c]). split; [symmetry; apply app_assoc|assumption].
    + intros (h1 & h2 & E & H). destruct (Hpre _ _ E) as [-> |(h3 & ->)].
      * rewrite run_snoc in H. rewrite H. reflexivity.
      * destruct (is_opt _); [reflexivity|]. apply IH. exists h1, h3. auto.
Qed.

(** ** Early stop *)

Section Stop.

Variable ok : Sol -> Prop.
Variable empty : Sol.
Variable h : list (Call Sol).
Hypothesis Hempty : P empty.
Hypothesis Hcalls : forall c, In c h -> call_ok c.
Hypothesis Hstop : ~ In (MemoryStop Sol) h.
Hypothesis Hok : forall s, ok s -> P s /\ feasible s = true.
Hypothesis Hvalid : valid_reports ok profit cost bins x_max y_max instance_bins h.
Hypothesis Hfeas : forall a b, lt a b = true -> feasible b = true.
Hypothesis Hvalue : forall a b, P a -> P b -> feasible a = true -> feasible b = true ->
  (lt a b = false -> as_good_as objective profit cost bins x_max y_max a b) /\
  (objective <> OFeasibility -> as_good_as objective profit cost bins x_max y_max a b -> lt a b = false).
Hypothesis Hnonneg : forall s, P s -> (0 <= profit s)%Q /\ (0 <= cost s)%Q /\ 0 <= bins s /\ 0 <= x_max s /\ 0 <= y_max s.
Hypothesis Hcost : objective = OVariableSizedBinPacking ->
  forall s, In (UpdSolution Sol s) h -> feasible s = true -> (tol < cost s)%Q.
Hypothesis Hstart : if match objective with OKnapsack => true | _ => false end
  then feasible empty = true else full empty = false.

Lemma best_feasible : forall h1, (forall c, In c h1 -> In c h) ->
  best (run (new empty) h1) = empty \/ feasible (best (run (new empty) h1)) = true.
Proof.
  intro h1. induction h1 as [|c h1 IH] using rev_ind; intros Hin; [left; reflexivity|].
  assert (Hin' : forall c, In c h1 -> In c h) by (intros; apply Hin; apply in_or_app; left; assumption).
  rewrite run_snoc.
  destruct (step_best (run (new empty) h1) c) as [_ E].
  - apply run_inv; [apply inv_new; assumption|auto].
  - apply Hcalls. apply Hin. apply in_elt.
  - rewrite E. destruct c as [s| |q|n|q|x|y|]; simpl; auto.
    destruct (lt (best (run (new empty) h1)) s) eqn:L; auto. right. apply (Hfeas _ _ L).
Qed.

Lemma valid_prefix : forall h1, (forall c, In c h1 -> In c h) ->
  valid_reports ok profit cost bins x_max y_max instance_bins h1.
Proof.
  intros h1 Hin. destruct Hvalid as [V1 V2 V3 V4 V5 V6 V7].
  constructor; eauto.
Qed.

Lemma sgp_mono : forall a b c, (0 <= a)%Q -> (a <= b)%Q -> (0 <= c)%Q ->
  strictly_greater_profit b c = false -> strictly_greater_profit a c = false.
Proof.
  intros a b c Ha Hab Hc H. apply not_true_is_false. intro H1. apply not_true_iff_false in H. apply H.
  apply sgp_iff; [lra|assumption|]. apply sgp_iff in H1; [|assumption..].
  pose proof tol_lt1. nra.
Qed.

(** At the moment the flag goes up. *)
Lemma opt_prefix : forall h1, (forall c, In c h1 -> In c h) ->
  is_opt (fs_out Sol (run (new empty) h1)) = true ->
  (forall s, ~ ok s) \/
  (feasible (best (run (new empty) h1)) = true /\
   forall s, ok s -> as_good_as objective profit cost bins x_max y_max (best (run (new empty) h1)) s).
Proof.
  intros h1 Hin Hopt.
  pose proof (valid_prefix h1 Hin) as [V1 V2 V3 V4 V5 V6 V7].
  pose proof (run_best_bounds (new empty) h1 eq_refl) as [K1 K2 B1 B2 X1 X2 O1 O2 Y1 Y2 F].
  pose proof (best_feasible h1 Hin) as Hbf.
  assert (Hinv : inv (run (new empty) h1)) by (apply run_inv; [apply inv_new; assumption|auto]).
  destruct (Hnonneg _ (proj2 Hinv)) as (Hp & Hc & _).
  assert (Hb0 : (0 <= bo_variable (bounds (run (new empty) h1)))%Q).
  { destruct (run_monotone (new empty) h1) as (_ & Ht & _); [apply inv_new; assumption|auto|].
    apply (ti_variable _ _ Ht). }
  pose proof (run_final_best empty h1 Hempty (fun c Hc => Hcalls c (Hin c Hc))) as [Hfb0 _].
  unfold is_proven_optimal in Hopt.
  set (st := run (new empty) h1) in *.
  destruct (bo_infeasible (bounds st)) eqn:Einf.
  { left. intros s Hs. destruct (proj1 F eq_refl) as [A|(n & A & _ & B)]; [apply (V7 s A Hs)|].
    specialize (V2 n s A Hs). specialize (V3 s Hs). lia. }
  assert (Hfull : full (best st) = true -> objective <> OKnapsack -> feasible (best st) = true).
  { intros Hf Ho. destruct Hbf as [Hbf|Hbf]; [|assumption]. rewrite Hbf in Hf.
    destruct objective; congruence. }
  destruct objective eqn:Eo; try discriminate; simpl.
  - (* BinPacking *)
    apply andb_prop in Hopt. destruct Hopt as [Hf Hb]. apply Z.eqb_eq in Hb. right.
    split; [apply Hfull; [assumption|discriminate]|]. intros s Hs. rewrite <- Hb.
    destruct B2 as [B2|B2]; [|apply V2; assumption].
    rewrite B2. apply (Hnonneg s). apply Hok. assumption.
  - (* OpenDimensionX *)
    apply andb_prop in Hopt. destruct Hopt as [Hf Hb]. apply Z.eqb_eq in Hb. right.
    split; [apply Hfull; [assumption|discriminate]|]. intros s Hs. rewrite <- Hb.
    destruct O2 as [O2|O2]; [|apply V5; assumption].
    rewrite O2. apply (Hnonneg s). apply Hok. assumption.
  - (* OpenDimensionY *)
    apply andb_prop in Hopt. destruct Hopt as [Hf Hb]. apply Z.eqb_eq in Hb. right.
    split; [apply Hfull; [assumption|discriminate]|]. intros s Hs. rewrite <- Hb.
    destruct Y2 as [Y2|Y2]; [|apply V6; assumption].
    rewrite Y2. apply (Hnonneg s). apply Hok. assumption.
  - (* Knapsack *)
    unfold equal_profit_x in Hopt. apply andb_prop in Hopt. destruct Hopt as [Hq _].
    apply negb_true_iff in Hq.
    destruct K2 as [K2|K2]; [rewrite K2 in Hq; discriminate|].
    destruct (bo_knapsack (bounds st)) as [q| |] eqn:Eq; [|discriminate|].
    + right. split; [destruct Hbf as [->|]; assumption|]. intros s Hs.
      simpl in Hq. specialize (V1 _ s K2 Hs). simpl in V1.
      apply (sgp_mono (profit s) q); try assumption. apply (Hnonneg s). apply Hok. assumption.
    + left. intros s Hs. apply (V1 _ s K2 Hs).
  - (* VariableSizedBinPacking *)
    apply andb_prop in Hopt. destruct Hopt as [Hf Hb]. right.
    assert (Hfb : feasible (best st) = true) by (apply Hfull; [assumption|discriminate]).
    split; [assumption|]. intros s Hs. unfold strictly_lesser_cost.
    unfold equal_cost in Hb. apply andb_prop in Hb. destruct Hb as [_ Hb]. apply negb_true_iff in Hb.
    assert (Hbs : (bo_variable (bounds st) <= cost s)%Q).
    { destruct X2 as [X2|X2]; [|apply V4; assumption]. rewrite X2. apply (Hnonneg s). apply Hok. assumption. }
    assert (Htol : (tol < cost (best st))%Q).
    { destruct Hfb0 as [E|E].
      - exfalso. rewrite E in Hf. congruence.
      - apply (Hcost eq_refl); [apply Hin; assumption|assumption]. }
    apply not_true_is_false. intro H1. apply not_true_iff_false in Hb. apply Hb.
    apply sgc_iff in H1; [|assumption|apply (Hnonneg s); apply Hok; assumption].
    apply sgc_iff; [assumption..|]. pose proof tol_pos.
    destruct (Qlt_le_dec 0 (bo_variable (bounds st))) as [L|L].
    + right. split; [assumption|]. destruct H1 as [[H1 _]|[_ H1]]; nra.
    + left. split; [lra|assumption].
  - (* Feasibility *)
    apply andb_prop in Hopt. destruct Hopt as [_ Hf]. right. split; [assumption|]. auto.
Qed.

Lemma stop_optimal : fs_end Sol (run (new empty) h) = true ->
  (forall s, ~ ok s) \/
  (feasible (best (run (new empty) h)) = true /\
   forall s, ok s -> as_good_as objective profit cost bins x_max y_max (best (run (new empty) h)) s).
Proof.
  intro Hend. apply (run_end empty h Hempty Hcalls Hstop) in Hend.
  destruct Hend as (h1 & h2 & E & Hopt).
  assert (Hin : forall c, In c h1 -> In c h) by (intros; rewrite E; apply in_or_app; left; assumption).
  destruct (opt_prefix h1 Hin Hopt) as [Hno|[Hf Hg]]; [left; assumption|]. right.
  assert (Hinv : inv (run (new empty) h1)) by (apply run_inv; [apply inv_new; assumption|auto]).
  assert (Hc2 : forall c, In c h2 -> call_ok c).
  { intros c Hc. apply Hcalls. rewrite E. apply in_or_app. right. assumption. }
  destruct (run_monotone (run (new empty) h1) h2 Hinv Hc2) as [Hmono _].
  assert (Hinv2 := run_inv _ h2 Hinv Hc2).
  rewrite <- run_app, <- E in *.
  destruct Hmono as [-> |Hlt12]; [auto|].
  assert (Hf2 := Hfeas _ _ Hlt12). split; [assumption|]. intros s Hs.
  destruct (Hok s Hs) as [Ps Fs].
  destruct (Hvalue (best (run (new empty) h)) s (proj2 Hinv2) Ps Hf2 Fs) as [G _].
  assert (Hdec : objective = OFeasibility \/ objective <> OFeasibility)
    by (destruct objective; (left; reflexivity) || (right; discriminate)).
  destruct Hdec as [Hdec|Hdec]; [rewrite Hdec; exact I|].
  apply G. destruct (lt (best (run (new empty) h)) s) eqn:L; [|reflexivity].
  destruct (Hvalue (best (run (new empty) h1)) s (proj2 Hinv) Ps Hf Fs) as [_ G1].
  rewrite <- (G1 Hdec (Hg s Hs)). symmetry.
  apply (po_trans _ _ Hlt _ (best (run (new empty) h)) _); try assumption; [apply Hinv|apply Hinv2].
Qed.

End Stop.

End Formatter.
