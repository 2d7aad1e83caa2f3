(** * The deterministic mode of [optimize] *)

From Coq Require Import List ZArith QArith Bool Lia Lqa Arith.
From Verif Require Import Util Common_Model Common_Spec Common_Proof Formatter_Model Formatter_Spec Formatter_Proof.
Import ListNotations.
Open Scope Z_scope.

Section Det.

Variable Sol : Type.
Variable lt : Sol -> Sol -> bool.
Variable copies : Sol -> list Z.
Variables feasible full : Sol -> bool.
Variables profit cost : Sol -> Q.
Variables bins x_max y_max : Sol -> Z.
Variable objective : Objective.
Variable instance_bins : Z.
Variables T Exc : Type.
Variable tstep : T -> bool -> Outcome Sol T Exc.

Notation run := (frun Sol lt copies feasible full profit cost bins x_max y_max objective instance_bins).
Notation parallel := (prun Sol lt copies feasible full profit cost bins x_max y_max objective instance_bins T Exc tstep).
Notation pst := (pstep Sol lt copies feasible full profit cost bins x_max y_max objective instance_bins T Exc tstep).
Notation concl := (conclude Sol lt copies feasible full profit cost bins x_max y_max objective instance_bins T Exc).
Notation fin := (finished Sol T Exc).
Notation task := (Task Sol T Exc).
Notation localev := (local_event Sol lt copies objective).
Notation replays := (replay Sol lt copies feasible full profit cost bins x_max y_max objective instance_bins T Exc).

(** One step of one task, alone. *)
Definition tk_step (flag : bool) (k : task) : task :=
  match tk_status Sol T Exc k with
  | Running _ _ t =>
      match tstep t flag with
      | Done _ _ _ => mkTask Sol T Exc (Returned T Exc) (tk_local Sol T Exc k)
      | Throw _ _ _ e => mkTask Sol T Exc (Threw T Exc e) (tk_local Sol T Exc k)
      | Step _ _ _ t' None => mkTask Sol T Exc (Running T Exc t') (tk_local Sol T Exc k)
      | Step _ _ _ t' (Some e) =>
          mkTask Sol T Exc (Running T Exc t') (localev (tk_local Sol T Exc k) e)
      end
  | _ => k
  end.

Lemma upd_same : forall (A : Type) (l : list A) k x, nth_error l k = Some x -> upd k (fun _ => x) l = l.
Proof.
  intros A l. induction l as [|a l IH]; intros [|k] x H; simpl in *; try discriminate.
  - injection H as ->. reflexivity.
  - rewrite IH; auto.
Qed.

Lemma upd_const : forall (A : Type) (l : list A) k x f, nth_error l k = Some x ->
  upd k (fun _ => f x) l = upd k f l.
Proof.
  intros A l. induction l as [|a l IH]; intros [|k] x f H; simpl in *; try discriminate.
  - injection H as ->. reflexivity.
  - rewrite (IH k x f H). reflexivity.
Qed.

Lemma upd_none : forall (A : Type) (l : list A) k f, nth_error l k = None -> upd k f l = l.
Proof.
  intros A l. induction l as [|a l IH]; intros [|k] f H; simpl in *; try discriminate; try reflexivity.
  rewrite IH; auto.
Qed.

Lemma nth_error_upd_eq : forall (A : Type) (l : list A) k x f, nth_error l k = Some x ->
  nth_error (upd k f l) k = Some (f x).
Proof.
  intros A l. induction l as [|a l IH]; intros [|k] x f H; simpl in *; try discriminate; auto.
  injection H as ->. reflexivity.
Qed.

Lemma nth_error_upd_neq : forall (A : Type) (l : list A) j k f, j <> k ->
  nth_error (upd j f l) k = nth_error l k.
Proof.
  intros A l. induction l as [|a l IH]; intros [|j] [|k] f H; simpl; try reflexivity; try congruence.
  apply IH. congruence.
Qed.

Lemma pstep_det : forall ps k, pst true ps k =
  mkPS Sol T Exc (ps_formatter Sol T Exc ps)
    (upd k (tk_step (fs_end Sol (ps_formatter Sol T Exc ps))) (ps_tasks Sol T Exc ps)).
Proof.
  intros [f ts] k. unfold pstep. simpl.
  destruct (nth_error ts k) as [x|] eqn:E; [|rewrite upd_none; auto].
  rewrite <- (upd_const _ _ _ _ (tk_step (fs_end Sol f)) E). unfold tk_step.
  destruct (tk_status Sol T Exc x) as [t| |e].
  - destruct (tstep t (fs_end Sol f)) as [|e|t' [e|]]; reflexivity.
  - rewrite upd_same; auto.
  - rewrite upd_same; auto.
Qed.

Fixpoint iter (n : nat) (flag : bool) (k : task) : task :=
  match n with O => k | S n' => iter n' flag (tk_step flag k) end.

Lemma iter_plus : forall n m flag k, iter (n + m) flag k = iter m flag (iter n flag k).
Proof. induction n as [|n IH]; intros; simpl; auto. Qed.

Lemma iter_snoc : forall n flag k, iter (S n) flag k = tk_step flag (iter n flag k).
Proof. intros. replace (S n) with (n + 1)%nat by lia. rewrite iter_plus. reflexivity. Qed.

Lemma prun_det : forall schedule ps,
  let ps' := parallel true ps schedule in
  ps_formatter Sol T Exc ps' = ps_formatter Sol T Exc ps /\
  length (ps_tasks Sol T Exc ps') = length (ps_tasks Sol T Exc ps) /\
  forall k x, nth_error (ps_tasks Sol T Exc ps) k = Some x ->
    nth_error (ps_tasks Sol T Exc ps') k =
    Some (iter (count_occ Nat.eq_dec schedule k) (fs_end Sol (ps_formatter Sol T Exc ps)) x).
Proof.
  induction schedule as [|j schedule IH]; intros ps; cbv zeta.
  - simpl. auto.
  - unfold prun. cbn [fold_left]. change (fold_left (pst true) schedule (pst true ps j))
      with (parallel true (pst true ps j) schedule).
    destruct (IH (pst true ps j)) as (I1 & I2 & I3). rewrite pstep_det in *. cbn [ps_formatter ps_tasks] in *.
    split; [assumption|]. split; [rewrite I2; apply upd_length|].
    intros k x H. destruct (Nat.eq_dec j k) as [->|Hne].
    + rewrite count_occ_cons_eq by reflexivity. cbn [iter]. apply I3. apply nth_error_upd_eq. assumption.
    + rewrite count_occ_cons_neq by assumption. apply I3. rewrite nth_error_upd_neq; auto.
Qed.

Definition stopped (k : task) : Prop :=
  match tk_status Sol T Exc k with Running _ _ _ => False | _ => True end.

Lemma iter_stopped : forall n flag k, stopped k -> iter n flag k = k.
Proof.
  induction n as [|n IH]; intros flag k H; simpl; [reflexivity|].
  assert (tk_step flag k = k) as ->.
  { unfold stopped, tk_step in *. destruct (tk_status Sol T Exc k); [destruct H|reflexivity|reflexivity]. }
  apply IH. assumption.
Qed.

Lemma iter_unique : forall n m flag k, stopped (iter n flag k) -> stopped (iter m flag k) ->
  iter n flag k = iter m flag k.
Proof.
  intros n m flag k Hn Hm. destruct (Nat.le_ge_cases n m) as [H|H].
  - replace m with (n + (m - n))%nat by lia. rewrite iter_plus.
    symmetry. apply iter_stopped. assumption.
  - replace n with (m + (n - m))%nat by lia. rewrite iter_plus. apply iter_stopped. assumption.
Qed.

Lemma fin_nth : forall ps k x, fin ps -> nth_error (ps_tasks Sol T Exc ps) k = Some x -> stopped x.
Proof. intros ps k x H E. apply (H x). apply nth_error_In with k. assumption. Qed.

Lemma nth_error_ext : forall (A : Type) (l1 l2 : list A), length l1 = length l2 ->
  (forall k x, nth_error l1 k = Some x -> nth_error l2 k = Some x) -> l1 = l2.
Proof.
  intros A l1. induction l1 as [|a l1 IH]; intros [|b l2] Hl H; simpl in Hl; try discriminate; auto.
  f_equal.
  - specialize (H 0%nat a eq_refl). simpl in H. congruence.
  - apply IH; [lia|]. intros k x Hk. apply (H (S k)). assumption.
Qed.

Lemma schedule_independent : forall ps schedule1 schedule2,
  fin (parallel true ps schedule1) -> fin (parallel true ps schedule2) ->
  parallel true ps schedule1 = parallel true ps schedule2.
Proof.
  intros ps s1 s2 F1 F2.
  destruct (prun_det s1 ps) as (A1 & A2 & A3). destruct (prun_det s2 ps) as (B1 & B2 & B3).
  set (p1 := parallel true ps s1) in *. set (p2 := parallel true ps s2) in *.
  assert (E : ps_tasks Sol T Exc p1 = ps_tasks Sol T Exc p2).
  { apply nth_error_ext; [congruence|]. intros k x Hk.
    destruct (nth_error (ps_tasks Sol T Exc ps) k) as [y|] eqn:Ey.
    - rewrite (A3 k y Ey) in Hk. rewrite (B3 k y Ey). rewrite <- Hk. f_equal. apply iter_unique.
      + apply (fin_nth p2 k); auto.
      + apply (fin_nth p1 k); auto.
    - apply nth_error_None in Ey. assert (nth_error (ps_tasks Sol T Exc p1) k <> None) by congruence.
      apply nth_error_Some in H. lia. }
  destruct p1 as [f1 t1], p2 as [f2 t2]. simpl in *. congruence.
Qed.

(** ** Nothing found by a task is lost *)

Variable P : Sol -> Prop.
Hypothesis Hlt : PartialOrderOn P lt.

Definition good (o : FOut Sol) : Prop := single Sol (fo_pool Sol o) (fo_best Sol o) /\ P (fo_best Sol o).

Lemma local_best : forall o e, good o -> P (event_solution e) ->
  good (localev o e) /\
  fo_best Sol (localev o e) =
    (if lt (fo_best Sol o) (event_solution e) then event_solution e else fo_best Sol o) /\
  fo_bounds Sol (localev o e) =
    match e with Found _ _ => fo_bounds Sol o | FoundWithBounds _ _ b => tighten objective (fo_bounds Sol o) b end.
Proof.
  intros o e [H1 H2] He. unfold good, fo_best.
  destruct e as [s|s b]; simpl in *; rewrite (single_add Sol lt copies P Hlt _ _ s H1 H2 He);
    destruct (lt (fo_best Sol o) s) eqn:E; unfold fo_best in E; rewrite E; simpl;
    (split; [split; [first [reflexivity|exact H1]|first [assumption|exact H2]]|split; reflexivity]).
Qed.

Lemma covers_refl : forall b, covers objective b b.
Proof.
  intro b. split; [auto|]. destruct objective; try lia; try exact I; try apply xle_refl; apply Qle_refl.
Qed.

Lemma covers_trans : forall a b c, covers objective a b -> covers objective b c -> covers objective a c.
Proof.
  intros a b c [H1 H2] [H3 H4]. split; [auto|].
  destruct objective; try lia; try exact I; try lra. eapply xle_trans; eassumption.
Qed.

Lemma tighten_covers : forall b b', covers objective (tighten objective b b') b /\
  covers objective (tighten objective b b') b'.
Proof.
  intros b b'. unfold covers, tighten. destruct objective; simpl;
    repeat match goal with |- context [if ?c then _ else _] => destruct c eqn:? end; simpl;
    repeat match goal with
    | H : xltb _ _ = true |- _ => apply xltb_true in H; destruct H
    | H : xltb _ _ = false |- _ => apply xltb_false in H
    | H : (_ <? _) = true |- _ => apply Z.ltb_lt in H
    | H : (_ <? _) = false |- _ => apply Z.ltb_ge in H
    | H : Qltb _ _ = true |- _ => apply qltb_true in H
    | H : Qltb _ _ = false |- _ => apply qltb_false in H
    end; repeat split; intros; try congruence; try lia; try lra; try exact I; try apply xle_refl; try assumption.
Qed.

Definition event_covered (o : FOut Sol) (e : Event Sol) : Prop :=
  lt (fo_best Sol o) (event_solution e) = false /\
  match e with Found _ _ => True | FoundWithBounds _ _ b => covers objective (fo_bounds Sol o) b end.

Lemma covered_later : forall o e e', good o -> P (event_solution e) -> P (event_solution e') ->
  event_covered o e -> event_covered (localev o e') e.
Proof.
  intros o e e' Hg He He' [H1 H2]. destruct (local_best o e' Hg He') as (G & B & D). split.
  - rewrite B. destruct (lt (fo_best Sol o) (event_solution e')) eqn:L; [|assumption].
    destruct (lt (event_solution e') (event_solution e)) eqn:L2; [|reflexivity].
    rewrite <- H1. symmetry. apply (po_trans _ _ Hlt _ (event_solution e')); try assumption. apply Hg.
  - destruct e as [s|s b]; [exact I|]. rewrite D. destruct e' as [s'|s' b']; [assumption|].
    apply (covers_trans _ (fo_bounds Sol o)); [apply tighten_covers|assumption].
Qed.

Lemma covered_now : forall o e, good o -> P (event_solution e) -> event_covered (localev o e) e.
Proof.
  intros o e Hg He. destruct (local_best o e Hg He) as (G & B & D). split.
  - rewrite B. destruct (lt (fo_best Sol o) (event_solution e)) eqn:L; [apply (po_irrefl _ _ Hlt); assumption|assumption].
  - destruct e as [s|s b]; [exact I|]. rewrite D. apply tighten_covers.
Qed.

Definition emits_ok (flag : bool) (k : task) : Prop :=
  match tk_status Sol T Exc k with
  | Running _ _ t => forall e, emits tstep flag t e -> P (event_solution e)
  | _ => True
  end.

Lemma tk_step_ok : forall flag k, good (tk_local Sol T Exc k) -> emits_ok flag k ->
  good (tk_local Sol T Exc (tk_step flag k)) /\ emits_ok flag (tk_step flag k) /\
  (forall e, P (event_solution e) -> event_covered (tk_local Sol T Exc k) e ->
     event_covered (tk_local Sol T Exc (tk_step flag k)) e).
Proof.
  intros flag k Hg He. unfold tk_step, emits_ok in *.
  destruct (tk_status Sol T Exc k) as [t| |x] eqn:Es; [|rewrite Es; auto|rewrite Es; auto].
  destruct (tstep t flag) as [|x|t' [e|]] eqn:Et; simpl; auto.
  - assert (Pe : P (event_solution e)) by (apply He; apply emits_now with t'; assumption).
    split; [apply local_best; assumption|]. split.
    + intros e' He'. apply He. apply emits_later with t' (Some e); assumption.
    + intros e' Pe' C. apply covered_later; assumption.
  - split; [assumption|]. split; [|auto].
    intros e' He'. apply He. apply emits_later with t' None; assumption.
Qed.

Lemma iter_covered : forall n flag k, good (tk_local Sol T Exc k) -> emits_ok flag k ->
  good (tk_local Sol T Exc (iter n flag k)) /\
  (forall e, P (event_solution e) -> event_covered (tk_local Sol T Exc k) e ->
     event_covered (tk_local Sol T Exc (iter n flag k)) e) /\
  (stopped (iter n flag k) -> forall t, tk_status Sol T Exc k = Running T Exc t ->
     forall e, emits tstep flag t e -> event_covered (tk_local Sol T Exc (iter n flag k)) e).
Proof.
  induction n as [|n IH]; intros flag k Hg He; simpl.
  - split; [assumption|]. split; [auto|]. intros Hs t Ht. unfold stopped in Hs. rewrite Ht in Hs. destruct Hs.
  - destruct (tk_step_ok flag k Hg He) as (G & E & C). destruct (IH flag _ G E) as (I1 & I2 & I3).
    split; [assumption|]. split; [auto|].
    intros Hs t Ht e Hem. unfold emits_ok in He. rewrite Ht in He. pose proof (He e Hem) as Pe.
    inversion Hem as [t0 t' e0 Hst|t0 t' o e0 Hst Hlater]; subst.
    + apply I2; [assumption|]. unfold tk_step. rewrite Ht, Hst. simpl. apply covered_now; assumption.
    + apply (I3 Hs t'); [|assumption]. unfold tk_step. rewrite Ht, Hst. destruct o; reflexivity.
Qed.

(** The local best comes from the task. *)
Lemma iter_best_in : forall n flag k t, tk_status Sol T Exc k = Running T Exc t ->
  good (tk_local Sol T Exc k) -> emits_ok flag k ->
  fo_best Sol (tk_local Sol T Exc (iter n flag k)) = fo_best Sol (tk_local Sol T Exc k) \/
  exists e, emits tstep flag t e /\ fo_best Sol (tk_local Sol T Exc (iter n flag k)) = event_solution e.
Proof.
  induction n as [|n IH]; intros flag k t Ht Hg He; simpl; [left; reflexivity|].
  destruct (tk_step_ok flag k Hg He) as (G & E & _).
  destruct (tstep t flag) as [|x|t' o] eqn:Et.
  - left. rewrite iter_stopped; unfold stopped, tk_step; rewrite Ht, Et; simpl; auto.
  - left. rewrite iter_stopped; unfold stopped, tk_step; rewrite Ht, Et; simpl; auto.
  - assert (Es : tk_status Sol T Exc (tk_step flag k) = Running T Exc t').
    { unfold tk_step. rewrite Ht, Et. destruct o; reflexivity. }
    destruct (IH flag _ t' Es G E) as [->|(e & H1 & H2)].
    + unfold tk_step. rewrite Ht, Et. destruct o as [e|]; simpl; [|left; reflexivity].
      assert (Pe : P (event_solution e)).
      { unfold emits_ok in He. rewrite Ht in He. apply He. apply emits_now with t'. assumption. }
      destruct (local_best _ e Hg Pe) as (_ & -> & _).
      destruct (lt (fo_best Sol (tk_local Sol T Exc k)) (event_solution e)); [|left; reflexivity].
      right. exists e. split; [apply emits_now with t'; assumption|reflexivity].
    + right. exists e. split; [apply emits_later with t' o; assumption|assumption].
Qed.

(** Exceptions. *)
Lemma iter_throws : forall n flag k t, tk_status Sol T Exc k = Running T Exc t -> stopped (iter n flag k) ->
  forall x, tk_status Sol T Exc (iter n flag k) = Threw T Exc x <-> throws tstep flag t x.
Proof.
  induction n as [|n IH]; intros flag k t Ht Hs x; simpl in *.
  - unfold stopped in Hs. rewrite Ht in Hs. destruct Hs.
  - destruct (tstep t flag) as [|y|t' o] eqn:Et.
    + assert (E : tk_step flag k = mkTask Sol T Exc (Returned T Exc) (tk_local Sol T Exc k)).
      { unfold tk_step. rewrite Ht, Et. reflexivity. }
      rewrite E, iter_stopped by exact I. simpl. split; [discriminate|].
      intro H. inversion H; congruence.
    + assert (E : tk_step flag k = mkTask Sol T Exc (Threw T Exc y) (tk_local Sol T Exc k)).
      { unfold tk_step. rewrite Ht, Et. reflexivity. }
      rewrite E, iter_stopped by exact I. simpl. split.
      * intro H. injection H as ->. apply throws_now. assumption.
      * intro H. inversion H; congruence.
    + assert (E : tk_status Sol T Exc (tk_step flag k) = Running T Exc t').
      { unfold tk_step. rewrite Ht, Et. destruct o; reflexivity. }
      rewrite (IH flag _ t' E Hs x). split.
      * intro H. apply throws_later with t' o; assumption.
      * intro H. inversion H as [t0 e0 H1|t0 t1 o1 e0 H1 H2]; subst; [congruence|].
        rewrite Et in H1. injection H1 as <- <-. assumption.
Qed.

Lemma rethrown_snoc : forall l x, rethrown Sol T Exc (l ++ [x]) =
  match tk_status Sol T Exc x with Threw _ _ e => Some e | _ => rethrown Sol T Exc l end.
Proof. intros. unfold rethrown. rewrite fold_left_app. reflexivity. Qed.

Lemma rethrown_some : forall l x, In x l -> (exists e, tk_status Sol T Exc x = Threw T Exc e) ->
  exists e, rethrown Sol T Exc l = Some e.
Proof.
  intros l. induction l as [|y l IH] using rev_ind; intros x Hx [e He]; [destruct Hx|].
  rewrite rethrown_snoc. apply in_app_or in Hx. destruct Hx as [Hx|[->|[]]].
  - destruct (tk_status Sol T Exc y); [apply (IH x Hx); eauto|apply (IH x Hx); eauto|eauto].
  - rewrite He. eauto.
Qed.

Lemma rethrown_in : forall l e, rethrown Sol T Exc l = Some e ->
  exists x, In x l /\ tk_status Sol T Exc x = Threw T Exc e.
Proof.
  intros l. induction l as [|y l IH] using rev_ind; intros e He; [discriminate|].
  rewrite rethrown_snoc in He. destruct (tk_status Sol T Exc y) as [t| |e'] eqn:Ey.
  - destruct (IH e He) as (x & H1 & H2). exists x. split; [apply in_or_app; left|]; assumption.
  - destruct (IH e He) as (x & H1 & H2). exists x. split; [apply in_or_app; left|]; assumption.
  - injection He as <-. exists y. split; [apply in_elt|assumption].
Qed.

(** The replay. *)
Definition replay_calls (tasks : list task) : list (Call Sol) :=
  flat_map (fun k => UpdSolution Sol (fo_best Sol (tk_local Sol T Exc k))
     :: update_bounds_calls Sol objective (fo_bounds Sol (tk_local Sol T Exc k))) tasks.

Lemma replay_run : forall tasks st, replays st tasks = run st (replay_calls tasks).
Proof.
  induction tasks as [|k tasks IH]; intro st; [reflexivity|].
  change (replays st (k :: tasks)) with
    (replays (run st (UpdSolution Sol (fo_best Sol (tk_local Sol T Exc k))
      :: update_bounds_calls Sol objective (fo_bounds Sol (tk_local Sol T Exc k)))) tasks).
  rewrite IH.
  unfold replay_calls. cbn [flat_map]. rewrite run_app. reflexivity.
Qed.

Lemma bounds_calls_cover : forall st b, inv Sol P st ->
  covers objective (fo_bounds Sol (fs_out Sol (run st (update_bounds_calls Sol objective b)))) b.
Proof.
  intros st b Hinv. unfold update_bounds_calls.
  assert (Hinf : forall st', (bo_infeasible b = true -> bo_infeasible (fo_bounds Sol (fs_out Sol st')) = true) ->
     covers objective (fo_bounds Sol (fs_out Sol (run st' (match objective with
     | OKnapsack => [UpdKnapsack Sol (bo_knapsack b)]
     | OBinPacking => [UpdBinPacking Sol (bo_bin_packing b)]
     | OVariableSizedBinPacking => [UpdVariable Sol (bo_variable b)]
     | OOpenDimensionX => [UpdX Sol (bo_x b)]
     | OOpenDimensionY => [UpdY Sol (bo_y b)]
     | _ => []
     end)))) b).
  { intros st' H. unfold covers.
    destruct objective; simpl; auto;
    repeat match goal with |- context [if ?c then _ else _] => destruct c eqn:? end; simpl;
    repeat match goal with
    | H : xltb _ _ = true |- _ => apply xltb_true in H; destruct H
    | H : xltb _ _ = false |- _ => apply xltb_false in H
    | H : (_ <? _) = true |- _ => apply Z.ltb_lt in H
    | H : (_ <? _) = false |- _ => apply Z.ltb_ge in H
    | H : Qltb _ _ = true |- _ => apply qltb_true in H
    | H : Qltb _ _ = false |- _ => apply qltb_false in H
    end; split; auto; try lia; try lra; try apply xle_refl; try apply Qle_refl. }
  rewrite run_app. apply Hinf. intro Hi. rewrite Hi. simpl.
  destruct (bo_infeasible (fo_bounds Sol (fs_out Sol st))) eqn:E; auto.
Qed.

Lemma tighter_covers : forall b b' c, tighter b b' -> covers objective b c -> covers objective b' c.
Proof.
  intros b b' c [H1 H2 H3 H4 H5 H6] [C1 C2]. split; [auto|].
  destruct objective; try lia; try lra; try exact I. apply (xle_trans _ _ _ H1 C2).
Qed.

Lemma update_bounds_calls_ok : forall b c, In c (update_bounds_calls Sol objective b) -> call_ok Sol P c.
Proof.
  intros b c H. unfold update_bounds_calls in H. apply in_app_or in H. destruct H as [H|H].
  - destruct (bo_infeasible b); [destruct H as [<-|[]]; exact I|destruct H].
  - destruct objective; simpl in H; try (destruct H as [<-|[]]; exact I); destruct H.
Qed.

Lemma replay_covers : forall tasks st, inv Sol P st ->
  (forall k, In k tasks -> good (tk_local Sol T Exc k)) ->
  inv Sol P (replays st tasks) /\
  lt (fo_best Sol (fs_out Sol (replays st tasks))) (fo_best Sol (fs_out Sol st)) = false /\
  (forall k, In k tasks ->
    lt (fo_best Sol (fs_out Sol (replays st tasks))) (fo_best Sol (tk_local Sol T Exc k)) = false /\
    covers objective (fo_bounds Sol (fs_out Sol (replays st tasks))) (fo_bounds Sol (tk_local Sol T Exc k))).
Proof.
  intros tasks st Hinv Hg.
  assert (Hcalls : forall l, (forall k, In k l -> In k tasks) -> forall c, In c (replay_calls l) -> call_ok Sol P c).
  { intros l Hl c Hc. unfold replay_calls in Hc. apply in_flat_map in Hc. destruct Hc as (k & Hk & Hc).
    destruct Hc as [<-|Hc]; [apply (Hg k (Hl k Hk))|apply update_bounds_calls_ok with (1 := Hc)]. }
  assert (Hfinal : inv Sol P (replays st tasks)).
  { rewrite replay_run. apply run_inv; [assumption..|]. apply Hcalls. auto. }
  split; [assumption|].
  split.
  - rewrite replay_run in *.
    destruct (run_monotone Sol lt copies feasible full profit cost bins x_max y_max objective instance_bins P Hlt
      st (replay_calls tasks) Hinv (Hcalls tasks (fun k H => H))) as [[E|L] _].
    + rewrite E. apply (po_irrefl _ _ Hlt). apply Hinv.
    + destruct (lt (fo_best Sol (fs_out Sol (run st (replay_calls tasks)))) (fo_best Sol (fs_out Sol st))) eqn:L2; [|reflexivity].
      rewrite <- (po_irrefl _ _ Hlt (fo_best Sol (fs_out Sol st)) (proj2 Hinv)). symmetry.
      apply (po_trans _ _ Hlt _ (fo_best Sol (fs_out Sol (run st (replay_calls tasks))))); try assumption; try apply Hinv; apply Hfinal.
  - intros k Hk. apply in_split in Hk. destruct Hk as (l1 & l2 & E).
    subst tasks.
    assert (Hk : In k (l1 ++ k :: l2)) by apply in_elt.
    rewrite replay_run in *.
    assert (Ec : replay_calls (l1 ++ k :: l2) = replay_calls l1
      ++ (UpdSolution Sol (fo_best Sol (tk_local Sol T Exc k))
       :: update_bounds_calls Sol objective (fo_bounds Sol (tk_local Sol T Exc k))) ++ replay_calls l2).
    { unfold replay_calls. rewrite flat_map_app. reflexivity. }
    rewrite Ec in *. rewrite run_app in *.
    assert (I1 : inv Sol P (run st (replay_calls l1))).
    { apply run_inv; [assumption..|]. apply Hcalls. intros x Hx. apply in_or_app. left. assumption. }
    set (st1 := run st (replay_calls l1)) in *.
    change ((UpdSolution Sol (fo_best Sol (tk_local Sol T Exc k))
       :: update_bounds_calls Sol objective (fo_bounds Sol (tk_local Sol T Exc k))) ++ replay_calls l2)
      with ([UpdSolution Sol (fo_best Sol (tk_local Sol T Exc k))]
       ++ (update_bounds_calls Sol objective (fo_bounds Sol (tk_local Sol T Exc k)) ++ replay_calls l2)) in *.
    rewrite run_app in *.
    assert (Pk : P (fo_best Sol (tk_local Sol T Exc k))) by (apply (Hg k Hk)).
    destruct (step_best Sol lt copies feasible full profit cost bins x_max y_max objective instance_bins P Hlt
       st1 (UpdSolution Sol (fo_best Sol (tk_local Sol T Exc k))) I1 Pk) as [I2 B2].
    change (fstep Sol lt copies feasible full profit cost bins x_max y_max objective instance_bins st1
       (UpdSolution Sol (fo_best Sol (tk_local Sol T Exc k))))
      with (run st1 [UpdSolution Sol (fo_best Sol (tk_local Sol T Exc k))]) in *.
    set (st2 := run st1 [UpdSolution Sol (fo_best Sol (tk_local Sol T Exc k))]) in *.
    assert (Hl2 : forall c, In c (replay_calls l2) -> call_ok Sol P c).
    { apply Hcalls. intros x Hx. apply in_or_app. right. right. assumption. }
    assert (Hrest : forall c, In c (update_bounds_calls Sol objective (fo_bounds Sol (tk_local Sol T Exc k)) ++ replay_calls l2) -> call_ok Sol P c).
    { intros c Hc. apply in_app_or in Hc. destruct Hc as [Hc|Hc]; [apply update_bounds_calls_ok with (1 := Hc)|auto]. }
    split.
    + assert (N2 : lt (fo_best Sol (fs_out Sol st2)) (fo_best Sol (tk_local Sol T Exc k)) = false).
      { rewrite B2. simpl. destruct (lt (fo_best Sol (fs_out Sol st1)) (fo_best Sol (tk_local Sol T Exc k))) eqn:L;
          [apply (po_irrefl _ _ Hlt); assumption|assumption]. }
      destruct (run_monotone Sol lt copies feasible full profit cost bins x_max y_max objective instance_bins P Hlt
        st2 _ I2 Hrest) as [[E3|L3] _]; [rewrite E3; assumption|].
      match goal with |- lt ?x ?y = false => destruct (lt x y) eqn:L4; [|reflexivity] end.
      rewrite <- N2. symmetry.
      eapply (po_trans _ _ Hlt); [apply I2|apply Hfinal|assumption|exact L3|exact L4].
    + rewrite run_app.
      assert (I3 : inv Sol P (run st2 (update_bounds_calls Sol objective (fo_bounds Sol (tk_local Sol T Exc k))))).
      { apply run_inv; [assumption..|]. intros c Hc. apply update_bounds_calls_ok with (1 := Hc). }
      apply (tighter_covers (fo_bounds Sol (fs_out Sol (run st2 (update_bounds_calls Sol objective (fo_bounds Sol (tk_local Sol T Exc k))))))).
      * apply (run_monotone Sol lt copies feasible full profit cost bins x_max y_max objective instance_bins P Hlt _ _ I3 Hl2).
      * apply bounds_calls_cover. assumption.
Qed.

End Det.
