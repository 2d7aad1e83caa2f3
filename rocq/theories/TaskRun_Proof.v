(** * Proofs about the task runner *)

From Coq Require Import List Bool Arith Lia.
From Verif Require Import Util Formatter_Spec TaskRun_Model TaskRun_Spec.
Import ListNotations.

Lemma nth_error_upd_same : forall (A : Type) n (f : A -> A) l x, nth_error l n = Some x -> nth_error (upd n f l) n = Some (f x).
Proof. intros A n. induction n as [|n IH]; intros f [|y l] x H; cbn in *; try discriminate; [congruence|]. apply IH; exact H. Qed.
Lemma nth_error_upd_other : forall (A : Type) n m (f : A -> A) l, n <> m -> nth_error (upd n f l) m = nth_error l m.
Proof.
  intros A n. induction n as [|n IH]; intros m f [|y l] H; destruct m as [|m]; cbn; try reflexivity; try contradiction.
  apply IH. congruence.
Qed.

Lemma NoDup_app_snoc : forall (A : Type) (l : list A) x, NoDup l -> ~ In x l -> NoDup (l ++ [x]).
Proof.
  intros A l x H N. induction H as [|y l Hy H IH]; cbn; [constructor; [intros []|constructor]|]. constructor.
  - intro C. apply in_app_iff in C. destruct C as [C|[C|[]]]; [contradiction|]. apply N. left. symmetry. exact C.
  - apply IH. intro C. apply N. right. exact C.
Qed.

Section Proofs.
Variables T R Out X : Type.
Variable op : T -> TaskOp T R X.
Variable body : R -> list (Out -> Out).
Variable throws : R -> Out -> option X.
Variable proven : R -> Out -> bool.
Variables parallel memory_limit : bool.

Notation RS := (RState T R Out X).
Notation TS := (TaskState T R Out X).
Notation step := (step op body throws proven parallel memory_limit).
Notation execute := (execute op body throws proven parallel memory_limit).
Notation task_step := (task_step op body throws proven).
Notation main_step := (main_step parallel memory_limit).

Lemma acquired_app : forall ev1 ev2 : list (Event R), acquired (ev1 ++ ev2) = acquired ev1 ++ acquired ev2.
Proof. induction ev1 as [|e l IH]; intro ev2; [reflexivity|]. destruct e; cbn; rewrite ?IH; reflexivity. Qed.
Lemma started_app : forall ev1 ev2 : list (Event R), started (ev1 ++ ev2) = started ev1 ++ started ev2.
Proof. induction ev1 as [|e l IH]; intro ev2; [reflexivity|]. destruct e; cbn; rewrite ?IH; reflexivity. Qed.
Lemma ended_app : forall ev1 ev2 : list (Event R), ended (ev1 ++ ev2) = ended ev1 ++ ended ev2.
Proof. induction ev1 as [|e l IH]; intro ev2; [reflexivity|]. destruct e; cbn; rewrite ?IH; reflexivity. Qed.

(** Induction on executions from the last step. *)
Lemma execute_ind : forall (s0 : RS) (P : RS -> list (Event R) -> list Actor -> Prop), P s0 [] [] ->
  (forall s ev l a s' ev', P s ev l -> step s a = Some (s', ev') -> P s' (ev ++ ev') (l ++ [a])) ->
  forall l s ev, execute s0 l = Some (s, ev) -> P s ev l.
Proof.
  intros s0 P H0 Hs. assert (G : forall l s1 ev1 l1, P s1 ev1 l1 -> forall s ev, execute s1 l = Some (s, ev) -> P s (ev1 ++ ev) (l1 ++ l)).
  { induction l as [|a l IH]; intros s1 ev1 l1 H1 s ev H; cbn in H.
    - injection H as <- <-. rewrite !app_nil_r. exact H1.
    - destruct (step s1 a) as [[s2 ev2]|] eqn:E; [|discriminate]. destruct (execute s2 l) as [[s3 ev3]|] eqn:F; [|discriminate].
      injection H as <- <-. rewrite app_assoc. change (a :: l) with ([a] ++ l). rewrite app_assoc.
      apply (IH s2 (ev1 ++ ev2) (l1 ++ [a])); [eapply Hs; eauto|exact F]. }
  intros l s ev H. apply (G l s0 [] [] H0 s ev H).
Qed.

(** ** The mutex *)

Definition in_section (ts : TS) : bool :=
  match ts with TLocked _ _ _ | TCall _ _ | TFlag _ _ | TUnlock _ => true | _ => false end.

Definition lock_inv (o0 : Out) (s : RS) (acc : list (nat * R)) : Prop :=
  (forall k ts, nth_error (rs_tasks s) k = Some ts -> in_section ts = true -> rs_lock s = Some k) /\
  match rs_lock s with
  | None => rs_output s = one_by_one body o0 (map snd acc)
  | Some k => exists h r ts, acc = h ++ [(k, r)] /\ nth_error (rs_tasks s) k = Some ts /\
      match ts with
      | TLocked r' _ fs => r' = r /\ fold_left (fun o f => f o) fs (rs_output s) = one_by_one body o0 (map snd acc)
      | TCall r' _ | TFlag r' _ => r' = r /\ rs_output s = one_by_one body o0 (map snd acc)
      | TUnlock _ => rs_output s = one_by_one body o0 (map snd acc)
      | TDone (Some x) => rs_output s = one_by_one body o0 (map snd acc) /\ throws r (rs_output s) = Some x
      | _ => False
      end
  end.

Lemma lock_keep : forall o0 (s s' : RS) acc, lock_inv o0 s acc ->
  rs_lock s' = rs_lock s -> rs_output s' = rs_output s ->
  (forall k ts, nth_error (rs_tasks s') k = Some ts -> nth_error (rs_tasks s) k = Some ts \/
     (in_section ts = false /\ exists ts0, nth_error (rs_tasks s) k = Some ts0 /\ in_section ts0 = false /\ forall x, ts0 <> TDone x)) ->
  (forall k ts, nth_error (rs_tasks s) k = Some ts -> in_section ts = true \/ (exists x, ts = TDone x) -> nth_error (rs_tasks s') k = Some ts) ->
  lock_inv o0 s' acc.
Proof.
  intros o0 s s' acc [H1 H2] EL EO Hk Hk'. split.
  - intros k ts H C. rewrite EL. destruct (Hk k ts H) as [H'|[C' _]]; [apply (H1 k ts H' C)|congruence].
  - rewrite EL, EO. destruct (rs_lock s) as [k|]; [|exact H2]. destruct H2 as (h & r & ts & E1 & E2 & E3). exists h, r, ts.
    split; [exact E1|]. split; [|exact E3]. apply Hk'; [exact E2|]. destruct ts as [t|t|r' t fs|r' t|r' t|t|[x|]]; cbn; try (left; reflexivity); try contradiction. right. eexists. reflexivity.
Qed.

Lemma start_tasks : forall (s : RS) k, rs_lock (start_task s k) = rs_lock s /\ rs_output (start_task s k) = rs_output s /\ rs_end (start_task s k) = rs_end s
  /\ rs_monitor (start_task s k) = rs_monitor s /\ rs_main (start_task s k) = rs_main s /\
  (forall j, nth_error (rs_tasks (start_task s k)) j =
     if Nat.eqb j k then match nth_error (rs_tasks s) k with Some (TNot t) => Some (TRun t) | o => o end else nth_error (rs_tasks s) j).
Proof.
  intros s k. unfold start_task. destruct (nth_error (rs_tasks s) k) as [ts|] eqn:E; [destruct ts|]; cbn; repeat split; intro j;
    try (destruct (Nat.eqb_spec j k) as [->|N]; [exact E|reflexivity]).
  destruct (Nat.eqb_spec j k) as [->|N]; [apply (nth_error_upd_same _ k (fun _ => TRun t) _ _ E)|apply nth_error_upd_other; congruence].
Qed.

Lemma start_keep : forall o0 (s : RS) k acc, lock_inv o0 s acc -> lock_inv o0 (start_task s k) acc.
Proof.
  intros o0 s k acc H. destruct (start_tasks s k) as (E1 & E2 & _ & _ & _ & E3). apply (lock_keep o0 s); [exact H|exact E1|exact E2| |].
  - intros j ts. rewrite E3. destruct (Nat.eqb_spec j k) as [->|N]; [|left; assumption].
    destruct (nth_error (rs_tasks s) k) as [u|]; [|discriminate]. destruct u; intro E; try (left; exact E).
    right. injection E as <-. split; [reflexivity|]. eexists. split; [reflexivity|]. split; [reflexivity|discriminate].
  - intros j ts Hj C. rewrite E3. destruct (Nat.eqb_spec j k) as [->|N]; [|exact Hj]. rewrite Hj.
    destruct ts; try reflexivity. destruct C as [C|[x C]]; discriminate.
Qed.

(** States that differ only in the calling thread, the monitor and the flag. *)
Lemma lock_same : forall o0 (s s' : RS) acc, lock_inv o0 s acc -> rs_tasks s' = rs_tasks s -> rs_lock s' = rs_lock s -> rs_output s' = rs_output s -> lock_inv o0 s' acc.
Proof.
  intros o0 s s' acc H E1 E2 E3. unfold lock_inv in *. rewrite E1, E2, E3. exact H.
Qed.

Lemma main_lock : forall o0 s acc s' ev, lock_inv o0 s acc -> main_step s = Some (s', ev) -> lock_inv o0 s' (acc ++ acquired ev).
Proof.
  intros o0 s acc s' ev H E. unfold TaskRun_Model.main_step in E. destruct (rs_main s) as [|k| |k|k|k| | |]; try discriminate.
  - injection E as <- <-. cbn. rewrite app_nil_r. apply (lock_same _ s); [exact H| | |]; destruct memory_limit; reflexivity.
  - destruct (Nat.ltb _ _); injection E as <- <-; cbn; rewrite app_nil_r; apply (lock_same _ (start_task s k)); try reflexivity; apply start_keep; exact H.
  - destruct (task_done _ _); [|discriminate]. injection E as <- <-. cbn. rewrite app_nil_r. apply (lock_same _ s); auto.
  - destruct (Nat.ltb _ _); [destruct (task_done _ _); [|discriminate]|]; injection E as <- <-; cbn; rewrite app_nil_r; apply (lock_same _ s); auto.
  - destruct (Nat.ltb _ _); injection E as <- <-; cbn; rewrite app_nil_r.
    + apply (lock_same _ (start_task s k)); try reflexivity. apply start_keep; exact H.
    + apply (lock_same _ s); auto.
  - destruct (task_done _ _); [|discriminate]. injection E as <- <-. cbn. rewrite app_nil_r. apply (lock_same _ s); auto.
  - destruct (rs_monitor s); injection E as <- <-; cbn; rewrite app_nil_r; apply (lock_same _ s); auto.
  - destruct (rs_monitor s); try discriminate. injection E as <- <-. cbn. rewrite app_nil_r. apply (lock_same _ s); auto.
Qed.

Lemma monitor_lock : forall o0 s acc ti me s' ev, lock_inv o0 s acc -> monitor_step s ti me = Some (s', ev) -> lock_inv o0 s' (acc ++ acquired ev).
Proof.
  intros o0 s acc ti me s' ev H E. unfold monitor_step in E. destruct (rs_monitor s); try discriminate;
    [| | |destruct me]; injection E as <- <-; cbn; rewrite app_nil_r; apply (lock_same _ s); auto.
Qed.

Lemma one_by_one_snoc : forall o0 (acc : list (nat * R)) k r, one_by_one body o0 (map snd (acc ++ [(k, r)])) = whole body (one_by_one body o0 (map snd acc)) r.
Proof. intros o0 acc k r. unfold one_by_one. rewrite map_app, fold_left_app. reflexivity. Qed.

Lemma task_lock : forall o0 s acc k s' ev, lock_inv o0 s acc -> task_step s k = Some (s', ev) -> lock_inv o0 s' (acc ++ acquired ev).
Proof.
  intros o0 s acc k s' ev H E. unfold TaskRun_Model.task_step in E. destruct (nth_error (rs_tasks s) k) as [ts|] eqn:N; [|discriminate].
  pose proof (fun f => nth_error_upd_same _ k f _ _ N) as U1. pose proof (fun j f (C : k <> j) => nth_error_upd_other _ k j f (rs_tasks s) C) as U2.
  (* the holder, when the task is in its critical section *)
  assert (HH : in_section ts = true -> rs_lock s = Some k /\ exists h r, acc = h ++ [(k, r)] /\
    match ts with
    | TLocked r' _ fs => r' = r /\ fold_left (fun o f => f o) fs (rs_output s) = one_by_one body o0 (map snd acc)
    | TCall r' _ | TFlag r' _ => r' = r /\ rs_output s = one_by_one body o0 (map snd acc)
    | TUnlock _ => rs_output s = one_by_one body o0 (map snd acc)
    | _ => True end).
  { intro C. destruct H as [H1 H2]. pose proof (H1 k ts N C) as L. split; [exact L|]. rewrite L in H2. destruct H2 as (h & r & u & E1 & E2 & E3).
    exists h, r. split; [exact E1|]. rewrite N in E2. injection E2 as <-. destruct ts; try exact Logic.I; exact E3. }
  assert (OTHER : in_section ts = true -> forall j u, nth_error (rs_tasks s) j = Some u -> j <> k -> in_section u = false).
  { intros C j u Hu Hj. destruct (in_section u) eqn:F; [|reflexivity]. destruct H as [H1 _]. pose proof (H1 j u Hu F). pose proof (H1 k ts N C). congruence. }
  destruct ts as [t|t|r t fs|r t|r t|t|x]; try discriminate.
  - assert (PLAIN : forall ts', in_section ts' = false -> lock_inv o0 (set_task s k ts') acc).
    { intros ts' C. apply (lock_keep o0 s); [exact H|reflexivity|reflexivity| |].
      - intros j u Hu. cbn in Hu. destruct (Nat.eq_dec k j) as [<-|NJ]; [|left; rewrite U2 in Hu by exact NJ; exact Hu].
        right. rewrite U1 in Hu. injection Hu as <-. split; [exact C|]. eexists. split; [exact N|]. split; [reflexivity|discriminate].
      - intros j u Hu Cu. cbn. destruct (Nat.eq_dec k j) as [<-|NJ]; [|rewrite U2 by exact NJ; exact Hu].
        rewrite N in Hu. injection Hu as <-. destruct Cu as [Cu|[y Cu]]; discriminate. }
    destruct (op t) as [t'|f|r t'| |x]; try (injection E as <- <-; cbn; rewrite app_nil_r; apply PLAIN; reflexivity).
    destruct (rs_lock s) as [j|] eqn:L; [discriminate|]. injection E as <- <-. cbn [acquired]. destruct H as [H1 H2]. rewrite L in H2. split.
    + cbn. intros j u Hu C. destruct (Nat.eq_dec k j) as [<-|NJ]; [reflexivity|]. rewrite U2 in Hu by exact NJ. pose proof (H1 j u Hu C). congruence.
    + cbn. exists acc, r. eexists. split; [reflexivity|]. split; [apply U1|]. cbn. split; [reflexivity|]. rewrite one_by_one_snoc, H2. reflexivity.
  - destruct (HH eq_refl) as (L & h & r' & EA & E1 & E2). specialize (OTHER eq_refl). subst r'.
    destruct fs as [|f fs]; injection E as <- <-; cbn [acquired]; rewrite app_nil_r; split; cbn.
    + intros j u Hu C. destruct (Nat.eq_dec k j) as [<-|NJ]; [exact L|]. rewrite U2 in Hu by exact NJ. rewrite (OTHER j u Hu) in C by congruence. discriminate.
    + rewrite L. exists h, r. eexists. split; [exact EA|]. split; [apply U1|]. cbn. split; [reflexivity|exact E2].
    + intros j u Hu C. destruct (Nat.eq_dec k j) as [<-|NJ]; [exact L|]. rewrite U2 in Hu by exact NJ. rewrite (OTHER j u Hu) in C by congruence. discriminate.
    + rewrite L. exists h, r. eexists. split; [exact EA|]. split; [apply U1|]. cbn. split; [reflexivity|exact E2].
  - destruct (HH eq_refl) as (L & h & r' & EA & E1 & E2). specialize (OTHER eq_refl). subst r'.
    destruct (throws r (rs_output s)) as [x|] eqn:Th; injection E as <- <-; cbn [acquired]; rewrite app_nil_r; split; cbn.
    + intros j u Hu C. destruct (Nat.eq_dec k j) as [<-|NJ]; [exact L|]. rewrite U2 in Hu by exact NJ. rewrite (OTHER j u Hu) in C by congruence. discriminate.
    + rewrite L. exists h, r. eexists. split; [exact EA|]. split; [apply U1|]. cbn. split; [exact E2|exact Th].
    + intros j u Hu C. destruct (Nat.eq_dec k j) as [<-|NJ]; [exact L|]. rewrite U2 in Hu by exact NJ. rewrite (OTHER j u Hu) in C by congruence. discriminate.
    + rewrite L. exists h, r. eexists. split; [exact EA|]. split; [apply U1|]. cbn. split; [reflexivity|exact E2].
  - destruct (HH eq_refl) as (L & h & r' & EA & E1 & E2). specialize (OTHER eq_refl). subst r'.
    injection E as <- <-; cbn [acquired]; rewrite app_nil_r; split; cbn.
    + intros j u Hu C. destruct (Nat.eq_dec k j) as [<-|NJ]; [exact L|]. rewrite U2 in Hu by exact NJ. rewrite (OTHER j u Hu) in C by congruence. discriminate.
    + rewrite L. exists h, r. eexists. split; [exact EA|]. split; [apply U1|]. cbn. exact E2.
  - destruct (HH eq_refl) as (L & h & r' & EA & E2). specialize (OTHER eq_refl).
    injection E as <- <-; cbn [acquired]; rewrite app_nil_r; split; cbn.
    + intros j u Hu C. destruct (Nat.eq_dec k j) as [<-|NJ]; [rewrite U1 in Hu; injection Hu as <-; discriminate|]. rewrite U2 in Hu by exact NJ. rewrite (OTHER j u Hu) in C by congruence. discriminate.
    + exact E2.
Qed.

Lemma start_lock : forall tasks o e, lock_inv o (run_start tasks o e : RS) [].
Proof.
  intros tasks o e. split; [|reflexivity]. intros k ts H C. cbn in H. exfalso. apply nth_error_In in H. apply in_map_iff in H. destruct H as (t & <- & _). discriminate.
Qed.

Lemma execute_lock : forall tasks o e l s ev, execute (run_start tasks o e) l = Some (s, ev) -> lock_inv o s (acquired ev).
Proof.
  intros tasks o e l s ev H. revert l s ev H. apply (execute_ind (run_start tasks o e) (fun s ev _ => lock_inv o s (acquired ev))); [apply start_lock|].
  intros s ev l a s' ev' H E. rewrite acquired_app. destruct a as [|k|ti me]; cbn in E.
  - eapply main_lock; eauto.
  - eapply task_lock; eauto.
  - eapply monitor_lock; eauto.
Qed.

(** ** The calling thread *)

Definition not_started (s : RS) (k : nat) : Prop := exists t, nth_error (rs_tasks s) k = Some (TNot t).
Definition is_done (s : RS) (k : nat) : Prop := exists x, nth_error (rs_tasks s) k = Some (TDone x).
Definition is_started (s : RS) (k : nat) : Prop := exists ts, nth_error (rs_tasks s) k = Some ts /\ forall t, ts <> TNot t.

Definition main_inv (s : RS) (st en : list nat) : Prop :=
  let n := length (rs_tasks s) in
  (forall k, k < n -> (In k en <-> is_done s k)) /\ NoDup en /\ (forall k, In k en -> k < n) /\
  (forall k, k < n -> (In k st <-> is_started s k)) /\
  match rs_main s with
  | MStart => st = [] /\ rs_monitor s = MonOff
  | MSpawn k => k < n /\ st = seq 0 k
  | MLast => 0 < n /\ st = seq 0 n
  | MJoin k => 0 < n /\ k < n /\ st = seq 0 n /\ is_done s (n - 1) /\ forall j, j < k -> is_done s j
  | MSeq k => k <= n /\ st = seq 0 k /\ en = seq 0 k
  | MSeqWait k => k < n /\ st = seq 0 (S k) /\ (en = seq 0 k \/ en = seq 0 (S k))
  | MAfter => st = seq 0 n /\ (forall j, j < n -> is_done s j)
  | MJoinMonitor => st = seq 0 n /\ (forall j, j < n -> is_done s j) /\ rs_end s = true /\ rs_monitor s <> MonOff
  | MReturned => st = seq 0 n /\ (forall j, j < n -> is_done s j) /\ (rs_monitor s = MonOff \/ rs_monitor s = MonEnded)
  end.

Definition is_tdone (ts : TS) : bool := match ts with TDone _ => true | _ => false end.
Definition is_tnot (ts : TS) : bool := match ts with TNot _ => true | _ => false end.

(** What a step of a task changes. *)
Lemma task_shape : forall s k s' ev, task_step s k = Some (s', ev) ->
  exists ts ts', nth_error (rs_tasks s) k = Some ts /\ is_tnot ts = false /\ is_tdone ts = false /\ is_tnot ts' = false /\
    rs_tasks s' = upd k (fun _ => ts') (rs_tasks s) /\ rs_main s' = rs_main s /\ rs_monitor s' = rs_monitor s /\
    started ev = [] /\ ended ev = (if is_tdone ts' then [k] else []) /\ (rs_end s = true -> rs_end s' = true).
Proof.
  intros s k s' ev E. unfold TaskRun_Model.task_step in E. destruct (nth_error (rs_tasks s) k) as [ts|]; [|discriminate].
  destruct ts as [t|t|r t fs|r t|r t|t|x]; try discriminate.
  - destruct (op t) as [t'|f|r t'| |x]; [| |destruct (rs_lock s); [discriminate|]| |]; injection E as <- <-; eexists; eexists; repeat split; reflexivity || auto.
  - destruct fs as [|f fs]; injection E as <- <-; eexists; eexists; repeat split; reflexivity || auto.
  - destruct (throws r (rs_output s)); injection E as <- <-; eexists; eexists; repeat split; reflexivity || auto.
  - injection E as <- <-; eexists; eexists; repeat split; try reflexivity. cbn. intros ->. reflexivity.
  - injection E as <- <-; eexists; eexists; repeat split; reflexivity || auto.
Qed.

Lemma done_test : forall (s : RS) k, task_done s k = true <-> is_done s k.
Proof.
  intros s k. unfold task_done, is_done. destruct (nth_error (rs_tasks s) k) as [ts|]; [|split; [discriminate|intros [x H]; discriminate]].
  destruct ts; split; intro H; try discriminate; try (destruct H as [? ?]; discriminate); [eexists; reflexivity|reflexivity].
Qed.

Lemma done_started : forall (s : RS) k, is_done s k -> is_started s k.
Proof. intros s k [x H]. exists (TDone x). split; [exact H|discriminate]. Qed.

Lemma nth_error_lt : forall (A : Type) (l : list A) k x, nth_error l k = Some x -> k < length l.
Proof. intros A l k x H. apply nth_error_Some. congruence. Qed.

Lemma main_same : forall (s s' : RS), rs_tasks s' = rs_tasks s -> (forall k, is_done s' k <-> is_done s k) /\ (forall k, is_started s' k <-> is_started s k).
Proof. intros s s' E. unfold is_done, is_started. rewrite E. split; intro k; split; intro H; exact H. Qed.

Lemma task_main : forall s st en k s' ev, main_inv s st en -> task_step s k = Some (s', ev) -> main_inv s' (st ++ started ev) (en ++ ended ev).
Proof.
  intros s st en k s' ev H E. destruct (task_shape s k s' ev E) as (ts & ts' & N & A1 & A2 & A3 & ET & EM & EO & S1 & S2 & EE).
  rewrite S1, app_nil_r. pose proof (nth_error_lt _ _ _ _ N) as Hk.
  assert (U1 : nth_error (rs_tasks s') k = Some ts') by (rewrite ET; apply (nth_error_upd_same _ k (fun _ => ts') _ _ N)).
  assert (U2 : forall j, j <> k -> nth_error (rs_tasks s') j = nth_error (rs_tasks s) j) by (intros j Hj; rewrite ET; apply nth_error_upd_other; congruence).
  assert (LN : length (rs_tasks s') = length (rs_tasks s)) by (rewrite ET; apply upd_length).
  assert (ND : ~ is_done s k). { intros [x Hx]. rewrite N in Hx. injection Hx as ->. discriminate. }
  assert (DM : forall j, is_done s j -> is_done s' j).
  { intros j [x Hx]. exists x. rewrite U2; [exact Hx|]. intros ->. apply ND. exists x. exact Hx. }
  assert (SM : forall j, is_started s' j <-> is_started s j).
  { intro j. destruct (Nat.eq_dec j k) as [->|NJ]; [|unfold is_started; rewrite (U2 j NJ); tauto].
    split; intros _; [exists ts; split; [exact N|intros t ->; discriminate]|exists ts'; split; [exact U1|intros t ->; discriminate]]. }
  destruct H as (H1 & H2 & H3 & H4 & H5). unfold main_inv. rewrite LN, EM, EO.
  assert (NE : ~ In k en). { intro I1. apply (H1 k Hk) in I1. contradiction. }
  split; [|split; [|split; [|split]]].
  - intros j Hj. rewrite S2, in_app_iff. destruct (Nat.eq_dec j k) as [->|NJ].
    + split.
      * intros [C|C]; [contradiction|]. destruct ts'; try contradiction. eexists. exact U1.
      * intros [x Hx]. right. rewrite U1 in Hx. injection Hx as ->. left. reflexivity.
    + unfold is_done. rewrite (U2 j NJ). fold (is_done s j). rewrite <- (H1 j Hj). split; [intros [C|C]; [exact C|]|tauto].
      destruct (is_tdone ts'); [destruct C as [C|[]]; congruence|destruct C].
  - rewrite S2. destruct (is_tdone ts'); [|rewrite app_nil_r; exact H2]. apply NoDup_app_snoc; assumption.
  - intros j Hj. rewrite S2 in Hj. apply in_app_iff in Hj. destruct Hj as [Hj|Hj]; [apply H3; exact Hj|]. destruct (is_tdone ts'); [destruct Hj as [<-|[]]; exact Hk|destruct Hj].
  - intros j Hj. rewrite (H4 j Hj), SM. reflexivity.
  - assert (NSK : is_started s k) by (exists ts; split; [exact N|intros t ->; discriminate]).
    destruct (rs_main s) as [|j| |j|j|j| | |]; try exact H5.
    + destruct H5 as (B1 & B2 & B3 & B4 & B5). repeat split; try assumption; [apply DM; exact B4|intros i Hi; apply DM, B5; exact Hi].
    + exfalso. destruct H5 as (B1 & B2 & B3). apply (H4 k Hk) in NSK. rewrite B2 in NSK. rewrite B3 in NE. contradiction.
    + destruct H5 as (B1 & B2 & B3). split; [exact B1|]. split; [exact B2|]. apply (H4 k Hk) in NSK. rewrite B2 in NSK.
      destruct B3 as [B3|B3]; [|rewrite B3 in NE; contradiction].
      assert (k = j). { rewrite B3 in NE. rewrite in_seq in *. lia. } subst j. rewrite S2. destruct (is_tdone ts'); [right|left; rewrite app_nil_r; exact B3].
      rewrite B3, seq_S. reflexivity.
    + exfalso. destruct H5 as (_ & B). apply ND, B, Hk.
    + exfalso. destruct H5 as (_ & B & _). apply ND, B, Hk.
    + exfalso. destruct H5 as (_ & B & _). apply ND, B, Hk.
Qed.

Lemma monitor_main : forall s st en ti me s' ev, main_inv s st en -> monitor_step s ti me = Some (s', ev) -> main_inv s' (st ++ started ev) (en ++ ended ev).
Proof.
  intros s st en ti me s' ev H E. assert (K : rs_tasks s' = rs_tasks s /\ rs_main s' = rs_main s /\ started ev = [] /\ ended ev = [] /\ rs_monitor s <> MonOff /\ rs_monitor s <> MonEnded
    /\ rs_monitor s' <> MonOff /\ (rs_end s = true -> rs_end s' = true)).
  { unfold monitor_step in E. destruct (rs_monitor s); try discriminate; [| | |destruct me]; injection E as <- <-; cbn; repeat split; try discriminate; auto;
      destruct (rs_end s || ti); discriminate. }
  destruct K as (ET & EM & S1 & S2 & M1 & M2 & M3 & EE). rewrite S1, S2, !app_nil_r. destruct (main_same s s' ET) as [D1 D2].
  destruct H as (H1 & H2 & H3 & H4 & H5). unfold main_inv. rewrite ET, EM. split; [intros k Hk; rewrite D1; apply H1; exact Hk|]. split; [exact H2|]. split; [exact H3|].
  split; [intros k Hk; rewrite D2; apply H4; exact Hk|]. destruct (rs_main s) as [|j| |j|j|j| | |].
  - destruct H5 as [_ B]. contradiction.
  - exact H5.
  - exact H5.
  - destruct H5 as (B1 & B2 & B3 & B4 & B5). repeat split; try assumption; [apply D1; exact B4|intros i Hi; apply D1, B5; exact Hi].
  - exact H5.
  - exact H5.
  - destruct H5 as (B1 & B2). split; [exact B1|]. intros i Hi. apply D1, B2, Hi.
  - destruct H5 as (B1 & B2 & B3 & B4). split; [exact B1|]. split; [intros i Hi; apply D1, B2, Hi|]. split; [apply EE; exact B3|exact M3].
  - destruct H5 as (_ & _ & [B|B]); contradiction.
Qed.

Lemma start_one : forall s st en k, main_inv s st en -> not_started s k -> let s' := start_task s k in
  length (rs_tasks s') = length (rs_tasks s) /\ (forall j, is_done s' j <-> is_done s j) /\ (forall j, is_started s' j <-> is_started s j \/ j = k).
Proof.
  intros s st en k H [t Ht] s'. destruct (start_tasks s k) as (_ & _ & _ & _ & _ & E). fold s' in E. rewrite Ht in E. split.
  - unfold s', start_task. rewrite Ht. cbn. apply upd_length.
  - split; intro j; unfold is_done, is_started; rewrite E; destruct (Nat.eqb_spec j k) as [->|N].
    + rewrite Ht. split; intros [x Hx]; discriminate.
    + tauto.
    + split; [tauto|]. intros _. eexists. split; [reflexivity|discriminate].
    + tauto.
Qed.

Lemma not_in_started : forall s st en k, main_inv s st en -> k < length (rs_tasks s) -> ~ In k st -> not_started s k.
Proof.
  intros s st en k (_ & _ & _ & H4 & _) Hk Hn. destruct (nth_error (rs_tasks s) k) as [ts|] eqn:E; [|apply nth_error_None in E; lia].
  destruct ts; [eexists; exact E|..]; exfalso; apply Hn, (H4 k Hk); eexists; (split; [exact E|discriminate]).
Qed.

Lemma all_started_last : forall n k, k < n -> ~ k < n - 1 -> seq 0 k ++ [k] = seq 0 n.
Proof. intros n k H1 H2. replace n with (S k) by lia. rewrite seq_S. reflexivity. Qed.

Lemma main_main : forall s st en s' ev, main_inv s st en -> main_step s = Some (s', ev) -> main_inv s' (st ++ started ev) (en ++ ended ev).
Proof.
  intros s st en s' ev H E. pose proof H as (H1 & H2 & H3 & H4 & H5). unfold TaskRun_Model.main_step in E. cbv zeta in E.
  set (n := length (rs_tasks s)) in *. destruct (rs_main s) as [|k| |k|k|k| | |] eqn:M; try discriminate.
  - injection E as <- <-. cbn [started ended]. rewrite !app_nil_r. destruct H5 as [-> MO].
    assert (ET : rs_tasks (if memory_limit then set_monitor s MonCheck else s) = rs_tasks s) by (destruct memory_limit; reflexivity).
    unfold main_inv. cbn [rs_tasks set_main rs_main]. rewrite ET. fold n.
    assert (D : (forall j, is_done (set_main (if memory_limit then set_monitor s MonCheck else s) (if n =? 0 then MAfter else if parallel then MSpawn 0 else MSeq 0)) j <-> is_done s j)
      /\ (forall j, is_started (set_main (if memory_limit then set_monitor s MonCheck else s) (if n =? 0 then MAfter else if parallel then MSpawn 0 else MSeq 0)) j <-> is_started s j)).
    { apply main_same. exact ET. }
    destruct D as [D1 D2]. split; [intros j Hj; rewrite D1; apply H1; exact Hj|]. split; [exact H2|]. split; [exact H3|]. split; [intros j Hj; rewrite D2; apply H4; exact Hj|].
    destruct (Nat.eqb_spec n 0) as [N0|N0].
    + rewrite N0. split; [reflexivity|]. intros j Hj. lia.
    + destruct parallel; [split; [lia|reflexivity]|]. split; [lia|]. split; [reflexivity|].
      assert (NI : forall j, ~ In j en). { intros j Hj. pose proof (H3 j Hj) as L. apply (H1 j L) in Hj. apply done_started, (H4 j L) in Hj. exact Hj. }
      destruct en as [|j en]; [reflexivity|]. exfalso. apply (NI j). left. reflexivity.
  - destruct H5 as (B1 & B2). assert (NS : not_started s k) by (apply (not_in_started s st en k H B1); rewrite B2, in_seq; lia).
    destruct (start_one s st en k H NS) as (L & D1 & D2). destruct (start_tasks s k) as (_ & _ & _ & EMO & _).
    assert (G : forall m, main_inv (set_main (start_task s k) m) (seq 0 (S k)) en <->
      match m with MSpawn j => j < n /\ seq 0 (S k) = seq 0 j | MLast => 0 < n /\ seq 0 (S k) = seq 0 n | _ =>
      main_inv (set_main (start_task s k) m) (seq 0 (S k)) en end).
    { intro m. destruct m; try tauto; unfold main_inv; cbn [rs_tasks set_main rs_main]; rewrite L; fold n.
      - split; [tauto|]. intro B. split; [intros j Hj; rewrite (D1 j); apply H1; exact Hj|]. split; [exact H2|]. split; [exact H3|]. split; [|exact B].
        intros j Hj. change (is_started (set_main (start_task s k) (MSpawn k0)) j) with (is_started (start_task s k) j). rewrite D2, <- (H4 j Hj), B2, !in_seq. lia.
      - split; [tauto|]. intro B. split; [intros j Hj; rewrite (D1 j); apply H1; exact Hj|]. split; [exact H2|]. split; [exact H3|]. split; [|exact B].
        intros j Hj. change (is_started (set_main (start_task s k) MLast) j) with (is_started (start_task s k) j). rewrite D2, <- (H4 j Hj), B2, !in_seq. lia. }
    destruct (Nat.ltb_spec k (n - 1)) as [L1|L1]; injection E as <- <-; cbn [started ended]; rewrite app_nil_r, B2;
      replace (seq 0 k ++ [k]) with (seq 0 (S k)) by (rewrite seq_S; reflexivity); apply G.
    + split; [lia|reflexivity].
    + split; [lia|]. replace n with (S k) by lia. reflexivity.
  - destruct (task_done s (n - 1)) eqn:TD; [|discriminate]. injection E as <- <-. cbn [started ended]. rewrite !app_nil_r. apply done_test in TD.
    split; [exact H1|]. split; [exact H2|]. split; [exact H3|]. split; [exact H4|]. cbn. fold n. destruct H5 as [B1 B2]. repeat split; try assumption. intros j Hj. lia.
  - destruct H5 as (B1 & B2 & B3 & B4 & B5). destruct (Nat.ltb_spec k (n - 1)) as [L1|L1].
    + destruct (task_done s k) eqn:TD; [|discriminate]. injection E as <- <-. cbn [started ended]. rewrite !app_nil_r. apply done_test in TD.
      split; [exact H1|]. split; [exact H2|]. split; [exact H3|]. split; [exact H4|]. cbn. fold n. repeat split; try assumption; [lia|].
      intros j Hj. destruct (Nat.eq_dec j k) as [->|NJ]; [exact TD|apply B5; lia].
    + injection E as <- <-. cbn [started ended]. rewrite !app_nil_r.
      split; [exact H1|]. split; [exact H2|]. split; [exact H3|]. split; [exact H4|]. cbn. fold n. split; [exact B3|].
      intros j Hj. destruct (Nat.eq_dec j (n - 1)) as [->|NJ]; [exact B4|apply B5; lia].
  - destruct H5 as (B1 & B2 & B3). destruct (Nat.ltb_spec k n) as [L1|L1]; injection E as <- <-; cbn [started ended]; rewrite !app_nil_r.
    + assert (NS : not_started s k) by (apply (not_in_started s st en k H L1); rewrite B2, in_seq; lia).
      destruct (start_one s st en k H NS) as (L & D1 & D2). unfold main_inv. cbn [rs_tasks set_main rs_main]. rewrite L. fold n.
      split; [intros j Hj; rewrite (D1 j); apply H1; exact Hj|]. split; [exact H2|]. split; [exact H3|].
      rewrite B2. replace (seq 0 k ++ [k]) with (seq 0 (S k)) by (rewrite seq_S; reflexivity). split.
      * intros j Hj. change (is_started (set_main (start_task s k) (MSeqWait k)) j) with (is_started (start_task s k) j). rewrite D2, <- (H4 j Hj), B2, !in_seq. lia.
      * split; [exact L1|]. split; [reflexivity|left; exact B3].
    + split; [exact H1|]. split; [exact H2|]. split; [exact H3|]. split; [exact H4|]. cbn. fold n. assert (k = n) by lia. subst k. split; [exact B2|].
      intros j Hj. apply (H1 j Hj). rewrite B3, in_seq. lia.
  - destruct (task_done s k) eqn:TD; [|discriminate]. injection E as <- <-. cbn [started ended]. rewrite !app_nil_r. apply done_test in TD.
    destruct H5 as (B1 & B2 & B3). split; [exact H1|]. split; [exact H2|]. split; [exact H3|]. split; [exact H4|]. cbn. fold n. split; [lia|]. split; [exact B2|].
    destruct B3 as [B3|B3]; [|exact B3]. exfalso. apply (H1 k B1) in TD. rewrite B3, in_seq in TD. lia.
  - destruct H5 as (B1 & B2). assert (D : forall j, j < n -> is_done s j) by exact B2.
    destruct (rs_monitor s) eqn:MO; injection E as <- <-; cbn [started ended]; rewrite !app_nil_r;
      (split; [exact H1|]; split; [exact H2|]; split; [exact H3|]; split; [exact H4|]); cbn; fold n; rewrite ?MO; repeat split; try assumption; try discriminate; auto.
  - destruct H5 as (B1 & B2 & B3 & B4). destruct (rs_monitor s) eqn:MO; try discriminate. injection E as <- <-. cbn [started ended]. rewrite !app_nil_r.
    split; [exact H1|]. split; [exact H2|]. split; [exact H3|]. split; [exact H4|]. cbn. fold n. split; [exact B1|]. split; [exact B2|]. right. exact MO.
Qed.

Lemma start_main : forall tasks o e, main_inv (run_start tasks o e : RS) [] [].
Proof.
  intros tasks o e. unfold main_inv. cbn. assert (N : forall k ts, nth_error (map (@TNot T R Out X) tasks) k = Some ts -> exists t, ts = TNot t).
  { intros k ts H. apply nth_error_In in H. apply in_map_iff in H. destruct H as (t & <- & _). eexists. reflexivity. }
  split; [|split; [constructor|split; [intros k []|split]]].
  - intros k Hk. split; [intros []|]. intros [x Hx]. destruct (N _ _ Hx) as [t C]. discriminate.
  - intros k Hk. split; [intros []|]. intros (ts & H & C). destruct (N _ _ H) as [t ->]. apply (C t). reflexivity.
  - split; reflexivity.
Qed.

Lemma execute_main : forall tasks o e l s ev, execute (run_start tasks o e) l = Some (s, ev) -> main_inv s (started ev) (ended ev) /\ length (rs_tasks s) = length tasks.
Proof.
  intros tasks o e l s ev H. revert l s ev H. apply (execute_ind (run_start tasks o e) (fun s ev _ => main_inv s (started ev) (ended ev) /\ length (rs_tasks s) = length tasks)).
  - split; [apply start_main|]. cbn. apply map_length.
  - intros s ev l a s' ev' [H L] E. rewrite started_app, ended_app. destruct a as [|k|ti me]; cbn in E.
    + split; [eapply main_main; eauto|]. rewrite <- L. unfold TaskRun_Model.main_step in E.
      assert (LS : forall k, length (rs_tasks (start_task s k)) = length (rs_tasks s)).
      { intro k. unfold start_task. destruct (nth_error (rs_tasks s) k) as [[]|]; cbn; try reflexivity. apply upd_length. }
      destruct (rs_main s) as [|k| |k|k|k| | |]; try discriminate.
      * injection E as <- <-. cbn. destruct memory_limit; reflexivity.
      * destruct (Nat.ltb _ _); injection E as <- <-; apply LS.
      * destruct (task_done _ _); [|discriminate]. injection E as <- <-. reflexivity.
      * destruct (Nat.ltb _ _); [destruct (task_done _ _); [|discriminate]|]; injection E as <- <-; reflexivity.
      * destruct (Nat.ltb _ _); injection E as <- <-; [apply LS|reflexivity].
      * destruct (task_done _ _); [|discriminate]. injection E as <- <-. reflexivity.
      * destruct (rs_monitor s); injection E as <- <-; reflexivity.
      * destruct (rs_monitor s); try discriminate; injection E as <- <-; reflexivity.
    + split; [eapply task_main; eauto|]. destruct (task_shape s k s' ev' E) as (ts & ts' & _ & _ & _ & _ & ET & _). rewrite ET, upd_length. exact L.
    + split; [eapply monitor_main; eauto|]. rewrite <- L. unfold monitor_step in E. destruct (rs_monitor s); try discriminate; [| | |destruct me]; injection E as <- <-; reflexivity.
Qed.

(** ** No deadlock *)

Lemma some_running : forall ts : list TS, (exists k t, nth_error ts k = Some (TRun t)) \/ forall k t, nth_error ts k <> Some (TRun t).
Proof.
  induction ts as [|u ts IH]; [right; intros [|k] t; discriminate|]. destruct IH as [(k & t & H)|H]; [left; exists (S k), t; exact H|].
  destruct u as [t|t|r t fs|r t|r t|t|x]; [|left; exists 0, t; reflexivity|..]; right; intros [|k] t'; cbn; try discriminate; apply H.
Qed.

Lemma run_step : forall (s : RS) k t, nth_error (rs_tasks s) k = Some (TRun t) -> rs_lock s = None -> exists s' ev, task_step s k = Some (s', ev).
Proof. intros s k t N L. unfold TaskRun_Model.task_step. rewrite N, L. destruct (op t); eexists; eexists; reflexivity. Qed.

Lemma progress : forall o0 s acc st en, (forall r o, throws r o = None) -> lock_inv o0 s acc -> main_inv s st en -> rs_main s <> MReturned ->
  exists a s' ev, step s a = Some (s', ev) /\
    match a with AMonitor _ _ => rs_main s = MJoinMonitor /\ rs_end s = true | _ => True end.
Proof.
  intros o0 s acc st en Hth [L1 L2] (H1 & H2 & H3 & H4 & H5) HM. destruct (rs_lock s) as [k|] eqn:L.
  - destruct L2 as (h & r & ts & _ & N & C). exists (ATask k). cbn. unfold TaskRun_Model.task_step. rewrite N.
    destruct ts as [t|t|r' t fs|r' t|r' t|t|[x|]]; try contradiction.
    + destruct fs; eexists; eexists; (split; [reflexivity|exact Logic.I]).
    + rewrite Hth. eexists; eexists; (split; [reflexivity|exact Logic.I]).
    + eexists; eexists; (split; [reflexivity|exact Logic.I]).
    + eexists; eexists; (split; [reflexivity|exact Logic.I]).
    + destruct C as [_ C]. rewrite Hth in C. discriminate.
  - destruct (some_running (rs_tasks s)) as [(k & t & N)|NR].
    { destruct (run_step s k t N L) as (s' & ev & E). exists (ATask k), s', ev. split; [exact E|exact Logic.I]. }
    assert (SD : forall k, k < length (rs_tasks s) -> In k st -> task_done s k = true).
    { intros k Hk I1. apply (H4 k Hk) in I1. destruct I1 as (ts & N & C). unfold task_done. rewrite N. destruct ts as [t|t|r t fs|r t|r t|t|x]; try reflexivity; exfalso.
      - apply (C t). reflexivity.
      - apply (NR k t). exact N.
      - pose proof (L1 k _ N eq_refl). discriminate.
      - pose proof (L1 k _ N eq_refl). discriminate.
      - pose proof (L1 k _ N eq_refl). discriminate.
      - pose proof (L1 k _ N eq_refl). discriminate. }
    assert (MS : (exists s' ev, main_step s = Some (s', ev)) \/ (rs_main s = MJoinMonitor /\ rs_end s = true /\ exists s' ev, monitor_step s false false = Some (s', ev))).
    { unfold TaskRun_Model.main_step. destruct (rs_main s) as [|k| |k|k|k| | |]; cbv zeta.
      - left. eexists; eexists; reflexivity.
      - left. destruct (Nat.ltb _ _); eexists; eexists; reflexivity.
      - left. destruct H5 as [B1 B2]. rewrite SD; [eexists; eexists; reflexivity|lia|rewrite B2, in_seq; lia].
      - left. destruct H5 as (B1 & B2 & B3 & _). destruct (Nat.ltb_spec k (length (rs_tasks s) - 1)); [|eexists; eexists; reflexivity].
        rewrite SD; [eexists; eexists; reflexivity|lia|rewrite B3, in_seq; lia].
      - left. destruct (Nat.ltb _ _); eexists; eexists; reflexivity.
      - left. destruct H5 as (B1 & B2 & _). rewrite SD; [eexists; eexists; reflexivity|lia|rewrite B2, in_seq; lia].
      - left. destruct (rs_monitor s); eexists; eexists; reflexivity.
      - destruct H5 as (_ & _ & B3 & B4). unfold monitor_step. destruct (rs_monitor s); [contradiction|right..|left; eexists; eexists; reflexivity];
          (split; [reflexivity|]; split; [exact B3|]); eexists; eexists; reflexivity.
      - contradiction. }
    destruct MS as [(s' & ev & E)|(E1 & E2 & s' & ev & E)].
    + exists AMain, s', ev. split; [exact E|exact Logic.I].
    + exists (AMonitor false false), s', ev. split; [exact E|]. split; assumption.
Qed.

(** ** Number of steps *)

Section Bounded.
Variable cost : T -> nat.
Hypothesis Hcost : bounded_by op body cost.

Definition task_work (ts : TS) : nat :=
  match ts with
  | TNot t | TRun t => cost t
  | TLocked _ t fs => length fs + 4 + cost t
  | TCall _ t => 3 + cost t
  | TFlag _ t => 2 + cost t
  | TUnlock t => 1 + cost t
  | TDone _ => 0
  end.
Definition main_work (n : nat) (m : MainState) : nat :=
  match m with
  | MStart => 6 + 2 * n
  | MSpawn k => 5 + n + (n - k)
  | MLast => 4 + n
  | MJoin k => 3 + (n - k)
  | MSeq k => 3 + 2 * (n - k)
  | MSeqWait k => 2 + 2 * (n - k)
  | MAfter => 2
  | MJoinMonitor => 1
  | MReturned => 0
  end.
Definition work (s : RS) : nat := list_sum (map task_work (rs_tasks s)) + main_work (length (rs_tasks s)) (rs_main s).

Lemma work_upd : forall ts k (u u' : TS), nth_error ts k = Some u ->
  list_sum (map task_work (upd k (fun _ => u') ts)) + task_work u = list_sum (map task_work ts) + task_work u'.
Proof.
  assert (LC : forall a l, list_sum (a :: l) = a + list_sum l) by reflexivity.
  induction ts as [|v ts IH]; intros k u u' H; destruct k as [|k]; cbn in H; try discriminate.
  - injection H as ->. cbn [upd map]. rewrite !LC. lia.
  - cbn [upd map]. rewrite !LC. specialize (IH k u u' H). lia.
Qed.

Lemma work_start : forall (s : RS) k, list_sum (map task_work (rs_tasks (start_task s k))) = list_sum (map task_work (rs_tasks s)).
Proof.
  intros s k. unfold start_task. destruct (nth_error (rs_tasks s) k) as [[]|] eqn:E; try reflexivity. cbn [rs_tasks set_task].
  pose proof (work_upd (rs_tasks s) k _ (TRun t) E). cbn [task_work] in H. lia.
Qed.

Lemma task_work_step : forall s k s' ev, task_step s k = Some (s', ev) -> work s' < work s.
Proof.
  intros s k s' ev E. destruct (task_shape s k s' ev E) as (ts & ts' & N & _ & _ & _ & ET & EM & _). unfold work. rewrite ET, EM, upd_length.
  pose proof (work_upd (rs_tasks s) k ts ts' N) as W. assert (G : task_work ts' < task_work ts); [|lia].
  assert (U : nth_error (rs_tasks s') k = Some ts') by (rewrite ET; apply (nth_error_upd_same _ k (fun _ => ts') _ _ N)). clear W ET EM.
  unfold TaskRun_Model.task_step in E. rewrite N in E.
  assert (K : forall u, nth_error (upd k (fun _ => u) (rs_tasks s)) k = Some u) by (intro u; apply (nth_error_upd_same _ k (fun _ => u) _ _ N)).
  destruct ts as [t|t|r t fs|r t|r t|t|x]; try discriminate.
  - specialize (Hcost t). destruct (op t) as [t'|f|r t'| |x]; [| |destruct (rs_lock s); [discriminate|]| |]; injection E as <- _; cbn in U; rewrite K in U; injection U as <-; cbn; try lia.
    specialize (Hcost (rs_end s)). lia.
  - destruct fs as [|f fs]; injection E as <- _; cbn in U; rewrite K in U; injection U as <-; cbn; lia.
  - destruct (throws r (rs_output s)); injection E as <- _; cbn in U; rewrite K in U; injection U as <-; cbn; lia.
  - injection E as <- _; cbn in U; rewrite K in U; injection U as <-; cbn; lia.
  - injection E as <- _; cbn in U; rewrite K in U; injection U as <-; cbn; lia.
Qed.

Lemma main_work_step : forall s st en s' ev, main_inv s st en -> main_step s = Some (s', ev) -> work s' < work s.
Proof.
  intros s st en s' ev (_ & _ & _ & _ & H5) E. unfold TaskRun_Model.main_step in E. cbv zeta in E. unfold work.
  assert (LS : forall k, length (rs_tasks (start_task s k)) = length (rs_tasks s)).
  { intro k. unfold start_task. destruct (nth_error (rs_tasks s) k) as [[]|]; cbn; try reflexivity. apply upd_length. }
  destruct (rs_main s) as [|k| |k|k|k| | |] eqn:M; try discriminate.
  - injection E as <- <-. cbn [rs_tasks set_main rs_main]. assert (ET : rs_tasks (if memory_limit then set_monitor s MonCheck else s) = rs_tasks s) by (destruct memory_limit; reflexivity).
    rewrite ET. destruct (Nat.eqb _ _); [cbn [main_work]; lia|]. destruct parallel; cbn [main_work]; lia.
  - destruct H5 as [B1 _]. destruct (Nat.ltb_spec k (length (rs_tasks s) - 1)); injection E as <- <-; cbn [rs_tasks set_main rs_main main_work]; rewrite LS, work_start; lia.
  - destruct (task_done _ _); [|discriminate]. injection E as <- <-. cbn [rs_tasks set_main rs_main main_work]. lia.
  - destruct H5 as (B1 & B2 & _). destruct (Nat.ltb_spec k (length (rs_tasks s) - 1)); [destruct (task_done _ _); [|discriminate]|]; injection E as <- <-;
      cbn [rs_tasks set_main rs_main main_work]; lia.
  - destruct (Nat.ltb_spec k (length (rs_tasks s))); injection E as <- <-; cbn [rs_tasks set_main rs_main main_work]; [rewrite LS, work_start|]; lia.
  - destruct H5 as (B1 & _). destruct (task_done _ _); [|discriminate]. injection E as <- <-. cbn [rs_tasks set_main rs_main main_work]. lia.
  - destruct (rs_monitor s); injection E as <- <-; cbn [rs_tasks set_main set_end rs_main main_work]; lia.
  - destruct (rs_monitor s); try discriminate; injection E as <- <-; cbn [rs_tasks set_main rs_main main_work]; lia.
Qed.

Lemma own_steps_snoc : forall l a, own_steps (l ++ [a]) = own_steps l + match a with AMonitor _ _ => 0 | _ => 1 end.
Proof. intros l a. unfold own_steps. rewrite filter_app, app_length. destruct a; reflexivity. Qed.

Lemma execute_work : forall tasks o e l s ev, execute (run_start tasks o e) l = Some (s, ev) ->
  own_steps l + work s <= list_sum (map cost tasks) + 2 * length tasks + 6.
Proof.
  intros tasks o e l s ev H.
  assert (G : own_steps l + work s <= list_sum (map cost tasks) + 2 * length tasks + 6 /\ main_inv s (started ev) (ended ev)); [|apply G].
  revert l s ev H. apply (execute_ind (run_start tasks o e) (fun s ev l => own_steps l + work s <= list_sum (map cost tasks) + 2 * length tasks + 6 /\ main_inv s (started ev) (ended ev))).
  - split; [|apply start_main]. unfold work. cbn [own_steps length filter run_start rs_tasks rs_main main_work]. rewrite map_map, map_length. cbn [task_work]. change (map (fun x : T => cost x) tasks) with (map cost tasks). lia.
  - intros s ev l a s' ev' [W I1] E. rewrite own_steps_snoc, started_app, ended_app. destruct a as [|k|ti me]; cbn in E.
    + pose proof (main_work_step s _ _ s' ev' I1 E). split; [lia|eapply main_main; eauto].
    + pose proof (task_work_step s k s' ev' E). split; [lia|eapply task_main; eauto].
    + split; [|eapply monitor_main; eauto]. assert (work s' = work s); [|lia].
      unfold work, monitor_step in *. destruct (rs_monitor s); try discriminate; [| | |destruct me]; injection E as <- <-; reflexivity.
Qed.
End Bounded.

(** Once the end flag is set, the monitor does at most two steps. *)
Definition monitor_work (m : MonState) : nat :=
  match m with MonOff | MonEnded => 0 | MonCheck | MonCheck2 => 1 | MonSleep | MonMemory => 2 end.

Lemma end_stays : forall s a s' ev, step s a = Some (s', ev) -> rs_end s = true -> rs_end s' = true.
Proof.
  intros s a s' ev E H. destruct a as [|k|ti me]; cbn in E.
  - unfold TaskRun_Model.main_step in E. cbv zeta in E. assert (SE : forall k, rs_end (start_task s k) = rs_end s) by (intro k; apply start_tasks).
    destruct (rs_main s) as [|k| |k|k|k| | |]; try discriminate.
    + injection E as <- <-. cbn. destruct memory_limit; exact H.
    + destruct (Nat.ltb _ _); injection E as <- <-; cbn; rewrite SE; exact H.
    + destruct (task_done _ _); [|discriminate]. injection E as <- <-. exact H.
    + destruct (Nat.ltb _ _); [destruct (task_done _ _); [|discriminate]|]; injection E as <- <-; exact H.
    + destruct (Nat.ltb _ _); injection E as <- <-; cbn; [rewrite SE|]; exact H.
    + destruct (task_done _ _); [|discriminate]. injection E as <- <-. exact H.
    + destruct (rs_monitor s); injection E as <- <-; try exact H; reflexivity.
    + destruct (rs_monitor s); try discriminate; injection E as <- <-; exact H.
  - destruct (task_shape s k s' ev E) as (ts & ts' & _ & _ & _ & _ & _ & _ & _ & _ & _ & EE). apply EE. exact H.
  - unfold monitor_step in E. destruct (rs_monitor s); try discriminate; [| | |destruct me]; injection E as <- <-; try exact H; reflexivity.
Qed.

Lemma main_monitor : forall s st en s' ev, main_inv s st en -> main_step s = Some (s', ev) -> rs_main s <> MStart -> rs_monitor s' = rs_monitor s.
Proof.
  intros s st en s' ev H E N. unfold TaskRun_Model.main_step in E. cbv zeta in E. assert (SE : forall k, rs_monitor (start_task s k) = rs_monitor s) by (intro k; apply start_tasks).
  destruct (rs_main s) as [|k| |k|k|k| | |]; try discriminate.
  - contradiction.
  - destruct (Nat.ltb _ _); injection E as <- <-; cbn; apply SE.
  - destruct (task_done _ _); [|discriminate]. injection E as <- <-. reflexivity.
  - destruct (Nat.ltb _ _); [destruct (task_done _ _); [|discriminate]|]; injection E as <- <-; reflexivity.
  - destruct (Nat.ltb _ _); injection E as <- <-; cbn; [apply SE|reflexivity].
  - destruct (task_done _ _); [|discriminate]. injection E as <- <-. reflexivity.
  - destruct (rs_monitor s) eqn:M; injection E as <- <-; cbn; assumption || reflexivity.
  - destruct (rs_monitor s) eqn:M; try discriminate; injection E as <- <-; cbn; assumption || reflexivity.
Qed.

Lemma main_leaves_start : forall s st en a s' ev, main_inv s st en -> step s a = Some (s', ev) -> rs_main s <> MStart -> rs_main s' <> MStart.
Proof.
  intros s st en a s' ev H E N. destruct a as [|k|ti me]; cbn in E.
  - unfold TaskRun_Model.main_step in E. cbv zeta in E.
    destruct (rs_main s) as [|k| |k|k|k| | |]; try discriminate; try contradiction;
      repeat match type of E with context [if ?b then _ else _] => destruct b end; try discriminate; try (destruct (rs_monitor s); try discriminate); injection E as <- <-; discriminate.
  - destruct (task_shape s k s' ev E) as (ts & ts' & _ & _ & _ & _ & _ & EM & _). rewrite EM. exact N.
  - unfold monitor_step in E. destruct (rs_monitor s); try discriminate; [| | |destruct me]; injection E as <- <-; exact N.
Qed.

Lemma monitor_bounded : forall l s st en s' ev, main_inv s st en -> rs_main s <> MStart -> rs_end s = true -> execute s l = Some (s', ev) ->
  length (filter (fun a => match a with AMonitor _ _ => true | _ => false end) l) + monitor_work (rs_monitor s') <= monitor_work (rs_monitor s).
Proof.
  induction l as [|a l IH]; intros s st en s' ev I1 NS HE E; cbn [TaskRun_Model.execute] in E.
  - injection E as <- _. cbn. lia.
  - destruct (step s a) as [[s1 ev1]|] eqn:S1; [|discriminate]. destruct (execute s1 l) as [[s2 ev2]|] eqn:F; [|discriminate]. injection E as <- _.
    pose proof (end_stays s a s1 ev1 S1 HE) as HE1. pose proof (main_leaves_start s st en a s1 ev1 I1 S1 NS) as NS1.
    assert (I2 : exists st' en', main_inv s1 st' en').
    { destruct a as [|k|ti me]; cbn in S1; eexists; eexists; [eapply main_main|eapply task_main|eapply monitor_main]; eauto. }
    destruct I2 as (st' & en' & I2). specialize (IH s1 st' en' s2 ev2 I2 NS1 HE1 F). cbn [filter]. destruct a as [|k|ti me]; cbn in S1.
    + rewrite (main_monitor s st en s1 ev1 I1 S1 NS) in IH. exact IH.
    + destruct (task_shape s k s1 ev1 S1) as (ts & ts' & _ & _ & _ & _ & _ & _ & EMO & _). rewrite EMO in IH. exact IH.
    + cbn [length]. unfold monitor_step in S1. rewrite HE in S1. cbn [orb] in S1.
      destruct (rs_monitor s); try discriminate; [| | |destruct me]; injection S1 as <- <-; cbn in *; lia.
Qed.

(** ** The end flag *)

Definition counted (s : RS) (rs : list R) : list R :=
  match rs_lock s with
  | None => rs
  | Some k => match nth_error (rs_tasks s) k with Some (TUnlock _) => rs | _ => removelast rs end
  end.
Definition flag_inv (o0 : Out) (e : bool) (s : RS) (ev : list (Event R)) : Prop :=
  rs_end s = true <-> e = true \/ In EMemory ev \/ In ERelease ev \/ proof_in body proven o0 (counted s (map snd (acquired ev))).

Lemma proof_in_snoc : forall o rs r, proof_in body proven o (rs ++ [r]) <-> proof_in body proven o rs \/ proven r (one_by_one body o (rs ++ [r])) = true.
Proof.
  intros o rs r. split.
  - intros (h & x & rest & E & P). destruct rest as [|y rest].
    + apply app_inj_tail in E. destruct E as [-> ->]. right. exact P.
    + left. destruct (@exists_last _ (y :: rest)) as (rest' & z & E'); [discriminate|]. rewrite E' in E. rewrite app_comm_cons, app_assoc in E. apply app_inj_tail in E.
      destruct E as [-> ->]. exists h, x, rest'. split; [reflexivity|exact P].
  - intros [(h & x & rest & -> & P)|P].
    + exists h, x, (rest ++ [r]). rewrite <- app_assoc. split; [reflexivity|exact P].
    + exists rs, r, []. split; [reflexivity|exact P].
Qed.

Lemma flag_same : forall o0 e s s' ev ev', flag_inv o0 e s ev -> rs_end s' = rs_end s -> ~ In EMemory ev' -> ~ In ERelease ev' ->
  counted s' (map snd (acquired (ev ++ ev'))) = counted s (map snd (acquired ev)) -> flag_inv o0 e s' (ev ++ ev').
Proof.
  intros o0 e s s' ev ev' H E N1 N2 C. unfold flag_inv in *. rewrite E, C, H, !in_app_iff. tauto.
Qed.

Lemma flag_set : forall o0 e s' ev, rs_end s' = true -> In EMemory ev \/ In ERelease ev -> flag_inv o0 e s' ev.
Proof. intros o0 e s' ev H1 H2. unfold flag_inv. rewrite H1. tauto. Qed.

Lemma counted_start : forall s k rs, counted (start_task s k) rs = counted s rs.
Proof.
  intros s k rs. unfold counted, start_task. destruct (nth_error (rs_tasks s) k) as [[]|] eqn:N; try reflexivity. cbn. destruct (rs_lock s) as [j|]; [|reflexivity].
  destruct (Nat.eq_dec k j) as [<-|D]; [rewrite (nth_error_upd_same _ k (fun _ => TRun t) _ _ N), N; reflexivity|rewrite (nth_error_upd_other _ k j); [reflexivity|exact D]].
Qed.

Lemma main_flag : forall o0 e s ev s' ev', flag_inv o0 e s ev -> main_step s = Some (s', ev') -> flag_inv o0 e s' (ev ++ ev').
Proof.
  intros o0 e s ev s' ev' H E. unfold TaskRun_Model.main_step in E. cbv zeta in E. assert (SE : forall k, rs_end (start_task s k) = rs_end s) by (intro k; apply start_tasks).
  assert (ST : forall k m, flag_inv o0 e (set_main (start_task s k) m) (ev ++ [EStart k])).
  { intros k m. apply (flag_same o0 e s _ ev _ H); [apply SE|intros [|[]]; discriminate|intros [|[]]; discriminate|].
    rewrite acquired_app. cbn. rewrite app_nil_r. apply (counted_start s k). }
  assert (SM : forall m, flag_inv o0 e (set_main s m) (ev ++ [])).
  { intro m. apply (flag_same o0 e s _ ev _ H); [reflexivity|intros []|intros []|]. rewrite app_nil_r. reflexivity. }
  destruct (rs_main s) as [|k| |k|k|k| | |]; try discriminate.
  - injection E as <- <-. destruct memory_limit; [|apply SM].
    apply (flag_same o0 e s _ ev _ H); [reflexivity|intros []|intros []|]. rewrite app_nil_r. reflexivity.
  - destruct (Nat.ltb _ _); injection E as <- <-; apply ST.
  - destruct (task_done _ _); [|discriminate]. injection E as <- <-. apply SM.
  - destruct (Nat.ltb _ _); [destruct (task_done _ _); [|discriminate]|]; injection E as <- <-; apply SM.
  - destruct (Nat.ltb _ _); injection E as <- <-; [apply ST|apply SM].
  - destruct (task_done _ _); [|discriminate]. injection E as <- <-. apply SM.
  - destruct (rs_monitor s); injection E as <- <-; try apply SM; (apply flag_set; [reflexivity|right; apply in_or_app; right; left; reflexivity]).
  - destruct (rs_monitor s); try discriminate; injection E as <- <-; apply SM.
Qed.

Lemma monitor_flag : forall o0 e s ev ti me s' ev', flag_inv o0 e s ev -> monitor_step s ti me = Some (s', ev') -> flag_inv o0 e s' (ev ++ ev').
Proof.
  intros o0 e s ev ti me s' ev' H E. unfold monitor_step in E.
  assert (SM : forall m, flag_inv o0 e (set_monitor s m) (ev ++ [])).
  { intro m. apply (flag_same o0 e s _ ev _ H); [reflexivity|intros []|intros []|]. rewrite app_nil_r. reflexivity. }
  destruct (rs_monitor s); try discriminate; [| | |destruct me]; injection E as <- <-; try apply SM.
  apply flag_set; [reflexivity|left; apply in_or_app; right; left; reflexivity].
Qed.

Lemma task_flag : forall o0 e s ev k s' ev', lock_inv o0 s (acquired ev) -> flag_inv o0 e s ev -> task_step s k = Some (s', ev') -> flag_inv o0 e s' (ev ++ ev').
Proof.
  intros o0 e s ev k s' ev' [L1 L2] H E. unfold TaskRun_Model.task_step in E. destruct (nth_error (rs_tasks s) k) as [ts|] eqn:N; [|discriminate].
  assert (K : forall u, nth_error (upd k (fun _ => u) (rs_tasks s)) k = Some u) by (intro u; apply (nth_error_upd_same _ k (fun _ => u) _ _ N)).
  (* a step that leaves the mutex *)
  assert (SC : forall u rs, (forall t, ts <> TUnlock t) -> (forall t, u <> TUnlock t) -> counted (set_task s k u) rs = counted s rs).
  { intros u rs N1 N2. unfold counted. cbn. destruct (rs_lock s) as [j|]; [|reflexivity]. destruct (Nat.eq_dec k j) as [<-|D].
    - rewrite K, N. destruct u; try (exfalso; eapply N2; reflexivity); destruct ts; try (exfalso; eapply N1; reflexivity); reflexivity.
    - rewrite (nth_error_upd_other _ k j); [reflexivity|exact D]. }
  assert (SS : forall u o ev1, (forall t, ts <> TUnlock t) -> (forall t, u <> TUnlock t) -> (ev1 = [] \/ ev1 = [EFinish k]) -> flag_inv o0 e (set_output (set_task s k u) o) (ev ++ ev1)).
  { intros u o ev1 N1 N2 HE. apply (flag_same o0 e s _ ev _ H); [reflexivity|destruct HE as [-> | ->]; [intros []|intros [|[]]; discriminate]|destruct HE as [-> | ->]; [intros []|intros [|[]]; discriminate]|].
    rewrite acquired_app. assert (EA : acquired ev1 = []) by (destruct HE as [-> | ->]; reflexivity). rewrite EA, app_nil_r. apply (SC u); assumption. }
  assert (SU : forall u ev1, (forall t, ts <> TUnlock t) -> (forall t, u <> TUnlock t) -> (ev1 = [] \/ ev1 = [EFinish k]) -> flag_inv o0 e (set_task s k u) (ev ++ ev1)).
  { intros u ev1 N1 N2 HE. apply (SS u (rs_output s) ev1 N1 N2 HE). }
  destruct ts as [t|t|r t fs|r t|r t|t|x]; try discriminate.
  - destruct (op t) as [t'|f|r t'| |x].
    + injection E as <- <-. apply SU; try discriminate. left. reflexivity.
    + injection E as <- <-. apply SU; try discriminate. left. reflexivity.
    + destruct (rs_lock s) as [j|] eqn:L; [discriminate|]. injection E as <- <-.
      apply (flag_same o0 e s _ ev _ H); [reflexivity|intros [|[]]; discriminate|intros [|[]]; discriminate|].
      unfold counted. cbn. rewrite K, L, acquired_app, map_app. cbn. rewrite removelast_last. reflexivity.
    + injection E as <- <-. apply SU; try discriminate. right. reflexivity.
    + injection E as <- <-. apply SU; try discriminate. right. reflexivity.
  - destruct fs as [|f fs]; injection E as <- <-; [apply SU|apply SS]; try discriminate; left; reflexivity.
  - destruct (throws r (rs_output s)); injection E as <- <-; apply SU; try discriminate; [right|left]; reflexivity.
  - pose proof (L1 k _ N eq_refl) as L. rewrite L in L2. destruct L2 as (h & r' & ts & EA & N' & C). rewrite N in N'. injection N' as <-. destruct C as [-> C].
    injection E as <- <-. unfold flag_inv in *. unfold counted in *. cbn [rs_end set_end rs_lock set_task rs_tasks]. rewrite L in *. rewrite K. rewrite N in H.
    rewrite acquired_app, !in_app_iff. cbn [acquired]. rewrite app_nil_r, orb_true_iff, H, EA, map_app. cbn [map snd]. rewrite removelast_last, proof_in_snoc.
    rewrite C, EA, map_app. cbn [map snd In]. intuition discriminate.
  - pose proof (L1 k _ N eq_refl) as L. injection E as <- <-. apply (flag_same o0 e s _ ev _ H); [reflexivity|intros []|intros []|].
    rewrite app_nil_r. unfold counted. cbn. rewrite L, N. reflexivity.
Qed.

Lemma execute_flag : forall tasks o e l s ev, execute (run_start tasks o e) l = Some (s, ev) -> flag_inv o e s ev.
Proof.
  intros tasks o e l s ev H.
  assert (G : flag_inv o e s ev /\ lock_inv o s (acquired ev)); [|apply G].
  revert l s ev H. apply (execute_ind (run_start tasks o e) (fun s ev l => flag_inv o e s ev /\ lock_inv o s (acquired ev))).
  - split; [|apply start_lock]. unfold flag_inv. cbn. split; [tauto|]. intros [C|[[]|[[]|(h & r & rest & E & _)]]]; [exact C|]. destruct h; discriminate.
  - intros s ev l a s' ev' [F L] E. rewrite acquired_app. destruct a as [|k|ti me]; cbn in E.
    + split; [eapply main_flag|eapply main_lock]; eauto.
    + split; [eapply task_flag|eapply task_lock]; eauto.
    + split; [eapply monitor_flag|eapply monitor_lock]; eauto.
Qed.

(** ** Exceptions *)

Lemma rethrown_first : forall (s : RS) x, rethrown s = Some x <->
  exists k, nth_error (rs_tasks s) k = Some (TDone (Some x)) /\ forall j y, j < k -> nth_error (rs_tasks s) j <> Some (TDone (Some y)).
Proof.
  intros s x. unfold rethrown. generalize (rs_tasks s). intro ts. induction ts as [|u ts IH]; cbn.
  - split; [discriminate|]. intros (k & E & _). destruct k; discriminate.
  - assert (C : (exists y, u = TDone (Some y)) \/ (match u with TDone (Some _) => true | _ => false end) = false).
    { destruct u as [t|t|r t fs|r t|r t|t|[y|]]; try (right; reflexivity). left. exists y. reflexivity. }
    destruct C as [(y & ->)|C].
    + split.
      * intro E. injection E as ->. exists 0. split; [reflexivity|]. intros j z Hj. lia.
      * intros (k & E & F). destruct k as [|k]; [injection E as ->; reflexivity|]. exfalso. apply (F 0 y); [lia|reflexivity].
    + rewrite C, IH. split; intros (k & E & F).
      * exists (S k). split; [exact E|]. intros j y Hj. destruct j as [|j]; [|apply F; lia]. cbn. intro D. injection D as ->. discriminate.
      * destruct k as [|k]; [injection E as ->; discriminate|]. exists k. split; [exact E|]. intros j y Hj. apply (F (S j)). lia.
Qed.

End Proofs.

(** ** Tasks that only report *)

Section Scripts.
Variables R Out X : Type.
Variable body : R -> list (Out -> Out).
Variable throws : R -> Out -> option X.
Variable proven : R -> Out -> bool.
Variables parallel memory_limit : bool.
Hypothesis Hth : forall r o, throws r o = None.

(** A task given by the list of its reports. *)
Definition script_op (l : list R) : TaskOp (list R) R X :=
  match l with [] => OpReturn | r :: l' => OpReport r l' end.

Definition remaining (ts : TaskState (list R) R Out X) : list R :=
  match ts with
  | TNot l | TRun l | TUnlock l => l
  | TLocked _ l _ | TCall _ l | TFlag _ l => l
  | TDone _ => []
  end.

Lemma nth_error_split_upd : forall (A B : Type) (g : A -> B) l k x y, nth_error l k = Some x ->
  exists before after, map g l = before ++ g x :: after /\ map g (upd k (fun _ => y) l) = before ++ g y :: after.
Proof.
  intros A B g l. induction l as [|z l IH]; intros k x y H; destruct k as [|k]; cbn in H; try discriminate.
  - injection H as ->. exists [], (map g l). split; reflexivity.
  - destruct (IH k x y H) as (b & a & E1 & E2). exists (g z :: b), a. cbn. rewrite E1, E2. split; reflexivity.
Qed.

Lemma map_upd_same : forall (A B : Type) (g : A -> B) l k x y, nth_error l k = Some x -> g y = g x -> map g (upd k (fun _ => y) l) = map g l.
Proof.
  intros A B g l k x y H E. destruct (nth_error_split_upd A B g l k x y H) as (b & a & E1 & E2). rewrite E1, E2, E. reflexivity.
Qed.

Lemma script_step : forall s a s' ev h, step script_op body throws proven parallel memory_limit s a = Some (s', ev) ->
  interleaving (map remaining (rs_tasks s')) h -> interleaving (map remaining (rs_tasks s)) (map snd (acquired ev) ++ h).
Proof.
  intros s a s' ev h E H. destruct a as [|k|ti me]; cbn in E.
  - assert (G : map remaining (rs_tasks s') = map remaining (rs_tasks s) /\ acquired ev = []).
    { assert (SR : forall k, map remaining (rs_tasks (start_task s k)) = map remaining (rs_tasks s)).
      { intro k. unfold start_task. destruct (nth_error (rs_tasks s) k) as [[]|] eqn:N; try reflexivity. cbn. eapply map_upd_same; [exact N|reflexivity]. }
      unfold main_step in E. cbv zeta in E. destruct (rs_main s) as [|k| |k|k|k| | |]; try discriminate.
      - injection E as <- <-. split; [destruct memory_limit; reflexivity|reflexivity].
      - destruct (Nat.ltb _ _); injection E as <- <-; (split; [apply SR|reflexivity]).
      - destruct (task_done _ _); [|discriminate]. injection E as <- <-. split; reflexivity.
      - destruct (Nat.ltb _ _); [destruct (task_done _ _); [|discriminate]|]; injection E as <- <-; split; reflexivity.
      - destruct (Nat.ltb _ _); injection E as <- <-; (split; [try apply SR; reflexivity|reflexivity]).
      - destruct (task_done _ _); [|discriminate]. injection E as <- <-. split; reflexivity.
      - destruct (rs_monitor s); injection E as <- <-; split; reflexivity.
      - destruct (rs_monitor s); try discriminate; injection E as <- <-; split; reflexivity. }
    destruct G as [G1 G2]. rewrite G2, <- G1. exact H.
  - unfold task_step in E. destruct (nth_error (rs_tasks s) k) as [ts|] eqn:N; [|discriminate].
    destruct ts as [l|l|r l fs|r l|r l|l|x]; try discriminate.
    + destruct l as [|r l]; cbn [script_op] in E.
      * injection E as <- <-. cbn in *. erewrite map_upd_same in H; [exact H|exact N|reflexivity].
      * destruct (rs_lock s); [discriminate|]. injection E as <- <-. cbn in *.
        destruct (nth_error_split_upd _ _ remaining (rs_tasks s) k _ (TLocked r l (body r)) N) as (b & a & E1 & E2). rewrite E2 in H. rewrite E1. cbn in *.
        apply inter_step. exact H.
    + destruct fs as [|f fs]; injection E as <- <-; cbn in *; (erewrite map_upd_same in H; [exact H|exact N|reflexivity]).
    + rewrite Hth in E. injection E as <- <-; cbn in *; (erewrite map_upd_same in H; [exact H|exact N|reflexivity]).
    + injection E as <- <-; cbn in *; (erewrite map_upd_same in H; [exact H|exact N|reflexivity]).
    + injection E as <- <-; cbn in *; (erewrite map_upd_same in H; [exact H|exact N|reflexivity]).
  - unfold monitor_step in E. destruct (rs_monitor s); try discriminate; [| | |destruct me]; injection E as <- <-; exact H.
Qed.

Lemma script_execute : forall l s s' ev h, execute script_op body throws proven parallel memory_limit s l = Some (s', ev) ->
  interleaving (map remaining (rs_tasks s')) h -> interleaving (map remaining (rs_tasks s)) (map snd (acquired ev) ++ h).
Proof.
  induction l as [|a l IH]; intros s s' ev h E H; cbn [execute] in E.
  - injection E as <- <-. exact H.
  - destruct (step _ _ _ _ _ _ s a) as [[s1 ev1]|] eqn:S1; [|discriminate]. destruct (execute _ _ _ _ _ _ s1 l) as [[s2 ev2]|] eqn:F; [|discriminate].
    injection E as <- <-. rewrite acquired_app, map_app, <- app_assoc. eapply script_step; [exact S1|]. eapply IH; [exact F|exact H].
Qed.

End Scripts.
