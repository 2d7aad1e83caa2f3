(** * Proofs about the guillotine solution builder *)

From Coq Require Import List ZArith QArith Bool Lia Permutation.
From Verif Require Import Util Common_Model OneDim_Model Guil_Model Guil_Spec.
Import ListNotations.
Open Scope Z_scope.

(** ** Nodes after the elementary operations *)

Lemma gnode_upd : forall ns p f id, (p < length ns)%nat ->
  gnode (upd p f ns) id = if Nat.eqb p id then f (gnode ns id) else gnode ns id.
Proof. intros ns p f id H. unfold gnode. apply nth_upd; exact H. Qed.

Lemma gpush_length : forall ns p c, length (gpush_child ns p c) = S (length ns).
Proof. intros. unfold gpush_child. rewrite app_length, upd_length. simpl. lia. Qed.

Lemma gpush_new : forall ns p c, gnode (gpush_child ns p c) (length ns) = c.
Proof.
  intros. unfold gnode, gpush_child. rewrite app_nth2; rewrite upd_length; [|lia].
  rewrite Nat.sub_diag. reflexivity.
Qed.

Lemma gpush_old : forall ns p c id, (p < length ns)%nat -> (id < length ns)%nat ->
  gnode (gpush_child ns p c) id
  = if Nat.eqb p id then gn_add_child (gnode ns id) (length ns) else gnode ns id.
Proof.
  intros ns p c id Hp Hid. unfold gnode, gpush_child. rewrite app_nth1 by (rewrite upd_length; exact Hid).
  change (gnode (upd p (fun n => gn_add_child n (length ns)) ns) id
    = (if Nat.eqb p id then gn_add_child (gnode ns id) (length ns) else gnode ns id)).
  rewrite gnode_upd by exact Hp. reflexivity.
Qed.

(** The part of a node that does not change once it is created. *)
Definition geo (n : GNode) : option nat * Z * Z * Z * Z * Z :=
  (gn_f n, gn_d n, gn_l n, gn_r n, gn_b n, gn_t n).

Lemma gpush_geo : forall ns p c id, (p < length ns)%nat -> (id < length ns)%nat ->
  geo (gnode (gpush_child ns p c) id) = geo (gnode ns id).
Proof.
  intros ns p c id Hp Hid. rewrite gpush_old by assumption.
  destruct (Nat.eqb p id); reflexivity.
Qed.

Lemma geo_eq : forall n m, geo n = geo m ->
  gn_f n = gn_f m /\ gn_d n = gn_d m /\ gn_l n = gn_l m /\ gn_r n = gn_r m /\ gn_b n = gn_b m /\ gn_t n = gn_t m.
Proof. unfold geo. intros n m H. inversion H. auto 10. Qed.

Lemma cut_from_geo : forall o p p' c c', geo p = geo p' -> geo c = geo c' -> cut_from o p c -> cut_from o p' c'.
Proof.
  unfold cut_from. intros o p p' c c' Hp Hc.
  destruct (geo_eq _ _ Hp) as (_ & -> & -> & -> & -> & ->).
  destruct (geo_eq _ _ Hc) as (_ & -> & -> & -> & -> & ->). auto.
Qed.

Lemma starts_geo : forall o n m, geo n = geo m -> starts o n = starts o m.
Proof.
  unfold starts. intros o n m H. destruct (geo_eq _ _ H) as (_ & -> & E1 & E2 & E3 & E4).
  rewrite ?E1, ?E2, ?E3, ?E4. reflexivity.
Qed.
Lemma ends_geo : forall o n m, geo n = geo m -> ends o n = ends o m.
Proof.
  unfold ends. intros o n m H. destruct (geo_eq _ _ H) as (_ & -> & E1 & E2 & E3 & E4).
  rewrite ?E1, ?E2, ?E3, ?E4. reflexivity.
Qed.
Lemma fstart_geo : forall o n m, geo n = geo m -> father_start o n = father_start o m.
Proof.
  unfold father_start. intros o n m H. destruct (geo_eq _ _ H) as (_ & -> & E1 & E2 & E3 & E4).
  rewrite ?E1, ?E2, ?E3, ?E4. reflexivity.
Qed.
Lemma fend_geo : forall o n m, geo n = geo m -> father_end o n = father_end o m.
Proof.
  unfold father_end. intros o n m H. destruct (geo_eq _ _ H) as (_ & -> & E1 & E2 & E3 & E4).
  rewrite ?E1, ?E2, ?E3, ?E4. reflexivity.
Qed.

Lemma vertical_same : forall o d, gvertical o d = vertical_at o d.
Proof.
  intros [ | |] d; simpl; [| |reflexivity].
  - rewrite Zeven_mod. unfold Zeq_bool. destruct (d mod 2); reflexivity.
  - rewrite Zodd_mod. unfold Zeq_bool.
    pose proof (Z.mod_pos_bound d 2 ltac:(lia)) as H.
    assert (E : d mod 2 = 0 \/ d mod 2 = 1) by lia. destruct E as [-> | ->]; reflexivity.
Qed.

(** ** The chain of the parts cut from a node *)

Fixpoint chain (o : GOrient) (ct : Z) (ns : list GNode) (start : Z) (cs : list nat) : Prop :=
  match cs with
  | [] => True
  | c :: cs' => starts o (gnode ns c) = start /\ chain o ct ns (ends o (gnode ns c) + ct) cs'
  end.

Definition next_start (o : GOrient) (ct : Z) (ns : list GNode) (start : Z) (cs : list nat) : Z :=
  match rev cs with [] => start | c :: _ => ends o (gnode ns c) + ct end.

Lemma next_start_cons : forall o ct ns start c cs,
  next_start o ct ns start (c :: cs) = next_start o ct ns (ends o (gnode ns c) + ct) cs.
Proof.
  intros. unfold next_start. simpl. destruct (rev cs); reflexivity.
Qed.

Lemma chain_snoc : forall o ct ns c cs start,
  chain o ct ns start (cs ++ [c])
  <-> chain o ct ns start cs /\ starts o (gnode ns c) = next_start o ct ns start cs.
Proof.
  intros o ct ns c. induction cs as [|a cs IH]; intros start; simpl.
  - unfold next_start. simpl. tauto.
  - rewrite IH, next_start_cons. tauto.
Qed.

Lemma chain_ext : forall o ct ns ns' cs start,
  (forall c, In c cs -> geo (gnode ns' c) = geo (gnode ns c)) -> chain o ct ns start cs -> chain o ct ns' start cs.
Proof.
  intros o ct ns ns'. induction cs as [|c cs IH]; intros start H Hc; simpl in *; [exact I|].
  destruct Hc as [H1 H2]. split.
  - rewrite (starts_geo o _ (gnode ns c)) by (apply H; left; reflexivity). exact H1.
  - rewrite (ends_geo o _ (gnode ns c)) by (apply H; left; reflexivity).
    apply IH; [|exact H2]. intros x Hx. apply H. right. exact Hx.
Qed.

Lemma next_start_ext : forall o ct ns ns' cs start,
  (forall c, In c cs -> geo (gnode ns' c) = geo (gnode ns c)) -> next_start o ct ns' start cs = next_start o ct ns start cs.
Proof.
  intros o ct ns ns' cs start H. unfold next_start. destruct (rev cs) as [|c r] eqn:E; [reflexivity|].
  rewrite (ends_geo o _ (gnode ns c)); [reflexivity|]. apply H. rewrite in_rev, E. left. reflexivity.
Qed.

(** ** The invariant of the nodes of a bin *)

Section Inv.

Variable i : GInstance.
Variable o : GOrient.
Variable ct : Z.
Hypothesis Hct : 0 <= ct.
Variable init : list GNode.
Variable base : nat.

Definition item_ok (n : GNode) : Prop :=
  0 <= gn_item n -> gn_f n <> None ->
  gn_children n = [] /\ (Z.to_nat (gn_item n) < length (gin_items i))%nat
  /\ has_dimensions n (gi_w (gitem i (Z.to_nat (gn_item n)))) (gi_h (gitem i (Z.to_nat (gn_item n)))).

Record Inv (ns : list GNode) : Prop := {
  iv_base : (base < length ns)%nat;
  iv_before : forall id, (id < base)%nat -> gnode ns id = gnode init id;
  iv_at : geo (gnode ns base) = geo (gnode init base);
  iv_father : forall id, (base < id < length ns)%nat ->
    exists p, gn_f (gnode ns id) = Some p /\ (base <= p < id)%nat
      /\ In id (gn_children (gnode ns p)) /\ cut_from o (gnode ns p) (gnode ns id);
  iv_children : forall p c, (base <= p < length ns)%nat -> In c (gn_children (gnode ns p)) ->
    (base < c < length ns)%nat /\ gn_f (gnode ns c) = Some p;
  iv_chain : forall p, (base <= p < length ns)%nat ->
    chain o ct ns (father_start o (gnode ns p)) (gn_children (gnode ns p));
  iv_items : forall id, (base <= id < length ns)%nat -> item_ok (gnode ns id);
  iv_order : forall id p k, (base < id < length ns)%nat -> gn_f (gnode ns id) = Some p -> (p < k < id)%nat ->
    gn_d (gnode ns id) <= gn_d (gnode ns k)
}.

(** A new part of [p]. *)
Lemma push_inv : forall ns p c, Inv ns -> (base <= p < length ns)%nat ->
  gn_f c = Some p -> cut_from o (gnode ns p) c -> gn_children c = [] -> gn_item c = -1 ->
  starts o c = next_start o ct ns (father_start o (gnode ns p)) (gn_children (gnode ns p)) ->
  (0 <= gn_item (gnode ns p) -> gn_f (gnode ns p) = None) ->
  (forall k, (p < k < length ns)%nat -> gn_d (gnode ns p) < gn_d (gnode ns k)) ->
  Inv (gpush_child ns p c).
Proof.
  intros ns p c HI Hp Hf Hcut Hch Hit Hst Hpi Hlast.
  assert (Hgeo : forall id, (id < length ns)%nat -> geo (gnode (gpush_child ns p c) id) = geo (gnode ns id))
    by (intros id Hid; apply gpush_geo; [lia|exact Hid]).
  assert (Hbase := iv_base _ HI).
  constructor.
  - rewrite gpush_length. lia.
  - intros id Hid. rewrite gpush_old by lia.
    destruct (Nat.eqb_spec p id) as [->|]; [lia|]. apply (iv_before _ HI); exact Hid.
  - rewrite Hgeo by lia. apply (iv_at _ HI).
  - rewrite gpush_length. intros id Hid.
    destruct (Nat.eq_dec id (length ns)) as [->|Hne].
    + exists p. rewrite gpush_new. split; [exact Hf|]. split; [lia|]. split.
      * rewrite gpush_old by lia. rewrite Nat.eqb_refl. simpl. apply in_or_app. right. left. reflexivity.
      * eapply cut_from_geo; [| reflexivity | exact Hcut]. symmetry. apply Hgeo. lia.
    + destruct (iv_father _ HI id ltac:(lia)) as (q & H1 & H2 & H3 & H4).
      exists q. destruct (geo_eq _ _ (Hgeo id ltac:(lia))) as [-> _]. split; [exact H1|]. split; [lia|]. split.
      * rewrite gpush_old by lia. destruct (Nat.eqb p q); [|exact H3].
        simpl. apply in_or_app. left. exact H3.
      * eapply cut_from_geo; [| |exact H4]; symmetry; apply Hgeo; lia.
  - rewrite gpush_length. intros q k Hq Hk.
    destruct (Nat.eq_dec q (length ns)) as [->|Hne].
    { rewrite gpush_new, Hch in Hk. destruct Hk. }
    assert (Hold : In k (gn_children (gnode ns q)) -> (base < k < S (length ns))%nat
      /\ gn_f (gnode (gpush_child ns p c) k) = Some q).
    { intros H. destruct (iv_children _ HI q k ltac:(lia) H) as [H1 H2]. split; [lia|].
      destruct (geo_eq _ _ (Hgeo k ltac:(lia))) as [-> _]. exact H2. }
    rewrite gpush_old in Hk by lia. destruct (Nat.eqb_spec p q) as [<-|Hpq].
    + simpl in Hk. apply in_app_or in Hk. destruct Hk as [Hk|[<-|[]]]; [apply Hold; exact Hk|].
      split; [lia|]. rewrite gpush_new. exact Hf.
    + apply Hold. exact Hk.
  - rewrite gpush_length. intros q Hq.
    destruct (Nat.eq_dec q (length ns)) as [->|Hne].
    { rewrite gpush_new, Hch. exact I. }
    rewrite (fstart_geo o _ _ (Hgeo q ltac:(lia))).
    assert (Hin : forall k, In k (gn_children (gnode ns q)) -> geo (gnode (gpush_child ns p c) k) = geo (gnode ns k)).
    { intros k Hk. apply Hgeo. apply (iv_children _ HI q k ltac:(lia)) in Hk. lia. }
    assert (Hch' := chain_ext o ct ns _ _ (father_start o (gnode ns q)) Hin (iv_chain _ HI q ltac:(lia))).
    rewrite gpush_old by lia. destruct (Nat.eqb_spec p q) as [<-|Hpq]; [|exact Hch'].
    cbn [gn_children gn_add_child]. apply chain_snoc. split; [exact Hch'|].
    rewrite gpush_new, (next_start_ext _ _ _ _ _ _ Hin). exact Hst.
  - rewrite gpush_length. intros id Hid.
    destruct (Nat.eq_dec id (length ns)) as [->|Hne].
    { rewrite gpush_new. intros H. rewrite Hit in H. lia. }
    rewrite gpush_old by lia. destruct (Nat.eqb_spec p id) as [<-|Hpq].
    + intros H1 H2. cbn [gn_add_child gn_item gn_f] in H1, H2. exfalso. apply H2, Hpi, H1.
    + apply (iv_items _ HI id ltac:(lia)).
  - rewrite gpush_length. intros id q k Hid Hq Hk.
    destruct (geo_eq _ _ (Hgeo k ltac:(lia))) as (_ & -> & _).
    destruct (Nat.eq_dec id (length ns)) as [->|Hne].
    + rewrite gpush_new in Hq |- *. rewrite Hf in Hq. inversion Hq. subst q.
      destruct Hcut as [-> _]. specialize (Hlast k ltac:(lia)). lia.
    + destruct (geo_eq _ _ (Hgeo id ltac:(lia))) as (E1 & -> & _). rewrite E1 in Hq.
      apply (iv_order _ HI id q k ltac:(lia) Hq Hk).
Qed.

Lemma item_inv : forall ns p x, Inv ns -> (base <= p < length ns)%nat ->
  item_ok (gn_with_item (gnode ns p) x) ->
  Inv (upd p (fun n => gn_with_item n x) ns).
Proof.
  intros ns p x HI Hp Hx.
  assert (Hg : forall id, geo (gnode (upd p (fun n => gn_with_item n x) ns) id) = geo (gnode ns id)).
  { intros id. rewrite gnode_upd by lia. destruct (Nat.eqb p id); reflexivity. }
  assert (Hc : forall id, gn_children (gnode (upd p (fun n => gn_with_item n x) ns) id) = gn_children (gnode ns id)).
  { intros id. rewrite gnode_upd by lia. destruct (Nat.eqb p id); reflexivity. }
  constructor; try rewrite upd_length.
  - apply (iv_base _ HI).
  - intros id Hid. rewrite gnode_upd by lia. destruct (Nat.eqb_spec p id) as [->|]; [lia|].
    apply (iv_before _ HI); exact Hid.
  - rewrite Hg. apply (iv_at _ HI).
  - intros id Hid. destruct (iv_father _ HI id Hid) as (q & H1 & H2 & H3 & H4). exists q.
    destruct (geo_eq _ _ (Hg id)) as [-> _]. rewrite Hc. split; [exact H1|]. split; [exact H2|]. split; [exact H3|].
    eapply cut_from_geo; [symmetry; apply Hg|symmetry; apply Hg|exact H4].
  - intros q k Hq Hk. rewrite Hc in Hk. destruct (geo_eq _ _ (Hg k)) as [-> _]. apply (iv_children _ HI q k Hq Hk).
  - intros q Hq. rewrite Hc, (fstart_geo o _ _ (Hg q)).
    eapply chain_ext; [|apply (iv_chain _ HI q Hq)]. intros k _. apply Hg.
  - intros id Hid. rewrite gnode_upd by lia. destruct (Nat.eqb_spec p id) as [<-|]; [exact Hx|].
    apply (iv_items _ HI id Hid).
  - intros id q k Hid Hq Hk. destruct (geo_eq _ _ (Hg id)) as (E1 & -> & _). rewrite E1 in Hq.
    destruct (geo_eq _ _ (Hg k)) as (_ & -> & _). apply (iv_order _ HI id q k Hid Hq Hk).
Qed.

Lemma last_no_children : forall ns, Inv ns -> gn_children (gnode ns (length ns - 1)) = [].
Proof.
  intros ns HI. assert (Hb := iv_base _ HI).
  destruct (gn_children (gnode ns (length ns - 1))) as [|c cs] eqn:E; [reflexivity|exfalso].
  destruct (iv_children _ HI (length ns - 1) c ltac:(lia)) as [H1 H2].
  { rewrite E. left. reflexivity. }
  destruct (iv_father _ HI c H1) as (q & H3 & H4 & _). rewrite H2 in H3. inversion H3. subst q. lia.
Qed.

(** Depths. *)
Hypothesis Hinit_d : gn_d (gnode init base) = 0.

Lemma inv_base_d : forall ns, Inv ns -> gn_d (gnode ns base) = 0.
Proof. intros ns HI. destruct (geo_eq _ _ (iv_at _ HI)) as (_ & -> & _). exact Hinit_d. Qed.

Lemma inv_depth : forall ns, Inv ns -> forall id, (base < id < length ns)%nat -> 1 <= gn_d (gnode ns id).
Proof.
  intros ns HI. induction id as [id IH] using lt_wf_ind. intros Hid.
  destruct (iv_father _ HI id Hid) as (p & H1 & H2 & _ & H3). destruct H3 as [H3 _].
  destruct (Nat.eq_dec p base) as [->|Hne].
  - rewrite (inv_base_d _ HI) in H3. lia.
  - specialize (IH p ltac:(lia) ltac:(lia)). lia.
Qed.

(** Ends and starts of a part. *)
Lemma cut_from_axis : forall p c, cut_from o p c ->
  father_start o p <= starts o c /\ starts o c < ends o c /\ ends o c <= father_end o p.
Proof.
  unfold cut_from, father_start, father_end, starts, ends. intros p c [-> H].
  destruct (vertical_at o (gn_d p + 1)); lia.
Qed.

Lemma chain_pairs : forall ns cs start,
  (forall c, In c cs -> starts o (gnode ns c) < ends o (gnode ns c)) -> chain o ct ns start cs ->
  ForallOrdPairs (fun j k => ends o (gnode ns j) + ct <= starts o (gnode ns k)) cs
  /\ forall c, In c cs -> start <= starts o (gnode ns c).
Proof.
  intros ns. induction cs as [|c cs IH]; intros start Hw Hc; simpl in Hc.
  - split; [constructor|intros c []].
  - destruct Hc as [H1 H2]. destruct (IH _ (fun x Hx => Hw x (or_intror Hx)) H2) as [IH1 IH2]. split.
    + constructor; [|exact IH1]. apply Forall_forall. exact IH2.
    + intros x [<-|Hx]; [lia|]. specialize (IH2 x Hx). specialize (Hw c (or_introl eq_refl)). lia.
Qed.

Lemma chain_pred : forall ns cs start, chain o ct ns start cs -> forall c, In c cs ->
  starts o (gnode ns c) = start \/ exists j, In j cs /\ starts o (gnode ns c) = ends o (gnode ns j) + ct.
Proof.
  intros ns. induction cs as [|a cs IH]; intros start Hc c Hin; [destruct Hin|].
  simpl in Hc. destruct Hc as [H1 H2]. destruct Hin as [<-|Hin]; [left; exact H1|].
  right. destruct (IH _ H2 c Hin) as [H|(j & Hj & H)].
  - exists a. split; [left; reflexivity|exact H].
  - exists j. split; [right; exact Hj|exact H].
Qed.

(** Brothers are apart. *)
Lemma inv_brothers : forall ns, Inv ns -> forall j k, (base < j < length ns)%nat -> (base < k < length ns)%nat ->
  j <> k -> gn_f (gnode ns j) = gn_f (gnode ns k) ->
  after o ct (gnode ns j) (gnode ns k) \/ after o ct (gnode ns k) (gnode ns j).
Proof.
  intros ns HI j k Hj Hk Hne Hf.
  destruct (iv_father _ HI j Hj) as (p & J1 & J2 & J3 & J4).
  destruct (iv_father _ HI k Hk) as (q & K1 & K2 & K3 & K4).
  rewrite Hf, K1 in J1. inversion J1. subst q. clear J1.
  destruct (chain_pairs ns (gn_children (gnode ns p)) (father_start o (gnode ns p))) as [HP _];
    [|apply (iv_chain _ HI p); lia|].
  { intros c Hc. destruct (iv_children _ HI p c ltac:(lia) Hc) as [C1 C2].
    destruct (iv_father _ HI c C1) as (q & C3 & _ & _ & C4). apply cut_from_axis in C4. lia. }
  assert (Hd : gn_d (gnode ns j) = gn_d (gnode ns k)) by (destruct J4, K4; lia).
  destruct (ForallOrdPairs_In HP j k J3 K3) as [H|[H|H]]; [contradiction| |];
    unfold starts, ends in H; unfold after; rewrite Hd in *; destruct (vertical_at o (gn_d (gnode ns k))); auto.
Qed.

(** ** Completeness: every cut node is entirely cut *)

Definition done (ns : list GNode) (p : nat) : Prop :=
  gn_children (gnode ns p) = []
  \/ father_end o (gnode ns p) <= next_start o ct ns (father_start o (gnode ns p)) (gn_children (gnode ns p)).

Inductive anc (ns : list GNode) (a : nat) : nat -> Prop :=
| anc_refl : anc ns a a
| anc_step : forall p b, gn_f (gnode ns b) = Some p -> anc ns a p -> anc ns a b.

Lemma anc_trans : forall ns a b c, anc ns a b -> anc ns b c -> anc ns a c.
Proof. intros ns a b c H1 H2. induction H2; [exact H1|]. eapply anc_step; eauto. Qed.

Lemma anc_geo : forall ns ns' a b,
  (forall id, (id <= b)%nat -> geo (gnode ns' id) = geo (gnode ns id)) ->
  (forall id p, (id <= b)%nat -> gn_f (gnode ns id) = Some p -> (p <= id)%nat) ->
  anc ns a b -> anc ns' a b.
Proof.
  intros ns ns' a b Hg Hd H. induction H as [|p b Hf H IH]; [apply anc_refl|].
  eapply anc_step.
  - destruct (geo_eq _ _ (Hg b (le_n _))) as [-> _]. exact Hf.
  - specialize (Hd b p (le_n _) Hf) as Hpb. apply IH; intros id.
    + intros Hid. apply Hg. lia.
    + intros q Hid. apply Hd. lia.
Qed.

(** The path from a node to the top is decreasing. *)
Hypothesis Hinit_f : forall id p, (id <= base)%nat -> gn_f (gnode init id) = Some p -> (p < id)%nat.

Lemma inv_desc : forall ns, Inv ns -> forall id p, (id < length ns)%nat -> gn_f (gnode ns id) = Some p -> (p < id)%nat.
Proof.
  intros ns HI id p Hid Hf. destruct (Nat.lt_trichotomy id base) as [H|[->|H]].
  - rewrite (iv_before _ HI id H) in Hf. apply (Hinit_f id p); [lia|exact Hf].
  - destruct (geo_eq _ _ (iv_at _ HI)) as [E _]. rewrite E in Hf. apply (Hinit_f base p); [lia|exact Hf].
  - destruct (iv_father _ HI id ltac:(lia)) as (q & H1 & H2 & _). rewrite Hf in H1. inversion H1. subst q. lia.
Qed.

Lemma push_anc : forall ns p c a b, Inv ns -> (p < length ns)%nat -> (b < length ns)%nat ->
  anc ns a b -> anc (gpush_child ns p c) a b.
Proof.
  intros ns p c a b HI Hp Hb H. eapply anc_geo; [| |exact H].
  - intros id Hid. apply gpush_geo; lia.
  - intros id q Hid Hf. apply (inv_desc _ HI) in Hf; lia.
Qed.

Lemma upd_anc : forall ns p x a b, (p < length ns)%nat ->
  anc ns a b -> anc (upd p (fun n => gn_with_item n x) ns) a b.
Proof.
  intros ns p x a b Hp H. induction H as [|q b Hf H IH]; [apply anc_refl|].
  eapply anc_step; [|exact IH]. rewrite gnode_upd by exact Hp. destruct (Nat.eqb p b); exact Hf.
Qed.

Lemma push_done : forall ns p c q, Inv ns -> (base <= p < length ns)%nat -> (base <= q < length ns)%nat ->
  q <> p -> done ns q -> done (gpush_child ns p c) q.
Proof.
  intros ns p c q HI Hp Hq Hne Hd.
  assert (E : gnode (gpush_child ns p c) q = gnode ns q).
  { rewrite gpush_old by lia. destruct (Nat.eqb_spec p q); [congruence|reflexivity]. }
  unfold done. rewrite E. destruct Hd as [Hd|Hd]; [left; exact Hd|right].
  rewrite (next_start_ext o ct ns); [exact Hd|].
  intros k Hk. apply gpush_geo; [lia|]. apply (iv_children _ HI q k Hq) in Hk. lia.
Qed.

Lemma upd_done : forall ns p x q, (p < length ns)%nat -> done ns q ->
  done (upd p (fun n => gn_with_item n x) ns) q.
Proof.
  intros ns p x q Hp Hd.
  assert (Hg : forall id, geo (gnode (upd p (fun n => gn_with_item n x) ns) id) = geo (gnode ns id)).
  { intros id. rewrite gnode_upd by lia. destruct (Nat.eqb p id); reflexivity. }
  assert (Hc : gn_children (gnode (upd p (fun n => gn_with_item n x) ns) q) = gn_children (gnode ns q)).
  { rewrite gnode_upd by lia. destruct (Nat.eqb p q); reflexivity. }
  unfold done. rewrite Hc, (fend_geo o _ _ (Hg q)), (fstart_geo o _ _ (Hg q)).
  destruct Hd as [Hd|Hd]; [left; exact Hd|right]. rewrite (next_start_ext o ct ns); [exact Hd|].
  intros k _. apply Hg.
Qed.

(** What follows an ancestor of the last node is below it. *)
Lemma anc_after : forall ns, Inv ns -> forall a b, anc ns a b -> (base <= a)%nat -> (b < length ns)%nat ->
  forall k, (a < k <= b)%nat -> gn_d (gnode ns a) < gn_d (gnode ns k).
Proof.
  intros ns HI a b H Ha. induction H as [|p b Hf H IH]; intros Hb k Hk; [lia|].
  pose proof (inv_desc _ HI b p Hb Hf) as Hpb. specialize (IH ltac:(lia)).
  destruct (le_lt_dec k p) as [Hkp|Hkp]; [apply IH; lia|].
  assert (Hap : (a <= p)%nat).
  { clear -H HI Hpb Hb Hinit_f. assert (Hp : (p < length ns)%nat) by lia. clear Hpb.
    induction H as [|q p Hq H IH]; [lia|]. pose proof (inv_desc _ HI p q Hp Hq). specialize (IH ltac:(lia)). lia. }
  destruct (iv_father _ HI b ltac:(lia)) as (q & Q1 & _ & _ & Q3). rewrite Hf in Q1. inversion Q1. subst q.
  destruct Q3 as [Q3 _].
  assert (Hp : gn_d (gnode ns a) <= gn_d (gnode ns p)).
  { destruct (Nat.eq_dec a p) as [->|Hne]; [lia|]. specialize (IH p ltac:(lia)). lia. }
  destruct (Nat.eq_dec k b) as [->|Hkb]; [lia|].
  pose proof (iv_order _ HI b p k ltac:(lia) Hf ltac:(lia)). lia.
Qed.

(** [gfinish] finishes a node of the tree. *)
Lemma finish_spec : forall ns p, Inv ns -> (base <= p < length ns)%nat ->
  (forall k, (p < k < length ns)%nat -> gn_d (gnode ns p) < gn_d (gnode ns k)) ->
  Inv (gfinish ct ns p) /\ done (gfinish ct ns p) p
  /\ (gfinish ct ns p = ns \/ exists c, gfinish ct ns p = gpush_child ns p c /\ gn_f c = Some p).
Proof.
  intros ns p HI Hp Hlast. unfold gfinish.
  destruct (rev (gn_children (gnode ns p))) as [|c r] eqn:E.
  { assert (E' : gn_children (gnode ns p) = []) by (rewrite <- (rev_involutive (gn_children (gnode ns p))), E; reflexivity).
    split; [exact HI|]. split; [left; exact E'|left; reflexivity]. }
  assert (Hc : In c (gn_children (gnode ns p))) by (rewrite in_rev, E; left; reflexivity).
  destruct (iv_children _ HI p c ltac:(lia) Hc) as [C1 C2].
  destruct (iv_father _ HI c C1) as (q & C3 & _ & _ & C4). rewrite C2 in C3. inversion C3. subst q. clear C3.
  assert (Hpi : 0 <= gn_item (gnode ns p) -> gn_f (gnode ns p) = None).
  { intros H. destruct (gn_f (gnode ns p)) as [f|] eqn:F; [exfalso|reflexivity].
    destruct (iv_items _ HI p Hp H) as [H1 _]; [rewrite F; discriminate|]. rewrite H1 in Hc. destruct Hc. }
  assert (Hns : forall s, next_start o ct ns s (gn_children (gnode ns p)) = ends o (gnode ns c) + ct)
    by (intros s; unfold next_start; rewrite E; reflexivity).
  assert (Hpush : forall n, gn_f n = Some p -> cut_from o (gnode ns p) n -> gn_children n = [] -> gn_item n = -1 ->
    starts o n = ends o (gnode ns c) + ct -> father_end o (gnode ns p) <= ends o n ->
    Inv (gpush_child ns p n) /\ done (gpush_child ns p n) p).
  { intros n N1 N2 N3 N4 N5 N6. split.
    - apply push_inv; try assumption. rewrite Hns. exact N5.
    - right. rewrite gpush_old by lia. rewrite Nat.eqb_refl. unfold next_start.
      cbn [gn_add_child gn_children]. rewrite rev_unit, gpush_new.
      change (father_end o (gn_add_child (gnode ns p) (length ns))) with (father_end o (gnode ns p)). lia. }
  assert (CF := C4). unfold cut_from in CF. destruct CF as [D CF].
  assert (Hst : father_end o (gnode ns p) <= ends o (gnode ns c) + ct -> done ns p).
  { intros H. right. rewrite Hns. exact H. }
  unfold ends, father_end, starts in *. rewrite D in *.
  destruct (Z.ltb_spec (gn_r (gnode ns c) + ct) (gn_r (gnode ns p))) as [Hr|Hr].
  - assert (V : vertical_at o (gn_d (gnode ns p) + 1) = true).
    { destruct (vertical_at o (gn_d (gnode ns p) + 1)); [reflexivity|lia]. }
    rewrite V in *. match goal with |- Inv (gpush_child _ _ ?n) /\ _ => specialize (Hpush n) end.
    unfold cut_from in Hpush. cbn [gn_f gn_d gn_children gn_item gn_l gn_r gn_b gn_t] in Hpush.
    rewrite V in Hpush. destruct Hpush as [G1 G2]; try reflexivity; try lia.
    split; [exact G1|]. split; [exact G2|]. right. eexists. split; reflexivity.
  - destruct (Z.ltb_spec (gn_t (gnode ns c) + ct) (gn_t (gnode ns p))) as [Ht|Ht].
    + assert (V : vertical_at o (gn_d (gnode ns p) + 1) = false).
      { destruct (vertical_at o (gn_d (gnode ns p) + 1)); [lia|reflexivity]. }
      rewrite V in *. match goal with |- Inv (gpush_child _ _ ?n) /\ _ => specialize (Hpush n) end.
      unfold cut_from in Hpush. cbn [gn_f gn_d gn_children gn_item gn_l gn_r gn_b gn_t] in Hpush.
      rewrite V in Hpush. destruct Hpush as [G1 G2]; try reflexivity; try lia.
      split; [exact G1|]. split; [exact G2|]. right. eexists. split; reflexivity.
    + split; [exact HI|]. split; [|left; reflexivity]. apply Hst.
      destruct (vertical_at o (gn_d (gnode ns p) + 1)); lia.
Qed.

(** While climbing: everything is finished but the ancestors of the current
    node, which is an ancestor of the last node. *)
Definition Open (ns : list GNode) (cur : nat) : Prop :=
  (cur < length ns)%nat
  /\ (forall q, (base <= q < length ns)%nat -> done ns q \/ anc ns q cur)
  /\ anc ns cur (length ns - 1).

Lemma open_after : forall ns p, Inv ns -> (base <= p)%nat -> Open ns p ->
  forall k, (p < k < length ns)%nat -> gn_d (gnode ns p) < gn_d (gnode ns k).
Proof.
  intros ns p HI Hb (Hp & _ & H) k Hk. apply (anc_after ns HI p (length ns - 1) H Hb); lia.
Qed.

Lemma finish_open : forall ns p, Inv ns -> (base <= p)%nat -> Open ns p ->
  Open (gfinish ct ns p) p /\ done (gfinish ct ns p) p
  /\ geo (gnode (gfinish ct ns p) p) = geo (gnode ns p).
Proof.
  intros ns p HI Hb HO. pose proof HO as (Hp & H1 & H2).
  destruct (finish_spec ns p HI ltac:(lia) (open_after ns p HI Hb HO)) as (F1 & F2 & F3).
  destruct F3 as [F3|(c & F3 & Hc)]; [rewrite F3 in *; split; [split; [exact Hp|split; assumption]|split; [exact F2|reflexivity]]|].
  rewrite F3 in *. split; [|split; [exact F2|apply gpush_geo; lia]].
  split; [rewrite gpush_length; lia|]. split.
  - rewrite gpush_length. intros q Hq. destruct (Nat.eq_dec q (length ns)) as [->|Hne].
    + left. left. rewrite gpush_new.
      pose proof (last_no_children _ F1) as L. rewrite gpush_length in L. simpl in L.
      rewrite Nat.sub_0_r, gpush_new in L. exact L.
    + destruct (Nat.eq_dec q p) as [->|Hqp]; [left; exact F2|].
      destruct (H1 q ltac:(lia)) as [D|A].
      * left. apply push_done; try assumption; lia.
      * right. apply push_anc; try assumption.
  - rewrite gpush_length. simpl. rewrite Nat.sub_0_r.
    eapply anc_step; [rewrite gpush_new; exact Hc|apply anc_refl].
Qed.

Lemma open_up : forall ns p q, Inv ns -> Open ns p -> done ns p -> gn_f (gnode ns p) = Some q -> Open ns q.
Proof.
  intros ns p q HI (Hp & H1 & H2) Hd Hf.
  assert (Hq : (q < p)%nat) by (apply (inv_desc _ HI p q); assumption).
  split; [lia|]. split.
  - intros k Hk. destruct (H1 k Hk) as [D|A]; [left; exact D|].
    inversion A as [E|r b F A']; subst; [left; exact Hd|]. rewrite Hf in F. inversion F. subst r. right. exact A'.
  - eapply anc_trans; [|exact H2]. eapply anc_step; [exact Hf|apply anc_refl].
Qed.

Lemma gclimb_spec : forall fuel ns p depth, Inv ns -> (base <= p)%nat -> Open ns p ->
  1 <= depth -> depth - 1 <= gn_d (gnode ns p) -> (p <= fuel)%nat ->
  exists ns' p', gclimb fuel ct ns p depth = Some (ns', p') /\ Inv ns' /\ (base <= p')%nat
    /\ Open ns' p' /\ gn_d (gnode ns' p') = depth - 1.
Proof.
  induction fuel as [|fuel IH]; intros ns p depth HI Hb Ho Hd Hdp Hf; simpl.
  - destruct (Z.eqb_spec (gn_d (gnode ns p)) (depth - 1)) as [E|E].
    + exists ns, p. auto 10.
    + exfalso. assert (p = 0%nat) by lia. subst p. assert (base = 0%nat) by lia. 
      rewrite <- H in E at 1. rewrite <- H in Hdp. rewrite (inv_base_d _ HI) in *. lia.
  - destruct (Z.eqb_spec (gn_d (gnode ns p)) (depth - 1)) as [E|E].
    + exists ns, p. auto 10.
    + destruct (finish_spec ns p HI) as (F1 & F2 & _). { destruct Ho. lia. } { apply open_after; assumption. }
      destruct (finish_open ns p HI Hb Ho) as (G1 & _ & G2).
      assert (Hne : p <> base).
      { intros ->. rewrite (inv_base_d _ HI) in *. lia. }
      assert (Hlt : (p < length (gfinish ct ns p))%nat) by (destruct G1; assumption).
      destruct (iv_father _ F1 p) as (q & Q1 & Q2 & _ & Q3); [lia|].
      rewrite Q1. destruct (geo_eq _ _ G2) as (_ & D & _).
      apply IH; try assumption; try lia.
      * eapply open_up; eassumption.
      * destruct Q3 as [Q3 _]. lia.
Qed.

(** The last node of a history is on the open path. *)
Definition Good (ns : list GNode) : Prop := Inv ns /\ Open ns (length ns - 1).

Lemma open_last : forall ns p, Inv ns -> Open ns p -> Open ns (length ns - 1).
Proof.
  intros ns p HI (Hp & H1 & H2). pose proof (iv_base _ HI) as Hb. split; [lia|]. split; [|apply anc_refl].
  intros q Hq. destruct (H1 q Hq) as [D|A]; [left; exact D|right; eapply anc_trans; eassumption].
Qed.

Lemma push_open : forall ns p c, Inv ns -> Open ns p -> (base <= p)%nat -> Inv (gpush_child ns p c) ->
  gn_f c = Some p -> gn_children c = [] ->
  Open (gpush_child ns p c) (length (gpush_child ns p c) - 1).
Proof.
  intros ns p c HI (Hp & H1 & H2) Hb HI' Hf Hc.
  rewrite gpush_length. simpl. rewrite Nat.sub_0_r. split; [rewrite gpush_length; lia|]. split.
  - rewrite gpush_length. intros q Hq. destruct (Nat.eq_dec q (length ns)) as [->|Hne].
    { left. left. rewrite gpush_new. exact Hc. }
    destruct (Nat.eq_dec q p) as [->|Hqp].
    { right. eapply anc_step; [rewrite gpush_new; exact Hf|apply anc_refl]. }
    destruct (H1 q ltac:(lia)) as [D|A]; [left; apply push_done; try assumption; lia|right].
    eapply anc_step; [rewrite gpush_new; exact Hf|]. apply push_anc; assumption.
  - rewrite gpush_length. simpl. rewrite Nat.sub_0_r. apply anc_refl.
Qed.

Lemma upd_open : forall ns p x q, (p < length ns)%nat -> Open ns q -> Open (upd p (fun n => gn_with_item n x) ns) q.
Proof.
  intros ns p x q Hp (Hq & H1 & H2). split; [rewrite upd_length; exact Hq|]. rewrite upd_length. split.
  - intros k Hk. destruct (H1 k Hk); [left; apply upd_done; assumption|right; apply upd_anc; assumption].
  - apply upd_anc; assumption.
Qed.

Lemma add_node_good : forall ns depth cut, Good ns -> 1 <= depth ->
  exists ns' ok, gadd_node_in ct o ns depth cut = Some (ns', ok) /\ Good ns'.
Proof.
  intros ns depth cut [HI Ho] Hd. unfold gadd_node_in.
  pose proof (iv_base _ HI) as Hb.
  destruct (Z.ltb_spec (gn_d (gnode ns (length ns - 1)) + 1) depth) as [H|H].
  { exists ns, false. split; [reflexivity|split; assumption]. }
  destruct (gclimb_spec (length ns) ns (length ns - 1) depth HI ltac:(lia) Ho Hd ltac:(lia) ltac:(lia))
    as (ns1 & p & -> & HI1 & Hbp & Ho1 & Hdp).
  assert (Hp : (p < length ns1)%nat) by (destruct Ho1; assumption).
  set (is_root := match gn_f (gnode ns1 p) with None => true | Some _ => false end).
  destruct (negb is_root && (0 <=? gn_item (gnode ns1 p))) eqn:Eitem.
  { exists ns1, false. split; [reflexivity|]. split; [exact HI1|eapply open_last; eassumption]. }
  set (ns2 := if is_root then ns1 else upd p (fun n => gn_with_item n (-2)) ns1).
  assert (HG : forall id, geo (gnode ns2 id) = geo (gnode ns1 id)).
  { intros id. unfold ns2. destruct is_root; [reflexivity|]. rewrite gnode_upd by exact Hp.
    destruct (Nat.eqb p id); reflexivity. }
  assert (HC : gn_children (gnode ns2 p) = gn_children (gnode ns1 p)).
  { unfold ns2. destruct is_root; [reflexivity|]. rewrite gnode_upd by exact Hp.
    rewrite Nat.eqb_refl. reflexivity. }
  assert (HL : length ns2 = length ns1) by (unfold ns2; destruct is_root; [reflexivity|apply upd_length]).
  assert (HI2 : Inv ns2).
  { unfold ns2. destruct is_root; [exact HI1|]. apply item_inv; [exact HI1|lia|].
    intros Hx. simpl in Hx. lia. }
  assert (Ho2 : Open ns2 p).
  { unfold ns2. destruct is_root; [exact Ho1|]. apply upd_open; assumption. }
  assert (Hpi : 0 <= gn_item (gnode ns2 p) -> gn_f (gnode ns2 p) = None).
  { unfold ns2, is_root. destruct (gn_f (gnode ns1 p)) as [f|] eqn:F; [|intros _; exact F].
    rewrite gnode_upd by exact Hp. rewrite Nat.eqb_refl. simpl. lia. }
  assert (Hpush : forall c, gn_f c = Some p -> cut_from o (gnode ns1 p) c -> gn_children c = [] -> gn_item c = -1 ->
    starts o c = next_start o ct ns2 (father_start o (gnode ns1 p)) (gn_children (gnode ns1 p)) ->
    Good (gpush_child ns2 p c)).
  { intros c C1 C2 C3 C4 C5. assert (HI3 : Inv (gpush_child ns2 p c)).
    { apply push_inv; try assumption; [lia| | |apply open_after; assumption].
      - eapply cut_from_geo; [symmetry; apply HG|reflexivity|exact C2].
      - rewrite HC, (fstart_geo o _ _ (HG p)). exact C5. }
    split; [exact HI3|]. apply push_open; assumption. }
  assert (Hthrow : Good ns2) by (split; [exact HI2|eapply open_last; eassumption]).
  rewrite vertical_same. cbv zeta.
  assert (Hsl : father_start o (gnode ns1 p) <= next_start o ct ns2 (father_start o (gnode ns1 p)) (gn_children (gnode ns1 p))).
  { unfold next_start. destruct (rev (gn_children (gnode ns1 p))) as [|c r] eqn:E; [lia|].
    assert (Hc : In c (gn_children (gnode ns1 p))) by (rewrite in_rev, E; left; reflexivity).
    destruct (iv_children _ HI1 p c ltac:(lia) Hc) as [C1 C2].
    destruct (iv_father _ HI1 c C1) as (q & C3 & _ & _ & C4). rewrite C2 in C3. inversion C3. subst q.
    apply cut_from_axis in C4. rewrite (ends_geo o _ _ (HG c)). lia. }
  assert (Hcd : forall c, In c (gn_children (gnode ns1 p)) -> gn_d (gnode ns2 c) = depth).
  { intros c Hc. destruct (iv_children _ HI1 p c ltac:(lia) Hc) as [C1 C2].
    destruct (iv_father _ HI1 c C1) as (q & C3 & _ & _ & C4). rewrite C2 in C3. inversion C3. subst q.
    destruct (geo_eq _ _ (HG c)) as (_ & -> & _). destruct C4 as [-> _]. lia. }
  assert (Hpd : gn_d (gnode ns1 p) + 1 = depth) by lia.
  destruct (vertical_at o depth) eqn:V.
  - set (l := match rev (gn_children (gnode ns1 p)) with [] => gn_l (gnode ns1 p) | c :: _ => gn_r (gnode ns2 c) + ct end).
    assert (El : l = next_start o ct ns2 (father_start o (gnode ns1 p)) (gn_children (gnode ns1 p))).
    { unfold l, next_start, father_start, ends. rewrite Hpd, V.
      destruct (rev (gn_children (gnode ns1 p))) as [|c r] eqn:E; [reflexivity|].
      rewrite (Hcd c), V; [reflexivity|]. rewrite in_rev, E. left. reflexivity. }
    clearbody l.
    destruct (Z.leb_spec cut l) as [H1|H1]; [exists ns2, false; split; [reflexivity|exact Hthrow]|].
    destruct (Z.ltb_spec (gn_r (gnode ns1 p)) cut) as [H2|H2]; [exists ns2, false; split; [reflexivity|exact Hthrow]|].
    eexists _, true. split; [reflexivity|]. apply Hpush; try reflexivity.
    + unfold cut_from. cbn [gn_d gn_l gn_r gn_b gn_t]. split; [reflexivity|]. rewrite Hpd, V.
      rewrite <- El in Hsl. unfold father_start in Hsl. rewrite Hpd, V in Hsl. lia.
    + unfold starts. cbn [gn_d gn_l gn_r gn_b gn_t]. rewrite Hpd, V. exact El.
  - set (l := match rev (gn_children (gnode ns1 p)) with [] => gn_b (gnode ns1 p) | c :: _ => gn_t (gnode ns2 c) + ct end).
    assert (El : l = next_start o ct ns2 (father_start o (gnode ns1 p)) (gn_children (gnode ns1 p))).
    { unfold l, next_start, father_start, ends. rewrite Hpd, V.
      destruct (rev (gn_children (gnode ns1 p))) as [|c r] eqn:E; [reflexivity|].
      rewrite (Hcd c), V; [reflexivity|]. rewrite in_rev, E. left. reflexivity. }
    clearbody l.
    destruct (Z.leb_spec cut l) as [H1|H1]; [exists ns2, false; split; [reflexivity|exact Hthrow]|].
    destruct (Z.ltb_spec (gn_t (gnode ns1 p)) cut) as [H2|H2]; [exists ns2, false; split; [reflexivity|exact Hthrow]|].
    eexists _, true. split; [reflexivity|]. apply Hpush; try reflexivity.
    + unfold cut_from. cbn [gn_d gn_l gn_r gn_b gn_t]. split; [reflexivity|]. rewrite Hpd, V.
      rewrite <- El in Hsl. unfold father_start in Hsl. rewrite Hpd, V in Hsl. lia.
    + unfold starts. cbn [gn_d gn_l gn_r gn_b gn_t]. rewrite Hpd, V. exact El.
Qed.

Lemma set_item_good : forall ns x, Good ns -> (x < length (gin_items i))%nat ->
  has_dimensions (gnode ns (length ns - 1)) (gi_w (gitem i x)) (gi_h (gitem i x)) ->
  Good (upd (length ns - 1) (fun n => gn_with_item n (Z.of_nat x)) ns).
Proof.
  intros ns x [HI Ho] Hx Hdim. pose proof (iv_base _ HI) as Hb. split.
  - apply item_inv; [exact HI|lia|]. intros _ _. cbn [gn_with_item gn_children gn_item].
    rewrite Nat2Z.id. split; [apply last_no_children; exact HI|]. split; [exact Hx|exact Hdim].
  - rewrite upd_length. apply upd_open; [lia|exact Ho].
Qed.

(** ** Closing a bin *)

Hypothesis Hinit_nochild : forall id, (id < base)%nat -> gn_children (gnode init id) = [].

Lemma gclose_spec : forall fuel ns p, Inv ns -> Open ns p -> (p < fuel)%nat ->
  exists ns', gclose fuel ct ns p = Some ns' /\ Inv ns' /\ forall q, (base <= q < length ns')%nat -> done ns' q.
Proof.
  induction fuel as [|fuel IH]; intros ns p HI Ho Hf; [lia|]. simpl.
  assert (Hlt : (p < length ns)%nat) by (destruct Ho; assumption).
  destruct (le_lt_dec base p) as [Hbp|Hbp].
  - destruct (finish_spec ns p HI ltac:(lia) (open_after ns p HI Hbp Ho)) as (F1 & F2 & _).
    destruct (finish_open ns p HI Hbp Ho) as (G1 & _ & G2).
    destruct (gn_f (gnode (gfinish ct ns p) p)) as [q|] eqn:E.
    + apply IH; [exact F1| |].
      * eapply open_up; eassumption.
      * assert (q < p)%nat; [|lia]. apply (inv_desc _ F1 p q); [destruct G1; assumption|exact E].
    + eexists. split; [reflexivity|]. split; [exact F1|]. intros k Hk. destruct G1 as (_ & G1 & _).
      destruct (G1 k Hk) as [D|A]; [exact D|]. inversion A as [E'|r b F A']; subst; [exact F2|]. rewrite E in F. discriminate.
  - assert (E : gfinish ct ns p = ns).
    { unfold gfinish. rewrite (iv_before _ HI p Hbp), Hinit_nochild by exact Hbp. reflexivity. }
    rewrite E. destruct (gn_f (gnode ns p)) as [q|] eqn:Ef.
    + assert (Hq : (q < p)%nat) by (apply (inv_desc _ HI p q); assumption). apply IH; [exact HI| |lia].
      destruct Ho as (_ & H1 & H2). split; [lia|]. split.
      * intros k Hk. destruct (H1 k Hk) as [D|A]; [left; exact D|]. right.
        inversion A as [E'|r b F A']; subst; [lia|]. rewrite Ef in F. inversion F. subst r. exact A'.
      * eapply anc_trans; [|exact H2]. eapply anc_step; [exact Ef|apply anc_refl].
    + eexists. split; [reflexivity|]. split; [exact HI|]. intros k Hk. destruct Ho as (_ & H1 & _).
      destruct (H1 k Hk) as [D|A]; [exact D|]. inversion A as [E'|r b F A']; subst; [lia|]. rewrite Ef in F. discriminate.
Qed.

Lemma residual_inv : forall ns, Inv ns -> 
  Inv (upd (length ns - 1) (fun n => gn_with_item n (-3)) ns).
Proof.
  intros ns HI. pose proof (iv_base _ HI). apply item_inv; [exact HI|lia|]. intros H'. simpl in H'. lia.
Qed.

Lemma complete_of_done : forall ns, Inv ns -> (forall q, (base <= q < length ns)%nat -> done ns q) ->
  complete_plan ct o ns base.
Proof.
  intros ns HI Hd. constructor.
  - intros id p Hid Hf. destruct (iv_father _ HI id Hid) as (q & H1 & H2 & H3 & H4).
    rewrite Hf in H1. inversion H1. subst q.
    destruct (chain_pred ns _ _ (iv_chain _ HI p ltac:(lia)) id H3) as [H|(j & Hj & H)]; [left; exact H|right].
    exists j. destruct (iv_children _ HI p j ltac:(lia) Hj) as [J1 J2]. auto.
  - intros id p Hid Hf. destruct (iv_father _ HI id Hid) as (q & H1 & H2 & H3 & H4).
    rewrite Hf in H1. inversion H1. subst q.
    destruct (Hd p ltac:(lia)) as [H|H]; [rewrite H in H3; destruct H3|].
    unfold next_start in H. destruct (rev (gn_children (gnode ns p))) as [|c r] eqn:E.
    { assert (E' : gn_children (gnode ns p) = []) by (rewrite <- (rev_involutive (gn_children (gnode ns p))), E; reflexivity).
      rewrite E' in H3. destruct H3. }
    assert (Hc : In c (gn_children (gnode ns p))) by (rewrite in_rev, E; left; reflexivity).
    destruct (iv_children _ HI p c ltac:(lia) Hc) as [C1 C2]. exists c. split; [exact C1|]. split; [exact C2|].
    destruct (iv_father _ HI c C1) as (q & C3 & _ & _ & C4). rewrite C2 in C3. inversion C3. subst q.
    apply cut_from_axis in C4. lia.
Qed.

(** ** Nodes that are not on one path are apart *)

Lemma cut_from_inside : forall p c, cut_from o p c ->
  gn_l p <= gn_l c /\ gn_r c <= gn_r p /\ gn_b p <= gn_b c /\ gn_t c <= gn_t p.
Proof. unfold cut_from. intros p c [_ H]. destruct (vertical_at o (gn_d c)); lia. Qed.

Lemma anc_inside : forall ns, Inv ns -> forall a b, anc ns a b -> (base <= a)%nat -> (b < length ns)%nat ->
  gn_l (gnode ns a) <= gn_l (gnode ns b) /\ gn_r (gnode ns b) <= gn_r (gnode ns a)
  /\ gn_b (gnode ns a) <= gn_b (gnode ns b) /\ gn_t (gnode ns b) <= gn_t (gnode ns a) /\ (a <= b)%nat.
Proof.
  intros ns HI a b H Ha. induction H as [|p b Hf H IH]; intros Hb; [lia|].
  pose proof (inv_desc _ HI b p Hb Hf) as Hpb. specialize (IH ltac:(lia)).
  destruct (iv_father _ HI b ltac:(lia)) as (q & H1 & H2 & _ & H4).
  rewrite Hf in H1. inversion H1. subst q. apply cut_from_inside in H4. lia.
Qed.

Lemma anc_base : forall ns, Inv ns -> forall id, (base <= id < length ns)%nat -> anc ns base id.
Proof.
  intros ns HI. induction id as [id IH] using lt_wf_ind. intros Hid.
  destruct (Nat.eq_dec id base) as [->|Hne]; [apply anc_refl|].
  destruct (iv_father _ HI id ltac:(lia)) as (p & H1 & H2 & _). eapply anc_step; [exact H1|]. apply IH; lia.
Qed.

(** The child of a strict ancestor on the path. *)
Lemma anc_child : forall ns a b, anc ns a b -> a = b \/ exists c, gn_f (gnode ns c) = Some a /\ anc ns c b.
Proof.
  intros ns a b H. induction H as [|p b Hf H IH]; [left; reflexivity|right].
  destruct IH as [->|(c & H1 & H2)].
  - exists b. split; [exact Hf|apply anc_refl].
  - exists c. split; [exact H1|]. eapply anc_step; eassumption.
Qed.

Lemma anc_le : forall ns, Inv ns -> forall a b, anc ns a b -> (b < length ns)%nat -> (a <= b)%nat.
Proof.
  intros ns HI a b H. induction H as [|p b Hf H IH]; intros Hb; [lia|].
  pose proof (inv_desc _ HI b p Hb Hf). specialize (IH ltac:(lia)). lia.
Qed.

Lemma anc_or_apart : forall ns, Inv ns -> forall b a, (base <= a)%nat -> (a <= b)%nat -> (b < length ns)%nat ->
  anc ns a b \/ apart ct (gnode ns a) (gnode ns b).
Proof.
  intros ns HI. induction b as [b IH] using lt_wf_ind. intros a Ha Hab Hb.
  destruct (Nat.eq_dec a b) as [->|Hne]; [left; apply anc_refl|].
  destruct (iv_father _ HI b ltac:(lia)) as (p & F1 & F2 & _ & F4).
  pose proof (cut_from_inside _ _ F4) as Hin.
  destruct (le_lt_dec a p) as [Hap|Hap].
  - destruct (IH p ltac:(lia) a Ha Hap ltac:(lia)) as [A|A].
    + left. eapply anc_step; eassumption.
    + right. unfold apart in *. lia.
  - destruct (IH a ltac:(lia) p ltac:(lia) ltac:(lia) ltac:(lia)) as [A|A].
    + destruct (anc_child _ _ _ A) as [->|(c & C1 & C2)]; [lia|].
      pose proof (anc_le _ HI c a C2 ltac:(lia)) as Hca.
      assert (Hpc : (p < c)%nat) by (apply (inv_desc _ HI c p); [lia|exact C1]).
      destruct (inv_brothers _ HI c b ltac:(lia) ltac:(lia) ltac:(lia)) as [G|G]; [congruence| |];
        pose proof (anc_inside _ HI c a C2 ltac:(lia) ltac:(lia)) as Hin2;
        right; unfold after in G; unfold apart.
      * destruct (vertical_at o (gn_d (gnode ns c))); lia.
      * destruct (vertical_at o (gn_d (gnode ns b))); lia.
    + right. unfold apart in *. lia.
Qed.

End Inv.
