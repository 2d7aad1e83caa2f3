(** * Items packed in one bin under a product of dual feasible functions

    The families along each axis (Dff_Axis) and the rescaling theorem (Geom)
    combined: the items of a bin, whatever their positions, have a total
    product coefficient of at most the bin's. *)

From Coq Require Import List ZArith QArith Bool Lia Arith Permutation Sorted Psatz.
From Verif Require Import Util Dff_Model Dff_Spec Dff_Proof Dff_Axis Geom OneDimDff_Proof.
Import ListNotations.
Open Scope Z_scope.

Section Pack.

Variable A : Type.
Variable typ : A -> nat.
Variable n : nat.
Variable cop : nat -> Z.
Hypothesis Hcop : forall j, 0 <= cop j.

Record GAxis : Type := mkGA {
  ga_pos : A -> Z; ga_len : A -> Z; ga_cap : Z; ga_k : Z;
  ga_cand : nat -> list Z; ga_plen : nat -> option Z; ga_fam : nat }.

Definition ga_pool (g : GAxis) : list (Z * Z) := sort_pairs (axis_entries n cop (ga_plen g)).

Record gaxis_ok (g : GAxis) : Prop := {
  go_cap : 1 <= ga_cap g;
  go_k : 1 <= ga_k g;
  go_k2 : 2 * ga_k g <= ga_cap g;
  go_plen : forall j, match ga_plen g j with
    | Some m => ga_k g <= m /\ forall d, In d (ga_cand g j) -> ga_k g <= d -> 2 * d <= ga_cap g -> m <= d
    | None => forall d, In d (ga_cand g j) -> ga_k g <= d -> 2 * d <= ga_cap g -> False
    end }.

Definition g_value (g : GAxis) (d : Z) : Z := FF (ga_cap g) (ga_k g) (ga_pool g) (ga_fam g) d.
Definition g_bin (g : GAxis) : Z := FF_bin (ga_cap g) (ga_k g) (ga_pool g) (ga_fam g).

Definition g_apart (g : GAxis) (a b : A) : Prop :=
  ga_pos g a + ga_len g a <= ga_pos g b \/ ga_pos g b + ga_len g b <= ga_pos g a.

Variable axes : list GAxis.
Hypothesis Haxes : forall g, In g axes -> gaxis_ok g.

Variable ps : list A.
Hypothesis Htyp : forall a, In a ps -> (typ a < n)%nat.
Hypothesis Hcount : forall j, (j < n)%nat -> Z.of_nat (length (filter (fun a => Nat.eqb (typ a) j) ps)) <= cop j.
Hypothesis Hinside : forall g a, In g axes -> In a ps ->
  In (ga_len g a) (ga_cand g (typ a)) /\ 0 <= ga_pos g a /\ 0 < ga_len g a /\ ga_pos g a + ga_len g a <= ga_cap g.
Hypothesis Hapart : ForallOrdPairs (fun a b => exists g, In g axes /\ g_apart g a b) ps.

Definition indexed : list (nat * A) := combine (seq 0 (length ps)) ps.

Lemma combine_seq_snd : forall (l : list A) s, map snd (combine (seq s (length l)) l) = l.
Proof. induction l as [|a l IH]; intro s; simpl; [reflexivity|]. rewrite IH. reflexivity. Qed.

Lemma combine_seq_fst : forall (l : list A) s, map fst (combine (seq s (length l)) l) = seq s (length l).
Proof. induction l as [|a l IH]; intro s; simpl; [reflexivity|]. rewrite IH. reflexivity. Qed.

Lemma indexed_nodup : NoDup indexed.
Proof. apply (NoDup_map_inv fst). unfold indexed. rewrite combine_seq_fst. apply seq_NoDup. Qed.

Lemma indexed_in : forall x, In x indexed -> In (snd x) ps.
Proof. intros [m a] H. unfold indexed in H. apply in_combine_r in H. assumption. Qed.

Lemma ord_pairs_combine : forall (R : A -> A -> Prop) l s, ForallOrdPairs R l ->
  ForallOrdPairs (fun x y => R (snd x) (snd y)) (combine (seq s (length l)) l).
Proof.
  intros R l s H. revert s. induction H as [|a l Ha H IH]; intro s; simpl; constructor; [|apply IH].
  apply Forall_forall. intros [m b] Hb. apply in_combine_r in Hb. rewrite Forall_forall in Ha. apply Ha. assumption.
Qed.

Lemma filter_snd_length : forall (f : A -> bool) l s,
  length (filter (fun x => f (snd x)) (combine (seq s (length l)) l)) = length (filter f l).
Proof.
  intros f l. induction l as [|a l IH]; intro s; simpl; [reflexivity|].
  destruct (f a); simpl; rewrite IH; reflexivity.
Qed.

Lemma chain_count : forall ch j, NoDup ch -> incl ch indexed -> (j < n)%nat ->
  Z.of_nat (length (filter (fun x => Nat.eqb (typ (snd x)) j) ch)) <= cop j.
Proof.
  intros ch j Hnd Hi Hj. specialize (Hcount j Hj).
  assert (H : (length (filter (fun x => Nat.eqb (typ (snd x)) j) ch)
               <= length (filter (fun x => Nat.eqb (typ (snd x)) j) indexed))%nat).
  { apply NoDup_incl_length; [apply NoDup_filter; assumption|].
    intros x Hx. apply filter_In in Hx. destruct Hx as [Hx1 Hx2]. apply filter_In. auto. }
  unfold indexed in H. rewrite (filter_snd_length (fun a => Nat.eqb (typ a) j)) in H. lia.
Qed.

Definition g_ra (g : GAxis) : RAxis (nat * A) :=
  mkRA _ (fun x => ga_pos g (snd x)) (fun x => ga_len g (snd x)) (ga_cap g)
    (fun x => g_value g (ga_len g (snd x))) (g_bin g).

Theorem packed_product :
  zsum (fun a => prod (map (fun g => g_value g (ga_len g a)) axes)) ps <= prod (map g_bin axes).
Proof.
  pose proof (rescaled_bound (nat * A) (map g_ra axes) indexed indexed_nodup) as HR.
  rewrite map_map in HR. cbn [g_ra ra_new_cap] in HR.
  assert (E : zsum (fun a => prod (map (fun g => g_value g (ga_len g a)) axes)) ps
    = zsum (fun a => prod (map (fun ax => ra_new _ ax a) (map g_ra axes))) indexed).
  { rewrite <- (combine_seq_snd ps 0) at 1. rewrite zsum_map. apply zsum_ext. intros x _. rewrite map_map. reflexivity. }
  rewrite E. apply HR.
  - intros ax a Hax Ha. apply in_map_iff in Hax. destruct Hax as (g & <- & Hg). simpl.
    pose proof (indexed_in a Ha) as Hin. destruct (Hinside g (snd a) Hg Hin) as (H1 & H2 & H3 & H4).
    repeat split; try assumption. destruct (Haxes g Hg) as [G1 G2 G3 G4].
    unfold g_value. apply (FF_nonneg (ga_cap g) n (ga_cand g) cop (ga_k g) (ga_plen g)); try assumption; try reflexivity; lia.
  - intros ax Hax. apply in_map_iff in Hax. destruct Hax as (g & <- & Hg). simpl. destruct (Haxes g Hg). lia.
  - intros ax ch Hax Hnd Hi Hf. apply in_map_iff in Hax. destruct Hax as (g & <- & Hg). simpl in *.
    destruct (Haxes g Hg) as [G1 G2 G3 G4].
    pose proof (axis_chain (ga_cap g) n (ga_cand g) cop (ga_k g) (ga_plen g) G1 G2 G3 Hcop G4 (ga_pool g) eq_refl
      (ga_fam g) (map (fun x => (typ (snd x), ga_len g (snd x))) ch)) as HC.
    rewrite zsum_map in HC. simpl in HC. apply HC. constructor.
    + intros p Hp. apply in_map_iff in Hp. destruct Hp as (x & <- & Hx). simpl.
      pose proof (indexed_in x (Hi x Hx)) as Hin. destruct (Hinside g (snd x) Hg Hin) as (H1 & H2 & H3 & H4).
      split; [apply Htyp; assumption|]. auto.
    + intros j Hj. pose proof (chain_count ch j Hnd Hi Hj) as HCC. unfold occurrences.
      assert (EL : forall l : list (nat * A), length (filter (fun p => Nat.eqb (fst p) j) (map (fun x => (typ (snd x), ga_len g (snd x))) l))
                   = length (filter (fun x => Nat.eqb (typ (snd x)) j) l)).
      { induction l as [|x l IH]; simpl; [reflexivity|]. destruct (Nat.eqb (typ (snd x)) j); simpl; rewrite IH; reflexivity. }
      rewrite EL. assumption.
    + rewrite zsum_map. assumption.
  - pose proof (ord_pairs_combine _ ps 0 Hapart) as HP. fold indexed in HP.
    eapply ord_pairs_impl; [|exact HP]. intros a b (g & Hg & Hab).
    exists (g_ra g). split; [apply in_map; assumption|]. exact Hab.
Qed.

End Pack.
