(** * The reconstruction of the algorithm with infinite copies *)

From Coq Require Import List ZArith QArith Bool Lia Lqa.
From Verif Require Import Util Common_Model Common_Proof Guil_Model Guil_Spec Guil_Proof GuilPlan_Proof Hyper_Model Hyper_Spec
  HyperDp_Proof HyperPat_Proof HyperBuild_Proof HyperRec_Proof.
Import ListNotations.
Open Scope Z_scope.

Section Inf.
Variable i : GInstance.
Variables W H : Z.
Let ct := gp_ct (gin_params i).
Hypothesis Hct : 0 <= ct.
Variable o : GOrient.
Variable fv : bool.
Hypothesis Hdir : forall d, 1 <= d -> vertical_at o d = hcut_vertical fv d.
Local Notation dp := (hdp (gin_items i) W H ct).
Local Notation D := (hget W dp).

Definition IGood (fuel : nat) (w h d x y : Z) : Prop :=
  exists calls xs, hdp_calls fuel (gin_items i) dp W ct fv w h (d + 1) x y = Some calls
    /\ (items_profit i xs == D w h)%Q
    /\ forall ns, Fresh ns d x (x + w) y (y + h) -> inner ns -> Fills i o calls ns xs.

Lemma find_none_all : forall (A : Type) (f : A -> bool) l, find f l = None -> forall a, In a l -> f a = false.
Proof. intros A f l E a Ha. exact (find_none f l E a Ha). Qed.

Lemma hfind_some : forall w h v j, hfind_item (gin_items i) w h v = Some j ->
  (j < length (gin_items i))%nat /\ (gi_profit (gitem i j) == v)%Q
  /\ ((w = gi_w (gitem i j) /\ h = gi_h (gitem i j)) \/ (w = gi_h (gitem i j) /\ h = gi_w (gitem i j))).
Proof.
  intros w h v j E. unfold hfind_item in E. apply find_some in E. destruct E as [A B]. apply in_seq in A.
  apply andb_true_iff in B. destruct B as [B C]. apply Qeq_bool_iff in C. fold (gitem i j) in B, C.
  split; [lia|]. split; [exact C|]. apply orb_true_iff in B. destruct B as [B|B].
  - left. apply andb_true_iff in B. destruct B as [B1 B2]. apply Z.eqb_eq in B1, B2. auto.
  - right. apply andb_true_iff in B. destruct B as [B B2]. apply andb_true_iff in B. destruct B as [_ B1].
    apply Z.eqb_eq in B1, B2. auto.
Qed.

Lemma hfind_none : forall w h v, hfind_item (gin_items i) w h v = None ->
  forall it, In it (gin_items i) -> fits_cell it w h -> ~ (gi_profit it == v)%Q.
Proof.
  intros w h v E it Hin HF HQ. unfold hfind_item in E. destruct (In_nth _ _ gdummy_item Hin) as (j & Hj & Ej).
  pose proof (find_none _ _ E j ltac:(apply in_seq; lia)) as F. cbv beta zeta in F. rewrite Ej in F.
  apply Qeq_bool_iff in HQ. rewrite HQ, andb_true_r in F. apply orb_false_iff in F. destruct F as [F1 F2].
  destruct HF as [[A B]|(O & A & B)].
  - rewrite A, B, !Z.eqb_refl in F1. discriminate.
  - rewrite O, A, B, !Z.eqb_refl in F2. discriminate.
Qed.

Lemma inf_good : forall n w h d x y fuel, 1 <= w <= W -> 1 <= h <= H -> 0 <= d -> (Z.to_nat (w + h) <= n)%nat ->
  (2 * n + 1 <= fuel)%nat -> IGood fuel w h d x y.
Proof.
  induction n as [|n IH]; intros w h d x y fuel Hw Hh Hd Hn Hf; [lia|].
  destruct (dp_facts (gin_items i) W H ct Hct w h Hw Hh) as (_ & _ & _ & _ & AT).
  (* with a cut in the direction of the depth *)
  assert (CV : forall fuel d x y c, 0 <= d -> (2 * n + 1 <= fuel)%nat -> hcut_vertical fv (d + 1) = true -> In c (hcuts ct w) ->
    (D c h + D (w - c - ct) h == D w h)%Q ->
    exists c1 c2 xs, hdp_calls fuel (gin_items i) dp W ct fv c h (d + 1 + 1) x y = Some c1
      /\ hdp_calls fuel (gin_items i) dp W ct fv (w - c - ct) h (d + 1 + 1) (x + c + ct) y = Some c2
      /\ (items_profit i xs == D w h)%Q
      /\ forall ns, Fresh ns d x (x + w) y (y + h) -> inner ns ->
           Fills i o (GAddNode (d + 1) (x + c) :: c1 ++ GAddNode (d + 1) (x + w) :: c2) ns xs).
  { clear d x y fuel Hd Hf. intros fuel d x y c Hd Hf V Hc EQ. apply hcuts_in in Hc.
    destruct (IH c h (d + 1) x y fuel ltac:(lia) Hh ltac:(lia) ltac:(lia) Hf) as (c1 & xs1 & E1 & P1 & F1).
    destruct (IH (w - c - ct) h (d + 1) (x + c + ct) y fuel ltac:(lia) Hh ltac:(lia) ltac:(lia) Hf) as (c2 & xs2 & E2 & P2 & F2).
    exists c1, c2, (xs1 ++ xs2). split; [exact E1|]. split; [exact E2|]. split.
    - unfold items_profit in *. rewrite qsum_app, P1, P2. exact EQ.
    - intros ns HF HN. eapply fills_two_v; [exact Hct|exact HF|exact Hd|rewrite Hdir by lia; exact V|lia|fold ct; lia|lia| |].
      + intros ns2 A B. apply F1; assumption.
      + intros ns2 A B. apply F2; [|exact B]. fold ct in A.
        replace (x + c + ct + (w - c - ct)) with (x + w) by lia. exact A. }
  assert (CH : forall fuel d x y c, 0 <= d -> (2 * n + 1 <= fuel)%nat -> hcut_vertical fv (d + 1) = false -> In c (hcuts ct h) ->
    (D w c + D w (h - c - ct) == D w h)%Q ->
    exists c1 c2 xs, hdp_calls fuel (gin_items i) dp W ct fv w c (d + 1 + 1) x y = Some c1
      /\ hdp_calls fuel (gin_items i) dp W ct fv w (h - c - ct) (d + 1 + 1) x (y + c + ct) = Some c2
      /\ (items_profit i xs == D w h)%Q
      /\ forall ns, Fresh ns d x (x + w) y (y + h) -> inner ns ->
           Fills i o (GAddNode (d + 1) (y + c) :: c1 ++ GAddNode (d + 1) (y + h) :: c2) ns xs).
  { clear d x y fuel Hd Hf. intros fuel d x y c Hd Hf V Hc EQ. apply hcuts_in in Hc.
    destruct (IH w c (d + 1) x y fuel Hw ltac:(lia) ltac:(lia) ltac:(lia) Hf) as (c1 & xs1 & E1 & P1 & F1).
    destruct (IH w (h - c - ct) (d + 1) x (y + c + ct) fuel Hw ltac:(lia) ltac:(lia) ltac:(lia) Hf) as (c2 & xs2 & E2 & P2 & F2).
    exists c1, c2, (xs1 ++ xs2). split; [exact E1|]. split; [exact E2|]. split.
    - unfold items_profit in *. rewrite qsum_app, P1, P2. exact EQ.
    - intros ns HF HN. eapply fills_two_h; [exact Hct|exact HF|exact Hd|rewrite Hdir by lia; exact V|lia|fold ct; lia|lia| |].
      + intros ns2 A B. apply F1; assumption.
      + intros ns2 A B. apply F2; [|exact B]. fold ct in A.
        replace (y + c + ct + (h - c - ct)) with (y + h) by lia. exact A. }
  (* the direction of the depth has a cut *)
  assert (STEP : forall fuel d x y, 0 <= d -> (2 * n + 2 <= fuel)%nat ->
    (if hcut_vertical fv (d + 1) then exists c, In c (hcuts ct w) /\ (D c h + D (w - c - ct) h == D w h)%Q
     else exists c, In c (hcuts ct h) /\ (D w c + D w (h - c - ct) == D w h)%Q)
    \/ Qeq_bool (D w h) 0 = true \/ hfind_item (gin_items i) w h (D w h) <> None -> IGood fuel w h d x y).
  { clear d x y fuel Hd Hf. intros [|fuel] d x y Hd Hf HC; [lia|]. unfold IGood. cbn [hdp_calls].
    destruct (Qeq_bool (D w h) 0) eqn:Q0.
    { exists [], []. split; [reflexivity|]. apply Qeq_bool_iff in Q0. split; [rewrite Q0; reflexivity|].
      intros ns _ _. apply fills_nil. }
    destruct (hfind_item (gin_items i) w h (D w h)) as [j|] eqn:FJ.
    { destruct (hfind_some _ _ _ _ FJ) as (J1 & J2 & J3). exists [GSetItem j], [j]. split; [reflexivity|].
      split. { unfold items_profit. rewrite qsum_cons, J2. change (qsum (fun x0 => gi_profit (gitem i x0)) []) with 0%Q. ring. }
      intros ns HF HN. eapply fills_item; [exact HF|exact HN|exact J1|].
      destruct J3 as [[A B]|[A B]]; [left|right]; lia. }
    destruct HC as [HC|[HC|HC]]; [|discriminate|congruence].
    destruct (hcut_vertical fv (d + 1)) eqn:V.
    - destruct (find _ (hcuts ct w)) as [c|] eqn:FC.
      + apply find_some in FC. destruct FC as [C1 C2]. apply Qeq_bool_iff in C2.
        destruct (CV fuel d x y c Hd ltac:(lia) V C1 C2) as (c1 & c2 & xs & E1 & E2 & P & F). rewrite E1, E2.
        eexists. exists xs. split; [reflexivity|]. split; [exact P|exact F].
      + exfalso. destruct HC as (c & C1 & C2). apply Qeq_bool_iff in C2.
        pose proof (find_none _ _ FC c C1) as N. cbv beta in N. congruence.
    - destruct (find _ (hcuts ct h)) as [c|] eqn:FC.
      + apply find_some in FC. destruct FC as [C1 C2]. apply Qeq_bool_iff in C2.
        destruct (CH fuel d x y c Hd ltac:(lia) V C1 C2) as (c1 & c2 & xs & E1 & E2 & P & F). rewrite E1, E2.
        eexists. exists xs. split; [reflexivity|]. split; [exact P|exact F].
      + exfalso. destruct HC as (c & C1 & C2). apply Qeq_bool_iff in C2.
        pose proof (find_none _ _ FC c C1) as N. cbv beta in N. congruence. }
  (* no cut in this direction: one more node *)
  assert (ALT : (if hcut_vertical fv (d + 1) then exists c, In c (hcuts ct w) /\ (D c h + D (w - c - ct) h == D w h)%Q
     else exists c, In c (hcuts ct h) /\ (D w c + D w (h - c - ct) == D w h)%Q)
    \/ (if hcut_vertical fv (d + 1 + 1) then exists c, In c (hcuts ct w) /\ (D c h + D (w - c - ct) h == D w h)%Q
     else exists c, In c (hcuts ct h) /\ (D w c + D w (h - c - ct) == D w h)%Q)
    \/ Qeq_bool (D w h) 0 = true \/ hfind_item (gin_items i) w h (D w h) <> None).
  { rewrite (hcut_next fv (d + 1)) by lia. destruct AT as [AT|[(it & I1 & I2 & I3)|[(c & C1 & C2)|(c & C1 & C2)]]].
    - right. right. left. apply Qeq_bool_iff. rewrite AT. reflexivity.
    - right. right. right. intros N. apply (hfind_none _ _ _ N it I1 I2). rewrite I3. reflexivity.
    - destruct (hcut_vertical fv (d + 1)); cbn [negb]; [left|right; left]; exists c; (split; [exact C1|rewrite <- C2; reflexivity]).
    - destruct (hcut_vertical fv (d + 1)); cbn [negb]; [right; left|left]; exists c; (split; [exact C1|rewrite <- C2; reflexivity]). }
  destruct ALT as [A|[A|A]]; [apply STEP; [exact Hd|lia|left; exact A]| |apply STEP; [exact Hd|lia|right; exact A]].
  destruct fuel as [|fuel]; [lia|].
  assert (NX : IGood fuel w h (d + 1) x y) by (apply STEP; [lia|lia|left; exact A]).
  destruct NX as (calls & xs & E & P & F). unfold IGood. cbn [hdp_calls].
  destruct (Qeq_bool (D w h) 0) eqn:Q0.
  { exists [], []. split; [reflexivity|]. apply Qeq_bool_iff in Q0. split; [rewrite Q0; reflexivity|].
    intros ns _ _. apply fills_nil. }
  destruct (hfind_item (gin_items i) w h (D w h)) as [j|] eqn:FJ.
  { destruct (hfind_some _ _ _ _ FJ) as (J1 & J2 & J3). exists [GSetItem j], [j]. split; [reflexivity|].
    split. { unfold items_profit. rewrite qsum_cons, J2. change (qsum (fun x0 => gi_profit (gitem i x0)) []) with 0%Q. ring. }
    intros ns HF HN. eapply fills_item; [exact HF|exact HN|exact J1|].
    destruct J3 as [[A1 B1]|[A1 B1]]; [left|right]; lia. }
  destruct (hcut_vertical fv (d + 1)) eqn:V.
  - destruct (find _ (hcuts ct w)) as [c|] eqn:FC.
    + apply find_some in FC. destruct FC as [C1 C2]. apply Qeq_bool_iff in C2.
      destruct (CV fuel d x y c Hd ltac:(lia) V C1 C2) as (c1 & c2 & xs2 & E1 & E2 & P2 & F2). rewrite E1, E2.
      eexists. exists xs2. split; [reflexivity|]. split; [exact P2|exact F2].
    + rewrite E. eexists. exists xs. split; [reflexivity|]. split; [exact P|]. intros ns HF HN.
      eapply fills_one_v; [exact HF|exact Hd|rewrite Hdir by lia; exact V|lia|exact F].
  - destruct (find _ (hcuts ct h)) as [c|] eqn:FC.
    + apply find_some in FC. destruct FC as [C1 C2]. apply Qeq_bool_iff in C2.
      destruct (CH fuel d x y c Hd ltac:(lia) V C1 C2) as (c1 & c2 & xs2 & E1 & E2 & P2 & F2). rewrite E1, E2.
      eexists. exists xs2. split; [reflexivity|]. split; [exact P2|exact F2].
    + rewrite E. eexists. exists xs. split; [reflexivity|]. split; [exact P|]. intros ns HF HN.
      eapply fills_one_h; [exact HF|exact Hd|rewrite Hdir by lia; exact V|lia|exact F].
Qed.
End Inf.

Lemma infinite_solution : forall i, hyper_instance i -> hyper_supported i ->
  exists calls xs, snd (hyper_infinite i) = Some calls /\ solution_with i calls xs
    /\ (items_profit i xs == hget (plate_w i) (fst (hyper_infinite i)) (plate_w i) (plate_h i))%Q.
Proof.
  intros i HI HU. unfold hyper_infinite. cbn [fst snd]. unfold hdp_solution.
  set (dp := hdp (gin_items i) (heff_w i) (heff_h i) (gp_ct (gin_params i))).
  change (plate_w i) with (heff_w i). change (plate_h i) with (heff_h i).
  pose proof (hi_w _ HI) as Hw. pose proof (hi_h _ HI) as Hh. change (plate_w i) with (heff_w i) in Hw.
  change (plate_h i) with (heff_h i) in Hh.
  destruct (Qltb 0 (hget (heff_w i) dp (heff_w i) (heff_h i))) eqn:E.
  - destruct (inf_good i (heff_w i) (heff_h i) (hi_ct _ HI) (hfirst i) (hfirst_vertical i) (top_dir i HU)
      (Z.to_nat (heff_w i + heff_h i)) (heff_w i) (heff_h i) 1 (hx0 i) (hy0 i)
      (Z.to_nat (2 * (heff_w i + heff_h i) + 2)) ltac:(lia) ltac:(lia) ltac:(lia) ltac:(lia) ltac:(lia)) as (calls & xs & C & P & F).
    change (1 + 1) with 2 in C. fold dp in C, P. rewrite C. eexists. exists xs. split; [reflexivity|].
    split; [apply top_solution; assumption|exact P].
  - eexists. exists []. split; [reflexivity|]. split; [apply top_empty; exact HI|].
    apply Qltb_ge in E. destruct (dp_facts (gin_items i) (heff_w i) (heff_h i) (gp_ct (gin_params i)) (hi_ct _ HI)
      (heff_w i) (heff_h i) ltac:(lia) ltac:(lia)) as [N _]. fold dp in N. change (items_profit i []) with 0%Q. lra.
Qed.
