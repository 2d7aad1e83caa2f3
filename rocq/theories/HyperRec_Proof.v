(** * The reconstruction of a block *)

From Coq Require Import List ZArith QArith Bool Lia.
From Verif Require Import Util Common_Model Guil_Model Guil_Spec Guil_Proof GuilPlan_Proof Hyper_Model Hyper_Spec HyperPat_Proof
  HyperBuild_Proof.
Import ListNotations.
Open Scope Z_scope.

Fixpoint pheight (P : Pat) : nat :=
  match P with PItem _ _ => 0%nat | PV a b | PH a b => S (Nat.max (pheight a) (pheight b)) end.

Lemma hcut_odd : forall fv d, 0 <= d -> hcut_vertical fv d = Bool.eqb fv (Z.odd d).
Proof.
  intros fv d Hd. unfold hcut_vertical. rewrite Z.rem_mod_nonneg by lia. rewrite Zmod_odd. destruct (Z.odd d); reflexivity.
Qed.
Lemma hcut_next : forall fv d, 0 <= d -> hcut_vertical fv (d + 1) = negb (hcut_vertical fv d).
Proof.
  intros fv d Hd. rewrite !hcut_odd by lia. rewrite Z.odd_add. cbn [Z.odd]. rewrite xorb_true_r. destruct fv, (Z.odd d); reflexivity.
Qed.

Section Rec.
Variable i : GInstance.
Let ct := gp_ct (gin_params i).
Hypothesis Hct : 0 <= ct.
Hypothesis Hpos : forall it, In it (gin_items i) -> 1 <= gi_w it /\ 1 <= gi_h it.

(** The block stands for the pattern. *)
Fixpoint rep (ret : list HBlock) (P : Pat) (b : HBlock) : Prop :=
  hb_w b = pw i ct P /\ hb_h b = ph i ct P /\
  match P with
  | PItem j _ => hb_simple b = true /\ hb_item b = j
  | PV P1 P2 => hb_simple b = false /\ hb_vertical b = true
      /\ (hb_p1 b < length ret)%nat /\ (hb_p2 b < length ret)%nat
      /\ rep ret P1 (nth (hb_p1 b) ret hdummy) /\ rep ret P2 (nth (hb_p2 b) ret hdummy)
  | PH P1 P2 => hb_simple b = false /\ hb_vertical b = false
      /\ (hb_p1 b < length ret)%nat /\ (hb_p2 b < length ret)%nat
      /\ rep ret P1 (nth (hb_p1 b) ret hdummy) /\ rep ret P2 (nth (hb_p2 b) ret hdummy)
  end.

Lemma rep_dims : forall ret P b, rep ret P b -> hb_w b = pw i ct P /\ hb_h b = ph i ct P.
Proof. intros ret P b HR. destruct P; destruct HR as (A & B & _); auto. Qed.

Lemma rep_app : forall ret c P b, rep ret P b -> rep (ret ++ c) P b.
Proof.
  intros ret c. induction P as [j r|P1 IH1 P2 IH2|P1 IH1 P2 IH2]; intros b; cbn [rep].
  - auto.
  - intros (A & B & C & D & E & F & G & K). rewrite !app_nth1 by assumption. rewrite app_length.
    split; [exact A|]. split; [exact B|]. split; [exact C|]. split; [exact D|]. split; [lia|]. split; [lia|]. auto.
  - intros (A & B & C & D & E & F & G & K). rewrite !app_nth1 by assumption. rewrite app_length.
    split; [exact A|]. split; [exact B|]. split; [exact C|]. split; [exact D|]. split; [lia|]. split; [lia|]. auto.
Qed.

Variable o : GOrient.
Variable fv : bool.
Hypothesis Hdir : forall d, 1 <= d -> vertical_at o d = hcut_vertical fv d.
Variable ret : list HBlock.

Definition Good (fuel : nat) (b : HBlock) (P : Pat) (aw ah : Z) : Prop :=
  forall d x y, 0 <= d -> exists calls, hblock_calls fuel ret fv ct b (d + 1) x y aw ah = Some calls
    /\ forall ns, Fresh ns d x (x + aw) y (y + ah) -> inner ns -> Fills i o calls ns (pitems P).

(** From the exact height to any height. *)
Lemma good_mid : forall n b P ah, pok i P -> rep ret P b -> ph i ct P <= ah ->
  (forall fuel, (n <= fuel)%nat -> Good fuel b P (pw i ct P) (ph i ct P)) ->
  forall fuel, (n + 2 <= fuel)%nat -> Good fuel b P (pw i ct P) ah.
Proof.
  intros n b P ah HP HR Hh HG fuel Hf. destruct (rep_dims _ _ _ HR) as [Ew Eh].
  pose proof (ppos i ct Hct Hpos P HP) as [Pw Ph].
  destruct (Z.eq_dec ah (ph i ct P)) as [->|Hne]; [apply HG; lia|].
  assert (H1 : forall fuel, (n + 1 <= fuel)%nat -> forall d x y, 0 <= d -> hcut_vertical fv (d + 1) = false ->
    exists calls, hblock_calls fuel ret fv ct b (d + 1) x y (pw i ct P) ah = Some calls
    /\ forall ns, Fresh ns d x (x + pw i ct P) y (y + ah) -> inner ns -> Fills i o calls ns (pitems P)).
  { clear fuel Hf. intros [|fuel] Hf d x y Hd V; [lia|]. cbn [hblock_calls]. rewrite Ew, Eh, V.
    rewrite Z.ltb_irrefl. destruct (Z.ltb_spec (ph i ct P) ah) as [_|H]; [|lia]. cbn [negb].
    destruct (HG fuel ltac:(lia) (d + 1) x y ltac:(lia)) as (calls & -> & F). eexists. split; [reflexivity|].
    intros ns HF _. eapply fills_one_h; [exact HF|exact Hd|rewrite Hdir by lia; exact V|lia|].
    intros ns2 F2 I2. apply F; assumption. }
  intros d x y Hd. destruct (hcut_vertical fv (d + 1)) eqn:V; [|apply H1; [lia|exact Hd|exact V]].
  destruct fuel as [|fuel]; [lia|]. cbn [hblock_calls]. rewrite Ew, Eh, V.
  rewrite Z.ltb_irrefl. destruct (Z.ltb_spec (ph i ct P) ah) as [_|H]; [|lia]. cbn [negb].
  destruct (H1 fuel ltac:(lia) (d + 1) x y ltac:(lia)) as (calls & -> & F).
  { rewrite hcut_next, V by lia. reflexivity. }
  eexists. split; [reflexivity|]. intros ns HF _.
  eapply fills_one_v; [exact HF|exact Hd|rewrite Hdir by lia; exact V|lia|].
  intros ns2 F2 I2. apply F; assumption.
Qed.

(** From the exact width to any width. *)
Lemma good_full : forall n b P aw ah, pok i P -> rep ret P b -> pw i ct P <= aw -> ph i ct P <= ah ->
  (forall fuel, (n <= fuel)%nat -> Good fuel b P (pw i ct P) ah) ->
  forall fuel, (n + 2 <= fuel)%nat -> Good fuel b P aw ah.
Proof.
  intros n b P aw ah HP HR Hw Hh HG fuel Hf. destruct (rep_dims _ _ _ HR) as [Ew Eh].
  pose proof (ppos i ct Hct Hpos P HP) as [Pw Ph].
  destruct (Z.eq_dec aw (pw i ct P)) as [->|Hne]; [apply HG; lia|].
  assert (H1 : forall fuel, (n + 1 <= fuel)%nat -> forall d x y, 0 <= d -> hcut_vertical fv (d + 1) = true ->
    exists calls, hblock_calls fuel ret fv ct b (d + 1) x y aw ah = Some calls
    /\ forall ns, Fresh ns d x (x + aw) y (y + ah) -> inner ns -> Fills i o calls ns (pitems P)).
  { clear fuel Hf. intros [|fuel] Hf d x y Hd V; [lia|]. cbn [hblock_calls]. rewrite Ew, V.
    destruct (Z.ltb_spec (pw i ct P) aw) as [_|H]; [|lia].
    destruct (HG fuel ltac:(lia) (d + 1) x y ltac:(lia)) as (calls & -> & F). eexists. split; [reflexivity|].
    intros ns HF _. eapply fills_one_v; [exact HF|exact Hd|rewrite Hdir by lia; exact V|lia|].
    intros ns2 F2 I2. apply F; assumption. }
  intros d x y Hd. destruct (hcut_vertical fv (d + 1)) eqn:V; [apply H1; [lia|exact Hd|exact V]|].
  destruct fuel as [|fuel]; [lia|]. cbn [hblock_calls]. rewrite Ew, V.
  destruct (Z.ltb_spec (pw i ct P) aw) as [_|H]; [|lia].
  destruct (H1 fuel ltac:(lia) (d + 1) x y ltac:(lia)) as (calls & -> & F).
  { rewrite hcut_next, V by lia. reflexivity. }
  eexists. split; [reflexivity|]. intros ns HF _.
  eapply fills_one_h; [exact HF|exact Hd|rewrite Hdir by lia; exact V|lia|].
  intros ns2 F2 I2. apply F; assumption.
Qed.

Lemma good_all : forall P b aw ah fuel, pok i P -> rep ret P b -> pw i ct P <= aw -> ph i ct P <= ah ->
  (6 * pheight P + 6 <= fuel)%nat -> Good fuel b P aw ah.
Proof.
  assert (G : forall P b, pok i P -> rep ret P b ->
    (forall fuel, (6 * pheight P + 2 <= fuel)%nat -> Good fuel b P (pw i ct P) (ph i ct P)) ->
    forall aw ah fuel, pw i ct P <= aw -> ph i ct P <= ah -> (6 * pheight P + 6 <= fuel)%nat -> Good fuel b P aw ah).
  { intros P b HP HR HE aw ah fuel Hw Hh Hf.
    apply (good_full (6 * pheight P + 4)); try assumption; [|lia].
    intros fuel2 Hf2. apply (good_mid (6 * pheight P + 2)); try assumption. lia. }
  induction P as [j r|P1 IH1 P2 IH2|P1 IH1 P2 IH2]; intros b aw ah fuel HP HR Hw Hh Hf; apply G; try assumption; clear fuel Hf.
  - intros fuel Hf. intros d x y Hd. destruct fuel as [|fuel]; [lia|]. cbn [rep] in HR.
    destruct HR as (Ew & Eh & Es & Ej). cbn [hblock_calls]. rewrite Ew, Eh, !Z.ltb_irrefl, Es, Ej. eexists. split; [reflexivity|].
    intros ns HF HI. destruct HP as [Hj _]. eapply fills_item; [exact HF|exact HI|exact Hj|].
    cbn [pw ph]. destruct r; [right|left]; lia.
  - cbn [rep] in HR. destruct HR as (Ew & Eh & Es & Ev & L1 & L2 & R1 & R2). destruct HP as [HP1 HP2].
    set (b1 := nth (hb_p1 b) ret hdummy) in *. set (b2 := nth (hb_p2 b) ret hdummy) in *.
    destruct (rep_dims _ _ _ R1) as [Ew1 Eh1]. destruct (rep_dims _ _ _ R2) as [Ew2 Eh2].
    pose proof (ppos i ct Hct Hpos P1 HP1) as [Pw1 Ph1]. pose proof (ppos i ct Hct Hpos P2 HP2) as [Pw2 Ph2].
    assert (H1 : forall fuel, (6 * pheight (PV P1 P2) + 1 <= fuel)%nat -> forall d x y, 0 <= d -> hcut_vertical fv (d + 1) = true ->
      exists calls, hblock_calls fuel ret fv ct b (d + 1) x y (pw i ct (PV P1 P2)) (ph i ct (PV P1 P2)) = Some calls
      /\ forall ns, Fresh ns d x (x + pw i ct (PV P1 P2)) y (y + ph i ct (PV P1 P2)) -> inner ns ->
           Fills i o calls ns (pitems (PV P1 P2))).
    { intros [|fuel] Hf d x y Hd V; [lia|]. cbn [hblock_calls]. rewrite Ew, Eh, !Z.ltb_irrefl, Es, Ev, V. cbn [Bool.eqb negb].
      fold b1 b2. rewrite Ew1, Ew2. cbn [pheight] in Hf.
      destruct (IH1 b1 (pw i ct P1) (ph i ct (PV P1 P2)) fuel HP1 R1 ltac:(lia) ltac:(cbn [ph]; lia) ltac:(lia) (d + 1) x y ltac:(lia))
        as (c1 & -> & F1).
      destruct (IH2 b2 (pw i ct P2) (ph i ct (PV P1 P2)) fuel HP2 R2 ltac:(lia) ltac:(cbn [ph]; lia) ltac:(lia) (d + 1)
        (x + pw i ct P1 + ct) y ltac:(lia)) as (c2 & -> & F2).
      eexists. split; [reflexivity|]. intros ns HF _. cbn [pitems].
      eapply fills_two_v; [exact Hct|exact HF|exact Hd|rewrite Hdir by lia; exact V|lia|fold ct; cbn [pw]; lia|lia| |].
      - intros ns2 A B. apply F1; assumption.
      - intros ns2 A B. apply F2; [|exact B]. fold ct in A.
        replace (x + pw i ct P1 + ct + pw i ct P2) with (x + pw i ct (PV P1 P2)) by (cbn [pw]; lia). exact A. }
    intros fuel Hf d x y Hd. destruct (hcut_vertical fv (d + 1)) eqn:V; [apply H1; [lia|exact Hd|exact V]|].
    destruct fuel as [|fuel]; [lia|]. cbn [hblock_calls]. rewrite Ew, Eh, !Z.ltb_irrefl, Es, Ev, V. cbn [Bool.eqb negb].
    destruct (H1 fuel ltac:(lia) (d + 1) x y ltac:(lia)) as (calls & -> & F).
    { rewrite hcut_next, V by lia. reflexivity. }
    eexists. split; [reflexivity|]. intros ns HF _.
    eapply fills_one_h; [exact HF|exact Hd|rewrite Hdir by lia; exact V|cbn [ph]; lia|].
    intros ns2 F2 I2. apply F; assumption.
  - cbn [rep] in HR. destruct HR as (Ew & Eh & Es & Ev & L1 & L2 & R1 & R2). destruct HP as [HP1 HP2].
    set (b1 := nth (hb_p1 b) ret hdummy) in *. set (b2 := nth (hb_p2 b) ret hdummy) in *.
    destruct (rep_dims _ _ _ R1) as [Ew1 Eh1]. destruct (rep_dims _ _ _ R2) as [Ew2 Eh2].
    pose proof (ppos i ct Hct Hpos P1 HP1) as [Pw1 Ph1]. pose proof (ppos i ct Hct Hpos P2 HP2) as [Pw2 Ph2].
    assert (H1 : forall fuel, (6 * pheight (PH P1 P2) + 1 <= fuel)%nat -> forall d x y, 0 <= d -> hcut_vertical fv (d + 1) = false ->
      exists calls, hblock_calls fuel ret fv ct b (d + 1) x y (pw i ct (PH P1 P2)) (ph i ct (PH P1 P2)) = Some calls
      /\ forall ns, Fresh ns d x (x + pw i ct (PH P1 P2)) y (y + ph i ct (PH P1 P2)) -> inner ns ->
           Fills i o calls ns (pitems (PH P1 P2))).
    { intros [|fuel] Hf d x y Hd V; [lia|]. cbn [hblock_calls]. rewrite Ew, Eh, !Z.ltb_irrefl, Es, Ev, V. cbn [Bool.eqb negb].
      fold b1 b2. rewrite Eh1, Eh2. cbn [pheight] in Hf.
      destruct (IH1 b1 (pw i ct (PH P1 P2)) (ph i ct P1) fuel HP1 R1 ltac:(cbn [pw]; lia) ltac:(lia) ltac:(lia) (d + 1) x y ltac:(lia))
        as (c1 & -> & F1).
      destruct (IH2 b2 (pw i ct (PH P1 P2)) (ph i ct P2) fuel HP2 R2 ltac:(cbn [pw]; lia) ltac:(lia) ltac:(lia) (d + 1)
        x (y + ph i ct P1 + ct) ltac:(lia)) as (c2 & -> & F2).
      eexists. split; [reflexivity|]. intros ns HF _. cbn [pitems].
      eapply fills_two_h; [exact Hct|exact HF|exact Hd|rewrite Hdir by lia; exact V|lia|fold ct; cbn [ph]; lia|lia| |].
      - intros ns2 A B. apply F1; assumption.
      - intros ns2 A B. apply F2; [|exact B]. fold ct in A.
        replace (y + ph i ct P1 + ct + ph i ct P2) with (y + ph i ct (PH P1 P2)) by (cbn [ph]; lia). exact A. }
    intros fuel Hf d x y Hd. destruct (hcut_vertical fv (d + 1)) eqn:V; [|apply H1; [lia|exact Hd|exact V]].
    destruct fuel as [|fuel]; [lia|]. cbn [hblock_calls]. rewrite Ew, Eh, !Z.ltb_irrefl, Es, Ev, V. cbn [Bool.eqb negb].
    destruct (H1 fuel ltac:(lia) (d + 1) x y ltac:(lia)) as (calls & -> & F).
    { rewrite hcut_next, V by lia. reflexivity. }
    eexists. split; [reflexivity|]. intros ns HF _.
    eapply fills_one_v; [exact HF|exact Hd|rewrite Hdir by lia; exact V|cbn [pw]; lia|].
    intros ns2 F2 I2. apply F; assumption.
Qed.
End Rec.

(** ** The whole solution *)
Section Top.
Variable i : GInstance.
Hypothesis HI : hyper_instance i.
Hypothesis HU : hyper_supported i.
Let ct := gp_ct (gin_params i).

Lemma first_vertical : hfirst i = GVertical.
Proof. unfold hfirst. pose proof (hu_first _ HU). destruct (gp_first (gin_params i)); [..|]; solve [reflexivity|exfalso; congruence]. Qed.

Lemma top_dir : forall d, 1 <= d -> vertical_at (hfirst i) d = hcut_vertical (hfirst_vertical i) d.
Proof.
  intros d Hd. unfold hfirst_vertical. rewrite first_vertical, hcut_odd by lia. cbn [vertical_at].
  destruct (Z.odd d); reflexivity.
Qed.

Lemma bin_len : (0 < length (gin_bins i))%nat.
Proof. pose proof (hi_bin _ HI). destruct (gin_bins i); [contradiction|cbn [length]; lia]. Qed.

Lemma its_init : forall bt t, its (ginit_nodes bt t) = [].
Proof.
  intros bt t. unfold its, item_nodes.
  assert (H : forall l, (forall k, (k < length l)%nat -> gis_item (gnode l k) = false) -> filter gis_item l = []).
  { induction l as [|n l IH]; intros Hl; [reflexivity|]. cbn [filter]. pose proof (Hl 0%nat ltac:(cbn [length]; lia)) as H0. change (gnode (n :: l) 0) with n in H0. rewrite H0.
    apply IH. intros k Hk. apply (Hl (S k)). cbn [length]. lia. }
  rewrite H; [reflexivity|]. intros k Hk. rewrite init_length in Hk. destruct (Nat.eq_dec k (gbase bt)) as [->|].
  - destruct (init_base_node bt t) as [_ A]. unfold gis_item.
    destruct (gn_f (gnode (ginit_nodes bt t) (gbase bt))); [|reflexivity]. rewrite A by discriminate. reflexivity.
  - apply init_items. lia.
Qed.

Lemma top_fresh : Fresh (ginit_nodes (gbin i 0) 0) 0 (hx0 i) (usable_r (gbin i 0)) (hy0 i) (hy0 i + heff_h i)
  /\ hx0 i + heff_w i <= usable_r (gbin i 0).
Proof.
  destruct (hi_trims _ HI) as (T1 & T2 & T3 & T4). pose proof (hu_bottom _ HU) as U1. pose proof (hu_top _ HU) as U2.
  pose proof (usable_same (gbin i 0)) as (S1 & S2 & S3 & S4).
  split.
  - pose proof (init_base (gbin i 0) 0) as E. pose proof (init_length (gbin i 0) 0) as L.
    pose proof (init_base_node (gbin i 0) 0) as [C N].
    assert (EL : (length (ginit_nodes (gbin i 0) 0) - 1)%nat = gbase (gbin i 0)) by lia.
    unfold geo in E. injection E as E1 E2 E3 E4 E5 E6. constructor; rewrite ?EL.
    + destruct (ginit_nodes (gbin i 0) 0); [cbn [length] in L; lia|discriminate].
    + rewrite E2, E3, E4, E5, E6, S1, S2, S3, S4. unfold usable_l, usable_b, usable_t, hard, hx0, hy0, heff_h.
      split; [reflexivity|]. split; [destruct (gt_hard (gb_left _)); lia|]. split; [reflexivity|].
      split; [destruct (gt_hard (gb_bottom _)); lia|]. revert U1 U2.
      destruct (gt_hard (gb_bottom _)), (gt_hard (gb_top _)); intros [U1|U1] [U2|U2]; try discriminate; lia.
    + exact C.
    + unfold gis_item. destruct (gn_f _); [|reflexivity]. rewrite N by discriminate. reflexivity.
  - unfold usable_r, hard, hx0, heff_w. destruct (gt_hard (gb_left _)), (gt_hard (gb_right _)); lia.
Qed.

Lemma top_empty : solution_with i [GAddBin 0 1 (hfirst i)] [].
Proof.
  unfold solution_with. cbn [gaccepted grun gcall]. unfold gadd_bin. pose proof bin_len as BL. apply Nat.ltb_lt in BL.
  rewrite BL. cbn [app gaccepted grun]. split; [reflexivity|]. eexists. split; [reflexivity|].
  split; [reflexivity|]. split; [reflexivity|]. apply its_init.
Qed.

Lemma top_solution : forall calls xs,
  (forall ns, Fresh ns 1 (hx0 i) (hx0 i + heff_w i) (hy0 i) (hy0 i + heff_h i) -> inner ns -> Fills i (hfirst i) calls ns xs) ->
  solution_with i (GAddBin 0 1 (hfirst i) :: GAddNode 1 (hx0 i + heff_w i) :: calls) xs.
Proof.
  intros calls xs HF. destruct top_fresh as [FR LE].
  assert (F : Fills i (hfirst i) (GAddNode (0 + 1) (hx0 i + heff_w i) :: calls) (ginit_nodes (gbin i 0) 0) xs).
  { eapply fills_one_v; [exact FR|lia|rewrite first_vertical; reflexivity| |].
    - pose proof (hi_w _ HI) as Hw. unfold plate_w in Hw. fold (heff_w i) in Hw. lia.
    - exact HF. }
  destruct F as (ns & R & _ & I). rewrite its_init in I. cbn [app] in I.
  set (b := mkGB 0 1 (hfirst i) (ginit_nodes (gbin i 0) 0) 0 0 false false []).
  destruct (nrun_builder i (hfirst i) (GAddNode (0 + 1) (hx0 i + heff_w i) :: calls) b ns eq_refl R) as [A B].
  change (0 + 1) with 1 in *. unfold solution_with. pose proof bin_len as BL. apply Nat.ltb_lt in BL.
  assert (EB : gadd_bin i [] 0 1 (hfirst i) = GOk [b]) by (unfold gadd_bin; rewrite BL; reflexivity).
  remember (GAddNode 1 (hx0 i + heff_w i) :: calls) as rest. cbn [gaccepted grun gcall]. rewrite EB.
  split; [exact A|]. eexists. split; [exact B|]. split; [reflexivity|]. split; [reflexivity|]. exact I.
Qed.

Lemma hsolution_ok : forall ret P root, pok i P -> rep i ret P root -> pw i ct P <= heff_w i -> ph i ct P <= heff_h i ->
  (pheight P <= length ret)%nat -> (0 < hb_profit root)%Q ->
  exists calls, hsolution i ret root = Some calls /\ solution_with i calls (pitems P).
Proof.
  intros ret P root HP HR Hw Hh Hn Hpr. unfold hsolution.
  assert (Q0 : Qltb 0 (hb_profit root) = true) by (apply Common_Proof.Qltb_lt; exact Hpr). rewrite Q0.
  pose proof (hi_ct _ HI) as Hct.
  destruct (good_all i Hct (hi_items _ HI) (hfirst i) (hfirst_vertical i) top_dir ret P root (heff_w i) (heff_h i)
    (6 * (length ret + 2)) HP HR Hw Hh ltac:(lia) 1 (hx0 i) (hy0 i) ltac:(lia)) as (calls & E & F).
  change (1 + 1) with 2 in E. rewrite E. eexists. split; [reflexivity|]. apply top_solution. exact F.
Qed.
End Top.
