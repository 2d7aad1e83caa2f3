(** * The search of the guillotine knapsack algorithm: every block is a pattern,
    every solution is one *)

From Coq Require Import List ZArith QArith Bool Lia Lqa.
From Verif Require Import Util Common_Model Common_Proof Guil_Model Guil_Spec Guil_Proof GuilPlan_Proof Hyper_Model Hyper_Spec
  HyperDp_Proof HyperPat_Proof HyperBuild_Proof HyperRec_Proof.
Import ListNotations.
Open Scope Z_scope.

Lemma in_upd_cons : forall (A : Type) (l : list (list A)) k m c x,
  In x (nth k (upd m (cons c) l) []) -> (k = m /\ x = c) \/ In x (nth k l []).
Proof.
  induction l as [|a l IH]; intros [|k] [|m] c x Hx; cbn [upd nth] in Hx; try contradiction.
  - destruct Hx as [<-|Hx]; [left; auto|right; exact Hx].
  - right. exact Hx.
  - right. exact Hx.
  - destruct (IH k m c x Hx) as [[-> ->]|H]; [left; auto|right; exact H].
Qed.
Lemma upd_cons_keep : forall (A : Type) (l : list (list A)) k m c x,
  In x (nth k l []) -> In x (nth k (upd m (cons c) l) []).
Proof.
  induction l as [|a l IH]; intros [|k] [|m] c x Hx; cbn [upd nth] in *; try contradiction; auto.
  right. exact Hx.
Qed.
Lemma upd_cons_new : forall (A : Type) (l : list (list A)) m c, (m < length l)%nat -> In c (nth m (upd m (cons c) l) []).
Proof.
  induction l as [|a l IH]; intros [|m] c Hm; cbn [length upd nth] in *; [lia|lia|left; reflexivity|]. apply IH. lia.
Qed.
Lemma nth_upd_const : forall (A : Type) (l : list (list A)) k m r,
  nth k (upd m (fun _ => r) l) [] = if Nat.eqb k m && Nat.ltb m (length l) then r else nth k l [].
Proof.
  induction l as [|a l IH]; intros [|k] [|m] r; cbn [upd nth length]; try reflexivity.
  - destruct (Nat.eqb_spec (S k) (S m)); rewrite ?andb_false_r; reflexivity.
  - rewrite IH. change (Nat.eqb (S k) (S m)) with (Nat.eqb k m). change (Nat.ltb (S m) (S (length l))) with (Nat.ltb m (length l)).
    reflexivity.
Qed.

Section Valid.
Variable i : GInstance.
Hypothesis HI : hyper_instance i.
Hypothesis HU : hyper_supported i.
Let ct := gp_ct (gin_params i).
Let W := heff_w i.
Let T := heff_h i.
Variable nb : nat.
Variable rdp : list (option Q).
Variable init : Q.

(** A block of the search: a pattern that fits in the plate and respects the
    copies, with its numbers. *)
Definition blk (ret : list HBlock) (n : nat) (b : HBlock) : Prop :=
  exists P, pok i P /\ rep i ret P b /\ (pheight P <= n)%nat /\ within_copies i (pitems P)
    /\ hb_copies b = pcopies i P /\ hb_vertical b = pvert P /\ (hb_profit b == pprofit i P)%Q
    /\ pw i ct P <= W /\ ph i ct P <= T
    /\ hb_priority b = hadd_ext (hgetr W rdp (hb_w b) (hb_h b)) (hb_profit b).

Definition good_out (e : Q * option (list GCall)) : Prop :=
  exists calls xs, snd e = Some calls /\ solution_with i calls xs /\ within_copies i xs /\ (items_profit i xs == fst e)%Q.

Record SInv (st : HState) : Prop := {
  si_best : (0 <= hs_best st)%Q;
  si_buckets : forall k b, In b (nth k (hs_buckets st) []) -> blk (hs_returned st) (length (hs_returned st)) b /\ (hb_profit b <= hs_best st)%Q;
  si_ret : forall b, In b (hs_returned st) -> blk (hs_returned st) (length (hs_returned st) - 1) b /\ (hb_profit b <= hs_best st)%Q;
  si_out : Forall good_out (hs_out st);
  si_last : match hs_out st with [] => hs_best st = 0%Q | e :: _ => fst e = hs_best st end
}.

Lemma blk_app : forall ret c n m b, blk ret n b -> (n <= m)%nat -> blk (ret ++ c) m b.
Proof.
  intros ret c n m b (P & A & B & C & D) Hm. exists P. split; [exact A|]. split; [apply rep_app; exact B|].
  split; [lia|exact D].
Qed.

Lemma record_inv : forall b st, SInv st -> blk (hs_returned st) (length (hs_returned st)) b ->
  SInv (hrecord i b st) /\ (hb_profit b <= hs_best (hrecord i b st))%Q /\ (hs_best st <= hs_best (hrecord i b st))%Q
  /\ hs_returned (hrecord i b st) = hs_returned st /\ hs_buckets (hrecord i b st) = hs_buckets st
  /\ hs_seen (hrecord i b st) = hs_seen st.
Proof.
  intros b st [I1 I2 I3 I4 I5] HB. unfold hrecord. destruct (Qltb (hs_best st) (hb_profit b)) eqn:E.
  - apply Qltb_lt in E. cbn [hs_best hs_returned hs_buckets hs_seen]. split; [|split; [apply Qle_refl|split; [lra|auto]]].
    constructor; cbn [hs_best hs_returned hs_buckets hs_seen hs_out].
    + lra.
    + intros k c Hc. destruct (I2 k c Hc) as [A B]. split; [exact A|lra].
    + intros c Hc. destruct (I3 c Hc) as [A B]. split; [exact A|lra].
    + constructor; [|exact I4]. destruct HB as (P & P1 & P2 & P3 & P4 & P5 & P6 & P7 & P8 & P9 & _).
      destruct (hsolution_ok i HI HU (hs_returned st) P b P1 P2 P8 P9 P3 ltac:(lra)) as (calls & E1 & E2).
      exists calls, (pitems P). cbn [fst snd]. split; [exact E1|]. split; [exact E2|]. split; [exact P4|].
      rewrite P7. reflexivity.
    + reflexivity.
  - apply Qltb_ge in E. split; [constructor; assumption|]. split; [exact E|]. split; [apply Qle_refl|auto].
Qed.

Lemma push_inv : forall b st, SInv st -> blk (hs_returned st) (length (hs_returned st)) b -> (hb_profit b <= hs_best st)%Q ->
  SInv (hpush nb init b st).
Proof.
  intros b st [I1 I2 I3 I4 I5] HB HL. unfold hpush. constructor; cbn [hs_best hs_returned hs_buckets hs_seen hs_out]; try assumption.
  intros k c Hc. apply in_upd_cons in Hc. destruct Hc as [[_ ->]|Hc]; [auto|apply (I2 k c Hc)].
Qed.

Lemma push_best : forall b st, hs_best (hpush nb init b st) = hs_best st
  /\ hs_returned (hpush nb init b st) = hs_returned st /\ hs_seen (hpush nb init b st) = hs_seen st.
Proof. intros. split; [reflexivity|]. split; reflexivity. Qed.

(** The block of a seed. *)
Definition seed_block (j : nat) (r : bool) : HBlock :=
  let w := if r then gi_h (gitem i j) else gi_w (gitem i j) in
  let h := if r then gi_w (gitem i j) else gi_h (gitem i j) in
  mkHB w h (gi_profit (gitem i j)) [(j, 1)] 1 true true j r 0 0 (hadd_ext (hgetr W rdp w h) (gi_profit (gitem i j))).
Definition seed_ok (j : nat) (r : bool) : Prop :=
  (j < length (gin_items i))%nat /\ 1 <= gi_copies (gitem i j) /\ (r = true -> gi_oriented (gitem i j) = false)
  /\ hb_w (seed_block j r) <= W /\ hb_h (seed_block j r) <= T.

Lemma seed_blk : forall ret n j r, seed_ok j r -> blk ret n (seed_block j r).
Proof.
  intros ret n j r (A & B & C & D & E). exists (PItem j r). cbn [pok rep pheight pitems seed_block hb_w hb_h hb_simple hb_item
    hb_copies hb_vertical hb_profit hb_priority pvert].
  split; [auto|]. split; [split; [destruct r; reflexivity|split; [destruct r; reflexivity|auto]]|]. split; [lia|].
  split. { intros x [<-|[]]. unfold copies_of. cbn [count_occ]. destruct (Nat.eq_dec j j); [lia|contradiction]. }
  split; [symmetry; apply pcopies_item; exact A|]. split; [reflexivity|]. split; [rewrite pprofit_item; reflexivity|].
  cbn [seed_block hb_w hb_h] in D, E. cbn [pw ph]. split; [exact D|]. split; [exact E|]. reflexivity.
Qed.

Lemma hseed_cases : forall j r st, (j < length (gin_items i))%nat ->
  (hseed i nb rdp init j r st = st /\ (seed_ok j r -> (r = true /\ gi_w (gitem i j) = gi_h (gitem i j))
     \/ hle_ext (hb_priority (seed_block j r)) (hs_best st) = true))
  \/ (seed_ok j r /\ ((hseed i nb rdp init j r st = hrecord i (seed_block j r) st
        /\ hle_ext (hb_priority (seed_block j r)) (hs_best (hrecord i (seed_block j r) st)) = true)
      \/ hseed i nb rdp init j r st = hpush nb init (seed_block j r) (hrecord i (seed_block j r) st))).
Proof.
  intros j r st Hj. unfold hseed. cbv zeta.
  destruct (Z.ltb_spec (gi_copies (gitem i j)) 1) as [C|C].
  { left. split; [reflexivity|]. intros (_ & B & _). lia. }
  destruct (r && gi_oriented (gitem i j)) eqn:O.
  { left. split; [reflexivity|]. intros (_ & _ & B & _). apply andb_true_iff in O. destruct O as [O1 O2].
    rewrite (B O1) in O2. discriminate. }
  destruct (r && (gi_w (gitem i j) =? gi_h (gitem i j))) eqn:S.
  { left. split; [reflexivity|]. intros _. left. apply andb_true_iff in S. destruct S as [S1 S2]. apply Z.eqb_eq in S2. auto. }
  match goal with |- context [if ?c then st else _] => destruct c eqn:F end.
  { left. split; [reflexivity|]. intros (_ & _ & _ & B1 & B2). cbn [seed_block hb_w hb_h] in B1, B2.
    apply orb_true_iff in F. unfold W, T in *. destruct F as [F|F]; apply Z.ltb_lt in F; lia. }
  apply orb_false_iff in F. destruct F as [F1 F2]. apply Z.ltb_ge in F1, F2.
  assert (OK : seed_ok j r).
  { split; [exact Hj|]. split; [lia|]. split; [|split; [exact F1|exact F2]]. intros ->. exact O. }
  fold W. change (hadd_ext (hgetr W rdp (if r then gi_h (gitem i j) else gi_w (gitem i j))
    (if r then gi_w (gitem i j) else gi_h (gitem i j))) (gi_profit (gitem i j))) with (hb_priority (seed_block j r)).
  destruct (hle_ext (hb_priority (seed_block j r)) (hs_best st)) eqn:L; [left; auto|right]. split; [exact OK|].
  change (mkHB _ _ _ _ _ _ _ _ _ _ _ _) with (seed_block j r).
  destruct (hle_ext (hb_priority (seed_block j r)) (hs_best (hrecord i (seed_block j r) st))) eqn:L2; [left; auto|right; reflexivity].
Qed.

Lemma seed_inv : forall j r st, (j < length (gin_items i))%nat -> SInv st -> SInv (hseed i nb rdp init j r st).
Proof.
  intros j r st Hj HS. destruct (hseed_cases j r st Hj) as [[-> _]|(OK & HC)]; [exact HS|].
  destruct (record_inv _ _ HS (seed_blk _ (length (hs_returned st)) _ _ OK)) as (A & B & C & D & E & F).
  destruct HC as [[-> _]| ->]; [exact A|]. apply push_inv; [exact A|rewrite D; apply seed_blk; exact OK|exact B].
Qed.

Lemma seeds_inv : forall st, SInv st -> SInv (hseeds i nb rdp init st).
Proof.
  intros st HS. unfold hseeds.
  assert (G : forall l st, (forall j, In j l -> (j < length (gin_items i))%nat) -> SInv st ->
    SInv (fold_left (fun st j => hseed i nb rdp init j true (hseed i nb rdp init j false st)) l st)).
  { clear st HS. induction l as [|j l IH]; intros st Hl HS; [exact HS|]. cbn [fold_left]. apply IH; [intros; apply Hl; right; assumption|].
    apply seed_inv; [apply Hl; left; reflexivity|]. apply seed_inv; [apply Hl; left; reflexivity|exact HS]. }
  apply G; [|exact HS]. intros j Hj. apply in_seq in Hj. lia.
Qed.

Lemma start_inv : SInv (hstart nb).
Proof.
  constructor; cbn [hs_best hs_buckets hs_returned hs_out hstart]; [lra| | |constructor|reflexivity].
  - intros k b Hb. exfalso. revert k Hb. induction nb as [|n IH]; intros [|k] Hb; cbn [repeat nth] in Hb; try contradiction. exact (IH k Hb).
  - intros b [].
Qed.

(** The combinations of two blocks. *)
Definition comb (vert : bool) (cur idx : nat) (b e : HBlock) : HBlock :=
  let w := if vert then hb_w b + hb_w e + ct else Z.max (hb_w b) (hb_w e) in
  let h := if vert then Z.max (hb_h b) (hb_h e) else hb_h b + hb_h e + ct in
  mkHB w h (hb_profit b + hb_profit e) (hmerge (hb_copies b) (hb_copies e)) (hb_number b + hb_number e) vert false 0 false cur idx
    (hcombined i rdp (hb_profit b + hb_profit e) w h).

Lemma hcombine_eq : forall cur idx b st, hcombine i nb rdp init cur idx b st =
  let e := nth idx (hs_returned st) hdummy in
  let v := comb true cur idx b e in let h := comb false cur idx b e in
  if hle_ext (hb_priority v) (hs_best st) && hle_ext (hb_priority h) (hs_best st) then st
  else if negb (hvalid (gin_items i) (hb_copies b) (hb_copies e)) then st
  else
    let st := if hle_ext (hb_priority v) (hs_best st) then st else hpush nb init v (hrecord i v st) in
    if hle_ext (hb_priority h) (hs_best st) then st else hpush nb init h (hrecord i h st).
Proof. reflexivity. Qed.

Lemma comb_fits : forall vert cur idx b e best, (0 <= best)%Q -> hle_ext (hb_priority (comb vert cur idx b e)) best = false ->
  hb_w (comb vert cur idx b e) <= W /\ hb_h (comb vert cur idx b e) <= T
  /\ hb_priority (comb vert cur idx b e)
     = hadd_ext (hgetr W rdp (hb_w (comb vert cur idx b e)) (hb_h (comb vert cur idx b e))) (hb_profit (comb vert cur idx b e)).
Proof.
  intros vert cur idx b e best HB E. cbn [comb hb_priority hb_w hb_h hb_profit] in *. unfold hcombined in *.
  fold W T in E |- *. match type of E with hle_ext (if ?c then _ else _) _ = _ => destruct c eqn:F end.
  - apply andb_true_iff in F. destruct F as [F1 F2]. apply Z.leb_le in F1, F2. auto.
  - exfalso. cbn [hle_ext] in E. assert (Qle_bool (-1) best = true) by (apply Qle_bool_iff; lra).
    change (-1 # 1)%Q with (-1)%Q in E. congruence.
Qed.

Lemma comb_blk : forall vert ret cur idx b e, nth cur ret hdummy = b -> nth idx ret hdummy = e ->
  (cur < length ret)%nat -> (idx < length ret)%nat ->
  blk ret (length ret - 1) b -> blk ret (length ret - 1) e -> hvalid (gin_items i) (hb_copies b) (hb_copies e) = true ->
  hb_w (comb vert cur idx b e) <= W -> hb_h (comb vert cur idx b e) <= T ->
  hb_priority (comb vert cur idx b e)
     = hadd_ext (hgetr W rdp (hb_w (comb vert cur idx b e)) (hb_h (comb vert cur idx b e))) (hb_profit (comb vert cur idx b e)) ->
  blk ret (length ret) (comb vert cur idx b e).
Proof.
  intros vert ret cur idx b e Eb Ee Lb Le (P & P1 & P2 & P3 & P4 & P5 & P6 & P7 & P8 & P9 & P10)
    (R & R1 & R2 & R3 & R4 & R5 & R6 & R7 & R8 & R9 & R10) HV Hw Hh HP.
  destruct (rep_dims i _ _ _ P2) as [Pw Ph]. destruct (rep_dims i _ _ _ R2) as [Rw Rh].
  rewrite P5, R5 in HV. unfold pcopies in HV. apply hvalid_canon in HV.
  assert (WI : within_copies i (pitems P ++ pitems R)).
  { apply (proj2 (within_ok i (pitems P ++ pitems R) ltac:(intros x Hx; apply in_app_or in Hx; destruct Hx as [Hx|Hx];
      [exact (pitems_lt i P P1 x Hx)|exact (pitems_lt i R R1 x Hx)]))). exact HV. }
  fold ct in Pw, Ph, Rw, Rh. cbn [comb hb_w hb_h hb_profit] in Hw, Hh. destruct vert.
  - exists (PV P R). split; [cbn [pok]; auto|]. split.
    { cbn [rep comb hb_w hb_h hb_simple hb_vertical hb_p1 hb_p2]. rewrite Eb, Ee. fold ct. cbn [pw ph]. rewrite Pw, Ph, Rw, Rh.
      split; [reflexivity|]. split; [reflexivity|]. auto 10. }
    split; [cbn [pheight]; lia|]. split; [exact WI|].
    split; [cbn [comb hb_copies]; rewrite P5, R5; apply hmerge_canon|]. split; [reflexivity|].
    split; [cbn [comb hb_profit]; rewrite pprofit_app, P7, R7; reflexivity|].
    split; [cbn [pw]; lia|]. split; [cbn [ph]; lia|]. exact HP.
  - exists (PH P R). split; [cbn [pok]; auto|]. split.
    { cbn [rep comb hb_w hb_h hb_simple hb_vertical hb_p1 hb_p2]. rewrite Eb, Ee. fold ct. cbn [pw ph]. rewrite Pw, Ph, Rw, Rh.
      split; [reflexivity|]. split; [reflexivity|]. auto 10. }
    split; [cbn [pheight]; lia|]. split; [exact WI|].
    split; [cbn [comb hb_copies]; rewrite P5, R5; apply hmerge_canon|]. split; [reflexivity|].
    split; [cbn [comb hb_profit]; rewrite pprofit_app_h, P7, R7; reflexivity|].
    split; [cbn [pw]; lia|]. split; [cbn [ph]; lia|]. exact HP.
Qed.

(** One combination inserted if its priority is high enough. *)
Definition try_insert (c : HBlock) (st : HState) : HState :=
  if hle_ext (hb_priority c) (hs_best st) then st else hpush nb init c (hrecord i c st).

Lemma try_inv : forall vert cur idx b e st, SInv st -> nth cur (hs_returned st) hdummy = b -> nth idx (hs_returned st) hdummy = e ->
  (cur < length (hs_returned st))%nat -> (idx < length (hs_returned st))%nat ->
  hvalid (gin_items i) (hb_copies b) (hb_copies e) = true ->
  SInv (try_insert (comb vert cur idx b e) st) /\ hs_returned (try_insert (comb vert cur idx b e) st) = hs_returned st
  /\ hs_seen (try_insert (comb vert cur idx b e) st) = hs_seen st
  /\ (hs_best st <= hs_best (try_insert (comb vert cur idx b e) st))%Q.
Proof.
  intros vert cur idx b e st HS Eb Ee Lb Le HV. unfold try_insert.
  destruct (hle_ext (hb_priority (comb vert cur idx b e)) (hs_best st)) eqn:E;
    [split; [exact HS|split; [reflexivity|split; [reflexivity|apply Qle_refl]]]|].
  destruct (comb_fits _ _ _ _ _ _ (si_best _ HS) E) as (F1 & F2 & F3).
  assert (Ib : In b (hs_returned st)) by (rewrite <- Eb; apply nth_In; exact Lb).
  assert (Ie : In e (hs_returned st)) by (rewrite <- Ee; apply nth_In; exact Le).
  pose proof (comb_blk vert _ _ _ _ _ Eb Ee Lb Le (proj1 (si_ret _ HS b Ib)) (proj1 (si_ret _ HS e Ie)) HV F1 F2 F3) as BK.
  destruct (record_inv _ _ HS BK) as (A & B & C & D & E2 & F).
  split; [apply push_inv; [exact A|rewrite D; exact BK|exact B]|]. cbn [hpush hs_returned hs_seen hs_best]. auto.
Qed.

Lemma combine_inv : forall cur idx b st, SInv st -> nth cur (hs_returned st) hdummy = b ->
  (cur < length (hs_returned st))%nat -> (idx < length (hs_returned st))%nat ->
  SInv (hcombine i nb rdp init cur idx b st) /\ hs_returned (hcombine i nb rdp init cur idx b st) = hs_returned st
  /\ hs_seen (hcombine i nb rdp init cur idx b st) = hs_seen st
  /\ (hs_best st <= hs_best (hcombine i nb rdp init cur idx b st))%Q.
Proof.
  intros cur idx b st HS Eb Lb Le. rewrite hcombine_eq. cbv zeta. set (e := nth idx (hs_returned st) hdummy).
  match goal with |- context [if ?c then st else _] => destruct c end;
    [split; [exact HS|split; [reflexivity|split; [reflexivity|apply Qle_refl]]]|].
  destruct (hvalid (gin_items i) (hb_copies b) (hb_copies e)) eqn:HV; cbn [negb];
    [|split; [exact HS|split; [reflexivity|split; [reflexivity|apply Qle_refl]]]].
  fold (try_insert (comb true cur idx b e) st). 
  destruct (try_inv true cur idx b e st HS Eb eq_refl Lb Le HV) as (A & B & C & D).
  set (st1 := try_insert (comb true cur idx b e) st) in *. fold (try_insert (comb false cur idx b e) st1).
  destruct (try_inv false cur idx b e st1 A) as (A2 & B2 & C2 & D2); [rewrite B; exact Eb|rewrite B; reflexivity|rewrite B; exact Lb|rewrite B; exact Le|exact HV|].
  split; [exact A2|]. split; [rewrite B2; exact B|]. split; [rewrite C2; exact C|]. eapply Qle_trans; [exact D|exact D2].
Qed.

(** The changes that only touch the buckets, the counter and the keys. *)
Lemma inv_pop : forall st k b rest n, SInv st -> nth k (hs_buckets st) [] = b :: rest ->
  SInv (mkHS (upd k (fun _ => rest) (hs_buckets st)) (hs_seen st) (hs_returned st) (hs_best st) (hs_out st) n).
Proof.
  intros st k b rest n [I1 I2 I3 I4 I5] E. constructor; cbn [hs_best hs_returned hs_buckets hs_seen hs_out]; try assumption.
  intros m c Hc. rewrite nth_upd_const in Hc. destruct (Nat.eqb_spec m k) as [->|Hne]; cbn [andb] in Hc.
  - destruct (Nat.ltb k (length (hs_buckets st))).
    + apply (I2 k c). rewrite E. right. exact Hc.
    + apply (I2 k c Hc).
  - apply (I2 m c Hc).
Qed.

Lemma inv_return : forall st b key, SInv st -> blk (hs_returned st) (length (hs_returned st)) b -> (hb_profit b <= hs_best st)%Q ->
  SInv (mkHS (hs_buckets st) (key :: hs_seen st) (hs_returned st ++ [b]) (hs_best st) (hs_out st) (hs_asked st)).
Proof.
  intros st b key [I1 I2 I3 I4 I5] HB HL. constructor; cbn [hs_best hs_returned hs_buckets hs_seen hs_out]; try assumption.
  - intros k c Hc. destruct (I2 k c Hc) as [A B]. split; [|exact B]. eapply blk_app; [exact A|]. rewrite app_length. lia.
  - intros c Hc. rewrite app_length. cbn [length]. apply in_app_or in Hc. destruct Hc as [Hc|[<-|[]]].
    + destruct (I3 c Hc) as [A B]. split; [|exact B]. eapply blk_app; [exact A|]. lia.
    + split; [|exact HL]. eapply blk_app; [exact HB|]. lia.
Qed.

Lemma inv_asked : forall st n, SInv st ->
  SInv (mkHS (hs_buckets st) (hs_seen st) (hs_returned st) (hs_best st) (hs_out st) n).
Proof. intros st n [I1 I2 I3 I4 I5]. constructor; assumption. Qed.

Lemma fold_combine_inv : forall cur b l st, SInv st -> nth cur (hs_returned st) hdummy = b ->
  (cur < length (hs_returned st))%nat -> (forall x, In x l -> (x < length (hs_returned st))%nat) ->
  SInv (fold_left (fun st idx => hcombine i nb rdp init cur idx b st) l st)
  /\ hs_returned (fold_left (fun st idx => hcombine i nb rdp init cur idx b st) l st) = hs_returned st
  /\ hs_seen (fold_left (fun st idx => hcombine i nb rdp init cur idx b st) l st) = hs_seen st
  /\ (hs_best st <= hs_best (fold_left (fun st idx => hcombine i nb rdp init cur idx b st) l st))%Q.
Proof.
  intros cur b. induction l as [|x l IH]; intros st HS Eb Lb Hl; cbn [fold_left].
  { split; [exact HS|]. split; [reflexivity|]. split; [reflexivity|apply Qle_refl]. }
  destruct (combine_inv cur x b st HS Eb Lb (Hl x (or_introl eq_refl))) as (A & B & C & D).
  destruct (IH (hcombine i nb rdp init cur x b st) A) as (A2 & B2 & C2 & D2);
    [rewrite B; exact Eb|rewrite B; exact Lb|rewrite B; intros y Hy; apply Hl; right; exact Hy|].
  split; [exact A2|]. split; [congruence|]. split; [congruence|]. eapply Qle_trans; [exact D|exact D2].
Qed.

Variable timer : nat -> bool.

Lemma bucket_loop_inv : forall fuel k st st', hbucket_loop i nb rdp init timer fuel k st = Some st' -> SInv st -> SInv st'.
Proof.
  induction fuel as [|fuel IH]; intros k st st' E HS; cbn [hbucket_loop] in E.
  - destruct (nth k (hs_buckets st) []) as [|b rest] eqn:EB; [injection E as <-; exact HS|discriminate].
  - destruct (nth k (hs_buckets st) []) as [|b rest] eqn:EB; [injection E as <-; exact HS|].
    cbn [hs_asked hs_buckets hs_seen hs_returned hs_best hs_out] in E.
    destruct (timer (hs_asked st)); [injection E as <-; apply inv_asked; exact HS|].
    destruct (Qle_bool (hthreshold init k) (hs_best st)); [injection E as <-; apply inv_asked; exact HS|].
    pose proof (inv_pop st k b rest (S (hs_asked st)) HS EB) as HP.
    destruct (hle_ext (hb_priority b) (hs_best st)); [exact (IH _ _ _ E HP)|].
    destruct (existsb (hkey_eqb (hkey b)) (hs_seen st)); [exact (IH _ _ _ E HP)|].
    refine (IH _ _ _ E _).
    destruct (si_buckets _ HS k b) as [BK BL]; [rewrite EB; left; reflexivity|].
    pose proof (inv_return _ b (hkey b) HP BK BL) as HR.
    cbn [hs_asked hs_buckets hs_seen hs_returned hs_best hs_out] in HR.
    refine (proj1 (fold_combine_inv (length (hs_returned st)) b (seq 0 (S (length (hs_returned st)))) _ HR _ _ _));
      cbn [hs_returned].
    + rewrite app_nth2, Nat.sub_diag by lia. reflexivity.
    + rewrite app_length. cbn [length]. lia.
    + intros x Hx. apply in_seq in Hx. rewrite app_length. cbn [length]. lia.
Qed.

Lemma buckets_loop_inv : forall fuel ks st st', hbuckets_loop i nb rdp init timer fuel ks st = Some st' -> SInv st -> SInv st'.
Proof.
  induction ks as [|k ks IH]; intros st st' E HS; cbn [hbuckets_loop] in E; [injection E as <-; exact HS|].
  cbn [hs_asked hs_buckets hs_seen hs_returned hs_best hs_out] in E.
  destruct (timer (hs_asked st)); [injection E as <-; apply inv_asked; exact HS|].
  destruct (Qle_bool (hthreshold init k) (hs_best st)); [injection E as <-; apply inv_asked; exact HS|].
  match type of E with match ?c with _ => _ end = _ => destruct c as [st2|] eqn:E2; [|discriminate] end.
  apply (IH _ _ E). eapply bucket_loop_inv; [exact E2|]. apply inv_asked. exact HS.
Qed.

Lemma run_inv : forall fuel st, hrun i nb rdp init timer fuel = Some st -> SInv st.
Proof.
  intros fuel st E. unfold hrun in E. eapply buckets_loop_inv; [exact E|]. apply seeds_inv. apply start_inv.
Qed.
End Valid.
