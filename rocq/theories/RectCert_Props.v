(** * C43: the rectangle certificate *)

From Coq Require Import Ascii String List ZArith QArith Bool Lia Arith.
From Verif Require Import Util Csv_Model Csv_Spec Csv_Proof Common_Model OneDim_Proof.
From Verif Require Import Rect_Model Rect_Spec RectSol_Model RectSol_Spec RectSol_Proof RectSol_Props
  RectCert_Model RectCert_Spec RectCert_Proof.
Import ListNotations.
Open Scope Z_scope.

(** Reading the written certificate rebuilds the bins: types, copies, items,
    positions and orientations, except that a rotated square comes back
    unrotated; the indicators and the feasibility are those of these bins. *)
Theorem C43_round_trip : forall keep i cb calls1 calls2 s,
  rwf_resources i -> rcopies_nonneg calls1 calls2 -> rhistory i cb calls1 calls2 = Some s ->
  (forall k d, nth_error (rview s) k = Some d -> rprintable i k d) ->
  (forall d, In d (rview s) -> rotations_ok i d) ->
  exists bins, rread_certificate keep i (rwrite_certificate i s) = Some bins /\
    let s' := rb_build i cb bins in
    rview s' = map (unrotated_squares i) (rview s) /\
    RIndicators i (rview s') (rs_core s') /\
    (forall e, In e (rview s') -> forall p, In p (rd_items e) -> pl_rot p = true ->
       ri_x (ritem i (pl_type p)) <> ri_y (ritem i (pl_type p))).
Proof.
  intros keep i cb calls1 calls2 s Hwf Hc H Hp Hr.
  destruct (rhistory_spec i cb Hwf calls1 calls2 s H Hc) as [[F D] V].
  assert (Hb : forall b, In b (rc_bins (rs_core s)) -> rraw_ok i b /\ rotations_ok i (rview_bin b)).
  { intros b Hb. assert (Hd : In (rview_bin b) (rview s)) by (apply in_map; assumption). split; [|apply Hr, Hd].
    destruct (D _ Hd) as (D1 & D2 & _). split; assumption. }
  exists (map (rforget i) (rc_bins (rs_core s))). split.
  { rewrite rread_write by assumption. apply (rrebuild i (rc_bins (rs_core s)) []). exact Hb. }
  assert (Hok : forall b, In b (map (rforget i) (rc_bins (rs_core s))) -> rdesc_ok i (rview_bin b)).
  { intros b Hin. apply in_map_iff in Hin. destruct Hin as (b0 & <- & Hb0). destruct (Hb b0 Hb0) as [[R1 R2] _].
    split; [exact R1|]. split.
    - intros p Hpi. cbn [rview_bin rforget rraw_bin rs_items rd_items] in Hpi. apply in_map_iff in Hpi. destruct Hpi as (q & <- & Hq).
      unfold unrotated_square. destruct (_ =? _); cbn [pl_type]; apply (R2 q Hq).
    - assert (Hd : In (rview_bin b0) (rview s)) by (apply in_map; assumption). apply (D _ Hd). }
  destruct (rbuild_full i cb Hwf _ Hok) as [F' V']. cbv zeta.
  assert (E : rview (rb_build i cb (map (rforget i) (rc_bins (rs_core s)))) = map (unrotated_squares i) (rview s)).
  { rewrite V'. unfold rview. rewrite !map_map. reflexivity. }
  split; [exact E|]. split; [apply rinv_indicators, (rf_inv _ _ _ F')|].
  rewrite E. intros e He p Hpi Hrot. apply in_map_iff in He. destruct He as (d & <- & _).
  cbn [unrotated_squares rd_items] in Hpi. apply in_map_iff in Hpi. destruct Hpi as (q & <- & _).
  unfold unrotated_square in *. destruct (Z.eqb_spec (ri_x (ritem i (pl_type q))) (ri_y (ritem i (pl_type q)))); [discriminate|assumption].
Qed.
Print Assumptions C43_round_trip.

(** Nothing moves: a rotated square has the same ends when it is not
    rotated. *)
Theorem C43_same_places : forall i p,
  let q := unrotated_square i p in
  pl_type q = pl_type p /\ pl_x q = pl_x p /\ pl_y q = pl_y p /\ pl_xe i q = pl_xe i p /\ pl_ye i q = pl_ye i p.
Proof.
  intros i p. unfold unrotated_square.
  destruct (Z.eqb_spec (ri_x (ritem i (pl_type p))) (ri_y (ritem i (pl_type p)))) as [E|E]; [|auto].
  unfold pl_xe, pl_ye, pl_w, pl_h. cbn [pl_type pl_x pl_y pl_rot]. rewrite E. destruct (pl_rot p); auto.
Qed.
Print Assumptions C43_same_places.

(** A solution made by a builder without rotated squares is read back as it
    was, all its indicators included. *)
Theorem C43_same_solution : forall keep i cb calls s,
  rwf_resources i -> rcopies_nonneg calls [] -> rhistory i cb calls [] = Some s ->
  (forall k d, nth_error (rview s) k = Some d -> rprintable i k d) ->
  (forall d p, In d (rview s) -> In p (rd_items d) -> pl_rot p = true ->
     ri_x (ritem i (pl_type p)) <> ri_y (ritem i (pl_type p))) ->
  option_map (rb_build i cb) (rread_certificate keep i (rwrite_certificate i s)) = Some s.
Proof.
  intros keep i cb calls s Hwf Hc H Hp Hsq. pose proof H as H0.
  destruct (rhistory_spec i cb Hwf calls [] s H Hc) as [[F D] _].
  unfold rhistory in H. destruct (rb_run i [] calls) as [bins|] eqn:E; [|discriminate]. cbn [rsol_run] in H. injection H as H.
  destruct (rb_run_spec i calls [] bins E) as [V1 V2]; [intros b []|]. cbn [map] in V1.
  assert (Hok : forall b, In b bins -> rdesc_ok i (rview_bin b)).
  { intros b Hb. destruct (V2 b Hb) as (R1 & R2). split; [exact R1|]. split; [exact R2|]. apply Hc, in_or_app. left.
    rewrite <- V1. apply in_map. assumption. }
  destruct (rbuild_full i cb Hwf bins Hok) as [_ V]. rewrite H in V.
  assert (Hrot : forall b, In b bins -> rotations_ok i (rview_bin b)) by (apply (rotations_run i calls [] bins); [intros b []|exact E]).
  assert (Hfr : forall b, In b bins -> rfresh b) by (apply (rfresh_run i calls [] bins); [intros b []|exact E]).
  rewrite rread_write by assumption.
  assert (Eb : rb_run i [] (concat (rbins_calls i 0 (rc_bins (rs_core s)))) = Some (map (rforget i) (rc_bins (rs_core s)))).
  { apply (rrebuild i (rc_bins (rs_core s)) []). intros b Hb.
    assert (Hd : In (rview_bin b) (map rview_bin bins)) by (rewrite <- V; apply in_map; assumption).
    split; [|apply in_map_iff in Hd; destruct Hd as (b0 & E0 & Hb0); rewrite <- E0; apply Hrot, Hb0].
    assert (Hd' : In (rview_bin b) (rview s)) by (apply in_map; assumption). destruct (D _ Hd') as (D1 & D2 & _). split; assumption. }
  rewrite Eb. cbn [option_map].
  assert (Ef : map (rforget i) (rc_bins (rs_core s)) = bins).
  { transitivity (map (fun d => rraw_bin (rd_type d) (rd_copies d) (map (unrotated_square i) (rd_items d))) (rview s)).
    - unfold rview. rewrite map_map. reflexivity.
    - assert (G : map (fun d => rraw_bin (rd_type d) (rd_copies d) (map (unrotated_square i) (rd_items d))) (rview s)
        = map (fun d => rraw_bin (rd_type d) (rd_copies d) (rd_items d)) (rview s)).
      { apply map_ext_in. intros d Hd. f_equal. rewrite <- (List.map_id (rd_items d)) at 2. apply map_ext_in. intros p Hpi.
        unfold unrotated_square. destruct (Z.eqb_spec (ri_x (ritem i (pl_type p))) (ri_y (ritem i (pl_type p)))) as [Es|]; [|reflexivity].
        destruct p as [x px py [|]]; [exfalso; apply (Hsq d _ Hd Hpi eq_refl Es)|reflexivity]. }
      rewrite G, V, map_map. rewrite <- (List.map_id bins) at 2. apply map_ext_in. intros b Hb. symmetry. apply Hfr, Hb. }
  rewrite Ef, H. reflexivity.
Qed.
Print Assumptions C43_same_solution.

(** The columns may come in any order and be mixed with others; lines that are
    neither bins nor items are skipped. *)
Theorem C43_columns : forall keep i labels vs callss,
  incl ["TYPE"; "ID"; "COPIES"; "BIN"; "X"; "Y"; "LX"; "LY"]%string labels ->
  plain_cells labels -> nonempty_end labels ->
  Forall2 (rrow_calls i) vs callss ->
  (forall v, In v vs -> plain_cells (map v labels) /\ nonempty_end (map v labels)) ->
  rread_certificate keep i (rows (labels :: map (fun v => map v labels) vs)) = rb_run i [] (concat callss).
Proof.
  intros keep i labels vs callss Hl P1 P2 H Hv. apply rread_file; try assumption.
  intros v Hin. destruct (Hv v Hin). split; [assumption|left; assumption].
Qed.
Print Assumptions C43_columns.

(** ** Examples *)

Definition ex_rsolution : RSolution :=
  match rhistory (ex_rinstance OBinPacking) raccept ex_rcalls [] with Some s => s | None => rsol_new (ex_rinstance OBinPacking) end.

Example C43_example :
  get_lines (rwrite_certificate (ex_rinstance OBinPacking) ex_rsolution) =
    ["TYPE,ID,COPIES,BIN,X,Y,LX,LY,GROUP_ID"; "BIN,0,2,0,0,0,10,8,"; "DEFECT,0,2,0,9,0,1,1,"; "ITEM,0,2,0,0,0,4,3,0";
     "ITEM,1,2,0,4,0,2,6,1"; "BIN,1,1,1,0,0,20,8,"; "ITEM,1,1,1,0,0,6,2,1"; "ITEM,2,1,1,0,2,5,5,1"]%string
  /\ forall keep, option_map (rb_build (ex_rinstance OBinPacking) raccept)
       (rread_certificate keep (ex_rinstance OBinPacking) (rwrite_certificate (ex_rinstance OBinPacking) ex_rsolution)) = Some ex_rsolution.
Proof. split; [vm_compute; reflexivity|]. intros [|]; vm_compute; reflexivity. Qed.

(** The hypotheses of the round trip on this example. *)
Example C43_printable_example :
  (forall k d, nth_error (rview ex_rsolution) k = Some d -> rprintable (ex_rinstance OBinPacking) k d) /\
  (forall d, In d (rview ex_rsolution) -> rotations_ok (ex_rinstance OBinPacking) d).
Proof.
  assert (E : rview ex_rsolution = [mkRD 0 2 [mkPl 0 0 0 false; mkPl 1 4 0 false]; mkRD 1 1 [mkPl 1 0 0 true; mkPl 2 0 2 false]])
    by (vm_compute; reflexivity).
  rewrite E. split.
  - intros [|[|k]] d H; [| |destruct k; discriminate]; injection H as <-; constructor; try reflexivity; try (split; reflexivity); try discriminate.
    + intros df [<-|[]]. repeat split; reflexivity.
    + intros p [<-|[<-|[]]]; repeat split; reflexivity.
    + intros df [].
    + intros p [<-|[<-|[]]]; repeat split; reflexivity.
  - intros d [<-|[<-|[]]] p [<-|[<-|[]]] Hr; try discriminate; reflexivity.
Qed.

(** Finding: a rotated square is not read back as it was. *)
Theorem C43_square_refuted : exists i calls s s', rwf_resources i /\ rhistory i raccept calls [] = Some s /\
  rs_feasible s = true /\
  (forall keep, option_map (rb_build i raccept) (rread_certificate keep i (rwrite_certificate i s)) = Some s') /\ rview s' <> rview s.
Proof.
  pose (i := mkRInst OBinPacking (mkRP UNone LX []) [mkRI 3 3 9 1 1 0 false 0 (-1) [[]]] [mkRB 10 8 80 3 0 None no_truck [] [] []]).
  exists i, [RAddBin 0 1; RAddItem 0 (mkPl 0 0 0 true)]. eexists. eexists.
  split.
  { intros x t Hx Ht. simpl in Hx, Ht. destruct x as [|x]; [|lia]. destruct t as [|t]; [|lia].
    simpl. split; [constructor|]. intro r. split; [intros []|intros [Hr _]; lia]. }
  split; [vm_compute; reflexivity|]. split; [reflexivity|]. split; [intros [|]; vm_compute; reflexivity|]. vm_compute. discriminate.
Qed.
Print Assumptions C43_square_refuted.

(** Finding: missing columns are not detected: without the column of the copies a
    bin is read with -1 copies, and the solution has a negative number of bins and cost. *)
Theorem C43_missing_column_refuted : exists text bins s,
  get_lines text = ["TYPE,ID"; "BIN,0"; "BIN,1"]%string /\
  (forall keep, rread_certificate keep (ex_rinstance OBinPacking) text = Some bins) /\
  rb_build (ex_rinstance OBinPacking) raccept bins = s /\ rc_number_of_bins (rs_core s) = -2 /\ (rc_bin_cost (rs_core s) == -230)%Q.
Proof.
  exists (rows [["TYPE"; "ID"]; ["BIN"; "0"]; ["BIN"; "1"]]%string). eexists. eexists.
  split; [vm_compute; reflexivity|]. split; [intros [|]; vm_compute; reflexivity|]. split; [reflexivity|].
  split; [vm_compute; reflexivity|]. vm_compute. reflexivity.
Qed.
Print Assumptions C43_missing_column_refuted.
