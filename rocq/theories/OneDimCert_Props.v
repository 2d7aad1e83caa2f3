(** * C12: the onedimensional certificate *)

From Coq Require Import Ascii String List ZArith QArith Bool Lia Arith.
From Verif Require Import Util Common_Model Csv_Model Csv_Spec Csv_Proof OneDim_Model OneDim_Spec OneDim_Proof
  OneDim_Props OneDimCert_Model OneDimCert_Spec OneDimCert_Proof.
Import ListNotations.
Open Scope Z_scope.

(** Reading the written certificate rebuilds the bins; the rebuilt solution has
    the same items at the same places, the same indicators and is feasible under
    the same conditions. *)
Theorem C12_round_trip : forall keep i cb calls1 calls2 s,
  wf_resource_ids i -> copies_nonneg calls1 calls2 -> history i cb calls1 calls2 = Some s ->
  (forall k b, nth_error (c_bins (s_core s)) k = Some b -> printable i k b) ->
  exists bins, read_certificate keep i (write_certificate i s) = Some bins /\
    let s' := sb_build i cb bins in
    view s' = view s /\
    map (fun b => map si_start (sb_items b)) (c_bins (s_core s'))
      = map (fun b => map si_start (sb_items b)) (c_bins (s_core s)) /\
    Indicators i (view s) (s_core s') /\
    (s_feasible s' = true <-> PackingOK i (view s) /\ (view s <> [] -> cb (s_core s') = true)).
Proof.
  intros keep i cb calls1 calls2 s Hwf [Hc1 Hc2] H Hp.
  destruct (history_spec i cb Hwf calls1 calls2 s H Hc1 Hc2) as (F & _ & D).
  exists (map forget (c_bins (s_core s))). split.
  { rewrite read_write by assumption. apply (rebuild i (c_bins (s_core s)) []).
    intros b Hb. assert (Hd : In (view_bin b) (view s)) by (apply in_map; assumption).
    destruct (D _ Hd) as (D1 & D2 & _). split; [exact D1|]. intros y Hy. apply D2.
    unfold view_bin. cbn [bd_items]. apply in_map. assumption. }
  assert (Hb : forall b, In b (map forget (c_bins (s_core s))) -> desc_ok i (view_bin b) /\ (sb_weight b == 0)%Q).
  { intros b Hb. apply in_map_iff in Hb. destruct Hb as (b0 & <- & Hb0). rewrite view_forget. split; [|reflexivity].
    apply D. apply in_map. assumption. }
  destruct (build_full i cb Hwf _ Hb) as [F' V].
  assert (V' : view (sb_build i cb (map forget (c_bins (s_core s)))) = view s).
  { rewrite V, map_map. apply map_ext. exact view_forget. }
  cbv zeta. split; [exact V'|]. split; [|split].
  - pose proof (fi_pos _ _ _ F) as P1. pose proof (fi_pos _ _ _ F') as P2. revert P1 P2. unfold view in V'. revert V'.
    generalize (c_bins (s_core (sb_build i cb (map forget (c_bins (s_core s)))))). generalize (c_bins (s_core s)). clear.
    intros l2 l1. revert l2. induction l1 as [|b1 l1 IH]; intros [|b2 l2] E P1 P2; cbn [map] in E; try (exfalso; discriminate E); [reflexivity|].
    cbn [map] in E |- *. injection E as E1 E1' E2 E3. f_equal; [|apply IH; [assumption| |]; intros b Hb; [apply P1|apply P2]; right; assumption].
    destruct (P2 b1 (or_introl eq_refl)) as [Q1 _]. destruct (P1 b2 (or_introl eq_refl)) as [Q2 _].
    clear - E2 Q1 Q2. apply (nth_ext _ _ 0 0).
    { rewrite !map_length. rewrite <- (map_length si_type (sb_items b1)), <- (map_length si_type (sb_items b2)), E2. reflexivity. }
    intros n Hn. rewrite map_length in Hn.
    assert (Hl : length (sb_items b1) = length (sb_items b2))
      by (rewrite <- (map_length si_type (sb_items b1)), E2, map_length; reflexivity).
    destruct (nth_split (sb_items b1) (mkSI 0 0) Hn) as (p1 & q1 & S1 & L1).
    rewrite Hl in Hn. destruct (nth_split (sb_items b2) (mkSI 0 0) Hn) as (p2 & q2 & S2 & L2).
    change 0 with (si_start (mkSI 0 0)). rewrite !map_nth.
    rewrite (Q1 _ _ _ S1), (Q2 _ _ _ S2).
    assert (Et : forall k, nth k (map si_type (sb_items b1)) 0%nat = nth k (map si_type (sb_items b2)) 0%nat) by (rewrite E2; reflexivity).
    assert (En : si_type (nth n (sb_items b1) (mkSI 0 0)) = si_type (nth n (sb_items b2) (mkSI 0 0))).
    { specialize (Et n). change 0%nat with (si_type (mkSI 0 0)) in Et at 1. rewrite map_nth in Et.
      change 0%nat with (si_type (mkSI 0 0)) in Et. rewrite map_nth in Et. exact Et. }
    rewrite En. f_equal.
    assert (Ef : firstn n (map si_type (sb_items b1)) = firstn n (map si_type (sb_items b2))) by (rewrite E2; reflexivity).
    rewrite S1, S2 in Ef. rewrite !map_app in Ef. rewrite !firstn_app in Ef. rewrite !map_length, L1, L2, Nat.sub_diag in Ef.
    cbn [firstn] in Ef. rewrite !app_nil_r in Ef. rewrite !firstn_all2 in Ef by (rewrite map_length; lia). exact Ef.
  - rewrite <- V'. apply (ci_ind _ _ _ (fi_core _ _ _ F')).
  - rewrite (fi_feasible _ _ _ F'), (fi_cb _ _ _ F'), V'. unfold view in V' |- *.
    destruct (c_bins (s_core (sb_build i cb (map forget (c_bins (s_core s)))))) as [|b l] eqn:E;
      destruct (c_bins (s_core s)); try discriminate; simpl.
    + intuition congruence.
    + split; intros [G1 G2]; split; auto. apply G2. discriminate.
Qed.
Print Assumptions C12_round_trip.

(** A solution made by a builder is read back as it was: every indicator, the
    verdict of the callback and the feasibility included. *)
Theorem C12_same_solution : forall keep i cb calls s,
  wf_resource_ids i -> copies_nonneg calls [] -> history i cb calls [] = Some s ->
  (forall k b, nth_error (c_bins (s_core s)) k = Some b -> printable i k b) ->
  option_map (sb_build i cb) (read_certificate keep i (write_certificate i s)) = Some s.
Proof.
  intros keep i cb calls s Hwf [Hc1 Hc2] H Hp. pose proof H as H0.
  destruct (history_spec i cb Hwf calls [] s H Hc1 Hc2) as (F & _ & D).
  unfold history in H. destruct (sb_run i [] calls) as [bins|] eqn:E; [|discriminate]. cbn [sol_run] in H. injection H as H.
  destruct (sb_run_spec i calls [] bins E) as [V1 V2]; [intros b []|]. cbn [map] in V1.
  assert (Hb : forall b, In b bins -> desc_ok i (view_bin b) /\ (sb_weight b == 0)%Q).
  { intros b Hb. destruct (V2 b Hb) as (R1 & R2 & R3). split; [|assumption].
    split; [exact R1|]. split; [exact R2|]. apply Hc1. rewrite <- V1. apply in_map. assumption. }
  destruct (build_full i cb Hwf bins Hb) as [_ V]. rewrite H in V.
  rewrite read_write by assumption.
  rewrite (rebuild i (c_bins (s_core s)) [] : _ -> sb_run i [] (bins_calls 0 _) = _).
  - cbn [option_map app]. rewrite (forget_bins bins (c_bins (s_core s))); [rewrite H; reflexivity| |exact V].
    apply (fresh_run i calls [] bins); [intros b []|assumption].
  - intros b Hb'. assert (Hd : In (view_bin b) (view s)) by (apply in_map; assumption).
    destruct (D _ Hd) as (D1 & D2 & _). split; [exact D1|]. intros y Hy. apply D2.
    unfold view_bin. cbn [bd_items]. apply in_map. assumption.
Qed.
Print Assumptions C12_same_solution.

(** The columns may come in any order and be mixed with others: the lines are
    executed as the calls they describe. *)
Theorem C12_columns : forall keep i labels vs calls,
  incl ["TYPE"; "ID"; "COPIES"; "BIN"; "X"; "LX"]%string labels ->
  plain_cells labels -> nonempty_end labels ->
  Forall2 row_call vs calls ->
  (forall v, In v vs -> plain_cells (map v labels) /\ nonempty_end (map v labels)) ->
  read_certificate keep i (rows (labels :: map (fun v => map v labels) vs)) = sb_run i [] calls.
Proof. exact read_file. Qed.
Print Assumptions C12_columns.

(** A file with at least one line and without one of the columns is refused. *)
Theorem C12_missing_column : forall keep i text bins header line lines,
  read_certificate keep i text = Some bins -> get_lines text = header :: line :: lines ->
  forall l, In l ["TYPE"; "ID"; "COPIES"; "BIN"; "X"; "LX"]%string -> In l (split_cells keep header).
Proof. intros keep i text bins header line lines H1 H2. exact (missing_column keep i text bins header line lines H1 H2). Qed.
Print Assumptions C12_missing_column.

(** When no item nests deeper than the length of another one, a solution of a
    usual size can be written and read. *)
Theorem C12_printable : forall i cb calls1 calls2 s,
  wf_resource_ids i -> copies_nonneg calls1 calls2 -> history i cb calls1 calls2 = Some s ->
  (forall x y, it_nesting (item_type i x) <= it_length (item_type i y)) ->
  (forall x, 0 <= it_length (item_type i x)) -> (forall t, 0 <= bt_length (bin_type i t)) ->
  Z.of_nat (length (in_item_types i)) <= 2147483648 -> Z.of_nat (length (in_bin_types i)) <= 2147483648 ->
  Z.of_nat (length (view s)) <= 9223372036854775807 ->
  (forall d, In d (view s) -> bd_copies d <= 9223372036854775807) ->
  forall k b, nth_error (c_bins (s_core s)) k = Some b -> printable i k b.
Proof.
  intros i cb calls1 calls2 s Hwf [Hc1 Hc2] H Hn Hl Hb N1 N2 N3 N4 k b Hk.
  destruct (history_spec i cb Hwf calls1 calls2 s H Hc1 Hc2) as (F & _ & D).
  assert (Hin : In b (c_bins (s_core s))) by (eapply nth_error_In; eassumption).
  assert (Hd : In (view_bin b) (view s)) by (apply in_map; assumption).
  destruct (D _ Hd) as (D1 & D2 & D3). unfold view_bin in D1, D2, D3. cbn [bd_type bd_items bd_copies] in D1, D2, D3.
  specialize (N4 _ Hd). unfold view_bin in N4. cbn [bd_copies] in N4.
  assert (Hkl : (k < length (view s))%nat) by (unfold view; rewrite map_length; apply nth_error_Some; congruence).
  constructor.
  - lia.
  - lia.
  - split; [lia|]. unfold int64. apply andb_true_iff. split; apply Z.leb_le; lia.
  - specialize (Hb (sb_type b)). lia.
  - intros y Hy. assert (si_type y < length (in_item_types i))%nat by (apply D2, in_map; assumption).
    pose proof (starts_nonneg i Hn b (fi_pos _ _ _ F b Hin) y Hy). specialize (Hl (si_type y)). repeat split; lia.
Qed.
Print Assumptions C12_printable.

Definition ex_certificate : string := write_certificate (ex_instance OKnapsack false) (ex_solution OKnapsack false).

Example C12_example :
  get_lines ex_certificate =
    ["TYPE,ID,COPIES,BIN,X,LX"; "BIN,0,2,0,0,10"; "ITEM,0,2,0,0,3"; "ITEM,1,2,0,1,4"; "ITEM,0,2,0,5,3"]%string
  /\ option_map (sb_build (ex_instance OKnapsack false) accept)
       (read_certificate true (ex_instance OKnapsack false) ex_certificate) = Some (ex_solution OKnapsack false).
Proof. vm_compute. auto. Qed.

(** Columns in another order, one more column, signs, spaces and trailing text. *)
Example C12_columns_example :
  let line a b := append a (String newline b) in
  read_certificate false (ex_instance OKnapsack false)
    (line "X,NAME,BIN,ID,LX,COPIES,TYPE" (line "0,a,0,0,10, +1,BIN" (line "0,b,0,1,5.5,1,ITEM" "")))%string
  = sb_run (ex_instance OKnapsack false) [] [AddBin 0 1; AddItem 0 1].
Proof. vm_compute. reflexivity. Qed.

(** Finding: an item nested deeper than the end of what precedes it can start
    at -1, which reading takes for a missing value. *)
Definition deep_instance : Instance :=
  mkInst OKnapsack [mkIT 3 3 1 0 0 0 9 None (-1) [[]]; mkIT 5 5 1 0 0 4 9 None (-1) [[]]]
    [mkBT 10 10 1 0 None [] [] [0; 1]%nat] [0]%nat [0] 10 10 2 8 8 8 (Some 0%nat) 1 false.

Theorem C12_start_refuted : exists i cb calls s,
  wf_resource_ids i /\ sane_instance i /\ copies_nonneg calls [] /\ history i cb calls [] = Some s /\
  s_feasible s = true /\ forall keep, read_certificate keep i (write_certificate i s) = None.
Proof.
  exists deep_instance, accept, [AddBin 0 1; AddItem 0 0; AddItem 0 1]. eexists.
  split.
  { intros x t Hx Ht. simpl in Hx, Ht. destruct x as [|[|x]]; [| |lia]; (destruct t as [|t]; [|lia]);
      simpl; (split; [constructor|]; intro r; split; [intros []|intros [Hr _]; lia]). }
  split.
  { constructor.
    - intros bt r [<-|[]] [].
    - intros [|[|[|x]]]; vm_compute; repeat split; congruence.
    - intros [|[|t]]; vm_compute; repeat split; congruence. }
  split; [split; [intros d [<-|[]]; simpl; lia|intros c []]|].
  split; [reflexivity|]. split; [reflexivity|]. intros [|]; vm_compute; reflexivity.
Qed.
Print Assumptions C12_start_refuted.
