(** * Written certificates are read back *)

From Coq Require Import Ascii String List ZArith QArith Bool Lia Arith.
From Verif Require Import Util Csv_Model Csv_Spec Csv_Proof OneDim_Model OneDim_Spec OneDim_Proof OneDim_Order OneDimCert_Model OneDimCert_Spec.
Import ListNotations.
Open Scope Z_scope.

(** ** Lines with the columns in any order *)

Definition known (l : string) : bool :=
  existsb (String.eqb l) certificate_labels.

Section Columns.

Variable v : string -> string.
Variable t : string.
Variables id copies pos x lx : Z.
Hypothesis HT : v "TYPE"%string = t.
Hypothesis HI : stol (v "ID"%string) = Some id.
Hypothesis HC : stol (v "COPIES"%string) = Some copies.
Hypothesis HB : stol (v "BIN"%string) = Some pos.
Hypothesis HX : stod_int (v "X"%string) = Some x.
Hypothesis HL : stod_int (v "LX"%string) = Some lx.

Definition pick {A} (labels : list string) (l : string) (a b : A) : A :=
  if existsb (String.eqb l) labels then a else b.

Lemma read_cells_columns : forall labels f,
  read_cells labels (map v labels) f =
  Some (mkFields (pick labels "TYPE" t (f_type f)) (pick labels "ID" (to_int32 id) (f_id f))
    (pick labels "COPIES" copies (f_copies f)) (pick labels "BIN" pos (f_bin f))
    (pick labels "X" x (f_x f)) (pick labels "LX" lx (f_lx f))).
Proof.
  induction labels as [|l labels IH]; intro f; [destruct f; reflexivity|].
  cbn [map read_cells].
  assert (E : set_field l (v l) f = Some (mkFields
    (if String.eqb "TYPE" l then t else f_type f) (if String.eqb "ID" l then to_int32 id else f_id f)
    (if String.eqb "COPIES" l then copies else f_copies f) (if String.eqb "BIN" l then pos else f_bin f)
    (if String.eqb "X" l then x else f_x f) (if String.eqb "LX" l then lx else f_lx f))).
  { unfold set_field.
    destruct (String.eqb_spec l "TYPE"); [subst l; rewrite HT; reflexivity|].
    destruct (String.eqb_spec l "ID"); [subst l; rewrite HI; reflexivity|].
    destruct (String.eqb_spec l "COPIES"); [subst l; rewrite HC; reflexivity|].
    destruct (String.eqb_spec l "BIN"); [subst l; rewrite HB; reflexivity|].
    destruct (String.eqb_spec l "X"); [subst l; rewrite HX; reflexivity|].
    destruct (String.eqb_spec l "LX"); [subst l; rewrite HL; reflexivity|].
    assert (N : forall y, l <> y -> String.eqb y l = false) by (intros y Hy; apply String.eqb_neq; congruence).
    rewrite !N by assumption. destruct f; reflexivity. }
  rewrite E, IH. cbn [f_type f_id f_copies f_bin f_x f_lx]. unfold pick. cbn [existsb].
  f_equal. f_equal;
  match goal with |- (if existsb (String.eqb ?y) labels then _ else _) = _ =>
    destruct (existsb (String.eqb y) labels); destruct (String.eqb y l); reflexivity end.
Qed.

End Columns.

Lemma known_true : forall labels l, In l labels -> existsb (String.eqb l) labels = true.
Proof. intros labels l H. apply existsb_exists. exists l. split; [assumption|apply String.eqb_refl]. Qed.

Definition run_call (i : Instance) (bins : list SBin) (c : BuilderCall) : option (list SBin) :=
  match c with
  | AddBin t copies => sb_add_bin i bins t copies
  | AddItem pos id => sb_add_item i bins pos id
  end.

Lemma apply_row_call : forall i labels v c bins, incl certificate_labels labels -> row_call v c ->
  exists f, read_cells labels (map v labels) fields0 = Some f /\ apply_row i bins f = run_call i bins c.
Proof.
  intros i labels v c bins Hl Hc.
  assert (K : forall l, In l certificate_labels -> existsb (String.eqb l) labels = true)
    by (intros l H; apply known_true, Hl, H).
  assert (NE : forall z, z <> -1 -> (z =? -1) = false) by (intros; apply Z.eqb_neq; assumption).
  inversion Hc as [id copies pos x lx T I Ir C Cn B Bn X Xn L Ln|id copies pos x lx T I Ir C Cn B X Xn L Ln]; subst c.
  - rewrite (read_cells_columns v "BIN"%string _ copies pos x lx T I C B X L). eexists. split; [reflexivity|].
    unfold pick. rewrite !K by (simpl; tauto). unfold apply_row. cbn [f_type f_id f_copies f_bin f_x f_lx].
    rewrite to_int32_id by lia. rewrite !NE by (assumption || lia).
    destruct (Z.ltb_spec (Z.of_nat id) 0); [lia|]. cbn. rewrite Nat2Z.id. reflexivity.
  - rewrite (read_cells_columns v "ITEM"%string _ copies _ x lx T I C B X L). eexists. split; [reflexivity|].
    unfold pick. rewrite !K by (simpl; tauto). unfold apply_row. cbn [f_type f_id f_copies f_bin f_x f_lx].
    rewrite to_int32_id by lia. rewrite !NE by (assumption || lia).
    destruct (Z.ltb_spec (Z.of_nat id) 0); [lia|]. destruct (Z.ltb_spec (Z.of_nat pos) 0); [lia|].
    cbn. rewrite !Nat2Z.id. reflexivity.
Qed.

Lemma drop_nonempty : forall cells, nonempty_end cells -> drop_last_empty cells = cells.
Proof. intros cells H. unfold nonempty_end in H. unfold drop_last_empty. destruct (last cells ""%string); congruence. Qed.

Lemma cells_kept : forall keep cells, plain_cells cells -> nonempty_end cells -> split_cells keep (join cells) = cells.
Proof. intros keep cells H1 H2. rewrite cells_row by assumption. destruct keep; [reflexivity|apply drop_nonempty; assumption]. Qed.

Lemma sb_run_cons : forall i bins c calls, sb_run i bins (c :: calls) =
  match run_call i bins c with Some bins' => sb_run i bins' calls | None => None end.
Proof. intros i bins [t n|p x] calls; reflexivity. Qed.

Lemma read_rows : forall keep i labels vs calls, incl certificate_labels labels ->
  Forall2 row_call vs calls ->
  (forall v, In v vs -> plain_cells (map v labels) /\ nonempty_end (map v labels)) ->
  forall bins, read_lines keep i labels (map join (map (fun v => map v labels) vs)) bins = sb_run i bins calls.
Proof.
  intros keep i labels vs calls Hl H. induction H as [|v c vs calls Hc H IH]; intros Hv bins; [reflexivity|].
  cbn [map read_lines]. destruct (Hv v (or_introl eq_refl)) as [P1 P2]. rewrite cells_kept by assumption.
  destruct (apply_row_call i labels v c bins Hl Hc) as (f & E1 & E2). rewrite E1, E2, sb_run_cons.
  destruct (run_call i bins c); [|reflexivity]. apply IH. intros w Hw. apply Hv. right. assumption.
Qed.

Lemma read_file : forall keep i labels vs calls, incl certificate_labels labels ->
  plain_cells labels -> nonempty_end labels ->
  Forall2 row_call vs calls ->
  (forall v, In v vs -> plain_cells (map v labels) /\ nonempty_end (map v labels)) ->
  read_certificate keep i (rows (labels :: map (fun v => map v labels) vs)) = sb_run i [] calls.
Proof.
  intros keep i labels vs calls Hl P1 P2 H Hv. unfold read_certificate.
  rewrite lines_rows.
  - cbn [map]. rewrite cells_kept by assumption. apply read_rows; assumption.
  - constructor; [assumption|]. apply Forall_forall. intros cells Hc. apply in_map_iff in Hc.
    destruct Hc as (v & <- & Hin). apply Hv. assumption.
Qed.

(** ** The written rows *)

Definition cell_of (cells : list string) (l : string) : string :=
  let fix go ls cs := match ls, cs with
    | k :: ls', c :: cs' => if String.eqb k l then c else go ls' cs'
    | _, _ => ""%string end in go certificate_labels cells.

Definition bin_calls (bin_pos : nat) (b : SBin) : list BuilderCall :=
  AddBin (sb_type b) (sb_copies b) :: map (fun y => AddItem bin_pos (si_type y)) (sb_items b).
Fixpoint bins_calls (bin_pos : nat) (bins : list SBin) : list BuilderCall :=
  match bins with [] => [] | b :: bins' => bin_calls bin_pos b ++ bins_calls (S bin_pos) bins' end.

Lemma int64_nat : forall n, Z.of_nat n < 9223372036854775808 -> int64 (Z.of_nat n) = true.
Proof. intros n H. unfold int64. apply andb_true_iff. split; apply Z.leb_le; lia. Qed.

Lemma bin_row_call : forall i pos b, printable i pos b ->
  row_call (cell_of (bin_row i pos b)) (AddBin (sb_type b) (sb_copies b)).
Proof.
  intros i pos b [H1 H2 [H3 H3'] H4 H5].
  apply (row_bin _ _ _ (Z.of_nat pos) 0 (bt_length (bin_type i (sb_type b)))); try lia; try reflexivity.
  - apply stol_print, int64_nat. lia.
  - apply stol_print. assumption.
  - apply stol_print, int64_nat. lia.
  - apply stod_print.
Qed.

Lemma item_row_call : forall i pos b y, printable i pos b -> In y (sb_items b) ->
  row_call (cell_of (item_row i pos b y)) (AddItem pos (si_type y)).
Proof.
  intros i pos b y [H1 H2 [H3 H3'] H4 H5] Hy. destruct (H5 y Hy) as (I1 & I2 & I3).
  apply (row_item _ _ (sb_copies b) pos (si_start y) (it_length (item_type i (si_type y)))); try lia; try reflexivity.
  - apply stol_print, int64_nat. lia.
  - apply stol_print. assumption.
  - apply stol_print, int64_nat. lia.
  - apply stod_print.
  - apply stod_print.
Qed.

Lemma row_plain : forall i pos b y,
  (plain_cells (bin_row i pos b) /\ nonempty_end (bin_row i pos b)) /\
  (plain_cells (item_row i pos b y) /\ nonempty_end (item_row i pos b y)).
Proof.
  intros i pos b y. split; (split; [split; [discriminate|]; repeat constructor; try reflexivity; apply print_int_plain|]);
  unfold nonempty_end; simpl; apply print_int_nonempty.
Qed.

Lemma cell_of_labels : forall c1 c2 c3 c4 c5 c6,
  map (cell_of [c1; c2; c3; c4; c5; c6]) certificate_labels = [c1; c2; c3; c4; c5; c6].
Proof. reflexivity. Qed.

Lemma bins_rows_calls : forall i bins pos,
  (forall k b, nth_error bins k = Some b -> printable i (pos + k) b) ->
  Forall2 row_call (map cell_of (bins_rows i pos bins)) (bins_calls pos bins) /\
  (forall cells, In cells (bins_rows i pos bins) -> map (cell_of cells) certificate_labels = cells
     /\ plain_cells cells /\ nonempty_end cells).
Proof.
  intros i bins. induction bins as [|b bins IH]; intros pos H; [split; [constructor|intros c []]|].
  assert (Hb : printable i pos b) by (specialize (H 0%nat b eq_refl); rewrite Nat.add_0_r in H; assumption).
  destruct (IH (S pos)) as [I1 I2].
  { intros k b' Hk. specialize (H (S k) b' Hk). rewrite Nat.add_succ_r in H. assumption. }
  cbn [bins_rows bins_calls bin_calls map]. split.
  - rewrite map_app. cbn [app]. constructor; [apply bin_row_call; assumption|].
    apply Forall2_app; [|assumption].
    assert (G : forall l, (forall y, In y l -> In y (sb_items b)) ->
      Forall2 row_call (map cell_of (map (item_row i pos b) l)) (map (fun y => AddItem pos (si_type y)) l)).
    { induction l as [|y l IHl]; intro Hl; cbn [map]; constructor.
      - apply item_row_call; [assumption|]. apply Hl. left. reflexivity.
      - apply IHl. intros z Hz. apply Hl. right. assumption. }
    apply G. auto.
  - intros cells [<-|Hc].
    + split; [reflexivity|]. apply (row_plain i pos b (mkSI 0 0)).
    + apply in_app_or in Hc. destruct Hc as [Hc|Hc]; [|apply I2; assumption].
      apply in_map_iff in Hc. destruct Hc as (y & <- & _). split; [reflexivity|]. apply (row_plain i pos b y).
Qed.

Lemma read_write : forall keep i s,
  (forall k b, nth_error (c_bins (s_core s)) k = Some b -> printable i k b) ->
  read_certificate keep i (write_certificate i s) = sb_run i [] (bins_calls 0 (c_bins (s_core s))).
Proof.
  intros keep i s H. unfold write_certificate. destruct (bins_rows_calls i (c_bins (s_core s)) 0 H) as [H1 H2].
  assert (E : bins_rows i 0 (c_bins (s_core s)) =
    map (fun v => map v certificate_labels) (map cell_of (bins_rows i 0 (c_bins (s_core s))))).
  { rewrite map_map. rewrite <- (List.map_id (bins_rows i 0 (c_bins (s_core s)))) at 1. apply map_ext_in.
    intros cells Hc. symmetry. apply H2. assumption. }
  rewrite E. apply read_file; [apply incl_refl| | |assumption|].
  - split; [discriminate|repeat constructor].
  - discriminate.
  - intros v Hv. apply in_map_iff in Hv. destruct Hv as (cells & <- & Hc). destruct (H2 cells Hc) as (G1 & G2 & G3).
    rewrite G1. split; assumption.
Qed.

(** ** The builder rebuilds the bins *)

Definition forget (b : SBin) : SBin :=
  raw_bin (sb_type b) (sb_copies b) (map (fun y => mkSI (si_type y) 0) (sb_items b)).

Definition type_ok (i : Instance) (b : SBin) : Prop :=
  (sb_type b < length (in_bin_types i))%nat /\
  forall y, In y (sb_items b) -> (si_type y < length (in_item_types i))%nat.

Lemma sb_run_app : forall i c1 c2 bins, sb_run i bins (c1 ++ c2) =
  match sb_run i bins c1 with Some b => sb_run i b c2 | None => None end.
Proof.
  intros i c1. induction c1 as [|c c1 IH]; intros c2 bins; [reflexivity|].
  rewrite <- app_comm_cons, !sb_run_cons. destruct (run_call i bins c); [apply IH|reflexivity].
Qed.

Lemma sb_add_items : forall i pre t n items acc,
  (forall y, In y items -> (si_type y < length (in_item_types i))%nat) ->
  sb_run i (pre ++ [raw_bin t n acc]) (map (fun y => AddItem (length pre) (si_type y)) items)
  = Some (pre ++ [raw_bin t n (acc ++ map (fun y => mkSI (si_type y) 0) items)]).
Proof.
  intros i pre t n items. induction items as [|y items IH]; intros acc H.
  - simpl. rewrite app_nil_r. reflexivity.
  - cbn [map sb_run]. unfold sb_add_item.
    assert (E : Nat.ltb (length pre) (length (pre ++ [raw_bin t n acc])) = true)
      by (apply Nat.ltb_lt; rewrite app_length; simpl; lia).
    rewrite E. assert (E2 : Nat.ltb (si_type y) (length (in_item_types i)) = true)
      by (apply Nat.ltb_lt, H; left; reflexivity).
    rewrite E2. cbn [andb]. rewrite upd_snoc.
    change (mkSB _ _ _ _ _ _ _ _) with (raw_bin t n (acc ++ [mkSI (si_type y) 0])).
    rewrite IH by (intros z Hz; apply H; right; assumption). rewrite <- app_assoc. reflexivity.
Qed.

Lemma rebuild : forall i bins pre, (forall b, In b bins -> type_ok i b) ->
  sb_run i pre (bins_calls (length pre) bins) = Some (pre ++ map forget bins).
Proof.
  intros i bins. induction bins as [|b bins IH]; intros pre H; [simpl; rewrite app_nil_r; reflexivity|].
  cbn [bins_calls map]. unfold bin_calls. cbn [app]. rewrite sb_run_cons. cbn [run_call].
  destruct (H b (or_introl eq_refl)) as [H1 H2]. unfold sb_add_bin, in_range.
  assert (E : Nat.ltb (sb_type b) (length (in_bin_types i)) = true) by (apply Nat.ltb_lt; assumption).
  rewrite E. cbn [andb forallb]. rewrite sb_run_app, sb_add_items by assumption.
  assert (EL : S (length pre) = length (pre ++ [forget b])) by (rewrite app_length; simpl; lia).
  rewrite EL. cbn [app]. fold (forget b).
  rewrite IH by (intros b' Hb'; apply H; right; assumption). rewrite <- app_assoc. reflexivity.
Qed.

Lemma view_forget : forall b, view_bin (forget b) = view_bin b.
Proof. intro b. unfold view_bin, forget, raw_bin. cbn. rewrite map_map. reflexivity. Qed.

(** Builders hold bins without indicators. *)
Definition fresh (b : SBin) : Prop := forget b = b.
Lemma fresh_run : forall i calls bins bins', (forall b, In b bins -> fresh b) -> sb_run i bins calls = Some bins' ->
  forall b, In b bins' -> fresh b.
Proof.
  intros i calls. induction calls as [|c calls IH]; intros bins bins' H E; [injection E as <-; assumption|].
  rewrite sb_run_cons in E. destruct (run_call i bins c) as [bins1|] eqn:E1; [|discriminate].
  apply (IH bins1 bins'); [|assumption]. destruct c as [t n|p x]; cbn [run_call] in E1.
  - unfold sb_add_bin in E1. destruct (in_range i t []); [|discriminate]. injection E1 as <-.
    intros b Hb. apply in_app_or in Hb. destruct Hb as [Hb|[<-|[]]]; [apply H; assumption|reflexivity].
  - unfold sb_add_item in E1. destruct (_ && _); [|discriminate]. injection E1 as <-.
    intros b Hb. apply in_upd in Hb. destruct Hb as [Hb|(b0 & Hb0 & ->)]; [apply H; assumption|].
    specialize (H b0 Hb0). unfold fresh, forget in *. cbn [sb_type sb_copies sb_items].
    rewrite map_app. cbn [map si_type]. unfold raw_bin in *. destruct b0. cbn in *. injection H. intros. subst. f_equal.
    f_equal. assumption.
Qed.

(** A fresh bin is determined by what the getters show. *)
Definition raw_of (d : BinDesc) : SBin :=
  raw_bin (bd_type d) (bd_copies d) (map (fun x => mkSI x 0) (bd_items d)).
Lemma forget_view : forall b, forget b = raw_of (view_bin b).
Proof. intro b. unfold forget, raw_of, view_bin. cbn [bd_type bd_copies bd_items]. rewrite map_map. reflexivity. Qed.

Lemma forget_bins : forall bins bins', (forall b, In b bins -> fresh b) ->
  map view_bin bins' = map view_bin bins -> map forget bins' = bins.
Proof.
  intros bins bins' H E.
  rewrite (map_ext forget (fun b => raw_of (view_bin b)) forget_view). rewrite <- map_map, E, map_map.
  rewrite <- (List.map_id bins) at 2. apply map_ext_in. intros b Hb. rewrite <- forget_view. apply H. assumption.
Qed.

(** ** Missing columns *)

Lemma read_cells_missing : forall labels cells f f', read_cells labels cells f = Some f' ->
  (~ In "TYPE"%string labels -> f_type f' = f_type f) /\
  (~ In "ID"%string labels -> f_id f' = f_id f) /\
  (~ In "COPIES"%string labels -> f_copies f' = f_copies f) /\
  (~ In "BIN"%string labels -> f_bin f' = f_bin f) /\
  (~ In "X"%string labels -> f_x f' = f_x f) /\
  (~ In "LX"%string labels -> f_lx f' = f_lx f).
Proof.
  induction labels as [|l labels IH]; intros [|c cells] f f' H; cbn [read_cells] in H; try discriminate;
    try (injection H as <-; repeat split; reflexivity).
  destruct (set_field l c f) as [f1|] eqn:E; [|discriminate].
  destruct (IH cells f1 f' H) as (I1 & I2 & I3 & I4 & I5 & I6). unfold set_field in E.
  assert (G : forall y, ~ In y (l :: labels) -> l <> y /\ ~ In y labels) by (intros y Hy; simpl in Hy; tauto).
  repeat match type of E with
  | (if String.eqb l ?y then _ else _) = _ => destruct (String.eqb_spec l y)
  end;
  try (destruct (stol c); cbn [option_map] in E); try (destruct (stod_int c); cbn [option_map] in E); try discriminate;
  injection E as <-; cbn [f_type f_id f_copies f_bin f_x f_lx] in *;
  repeat split; intro N; apply G in N; destruct N as [N1 N2]; try congruence;
  solve [apply I1; assumption|apply I2; assumption|apply I3; assumption|apply I4; assumption|apply I5; assumption|apply I6; assumption].
Qed.

Lemma apply_row_fields : forall i bins f bins', apply_row i bins f = Some bins' ->
  f_type f <> ""%string /\ f_id f <> -1 /\ f_copies f <> -1 /\ f_bin f <> -1 /\ f_x f <> -1 /\ f_lx f <> -1.
Proof.
  intros i bins f bins' H. unfold apply_row in H.
  destruct (String.eqb_spec (f_type f) ""); [discriminate|].
  repeat match type of H with
  | (if ?a =? ?b then _ else _) = _ => destruct (Z.eqb_spec a b); [discriminate|]
  end. tauto.
Qed.

Lemma missing_column : forall keep i text bins header line lines,
  read_certificate keep i text = Some bins -> get_lines text = header :: line :: lines ->
  incl certificate_labels (split_cells keep header).
Proof.
  intros keep i text bins header line lines H E. unfold read_certificate in H. rewrite E in H.
  cbn [read_lines] in H. destruct (read_cells _ _ fields0) as [f|] eqn:E1; [|discriminate].
  destruct (apply_row i [] f) as [bins1|] eqn:E2; [|discriminate].
  destruct (read_cells_missing _ _ _ _ E1) as (I1 & I2 & I3 & I4 & I5 & I6).
  destruct (apply_row_fields _ _ _ _ E2) as (J1 & J2 & J3 & J4 & J5 & J6). cbn [f_type f_id f_copies f_bin f_x f_lx fields0] in *.
  intros l Hl. destruct (in_dec string_dec l (split_cells keep header)) as [?|N]; [assumption|exfalso].
  simpl in Hl. destruct Hl as [<-|[<-|[<-|[<-|[<-|[<-|[]]]]]]]; auto.
Qed.

(** ** Starts are non-negative when no item nests deeper than its predecessor *)
Lemma starts_nonneg : forall i, (forall x y, it_nesting (item_type i x) <= it_length (item_type i y)) ->
  forall b, positions_ok i b -> forall y, In y (sb_items b) -> 0 <= si_start y.
Proof.
  intros i Hn b (H & _) y Hy.
  assert (G : forall p x, 0 <= start_of i p x).
  { intros p. induction p as [|z p IH] using rev_ind; intro x; [simpl; lia|].
    assert (E : start_of i (p ++ [z]) x = bin_end i (p ++ [z]) - it_nesting (item_type i x)).
    { unfold start_of. destruct (p ++ [z]) eqn:E; [apply app_eq_nil in E; destruct E; discriminate|reflexivity]. }
    rewrite E, bin_end_snoc'. specialize (IH z). specialize (Hn x z). lia. }
  apply in_split in Hy. destruct Hy as (l1 & l2 & E).
  unfold PrefAll in H. rewrite (H l1 y l2 E). apply G.
Qed.
