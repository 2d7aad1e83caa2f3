(** * Written rectangle certificates are read back *)

From Coq Require Import Ascii String List ZArith QArith Bool Lia Arith.
From Verif Require Import Util Csv_Model Csv_Spec Csv_Proof OneDim_Proof OneDimCert_Proof.
From Verif Require Import Rect_Model Rect_Spec RectSol_Model RectSol_Spec RectSol_Proof RectCert_Model RectCert_Spec.
Import ListNotations.
Open Scope Z_scope.

(** ** Lines with the columns in any order *)

Section Columns.

Variable v : string -> string.
Variables id copies pos x y lx ly : Z.
Hypothesis HI : stol (v "ID"%string) = Some id.
Hypothesis HC : stol (v "COPIES"%string) = Some copies.
Hypothesis HB : stol (v "BIN"%string) = Some pos.
Hypothesis HX : stol (v "X"%string) = Some x.
Hypothesis HY : stol (v "Y"%string) = Some y.
Hypothesis HLX : stol (v "LX"%string) = Some lx.
Hypothesis HLY : stol (v "LY"%string) = Some ly.

Lemma rread_cells_columns : forall labels more f,
  rread_cells (labels ++ more) (map v labels) f =
  Some (mkRF (pick labels "TYPE" (v "TYPE"%string) (rf_type f)) (pick labels "ID" (to_int32 id) (rf_id f))
    (pick labels "COPIES" copies (rf_copies f)) (pick labels "BIN" pos (rf_bin f))
    (pick labels "X" x (rf_x f)) (pick labels "Y" y (rf_y f))
    (pick labels "LX" lx (rf_lx f)) (pick labels "LY" ly (rf_ly f))).
Proof.
  induction labels as [|l labels IH]; intros more f; [destruct f, more; reflexivity|].
  cbn [map app rread_cells].
  assert (E : rset_field l (v l) f = Some (mkRF
    (if String.eqb "TYPE" l then v "TYPE"%string else rf_type f) (if String.eqb "ID" l then to_int32 id else rf_id f)
    (if String.eqb "COPIES" l then copies else rf_copies f) (if String.eqb "BIN" l then pos else rf_bin f)
    (if String.eqb "X" l then x else rf_x f) (if String.eqb "Y" l then y else rf_y f)
    (if String.eqb "LX" l then lx else rf_lx f) (if String.eqb "LY" l then ly else rf_ly f))).
  { destruct f as [t0 i0 c0 b0 x0 y0 lx0 ly0]. unfold rset_field. cbn [rf_type rf_id rf_copies rf_bin rf_x rf_y rf_lx rf_ly].
    destruct (String.eqb_spec l "TYPE"); [subst l; reflexivity|].
    destruct (String.eqb_spec l "ID"); [subst l; rewrite HI; reflexivity|].
    destruct (String.eqb_spec l "COPIES"); [subst l; rewrite HC; reflexivity|].
    destruct (String.eqb_spec l "BIN"); [subst l; rewrite HB; reflexivity|].
    destruct (String.eqb_spec l "X"); [subst l; rewrite HX; reflexivity|].
    destruct (String.eqb_spec l "Y"); [subst l; rewrite HY; reflexivity|].
    destruct (String.eqb_spec l "LX"); [subst l; rewrite HLX; reflexivity|].
    destruct (String.eqb_spec l "LY"); [subst l; rewrite HLY; reflexivity|].
    assert (N : forall z, l <> z -> String.eqb z l = false) by (intros z Hz; apply String.eqb_neq; congruence).
    rewrite !N by assumption. reflexivity. }
  rewrite E, IH. cbn [rf_type rf_id rf_copies rf_bin rf_x rf_y rf_lx rf_ly]. unfold pick. cbn [existsb].
  f_equal. f_equal;
  match goal with |- (if existsb (String.eqb ?z) labels then _ else _) = _ =>
    destruct (existsb (String.eqb z) labels); destruct (String.eqb z l); reflexivity end.
Qed.

End Columns.

Lemma rrow_apply : forall i labels more v calls bins, incl columns labels -> rrow_calls i v calls ->
  exists f, rread_cells (labels ++ more) (map v labels) rfields0 = Some f /\ rapply_row i bins f = rb_run i bins calls.
Proof.
  intros i labels more v calls bins Hl Hc.
  assert (K : forall l, In l columns -> existsb (String.eqb l) labels = true) by (intros l H; apply known_true, Hl, H).
  destruct Hc as [id copies pos x y lx ly calls I Ir C B X Y LX LY T].
  rewrite (rread_cells_columns v _ _ _ _ _ _ _ I C B X Y LX LY). eexists. split; [reflexivity|].
  unfold pick. rewrite !K by (simpl; tauto). unfold rapply_row. cbn [rf_type rf_id rf_copies rf_bin rf_x rf_y rf_lx rf_ly].
  rewrite to_int32_id by lia.
  assert (E1 : (Z.of_nat id <? 0) = false) by (apply Z.ltb_ge; lia).
  assert (E2 : (Z.of_nat pos <? 0) = false) by (apply Z.ltb_ge; lia).
  rewrite E1, E2, !Nat2Z.id. cbn [orb].
  destruct T as [[T ->]|[[T ->]|(T1 & T2 & ->)]].
  - rewrite T. cbn [String.eqb Ascii.eqb Bool.eqb rb_run rb_call]. change (String.eqb "BIN" "BIN") with true. cbv iota.
    destruct (rb_add_bin i bins id copies); reflexivity.
  - rewrite T. change (String.eqb "ITEM" "BIN") with false. change (String.eqb "ITEM" "ITEM") with true. cbv iota.
    cbn [rb_run rb_call]. destruct (rb_add_item i bins pos _); reflexivity.
  - apply String.eqb_neq in T1, T2. rewrite T1, T2. reflexivity.
Qed.

(** A line whose last cell is empty may be split without it. *)
Definition cells_ok (labels : list string) (cells : list string) : Prop :=
  plain_cells cells /\ (nonempty_end cells \/ incl columns (removelast labels)).

Lemma rb_run_app : forall i c1 c2 bins, rb_run i bins (c1 ++ c2) =
  match rb_run i bins c1 with Some b => rb_run i b c2 | None => None end.
Proof.
  intros i c1. induction c1 as [|c c1 IH]; intros c2 bins; [reflexivity|].
  cbn [app rb_run]. destruct (rb_call i bins c); [apply IH|reflexivity].
Qed.

Lemma removelast_map : forall A B (f : A -> B) l, removelast (map f l) = map f (removelast l).
Proof.
  intros A B f l. induction l as [|a l IH]; [reflexivity|]. destruct l as [|b l]; [reflexivity|].
  cbn [map removelast] in *. rewrite IH. reflexivity.
Qed.

Lemma read_line : forall keep i labels v calls bins, incl columns labels -> rrow_calls i v calls ->
  cells_ok labels (map v labels) ->
  exists f, rread_cells labels (split_cells keep (join (map v labels))) rfields0 = Some f /\ rapply_row i bins f = rb_run i bins calls.
Proof.
  intros keep i labels v calls bins Hl Hc [P N]. rewrite cells_row by exact P.
  assert (Full : exists f, rread_cells labels (map v labels) rfields0 = Some f /\ rapply_row i bins f = rb_run i bins calls).
  { destruct (rrow_apply i labels [] v calls bins Hl Hc) as (f & E1 & E2). rewrite app_nil_r in E1. eauto. }
  destruct keep; [exact Full|]. unfold drop_last_empty. destruct (last (map v labels) ""%string) eqn:E; [|exact Full].
  destruct N as [N|N]; [unfold nonempty_end in N; congruence|].
  rewrite removelast_map.
  assert (El : labels <> []) by (intros ->; specialize (Hl "ID"%string ltac:(simpl; tauto)); destruct Hl).
  pose proof (rrow_apply i (removelast labels) [last labels ""%string] v calls bins N Hc) as G.
  rewrite <- (app_removelast_last ""%string El) in G. exact G.
Qed.

Lemma rread_rows : forall keep i labels vs callss, incl columns labels ->
  Forall2 (rrow_calls i) vs callss ->
  (forall v, In v vs -> cells_ok labels (map v labels)) ->
  forall bins, rread_lines keep i labels (map join (map (fun v => map v labels) vs)) bins = rb_run i bins (concat callss).
Proof.
  intros keep i labels vs callss Hl H. induction H as [|v c vs callss Hc H IH]; intros Hv bins; [reflexivity|].
  cbn [map rread_lines concat].
  destruct (read_line keep i labels v c bins Hl Hc (Hv v (or_introl eq_refl))) as (f & E1 & E2). rewrite E1, E2, rb_run_app.
  destruct (rb_run i bins c); [|reflexivity]. apply IH. intros w Hw. apply Hv. right. assumption.
Qed.

Lemma rread_file : forall keep i labels vs callss, incl columns labels ->
  plain_cells labels -> nonempty_end labels ->
  Forall2 (rrow_calls i) vs callss ->
  (forall v, In v vs -> cells_ok labels (map v labels)) ->
  rread_certificate keep i (rows (labels :: map (fun v => map v labels) vs)) = rb_run i [] (concat callss).
Proof.
  intros keep i labels vs callss Hl P1 P2 H Hv. unfold rread_certificate.
  rewrite lines_rows.
  - cbn [map]. rewrite cells_kept by assumption. apply rread_rows; assumption.
  - constructor; [assumption|]. apply Forall_forall. intros cells Hc. apply in_map_iff in Hc.
    destruct Hc as (v & <- & Hin). apply Hv. assumption.
Qed.

(** ** The written rows *)

Definition rcell_of (cells : list string) (l : string) : string :=
  let fix go ls cs := match ls, cs with
    | k :: ls', c :: cs' => if String.eqb k l then c else go ls' cs'
    | _, _ => ""%string end in go rcertificate_labels cells.

Definition read_place (i : RInstance) (p : Place) : Place :=
  mkPl (pl_type p) (pl_x p) (pl_y p)
    (negb ((if negb (pl_rot p) then ri_x (ritem i (pl_type p)) else ri_y (ritem i (pl_type p))) =? ri_x (ritem i (pl_type p)))).

Definition rbin_calls (i : RInstance) (bin_pos : nat) (b : RSBin) : list (list RBuilderCall) :=
  [RAddBin (rs_type b) (rs_copies b)] :: map (fun _ => []) (rb_defects (rbin i (rs_type b)))
  ++ map (fun p => [RAddItem bin_pos (read_place i p)]) (rs_items b).
Fixpoint rbins_calls (i : RInstance) (bin_pos : nat) (bins : list RSBin) : list (list RBuilderCall) :=
  match bins with [] => [] | b :: bins' => rbin_calls i bin_pos b ++ rbins_calls i (S bin_pos) bins' end.

Lemma rdefect_rows_calls : forall i pos b l id, rprintable i pos (rview_bin b) ->
  (forall d, In d l -> int64 (df_x d) = true /\ int64 (df_y d) = true /\ int64 (df_lx d) = true /\ int64 (df_ly d) = true) ->
  Z.of_nat (id + length l) <= 2147483648 ->
  Forall2 (rrow_calls i) (map rcell_of (rdefect_rows pos b id l)) (map (fun _ => []) l).
Proof.
  intros i pos b l. induction l as [|d l IH]; intros id H Hd Hn; cbn [rdefect_rows map]; [constructor|].
  cbn [length] in Hn. constructor.
  - destruct (Hd d (or_introl eq_refl)) as (D1 & D2 & D3 & D4). destruct H as [H1 H2 H3 H4 H5 H6 H7].
    apply (rrow _ _ id (rs_copies b) pos (df_x d) (df_y d) (df_lx d) (df_ly d)); try (apply stol_print; assumption).
    + apply stol_print, int64_nat. lia.
    + lia.
    + apply stol_print, int64_nat. lia.
    + right. right. repeat split; discriminate.
  - apply IH; [exact H|intros e He; apply Hd; right; exact He|lia].
Qed.

Lemma rbins_rows_calls : forall i bins pos,
  (forall k b, nth_error bins k = Some b -> rprintable i (pos + k) (rview_bin b)) ->
  Forall2 (rrow_calls i) (map rcell_of (rbins_rows i pos bins)) (rbins_calls i pos bins).
Proof.
  intros i bins. induction bins as [|b bins IH]; intros pos H; [constructor|].
  assert (Hb : rprintable i pos (rview_bin b)) by (specialize (H 0%nat b eq_refl); rewrite Nat.add_0_r in H; assumption).
  cbn [rbins_rows rbins_calls]. unfold rbin_calls. cbn [map app]. rewrite !map_app, <- app_assoc.
  pose proof Hb as [H1 H2 H3 [H4 H4'] H5 H6 H7]. cbn [rd_type rd_copies rd_items rview_bin] in *.
  constructor; [|apply Forall2_app; [|apply Forall2_app]].
  - apply (rrow _ _ (rs_type b) (rs_copies b) pos 0 0 (rb_x (rbin i (rs_type b))) (rb_y (rbin i (rs_type b))));
      try (apply stol_print; assumption); try reflexivity.
    + apply stol_print, int64_nat. lia.
    + assumption.
    + apply stol_print, int64_nat. lia.
    + left. split; reflexivity.
  - apply rdefect_rows_calls; [exact Hb|exact H6|exact H5].
  - assert (G : forall l, (forall p, In p l -> In p (rs_items b)) ->
      Forall2 (rrow_calls i) (map rcell_of (map (ritem_row i pos b) l)) (map (fun p => [RAddItem pos (read_place i p)]) l)).
    { induction l as [|p l IHl]; intro Hl; cbn [map]; constructor.
      - destruct (H7 p (Hl p (or_introl eq_refl))) as (I1 & I2 & I3 & I4 & I5).
        apply (rrow _ _ (pl_type p) (rs_copies b) pos (pl_x p) (pl_y p)
          (if negb (pl_rot p) then ri_x (ritem i (pl_type p)) else ri_y (ritem i (pl_type p)))
          (if negb (pl_rot p) then ri_y (ritem i (pl_type p)) else ri_x (ritem i (pl_type p))));
          try (apply stol_print; assumption).
        + apply stol_print, int64_nat. lia.
        + assumption.
        + apply stol_print, int64_nat. lia.
        + apply stol_print. destruct (pl_rot p); assumption.
        + apply stol_print. destruct (pl_rot p); assumption.
        + right. left. split; reflexivity.
      - apply IHl. intros q Hq. apply Hl. right. exact Hq. }
    apply G. auto.
  - apply IH. intros k b' Hk. specialize (H (S k) b' Hk). rewrite Nat.add_succ_r in H. exact H.
Qed.

Lemma rbins_rows_ok : forall i bins pos cells, In cells (rbins_rows i pos bins) ->
  map (rcell_of cells) rcertificate_labels = cells /\ cells_ok rcertificate_labels cells.
Proof.
  assert (Hl : incl columns (removelast rcertificate_labels)) by (apply incl_refl).
  intros i bins. induction bins as [|b bins IH]; intros pos cells H; [destruct H|].
  cbn [rbins_rows] in H. destruct H as [<-|H].
  - split; [reflexivity|]. split; [|right; exact Hl]. split; [discriminate|]. repeat constructor; try reflexivity; apply print_int_plain.
  - apply in_app_or in H. destruct H as [H|H]; [|apply in_app_or in H; destruct H as [H|H]; [|apply (IH _ _ H)]].
    + revert H. generalize 0%nat as id. generalize (rb_defects (rbin i (rs_type b))). induction l as [|d l IHl]; intros id H; [destruct H|].
      destruct H as [<-|H]; [|apply (IHl _ H)].
      split; [reflexivity|]. split; [|right; exact Hl]. split; [discriminate|]. repeat constructor; try reflexivity; apply print_int_plain.
    + apply in_map_iff in H. destruct H as (p & <- & _).
      split; [reflexivity|]. split; [|right; exact Hl]. split; [discriminate|]. repeat constructor; try reflexivity; apply print_int_plain.
Qed.

Lemma rread_write : forall keep i s,
  (forall k d, nth_error (rview s) k = Some d -> rprintable i k d) ->
  rread_certificate keep i (rwrite_certificate i s) = rb_run i [] (concat (rbins_calls i 0 (rc_bins (rs_core s)))).
Proof.
  intros keep i s H. unfold rwrite_certificate.
  assert (H1 : Forall2 (rrow_calls i) (map rcell_of (rbins_rows i 0 (rc_bins (rs_core s)))) (rbins_calls i 0 (rc_bins (rs_core s)))).
  { apply rbins_rows_calls. intros k b Hk. apply H. unfold rview. rewrite nth_error_map. cbn [Nat.add] in *. rewrite Hk. reflexivity. }
  pose proof (rbins_rows_ok i (rc_bins (rs_core s)) 0) as H2.
  assert (E : rbins_rows i 0 (rc_bins (rs_core s)) =
    map (fun v => map v rcertificate_labels) (map rcell_of (rbins_rows i 0 (rc_bins (rs_core s))))).
  { rewrite map_map. rewrite <- (List.map_id (rbins_rows i 0 (rc_bins (rs_core s)))) at 1. apply map_ext_in.
    intros cells Hc. symmetry. apply H2. assumption. }
  rewrite E. apply rread_file; [| | |assumption|].
  - intros l Hl. simpl in Hl |- *. tauto.
  - split; [discriminate|repeat constructor].
  - discriminate.
  - intros v Hv. apply in_map_iff in Hv. destruct Hv as (cells & <- & Hc). destruct (H2 cells Hc) as (G1 & G2).
    rewrite G1. assumption.
Qed.

(** ** The builder rebuilds the bins *)

Definition rforget (i : RInstance) (b : RSBin) : RSBin :=
  rraw_bin (rs_type b) (rs_copies b) (map (unrotated_square i) (rs_items b)).

Lemma read_place_eq : forall i p, read_place i p = unrotated_square i p.
Proof.
  intros i [x px py r]. unfold read_place, unrotated_square. cbn [pl_type pl_x pl_y pl_rot].
  destruct r; cbn [negb].
  - rewrite Z.eqb_sym. destruct (Z.eqb_spec (ri_x (ritem i x)) (ri_y (ritem i x))); reflexivity.
  - rewrite Z.eqb_refl. cbn [negb]. destruct (_ =? _); reflexivity.
Qed.

Lemma rb_add_items : forall i pre t n items acc,
  (forall p, In p items -> (pl_type p < length (rin_items i))%nat) ->
  (forall p, In p items -> pl_rot p = true -> ri_oriented (ritem i (pl_type p)) = false) ->
  rb_run i (pre ++ [rraw_bin t n acc]) (concat (map (fun p => [RAddItem (length pre) (read_place i p)]) items))
  = Some (pre ++ [rraw_bin t n (acc ++ map (unrotated_square i) items)]).
Proof.
  intros i pre t n items. induction items as [|p items IH]; intros acc H Ho.
  - simpl. rewrite app_nil_r. reflexivity.
  - cbn [map concat app rb_run rb_call]. unfold rb_add_item. rewrite read_place_eq.
    assert (E : Nat.ltb (length pre) (length (pre ++ [rraw_bin t n acc])) = true)
      by (apply Nat.ltb_lt; rewrite app_length; simpl; lia).
    assert (Et : pl_type (unrotated_square i p) = pl_type p) by (unfold unrotated_square; destruct (_ =? _); reflexivity).
    rewrite E, Et. assert (E2 : Nat.ltb (pl_type p) (length (rin_items i)) = true)
      by (apply Nat.ltb_lt, H; left; reflexivity).
    assert (E3 : pl_rot (unrotated_square i p) && ri_oriented (ritem i (pl_type p)) = false).
    { specialize (Ho p (or_introl eq_refl)). unfold unrotated_square. destruct (_ =? _); cbn [pl_rot]; [reflexivity|].
      destruct (pl_rot p); [rewrite Ho by reflexivity; reflexivity|reflexivity]. }
    rewrite E2, E3. cbn [andb negb]. rewrite upd_snoc.
    change (mkRSB _ _ _ _ _ _) with (rraw_bin t n (acc ++ [unrotated_square i p])).
    rewrite IH by (intros q Hq; first [apply H|apply Ho]; right; assumption). rewrite <- app_assoc. reflexivity.
Qed.

Lemma concat_nils : forall A B (l : list A), concat (map (fun _ => []) l) = @nil B.
Proof. intros A B l. induction l as [|a l IH]; [reflexivity|exact IH]. Qed.

Lemma rrebuild : forall i bins pre, (forall b, In b bins -> rraw_ok i b /\ rotations_ok i (rview_bin b)) ->
  rb_run i pre (concat (rbins_calls i (length pre) bins)) = Some (pre ++ map (rforget i) bins).
Proof.
  intros i bins. induction bins as [|b bins IH]; intros pre H; [simpl; rewrite app_nil_r; reflexivity|].
  cbn [rbins_calls map]. unfold rbin_calls. cbn [app concat rb_run rb_call].
  destruct (H b (or_introl eq_refl)) as [[H1 H2] H3]. unfold rb_add_bin, rin_range.
  assert (E : Nat.ltb (rs_type b) (length (rin_bins i)) = true) by (apply Nat.ltb_lt; assumption).
  rewrite E. cbn [andb forallb]. rewrite !concat_app, concat_nils. cbn [app]. rewrite rb_run_app, rb_add_items by assumption.
  assert (EL : S (length pre) = length (pre ++ [rforget i b])) by (rewrite app_length; simpl; lia).
  rewrite EL. cbn [app]. fold (rforget i b).
  rewrite IH by (intros b' Hb'; apply H; right; assumption). rewrite <- app_assoc. reflexivity.
Qed.

Lemma rview_forget : forall i b, rview_bin (rforget i b) = unrotated_squares i (rview_bin b).
Proof. reflexivity. Qed.

(** Builders hold bins without indicators. *)
Definition rfresh (b : RSBin) : Prop := b = rraw_bin (rs_type b) (rs_copies b) (rs_items b).
Lemma rfresh_run : forall i calls bins bins', (forall b, In b bins -> rfresh b) -> rb_run i bins calls = Some bins' ->
  forall b, In b bins' -> rfresh b.
Proof.
  intros i calls. induction calls as [|c calls IH]; intros bins bins' H E; [injection E as <-; assumption|].
  cbn [rb_run] in E. destruct (rb_call i bins c) as [bins1|] eqn:E1; [|discriminate].
  apply (IH bins1 bins'); [|assumption]. destruct c as [t n|pos p]; cbn [rb_call] in E1.
  - unfold rb_add_bin in E1. destruct (rin_range i t []); [|discriminate]. injection E1 as <-.
    intros b Hb. apply in_snoc in Hb. destruct Hb as [Hb| ->]; [apply H; assumption|reflexivity].
  - unfold rb_add_item in E1. destruct (_ && _); [|discriminate]. injection E1 as <-.
    intros b Hb. apply in_upd in Hb. destruct Hb as [Hb|(b0 & Hb0 & ->)]; [apply H; assumption|].
    specialize (H b0 Hb0). unfold rfresh in *. rewrite H. reflexivity.
Qed.

(** What builders hold has no rotated oriented item. *)
Lemma rotations_run : forall i calls bins bins', (forall b, In b bins -> rotations_ok i (rview_bin b)) ->
  rb_run i bins calls = Some bins' -> forall b, In b bins' -> rotations_ok i (rview_bin b).
Proof.
  intros i calls. induction calls as [|c calls IH]; intros bins bins' H E; [injection E as <-; assumption|].
  cbn [rb_run] in E. destruct (rb_call i bins c) as [bins1|] eqn:E1; [|discriminate].
  apply (IH bins1 bins'); [|assumption]. destruct c as [t n|pos p]; cbn [rb_call] in E1.
  - unfold rb_add_bin in E1. destruct (rin_range i t []); [|discriminate]. injection E1 as <-.
    intros b Hb. apply in_snoc in Hb. destruct Hb as [Hb| ->]; [apply H; assumption|intros q []].
  - unfold rb_add_item in E1. destruct (_ && _) eqn:Eo; [|discriminate]. injection E1 as <-.
    apply andb_true_iff in Eo. destruct Eo as [_ Eo]. apply negb_true_iff in Eo.
    intros b Hb. apply in_upd in Hb. destruct Hb as [Hb|(b0 & Hb0 & ->)]; [apply H; assumption|].
    intros q Hq Hr. cbn [rd_items rview_bin rs_items] in Hq. apply in_snoc in Hq. destruct Hq as [Hq| ->].
    + apply (H b0 Hb0 q Hq Hr).
    + rewrite Hr in Eo. exact Eo.
Qed.
