(** * Insertions of the rectangle branching scheme *)

From Coq Require Import List ZArith QArith Bool Lia Lqa Arith Permutation.
From Verif Require Import Util Common_Model Common_Spec Common_Proof OneDim_Model OneDim_Spec OneDim_Proof OneDimBuilder_Spec Tree1D_Model Tree1D_Spec Tree1D_Proof
  Rect_Model Rect_Spec RectSol_Model RectSol_Spec RectSol_Proof RectBuilder_Model RectBuilder_Spec RectFlip_Model RectFlip_Spec RectFlip_Proof
  RectTree_Model RectTree_Spec RectSky_Proof.
Import ListNotations.
Open Scope Z_scope.

(** ** Order of the bins *)

Lemma rinsert_bin_perm : forall i t l, Permutation (rinsert_bin i t l) (t :: l).
Proof. intros i t. induction l as [|u r IH]; [reflexivity|]. cbn [rinsert_bin]. destruct (_ <? _); [reflexivity|]. rewrite IH. apply perm_swap. Qed.

Lemma rbin_order_perm : forall i, Permutation (rbin_order i) (seq 0 (length (rin_bins i))).
Proof.
  intros i. unfold rbin_order. assert (G : forall l acc, Permutation (fold_left (fun acc t => rinsert_bin i t acc) l acc) (acc ++ l)).
  { induction l as [|t l IH]; intros acc; cbn [fold_left]; [rewrite app_nil_r; reflexivity|]. rewrite IH, rinsert_bin_perm. cbn [app]. apply Permutation_middle. }
  destruct (rin_objective i); try reflexivity. apply G.
Qed.

Lemma rts_bins_perm : forall i, Permutation (rts_bins i) (flat_map (fun t => repeat t (Z.to_nat (rb_copies (rbin i t)))) (seq 0 (length (rin_bins i)))).
Proof. intros i. unfold rts_bins. apply Permutation_flat_map. apply rbin_order_perm. Qed.

Lemma rts_bins_nth : forall i p, (p < length (rts_bins i))%nat -> (nth p (rts_bins i) 0%nat < length (rin_bins i))%nat.
Proof.
  intros i p H. apply (nth_In _ 0%nat) in H. apply (Permutation_in _ (rts_bins_perm i)) in H. apply in_flat_map in H. destruct H as (u & Hu & H). apply repeat_spec in H. rewrite H. apply in_seq in Hu. lia.
Qed.

Lemma rts_bins_length : forall i d, rconsistent i d -> length (rts_bins i) = length (dv_bin_type_ids d).
Proof. intros i d H. rewrite (rc_bin_type_ids i d H). apply Permutation_length. apply rts_bins_perm. Qed.

Lemma rts_previous_S : forall i k, (k < length (rts_bins i))%nat -> rts_previous i (S k) = rts_previous i k + rb_area (rbin i (nth k (rts_bins i) 0%nat)).
Proof.
  intros i k H. unfold rts_previous. assert (E : nth_error (rts_bins i) k = Some (nth k (rts_bins i) 0%nat)) by (apply nth_error_nth'; exact H).
  rewrite (firstn_succ_snoc _ _ _ _ E), zsum_snoc. reflexivity.
Qed.

Lemma rts_previous_mono : forall i a b, (forall t, (t < length (rin_bins i))%nat -> 0 <= rb_area (rbin i t)) -> (a <= b)%nat -> (b <= length (rts_bins i))%nat -> rts_previous i a <= rts_previous i b.
Proof.
  intros i a b Hp Hab Hb. induction Hab as [|b Hab IH]; [lia|]. rewrite rts_previous_S by lia. specialize (Hp _ (rts_bins_nth i b ltac:(lia))). lia.
Qed.

(** ** Calls of the solution builder *)

Lemma rdesc_run_app : forall l1 l2 ds, rdesc_run ds (l1 ++ l2) = rdesc_run (rdesc_run ds l1) l2.
Proof. induction l1 as [|c l1 IH]; intros l2 ds; [reflexivity|]. destruct c; cbn [app rdesc_run]; apply IH. Qed.

Definition rbins_of (n : nat) (path : list (nat * bool * Place)) : nat := fold_left (fun m e => Nat.max m (fst (fst e))) path n.

Lemma rbins_of_snoc : forall n path e, rbins_of n (path ++ [e]) = Nat.max (rbins_of n path) (fst (fst e)).
Proof. intros. unfold rbins_of. rewrite fold_left_app. reflexivity. Qed.

Lemma rpath_calls_snoc : forall s path n nb dir p, rpath_calls s n (path ++ [(nb, dir, p)]) =
  rpath_calls s n path ++ map (fun k => RAddBin (nth k (rts_bins (sc_i s)) 0%nat) 1) (seq (rbins_of n path) (nb - rbins_of n path))
  ++ [RAddItem (Nat.max (rbins_of n path) nb - 1) (place_of dir p)].
Proof.
  intros s. induction path as [|[[mb d] q] path IH]; intros n nb dir p; [reflexivity|]. cbn [app rpath_calls]. rewrite IH. rewrite <- app_assoc. cbn [app]. reflexivity.
Qed.

Definition rempty_bins (i : RInstance) (m k : nat) : list RDesc := map (fun k => mkRD (nth k (rts_bins i) 0%nat) 1 []) (seq m k).

Lemma rempty_length : forall i m k, length (rempty_bins i m k) = k.
Proof. intros. unfold rempty_bins. rewrite map_length, seq_length. reflexivity. Qed.

Lemma rempty_in : forall i m k d, In d (rempty_bins i m k) -> exists p, (m <= p < m + k)%nat /\ d = mkRD (nth p (rts_bins i) 0%nat) 1 [].
Proof. intros i m k d H. unfold rempty_bins in H. apply in_map_iff in H. destruct H as (p & <- & Hp). apply in_seq in Hp. exists p. split; [lia|reflexivity]. Qed.

Lemma rempty_zsum : forall i (f : RDesc -> Z) m k, (forall t, f (mkRD t 1 []) = 0) -> zsum f (rempty_bins i m k) = 0.
Proof. intros i f m k H. unfold rempty_bins. rewrite zsum_map. induction (seq m k) as [|p l IH]; [reflexivity|]. rewrite zsum_cons, IH, H. lia. Qed.

Lemma rdesc_run_add : forall i k m ds, rdesc_run ds (map (fun k => RAddBin (nth k (rts_bins i) 0%nat) 1) (seq m k)) = ds ++ rempty_bins i m k.
Proof.
  intros i. unfold rempty_bins. induction k as [|k IH]; intros m ds; cbn [seq map rdesc_run]; [rewrite app_nil_r; reflexivity|]. rewrite IH, <- app_assoc. reflexivity.
Qed.

Lemma rdesc_run_item : forall ds d p, rdesc_run (ds ++ [d]) [RAddItem (length (ds ++ [d]) - 1) p] = ds ++ [mkRD (rd_type d) (rd_copies d) (rd_items d ++ [p])].
Proof. intros ds d p. cbn [rdesc_run]. rewrite app_length. cbn [length]. replace (length ds + 1 - 1)%nat with (length ds) by lia. apply upd_snoc. Qed.

(** ** Defects *)

Definition clear_of (xj ys ye xs : Z) (d : Defect) : Prop := xs + xj <= df_x d \/ df_xe d <= xs \/ ye <= df_y d \/ df_ye d <= ys.

Lemma defect_step_cases : forall xj ys ye xs stop d, let '(xs', stop') := defect_step xj ys ye (xs, stop) d in
  (xs' = xs /\ stop' = stop /\ clear_of xj ys ye xs d) \/ (xs < df_xe d /\ xs' = df_xe d /\ stop' = false).
Proof.
  intros xj ys ye xs stop d. unfold defect_step. destruct ((xs + xj <=? df_x d) || (df_xe d <=? xs) || (ye <=? df_y d) || (df_ye d <=? ys)) eqn:E.
  - left. split; [reflexivity|]. split; [reflexivity|]. rewrite !orb_true_iff, !Z.leb_le in E. unfold clear_of. tauto.
  - right. rewrite !orb_false_iff, !Z.leb_gt in E. split; [lia|]. auto.
Qed.

Lemma defect_fold : forall xj ys ye l xs stop, let '(xs', stop') := fold_left (defect_step xj ys ye) l (xs, stop) in
  xs <= xs' /\ (stop' = true -> stop = true /\ xs' = xs /\ forall d, In d l -> clear_of xj ys ye xs d)
  /\ (stop' = false -> stop = false \/ exists d, In d l /\ xs < df_xe d <= xs').
Proof.
  intros xj ys ye. induction l as [|d l IH]; intros xs stop; cbn [fold_left].
  - split; [lia|]. split; [intros ->; split; [reflexivity|]; split; [reflexivity|intros d []]|intros ->; left; reflexivity].
  - pose proof (defect_step_cases xj ys ye xs stop d) as C. destruct (defect_step xj ys ye (xs, stop) d) as [x1 s1]. specialize (IH x1 s1).
    destruct (fold_left (defect_step xj ys ye) l (x1, s1)) as [x2 s2]. destruct IH as (A & B & D).
    destruct C as [(-> & -> & C)|(C1 & C2 & C3)].
    + split; [exact A|]. split.
      * intros E. destruct (B E) as (B1 & B2 & B3). split; [exact B1|]. split; [exact B2|]. intros e [<-|He]; [exact C|apply B3, He].
      * intros E. destruct (D E) as [D1|(e & He & Hx)]; [left; exact D1|right; exists e; split; [right; exact He|exact Hx]].
    + split; [lia|]. split; [intros E; destruct (B E) as (B1 & _); congruence|]. intros _. right. exists d. split; [left; reflexivity|]. lia.
Qed.

Definition ahead (l : list Defect) (xs : Z) : nat := length (filter (fun d => xs <? df_xe d) l).

Lemma ahead_le : forall l a b, a <= b -> (ahead l b <= ahead l a)%nat.
Proof. intros l a b H. unfold ahead. induction l as [|d l IH]; [cbn; lia|]. cbn [filter]. destruct (Z.ltb_spec a (df_xe d)); destruct (Z.ltb_spec b (df_xe d)); cbn [length]; lia. Qed.

Lemma ahead_lt : forall l a b d, In d l -> a < df_xe d <= b -> (ahead l b < ahead l a)%nat.
Proof.
  intros l a b d H Hd. induction l as [|e l IH]; [destruct H|]. pose proof (ahead_le l a b ltac:(lia)) as Hl. unfold ahead in *. cbn [filter]. destruct H as [->|H].
  - destruct (Z.ltb_spec a (df_xe d)); [|lia]. destruct (Z.ltb_spec b (df_xe d)); [lia|]. cbn [length]. lia.
  - specialize (IH H). destruct (Z.ltb_spec a (df_xe e)); destruct (Z.ltb_spec b (df_xe e)); cbn [length]; lia.
Qed.

Lemma ahead_length : forall l a, (ahead l a <= length l)%nat.
Proof. intros l a. unfold ahead. induction l as [|d l IH]; [cbn; lia|]. cbn [filter length]. destruct (_ <? _); cbn [length]; lia. Qed.

Lemma avoid_spec : forall xj ys ye l fuel xs, (ahead l xs < fuel)%nat ->
  xs <= avoid_defects fuel l xj ys ye xs /\ forall d, In d l -> clear_of xj ys ye (avoid_defects fuel l xj ys ye xs) d.
Proof.
  intros xj ys ye l. induction fuel as [|fuel IH]; intros xs H; [lia|]. cbn [avoid_defects]. pose proof (defect_fold xj ys ye l xs true) as F. destruct (fold_left (defect_step xj ys ye) l (xs, true)) as [x1 stop].
  destruct F as (A & B & C). destruct stop.
  - destruct (B eq_refl) as (_ & -> & B3). split; [lia|exact B3].
  - destruct (C eq_refl) as [C1|(d & Hd & Hx)]; [discriminate|]. pose proof (ahead_lt l xs x1 d Hd Hx). destruct (IH x1 ltac:(lia)) as [D1 D2]. split; [lia|exact D2].
Qed.

Lemma avoid_none : forall fuel xj ys ye xs, avoid_defects fuel [] xj ys ye xs = xs.
Proof. intros fuel. destruct fuel; reflexivity. Qed.

(** ** Lists of insertions *)

Lemma oconcat_in : forall (A : Type) (L : list (option (list A))) l a, oconcat L = Some l -> In a l -> exists l', In (Some l') L /\ In a l'.
Proof.
  intros A. induction L as [|o L IH]; intros l a H Ha; cbn in H; [injection H as <-; destruct Ha|]. destruct o as [b|]; [|discriminate]. destruct (oconcat L) as [c|] eqn:E; [|discriminate]. injection H as <-.
  apply in_app_or in Ha. destruct Ha as [Ha|Ha]; [exists b; split; [left; reflexivity|exact Ha]|]. destruct (IH c a eq_refl Ha) as (l' & H1 & H2). exists l'. split; [right; exact H1|exact H2].
Qed.

Definition src_ys (n : RNode) (bt : RBin) (src : Source) : Z :=
  match src with
  | FromPiece O => 0
  | FromPiece pos => pc_ys (nth pos (rn_pieces n) dummy_piece)
  | FromDefect k => df_ye (nth k (rb_defects bt) (mkDefect 0 0 0 0))
  end.

(** [x] of the item before the defects. *)
Definition left_xs (n : RNode) (new : option (nat * bool)) (ys ye : Z) : Z :=
  match new with
  | Some _ => 0
  | None => fold_left (fun xs u => if overlaps ys ye u then (if xs <? pc_xe u then pc_xe u else xs) else xs) (rn_pieces n) 0
  end.

Definition ins_dir (n : RNode) (new : option (nat * bool)) : bool := match new with Some (_, d) => d | None => rn_dir n end.
Definition ins_pos (n : RNode) (new : option (nat * bool)) : nat := match new with Some (p, _) => p | None => (rn_bins n - 1)%nat end.

Definition ins_consumption (n : RNode) (new : option (nat * bool)) (bt : RBin) (x r : nat) : Q :=
  match new with
  | Some _ => item_consumption (nth r (rb_resources bt) dummy_resource) x 0
  | None => (nth r (rn_resources n) 0 + item_consumption (nth r (rb_resources bt) dummy_resource) x (nth x (rn_last_copies n) 0%nat))%Q
  end.

Record InsFacts (s : Scheme) (n : RNode) (x : nat) (rot : bool) (new : option (nat * bool)) (src : Source) (ins : RInsertion) : Prop := {
  if_eq : ins = mkRIn x rot (in_x ins) (src_ys n (rbin (sinst s (ins_dir n new)) (nth (ins_pos n new) (rts_bins (sc_i s)) 0%nat)) src) new;
  if_y : in_y ins + ri_height (ritem (sinst s (ins_dir n new)) x) rot <= rb_y (rbin (sinst s (ins_dir n new)) (nth (ins_pos n new) (rts_bins (sc_i s)) 0%nat));
  if_weight : within_tol (match new with Some _ => ri_weight (ritem (sinst s (ins_dir n new)) x) | None => rn_weight n + ri_weight (ritem (sinst s (ins_dir n new)) x) end)%Q
    (rb_max_weight (rbin (sinst s (ins_dir n new)) (nth (ins_pos n new) (rts_bins (sc_i s)) 0%nat)));
  if_resources : forall r, In r (nth (nth (ins_pos n new) (rts_bins (sc_i s)) 0%nat) (ri_resource_ids (ritem (sinst s (ins_dir n new)) x)) []) ->
    let bt := rbin (sinst s (ins_dir n new)) (nth (ins_pos n new) (rts_bins (sc_i s)) 0%nat) in
    res_penalize (nth r (rb_resources bt) dummy_resource) = false ->
    (ins_consumption n new bt x r <= res_capacity (nth r (rb_resources bt) dummy_resource) * PSTOL)%Q;
  if_unloading : unloading_allows (sinst s (ins_dir n new)) n (ri_group (ritem (sinst s (ins_dir n new)) x))
    (left_xs n new (in_y ins) (in_y ins + ri_height (ritem (sinst s (ins_dir n new)) x) rot)) (in_y ins) (in_y ins + ri_height (ritem (sinst s (ins_dir n new)) x) rot) = Some true;
  if_x : in_x ins = avoid_defects (S (length (rb_defects (rbin (sinst s (ins_dir n new)) (nth (ins_pos n new) (rts_bins (sc_i s)) 0%nat)))))
    (rb_defects (rbin (sinst s (ins_dir n new)) (nth (ins_pos n new) (rts_bins (sc_i s)) 0%nat))) (ri_width (ritem (sinst s (ins_dir n new)) x) rot)
    (in_y ins) (in_y ins + ri_height (ritem (sinst s (ins_dir n new)) x) rot) (left_xs n new (in_y ins) (in_y ins + ri_height (ritem (sinst s (ins_dir n new)) x) rot));
  if_xe : in_x ins + ri_width (ritem (sinst s (ins_dir n new)) x) rot <= rb_x (rbin (sinst s (ins_dir n new)) (nth (ins_pos n new) (rts_bins (sc_i s)) 0%nat))
}.

Lemma insertion_item_facts : forall s n x rot new src l ins, insertion_item s n x rot new src = Some l -> In ins l -> InsFacts s n x rot new src ins.
Proof.
  intros s n x rot new src l ins H Hin. unfold insertion_item in H. cbv zeta in H.
  change (match new with Some (_, d) => d | None => rn_dir n end) with (ins_dir n new) in H.
  change (match new with Some (p, _) => p | None => (rn_bins n - 1)%nat end) with (ins_pos n new) in H.
  set (t := nth (ins_pos n new) (rts_bins (sc_i s)) 0%nat) in *. set (inst := sinst s (ins_dir n new)) in *. set (bt := rbin inst t) in *.
  change (match src with FromPiece O => 0 | FromPiece (S _ as pos) => pc_ys (nth pos (rn_pieces n) dummy_piece) | FromDefect k => df_ye (nth k (rb_defects bt) (mkDefect 0 0 0 0)) end) with (src_ys n bt src) in H.
  set (ys := src_ys n bt src) in *. set (xj := ri_width (ritem inst x) rot) in *. set (yj := ri_height (ritem inst x) rot) in *.
  change (match new with Some _ => 0 | None => fold_left (fun xs u => if overlaps ys (ys + yj) u then (if xs <? pc_xe u then pc_xe u else xs) else xs) (rn_pieces n) 0 end) with (left_xs n new ys (ys + yj)) in H.
  destruct (Z.ltb_spec (rb_y bt) (ys + yj)) as [|Hy]; [injection H as <-; destruct Hin|].
  destruct (exceeds _ _) eqn:Ew; [injection H as <-; destruct Hin|]. apply exceeds_false in Ew. rewrite within_times_tol in Ew.
  destruct (negb _) eqn:Er; [injection H as <-; destruct Hin|]. apply negb_false_iff in Er. rewrite forallb_forall in Er.
  destruct (unloading_allows _ _ _ _ _ _) as [[|]|] eqn:Eu; [|injection H as <-; destruct Hin|discriminate].
  set (xs := avoid_defects _ _ _ _ _ _) in H. destruct (Z.ltb_spec (rb_x bt) (xs + xj)) as [|Hx]; [injection H as <-; destruct Hin|].
  destruct (match src with FromPiece _ => _ | FromDefect _ => _ end); injection H as <-; [destruct Hin|]. destruct Hin as [<-|[]].
  constructor; cbn [in_x in_y]; fold inst t bt; fold xj yj.
  - reflexivity.
  - exact Hy.
  - exact Ew.
  - cbv zeta. intros r Hr Hp. specialize (Er r Hr). cbv beta in Er. rewrite Hp in Er. cbn [orb] in Er. apply negb_true_iff, Qltb_ge in Er. exact Er.
  - exact Eu.
  - reflexivity.
  - exact Hx.
Qed.

Lemma left_xs_spec : forall n new ys ye, 0 <= left_xs n new ys ye /\ (new = None -> forall u, In u (rn_pieces n) -> ys < pc_ye u -> pc_ys u < ye -> pc_xe u <= left_xs n new ys ye).
Proof.
  intros n new ys ye. destruct new as [pd|]; cbn [left_xs]; [split; [lia|discriminate]|].
  assert (G : forall l m, m <= fold_left (fun xs u => if overlaps ys ye u then (if xs <? pc_xe u then pc_xe u else xs) else xs) l m
    /\ forall u, In u l -> ys < pc_ye u -> pc_ys u < ye -> pc_xe u <= fold_left (fun xs u => if overlaps ys ye u then (if xs <? pc_xe u then pc_xe u else xs) else xs) l m).
  { induction l as [|v l IH]; intros m; cbn [fold_left]; [split; [lia|intros u []]|].
    destruct (IH (if overlaps ys ye v then if m <? pc_xe v then pc_xe v else m else m)) as [A B]. split.
    - destruct (overlaps ys ye v); [|exact A]. destruct (Z.ltb_spec m (pc_xe v)); lia.
    - intros u [<-|Hu] H1 H2; [|apply B; assumption]. assert (E : overlaps ys ye v = true).
      { unfold overlaps. destruct (Z.leb_spec (pc_ye v) ys); [lia|]. destruct (Z.leb_spec ye (pc_ys v)); [lia|]. reflexivity. }
      rewrite E in *. destruct (Z.ltb_spec m (pc_xe v)); lia. }
  destruct (G (rn_pieces n) 0). auto.
Qed.

(** What an insertion is. *)
Definition ins_sources (n : RNode) (bt : RBin) (new : option (nat * bool)) (src : Source) : Prop :=
  match src with
  | FromPiece O => True
  | FromPiece pos => new = None /\ (pos < length (rn_pieces n))%nat
  | FromDefect k => (k < length (rb_defects bt))%nat
  end.

Record InsCase (s : Scheme) (n : RNode) (x : nat) (rot : bool) (new : option (nat * bool)) (ins : RInsertion) : Prop := {
  ic_new : match new with None => rn_bins n <> 0%nat | Some (p, d) => (rn_bins n <= p < length (dv_bin_type_ids (sc_d s)))%nat /\ d = new_bin_direction s p end;
  ic_item : In x (nth (nth (ins_pos n new) (rts_bins (sc_i s)) 0%nat) (dv_item_type_ids (sder s (ins_dir n new))) []);
  ic_copies : nth x (rn_copies n) 0 <> ri_copies (ritem (sinst s (ins_dir n new)) x);
  ic_rot : rot = true -> ri_oriented (ritem (sinst s (ins_dir n new)) x) = false;
  ic_src : exists src, ins_sources n (rbin (sinst s (ins_dir n new)) (nth (ins_pos n new) (rts_bins (sc_i s)) 0%nat)) new src /\ InsFacts s n x rot new src ins
}.

Lemma item_insertions_cases : forall s n inst new sources x l ins, item_insertions s n inst new sources x = Some l -> In ins l -> inst = sinst s (ins_dir n new) ->
  nth x (rn_copies n) 0 <> ri_copies (ritem inst x) /\ exists rot src, (rot = true -> ri_oriented (ritem inst x) = false) /\ In src sources /\ InsFacts s n x rot new src ins.
Proof.
  intros s n inst new sources x l ins H Hin Ei. unfold item_insertions in H. destruct (item_ok s n pred_0 x && negb (nth x (rn_copies n) 0 =? ri_copies (ritem inst x))) eqn:E; [|injection H as <-; destruct Hin].
  apply andb_true_iff in E. destruct E as [_ E]. apply negb_true_iff, Z.eqb_neq in E. split; [exact E|].
  destruct (oconcat_in _ _ _ _ H Hin) as (l' & H1 & H2). apply in_flat_map in H1. destruct H1 as (src & Hs & H1). apply in_app_or in H1. destruct H1 as [H1|H1].
  - destruct (item_ok s n pred_1 x); [|destruct H1]. destruct H1 as [H1|[]]. exists false, src. split; [discriminate|]. split; [exact Hs|]. exact (insertion_item_facts _ _ _ _ _ _ _ _ H1 H2).
  - destruct (negb (ri_oriented (ritem inst x)) && item_ok s n pred_2 x) eqn:Eo; [|destruct H1]. apply andb_true_iff in Eo. destruct Eo as [Eo _]. apply negb_true_iff in Eo. destruct H1 as [H1|[]]. exists true, src. split; [auto|]. split; [exact Hs|]. exact (insertion_item_facts _ _ _ _ _ _ _ _ H1 H2).
Qed.

Lemma defect_sources_in : forall bt src n new, In src (defect_sources bt) -> ins_sources n bt new src.
Proof. intros bt src n new H. unfold defect_sources in H. apply in_map_iff in H. destruct H as (k & <- & Hk). apply in_seq in Hk. cbn. lia. Qed.

Lemma rinsertion_cases : forall s n l ins, rinsertions s n = Some l -> In ins l -> exists x rot new, InsCase s n x rot new ins.
Proof.
  intros s n l ins H Hin. unfold rinsertions in H.
  assert (G : forall ps l, (forall p, In p ps -> (rn_bins n <= p < length (dv_bin_type_ids (sc_d s)))%nat) -> rfirst_insertions s n ps = Some l -> In ins l -> exists x rot new, InsCase s n x rot new ins).
  { clear l H Hin. induction ps as [|p ps IH]; intros l Hps H Hin; cbn [rfirst_insertions] in H; [injection H as <-; destruct Hin|].
    destruct (rnew_bin_insertions s n p) as [l1|] eqn:E; [|discriminate]. destruct l1 as [|i1 l1]; [apply (IH l); [intros q Hq; apply Hps; right; exact Hq|exact H|exact Hin]|]. injection H as <-.
    unfold rnew_bin_insertions in E. cbv zeta in E. destruct (oconcat_in _ _ _ _ E Hin) as (l' & H1 & H2). apply in_map_iff in H1. destruct H1 as (x & H1 & Hx).
    destruct (item_insertions_cases _ _ _ _ _ _ _ _ H1 H2 eq_refl) as (A & rot & src & B & C & D). exists x, rot, (Some (p, new_bin_direction s p)). constructor.
    - split; [apply Hps; left; reflexivity|reflexivity].
    - exact Hx.
    - exact A.
    - exact B.
    - exists src. split; [|exact D]. destruct C as [<-|C]; [exact I|]. apply defect_sources_in. exact C. }
  assert (Hseq : forall p, In p (seq (rn_bins n) (length (dv_bin_type_ids (sc_d s)) - rn_bins n)) -> (rn_bins n <= p < length (dv_bin_type_ids (sc_d s)))%nat) by (intros p Hp; apply in_seq in Hp; lia).
  destruct (same_bin_insertions s n) as [l1|] eqn:E; [|discriminate]. destruct l1 as [|i1 l1]; [exact (G _ _ Hseq H Hin)|]. injection H as <-.
  unfold same_bin_insertions in E. destruct (Nat.eqb_spec (rn_bins n) 0) as [Eb|Eb]; [discriminate|]. cbv zeta in E. destruct (oconcat_in _ _ _ _ E Hin) as (l' & H1 & H2). apply in_map_iff in H1. destruct H1 as (x & H1 & Hx).
  destruct (item_insertions_cases _ _ _ _ _ _ _ _ H1 H2 eq_refl) as (A & rot & src & B & C & D). exists x, rot, None. constructor.
  - exact Eb.
  - exact Hx.
  - exact A.
  - exact B.
  - exists src. split; [|exact D]. apply in_app_or in C. destruct C as [C|C]; [|apply defect_sources_in; exact C]. apply in_map_iff in C. destruct C as (k & <- & Hk). apply in_seq in Hk. destruct k; [exact I|]. cbn [ins_sources]. split; [reflexivity|lia].
Qed.

(** ** Both instances of the scheme *)

Section Domain.
Variable s : Scheme.
Hypothesis Hd : rtree_domain s.

Lemma dom_swapped : swapped (sc_i s) (sc_j s) /\ rconsistent (sc_j s) (sc_dj s).
Proof.
  destruct (rflip_ok (sc_i s) (rd_flippable s Hd)) as (j & d & E & _ & _ & A & C & _). rewrite (rd_flip s Hd) in E. injection E as <- <-. auto.
Qed.

Lemma dom_consistent : forall dir, rconsistent (sinst s dir) (sder s dir).
Proof. intros [|]; [apply dom_swapped|apply (rd_consistent s Hd)]. Qed.

Lemma dom_lengths : forall dir, length (rin_items (sinst s dir)) = length (rin_items (sc_i s)) /\ length (rin_bins (sinst s dir)) = length (rin_bins (sc_i s)).
Proof. intros [|]; cbn [sinst]; [|auto]. destruct dom_swapped as [[_ _ [A _] [B _]] _]. auto. Qed.

Lemma dom_item : forall dir x, (x < length (rin_items (sc_i s)))%nat -> let a := ritem (sinst s dir) x in let b := ritem (sc_i s) x in
  ri_profit a = ri_profit b /\ ri_copies a = ri_copies b /\ ri_group a = ri_group b /\ ri_oriented a = ri_oriented b /\ ri_weight a = ri_weight b /\ ri_x a * ri_y a = ri_x b * ri_y b
  /\ 0 < ri_x a /\ 0 < ri_y a /\ 1 <= ri_copies a.
Proof.
  intros dir x Hx. cbv zeta. destruct (fl_items _ (rd_flippable s Hd) (ritem (sc_i s) x)) as (P1 & P2 & P3); [apply nth_In; exact Hx|].
  destruct dir; cbn [sinst]; [|repeat (split; [reflexivity|]); auto]. destruct dom_swapped as [[_ _ [_ A] _] _]. specialize (A x Hx). cbv zeta in A. destruct A as (A1 & A2 & A3 & A4 & A5 & A6 & A7).
  rewrite A1, A2. repeat (split; [assumption|]). split; [lia|]. split; [exact P2|]. split; [exact P1|]. rewrite A4. exact P3.
Qed.

Lemma dom_bin : forall dir t, (t < length (rin_bins (sc_i s)))%nat -> let a := rbin (sinst s dir) t in let b := rbin (sc_i s) t in
  0 < rb_x a /\ 0 < rb_y a /\ rb_x a * rb_y a = rb_x b * rb_y b /\ rb_max_weight a = rb_max_weight b /\ length (rb_resources a) = length (rb_resources b).
Proof.
  intros dir t Ht. cbv zeta. destruct (fl_bins _ (rd_flippable s Hd) (rbin (sc_i s) t)) as (P1 & P2 & _); [apply nth_In; exact Ht|].
  destruct dir; cbn [sinst]; [|auto]. destruct dom_swapped as [[_ _ _ [_ A]] _]. specialize (A t Ht). cbv zeta in A. destruct A as (A1 & A2 & A3 & A4 & A5 & A6 & A7 & A8 & A9 & _).
  rewrite A1, A2. repeat (split; [assumption|]). split; [lia|]. auto.
Qed.

Lemma dom_sane : forall dir, rsane_resources (sinst s dir).
Proof.
  intros [|]; cbn [sinst]; [|apply (rd_resources s Hd)]. intros bt r Hbt Hr. destruct (In_nth _ _ dummy_rbin Hbt) as (t & Ht & Et). destruct (In_nth _ _ dummy_resource Hr) as (k & Hk & Ek).
  destruct dom_swapped as [[_ _ _ [B A]] _]. rewrite B in Ht. specialize (A t Ht). cbv zeta in A. destruct A as (_ & _ & _ & _ & _ & _ & _ & _ & A9 & A10).
  unfold rbin in A9, A10 at 1. specialize (A10 k). unfold rbin in A10. rewrite Et, Ek in A10. rewrite Et in A9. destruct A10 as (C1 & C2 & C3 & C4).
  destruct (rd_resources s Hd (nth t (rin_bins (sc_i s)) dummy_rbin) (nth k (rb_resources (nth t (rin_bins (sc_i s)) dummy_rbin)) dummy_resource)) as [D1 D2]; [apply nth_In; exact Ht|apply nth_In; lia|].
  split; [rewrite C1; exact D1|]. intros sch q Hsch Hq. destruct (In_nth _ _ [] Hsch) as (x & Hx & Ex). specialize (C4 x). unfold schedule in C4. rewrite Ex in C4. subst sch.
  destruct (nth_in_or_default x (res_item_consumptions (nth k (rb_resources (nth t (rin_bins (sc_i s)) dummy_rbin)) dummy_resource)) []) as [Hi|Hi]; [exact (D2 _ _ Hi Hq)|]. rewrite Hi in Hq. destruct Hq.
Qed.

Lemma dom_defects : forall dir t f, (t < length (rin_bins (sc_i s)))%nat -> In f (rb_defects (rbin (sinst s dir) t)) -> 0 <= df_ye f.
Proof.
  intros dir t f Ht Hf. unfold df_ye. pose proof (fun g => rd_defects s Hd (rbin (sc_i s) t) g (nth_In _ _ Ht)) as D. destruct dir; cbn [sinst] in Hf; [|apply D, Hf].
  destruct dom_swapped as [[_ _ _ [_ A]] _]. specialize (A t Ht). cbv zeta in A. destruct A as (_ & _ & _ & _ & _ & _ & _ & A8 & _). rewrite A8 in Hf. apply in_map_iff in Hf. destruct Hf as (g & <- & Hg). cbn. apply D, Hg.
Qed.
End Domain.
