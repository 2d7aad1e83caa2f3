(** * Insertions of the box branching scheme *)

From Coq Require Import List ZArith QArith Bool Lia Lqa Arith Permutation.
From Verif Require Import Util Common_Model Common_Spec Common_Proof OneDim_Model OneDim_Spec OneDim_Proof OneDimBuilder_Spec Tree1D_Model Tree1D_Spec Tree1D_Proof
  Box_Model Box_Spec BoxSol_Model BoxSol_Spec BoxSol_Proof BoxBuilder_Model BoxBuilder_Spec BoxFlip_Model BoxFlip_Spec BoxFlip_Proof
  BoxTree_Model BoxTree_Spec BoxSky_Proof BoxTreeRes_Proof.
Import ListNotations.
Open Scope Z_scope.

(** ** Order of the bins *)

Lemma zinsert_bin_perm : forall i t l, Permutation (zinsert_bin i t l) (t :: l).
Proof. intros i t. induction l as [|u r IH]; [reflexivity|]. cbn [zinsert_bin]. destruct (_ <? _); [reflexivity|]. rewrite IH. apply perm_swap. Qed.

Lemma zbin_order_perm : forall i, Permutation (zbin_order i) (seq 0 (length (bx_bins i))).
Proof.
  intros i. unfold zbin_order. assert (G : forall l acc, Permutation (fold_left (fun acc t => zinsert_bin i t acc) l acc) (acc ++ l)).
  { induction l as [|t l IH]; intros acc; cbn [fold_left]; [rewrite app_nil_r; reflexivity|]. rewrite IH, zinsert_bin_perm. cbn [app]. apply Permutation_middle. }
  destruct (bx_objective i); try reflexivity. apply G.
Qed.

Lemma zts_bins_perm : forall i, Permutation (zts_bins i) (flat_map (fun t => repeat t (Z.to_nat (bn_copies (bxbin i t)))) (seq 0 (length (bx_bins i)))).
Proof. intros i. unfold zts_bins. apply Permutation_flat_map. apply zbin_order_perm. Qed.

Lemma zts_bins_nth : forall i p, (p < length (zts_bins i))%nat -> (nth p (zts_bins i) 0%nat < length (bx_bins i))%nat.
Proof.
  intros i p H. apply (nth_In _ 0%nat) in H. apply (Permutation_in _ (zts_bins_perm i)) in H. apply in_flat_map in H. destruct H as (u & Hu & H). apply repeat_spec in H. rewrite H. apply in_seq in Hu. lia.
Qed.

Lemma zts_bins_length : forall i d, wconsistent i d -> length (zts_bins i) = length (db_bin_type_ids d).
Proof. intros i d H. rewrite (wc_bin_type_ids i d H). apply Permutation_length. apply zts_bins_perm. Qed.

Lemma zts_previous_S : forall i k, (k < length (zts_bins i))%nat -> zts_previous i (S k) = zts_previous i k + bn_vol (bxbin i (nth k (zts_bins i) 0%nat)).
Proof.
  intros i k H. unfold zts_previous. assert (E : nth_error (zts_bins i) k = Some (nth k (zts_bins i) 0%nat)) by (apply nth_error_nth'; exact H).
  rewrite (firstn_succ_snoc _ _ _ _ E), zsum_snoc. reflexivity.
Qed.

Lemma zts_previous_mono : forall i a b, (forall t, (t < length (bx_bins i))%nat -> 0 <= bn_vol (bxbin i t)) -> (a <= b)%nat -> (b <= length (zts_bins i))%nat -> zts_previous i a <= zts_previous i b.
Proof.
  intros i a b Hp Hab Hb. induction Hab as [|b Hab IH]; [lia|]. rewrite zts_previous_S by lia. specialize (Hp _ (zts_bins_nth i b ltac:(lia))). lia.
Qed.

(** ** Calls of the solution builder *)

Lemma xdesc_run_app : forall l1 l2 ds, xdesc_run ds (l1 ++ l2) = xdesc_run (xdesc_run ds l1) l2.
Proof. induction l1 as [|c l1 IH]; intros l2 ds; [reflexivity|]. destruct c; cbn [app xdesc_run]; apply IH. Qed.

Definition zbins_of (n : nat) (path : list (nat * Axis * BPlace)) : nat := fold_left (fun m e => Nat.max m (fst (fst e))) path n.

Lemma zbins_of_snoc : forall n path e, zbins_of n (path ++ [e]) = Nat.max (zbins_of n path) (fst (fst e)).
Proof. intros. unfold zbins_of. rewrite fold_left_app. reflexivity. Qed.

Lemma zpath_calls_snoc : forall s path n nb dir p, zpath_calls s n (path ++ [(nb, dir, p)]) =
  zpath_calls s n path ++ map (fun k => XAddBin (nth k (zts_bins (zs_i s)) 0%nat) 1) (seq (zbins_of n path) (nb - zbins_of n path))
  ++ [XAddItem (Nat.max (zbins_of n path) nb - 1) (zplace_of dir p)].
Proof.
  intros s. induction path as [|[[mb d] q] path IH]; intros n nb dir p; [reflexivity|]. cbn [app zpath_calls]. rewrite IH. rewrite <- app_assoc. cbn [app]. reflexivity.
Qed.

Definition zempty_bins (i : BInstance) (m k : nat) : list XDesc := map (fun k => mkXD (nth k (zts_bins i) 0%nat) 1 []) (seq m k).

Lemma zempty_length : forall i m k, length (zempty_bins i m k) = k.
Proof. intros. unfold zempty_bins. rewrite map_length, seq_length. reflexivity. Qed.

Lemma zempty_in : forall i m k d, In d (zempty_bins i m k) -> exists p, (m <= p < m + k)%nat /\ d = mkXD (nth p (zts_bins i) 0%nat) 1 [].
Proof. intros i m k d H. unfold zempty_bins in H. apply in_map_iff in H. destruct H as (p & <- & Hp). apply in_seq in Hp. exists p. split; [lia|reflexivity]. Qed.

Lemma zempty_zsum : forall i (f : XDesc -> Z) m k, (forall t, f (mkXD t 1 []) = 0) -> zsum f (zempty_bins i m k) = 0.
Proof. intros i f m k H. unfold zempty_bins. rewrite zsum_map. induction (seq m k) as [|p l IH]; [reflexivity|]. rewrite zsum_cons, IH, H. lia. Qed.

Lemma xdesc_run_add : forall i k m ds, xdesc_run ds (map (fun k => XAddBin (nth k (zts_bins i) 0%nat) 1) (seq m k)) = ds ++ zempty_bins i m k.
Proof.
  intros i. unfold zempty_bins. induction k as [|k IH]; intros m ds; cbn [seq map xdesc_run]; [rewrite app_nil_r; reflexivity|]. rewrite IH, <- app_assoc. reflexivity.
Qed.

Lemma xdesc_run_item : forall ds d p, xdesc_run (ds ++ [d]) [XAddItem (length (ds ++ [d]) - 1) p] = ds ++ [mkXD (xd_type d) (xd_copies d) (xd_items d ++ [p])].
Proof. intros ds d p. cbn [xdesc_run]. rewrite app_length. cbn [length]. replace (length ds + 1 - 1)%nat with (length ds) by lia. apply upd_snoc. Qed.

Lemma zplace_swap : forall dir p, zplace_of dir p = bswap_place dir p.
Proof. intros dir p. unfold zplace_of, bswap_place. rewrite convert_exchange, flipped_rotation. reflexivity. Qed.

(** ** Insertions *)

Section Ins.
Variables (s : ZScheme) (n : ZNode).

(** What an insertion of item type [x] is. *)
Record ZInsCase (x : nat) (rot : Rotation) (new : option (nat * Axis)) (ins : ZInsertion) : Prop := {
  zic_new : match new with None => zn_bins n <> 0%nat | Some (p, d) => (zn_bins n <= p < length (db_bin_type_ids (zs_d s)))%nat /\ d = znew_direction s p end;
  zic_item : (x < length (bx_items (zinst s (zins_dir n new))))%nat;
  zic_ok : zitem_ok s n x = true;
  zic_copies : nth x (zn_copies n) 0 <> bi_copies (bxitem (zinst s (zins_dir n new)) x);
  zic_rot : In rot (bi_rotations (bxitem (zinst s (zins_dir n new)) x));
  zic_facts : let inst := zinst s (zins_dir n new) in let t := nth (zins_pos n new) (zts_bins (zs_i s)) 0%nat in let p := mkBP x (zi_pos ins) rot in
    ins = mkZI x rot (zi_pos ins) new
    /\ (exists py pz, In py (match new with None => zpositions n | Some _ => [None] end) /\ In pz (match new with None => zpositions n | Some _ => [None] end)
        /\ v_y (zi_pos ins) = match py with Some k => zp_ye (nth k (zn_pieces n) dummy_zpiece) | None => 0 end
        /\ v_z (zi_pos ins) = match pz with Some k => zp_ze (nth k (zn_pieces n) dummy_zpiece) | None => 0 end)
    /\ v_x (zi_pos ins) = zleft n new (v_y (zi_pos ins)) (bp_end inst p AY) (v_z (zi_pos ins)) (bp_end inst p AZ)
    /\ (forall a, bp_end inst p a <= vat (bn_box (bxbin inst t)) a)
    /\ within_tol (match new with Some _ => bi_weight (bxitem inst x) | None => zn_weight n + bi_weight (bxitem inst x) end)%Q (bn_max_weight (bxbin inst t))
    /\ (length (bn_resources (bxbin inst t)) <> 0%nat -> forall r, In r (nth t (bi_resource_ids (bxitem inst x)) []) -> res_penalize (nth r (bn_resources (bxbin inst t)) dummy_resource) = false ->
        (zins_consumption n new (bxbin inst t) x r <= res_capacity (nth r (bn_resources (bxbin inst t)) dummy_resource) * PSTOL)%Q)
}.

Lemma zinsertion_item_facts : forall x rot new py pz ins, In ins (zinsertion_item s n x rot new py pz) ->
  let inst := zinst s (zins_dir n new) in let t := nth (zins_pos n new) (zts_bins (zs_i s)) 0%nat in let p := mkBP x (zi_pos ins) rot in
    ins = mkZI x rot (zi_pos ins) new
    /\ (v_y (zi_pos ins) = match py with Some k => zp_ye (nth k (zn_pieces n) dummy_zpiece) | None => 0 end
        /\ v_z (zi_pos ins) = match pz with Some k => zp_ze (nth k (zn_pieces n) dummy_zpiece) | None => 0 end)
    /\ v_x (zi_pos ins) = zleft n new (v_y (zi_pos ins)) (bp_end inst p AY) (v_z (zi_pos ins)) (bp_end inst p AZ)
    /\ (forall a, bp_end inst p a <= vat (bn_box (bxbin inst t)) a)
    /\ within_tol (match new with Some _ => bi_weight (bxitem inst x) | None => zn_weight n + bi_weight (bxitem inst x) end)%Q (bn_max_weight (bxbin inst t))
    /\ (length (bn_resources (bxbin inst t)) <> 0%nat -> forall r, In r (nth t (bi_resource_ids (bxitem inst x)) []) -> res_penalize (nth r (bn_resources (bxbin inst t)) dummy_resource) = false ->
        (zins_consumption n new (bxbin inst t) x r <= res_capacity (nth r (bn_resources (bxbin inst t)) dummy_resource) * PSTOL)%Q).
Proof.
  intros x rot new py pz ins H. cbv zeta. unfold zinsertion_item in H. cbv zeta in H.
  set (t := nth (zins_pos n new) (zts_bins (zs_i s)) 0%nat) in *. set (inst := zinst s (zins_dir n new)) in *. set (bt := bxbin inst t) in *. set (box := rotate (bi_box (bxitem inst x)) rot) in *.
  set (uy := option_map (fun k => nth k (zn_pieces n) dummy_zpiece) py) in *. set (uz := option_map (fun k => nth k (zn_pieces n) dummy_zpiece) pz) in *.
  set (ys := match uy with Some u => zp_ye u | None => 0 end) in *. set (zs := match uz with Some u => zp_ze u | None => 0 end) in *.
  destruct (Z.ltb_spec (v_y (bn_box bt)) (ys + v_y box)) as [|Hy]; [destruct H|]. destruct (Z.ltb_spec (v_z (bn_box bt)) (zs + v_z box)) as [|Hz]; [destruct H|].
  destruct (exceeds _ _) eqn:Ew; [destruct H|]. apply exceeds_false in Ew. rewrite within_times_tol in Ew.
  destruct (_ && negb (forallb _ _)) eqn:Er; [destruct H|].
  destruct (match uz with Some u => _ | None => false end); [destruct H|]. destruct (match uy with Some u => _ || _ | None => false end); [destruct H|].
  set (xs := zleft _ _ _ _ _ _) in H. destruct (Z.ltb_spec (v_x (bn_box bt)) (xs + v_x box)) as [|Hx]; [destruct H|].
  destruct (match uy with Some u => _ | None => false end); [destruct H|]. destruct (match uz with Some u => _ | None => false end); [destruct H|].
  destruct H as [<-|[]]. cbn [zi_pos v_x v_y v_z].
  assert (EE : forall a, bp_end inst (mkBP x (mkV xs ys zs) rot) a = vat (mkV xs ys zs) a + vat box a) by (intros a; unfold bp_end; rewrite bp_size_rotate; reflexivity).
  split; [reflexivity|]. split; [|split; [|split; [|split]]].
  - unfold ys, zs, uy, uz. split; [destruct py|destruct pz]; reflexivity.
  - rewrite !EE. reflexivity.
  - intros a. rewrite EE. destruct a; cbn [vat v_x v_y v_z]; assumption.
  - exact Ew.
  - intros Hl r Hr Hp. rewrite (proj2 (Nat.ltb_lt 0 (length (bn_resources bt)))) in Er by lia. cbn [andb] in Er. apply negb_false_iff in Er. rewrite forallb_forall in Er. specialize (Er r Hr). cbv beta in Er. rewrite Hp in Er. cbn [orb] in Er. apply negb_true_iff, Qltb_ge in Er. exact Er.
Qed.

Lemma zitems_insertions_cases : forall new py pz ins, In ins (zitems_insertions s n new py pz) ->
  match new with None => zn_bins n <> 0%nat | Some (p, d) => (zn_bins n <= p < length (db_bin_type_ids (zs_d s)))%nat /\ d = znew_direction s p end ->
  In py (match new with None => zpositions n | Some _ => [None] end) -> In pz (match new with None => zpositions n | Some _ => [None] end) ->
  exists x rot, ZInsCase x rot new ins.
Proof.
  intros new py pz ins H Hn Hy Hz. unfold zitems_insertions in H. cbv zeta in H. apply in_flat_map in H. destruct H as (x & Hx & H). apply in_seq in Hx.
  destruct (zitem_ok s n x && _) eqn:E; [|destruct H]. apply andb_true_iff in E. destruct E as [E0 E]. apply negb_true_iff, Z.eqb_neq in E. apply in_flat_map in H. destruct H as (rot & Hr & H).
  exists x, rot. constructor; try assumption; [lia|]. pose proof (zinsertion_item_facts _ _ _ _ _ _ H) as F. cbv zeta in F |- *. destruct F as (F1 & F2 & F3). split; [exact F1|]. split; [|exact F3]. exists py, pz. tauto.
Qed.

Lemma zinsertion_cases : forall ins, In ins (zinsertions s n) -> exists x rot new, ZInsCase x rot new ins.
Proof.
  intros ins Hin. unfold zinsertions in Hin.
  assert (G : forall ps, (forall p, In p ps -> (zn_bins n <= p < length (db_bin_type_ids (zs_d s)))%nat) -> In ins (zfirst_insertions s n ps) -> exists x rot new, ZInsCase x rot new ins).
  { clear Hin. induction ps as [|p ps IH]; intros Hps H; cbn [zfirst_insertions] in H; [destruct H|].
    destruct (znew_bin_insertions s n p) as [|i1 l1] eqn:E; [apply IH; [intros q Hq; apply Hps; right; exact Hq|exact H]|]. rewrite <- E in H. unfold znew_bin_insertions in H.
    destruct (zitems_insertions_cases _ _ _ _ H) as (x & rot & C); [split; [apply Hps; left; reflexivity|reflexivity]|left; reflexivity|left; reflexivity|]. eauto. }
  assert (Hseq : forall p, In p (seq (zn_bins n) (length (db_bin_type_ids (zs_d s)) - zn_bins n)) -> (zn_bins n <= p < length (db_bin_type_ids (zs_d s)))%nat) by (intros p Hp; apply in_seq in Hp; lia).
  destruct (zsame_bin_insertions s n) as [|i1 l1] eqn:E; [exact (G _ Hseq Hin)|]. rewrite <- E in Hin. clear E.
  unfold zsame_bin_insertions in Hin. destruct (Nat.eqb_spec (zn_bins n) 0) as [Eb|Eb]; [destruct Hin|]. apply in_flat_map in Hin. destruct Hin as (py & Hy & Hin). apply in_flat_map in Hin. destruct Hin as (pz & Hz & Hin).
  destruct (zitems_insertions_cases _ _ _ _ Hin Eb Hy Hz) as (x & rot & C). eauto.
Qed.

Lemma zleft_spec : forall new ys ye zs ze, 0 <= zleft n new ys ye zs ze /\ (new = None -> forall u, In u (zn_pieces n) -> ys < zp_ye u -> zp_ys u < ye -> zs < zp_ze u -> zp_zs u < ze -> zp_x u <= zleft n new ys ye zs ze).
Proof.
  intros new ys ye zs ze. destruct new as [pd|]; cbn [zleft]; [split; [lia|discriminate]|].
  set (f := fun xs u => if zmeets ys ye zs ze u then (if xs <? zp_x u then zp_x u else xs) else xs).
  assert (G : forall l m, m <= fold_left f l m /\ forall u, In u l -> ys < zp_ye u -> zp_ys u < ye -> zs < zp_ze u -> zp_zs u < ze -> zp_x u <= fold_left f l m).
  { induction l as [|v l IH]; intros m; cbn [fold_left]; [split; [lia|intros u []]|]. destruct (IH (f m v)) as [A B]. split.
    - unfold f in A at 1. destruct (zmeets ys ye zs ze v); [|exact A]. destruct (Z.ltb_spec m (zp_x v)); lia.
    - intros u [<-|Hu] H1 H2 H3 H4; [|apply B; assumption]. assert (E : zmeets ys ye zs ze v = true).
      { unfold zmeets. destruct (Z.leb_spec (zp_ye v) ys); [lia|]. destruct (Z.leb_spec ye (zp_ys v)); [lia|]. destruct (Z.leb_spec (zp_ze v) zs); [lia|]. destruct (Z.leb_spec ze (zp_zs v)); [lia|]. reflexivity. }
      unfold f in A at 1. rewrite E in A. destruct (Z.ltb_spec m (zp_x v)); lia. }
  destruct (G (zn_pieces n) 0). auto.
Qed.
End Ins.

(** ** The instances of the scheme *)

Section Domain.
Variable s : ZScheme.
Hypothesis Hd : ztree_domain s.

Lemma zdom_flip : forall dir, bswapped dir (zs_i s) (zinst s dir) /\ wconsistent (zinst s dir) (zder s dir)
  /\ (dir <> AX -> forall k, (k < length (bx_bins (zs_i s)))%nat -> bn_resources (bxbin (zinst s dir) k) = []).
Proof.
  assert (G : forall d j e o, bflip o d (zs_i s) = WBuilt j e -> bswapped d (zs_i s) j /\ wconsistent j e /\ forall k, (k < length (bx_bins (zs_i s)))%nat -> bn_resources (bxbin j k) = []).
  { intros d j e o E. destruct (bflip_ok o d (zs_i s) (zd_flippable s Hd)) as (j' & e' & E' & _ & A & B & _ & C). rewrite E in E'. injection E' as <- <-. split; [exact A|]. split; [exact B|]. intros k Hk. apply (C k Hk). }
  intros [| |]; cbn [zinst zder].
  - split; [|split; [apply (zd_consistent s Hd)|congruence]]. constructor.
    + split; [reflexivity|]. intros x _. cbv zeta. repeat (split; [reflexivity|]). symmetry. rewrite <- (List.map_id (bi_rotations (bxitem (zs_i s) x))) at 2. apply map_ext. intros []; reflexivity.
    + split; [reflexivity|]. intros k _. cbv zeta. split; [intros a; destruct a; reflexivity|]. repeat split; reflexivity.
  - destruct (zd_flip_y s Hd) as (o & E). destruct (G _ _ _ _ E) as (A & B & C). auto.
  - destruct (zd_flip_z s Hd) as (o & E). destruct (G _ _ _ _ E) as (A & B & C). auto.
Qed.

Lemma zdom_lengths : forall dir, length (bx_items (zinst s dir)) = length (bx_items (zs_i s)) /\ length (bx_bins (zinst s dir)) = length (bx_bins (zs_i s)).
Proof. intros dir. destruct (zdom_flip dir) as ([[A _] [B _]] & _). auto. Qed.

Lemma zdom_item : forall dir x, (x < length (bx_items (zs_i s)))%nat -> let a := bxitem (zinst s dir) x in let b := bxitem (zs_i s) x in
  bi_box a = bi_box b /\ bi_profit a = bi_profit b /\ bi_copies a = bi_copies b /\ bi_weight a = bi_weight b /\ bi_rotations a = map (exchange_rot dir) (bi_rotations b)
  /\ (forall ax, 0 < vat (bi_box a) ax) /\ 1 <= bi_copies a.
Proof.
  intros dir x Hx. cbv zeta. destruct (bf_items _ (zd_flippable s Hd) (bxitem (zs_i s) x)) as (P1 & P2 & P3); [apply nth_In; exact Hx|].
  destruct (zdom_flip dir) as ([[_ A] _] & _). specialize (A x Hx). cbv zeta in A. destruct A as (A1 & A2 & A3 & A4 & A5). rewrite A1, A3. tauto.
Qed.

Lemma zdom_bin : forall dir t, (t < length (bx_bins (zs_i s)))%nat -> let a := bxbin (zinst s dir) t in let b := bxbin (zs_i s) t in
  (forall ax, 0 < vat (bn_box a) ax) /\ exchanged dir (bn_box b) (bn_box a) /\ bn_vol a = bn_vol b /\ bn_max_weight a = bn_max_weight b /\ (dir <> AX -> bn_resources a = []).
Proof.
  intros dir t Ht. cbv zeta. destruct (bf_bins _ (zd_flippable s Hd) (bxbin (zs_i s) t)) as (P1 & P2 & _); [apply nth_In; exact Ht|].
  destruct (zdom_flip dir) as ([_ [_ A]] & _ & R). specialize (A t Ht). cbv zeta in A. destruct A as (A1 & A2 & A3 & A4).
  split; [intros ax; rewrite A1; apply P1|]. split; [exact A1|]. split; [|split; [assumption|intros Hdir; apply R; assumption]].
  unfold bn_vol. pose proof (A1 AX) as X. pose proof (A1 AY) as Y. pose proof (A1 AZ) as Z0. cbn [vat] in X, Y, Z0. rewrite X, Y, Z0. destruct dir; cbn [other_axis axis_eqb vat]; lia.
Qed.

Lemma zdom_sane : forall dir, xsane_resources (zinst s dir).
Proof.
  intros dir. destruct dir; [apply (zd_resources s Hd)| |]; intros bt r Hbt Hr; destruct (In_nth _ _ dummy_bbin Hbt) as (t & Ht & Et).
  - destruct (zdom_lengths AY) as [_ L]. rewrite L in Ht. destruct (zdom_bin AY t Ht) as (_ & _ & _ & _ & R). specialize (R ltac:(discriminate)). unfold bxbin in R. rewrite Et in R. rewrite R in Hr. destruct Hr.
  - destruct (zdom_lengths AZ) as [_ L]. rewrite L in Ht. destruct (zdom_bin AZ t Ht) as (_ & _ & _ & _ & R). specialize (R ltac:(discriminate)). unfold bxbin in R. rewrite Et in R. rewrite R in Hr. destruct Hr.
Qed.

Lemma zdom_sizes : forall dir p, (bp_type p < length (bx_items (zs_i s)))%nat -> forall a, 0 < bp_size (zinst s dir) p a.
Proof.
  intros dir p Hp a. destruct (zdom_item dir _ Hp) as (_ & _ & _ & _ & _ & P & _). pose proof (P AX). pose proof (P AY). pose proof (P AZ). cbn [vat] in *. unfold bp_size. destruct (bp_rot p), a; assumption.
Qed.

Lemma zdom_volume : forall dir p, (bp_type p < length (bx_items (zs_i s)))%nat -> bp_size (zinst s dir) p AX * bp_size (zinst s dir) p AY * bp_size (zinst s dir) p AZ = bi_vol (bxitem (zs_i s) (bp_type p)).
Proof.
  intros dir p Hp. destruct (zdom_item dir _ Hp) as (E & _). unfold bp_size, bi_vol. rewrite E. destruct (bp_rot p); lia.
Qed.

(** From the axes of the search to those of the instance. *)
Lemma zdir_geometry : forall dir t ps, (t < length (bx_bins (zs_i s)))%nat -> bgeometry_ok (zinst s dir) (bxbin (zinst s dir) t) ps -> bgeometry_ok (zs_i s) (bxbin (zs_i s) t) (map (bswap_place dir) ps).
Proof. intros dir t ps Ht G. apply (bswap_geometry dir (zinst s dir) (zs_i s) (bswapped_sym _ _ _ (proj1 (zdom_flip dir)))); [rewrite (proj2 (zdom_lengths dir)); exact Ht|exact G]. Qed.

Lemma zdir_weight : forall dir ps, (forall p, In p ps -> (bp_type p < length (bx_items (zs_i s)))%nat) -> (bweight (zs_i s) (map (bswap_place dir) ps) == bweight (zinst s dir) ps)%Q.
Proof. intros dir ps H. apply (bswap_weight dir (zinst s dir) (zs_i s) (bswapped_sym _ _ _ (proj1 (zdom_flip dir)))). rewrite (proj1 (zdom_lengths dir)). exact H. Qed.

Lemma zdir_extent : forall dir a ps, (forall p, In p ps -> (bp_type p < length (bx_items (zs_i s)))%nat) -> extent (zs_i s) a (map (bswap_place dir) ps) = extent (zinst s dir) (other_axis dir a) ps.
Proof. intros dir a ps H. apply (bswap_extents dir (zinst s dir) (zs_i s) (bswapped_sym _ _ _ (proj1 (zdom_flip dir)))). rewrite (proj1 (zdom_lengths dir)). exact H. Qed.

Lemma zswap_AX : forall p, bswap_place AX p = p.
Proof. intros [t [x y z] []]; reflexivity. Qed.

Lemma zswap_map_AX : forall ps, map (bswap_place AX) ps = ps.
Proof. intros ps. rewrite <- (List.map_id ps) at 2. apply map_ext. apply zswap_AX. Qed.

Lemma zswap_inj : forall dir ps qs, map (bswap_place dir) ps = map (bswap_place dir) qs -> ps = qs.
Proof. intros dir ps qs H. apply (f_equal (map (bswap_place dir))) in H. rewrite !map_map, !(map_ext _ (fun a => a) (bswap_place_twice dir)), !List.map_id in H. exact H. Qed.

Lemma zdir_pen : forall dir t ps, (t < length (bx_bins (zs_i s)))%nat -> (dir = AX \/ bn_resources (bxbin (zs_i s) t) = []) -> (zpen (zs_i s) t (map (bswap_place dir) ps) == zpen (zinst s dir) t ps)%Q.
Proof.
  intros dir t ps Ht [->|E]; [rewrite zswap_map_AX; reflexivity|]. unfold zpen, bpenalties. cbn [xd_type xd_items]. rewrite E. destruct dir; [cbn [zinst]; rewrite E; reflexivity| |].
  - destruct (zdom_bin AY t Ht) as (_ & _ & _ & _ & R). rewrite (R ltac:(discriminate)). reflexivity.
  - destruct (zdom_bin AZ t Ht) as (_ & _ & _ & _ & R). rewrite (R ltac:(discriminate)). reflexivity.
Qed.
End Domain.
