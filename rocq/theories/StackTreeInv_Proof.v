(** * Invariant of the nodes of the boxstacks branching scheme *)

From Coq Require Import List ZArith QArith Bool Lia Lqa Arith Permutation.
From Verif Require Import Util Common_Model Common_Proof OneDim_Model OneDim_Proof Rect_Model RectFlip_Model RectTree_Model RectSky_Proof RectTree_Proof RectTreeNode_Proof
  Box_Model Stack_Model Stack_Spec Stack_Proof StackTree_Model StackTree_Spec StackSky_Proof StackTree_Proof StackTreeBin_Proof StackTreeNode_Proof.
Import ListNotations.
Open Scope Z_scope.

(** ** Builder calls *)

Lemma kb_run_app : forall i c1 c2 bins, kb_run i bins (c1 ++ c2) = match kb_run i bins c1 with Some b => kb_run i b c2 | None => None end.
Proof. intros i. induction c1 as [|c c1 IH]; intros c2 bins; [reflexivity|]. cbn [app kb_run]. destruct (kb_call i bins c); [apply IH|reflexivity]. Qed.

Lemma kdesc_run_app : forall c1 c2 ds, kdesc_run ds (c1 ++ c2) = kdesc_run (kdesc_run ds c1) c2.
Proof. induction c1 as [|c c1 IH]; intros c2 ds; [reflexivity|]. cbn [app kdesc_run]. destruct c; apply IH. Qed.

(** The calls are accepted and give [ds]. *)
Definition builds (i : KInstance) (calls : list KBuilderCall) (ds : list KDesc) : Prop := (exists bins, kb_run i [] calls = Some bins) /\ kdesc_run [] calls = ds.

Lemma builds_view : forall i calls ds bins, kb_run i [] calls = Some bins -> kdesc_run [] calls = ds -> map kview_bin bins = ds.
Proof. intros i calls ds bins H E. destruct (kb_run_spec i calls [] bins H) as [A _]; [intros b []|]. cbn [map] in A. congruence. Qed.

Lemma builds_snoc : forall i c1 c2 ds, builds i c1 ds -> (forall bins, map kview_bin bins = ds -> exists bins', kb_run i bins c2 = Some bins') -> builds i (c1 ++ c2) (kdesc_run ds c2).
Proof.
  intros i c1 c2 ds [(bins & R) E] H. destruct (H bins (builds_view _ _ _ _ R E)) as (bins' & R'). split; [exists bins'; rewrite kb_run_app, R; exact R'|]. rewrite kdesc_run_app, E. reflexivity.
Qed.

Lemma add_bins_desc : forall (f : nat -> nat) ks ds, kdesc_run ds (map (fun k => KAddBin (f k) 1) ks) = ds ++ map (fun k => mkKD (f k) 1 []) ks.
Proof. intros f. induction ks as [|k ks IH]; intros ds; [rewrite app_nil_r; reflexivity|]. cbn [map kdesc_run]. rewrite IH, <- app_assoc. reflexivity. Qed.

Lemma add_bins_run : forall i (f : nat -> nat) ks bins, (forall k, In k ks -> (f k < length (kx_bins i))%nat) -> exists bins', kb_run i bins (map (fun k => KAddBin (f k) 1) ks) = Some bins'.
Proof.
  intros i f. induction ks as [|k ks IH]; intros bins H; [exists bins; reflexivity|]. cbn [map kb_run kb_call]. unfold kb_add_bin, kin_range. cbn [forallb]. rewrite andb_true_r.
  destruct (Nat.ltb_spec (f k) (length (kx_bins i))) as [L|L]; [apply IH; intros j Hj; apply H; right; exact Hj|]. specialize (H k (or_introl eq_refl)). lia.
Qed.

Lemma rot_eqb_refl : forall r, rot_eqb r r = true.
Proof. destruct r; reflexivity. Qed.

Lemma add_stack_run : forall i bins pos x xe y ye, (pos < length bins)%nat -> exists bins', kb_run i bins [KAddStack pos x xe y ye] = Some bins'.
Proof. intros i bins pos x xe y ye H. cbn [kb_run kb_call]. unfold kb_add_stack. destruct (Nat.ltb_spec pos (length bins)); [eexists; reflexivity|lia]. Qed.

Lemma add_item_run : forall i bins pos k d q p, nth_error (map kview_bin bins) pos = Some d -> nth_error (kd_stacks d) k = Some q ->
  (fst p < length (kx_items i))%nat -> In (snd p) (ki_rotations (kitem i (fst p))) -> v_x (ksize i p) = sd_xe q - sd_x q -> v_y (ksize i p) = sd_ye q - sd_y q ->
  exists bins', kb_run i bins [KAddItem pos k p] = Some bins'.
Proof.
  intros i bins pos k d q p H1 H2 H3 H4 H5 H6. cbn [kb_run kb_call]. unfold kb_add_item. rewrite nth_error_map in H1. destruct (nth_error bins pos) as [b|]; [|discriminate]. cbn in H1. injection H1 as <-.
  cbn [kview_bin kd_stacks] in H2. rewrite nth_error_map in H2. destruct (nth_error (kn_stacks b) k) as [w|]; [|discriminate]. cbn in H2. injection H2 as <-. cbn [kview_stack sd_x sd_xe sd_y sd_ye] in H5, H6.
  destruct (Nat.ltb_spec (fst p) (length (kx_items i))); [|lia]. assert (E : kcan_rotate (kitem i (fst p)) (snd p) = true) by (unfold kcan_rotate; apply existsb_exists; exists (snd p); split; [exact H4|apply rot_eqb_refl]).
  rewrite E, H5, H6, !Z.eqb_refl. cbn [andb]. eexists. reflexivity.
Qed.

(** ** Calls of a path *)

Definition vacc_step (acc : nat * nat * list (VKey * nat)) (e : VStep) : nat * nat * list (VKey * nat) :=
  let '(n, count, m) := acc in
  let n' := Nat.max n (vt_bins e) in
  let count := if (n <? vt_bins e)%nat then 0%nat else count in
  let key := ((n' - 1)%nat, vt_x e, vt_y e) in
  (n', if vt_new e then S count else count, if vt_new e then (key, count) :: m else m).

Lemma vpath_calls_snoc : forall s path e n count m,
  vpath_calls s n count m (path ++ [e]) = vpath_calls s n count m path ++ (let '(n', count', m') := fold_left vacc_step path (n, count, m) in vpath_calls s n' count' m' [e]).
Proof.
  intros s path e. induction path as [|a path IH]; intros n count m; [reflexivity|]. cbn [app fold_left]. change (vpath_calls s n count m (a :: path ++ [e])) with
    (map (fun k => KAddBin (nth k (vbins (vs_i s)) 0%nat) 1) (seq n (vt_bins a - n))
      ++ (if vt_new a then [if vt_dir a
                then KAddStack (Nat.max n (vt_bins a) - 1) (vt_y a) (vt_y a + v_y (ksize (vinst s (vt_dir a)) (vt_item a))) (vt_x a) (vt_x a + v_x (ksize (vinst s (vt_dir a)) (vt_item a)))
                else KAddStack (Nat.max n (vt_bins a) - 1) (vt_x a) (vt_x a + v_x (ksize (vinst s (vt_dir a)) (vt_item a))) (vt_y a) (vt_y a + v_y (ksize (vinst s (vt_dir a)) (vt_item a)))]
          else [])
      ++ KAddItem (Nat.max n (vt_bins a) - 1) (vlookup (if vt_new a then (((Nat.max n (vt_bins a) - 1)%nat, vt_x a, vt_y a), if (n <? vt_bins a)%nat then 0%nat else count) :: m else m) ((Nat.max n (vt_bins a) - 1)%nat, vt_x a, vt_y a)) (vt_item a)
      :: vpath_calls s (Nat.max n (vt_bins a)) (if vt_new a then S (if (n <? vt_bins a)%nat then 0%nat else count) else if (n <? vt_bins a)%nat then 0%nat else count)
           (if vt_new a then (((Nat.max n (vt_bins a) - 1)%nat, vt_x a, vt_y a), if (n <? vt_bins a)%nat then 0%nat else count) :: m else m) (path ++ [e])).
  rewrite IH. cbn [vacc_step vpath_calls]. rewrite <- !app_assoc. cbn [app]. reflexivity.
Qed.

Lemma vlookup_front : forall k v m, vlookup ((k, v) :: m) k = v.
Proof. intros [[p x] y] v m. cbn [vlookup vkey_eqb]. rewrite Nat.eqb_refl, !Z.eqb_refl. reflexivity. Qed.
Lemma vlookup_other : forall p x y v m x' y', (x', y') <> (x, y) -> vlookup (((p, x, y), v) :: m) (p, x', y') = vlookup m (p, x', y').
Proof.
  intros p x y v m x' y' H. cbn [vlookup vkey_eqb]. destruct (Z.eqb_spec x x') as [->|]; [|rewrite andb_false_r; reflexivity]. destruct (Z.eqb_spec y y') as [->|]; [contradiction|]. rewrite andb_false_r. reflexivity.
Qed.

(** ** Invariant *)

Section Inv.
Variable s : VScheme.
Hypothesis Hd : vdomain s.
Notation i := (vs_i s).
Notation bin_at k := (nth k (vbins (vs_i s)) 0%nat).

Record VNodeInv (n : VNode) (ds : list KDesc) : Prop := {
  vv_builds : builds i (vcalls s n) ds;
  vv_len : length ds = vn_bins n;
  vv_bound : (vn_bins n <= length (vbins i))%nat;
  vv_types : map kd_type ds = firstn (vn_bins n) (vbins i);
  vv_one : forall d, In d ds -> kd_copies d = 1;
  vv_ok : forall d, In d ds -> vbin_ok i (vs_unloading s) d;
  vv_last : (vn_bins n = 0%nat /\ ds = [] /\ n = vroot s)
    \/ exists pre st m, let t := bin_at (vn_bins n - 1)%nat in
       vn_bins n <> 0%nat /\ ds = pre ++ [mkKD t 1 (map (orient (vn_dir n)) st)] /\ VState (vinst s (vn_dir n)) (vunloading s (vn_dir n)) t n st
       /\ fold_left vacc_step (vn_path n) (0%nat, 0%nat, []) = (vn_bins n, length st, m)
       /\ (forall k q, nth_error st k = Some q -> vlookup m ((vn_bins n - 1)%nat, sd_x q, sd_y q) = k)
       /\ vn_current n = vprevious i (vn_bins n - 1) + vpieces_volume (v_z (kb_box (kbin (vinst s (vn_dir n)) t))) (vn_pieces n);
  vv_current : vn_current n <= vprevious i (vn_bins n);
  vv_copies_len : length (vn_copies n) = length (kx_items i);
  vv_copies : forall x, (x < length (kx_items i))%nat -> nth x (vn_copies n) 0 = kpacked x ds /\ kpacked x ds <= ki_copies (kitem i x);
  vv_items : vn_items n = zsum (fun d => Z.of_nat (length (kd_items d))) ds;
  vv_volume : vn_volume n = zsum (packed_volume i) ds;
  vv_profit : (vn_profit n == qsum (fun d => qsum (kprofit i) (kd_items d)) ds)%Q;
  vv_lengths : VLengths s n;
  vv_waste : vn_waste n = vn_current n - vn_volume n;
  vv_waste0 : 0 <= vn_waste n;
  vv_dir : dir_allowed s (vn_dir n)
}.

Lemma vroot_inv : VNodeInv (vroot s) [].
Proof.
  constructor; cbn [vroot vn_path vn_bins vn_copies vn_items vn_volume vn_current vn_waste vn_profit vn_dir]; try reflexivity; try (intros d []; fail); try lia.
  - split; [exists []; reflexivity|reflexivity].
  - left. auto.
  - apply repeat_length.
  - intros x Hx. rewrite nth_repeat. split; [reflexivity|]. destruct (vd_items s Hd (kitem i x) (nth_In _ _ Hx)) as (_ & _ & _ & H). change (kpacked x []) with 0. lia.
  - constructor; apply repeat_length.
  - intros E. discriminate.
Qed.

(** What never decreases. *)
Record VNodeStep (n n' : VNode) : Prop := {
  vs_items : vn_items n' = vn_items n + 1;
  vs_bins : (vn_bins n <= vn_bins n')%nat;
  vs_same : vn_bins n' = vn_bins n -> vn_dir n' = vn_dir n /\ vn_xe_max n <= vn_xe_max n';
  vs_waste : vn_waste n <= vn_waste n'
}.

Lemma vol_nonneg : forall t, (t < length (kx_bins i))%nat -> 0 <= vol (kb_box (kbin i t)).
Proof. intros t Ht. destruct (vdom_bin s Hd false t Ht) as (A & B & C & _). cbn [vinst] in *. unfold vol. nia. Qed.

(** The calls that open the bins up to position [k]. *)
Lemma inv_open : forall n ds k, VNodeInv n ds -> (vn_bins n <= S k)%nat -> (k < length (vbins i))%nat ->
  let ds1 := ds ++ map (fun k => mkKD (bin_at k) 1 []) (seq (vn_bins n) (S k - vn_bins n)) in
  builds i (vcalls s n ++ map (fun k => KAddBin (bin_at k) 1) (seq (vn_bins n) (S k - vn_bins n))) ds1
  /\ length ds1 = S k /\ map kd_type ds1 = firstn (S k) (vbins i) /\ (forall d, In d ds1 -> kd_copies d = 1) /\ (forall d, In d ds1 -> vbin_ok i (vs_unloading s) d)
  /\ (forall (f : KDesc -> Z), (forall t, f (mkKD t 1 []) = 0) -> zsum f ds1 = zsum f ds) /\ (forall (f : KDesc -> Q), (forall t, f (mkKD t 1 []) == 0)%Q -> (qsum f ds1 == qsum f ds)%Q).
Proof.
  intros n ds k NI Hk Hlen. cbv zeta. set (ks := seq (vn_bins n) (S k - vn_bins n)).
  assert (Hks : forall j, In j ks -> (vn_bins n <= j < length (vbins i))%nat) by (intros j Hj; apply in_seq in Hj; lia).
  split; [|split; [|split; [|split; [|split; [|split]]]]].
  - rewrite <- (add_bins_desc (fun k => bin_at k)). apply builds_snoc; [apply (vv_builds n ds NI)|]. intros bins _. apply add_bins_run. intros j Hj. apply vbins_nth. apply Hks, Hj.
  - rewrite app_length, map_length, (vv_len n ds NI). unfold ks. rewrite seq_length. lia.
  - rewrite map_app, (vv_types n ds NI), map_map. cbn [kd_type]. unfold ks. clear ks Hks. 
    assert (G : forall c a, (a + c <= length (vbins i))%nat -> firstn a (vbins i) ++ map (fun k => bin_at k) (seq a c) = firstn (a + c) (vbins i)).
    { induction c as [|c IH]; intros a Ha; cbn [seq map]; [rewrite app_nil_r; f_equal; lia|]. rewrite (app_assoc _ [_] _ : firstn a (vbins i) ++ bin_at a :: map (fun k => bin_at k) (seq (S a) c) = (firstn a (vbins i) ++ [bin_at a]) ++ map (fun k => bin_at k) (seq (S a) c)).
      rewrite <- (firstn_succ_snoc _ _ _ _ (nth_error_nth' (vbins i) 0%nat (ltac:(lia) : (a < length (vbins i))%nat))). rewrite IH by lia. f_equal. lia. }
    rewrite G by lia. f_equal. lia.
  - intros d Hdd. apply in_app_or in Hdd. destruct Hdd as [Hdd|Hdd]; [apply (vv_one n ds NI), Hdd|]. apply in_map_iff in Hdd. destruct Hdd as (j & <- & _). reflexivity.
  - intros d Hdd. apply in_app_or in Hdd. destruct Hdd as [Hdd|Hdd]; [apply (vv_ok n ds NI), Hdd|]. apply in_map_iff in Hdd. destruct Hdd as (j & <- & _). apply vbin_empty.
  - intros f Hf. rewrite zsum_app, zsum_map. rewrite (zsum_ext _ (fun k => f (mkKD (bin_at k) 1 [])) (fun _ => 0)) by (intros; apply Hf). rewrite zsum_const. lia.
  - intros f Hf. rewrite qsum_app, qsum_map. rewrite (qsum_ext _ (fun k => f (mkKD (bin_at k) 1 [])) (fun _ => 0%Q)) by (intros; apply Hf). assert (Z0 : forall A (l : list A), (qsum (fun _ => 0%Q) l == 0)%Q) by (intros A; induction l as [|a l IH]; [reflexivity|rewrite qsum_cons, IH; ring]). rewrite Z0. ring.
Qed.

Lemma inv_root_current : forall n ds, VNodeInv n ds -> vn_bins n = 0%nat -> ds = [] /\ n = vroot s.
Proof. intros n ds NI E. destruct (vv_last n ds NI) as [(_ & A & B)|(pre & st & m & A & _)]; [auto|contradiction]. Qed.

Lemma packed_volume_dir : forall dir t st, dir_allowed s dir ->
  (forall q p, In q st -> In p (sd_items q) -> (fst p < length (kx_items i))%nat /\ In (snd p) (ki_rotations (kitem i (fst p)))) ->
  packed_volume i (mkKD t 1 (map (orient dir) st)) = zsum (fun q => base q * stack_height (vinst s dir) (sd_items q)) st.
Proof.
  intros dir t st Ha Hp. unfold packed_volume. cbn [kd_stacks]. rewrite zsum_map. apply zsum_ext. intros q Hq. rewrite orient_base, orient_items, (dir_height s Hd dir _ Ha (fun p H => Hp q p Hq H)). reflexivity.
Qed.

Lemma state_items : forall dir un t n st q p, VState (vinst s dir) un t n st -> In q st -> In p (sd_items q) -> (fst p < length (kx_items i))%nat /\ In (snd p) (ki_rotations (kitem i (fst p))).
Proof.
  intros dir un t n st q p VS Hq Hp. pose proof (vb_stacks _ _ _ (ve_ok _ _ _ _ _ VS) q Hq) as V. destruct (vk_item _ _ _ V p Hp) as (A & B & _). destruct (vdom_lengths s dir) as [L _]. rewrite L in A. destruct (vdom_item s dir (fst p)) as (_ & _ & _ & _ & E & _). rewrite E in B. auto.
Qed.

(** Both kinds of insertions: the last bin [st0] becomes [st1]. *)
Lemma inv_finish : forall n ds n' x r dir k isnew xs ys zj pre st0 st1 m1 calls2,
  VNodeInv n ds -> (vn_bins n <= S k)%nat -> (k < length (vbins i))%nat -> dir_allowed s dir ->
  ds ++ map (fun k => mkKD (bin_at k) 1 []) (seq (vn_bins n) (S k - vn_bins n)) = pre ++ [mkKD (bin_at k) 1 (map (orient dir) st0)] ->
  VChildStep s n n' x r dir k isnew xs ys zj -> VState (vinst s dir) (vunloading s dir) (bin_at k) n' st1 -> VLengths s n' ->
  (x < length (kx_items i))%nat -> nth x (vn_copies n) 0 <> ki_copies (kitem i x) ->
  vcalls s n' = (vcalls s n ++ map (fun k => KAddBin (bin_at k) 1) (seq (vn_bins n) (S k - vn_bins n))) ++ calls2 ->
  (forall bins, map kview_bin bins = pre ++ [mkKD (bin_at k) 1 (map (orient dir) st0)] -> exists bins', kb_run i bins calls2 = Some bins') ->
  kdesc_run (pre ++ [mkKD (bin_at k) 1 (map (orient dir) st0)]) calls2 = pre ++ [mkKD (bin_at k) 1 (map (orient dir) st1)] ->
  fold_left vacc_step (vn_path n') (0%nat, 0%nat, []) = (S k, length st1, m1) ->
  (forall j q, nth_error st1 j = Some q -> vlookup m1 (k, sd_x q, sd_y q) = j) ->
  (forall (f : nat * Rotation -> Z), zsum (fun q => zsum f (sd_items q)) st1 = zsum (fun q => zsum f (sd_items q)) st0 + f (x, r)) ->
  (forall (f : nat * Rotation -> Q), (qsum (fun q => qsum f (sd_items q)) st1 == qsum (fun q => qsum f (sd_items q)) st0 + f (x, r))%Q) ->
  zsum (fun q => base q * stack_height (vinst s dir) (sd_items q)) st1 = zsum (fun q => base q * stack_height (vinst s dir) (sd_items q)) st0
    + v_x (ksize (vinst s dir) (x, r)) * v_y (ksize (vinst s dir) (x, r)) * zj ->
  (forall q p, In q st0 -> In p (sd_items q) -> (fst p < length (kx_items i))%nat /\ In (snd p) (ki_rotations (kitem i (fst p)))) ->
  vn_waste n <= vn_waste n' ->
  VNodeInv n' (pre ++ [mkKD (bin_at k) 1 (map (orient dir) st1)]).
Proof.
  intros n ds n' x r dir k isnew xs ys zj pre st0 st1 m1 calls2 NI Hk Hlen Hal Eds [C1 C2 C3 C4 C5 C6 C7 C8 C9] VS VL Hx Hc Ecalls Hrun Hdesc Hacc Hlook Hzs Hqs Hvol Hit0 Hw.
  destruct (inv_open n ds k NI Hk Hlen) as (O1 & O2 & O3 & O4 & O5 & O6 & O7). rewrite Eds in O1, O2, O3, O4, O5, O6, O7.
  assert (Ht : (bin_at k < length (kx_bins i))%nat) by (apply vbins_nth, Hlen).
  assert (Hit1 : forall q p, In q st1 -> In p (sd_items q) -> (fst p < length (kx_items i))%nat /\ In (snd p) (ki_rotations (kitem i (fst p)))) by (intros q p Hq Hp; exact (state_items dir _ _ n' st1 q p VS Hq Hp)).
  assert (Fz : forall (f : nat * Rotation -> Z) t c st, zsum f (kd_items (mkKD t c (map (orient dir) st))) = zsum (fun q => zsum f (sd_items q)) st) by (intros f t c st; rewrite orient_kd_items; unfold kd_items; cbn [kd_stacks]; rewrite zsum_flat_map; reflexivity).
  assert (Fq : forall (f : nat * Rotation -> Q) t c st, (qsum f (kd_items (mkKD t c (map (orient dir) st))) == qsum (fun q => qsum f (sd_items q)) st)%Q).
  { intros f t c st. rewrite orient_kd_items. unfold kd_items. cbn [kd_stacks]. clear. induction st as [|a st IH]; [reflexivity|]. cbn [flat_map]. rewrite qsum_app, qsum_cons, IH. reflexivity. }
  assert (Hpk : forall y, kpacked y (pre ++ [mkKD (bin_at k) 1 (map (orient dir) st1)]) = kpacked y ds + (if Nat.eqb x y then 1 else 0)).
  { intros y. specialize (O6 (fun d => kd_copies d * kcount y (kd_items d)) (fun t => eq_refl)). unfold kpacked. rewrite zsum_snoc in O6. rewrite <- O6, zsum_snoc. cbn [kd_copies]. unfold kcount. rewrite !Fz, Hzs. cbn [fst]. lia. }
  assert (Htypes : map kd_type (pre ++ [mkKD (bin_at k) 1 (map (orient dir) st1)]) = firstn (S k) (vbins i)) by (rewrite <- O3, !map_app; reflexivity).
  constructor; rewrite ?C4.
  - rewrite Ecalls, <- Hdesc. apply builds_snoc; assumption.
  - rewrite app_length in *. exact O2.
  - lia.
  - exact Htypes.
  - intros d Hdd. apply in_snoc in Hdd. destruct Hdd as [Hdd| ->]; [apply O4, in_snoc; left; exact Hdd|reflexivity].
  - intros d Hdd. apply in_snoc in Hdd. destruct Hdd as [Hdd| ->]; [apply O5, in_snoc; left; exact Hdd|]. apply (dir_ok s Hd dir); [exact Hal|]. apply (ve_ok _ _ _ _ _ VS).
  - right. exists pre, st1, m1. cbv zeta. replace (S k - 1)%nat with k by lia. rewrite C2. split; [lia|]. split; [reflexivity|]. split; [exact VS|]. split; [exact Hacc|]. split; [exact Hlook|exact C7].
  - rewrite C7, vprevious_S by exact Hlen. destruct (vdom_bin s Hd dir _ Ht) as (B1 & B2 & B3 & B4). pose proof (vsky_volume_le _ _ _ _ _ _ _ (ve_sky _ _ _ _ _ VS) ltac:(lia)) as Q. rewrite <- B4. unfold vol. lia.
  - rewrite C3, upd_length. apply (vv_copies_len n ds NI).
  - intros y Hy. destruct (vv_copies n ds NI y Hy) as [E L]. rewrite C3, Hpk. destruct (Nat.eqb_spec x y) as [<-|N].
    + rewrite nth_upd_same by (rewrite (vv_copies_len n ds NI); exact Hx). lia.
    + rewrite nth_upd_other by exact N. lia.
  - rewrite C5, (vv_items n ds NI). specialize (O6 (fun d => Z.of_nat (length (kd_items d))) (fun t => eq_refl)). rewrite <- O6, !zsum_snoc.
    assert (Len : forall t c st, Z.of_nat (length (kd_items (mkKD t c (map (orient dir) st)))) = zsum (fun q => zsum (fun _ => 1) (sd_items q)) st) by (intros t c st; rewrite <- (Fz (fun _ => 1) t c st), zsum_const; lia).
    rewrite !Len, Hzs. lia.
  - rewrite C6, (vv_volume n ds NI). rewrite <- (O6 (packed_volume i) (fun t => eq_refl)), !zsum_snoc, !packed_volume_dir by assumption. lia.
  - rewrite C9, (vv_profit n ds NI). rewrite <- (O7 (fun d => qsum (kprofit i) (kd_items d)) (fun t => Qeq_refl _)). rewrite !qsum_snoc, !Fq, Hqs. unfold kprofit at 5. cbn [fst]. ring.
  - exact VL.
  - exact C8.
  - pose proof (vv_waste0 n ds NI). lia.
  - rewrite C2. exact Hal.
Qed.

Lemma far_snoc : forall t st p, far sd_xe (mkKD t 1 st) <= far sd_xe (mkKD t 1 (st ++ [p])).
Proof. intros t st p. unfold far. cbn [kd_stacks]. rewrite map_app. cbn [map]. rewrite fold_max_snoc. lia. Qed.
Lemma far_upd : forall t st j p, far sd_xe (mkKD t 1 (upd j (spush p) st)) = far sd_xe (mkKD t 1 st).
Proof. intros t st j p. unfold far. cbn [kd_stacks]. f_equal. rewrite (map_upd _ _ sd_xe (spush p) (fun z => z)) by reflexivity. generalize (map sd_xe st). clear. revert j. intros j l. revert j. induction l as [|a l IH]; intros [|j]; cbn; try reflexivity. rewrite IH. reflexivity. Qed.

Lemma inv_child_new : forall n ds x r new xs ys, VNodeInv n ds -> NewIns s n x r new xs ys ->
  exists n' ds', vchild s n (mkVI x r xs ys 0 None new) = Some n' /\ VNodeInv n' ds' /\ VNodeStep n n'.
Proof.
  intros n ds x r new xs ys NI N. pose proof (ni_new _ _ _ _ _ _ _ N) as Nn. pose proof (ni_item _ _ _ _ _ _ _ N) as (N1 & N2 & N3). pose proof (vv_bound n ds NI) as Hb.
  set (dir := vins_dir n new). set (k := vins_pos n new). 
  assert (Hlen : (k < length (vbins i))%nat) by (unfold k; destruct new as [[p d]|]; cbn [vins_pos]; lia).
  assert (Hk : (vn_bins n <= S k)%nat) by (unfold k; destruct new as [[p d]|]; cbn [vins_pos]; lia).
  assert (Hal : dir_allowed s dir). { unfold dir. destruct new as [[p d]|]; cbn [vins_dir]; [|apply (vv_dir n ds NI)]. destruct Nn as [_ ->]. intros E. unfold vnew_direction in E. destruct (vs_direction s) as [[|]|]; congruence. }
  (* the last bin before *)
  assert (PRE : exists pre st0 count m, ds ++ map (fun k => mkKD (bin_at k) 1 []) (seq (vn_bins n) (S k - vn_bins n)) = pre ++ [mkKD (bin_at k) 1 (map (orient dir) st0)] /\ length pre = k
    /\ match new with Some _ => st0 = [] | None => VState (vinst s dir) (vunloading s dir) (bin_at k) n st0 end
    /\ fold_left vacc_step (vn_path n) (0%nat, 0%nat, []) = (vn_bins n, count, m)
    /\ (if (vn_bins n <? S k)%nat then 0%nat else count) = length st0
    /\ (forall j q, nth_error st0 j = Some q -> vlookup m (k, sd_x q, sd_y q) = j)
    /\ vn_current n <= vprevious i k + vpieces_volume (v_z (kb_box (kbin (vinst s dir) (bin_at k)))) (vstart n new (v_y (kb_box (kbin (vinst s dir) (bin_at k)))))
    /\ (forall q p, In q st0 -> In p (sd_items q) -> (fst p < length (kx_items i))%nat /\ In (snd p) (ki_rotations (kitem i (fst p))))).
  { destruct new as [[p d]|].
    - assert (Ek : k = p) by reflexivity. rewrite Ek in *. clear k Ek. destruct Nn as [Np _].
      assert (ACC : exists count m, fold_left vacc_step (vn_path n) (0%nat, 0%nat, []) = (vn_bins n, count, m)).
      { destruct (vv_last n ds NI) as [(E1 & _ & E3)|(pre & st & m & _ & _ & _ & E & _)]; [subst n; exists 0%nat, []; reflexivity|eauto]. }
      destruct ACC as (count & m & ACC). exists (ds ++ map (fun k => mkKD (bin_at k) 1 []) (seq (vn_bins n) (p - vn_bins n))), [], count, m.
      split; [replace (S p - vn_bins n)%nat with (S (p - vn_bins n))%nat by lia; rewrite seq_S, map_app; cbn [map]; replace (vn_bins n + (p - vn_bins n))%nat with p by lia; rewrite app_assoc; reflexivity|].
      split; [rewrite app_length, map_length, seq_length, (vv_len n ds NI); lia|]. split; [reflexivity|]. split; [exact ACC|]. split; [destruct (Nat.ltb_spec (vn_bins n) (S p)); [reflexivity|lia]|]. split; [intros [|j] q Hq; discriminate|].
      split; [|intros q p0 []]. cbn [vstart]. change (vpieces_volume _ [vfree 0 _]) with (0 + 0). pose proof (vv_current n ds NI). pose proof (vprevious_mono i (vn_bins n) p (fun t Ht => vol_nonneg t Ht) ltac:(lia) ltac:(lia)). lia.
    - assert (Ek : S k = vn_bins n) by (unfold k; cbn [vins_pos]; lia). destruct (vv_last n ds NI) as [(E1 & _ & _)|(pre & st & m & E1 & E2 & E3 & E4 & E5 & E6)]; [contradiction|].
      change (vn_bins n - 1)%nat with k in *. exists pre, st, (length st), m. rewrite Ek, Nat.sub_diag. cbn [seq map]. rewrite app_nil_r.
      split; [exact E2|]. split; [pose proof (vv_len n ds NI) as L; rewrite E2, app_length in L; cbn [length] in L; lia|]. split; [exact E3|]. split; [exact E4|]. split; [rewrite Nat.ltb_irrefl; reflexivity|]. split; [exact E5|].
      split; [cbn [vstart]; unfold dir; cbn [vins_dir]; lia|]. intros q p Hq Hp. exact (state_items dir _ _ n st q p E3 Hq Hp). }
  destruct PRE as (pre & st0 & count & m & P1 & P2 & P3 & P4 & P5 & P6 & P7 & P8).
  destruct (step_new s Hd n x r new xs ys st0 N Hlen (vv_lengths n ds NI) P3) as (n' & S1 & S2 & S3 & S4 & S5 & S6). fold dir k in S1, S2, S3, S5, S6.
  pose proof S3 as [C1 C2 C3 C4 C5 C6 C7 C8 C9]. set (size := ksize (vinst s dir) (x, r)) in *. set (p := mkKSD xs (xs + v_x size) ys (ys + v_y size) [(x, r)]) in *.
  assert (Hw : vn_waste n <= vn_waste n') by (rewrite C8, (vv_waste n ds NI), C6, C7; fold size; lia).
  assert (Ecount : (match new with Some _ => 0%nat | None => length st0 end) = length st0) by (destruct new; [subst st0; reflexivity|reflexivity]).
  exists n', (pre ++ [mkKD (bin_at k) 1 (map (orient dir) (st0 ++ [p]))]). split; [exact S1|]. split.
  - apply (inv_finish n ds n' x r dir k true xs ys (v_z size) pre st0 (st0 ++ [p]) (((k, xs, ys), length st0) :: m)
      [if dir then KAddStack k ys (ys + v_y size) xs (xs + v_x size) else KAddStack k xs (xs + v_x size) ys (ys + v_y size); KAddItem k (length st0) (x, r)]); try assumption.
    + unfold vcalls. rewrite C1, vpath_calls_snoc, P4. cbn [vpath_calls vt_bins vt_dir vt_new vt_item vt_x vt_y]. rewrite Nat.max_r by exact Hk. replace (S k - 1)%nat with k by lia. rewrite P5, vlookup_front. fold size. cbn [app]. rewrite <- app_assoc. reflexivity.
    + intros bins Hv. set (c := if dir then _ else _). change [c; KAddItem k (length st0) (x, r)] with ([c] ++ [KAddItem k (length st0) (x, r)]). rewrite kb_run_app.
      assert (Lb : (k < length bins)%nat) by (rewrite <- (map_length kview_bin), Hv, app_length, P2; cbn [length]; lia).
      assert (R : exists b1, kb_run i bins [c] = Some b1 /\ map kview_bin b1 = pre ++ [mkKD (bin_at k) 1 (map (orient dir) (st0 ++ [mkKSD xs (xs + v_x size) ys (ys + v_y size) []]))]).
      { assert (U : forall a b c0 d0, map kview_bin (upd k (fun b0 => kraw_bin (kn_type b0) (kn_copies b0) (kn_stacks b0 ++ [kraw_stack a b c0 d0 []])) bins) = pre ++ [mkKD (bin_at k) 1 (map (orient dir) st0 ++ [mkKSD a b c0 d0 []])]).
        { intros a b c0 d0. rewrite (map_upd _ _ kview_bin _ (fun d => mkKD (kd_type d) (kd_copies d) (kd_stacks d ++ [mkKSD a b c0 d0 []]))) by (intros b0; unfold kview_bin, kraw_bin; cbn; rewrite map_app; reflexivity). rewrite Hv, <- P2, upd_snoc. reflexivity. }
        unfold c. rewrite map_app. cbn [map orient]. destruct dir; cbn [kb_run kb_call sd_x sd_xe sd_y sd_ye sd_items]; unfold kb_add_stack; (destruct (Nat.ltb_spec k (length bins)) as [_|]; [|lia]); eexists; (split; [reflexivity|apply U]). }
      destruct R as (b1 & R1 & R2). rewrite R1. apply (add_item_run i b1 k (length st0) (mkKD (bin_at k) 1 (map (orient dir) (st0 ++ [mkKSD xs (xs + v_x size) ys (ys + v_y size) []]))) (orient dir (mkKSD xs (xs + v_x size) ys (ys + v_y size) []))).
      * rewrite R2, <- P2. apply nth_error_snoc.
      * cbn [kd_stacks]. rewrite map_app. cbn [map]. rewrite <- (map_length (orient dir) st0). apply nth_error_snoc.
      * exact N1.
      * exact N2.
      * pose proof (dir_size s Hd dir x r Hal N1 N2) as E. fold size in E. rewrite E. destruct dir; cbn; lia.
      * pose proof (dir_size s Hd dir x r Hal N1 N2) as E. fold size in E. rewrite E. destruct dir; cbn; lia.
    + assert (G : forall a b c0 d0, kdesc_run (pre ++ [mkKD (bin_at k) 1 (map (orient dir) st0)]) [KAddStack k a b c0 d0; KAddItem k (length st0) (x, r)] = pre ++ [mkKD (bin_at k) 1 (map (orient dir) st0 ++ [mkKSD a b c0 d0 [(x, r)]])]).
      { intros a b c0 d0. cbn [kdesc_run]. rewrite <- P2, upd_snoc, upd_snoc. cbn [kd_type kd_copies kd_stacks]. rewrite <- (map_length (orient dir) st0) at 1. rewrite upd_snoc. reflexivity. }
      rewrite map_app. cbn [map]. destruct dir; rewrite G; reflexivity.
    + rewrite C1, fold_left_app, P4. cbn [fold_left vacc_step vt_bins vt_new vt_x vt_y]. rewrite Nat.max_r by exact Hk. replace (S k - 1)%nat with k by lia. rewrite P5, app_length. cbn [length]. rewrite Nat.add_1_r. reflexivity.
    + intros j q Hj. destruct (Nat.eq_dec j (length st0)) as [->|Nj].
      * rewrite nth_error_snoc in Hj. injection Hj as <-. cbn [p sd_x sd_y]. apply vlookup_front.
      * assert (Hj' : nth_error st0 j = Some q). { pose proof (nth_error_lt _ _ _ _ Hj) as L. rewrite app_length in L. cbn [length] in L. rewrite nth_error_app1 in Hj by lia. exact Hj. }
        rewrite vlookup_other; [apply P6, Hj'|]. apply S5. eapply nth_error_In. exact Hj'.
    + intros f. rewrite zsum_snoc. cbn [p sd_items]. rewrite zsum_cons, zsum_nil. lia.
    + intros f. rewrite qsum_snoc. cbn [p sd_items]. rewrite qsum_cons. change (qsum f []) with 0%Q. ring.
    + rewrite zsum_snoc. assert (Eb : base p = v_x size * v_y size) by (unfold base, p; cbn [sd_x sd_xe sd_y sd_ye]; ring). rewrite Eb. cbn [p sd_items]. fold size. assert (Eh : stack_height (vinst s dir) [(x, r)] = v_z size) by (unfold stack_height; cbn [tl]; rewrite zsum_cons, !zsum_nil; unfold kheight, size, ksize; cbn [fst snd]; lia). rewrite Eh. ring.
  - constructor.
    + exact C5.
    + rewrite C4. exact Hk.
    + intros E. rewrite C4 in E. rewrite C2. destruct new as [[q d]|]; [exfalso; unfold k in E; cbn [vins_pos] in E; lia|]. split; [reflexivity|].
      rewrite (ve_xe _ _ _ _ _ S2), (ve_xe _ _ _ _ _ P3). apply far_snoc.
    + exact Hw.
Qed.

Lemma inv_child_above : forall n ds x r k u, VNodeInv n ds -> AboveIns s n x r k u ->
  exists n' ds', vchild s n (mkVI x r (vp_xs u) (vp_ys u) (vp_ze u) (Some k) None) = Some n' /\ VNodeInv n' ds' /\ VNodeStep n n'.
Proof.
  intros n ds x r k0 u NI A. pose proof (ai_item _ _ _ _ _ _ A) as (N1 & N2 & N3). pose proof (ai_bins _ _ _ _ _ _ A) as Hb0. pose proof (vv_bound n ds NI) as Hb.
  destruct (vv_last n ds NI) as [(E1 & _ & _)|(pre & st & m & E1 & E2 & E3 & E4 & E5 & E6)]; [contradiction|].
  set (dir := vn_dir n) in *. set (k := (vn_bins n - 1)%nat) in *. assert (Hlen : (k < length (vbins i))%nat) by lia. assert (Ek : S k = vn_bins n) by lia. pose proof (vv_dir n ds NI) as Hal. fold dir in Hal.
  destruct (step_above s Hd n x r k0 u st A Hb (vv_lengths n ds NI) Hal E3) as (n' & j & d & S1 & S2 & S3 & S4 & S5 & S6 & S7 & S8 & S9 & S10). fold dir k in S1, S5, S6, S7, S8, S10.
  pose proof S8 as [C1 C2 C3 C4 C5 C6 C7 C8 C9]. set (size := ksize (vinst s dir) (x, r)) in *. set (zj := v_z size - ki_nesting (kitem (vinst s dir) x)) in *.
  assert (Hw : vn_waste n <= vn_waste n') by (rewrite C8, (vv_waste n ds NI), C6, C7, E6, S10; fold size zj; lia).
  assert (Hne : sd_items d <> []). { pose proof (vb_stacks _ _ _ (ve_ok _ _ _ _ _ E3) d (nth_error_In _ _ S2)) as V. apply (vk_ne _ _ _ V). }
  exists n', (pre ++ [mkKD (bin_at k) 1 (map (orient dir) (upd j (spush (x, r)) st))]). split; [exact S1|]. 
  assert (Lpre : length pre = k). { pose proof (vv_len n ds NI) as L. rewrite E2, app_length in L. cbn [length] in L. lia. }
  split.
  - apply (inv_finish n ds n' x r dir k false (vp_xs u) (vp_ys u) zj pre st (upd j (spush (x, r)) st) m [KAddItem k j (x, r)]); try assumption.
    + lia.
    + rewrite Ek, Nat.sub_diag. cbn [seq map]. rewrite app_nil_r. exact E2.
    + unfold vcalls. rewrite C1, vpath_calls_snoc, E4. cbn [vpath_calls vt_bins vt_dir vt_new vt_item vt_x vt_y]. rewrite Ek, Nat.max_id, Nat.sub_diag. fold k. cbn [seq map app]. rewrite app_nil_r. rewrite <- S3, <- S4, (E5 j d S2). reflexivity.
    + intros bins Hv. apply (add_item_run i bins k j (mkKD (bin_at k) 1 (map (orient dir) st)) (orient dir d)).
      * rewrite Hv, <- Lpre. apply nth_error_snoc.
      * cbn [kd_stacks]. rewrite nth_error_map, S2. reflexivity.
      * exact N1.
      * exact N2.
      * pose proof (dir_size s Hd dir x r Hal N1 N2) as E. fold size in E. rewrite E in S5, S6. destruct dir; cbn in *; lia.
      * pose proof (dir_size s Hd dir x r Hal N1 N2) as E. fold size in E. rewrite E in S5, S6. destruct dir; cbn in *; lia.
    + cbn [kdesc_run]. rewrite <- Lpre, upd_snoc. cbn [kd_type kd_copies kd_stacks]. rewrite (map_upd _ _ (orient dir) (spush (x, r)) (fun q => mkKSD (sd_x q) (sd_xe q) (sd_y q) (sd_ye q) (sd_items q ++ [(x, r)]))); [reflexivity|]. intros q. destruct dir; reflexivity.
    + rewrite C1, fold_left_app, E4. cbn [fold_left vacc_step vt_bins vt_new vt_x vt_y]. rewrite Ek, Nat.max_id, Nat.ltb_irrefl, upd_length. reflexivity.
    + intros j' q Hj'. rewrite nth_error_upd_f in Hj'. destruct (Nat.eqb_spec j j') as [<-|Nj]; [|apply E5, Hj']. rewrite S2 in Hj'. cbn in Hj'. injection Hj' as <-. cbn [sd_x sd_y]. apply (E5 j d S2).
    + intros f. rewrite (zsum_upd _ _ _ _ _ _ S2). cbn [spush sd_items]. rewrite zsum_snoc. lia.
    + intros f. rewrite (qsum_upd _ _ _ _ _ _ S2). cbn [spush sd_items]. rewrite qsum_snoc. ring.
    + rewrite (zsum_upd _ _ _ _ _ _ S2). cbn [spush sd_items]. rewrite stack_height_snoc. change (base (spush (x, r) d)) with (base d). destruct (sd_items d) as [|a b] eqn:Ed; [contradiction|]. rewrite <- Ed. fold size. unfold base. rewrite <- S5, <- S6. change (kheight (vinst s dir) (x, r)) with (v_z size). unfold zj. cbn [fst]. ring.
    + intros q p Hq Hp. exact (state_items dir _ _ n st q p E3 Hq Hp).
  - constructor.
    + exact C5.
    + rewrite C4. lia.
    + intros _. rewrite C2. split; [reflexivity|]. rewrite (ve_xe _ _ _ _ _ S7), (ve_xe _ _ _ _ _ E3), far_upd. lia.
    + exact Hw.
Qed.

Lemma inv_pieces : forall n ds, VNodeInv n ds -> forall u, In u (vn_pieces n) -> 0 <= vp_xe u /\ 0 <= vp_ys u /\ vp_ys u < vp_ye u.
Proof.
  intros n ds NI u Hu. destruct (vv_last n ds NI) as [(_ & _ & E)|(pre & st & m & E1 & E2 & E3 & _)]; [subst n; destruct Hu|]. pose proof (ve_sky _ _ _ _ _ E3) as K. destruct (vtiles_in _ _ _ _ (vy_tiles _ _ _ _ _ _ _ K) Hu) as (A & B & C). pose proof (vy_xe _ _ _ _ _ _ _ K u Hu). lia.
Qed.

Lemma inv_child : forall n ds l ins, VNodeInv n ds -> vinsertions s n = Some l -> In ins l -> exists n' ds', vchild s n ins = Some n' /\ VNodeInv n' ds' /\ VNodeStep n n'.
Proof.
  intros n ds l ins NI Hl Hin. destruct (vinsertions_case s Hd n (inv_pieces n ds NI) l ins Hl Hin (vv_bound n ds NI)) as [x r new xs ys -> N|x r k u -> A]; [exact (inv_child_new n ds x r new xs ys NI N)|exact (inv_child_above n ds x r k u NI A)].
Qed.

Lemma below_inv : forall n ds m, VNodeInv n ds -> vbelow s n m -> (exists ds', VNodeInv m ds') /\ vn_waste n <= vn_waste m /\ (vn_bins n <= vn_bins m)%nat /\ vn_items n <= vn_items m.
Proof.
  intros n ds m NI H. induction H as [|m l ins m' H IH Hl Hin Hc]; [split; [exists ds; exact NI|lia]|]. destruct IH as ((dsm & NM) & IH1 & IH2 & IH3).
  destruct (inv_child m dsm l ins NM Hl Hin) as (m2 & ds2 & Em & NI2 & [T1 T2 _ T4]). assert (m2 = m') by congruence. subst m2. split; [exists ds2; exact NI2|lia].
Qed.

Lemma reachable_inv : forall n, vreachable s n -> exists ds, VNodeInv n ds.
Proof. intros n H. exact (proj1 (below_inv _ _ _ vroot_inv H)). Qed.

End Inv.
