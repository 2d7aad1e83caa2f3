(** * C61, C62: the boxstacks branching scheme *)

From Coq Require Import List ZArith QArith Bool Lia Lqa Arith Permutation.
From Verif Require Import Util Common_Model Common_Spec Common_Proof OneDim_Model OneDim_Proof Rect_Model RectSol_Spec RectFlip_Model RectTree_Model
  Box_Model Stack_Model Stack_Spec Stack_Proof Stack_Props StackTree_Model StackTree_Spec StackSky_Proof StackTree_Proof StackTreeBin_Proof StackTreeNode_Proof StackTreeInv_Proof StackTreeBound_Proof.
Import ListNotations.
Open Scope Z_scope.

(** ** Checks of the domain by computation *)

Definition orientations (i : KInstance) : list (nat * Rotation) :=
  flat_map (fun x => map (fun r => (x, r)) (ki_rotations (kitem i x))) (seq 0 (length (kx_items i))).
Definition same_basesb (i : KInstance) : bool :=
  forallb (fun p => forallb (fun q =>
    negb ((ki_stackability (kitem i (fst p)) =? ki_stackability (kitem i (fst q))) && (item_group i p =? item_group i q)%nat)
    || Bool.eqb (v_x (item_size i p) =? v_x (item_size i q)) (v_y (item_size i p) =? v_y (item_size i q)))
    (orientations i)) (orientations i).
Definition uprightb (r : Rotation) : bool := match r with XYZ | YXZ => true | _ => false end.
Definition vdomainb (s : VScheme) : bool :=
  let i := vs_i s in
  forallb (fun it => (0 <? v_x (ki_box it)) && (0 <? v_y (ki_box it)) && (0 <? v_z (ki_box it)) && (0 <=? ki_copies it)) (kx_items i)
  && forallb (fun bt => (0 <? v_x (kb_box bt)) && (0 <? v_y (kb_box bt)) && (0 <? v_z (kb_box bt))
       && forallb (fun f => (0 <=? df_x f + df_lx f) && (0 <=? df_y f + df_ly f)) (kb_defects bt)) (kx_bins i)
  && same_basesb i
  && match vs_direction s with Some false => true | _ => forallb (fun it => forallb uprightb (ki_rotations it)) (kx_items i) end.

Lemma same_basesb_ok : forall i, same_basesb i = true -> same_bases i.
Proof.
  intros i H p q Hp Hq Rp Rq Es Eg. unfold same_basesb in H. rewrite forallb_forall in H.
  assert (O : forall p, (fst p < length (kx_items i))%nat -> In (snd p) (ki_rotations (kitem i (fst p))) -> In p (orientations i)).
  { intros [x r] Hx Hr. apply in_flat_map. exists x. split; [apply in_seq; cbn in Hx; lia|]. apply in_map_iff. exists r. split; [reflexivity|exact Hr]. }
  specialize (H p (O p Hp Rp)). rewrite forallb_forall in H. specialize (H q (O q Hq Rq)). rewrite Es, Z.eqb_refl, Eg, Nat.eqb_refl in H. cbn [andb negb orb] in H. apply eqb_prop in H.
  destruct (Z.eqb_spec (v_x (item_size i p)) (v_x (item_size i q))), (Z.eqb_spec (v_y (item_size i p)) (v_y (item_size i q))); try discriminate; tauto.
Qed.

Lemma vdomainb_ok : forall s, vdomainb s = true -> vdomain s.
Proof.
  intros s H. unfold vdomainb in H. rewrite !andb_true_iff, !forallb_forall in H. destruct H as (((H1 & H2) & H3) & H4). constructor.
  - intros it Hit. specialize (H1 it Hit). rewrite !andb_true_iff, !Z.ltb_lt, Z.leb_le in H1. tauto.
  - intros bt Hbt. specialize (H2 bt Hbt). rewrite !andb_true_iff, !Z.ltb_lt in H2. tauto.
  - intros bt f Hbt Hf. specialize (H2 bt Hbt). rewrite !andb_true_iff, forallb_forall in H2. destruct H2 as [_ H2]. specialize (H2 f Hf). rewrite andb_true_iff, !Z.leb_le in H2. exact H2.
  - apply same_basesb_ok, H3.
  - destruct (vs_direction s) as [[|]|]; [right|left; reflexivity|right]; intros it r Hit Hr; rewrite forallb_forall in H4; specialize (H4 it Hit); rewrite forallb_forall in H4; specialize (H4 r Hr); unfold upright; destruct r; try discriminate; auto.
Qed.

(** Nodes by choice of insertions; all the nodes below a node. *)
Fixpoint vwalk (s : VScheme) (n : VNode) (ks : list nat) : option VNode :=
  match ks with
  | [] => Some n
  | k :: rest =>
      match vinsertions s n with
      | Some l => match nth_error l k with Some ins => match vchild s n ins with Some m => vwalk s m rest | None => None end | None => None end
      | None => None
      end
  end.

Lemma vbelow_trans : forall s a b c, vbelow s a b -> vbelow s b c -> vbelow s a c.
Proof. intros s a b c H1 H2. induction H2 as [|m l ins m' H IH Hl Hin Hc]; [exact H1|]. exact (vbelow_child s a m l ins m' IH Hl Hin Hc). Qed.

Lemma vbelow_first : forall s n l ins c m, vinsertions s n = Some l -> In ins l -> vchild s n ins = Some c -> vbelow s c m -> vbelow s n m.
Proof. intros s n l ins c m Hl Hin Hc H. eapply vbelow_trans; [|exact H]. exact (vbelow_child s n n l ins c (vbelow_refl s n) Hl Hin Hc). Qed.

Lemma vwalk_below : forall s ks n m, vwalk s n ks = Some m -> vbelow s n m.
Proof.
  induction ks as [|k ks IH]; intros n m H; cbn [vwalk] in H; [injection H as <-; constructor|]. destruct (vinsertions s n) as [l|] eqn:El; [|discriminate]. destruct (nth_error l k) as [ins|] eqn:Ek; [|discriminate]. destruct (vchild s n ins) as [c|] eqn:Ec; [|discriminate].
  eapply vbelow_first; [exact El|exact (nth_error_In _ _ Ek)|exact Ec|apply IH, H].
Qed.

Fixpoint vexplore (fuel : nat) (s : VScheme) (n : VNode) : option (list VNode) :=
  match fuel with
  | O => None
  | S fuel =>
      match vinsertions s n with
      | None => Some [n]
      | Some l =>
          option_map (cons n) (oconcat (map (fun ins => match vchild s n ins with Some c => vexplore fuel s c | None => Some [] end) l))
      end
  end.

Lemma vbelow_cases : forall s n m, vbelow s n m -> m = n \/ exists l ins c, vinsertions s n = Some l /\ In ins l /\ vchild s n ins = Some c /\ vbelow s c m.
Proof.
  intros s n m H. induction H as [|m l ins m' H IH Hl Hin Hc]; [left; reflexivity|right]. destruct IH as [->|(l0 & ins0 & c & A & B & C & D)].
  - exists l, ins, m'. repeat split; try assumption. constructor.
  - exists l0, ins0, c. repeat split; try assumption. exact (vbelow_child s c m l ins m' D Hl Hin Hc).
Qed.

Lemma vexplore_all : forall fuel s n l, vexplore fuel s n = Some l -> forall m, vbelow s n m -> In m l.
Proof.
  induction fuel as [|fuel IH]; intros s n l H m Hm; cbn [vexplore] in H; [discriminate|]. destruct (vinsertions s n) as [li|] eqn:El.
  - destruct (oconcat _) as [rest|] eqn:Er; [|discriminate]. cbn [option_map] in H. injection H as <-. destruct (vbelow_cases s n m Hm) as [->|(l0 & ins & c & A & B & C & D)]; [left; reflexivity|right]. rewrite El in A. injection A as <-.
    clear El. revert rest Er. induction li as [|i0 li IHl]; intros rest Er; [destruct B|]. cbn [map oconcat] in Er. destruct B as [->|B].
    + rewrite C in Er. destruct (vexplore fuel s c) as [a|] eqn:Ea; [|discriminate]. destruct (oconcat (map _ li)) as [b|]; [|discriminate]. injection Er as <-. apply in_or_app. left. apply (IH s c a Ea m D).
    + destruct (match vchild s n i0 with Some c0 => vexplore fuel s c0 | None => Some [] end) as [a|]; [|discriminate]. destruct (oconcat (map _ li)) as [b|] eqn:Eb; [|discriminate]. injection Er as <-. apply in_or_app. right. apply (IHl B b eq_refl).
  - injection H as <-. destruct (vbelow_cases s n m Hm) as [->|(l0 & ins & c & A & _)]; [left; reflexivity|]. congruence.
Qed.

Lemma vexplore_forall : forall s fuel (P : VNode -> bool), option_map (forallb P) (vexplore fuel s (vroot s)) = Some true -> forall n, vreachable s n -> P n = true.
Proof.
  intros s fuel P H n Hn. destruct (vexplore fuel s (vroot s)) as [l|] eqn:E; [|discriminate]. cbn [option_map] in H. injection H as H. rewrite forallb_forall in H. apply H, (vexplore_all _ _ _ _ E n Hn).
Qed.

(** Node reached by the choices [ks] of insertions. *)
Definition vthe_node (s : VScheme) (ks : list nat) : VNode := match vwalk s (vroot s) ks with Some n => n | None => vroot s end.
Ltac vdom := apply vdomainb_ok; vm_compute; reflexivity.
Ltac vwalk ks := apply (vwalk_below _ ks); vm_compute; reflexivity.

(** The bins of a node, as the solution builder gets them. *)
Definition vbuilt (s : VScheme) (n : VNode) (ds : list KDesc) : Prop := exists bins, kb_run (vs_i s) [] (vcalls s n) = Some bins /\ map kview_bin bins = ds.

Lemma built_unique : forall s n ds ds', vbuilt s n ds -> vbuilt s n ds' -> ds = ds'.
Proof. intros s n ds ds' (b & H1 & <-) (b' & H2 & <-). congruence. Qed.

Lemma inv_built : forall s n ds, VNodeInv s n ds -> vbuilt s n ds.
Proof. intros s n ds NI. destruct (vv_builds s n ds NI) as [(bins & R) E]. exists bins. split; [exact R|exact (builds_view _ _ _ _ R E)]. Qed.

Lemma built_inv : forall s n ds, vdomain s -> vreachable s n -> vbuilt s n ds -> VNodeInv s n ds.
Proof. intros s n ds Hd H B. destruct (reachable_inv s Hd n H) as (ds' & NI). rewrite (built_unique s n ds ds' B (inv_built s n ds' NI)). exact NI. Qed.

(** ** Solutions *)

Lemma count_vbins : forall i t, (t < length (kx_bins i))%nat -> count_occ Nat.eq_dec (vbins i) t = Z.to_nat (kb_copies (kbin i t)).
Proof.
  intros i t Ht. rewrite (proj1 (Permutation_count_occ Nat.eq_dec _ _) (vbins_perm i) t).
  assert (R : forall u c, count_occ Nat.eq_dec (repeat u c) t = if Nat.eq_dec u t then c else 0%nat).
  { intros u c. induction c as [|c IH]; cbn; [destruct (Nat.eq_dec u t); reflexivity|]. rewrite IH. destruct (Nat.eq_dec u t); reflexivity. }
  assert (G : forall len a, count_occ Nat.eq_dec (flat_map (fun t => repeat t (Z.to_nat (kb_copies (kbin i t)))) (seq a len)) t = if (a <=? t)%nat && (t <? a + len)%nat then Z.to_nat (kb_copies (kbin i t)) else 0%nat).
  { induction len as [|len IH]; intros a; cbn [seq flat_map].
    - destruct (Nat.leb_spec a t); [|reflexivity]. cbn [andb]. destruct (Nat.ltb_spec t (a + 0)); [lia|reflexivity].
    - rewrite count_occ_app, R, IH. destruct (Nat.eq_dec a t) as [->|N].
      + destruct (Nat.leb_spec (S t) t); [lia|]. cbn [andb]. destruct (Nat.leb_spec t t); [|lia]. destruct (Nat.ltb_spec t (t + S len)); [|lia]. cbn [andb]. lia.
      + destruct (Nat.leb_spec (S a) t), (Nat.leb_spec a t); try lia; cbn [andb]; [|reflexivity]. destruct (Nat.ltb_spec t (S a + len)), (Nat.ltb_spec t (a + S len)); lia. }
  rewrite G. destruct (Nat.ltb_spec t (0 + length (kx_bins i))); [reflexivity|lia].
Qed.

(** The builder accepts the calls of every node; the bins are valid, no item type and no
    bin type is used more than it may be. *)
Theorem C61_solutions : forall s n, vdomain s -> vreachable s n -> exists ds, vbuilt s n ds /\
  (forall d, In d ds -> kd_copies d = 1 /\ vbin_ok (vs_i s) (vs_unloading s) d) /\
  (forall x, (x < length (kx_items (vs_i s)))%nat -> kpacked x ds <= ki_copies (kitem (vs_i s) x)) /\
  (forall t, (t < length (kx_bins (vs_i s)))%nat -> kused t ds <= Z.max 0 (kb_copies (kbin (vs_i s) t))).
Proof.
  intros s n Hd H. destruct (reachable_inv s Hd n H) as (ds & NI). exists ds. split; [apply inv_built, NI|]. split; [|split].
  - intros d Hdd. split; [apply (vv_one s n ds NI d Hdd)|apply (vv_ok s n ds NI d Hdd)].
  - intros x Hx. apply (vv_copies s n ds NI x Hx).
  - intros t Ht. assert (E : kused t ds = Z.of_nat (count_occ Nat.eq_dec (map kd_type ds) t)).
    { pose proof (vv_one s n ds NI) as O. clear - O. unfold kused. induction ds as [|d ds IH]; [reflexivity|]. rewrite zsum_cons, IH by (intros e He; apply O; right; exact He). cbn [map count_occ]. rewrite (O d (or_introl eq_refl)). destruct (Nat.eqb_spec (kd_type d) t), (Nat.eq_dec (kd_type d) t); try contradiction; lia. }
    rewrite E, (vv_types s n ds NI). pose proof (count_vbins (vs_i s) t Ht) as C. rewrite <- (firstn_skipn (vn_bins n) (vbins (vs_i s))), count_occ_app in C. lia.
Qed.
Print Assumptions C61_solutions.

(** A node with one bin becomes a solution made of this bin. *)
Theorem C61_build : forall s cb n, vdomain s -> vreachable s n -> vn_bins n = 1%nat ->
  exists sol d, vto_solution s cb n = Some sol /\ kview sol = [d] /\ vbuilt s n [d].
Proof.
  intros s cb n Hd H E. destruct (reachable_inv s Hd n H) as (ds & NI). pose proof (inv_built s n ds NI) as B. pose proof (vv_len s n ds NI) as L. rewrite E in L. destruct ds as [|d [|e ds]]; try discriminate.
  destruct B as (bins & R & V). destruct bins as [|b [|b' bins]]; try discriminate. destruct (kb_run_spec _ _ _ _ R) as [_ K]; [intros b0 []|].
  destruct (C60_defined (vs_i s) cb (vcalls s n) [b] b R eq_refl) as [(sol & Es) _]. exists sol, d. split; [exact Es|]. split; [|exists [b]; auto].
  destruct (C60_indicators (vs_i s) cb (vcalls s n) [] sol Es) as [Vw _]. rewrite Vw. cbn [flat_map]. rewrite app_nil_r. rewrite <- V. destruct (kb_run_spec _ _ _ _ R) as [A _]; [intros b0 []|]. rewrite A. reflexivity.
Qed.
Print Assumptions C61_build.

(** ** Values of the nodes *)

(** Number of items, profit, volume of the items, leaf, furthest coordinate of the last
    bin along the direction; the waste is not negative and fits in the bins. *)
Theorem C61_values : forall s n ds, vdomain s -> vreachable s n -> vbuilt s n ds ->
  map kd_type ds = firstn (vn_bins n) (vbins (vs_i s)) /\ length ds = vn_bins n /\
  (forall x, (x < length (kx_items (vs_i s)))%nat -> nth x (vn_copies n) 0 = kpacked x ds) /\
  vn_items n = zsum (fun d => Z.of_nat (length (kd_items d))) ds /\
  (vn_profit n == qsum (fun d => qsum (kprofit (vs_i s)) (kd_items d)) ds)%Q /\
  vn_volume n = zsum (packed_volume (vs_i s)) ds /\
  (vleaf s n = true <-> forall x, (x < length (kx_items (vs_i s)))%nat -> kpacked x ds = ki_copies (kitem (vs_i s) x)) /\
  (forall pre d, ds = pre ++ [d] -> vn_xe_max n = far (if vn_dir n then sd_ye else sd_xe) d) /\
  0 <= vn_waste n /\ vn_volume n + vn_waste n <= bins_volume (vs_i s) ds.
Proof.
  intros s n ds Hd H B. pose proof (built_inv s n ds Hd H B) as NI.
  split; [apply (vv_types s n ds NI)|]. split; [apply (vv_len s n ds NI)|]. split; [intros x Hx; apply (vv_copies s n ds NI x Hx)|]. split; [apply (vv_items s n ds NI)|]. split; [apply (vv_profit s n ds NI)|]. split; [apply (vv_volume s n ds NI)|]. split; [apply (leaf_copies s n ds NI)|].
  split; [|split; [apply (vv_waste0 s n ds NI)|]].
  - intros pre d E. destruct (vv_last s n ds NI) as [(_ & A & _)|(pre' & st & m & _ & A & VS & _)]; [rewrite A in E; destruct pre; discriminate|]. rewrite A in E. apply app_inj_tail in E. destruct E as [_ <-].
    rewrite (ve_xe _ _ _ _ _ VS). unfold far. cbn [kd_stacks]. destruct (vn_dir n); rewrite map_map; reflexivity.
  - rewrite (vv_waste s n ds NI). pose proof (vv_current s n ds NI) as C. unfold vprevious in C. rewrite <- (vv_types s n ds NI), zsum_map in C. unfold bins_volume. lia.
Qed.
Print Assumptions C61_values.

(** Every insertion gives a child with one more item and at least as much waste; nodes
    are at most as deep as there are items. *)
Theorem C61_children : forall s n l ins, vdomain s -> vreachable s n -> vinsertions s n = Some l -> In ins l ->
  exists m, vchild s n ins = Some m /\ vn_items m = vn_items n + 1 /\ vn_waste n <= vn_waste m /\ (vn_bins n <= vn_bins m <= length (vbins (vs_i s)))%nat
    /\ vn_items m <= zsum ki_copies (kx_items (vs_i s)).
Proof.
  intros s n l ins Hd H Hl Hin. destruct (reachable_inv s Hd n H) as (ds & NI). destruct (inv_child s Hd n ds l ins NI Hl Hin) as (m & ds' & E & NM & [T1 T2 _ T4]). exists m. split; [exact E|]. split; [exact T1|]. split; [exact T4|]. split; [split; [exact T2|apply (vv_bound s m ds' NM)]|]. apply (inv_items_le s m ds' NM).
Qed.
Print Assumptions C61_children.

(** ** Axle weights *)

(** Along x, the overweights of a node are zero exactly when the axle weights of its last
    bin are allowed. *)
Theorem C61_axles : forall s n pre d, vdomain s -> vreachable s n -> trucks_ok (vs_i s) ->
  (forall bt m, In bt (kx_bins (vs_i s)) -> tr_middle_maximum (kb_truck bt) = Some m \/ tr_rear_maximum (kb_truck bt) = Some m -> (0 <= m)%Q) ->
  vbuilt s n (pre ++ [d]) -> vn_dir n = false ->
  ((vn_middle n <= 0)%Q /\ (vn_rear n <= 0)%Q <-> axles_ok (vs_i s) d).
Proof.
  intros s n pre d Hd H Ht Hm B Ed. pose proof (built_inv s n _ Hd H B) as NI. destruct (vv_last s n _ NI) as [(_ & A & _)|(pre' & st & m & Nb & A & VS & _)]; [destruct pre; discriminate|].
  apply app_inj_tail in A. destruct A as [_ A]. rewrite Ed in A, VS. cbn [vinst vunloading] in VS. rewrite orient_false in A. set (t := nth (vn_bins n - 1) (vbins (vs_i s)) 0%nat) in *.
  pose proof (vv_bound s n _ NI) as Hb. assert (Ht' : (t < length (kx_bins (vs_i s)))%nat) by (apply vbins_nth; lia).
  assert (Hbt : In (kbin (vs_i s) t) (kx_bins (vs_i s))) by (apply nth_In; exact Ht'). set (bt := kbin (vs_i s) t) in *.
  assert (Hmx : maxima_ok (vs_i s)) by (intros b0 Hb0 _; split; intros m0 E0; apply (Hm b0 m0 Hb0); [left|right]; exact E0).
  assert (LW : length (vn_w n) = kgroups (vs_i s)) by (apply (vl_w s n (vv_lengths s n _ NI))).
  rewrite (ve_middle _ _ _ _ _ VS), (ve_rear _ _ _ _ _ VS). fold bt. unfold axles_ok. rewrite A. cbn [kd_type]. fold bt.
  assert (K : forall g, (g < kgroups (vs_i s))%nat -> (kaxle_ok (kb_truck bt) (nth g (vn_m n) 0%Q) (nth g (vn_w n) 0%Q) <->
     (tr_is (kb_truck bt) = true -> ~ (bin_gweight (vs_i s) g (mkKD t 1 st) == 0)%Q -> forall middle rear, balanced (kb_truck bt) (bin_gmoment (vs_i s) g (mkKD t 1 st)) (bin_gweight (vs_i s) g (mkKD t 1 st)) middle rear ->
      most middle (tr_middle_maximum (kb_truck bt)) /\ most rear (tr_rear_maximum (kb_truck bt))))) by (intros g Hg; apply (kaxle_ok_iff (vs_i s)); [exact Hbt|exact Ht|exact Hmx|apply (ve_m _ _ _ _ _ VS g Hg)|apply (ve_w _ _ _ _ _ VS g Hg)]).
  split.
  - intros [M R] Etr g Hg Hc Nz middle rear Hbal. assert (Nz' : ~ (nth g (vn_w n) 0 == 0)%Q) by (rewrite (ve_w _ _ _ _ _ VS g Hg); exact Nz).
    apply (proj1 (K g Hg)); [|exact Etr|exact Nz|exact Hbal]. split.
    + apply (overweight_spec (vs_i s) (kb_truck bt) fst _ _ _ (fun m0 E0 => Hm bt m0 Hbt (or_introl E0))); [exact M|lia|exact Hc|exact Nz'].
    + apply (overweight_spec (vs_i s) (kb_truck bt) snd _ _ _ (fun m0 E0 => Hm bt m0 Hbt (or_intror E0))); [exact R|lia|exact Hc|exact Nz'].
  - intros Ax. rewrite !overweight_none; [split; apply Qle_refl| |]; intros g Hg Hc Nz; rewrite LW in Hg; apply (proj2 (K g Hg)); intros Etr Nz' middle rear Hbal; exact (Ax Etr g Hg Hc Nz' middle rear Hbal).
Qed.
Print Assumptions C61_axles.

(** ** Bounds *)

(** Bin packing, items that are not nested: a complete solution below a node that is cut
    has no fewer bins than the solution used to cut it. *)
Theorem C62_bin_packing : forall s n1 n2 m, vdomain s -> flat_items (vs_i s) -> vreachable s n1 -> kx_objective (vs_i s) = OBinPacking \/ kx_objective (vs_i s) = OVariableSizedBinPacking ->
  vbound s n1 n2 = Some true -> vbelow s n1 m -> vleaf s m = true -> (vn_bins n2 <= vn_bins m)%nat.
Proof.
  intros s n1 n2 m Hd Hf H Ho Hb Hm L. destruct (reachable_inv s Hd n1 H) as (ds1 & N1). destruct (below_inv s Hd n1 ds1 m N1 Hm) as ((ds & NM) & W & _ & _).
  pose proof (leaf_volume s m ds NM Hf L) as V. pose proof (vv_current s m ds NM) as C. pose proof (vv_waste s m ds NM) as Ew.
  pose proof (needed_le s Hd m ds (kitem_volume (vs_i s) + vn_waste n1) NM ltac:(lia)) as K. unfold vbound in Hb.
  assert (Hb' : (if negb (vleaf s n2) then Some false else match vbins_needed (vs_i s) (vbins (vs_i s)) 0 (kitem_volume (vs_i s) + vn_waste n1) with None => Some true | Some k => Some (vn_bins n2 <=? k)%nat end) = Some true) by (destruct Ho as [Ho|Ho]; rewrite Ho in Hb; exact Hb).
  destruct (vleaf s n2); cbn [negb] in Hb'; [|discriminate]. destruct (vbins_needed _ _ _ _) as [k|]; [|contradiction]. injection Hb' as Hb'. apply Nat.leb_le in Hb'. lia.
Qed.
Print Assumptions C62_bin_packing.

(** Leftovers: no less waste. *)
Theorem C62_leftovers : forall s n1 n2 m, vdomain s -> vreachable s n1 -> kx_objective (vs_i s) = OBinPackingWithLeftovers ->
  vbound s n1 n2 = Some true -> vbelow s n1 m -> vn_waste n2 <= vn_waste m.
Proof.
  intros s n1 n2 m Hd H Ho Hb Hm. destruct (reachable_inv s Hd n1 H) as (ds1 & N1). destruct (below_inv s Hd n1 ds1 m N1 Hm) as (_ & W & _ & _). unfold vbound in Hb. rewrite Ho in Hb. destruct (vleaf s n2); cbn [negb] in Hb; [|discriminate]. injection Hb as Hb. apply Z.leb_le in Hb. lia.
Qed.
Print Assumptions C62_leftovers.

(** Knapsack, profits that are not negative: no more profit. *)
Theorem C62_knapsack : forall s n1 n2 m, vdomain s -> vreachable s n1 -> vreachable s n2 -> kx_objective (vs_i s) = OKnapsack \/ kx_objective (vs_i s) = OFeasibility ->
  (forall it, In it (kx_items (vs_i s)) -> (0 <= ki_profit it)%Q) ->
  vbound s n1 n2 = Some true -> vbelow s n1 m -> (vn_profit m <= vn_profit n2)%Q.
Proof.
  intros s n1 n2 m Hd H1 H2 Ho Hp Hb Hm. assert (L : vleaf s n2 = true) by (unfold vbound in Hb; destruct Ho as [Ho|Ho]; rewrite Ho in Hb; congruence).
  destruct (reachable_inv s Hd m (vbelow_trans s _ _ _ H1 Hm)) as (ds & NM). destruct (reachable_inv s Hd n2 H2) as (ds2 & N2). rewrite (vv_profit s m ds NM), (vv_profit s n2 ds2 N2).
  assert (P : forall n ds, VNodeInv s n ds -> (qsum (fun d => qsum (kprofit (vs_i s)) (kd_items d)) ds == qsum (fun x => inject_Z (kpacked x ds) * ki_profit (kitem (vs_i s) x)) (seq 0 (length (kx_items (vs_i s)))))%Q).
  { intros n e NE. pose proof (inv_ids s n e NE) as I1. pose proof (vv_one s n e NE) as I2. clear - I1 I2. induction e as [|d e IH].
    - rewrite (qsum_ext _ (fun x => inject_Z (kpacked x []) * ki_profit (kitem (vs_i s) x))%Q (fun _ => 0%Q)); [|intros x _; unfold kpacked; rewrite zsum_nil; change (inject_Z 0) with 0%Q; ring]. change (qsum _ []) with 0%Q. induction (seq 0 (length (kx_items (vs_i s)))) as [|a l IHl]; [reflexivity|rewrite qsum_cons, <- IHl; ring].
    - rewrite qsum_cons, IH by (intros; (eapply I1; [right; eassumption|eassumption]) || (apply I2; right; assumption)).
      rewrite (qsum_ext _ (fun x => inject_Z (kpacked x (d :: e)) * ki_profit (kitem (vs_i s) x))%Q (fun x => inject_Z (kcount x (kd_items d)) * ki_profit (kitem (vs_i s) x) + inject_Z (kpacked x e) * ki_profit (kitem (vs_i s) x))%Q).
      2:{ intros x _. unfold kpacked. rewrite zsum_cons, (I2 d (or_introl eq_refl)), Z.mul_1_l, inject_Z_plus. ring. }
      rewrite qsum_plus. apply Qplus_comp; [|reflexivity]. assert (Hq : forall p, In p (kd_items d) -> (fst p < length (kx_items (vs_i s)))%nat) by (intros p Hp; apply (I1 d p (or_introl eq_refl) Hp)). clear - Hq.
      induction (kd_items d) as [|p l IHl].
      + change (qsum _ []) with 0%Q. induction (seq 0 (length (kx_items (vs_i s)))) as [|a k IHk]; [reflexivity|rewrite qsum_cons, <- IHk; change (inject_Z (kcount a [])) with 0%Q; ring].
      + rewrite qsum_cons, IHl by (intros q Hq'; apply Hq; right; exact Hq'). specialize (Hq p (or_introl eq_refl)).
        rewrite (qsum_ext _ (fun x => inject_Z (kcount x (p :: l)) * ki_profit (kitem (vs_i s) x))%Q (fun x => (if Nat.eqb (fst p) x then kprofit (vs_i s) p else 0) + inject_Z (kcount x l) * ki_profit (kitem (vs_i s) x))%Q).
        2:{ intros x _. unfold kcount. rewrite zsum_cons, inject_Z_plus. unfold kprofit. destruct (Nat.eqb_spec (fst p) x) as [<-|]; [change (inject_Z 1) with 1%Q|change (inject_Z 0) with 0%Q]; ring. }
        rewrite qsum_plus. apply Qplus_comp; [|reflexivity]. revert Hq. generalize (length (kx_items (vs_i s))). clear. intros N Hq.
        assert (G : forall len a, (qsum (fun x => if Nat.eqb (fst p) x then kprofit (vs_i s) p else 0%Q) (seq a len) == if (a <=? fst p)%nat && (fst p <? a + len)%nat then kprofit (vs_i s) p else 0)%Q).
        { induction len as [|len IH]; intros a; cbn [seq].
          - change (qsum _ []) with 0%Q. destruct (Nat.leb_spec a (fst p)); [|reflexivity]. cbn [andb]. destruct (Nat.ltb_spec (fst p) (a + 0)); [lia|reflexivity].
          - rewrite qsum_cons, IH. destruct (Nat.eqb_spec (fst p) a) as [->|Na].
            + destruct (Nat.leb_spec (S a) a); [lia|]. cbn [andb]. destruct (Nat.leb_spec a a); [|lia]. destruct (Nat.ltb_spec a (a + S len)); [|lia]. cbn [andb]. ring.
            + destruct (Nat.leb_spec (S a) (fst p)), (Nat.leb_spec a (fst p)); try lia; cbn [andb]; [|ring]. destruct (Nat.ltb_spec (fst p) (S a + len)), (Nat.ltb_spec (fst p) (a + S len)); try lia; ring. }
        rewrite G. destruct (Nat.ltb_spec (fst p) (0 + N)); [reflexivity|lia]. }
  rewrite (P m ds NM), (P n2 ds2 N2). apply qsum_le. intros x Hx. apply in_seq in Hx. rewrite (proj1 (leaf_copies s n2 ds2 N2) L x ltac:(lia)). destruct (vv_copies s m ds NM x ltac:(lia)) as [_ C].
  assert (0 <= ki_profit (kitem (vs_i s) x))%Q by (apply Hp, nth_In; lia). assert (inject_Z (kpacked x ds) <= inject_Z (ki_copies (kitem (vs_i s) x)))%Q by (rewrite <- Zle_Qle; exact C). nra.
Qed.
Print Assumptions C62_knapsack.

(** ** Order on the nodes *)

Definition vlt (s : VScheme) (n1 n2 : VNode) : bool := match vbetter s n1 n2 with Some b => b | None => false end.

(** [better] is a strict weak order. *)
Theorem C61_better : forall s, StrictWeakOrder VNode (vlt s).
Proof.
  intros s. unfold vlt, vbetter. constructor.
  - intros a. destruct (Qltb 0 (vn_middle a) || Qltb 0 (vn_rear a)); [reflexivity|].
    destruct (kx_objective (vs_i s)); try reflexivity; try (destruct (vleaf s a); cbn [negb]); rewrite ?Z.ltb_irrefl, ?Nat.ltb_irrefl; try reflexivity;
      destruct (Qltb (vn_profit a) (vn_profit a)) eqn:E; try reflexivity; apply Qltb_lt in E; lra.
  - intros a b c. destruct (Qltb 0 (vn_middle a) || Qltb 0 (vn_rear a)), (Qltb 0 (vn_middle b) || Qltb 0 (vn_rear b)), (Qltb 0 (vn_middle c) || Qltb 0 (vn_rear c)); try congruence; try (intros; reflexivity).
    destruct (kx_objective (vs_i s)); try congruence; try (destruct (vleaf s a), (vleaf s b), (vleaf s c); cbn [negb]; try congruence; try reflexivity; rewrite ?Z.ltb_lt, ?Nat.ltb_lt; lia).
    + destruct (Qltb (vn_profit a) (vn_profit b)) eqn:E1, (Qltb (vn_profit b) (vn_profit a)) eqn:E2, (Qltb (vn_profit b) (vn_profit c)) eqn:E3, (Qltb (vn_profit c) (vn_profit b)) eqn:E4, (Qltb (vn_profit a) (vn_profit c)) eqn:E5, (Qltb (vn_profit c) (vn_profit a)) eqn:E6; try congruence; try reflexivity; rewrite ?Z.ltb_lt; try lia;
        repeat match goal with H : Qltb _ _ = true |- _ => apply Qltb_lt in H | H : Qltb _ _ = false |- _ => apply Qltb_ge in H end; intros; exfalso; lra.
    + rewrite !Qltb_lt. lra.
    + rewrite !Qltb_lt. lra.
  - intros a b c. destruct (Qltb 0 (vn_middle a) || Qltb 0 (vn_rear a)), (Qltb 0 (vn_middle b) || Qltb 0 (vn_rear b)), (Qltb 0 (vn_middle c) || Qltb 0 (vn_rear c)); try congruence; try (intros; reflexivity).
    destruct (kx_objective (vs_i s)); try congruence; try (destruct (vleaf s a), (vleaf s b), (vleaf s c); cbn [negb]; try congruence; try reflexivity; rewrite ?Z.ltb_ge, ?Nat.ltb_ge; lia).
    + destruct (Qltb (vn_profit a) (vn_profit b)) eqn:E1, (Qltb (vn_profit b) (vn_profit a)) eqn:E2, (Qltb (vn_profit b) (vn_profit c)) eqn:E3, (Qltb (vn_profit c) (vn_profit b)) eqn:E4, (Qltb (vn_profit a) (vn_profit c)) eqn:E5, (Qltb (vn_profit c) (vn_profit a)) eqn:E6; try congruence; try reflexivity; rewrite ?Z.ltb_ge; try lia;
        repeat match goal with H : Qltb _ _ = true |- _ => apply Qltb_lt in H | H : Qltb _ _ = false |- _ => apply Qltb_ge in H end; intros; exfalso; lra.
    + intros H1 H2. apply Qltb_ge in H1, H2. apply Qltb_ge. lra.
    + intros H1 H2. apply Qltb_ge in H1, H2. apply Qltb_ge. lra.
Qed.
Print Assumptions C61_better.

(** ** Examples *)

Definition vscheme (i : KInstance) (un : Unloading) (dir : option bool) : VScheme := mkVS i un dir (fun _ => []).

(** Crates and pallets in trucks; a defect in the corner. *)
Definition ex_vinstance (o : Objective) : KInstance :=
  mkKInst o [true; true]
    [ mkKI (mkV 4 3 6) 10 3 1 0 [XYZ; YXZ] 900 0 2 3 (Some 2000%Q);
      mkKI (mkV 5 5 4) 25 2 0 1 [XYZ] 1500 1 0 2 None ]
    [ mkKB (mkV 14 8 10) 480 2 0 [mkDefect 13 0 1 2] (Some 9000%Q) (Some 300%Q) ex_truck;
      mkKB (mkV 20 8 10) 900 1 0 [] None None no_truck ].
Definition ex_vscheme (o : Objective) : VScheme := vscheme (ex_vinstance o) UNone (Some false).

(** Two stacks of two items and a stack of one item: a leaf with one bin. *)
Example C61_example : let s := ex_vscheme OBinPacking in let n := vthe_node s [2; 0; 0; 0; 0]%nat in
  vdomain s /\ vreachable s n /\ vleaf s n = true /\ vn_bins n = 1%nat /\ vn_dir n = false /\ vn_waste n = 30 /\
  (exists pre d, vbuilt s n (pre ++ [d]) /\ length (kd_stacks d) = 3%nat) /\ trucks_ok (vs_i s) /\ (vn_middle n <= 0)%Q /\ (vn_rear n <= 0)%Q.
Proof.
  cbv zeta. set (s := ex_vscheme OBinPacking). split; [vdom|]. split; [vwalk [2; 0; 0; 0; 0]%nat|]. split; [vm_compute; reflexivity|]. split; [vm_compute; reflexivity|]. split; [vm_compute; reflexivity|]. split; [vm_compute; reflexivity|].
  split; [exists [], (mkKD 0 1 [mkKSD 0 5 0 5 [(1%nat, XYZ); (1%nat, XYZ)]; mkKSD 5 9 0 3 [(0%nat, XYZ); (0%nat, XYZ)]; mkKSD 9 13 0 3 [(0%nat, XYZ)]]); split; [eexists; split; vm_compute; reflexivity|reflexivity]|].
  split; [intros bt [<-|[<-|[]]]; cbn; intro E; [split; discriminate|discriminate]|]. split; vm_compute; discriminate.
Qed.

(** A node of the direction Y with two bins, and a node with an overweight. *)
Example C61_two_bins_example : let s := vscheme (mkKInst OBinPacking [] [mkKI (mkV 6 4 5) 1 3 3 0 [XYZ; YXZ] 1 0 0 9 None] [mkKB (mkV 6 10 5) 1 2 0 [] None None no_truck]) UNone None in
  let n := vthe_node s [0; 0; 0]%nat in
  vdomain s /\ vreachable s n /\ vleaf s n = true /\ vn_bins n = 2%nat /\ vn_dir n = true /\ vbuilt s n [mkKD 0 1 [mkKSD 0 6 0 4 [(0%nat, XYZ)]; mkKSD 0 6 4 8 [(0%nat, XYZ)]]; mkKD 0 1 [mkKSD 0 6 0 4 [(0%nat, XYZ)]]].
Proof.
  cbv zeta. set (s := vscheme _ _ _). split; [vdom|]. split; [vwalk [0; 0; 0]%nat|]. do 3 (split; [vm_compute; reflexivity|]). eexists. split; vm_compute; reflexivity.
Qed.

(** Nodes that are cut. *)
Example C62_bin_packing_example : let s := vscheme (mkKInst OBinPacking [] [mkKI (mkV 6 4 5) 1 3 3 0 [XYZ] 1 0 0 9 None] [mkKB (mkV 10 8 5) 1 3 0 [] None None no_truck]) UNone (Some false) in
  let n := vthe_node s [0; 0; 0]%nat in
  vdomain s /\ flat_items (vs_i s) /\ vreachable s n /\ vleaf s n = true /\ vn_bins n = 2%nat /\ vbound s (vthe_node s [0]%nat) n = Some false /\ vbound s (vthe_node s [0; 0; 0]%nat) n = Some true.
Proof.
  cbv zeta. set (s := vscheme _ _ _). split; [vdom|]. split; [intros it [<-|[]]; reflexivity|]. split; [vwalk [0; 0; 0]%nat|]. repeat split; vm_compute; reflexivity.
Qed.
Example C62_leftovers_example : let s := vscheme (mkKInst OBinPackingWithLeftovers [] [mkKI (mkV 6 4 5) 1 2 2 0 [XYZ; YXZ] 1 0 0 9 None] [mkKB (mkV 12 8 5) 1 3 0 [] None None no_truck]) UNone (Some false) in
  vdomain s /\ vreachable s (vthe_node s [0]%nat) /\ option_map (@length _) (vinsertions s (vthe_node s [0]%nat)) = Some 4%nat /\
  vbound s (vthe_node s [0; 1]%nat) (vthe_node s [0; 3]%nat) = Some true /\ vbound s (vthe_node s [0; 3]%nat) (vthe_node s [0; 1]%nat) = Some false.
Proof. cbv zeta. set (s := vscheme _ _ _). split; [vdom|]. split; [vwalk [0]%nat|]. repeat split; vm_compute; reflexivity. Qed.
Example C62_knapsack_example : let s := ex_vscheme OKnapsack in let n := vthe_node s [2; 0; 0; 0; 0]%nat in
  vdomain s /\ vreachable s n /\ (forall it, In it (kx_items (vs_i s)) -> (0 <= ki_profit it)%Q) /\ vbound s (vthe_node s [1]%nat) n = Some true /\ (vn_profit n == 80)%Q.
Proof. cbv zeta. set (s := ex_vscheme _). split; [vdom|]. split; [vwalk [2; 0; 0; 0; 0]%nat|]. split; [intros it [<-|[<-|[]]]; vm_compute; discriminate|]. split; vm_compute; reflexivity. Qed.

(** ** Findings *)

Definition plain_bin (x y z copies : Z) : KBin := mkKB (mkV x y z) 1 copies 0 [] None None no_truck.
Definition plain_item (x y z copies : Z) (rotations : list Rotation) : KItem := mkKI (mkV x y z) 1 copies copies 0 rotations 1 0 0 9 None.
Definition some_truck (rear middle : option Q) : Truck := mkTruck true 7000 3 1 2 8000 8 4 1 rear middle.
Definition truck_bin (x y z copies : Z) (rear middle : option Q) : KBin := mkKB (mkV x y z) 1 copies 0 [] None None (some_truck rear middle).

(** Finding: the top of a stack that is partly hidden by another stack is treated as a
    smaller stack.  An item with a smaller base (here the same item type stood on end) is
    put above the visible part; the solution builder then throws. *)
Theorem C61_hidden_stack_refuted : exists s n, vs_direction s = Some false /\
  (forall it, In it (kx_items (vs_i s)) -> 0 < v_x (ki_box it) /\ 0 < v_y (ki_box it) /\ 0 < v_z (ki_box it)) /\ length (kx_items (vs_i s)) = 1%nat /\
  vreachable s n /\ kb_run (vs_i s) [] (vcalls s n) = None /\ forall cb, vto_solution s cb n = None.
Proof.
  set (s := vscheme (mkKInst OKnapsack [] [plain_item 10 5 5 3 [XYZ; YXZ; ZYX]] [plain_bin 15 10 15 1]) UNone (Some false)). exists s, (vthe_node s [1; 1; 1]%nat).
  split; [reflexivity|]. split; [intros it [<-|[]]; repeat split; reflexivity|]. split; [reflexivity|]. split; [vwalk [1; 1; 1]%nat|]. split; [vm_compute; reflexivity|]. intros cb. unfold vto_solution, khistory.
  replace (kb_run (vs_i s) [] (vcalls s (vthe_node s [1; 1; 1]%nat))) with (@None (list KSBin)) by (vm_compute; reflexivity). reflexivity.
Qed.
Print Assumptions C61_hidden_stack_refuted.

(** Finding: the flipped instance exchanges x and y of the item types but keeps their
    rotations, so that a rotation that moves the vertical axis means another orientation:
    in the direction Y the heights and the bases are those of another orientation, and the
    solution builder throws.  The direction Y is used for every instance with one bin type
    and no unloading constraint. *)
Theorem C61_rotation_refuted : exists s n, vs_direction s = Some true /\ same_bases (vs_i s) /\
  (forall it, In it (kx_items (vs_i s)) -> 0 < v_x (ki_box it) /\ 0 < v_y (ki_box it) /\ 0 < v_z (ki_box it)) /\
  vreachable s n /\ vleaf s n = true /\ kb_run (vs_i s) [] (vcalls s n) = None.
Proof.
  set (s := vscheme (mkKInst OKnapsack [] [plain_item 10 5 3 1 [ZYX]] [plain_bin 15 15 15 1]) UNone (Some true)). exists s, (vthe_node s [0]%nat).
  split; [reflexivity|]. split; [apply same_basesb_ok; vm_compute; reflexivity|]. split; [intros it [<-|[]]; repeat split; reflexivity|]. split; [vwalk [0]%nat|]. split; vm_compute; reflexivity.
Qed.
Print Assumptions C61_rotation_refuted.

(** Finding: with the unloading constraint OnlyXMovements, the last item of an empty list
    is read (undefined behaviour) as soon as an item may be put in a free row. *)
Theorem C61_only_x_refuted : exists s n, vdomain s /\ vs_direction s = Some false /\ vs_unloading s = UOnlyX /\ vreachable s n /\ vleaf s n = false /\ vinsertions s n = None.
Proof.
  set (s := vscheme (mkKInst OBinPacking [] [plain_item 5 5 5 2 [XYZ]] [plain_bin 10 10 10 1]) UOnlyX (Some false)). exists s, (vthe_node s [0]%nat).
  split; [vdom|]. split; [reflexivity|]. split; [reflexivity|]. split; [vwalk [0]%nat|]. split; vm_compute; reflexivity.
Qed.
Print Assumptions C61_only_x_refuted.

(** Finding: with the unloading constraint IncreasingX, the position is checked before it
    is moved after the defects. *)
Theorem C61_increasing_refuted : exists s n ds d, vdomain s /\ vs_direction s = Some false /\ vs_unloading s = UIncreasingX /\ vreachable s n /\ vleaf s n = true /\
  vbuilt s n ds /\ In d ds /\ ~ increasing_ok (vs_i s) UIncreasingX (kd_stacks d).
Proof.
  set (s := vscheme (mkKInst OBinPacking [] [plain_item 5 5 5 1 [XYZ]; mkKI (mkV 5 5 5) 1 1 1 1 [XYZ] 1 0 0 9 None] [mkKB (mkV 10 10 10) 1 1 0 [mkDefect 0 5 3 5] None None no_truck]) UIncreasingX (Some false)).
  exists s, (vthe_node s [0; 0]%nat), [mkKD 0 1 [mkKSD 0 5 0 5 [(0%nat, XYZ)]; mkKSD 3 8 5 10 [(1%nat, XYZ)]]], (mkKD 0 1 [mkKSD 0 5 0 5 [(0%nat, XYZ)]; mkKSD 3 8 5 10 [(1%nat, XYZ)]]).
  split; [vdom|]. split; [reflexivity|]. split; [reflexivity|]. split; [vwalk [0; 0]%nat|]. split; [vm_compute; reflexivity|]. split; [eexists; split; vm_compute; reflexivity|]. split; [left; reflexivity|].
  cbn [increasing_ok kd_stacks]. intros H. specialize (H (mkKSD 0 5 0 5 [(0%nat, XYZ)]) (mkKSD 3 8 5 10 [(1%nat, XYZ)]) (0%nat, XYZ) (1%nat, XYZ) (or_introl eq_refl) (or_intror (or_introl eq_refl)) (or_introl eq_refl) (or_introl eq_refl) ltac:(vm_compute; lia)). cbn in H. lia.
Qed.
Print Assumptions C61_increasing_refuted.

(** Finding: for an item put above another one, the axle weights are computed at the
    position of the last inserted item rather than at that of the stack.  The insertion
    that completes the bin without overweight is refused: it is proposed when the axle
    weight is not limited. *)
Theorem C61_above_axles_refuted : exists (s : option Q -> VScheme) path l ins m, (forall w, vdomain (s w)) /\ (forall w, vs_direction (s w) = Some false) /\
  (forall w, kx_bins (vs_i (s w)) = [mkKB (mkV 10 10 10) 1 1 0 [mkDefect 0 5 5 5] None None (some_truck w None)]) /\
  (exists n0 l0, vwalk (s None) (vroot (s None)) path = Some n0 /\ vinsertions (s None) n0 = Some l0 /\ In ins l0) /\
  let s := s (Some 5500%Q) in let n := vthe_node s path in
  vreachable s n /\ vinsertions s n = Some l /\ ~ In ins l /\ vchild s n ins = Some m /\ vleaf s m = true /\ (vn_middle m <= 0)%Q /\ (vn_rear m <= 0)%Q.
Proof.
  set (s := fun w => vscheme (mkKInst OBinPacking [true] [mkKI (mkV 5 5 5) 1 3 3 0 [XYZ] 1000 0 0 9 None] [mkKB (mkV 10 10 10) 1 1 0 [mkDefect 0 5 5 5] None None (some_truck w None)]) UNone (Some false)).
  set (n := vthe_node (s (Some 5500%Q)) [0; 2]%nat). set (ins := mkVI 0 XYZ 0 0 5 (Some 0%nat) None).
  exists s, [0; 2]%nat, (match vinsertions (s (Some 5500%Q)) n with Some l => l | None => [] end), ins, (match vchild (s (Some 5500%Q)) n ins with Some m => m | None => n end).
  split; [intros w; vdom|]. split; [reflexivity|]. split; [reflexivity|]. split.
  { exists (vthe_node (s None) [0; 2]%nat), (match vinsertions (s None) (vthe_node (s None) [0; 2]%nat) with Some l => l | None => [] end). split; [vm_compute; reflexivity|]. split; [vm_compute; reflexivity|]. vm_compute. left. reflexivity. }
  cbv zeta. split; [vwalk [0; 2]%nat|]. split; [vm_compute; reflexivity|]. split; [intros H; vm_compute in H; repeat destruct H as [H|H]; try discriminate; exact H|]. split; [vm_compute; reflexivity|]. split; [vm_compute; reflexivity|]. split; vm_compute; discriminate.
Qed.
Print Assumptions C61_above_axles_refuted.

(** Finding: in the direction Y the axle weights are computed along y although the axles
    are along x: a complete solution without overweight for the search is infeasible. *)
Theorem C61_axles_y_refuted : exists s n sol, vdomain s /\ vs_direction s = Some true /\ trucks_ok (vs_i s) /\ vreachable s n /\ vleaf s n = true /\ (vn_middle n <= 0)%Q /\ (vn_rear n <= 0)%Q /\
  vto_solution s kaccept n = Some sol /\ ksol_feasible sol = false.
Proof.
  set (s := vscheme (mkKInst OBinPacking [true] [mkKI (mkV 10 1 1) 1 1 1 0 [XYZ] 1000 0 0 9 None] [truck_bin 14 8 10 1 (Some 4000%Q) None]) UNone (Some true)). set (n := vthe_node s [0]%nat).
  exists s, n, (match vto_solution s kaccept n with Some sol => sol | None => ksol_new (vs_i s) end).
  split; [vdom|]. split; [reflexivity|]. split; [intros bt [<-|[]]; cbn; intro E; split; discriminate|]. split; [vwalk [0]%nat|]. split; [vm_compute; reflexivity|]. split; [vm_compute; discriminate|]. split; [vm_compute; discriminate|]. split; vm_compute; reflexivity.
Qed.
Print Assumptions C61_axles_y_refuted.

(** Finding: the overweights are those of the last bin only: a complete solution whose
    first bin has too heavy an axle has no overweight for the search. *)
Theorem C61_first_bin_refuted : exists s n sol, vdomain s /\ vs_direction s = Some false /\ trucks_ok (vs_i s) /\ vreachable s n /\ vleaf s n = true /\ vn_bins n = 2%nat /\ (vn_middle n <= 0)%Q /\ (vn_rear n <= 0)%Q /\
  vto_solution s kaccept n = Some sol /\ ksol_feasible sol = false.
Proof.
  set (s := vscheme (mkKInst OBinPacking [true] [mkKI (mkV 10 1 1) 1 1 1 0 [XYZ] 3000 0 0 9 None; mkKI (mkV 10 1 1) 1 1 1 0 [XYZ] 100 1 0 9 None] [truck_bin 10 1 1 2 (Some 4300%Q) None]) UNone (Some false)). set (n := vthe_node s [0; 0]%nat).
  exists s, n, (match vto_solution s kaccept n with Some sol => sol | None => ksol_new (vs_i s) end).
  split; [vdom|]. split; [reflexivity|]. split; [intros bt [<-|[]]; cbn; intro E; split; discriminate|]. split; [vwalk [0; 0]%nat|]. split; [vm_compute; reflexivity|]. split; [vm_compute; reflexivity|]. split; [vm_compute; discriminate|]. split; [vm_compute; discriminate|]. split; vm_compute; reflexivity.
Qed.
Print Assumptions C61_first_bin_refuted.

(** Finding: only the leftmost positions are tried, and the insertion of the last item of
    a group is refused if an axle is too heavy.  The tree is exhausted without a complete
    solution, and the instance is claimed infeasible, although an item further to the rear
    gives a feasible and complete solution. *)
Theorem C62_infeasible_refuted : exists s calls sol, vdomain s /\ vs_direction s = Some false /\ kx_objective (vs_i s) = OBinPacking /\ (forall n, vreachable s n -> vleaf s n = false) /\
  khistory (vs_i s) kaccept calls [] = Some sol /\ ksol_feasible sol = true /\ kfull (vs_i s) sol = true.
Proof.
  set (s := vscheme (mkKInst OBinPacking [true] [mkKI (mkV 1 1 1) 1 1 1 0 [XYZ] 1000 0 0 9 None] [truck_bin 14 8 10 1 None (Some 5500%Q)]) UNone (Some false)).
  set (calls := [KAddBin 0 1; KAddStack 0 9 10 0 1; KAddItem 0 0 (0%nat, XYZ)]).
  exists s, calls, (match khistory (vs_i s) kaccept calls [] with Some sol => sol | None => ksol_new (vs_i s) end).
  split; [vdom|]. split; [reflexivity|]. split; [reflexivity|]. split; [|repeat split; vm_compute; reflexivity].
  intros n Hn. apply negb_true_iff. apply (vexplore_forall s 2 (fun n => negb (vleaf s n))); [vm_compute; reflexivity|exact Hn].
Qed.
Print Assumptions C62_infeasible_refuted.

(** Finding: a closing parenthesis is misplaced in the bound of the open dimensions: a
    solution of length 10 cuts the root, below which there is a solution of length 5. *)
Theorem C62_open_dimension_refuted : exists s n2 m, vdomain s /\ flat_items (vs_i s) /\ vs_direction s = Some false /\ kx_objective (vs_i s) = OOpenDimensionX /\
  vreachable s n2 /\ vleaf s n2 = true /\ vbound s (vroot s) n2 = Some true /\ vbelow s (vroot s) m /\ vleaf s m = true /\ vn_xe_max m = 5 /\ vn_xe_max n2 = 10.
Proof.
  set (s := vscheme (mkKInst OOpenDimensionX [] [plain_item 5 5 10 2 [XYZ]] [plain_bin 10 10 10 1]) UNone (Some false)). exists s, (vthe_node s [0; 0]%nat), (vthe_node s [0; 2]%nat).
  split; [vdom|]. split; [intros it [<-|[]]; reflexivity|]. split; [reflexivity|]. split; [reflexivity|]. split; [vwalk [0; 0]%nat|]. split; [vm_compute; reflexivity|]. split; [vm_compute; reflexivity|]. split; [vwalk [0; 2]%nat|]. repeat split; vm_compute; reflexivity.
Qed.
Print Assumptions C62_open_dimension_refuted.

(** Finding: the bound for bin packing ignores that items are nested: a solution with two
    bins cuts the root, below which there is a solution with one bin. *)
Theorem C62_nested_bound_refuted : exists s n2 m, vdomain s /\ vs_direction s = Some false /\ kx_objective (vs_i s) = OBinPacking /\
  vreachable s n2 /\ vleaf s n2 = true /\ vbound s (vroot s) n2 = Some true /\ vbelow s (vroot s) m /\ vleaf s m = true /\ vn_bins m = 1%nat /\ vn_bins n2 = 2%nat.
Proof.
  set (s := vscheme (mkKInst OBinPacking [] [mkKI (mkV 1 1 10) 1 1 1 0 [XYZ] 1 0 9 9 None; mkKI (mkV 1 1 10) 1 1 1 0 [XYZ] 1 0 0 9 None] [plain_bin 1 1 11 2]) UNone (Some false)). exists s, (vthe_node s [0; 0]%nat), (vthe_node s [1; 0]%nat).
  split; [vdom|]. split; [reflexivity|]. split; [reflexivity|]. split; [vwalk [0; 0]%nat|]. split; [vm_compute; reflexivity|]. split; [vm_compute; reflexivity|]. split; [vwalk [1; 0]%nat|]. repeat split; vm_compute; reflexivity.
Qed.
Print Assumptions C62_nested_bound_refuted.
