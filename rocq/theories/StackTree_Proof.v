(** * Insertions of the boxstacks branching scheme *)

From Coq Require Import List ZArith QArith Bool Lia Lqa Arith Permutation.
From Verif Require Import Util Common_Model Common_Proof OneDim_Model OneDim_Proof Tree1D_Proof Rect_Model RectFlip_Model RectTree_Model RectTree_Proof
  Box_Model Stack_Model Stack_Spec Stack_Proof StackTree_Model StackTree_Spec StackSky_Proof.
Import ListNotations.
Open Scope Z_scope.

(** ** Order of the bins *)

Lemma vinsert_bin_perm : forall i t l, Permutation (vinsert_bin i t l) (t :: l).
Proof. intros i t. induction l as [|u r IH]; [reflexivity|]. cbn [vinsert_bin]. destruct (_ <? _); [reflexivity|]. rewrite IH. apply perm_swap. Qed.

Lemma vbin_order_perm : forall i, Permutation (vbin_order i) (seq 0 (length (kx_bins i))).
Proof.
  intros i. unfold vbin_order. assert (G : forall l acc, Permutation (fold_left (fun acc t => vinsert_bin i t acc) l acc) (acc ++ l)).
  { induction l as [|t l IH]; intros acc; cbn [fold_left]; [rewrite app_nil_r; reflexivity|]. rewrite IH, vinsert_bin_perm. cbn [app]. apply Permutation_middle. }
  destruct (kx_objective i); try reflexivity. apply G.
Qed.

Lemma vbins_perm : forall i, Permutation (vbins i) (flat_map (fun t => repeat t (Z.to_nat (kb_copies (kbin i t)))) (seq 0 (length (kx_bins i)))).
Proof. intros i. unfold vbins. apply Permutation_flat_map. apply vbin_order_perm. Qed.

Lemma vbins_nth : forall i p, (p < length (vbins i))%nat -> (nth p (vbins i) 0%nat < length (kx_bins i))%nat.
Proof.
  intros i p H. apply (nth_In _ 0%nat) in H. apply (Permutation_in _ (vbins_perm i)) in H. apply in_flat_map in H. destruct H as (u & Hu & H). apply repeat_spec in H. rewrite H. apply in_seq in Hu. lia.
Qed.

Lemma vprevious_S : forall i k, (k < length (vbins i))%nat -> vprevious i (S k) = vprevious i k + vol (kb_box (kbin i (nth k (vbins i) 0%nat))).
Proof.
  intros i k H. unfold vprevious. assert (E : nth_error (vbins i) k = Some (nth k (vbins i) 0%nat)) by (apply nth_error_nth'; exact H).
  rewrite (firstn_succ_snoc _ _ _ _ E), zsum_snoc. reflexivity.
Qed.

Lemma vprevious_mono : forall i a b, (forall t, (t < length (kx_bins i))%nat -> 0 <= vol (kb_box (kbin i t))) -> (a <= b)%nat -> (b <= length (vbins i))%nat -> vprevious i a <= vprevious i b.
Proof.
  intros i a b Hp Hab Hb. induction Hab as [|b Hab IH]; [lia|]. rewrite vprevious_S by lia. specialize (Hp _ (vbins_nth i b ltac:(lia))). lia.
Qed.

(** ** The flipped instance *)

Lemma kflip_item_eq : forall i x, kitem (kflip i) x = kflip_item (kitem i x).
Proof. intros i x. unfold kitem. cbn [kflip kx_items]. apply (map_nth kflip_item (kx_items i) dummy_kitem). Qed.

Lemma kflip_bin_eq : forall i t, kbin (kflip i) t = kflip_bin (kbin i t).
Proof. intros i t. unfold kbin. cbn [kflip kx_bins]. apply (map_nth kflip_bin (kx_bins i) dummy_kbin). Qed.

Lemma kflip_groups : forall i, kgroups (kflip i) = kgroups i.
Proof.
  intros i. unfold kgroups. cbn [kflip kx_items]. generalize 0%nat. induction (kx_items i) as [|it l IH]; intros n; [reflexivity|]. cbn [map fold_left]. apply IH.
Qed.

Lemma swap_vol : forall v, vol (swap_box v) = vol v.
Proof. intros v. unfold vol, swap_box. cbn. ring. Qed.

Lemma rotate_swap : forall v r, upright r -> rotate (swap_box v) r = swap_box (rotate v r).
Proof. intros v r [-> | ->]; reflexivity. Qed.

(** ** Insertions *)

Definition vins_pos (n : VNode) (new : option (nat * bool)) : nat := match new with Some (p, _) => p | None => (vn_bins n - 1)%nat end.
Definition vins_dir (n : VNode) (new : option (nat * bool)) : bool := match new with Some (_, d) => d | None => vn_dir n end.

Lemma voverlaps_true : forall ys ye u, ys < vp_ye u -> vp_ys u < ye -> voverlaps ys ye u = true.
Proof. intros ys ye u H1 H2. unfold voverlaps. destruct (Z.leb_spec (vp_ye u) ys); [lia|]. destruct (Z.leb_spec ye (vp_ys u)); [lia|]. reflexivity. Qed.

Lemma vdense_false : forall bt w xj yj, vtoo_dense bt w xj yj = false -> 0 < xj -> 0 < yj -> forall d, kb_max_density bt = Some d -> (w <= d * PSTOL * inject_Z (xj * yj))%Q.
Proof.
  intros bt w xj yj H Hx Hy d Ed. unfold vtoo_dense in H. apply kexceeds_false in H. rewrite Ed in H. cbn [most] in H.
  assert (Px : (0 < inject_Z xj)%Q) by (rewrite Zlt_Qlt in Hx; exact Hx). assert (Py : (0 < inject_Z yj)%Q) by (rewrite Zlt_Qlt in Hy; exact Hy).
  rewrite inject_Z_mult. assert (E : (w == w / inject_Z xj / inject_Z yj * (inject_Z xj * inject_Z yj))%Q) by (field; split; intro E0; lra).
  rewrite E. apply Qmult_le_compat_r; [exact H|]. apply Qlt_le_weak. apply Qmult_lt_0_compat; assumption.
Qed.

(** A new stack. *)
Record NewIns (s : VScheme) (n : VNode) (x : nat) (r : Rotation) (new : option (nat * bool)) (xs ys : Z) : Prop := {
  ni_new : match new with None => vn_bins n <> 0%nat | Some (p, d) => (vn_bins n <= p < length (vbins (vs_i s)))%nat /\ d = vnew_direction s p end;
  ni_item : (x < length (kx_items (vs_i s)))%nat /\ In r (ki_rotations (kitem (vs_i s) x)) /\ nth x (vn_copies n) 0 <> ki_copies (kitem (vs_i s) x);
  ni_y : 0 <= ys /\ ys + v_y (ksize (vinst s (vins_dir n new)) (x, r)) <= v_y (kb_box (kbin (vinst s (vins_dir n new)) (nth (vins_pos n new) (vbins (vs_i s)) 0%nat)));
  ni_x : 0 <= xs /\ xs + v_x (ksize (vinst s (vins_dir n new)) (x, r)) <= v_x (kb_box (kbin (vinst s (vins_dir n new)) (nth (vins_pos n new) (vbins (vs_i s)) 0%nat)));
  ni_z : v_z (ksize (vinst s (vins_dir n new)) (x, r)) <= v_z (kb_box (kbin (vinst s (vins_dir n new)) (nth (vins_pos n new) (vbins (vs_i s)) 0%nat)));
  ni_weight : most (match new with Some _ => ki_weight (kitem (vinst s (vins_dir n new)) x) | None => hd 0 (vn_w n) + ki_weight (kitem (vinst s (vins_dir n new)) x) end)%Q
    (kb_max_weight (kbin (vinst s (vins_dir n new)) (nth (vins_pos n new) (vbins (vs_i s)) 0%nat)));
  ni_density : vtoo_dense (kbin (vinst s (vins_dir n new)) (nth (vins_pos n new) (vbins (vs_i s)) 0%nat)) (ki_weight (kitem (vinst s (vins_dir n new)) x))
    (v_x (ksize (vinst s (vins_dir n new)) (x, r))) (v_y (ksize (vinst s (vins_dir n new)) (x, r))) = false;
  ni_after : new = None -> forall u, In u (vn_pieces n) -> ys < vp_ye u -> vp_ys u < ys + v_y (ksize (vinst s (vins_dir n new)) (x, r)) -> vp_xe u <= xs;
  ni_defects : forall f, In f (kb_defects (kbin (vinst s (vins_dir n new)) (nth (vins_pos n new) (vbins (vs_i s)) 0%nat))) ->
    clear_of (v_x (ksize (vinst s (vins_dir n new)) (x, r))) ys (ys + v_y (ksize (vinst s (vins_dir n new)) (x, r))) xs f;
  ni_unloading : exists xs0, vunloading_allows (vinst s (vins_dir n new)) (vunloading s (vins_dir n new)) n (ki_group (kitem (vinst s (vins_dir n new)) x)) xs0 ys
      (ys + v_y (ksize (vinst s (vins_dir n new)) (x, r))) = Some true
    /\ (kb_defects (kbin (vinst s (vins_dir n new)) (nth (vins_pos n new) (vbins (vs_i s)) 0%nat)) = [] -> xs0 = xs)
}.

(** An item above an uncovered item. *)
Record AboveIns (s : VScheme) (n : VNode) (x : nat) (r : Rotation) (k : nat) (u : VPiece) : Prop := {
  ai_bins : vn_bins n <> 0%nat;
  ai_item : (x < length (kx_items (vs_i s)))%nat /\ In r (ki_rotations (kitem (vs_i s) x)) /\ nth x (vn_copies n) 0 <> ki_copies (kitem (vs_i s) x);
  ai_piece : nth_error (vn_pieces n) k = Some u;
  ai_ne : vp_items u <> [];
  ai_x : v_x (ksize (vinst s (vn_dir n)) (x, r)) = vp_xe u - vp_xs u;
  ai_y : v_y (ksize (vinst s (vn_dir n)) (x, r)) = vp_ye u - vp_ys u;
  ai_same : ki_stackability (kitem (vinst s (vn_dir n)) x) = ki_stackability (kitem (vinst s (vn_dir n)) (last (vp_items u) 0%nat));
  ai_group : ki_group (kitem (vinst s (vn_dir n)) x) = ki_group (kitem (vinst s (vn_dir n)) (last (vp_items u) 0%nat));
  ai_z : vp_ze u + (v_z (ksize (vinst s (vn_dir n)) (x, r)) - ki_nesting (kitem (vinst s (vn_dir n)) x))
    <= v_z (kb_box (kbin (vinst s (vn_dir n)) (nth (vn_bins n - 1) (vbins (vs_i s)) 0%nat)));
  ai_weight : most (hd 0 (vn_w n) + ki_weight (kitem (vinst s (vn_dir n)) x))%Q (kb_max_weight (kbin (vinst s (vn_dir n)) (nth (vn_bins n - 1) (vbins (vs_i s)) 0%nat)));
  ai_density : vtoo_dense (kbin (vinst s (vn_dir n)) (nth (vn_bins n - 1) (vbins (vs_i s)) 0%nat)) (vp_weight u + ki_weight (kitem (vinst s (vn_dir n)) x))
    (v_x (ksize (vinst s (vn_dir n)) (x, r))) (v_y (ksize (vinst s (vn_dir n)) (x, r))) = false;
  ai_number : Z.of_nat (length (vp_items u)) + 1 <= Z.min (vp_max u) (ki_max_stackability (kitem (vinst s (vn_dir n)) x));
  ai_rem : forall q, vp_rem u = Some q -> (ki_weight (kitem (vinst s (vn_dir n)) x) <= q)%Q
}.

Inductive VCase (s : VScheme) (n : VNode) (ins : VInsertion) : Prop :=
| case_new x r new xs ys : ins = mkVI x r xs ys 0 None new -> NewIns s n x r new xs ys -> VCase s n ins
| case_above x r k u : ins = mkVI x r (vp_xs u) (vp_ys u) (vp_ze u) (Some k) None -> AboveIns s n x r k u -> VCase s n ins.

Section Domain.
Variable s : VScheme.
Hypothesis Hd : vdomain s.

Lemma vdom_item : forall dir x, let a := kitem (vinst s dir) x in let b := kitem (vs_i s) x in
  ki_profit a = ki_profit b /\ ki_copies a = ki_copies b /\ ki_group a = ki_group b /\ ki_weight a = ki_weight b /\ ki_rotations a = ki_rotations b
  /\ ki_stackability a = ki_stackability b /\ ki_nesting a = ki_nesting b /\ ki_max_stackability a = ki_max_stackability b /\ ki_max_above a = ki_max_above b.
Proof. intros dir x. cbv zeta. destruct dir; cbn [vinst]; [rewrite kflip_item_eq|]; repeat (split; [reflexivity|]); reflexivity. Qed.

Lemma vdom_lengths : forall dir, length (kx_items (vinst s dir)) = length (kx_items (vs_i s)) /\ length (kx_bins (vinst s dir)) = length (kx_bins (vs_i s)).
Proof. intros [|]; cbn [vinst]; [|auto]. cbn [kflip kx_items kx_bins]. rewrite !map_length. auto. Qed.

Lemma vdom_size : forall dir x r, (x < length (kx_items (vs_i s)))%nat ->
  0 < v_x (ksize (vinst s dir) (x, r)) /\ 0 < v_y (ksize (vinst s dir) (x, r)) /\ 0 < v_z (ksize (vinst s dir) (x, r)).
Proof.
  intros dir x r Hx. destruct (vd_items s Hd (kitem (vs_i s) x) (nth_In _ _ Hx)) as (A & B & C & _).
  unfold ksize. cbn [fst snd]. destruct dir; cbn [vinst]; [rewrite kflip_item_eq|]; destruct r; cbn; auto.
Qed.

Lemma vdom_bin : forall dir t, (t < length (kx_bins (vs_i s)))%nat -> let b := kbin (vinst s dir) t in
  0 < v_x (kb_box b) /\ 0 < v_y (kb_box b) /\ 0 < v_z (kb_box b) /\ vol (kb_box b) = vol (kb_box (kbin (vs_i s) t)).
Proof.
  intros dir t Ht. cbv zeta. destruct (vd_bins s Hd (kbin (vs_i s) t) (nth_In _ _ Ht)) as (A & B & C).
  destruct dir; cbn [vinst]; [rewrite kflip_bin_eq; cbn [kflip_bin kb_box]; rewrite swap_vol; cbn; auto|auto].
Qed.

Lemma vdom_defects : forall dir t f, (t < length (kx_bins (vs_i s)))%nat -> In f (kb_defects (kbin (vinst s dir) t)) -> 0 <= df_ye f.
Proof.
  intros dir t f Ht Hf. unfold df_ye. pose proof (fun g => vd_defects s Hd (kbin (vs_i s) t) g (nth_In _ _ Ht)) as D. destruct dir; cbn [vinst] in Hf; [|apply D, Hf].
  rewrite kflip_bin_eq in Hf. cbn [kflip_bin kb_defects] in Hf. apply in_map_iff in Hf. destruct Hf as (g & <- & Hg). cbn. apply D, Hg.
Qed.

Lemma vdom_upright : forall x r, (x < length (kx_items (vs_i s)))%nat -> In r (ki_rotations (kitem (vs_i s) x)) -> forall p, vnew_direction s p = true -> upright r.
Proof.
  intros x r Hx Hr p Hp. destruct (vd_upright s Hd) as [E|H]; [unfold vnew_direction in Hp; rewrite E in Hp; discriminate|]. exact (H _ r (nth_In _ _ Hx) Hr).
Qed.

Lemma vfor_items_in : forall n f o, In o (vfor_items s n f) -> exists x r, (x < length (kx_items (vs_i s)))%nat /\ In r (ki_rotations (kitem (vs_i s) x))
  /\ nth x (vn_copies n) 0 <> ki_copies (kitem (vs_i s) x) /\ In o (f x r).
Proof.
  intros n f o H. unfold vfor_items in H. apply in_flat_map in H. destruct H as (x & Hx & H). apply in_seq in Hx. destruct (vitem_ok s n x) eqn:E; [|destruct H]. apply in_flat_map in H. destruct H as (r & Hr & H).
  unfold vitem_ok in E. apply andb_true_iff in E. destruct E as [_ E]. apply negb_true_iff, Z.eqb_neq in E. exists x, r. split; [lia|]. auto.
Qed.

(** The node's pieces. *)
Variable n : VNode.
Hypothesis Hp : forall u, In u (vn_pieces n) -> 0 <= vp_xe u /\ 0 <= vp_ys u /\ vp_ys u < vp_ye u.

Lemma vleft_spec : forall ys ye, let f := fold_left (fun xs u => if voverlaps ys ye u then (if xs <? vp_xe u then vp_xe u else xs) else xs) (vn_pieces n) 0 in
  0 <= f /\ forall u, In u (vn_pieces n) -> ys < vp_ye u -> vp_ys u < ye -> vp_xe u <= f.
Proof.
  intros ys ye. cbv zeta.
  assert (G : forall l m, m <= fold_left (fun xs u => if voverlaps ys ye u then (if xs <? vp_xe u then vp_xe u else xs) else xs) l m
    /\ forall u, In u l -> ys < vp_ye u -> vp_ys u < ye -> vp_xe u <= fold_left (fun xs u => if voverlaps ys ye u then (if xs <? vp_xe u then vp_xe u else xs) else xs) l m).
  { induction l as [|v l IH]; intros m; cbn [fold_left]; [split; [lia|intros u []]|].
    destruct (IH (if voverlaps ys ye v then if m <? vp_xe v then vp_xe v else m else m)) as [A B]. split.
    - destruct (voverlaps ys ye v); [|exact A]. destruct (Z.ltb_spec m (vp_xe v)); lia.
    - intros u [<-|Hu] H1 H2; [|apply B; assumption]. rewrite (voverlaps_true ys ye v H1 H2) in *. destruct (Z.ltb_spec m (vp_xe v)); lia. }
  apply G.
Qed.

(** Sources of [insertion_item]. *)
Definition vsource_ok (new : option (nat * bool)) (src : Source) : Prop :=
  match src with
  | FromPiece O => True
  | FromPiece pos => new = None /\ (pos < length (vn_pieces n))%nat
  | FromDefect k => (k < length (kb_defects (kbin (vinst s (vins_dir n new)) (nth (vins_pos n new) (vbins (vs_i s)) 0%nat))))%nat
  end.

Lemma vinsertion_item_case : forall x r new src l ins, vinsertion_item s n x r new src = Some l -> In ins l ->
  match new with None => vn_bins n <> 0%nat | Some (p, d) => (vn_bins n <= p < length (vbins (vs_i s)))%nat /\ d = vnew_direction s p end ->
  (vins_pos n new < length (vbins (vs_i s)))%nat ->
  (x < length (kx_items (vs_i s)))%nat -> In r (ki_rotations (kitem (vs_i s) x)) -> nth x (vn_copies n) 0 <> ki_copies (kitem (vs_i s) x) -> vsource_ok new src ->
  exists xs ys, ins = mkVI x r xs ys 0 None new /\ NewIns s n x r new xs ys.
Proof.
  intros x r new src l ins H Hin Hnew Hpos Hx Hr Hc Hsrc. unfold vinsertion_item in H. cbv zeta in H.
  change (match new with Some (_, d) => d | None => vn_dir n end) with (vins_dir n new) in H.
  change (match new with Some (p, _) => p | None => (vn_bins n - 1)%nat end) with (vins_pos n new) in H. unfold vsource_ok in Hsrc.
  pose proof (vbins_nth _ _ Hpos) as Ht. set (t := nth (vins_pos n new) (vbins (vs_i s)) 0%nat) in *. set (inst := vinst s (vins_dir n new)) in *. set (bt := kbin inst t) in *.
  match type of H with context [if v_y (kb_box bt) <? ?a + _ then _ else _] => set (ys := a) in * end.
  assert (Hys : 0 <= ys).
  { unfold ys. destruct src as [[|pos]|k]; [lia| |].
    - destruct Hsrc as [_ Hsrc]. apply (Hp (nth (S pos) (vn_pieces n) dummy_vpiece)). apply nth_In. exact Hsrc.
    - apply (vdom_defects (vins_dir n new) t); [exact Ht|]. fold inst bt. apply nth_In. exact Hsrc. }
  set (xj := v_x (ksize inst (x, r))) in *. set (yj := v_y (ksize inst (x, r))) in *.
  destruct (Z.ltb_spec (v_y (kb_box bt)) (ys + yj)) as [|Hy]; [injection H as <-; destruct Hin|].
  destruct (kexceeds _ _) eqn:Ew; [injection H as <-; destruct Hin|]. apply kexceeds_false in Ew.
  destruct (vtoo_dense _ _ _ _) eqn:Ed; [injection H as <-; destruct Hin|].
  match type of H with context [vunloading_allows inst _ n _ ?a ys _] => set (xs0 := a) in * end.
  destruct (vunloading_allows _ _ _ _ _ _ _) as [[|]|] eqn:Eu; [|injection H as <-; destruct Hin|discriminate].
  set (xs := avoid_defects _ _ _ _ _ _) in H. destruct (Z.ltb_spec (v_x (kb_box bt)) (xs + xj)) as [|Hxe]; [injection H as <-; destruct Hin|].
  destruct (Z.ltb_spec (v_z (kb_box bt)) (v_z (ksize inst (x, r)))) as [|Hz]; [injection H as <-; destruct Hin|].
  match type of H with (if ?c then _ else _) = _ => destruct c end; [injection H as <-; destruct Hin|].
  destruct (negb _); injection H as <-; [destruct Hin|]. destruct Hin as [<-|[]]. exists xs, ys. split; [reflexivity|].
  destruct (avoid_spec xj ys (ys + yj) (kb_defects bt) (S (length (kb_defects bt))) xs0) as [V1 V2]. { pose proof (ahead_length (kb_defects bt) xs0). lia. } fold xs in V1, V2.
  assert (X0 : 0 <= xs0 /\ (new = None -> forall u, In u (vn_pieces n) -> ys < vp_ye u -> vp_ys u < ys + yj -> vp_xe u <= xs0)).
  { unfold xs0. destruct new as [pd|]; [split; [lia|discriminate]|]. destruct (vleft_spec ys (ys + yj)). auto. }
  constructor; fold inst t bt; fold xj yj.
  - exact Hnew.
  - auto.
  - lia.
  - lia.
  - exact Hz.
  - destruct new as [pd|]; exact Ew.
  - exact Ed.
  - intros En u Hu H1 H2. destruct X0 as [_ X0]. specialize (X0 En u Hu H1 H2). lia.
  - exact V2.
  - exists xs0. split; [exact Eu|]. intros En. unfold xs. rewrite En, avoid_none. reflexivity.
Qed.

Lemma vinsertion_left_case : forall x r k l ins, vinsertion_left s n x r k = Some l -> In ins l -> vn_bins n <> 0%nat ->
  (x < length (kx_items (vs_i s)))%nat -> In r (ki_rotations (kitem (vs_i s) x)) -> nth x (vn_copies n) 0 <> ki_copies (kitem (vs_i s) x) -> (k < length (vn_pieces n))%nat ->
  exists xs ys, ins = mkVI x r xs ys 0 None None /\ NewIns s n x r None xs ys.
Proof.
  intros x r k l ins H Hin Hb Hx Hr Hc Hk. unfold vinsertion_left in H. cbv zeta in H.
  set (t := nth (vn_bins n - 1) (vbins (vs_i s)) 0%nat) in *. set (inst := vinst s (vn_dir n)) in *. set (bt := kbin inst t) in *.
  set (u0 := nth k (vn_pieces n) dummy_vpiece) in *. destruct (Hp u0 (nth_In _ _ Hk)) as (P1 & P2 & P3).
  set (xj := v_x (ksize inst (x, r))) in *. set (yj := v_y (ksize inst (x, r))) in *.
  destruct (Z.ltb_spec (v_y (kb_box bt)) (vp_ye u0 + yj)) as [|Hy]; [injection H as <-; destruct Hin|].
  destruct (Z.ltb_spec (v_x (kb_box bt)) (vp_xe u0 + xj)) as [|Hxe]; [injection H as <-; destruct Hin|].
  destruct (Z.ltb_spec (v_z (kb_box bt)) (v_z (ksize inst (x, r)))) as [|Hz]; [injection H as <-; destruct Hin|].
  destruct (kexceeds _ _) eqn:Ew; [injection H as <-; destruct Hin|]. apply kexceeds_false in Ew.
  destruct (vtoo_dense _ _ _ _) eqn:Ed; [injection H as <-; destruct Hin|].
  destruct (existsb (fun v => _ && _) _) eqn:Ex; [injection H as <-; destruct Hin|].
  destruct (vunloading_allows _ _ _ _ _ _ _) as [[|]|] eqn:Eu; [|injection H as <-; destruct Hin|discriminate].
  destruct (existsb _ (kb_defects bt)) eqn:Edf; [injection H as <-; destruct Hin|].
  match type of H with (if ?c then _ else _) = _ => destruct c end; [injection H as <-; destruct Hin|].
  destruct (negb _); injection H as <-; [destruct Hin|]. destruct Hin as [<-|[]]. exists (vp_xe u0), (vp_ye u0). split; [reflexivity|].
  constructor; cbn [vins_dir vins_pos]; fold inst t bt; fold xj yj.
  - exact Hb.
  - auto.
  - lia.
  - lia.
  - exact Hz.
  - exact Ew.
  - exact Ed.
  - intros _ u Hu H1 H2. destruct (Z.le_gt_cases (vp_xe u) (vp_xe u0)) as [C|C]; [exact C|]. exfalso. apply not_true_iff_false in Ex. apply Ex. apply existsb_exists. exists u. split; [exact Hu|].
    rewrite voverlaps_true by assumption. cbn [andb]. apply Z.ltb_lt. lia.
  - intros f Hf. unfold clear_of. apply not_true_iff_false in Edf. destruct ((vp_xe u0 + xj <=? df_x f) || (df_xe f <=? vp_xe u0) || (vp_ye u0 + yj <=? df_y f) || (df_ye f <=? vp_ye u0)) eqn:E.
    + rewrite !orb_true_iff, !Z.leb_le in E. tauto.
    + exfalso. apply Edf. apply existsb_exists. exists f. split; [exact Hf|]. rewrite E. reflexivity.
  - exists (vp_xe u0). split; [exact Eu|]. intros _. reflexivity.
Qed.

Lemma vinsertion_above_case : forall x r k ins, In ins (vinsertion_above s n x r k) -> vn_bins n <> 0%nat ->
  (x < length (kx_items (vs_i s)))%nat -> In r (ki_rotations (kitem (vs_i s) x)) -> nth x (vn_copies n) 0 <> ki_copies (kitem (vs_i s) x) -> (k < length (vn_pieces n))%nat ->
  vp_items (nth k (vn_pieces n) dummy_vpiece) <> [] ->
  let u := nth k (vn_pieces n) dummy_vpiece in ins = mkVI x r (vp_xs u) (vp_ys u) (vp_ze u) (Some k) None /\ AboveIns s n x r k u.
Proof.
  intros x r k ins Hin Hb Hx Hr Hc Hk Hne. cbv zeta. unfold vinsertion_above in Hin. cbv zeta in Hin.
  set (t := nth (vn_bins n - 1) (vbins (vs_i s)) 0%nat) in *. set (inst := vinst s (vn_dir n)) in *. set (bt := kbin inst t) in *. set (u := nth k (vn_pieces n) dummy_vpiece) in *.
  destruct (negb ((_ =? _) && (_ =? _))) eqn:E1; [destruct Hin|]. apply negb_false_iff, andb_true_iff in E1. destruct E1 as [E1a E1b]. apply Z.eqb_eq in E1a, E1b.
  destruct (negb (_ =? _)) eqn:E2; [destruct Hin|]. apply negb_false_iff, Z.eqb_eq in E2.
  destruct (Z.ltb_spec (v_z (kb_box bt)) (vp_ze u + (v_z (ksize inst (x, r)) - ki_nesting (kitem inst x)))) as [|E3]; [destruct Hin|].
  destruct (kexceeds _ _) eqn:E4; [destruct Hin|]. apply kexceeds_false in E4.
  destruct (vtoo_dense _ _ _ _) eqn:E5; [destruct Hin|].
  destruct (Z.ltb_spec (Z.min (vp_max u) (ki_max_stackability (kitem inst x))) (Z.of_nat (length (vp_items u)) + 1)) as [|E6]; [destruct Hin|].
  match type of Hin with In _ (if ?c then _ else _) => destruct c eqn:E7 end; [destruct Hin|].
  destruct (negb (_ =? _)%nat) eqn:E8; [destruct Hin|]. apply negb_false_iff, Nat.eqb_eq in E8.
  destruct (negb _); [destruct Hin|]. destruct Hin as [<-|[]]. split; [reflexivity|].
  constructor; fold inst t bt; try assumption.
  - auto.
  - apply nth_error_nth'. exact Hk.
  - intros q Eq. rewrite Eq in E7. apply Qltb_ge in E7. exact E7.
Qed.

Lemma vinsertions_case : forall l ins, vinsertions s n = Some l -> In ins l -> (vn_bins n <= length (vbins (vs_i s)))%nat -> VCase s n ins.
Proof.
  intros l ins H Hin Hlen. unfold vinsertions in H.
  assert (G : forall ps l, (forall p, In p ps -> (vn_bins n <= p < length (vbins (vs_i s)))%nat) -> vfirst s n ps = Some l -> In ins l -> VCase s n ins).
  { clear l H Hin. induction ps as [|p ps IH]; intros l Hps H Hin; cbn [vfirst] in H; [injection H as <-; destruct Hin|].
    destruct (vnew_bin s n p) as [l1|] eqn:E; [|discriminate]. destruct l1 as [|i1 l1]; [apply (IH l); [intros q Hq; apply Hps; right; exact Hq|exact H|exact Hin]|]. injection H as <-.
    unfold vnew_bin in E. cbv zeta in E. destruct (oconcat_in _ _ _ _ E Hin) as (l' & H1 & H2).
    assert (Hpp := Hps p (or_introl eq_refl)).
    apply in_app_or in H1. destruct H1 as [H1|H1].
    - destruct (vfor_items_in _ _ _ H1) as (x & r & Hx & Hr & Hc & [Hf|[]]).
      destruct (vinsertion_item_case x r (Some (p, vnew_direction s p)) (FromPiece 0) l' ins Hf H2) as (xs & ys & A & B); try assumption; [auto|cbn; lia|exact I|]. eapply case_new; eassumption.
    - apply in_flat_map in H1. destruct H1 as (k & Hk & H1). apply in_seq in Hk. destruct (vfor_items_in _ _ _ H1) as (x & r & Hx & Hr & Hc & [Hf|[]]).
      destruct (vinsertion_item_case x r (Some (p, vnew_direction s p)) (FromDefect k) l' ins Hf H2) as (xs & ys & A & B); try assumption; [auto|cbn; lia|cbn; lia|]. eapply case_new; eassumption. }
  assert (Hseq : forall p, In p (seq (vn_bins n) (length (vbins (vs_i s)) - vn_bins n)) -> (vn_bins n <= p < length (vbins (vs_i s)))%nat) by (intros p H0; apply in_seq in H0; lia).
  destruct (vsame_bin s n) as [l1|] eqn:E; [|discriminate]. destruct l1 as [|i1 l1]; [exact (G _ _ Hseq H Hin)|]. injection H as <-.
  unfold vsame_bin in E. destruct (Nat.eqb_spec (vn_bins n) 0) as [Eb|Eb]; [discriminate|]. cbv zeta in E. destruct (oconcat_in _ _ _ _ E Hin) as (l' & H1 & H2).
  apply in_app_or in H1. destruct H1 as [H1|H1]; [|apply in_app_or in H1; destruct H1 as [H1|H1]].
  - apply in_flat_map in H1. destruct H1 as (k & Hk & H1). apply in_seq in Hk. destruct (vp_items (nth k (vn_pieces n) dummy_vpiece)) as [|a b] eqn:Ei; [destruct H1|].
    destruct (vfor_items_in _ _ _ H1) as (x & r & Hx & Hr & Hc & [Hf|[]]). injection Hf as <-.
    destruct (vinsertion_above_case x r k ins H2 Eb Hx Hr Hc) as [A B]; [lia|rewrite Ei; discriminate|]. eapply case_above; eassumption.
  - apply in_flat_map in H1. destruct H1 as (k & Hk & H1). apply in_seq in Hk. destruct (vfor_items_in _ _ _ H1) as (x & r & Hx & Hr & Hc & [Hf|[Hf|[]]]).
    + destruct (vinsertion_item_case x r None (FromPiece k) l' ins Hf H2) as (xs & ys & A & B); try assumption; [cbn; lia|destruct k; cbn; [exact I|split; [reflexivity|lia]]|]. eapply case_new; eassumption.
    + destruct (vinsertion_left_case x r k l' ins Hf H2 Eb Hx Hr Hc) as (xs & ys & A & B); [lia|]. eapply case_new; eassumption.
  - apply in_flat_map in H1. destruct H1 as (k & Hk & H1). apply in_seq in Hk. destruct (vdefect_ahead _ _); [|destruct H1]. destruct (vfor_items_in _ _ _ H1) as (x & r & Hx & Hr & Hc & [Hf|[]]).
    destruct (vinsertion_item_case x r None (FromDefect k) l' ins Hf H2) as (xs & ys & A & B); try assumption; [cbn; lia|cbn; lia|]. eapply case_new; eassumption.
Qed.
End Domain.
