(** * The search on maximal spaces keeps its nodes valid *)

From Coq Require Import List ZArith QArith Bool Lia Lqa Arith Permutation.
From Verif Require Import Util Block_Model Space_Model Space_Spec Space_Proof.
Import ListNotations.
Open Scope Z_scope.

(** ** The cut always ends *)

Lemma adds_extra : forall ns l, exists extra, fold_left add_space ns l = l ++ extra
  /\ (forall n, In n extra -> In n ns) /\ (length extra <= length ns)%nat.
Proof.
  induction ns as [|n ns IH]; intro l; cbn [fold_left].
  - exists []. rewrite app_nil_r. repeat split; [tauto|simpl; lia].
  - unfold add_space at 2. destruct (existsb _ n); [|destruct (existsb (fun e => sp_contains e n) l)].
    + destruct (IH l) as (e & E1 & E2 & E3). exists e. split; [assumption|]. split; [intros; right; auto|simpl; lia].
    + destruct (IH l) as (e & E1 & E2 & E3). exists e. split; [assumption|]. split; [intros; right; auto|simpl; lia].
    + destruct (IH (l ++ [n])) as (e & E1 & E2 & E3). rewrite <- app_assoc in E1. exists (n :: e). split; [assumption|].
      split; [intros m [<-|Hm]; [left; reflexivity|right; auto]|simpl; lia].
Qed.

Lemma subs_apart : forall s b n, In n (subs s b) -> apart n b.
Proof.
  induction s as [|x s IH]; intros [|y b] n H; try destruct H. cbn [subs] in H. unfold a_start, a_end in H.
  apply in_app_or in H. destruct H as [H|H].
  - destruct (_ <? _); [destruct H as [<-|[]]|destruct H]. apply ap_here. simpl. lia.
  - apply in_app_or in H. destruct H as [H|H].
    + destruct (_ <? _); [destruct H as [<-|[]]|destruct H]. apply ap_here. simpl. lia.
    + apply in_map_iff in H. destruct H as (m & <- & Hm). apply ap_next. auto.
Qed.

Lemma cut_loop_total : forall b fuel i l, (forall s, In s l -> length s = length b) ->
  (length l - i + 2 * length b * meets b l < fuel)%nat ->
  exists l', cut_loop fuel i l b = Some l' /\ forall s, In s l' -> length s = length b.
Proof.
  intros b. induction fuel as [|fuel IH]; intros i l L F; [lia|]. cbn [cut_loop]. destruct (nth_error l i) as [s|] eqn:E; [|eauto].
  assert (Hi : (i < length l)%nat) by (apply nth_error_Some; rewrite E; discriminate).
  assert (Hs : In s l) by (eapply nth_error_In; eassumption).
  destruct (sp_overlaps s b) eqn:O; [|apply IH; [assumption|lia]].
  pose proof (swap_remove_perm _ _ _ _ E) as P. set (l0 := swap_remove i l) in *.
  destruct (adds_extra (subs s b) l0) as (extra & -> & E2 & E3). apply IH.
  - intros t Ht. apply in_app_or in Ht. destruct Ht as [Ht|Ht].
    + apply L. apply (Permutation_in t (Permutation_sym P)). right. assumption.
    + rewrite (subs_length s b t) by auto. auto.
  - assert (M : (meets b l = S (meets b l0))%nat) by (rewrite (meets_perm b _ _ P); unfold meets; cbn [filter]; rewrite O; reflexivity).
    assert (M2 : meets b (l0 ++ extra) = meets b l0).
    { unfold meets. rewrite filter_app, app_length. replace (filter (fun s0 => sp_overlaps s0 b) extra) with (@nil (list (Z * Z))); [simpl; lia|].
      symmetry. assert (Hl : length s = length b) by auto. clear - E2 Hl. induction extra as [|n extra IHe]; [reflexivity|]. cbn [filter].
      assert (Hn : In n (subs s b)) by (apply E2; left; reflexivity).
      replace (sp_overlaps n b) with false.
      - apply IHe. intros m Hm. apply E2. right. assumption.
      - symmetry. apply overlaps_apart; [rewrite (subs_length _ _ _ Hn); assumption|]. eapply subs_apart. eassumption. }
    rewrite M2. apply Permutation_length in P. simpl in P. rewrite app_length. pose proof (subs_count s b). nia.
Qed.

Lemma cut_spaces_total : forall b l, (forall s, In s l -> length s = length b) ->
  exists l', cut_spaces l b = Some l' /\ forall s, In s l' -> length s = length b.
Proof.
  intros b l L. unfold cut_spaces. apply cut_loop_total; [assumption|]. unfold cut_fuel.
  assert (meets b l <= length l)%nat.
  { unfold meets. clear. induction l as [|x l IH]; cbn [filter length]; [lia|]. destruct (sp_overlaps x b); cbn [length]; lia. }
  nia.
Qed.

Lemma cut_all_total : forall n obs l, (forall s, In s l -> length s = n) -> (forall o, In o obs -> length o = n) ->
  exists l', cut_all l obs = Some l'.
Proof.
  intros n. induction obs as [|o obs IH]; intros l L O; cbn [cut_all]; [eauto|].
  destruct (cut_spaces_total o l) as (l' & -> & L').
  - intros s Hs. rewrite (L s Hs), (O o (or_introl eq_refl)). reflexivity.
  - apply IH; [|intros; apply O; right; assumption]. intros s Hs. rewrite (L' s Hs). apply O. left. reflexivity.
Qed.

(** ** Geometry of an insertion *)

Lemma at_pos_combine : forall pos dims, at_pos pos dims = combine pos dims.
Proof. reflexivity. Qed.

Lemma fits_room : forall dims s, length dims = length s -> (fits dims s = true <-> has_room dims s).
Proof.
  unfold has_room. induction dims as [|l dims IH]; intros [|a s] L; try discriminate; cbn [fits].
  - split; [constructor|reflexivity].
  - rewrite andb_true_iff, Z.leb_le, IH by (simpl in L; lia). split; [intros [A B]; constructor; assumption|intro H; inversion H; auto].
Qed.

Lemma has_room_within : forall dims s t, has_room dims s -> within s t -> has_room dims t.
Proof.
  unfold has_room, within. intros dims s t H. revert t. induction H; intros t W; inversion W; subst; constructor; [lia|auto].
Qed.

Lemma anchor_length : forall s bin, length s = length bin -> length (snd (anchor s bin)) = length s.
Proof.
  induction s as [|a s IH]; intros [|l bin] L; try discriminate; [reflexivity|]. cbn [anchor]. specialize (IH bin).
  destruct (anchor s bin) as [dist dirs]. cbn [snd length] in *. rewrite IH; simpl in L; lia.
Qed.

Lemma position_within : forall dirs s dims, length dirs = length s -> has_room dims s ->
  within (combine (block_position dirs s dims) dims) s /\ length (block_position dirs s dims) = length s.
Proof.
  unfold has_room, within. intros dirs s dims L H. revert dirs L. induction H as [|l a dims s H HF IH]; intros [|b dirs] L; try discriminate.
  - split; [constructor|reflexivity].
  - cbn [block_position combine]. destruct (IH dirs) as [A B]; [simpl in L; lia|]. split; [|simpl; lia].
    constructor; [|assumption]. unfold a_start, a_end. destruct b; simpl; lia.
Qed.

Lemma room_of_position : forall pos dims, length pos = length dims -> has_room dims (combine pos dims).
Proof. unfold has_room. induction pos as [|p pos IH]; intros [|l dims] L; try discriminate; cbn [combine]; constructor; [simpl; lia|]. apply IH. simpl in L. lia. Qed.
Lemma positive_position : forall pos dims, Forall (fun l => 0 < l) dims -> positive (combine pos dims).
Proof. unfold positive. intros pos dims H. revert pos. induction H; intros [|p pos]; cbn [combine]; constructor; auto. Qed.

Lemma zsum_all_zero : forall A (f : A -> Z) l, (forall x, In x l -> f x = 0) -> zsum f l = 0.
Proof. intros A f l. induction l as [|x l IH]; intro H; [reflexivity|]. rewrite zsum_cons, H, IH; [reflexivity|intros; apply H; right; assumption|left; reflexivity]. Qed.

(** Total of a list of (type, number), type by type. *)
Lemma zsum_by_type : forall n (l : list (nat * Z)), (forall e, In e l -> (fst e < n)%nat) ->
  zsum snd l = zsum (fun x => zsum (fun e => if Nat.eqb (fst e) x then snd e else 0) l) (seq 0 n).
Proof.
  intro n. induction l as [|[y c] l IH]; intro H.
  - symmetry. rewrite zsum_nil. apply zsum_all_zero. intros. apply zsum_nil.
  - rewrite zsum_cons, IH by (intros; apply H; right; assumption). cbn [snd].
    rewrite (zsum_ext _ (fun x => zsum (fun e => if Nat.eqb (fst e) x then snd e else 0) ((y, c) :: l)) (fun x => (if Nat.eqb y x then c else 0) + zsum (fun e => if Nat.eqb (fst e) x then snd e else 0) l))
      by (intros; rewrite zsum_cons; reflexivity).
    rewrite zsum_plus. f_equal. assert (Hy : (y < n)%nat) by (apply (H (y, c)); left; reflexivity). clear - Hy.
    assert (T : forall k s, zsum (fun x => if Nat.eqb y x then c else 0) (seq s k) = if (Nat.leb s y && Nat.ltb y (s + k))%bool then c else 0).
    { induction k as [|k IHk]; intro s; cbn [seq].
      - rewrite zsum_nil. destruct (Nat.leb_spec s y), (Nat.ltb_spec y (s + 0)); simpl; try reflexivity; lia.
      - rewrite zsum_cons, IHk. destruct (Nat.eqb_spec y s), (Nat.leb_spec s y), (Nat.leb_spec (S s) y), (Nat.ltb_spec y (s + S k)), (Nat.ltb_spec y (S s + k)); simpl; lia. }
    rewrite T. destruct (Nat.ltb_spec y (0 + n)); [reflexivity|lia].
Qed.

Section Node.

Variable d : SData.
Hypothesis Hd : sdata_ok d.

Lemma best_space_in : forall spaces s, find_best_space d spaces = Some s -> In s spaces.
Proof.
  intros spaces s. unfold find_best_space.
  assert (G : forall l acc, (forall t, acc = Some t -> In t spaces) -> (forall t, In t l -> In t spaces) ->
    fold_left (fun best s => match best with None => Some s | Some b => if better_space d s b then Some s else Some b end) l acc = Some s -> In s spaces).
  { induction l as [|x l IH]; intros acc Ha Hl; cbn [fold_left]; [auto|]. apply IH; [|intros; apply Hl; right; assumption].
    intros t Ht. destruct acc as [b|].
    - destruct (better_space d x b); injection Ht as <-; [apply Hl; left; reflexivity|apply Ha; reflexivity].
    - injection Ht as <-. apply Hl. left. reflexivity. }
  apply G; [discriminate|tauto].
Qed.

Lemma insertions_spec : forall n id pos, In (id, pos) (insertions d n) -> exists s,
  In s (sn_spaces n) /\ In id (sn_valid n) /\ fits (sb_dims (sblock d id)) s = true /\
  too_heavy d (sn_weight n + sb_weight (sblock d id)) = false /\
  pos = block_position (snd (anchor s (sd_bin d))) s (sb_dims (sblock d id)).
Proof.
  intros n id pos H. unfold insertions in H. destruct (find_best_space d (sn_spaces n)) as [s|] eqn:E; [|destruct H].
  exists s. split; [apply best_space_in; assumption|]. apply in_flat_map in H. destruct H as (id' & Hid & H).
  destruct (fits (sb_dims (sblock d id')) s) eqn:F; cbn [negb] in H; [|destruct H].
  destruct (too_heavy d (sn_weight n + sb_weight (sblock d id'))) eqn:W; [destruct H|]. destruct H as [E'|[]]. injection E' as <- <-. auto.
Qed.

Lemma block_in : forall id, (id < length (sd_blocks d))%nat -> In (sblock d id) (sd_blocks d).
Proof. intros. apply nth_In. assumption. Qed.

(** ** Copies *)

Lemma content_nonneg : forall b x, In b (sd_blocks d) -> 0 <= content b x.
Proof.
  intros b x Hb. unfold content. apply zsum_nonneg. intros [y c] He. destruct (da_copies d Hd b y c Hb He) as [_ H]. cbn [fst snd].
  destruct (Nat.eqb y x); lia.
Qed.
Lemma content_in : forall b x c, In b (sd_blocks d) -> In (x, c) (sb_copies b) -> content b x = c.
Proof.
  intros b x c Hb Hin. destruct (da_nodup d Hd b Hb) as [N _]. unfold content. clear Hb. induction (sb_copies b) as [|[y e] l IH]; [destruct Hin|].
  simpl in N. inversion N as [|? ? N1 N2]; subst. rewrite zsum_cons. cbn [fst snd]. destruct Hin as [E|Hin].
  - injection E as -> ->. rewrite Nat.eqb_refl. assert (Z0 : zsum (fun e => if Nat.eqb (fst e) x then snd e else 0) l = 0); [|lia].
    clear - N1. induction l as [|[y e] l IHl]; [reflexivity|]. rewrite zsum_cons. cbn [fst snd]. simpl in N1.
    destruct (Nat.eqb_spec y x); [tauto|]. rewrite IHl; [reflexivity|tauto].
  - destruct (Nat.eqb_spec y x) as [->|]; [|rewrite IH; auto; lia]. exfalso. apply N1. apply in_map_iff. exists (x, c). auto.
Qed.
Lemma content_out : forall b x, ~ In x (map fst (sb_copies b)) -> content b x = 0.
Proof.
  intros b x H. unfold content. induction (sb_copies b) as [|[y e] l IHl]; [reflexivity|]. rewrite zsum_cons. cbn [fst snd]. simpl in H.
  destruct (Nat.eqb_spec y x); [tauto|]. rewrite IHl; [reflexivity|tauto].
Qed.

Lemma copies_left_spec : forall copies b, In b (sd_blocks d) ->
  (forall x, (x < length (sd_copies d))%nat -> nth x copies 0 <= nth x (sd_copies d) 0) ->
  (copies_left d copies b = true <-> forall x, (x < length (sd_copies d))%nat -> nth x copies 0 + content b x <= nth x (sd_copies d) 0).
Proof.
  intros copies b Hb Hc. unfold copies_left. rewrite forallb_forall. split.
  - intros H x Hx. destruct (in_dec Nat.eq_dec x (map fst (sb_copies b))) as [Hin|Hin].
    + apply in_map_iff in Hin. destruct Hin as ([y c] & E & Hin). simpl in E. subst y. specialize (H _ Hin). cbn [fst snd] in H.
      apply Z.leb_le in H. rewrite (content_in b x c) by assumption. assumption.
    + rewrite (content_out b x Hin). specialize (Hc x Hx). lia.
  - intros H [x c] Hin. destruct (da_copies d Hd b x c Hb Hin) as [Hx _]. specialize (H x Hx). rewrite (content_in b x c) in H by assumption.
    apply Z.leb_le. assumption.
Qed.

Lemma add_copies : forall l cs x, (forall e, In e l -> (fst e < length cs)%nat) ->
  let cs' := fold_left (fun cs xc => upd (fst xc) (fun c => c + snd xc) cs) l cs in
  length cs' = length cs /\ ((x < length cs)%nat -> nth x cs' 0 = nth x cs 0 + zsum (fun e => if Nat.eqb (fst e) x then snd e else 0) l).
Proof.
  induction l as [|[y c] l IH]; intros cs x H; cbn [fold_left]; cbv zeta.
  - rewrite zsum_nil. split; [reflexivity|]. lia.
  - cbn [fst snd]. destruct (IH (upd y (fun c0 => c0 + c) cs) x) as [A B].
    + intros e He. rewrite upd_length. apply H. right. assumption.
    + rewrite upd_length in *. split; [assumption|]. intro Hx. rewrite B by assumption. rewrite zsum_cons. cbn [fst snd].
      rewrite nth_upd by (apply (H (y, c)); left; reflexivity). destruct (Nat.eqb y x); lia.
Qed.

Lemma add_profit : forall l p, (fold_left (fun p xc => (p + nth (fst xc) (sd_profits d) 0 * inject_Z (snd xc))%Q) l p
  == p + qsum (fun e => nth (fst e) (sd_profits d) 0 * inject_Z (snd e)) l)%Q.
Proof.
  induction l as [|e l IH]; intro p; cbn [fold_left].
  - unfold qsum. simpl. lra.
  - rewrite IH, qsum_cons. lra.
Qed.

(** ** Invariant *)

Record ninv (n : SNode) : Prop := {
  ni_node : node_ok d n;
  ni_good : good (bin_space d) (sd_defects d ++ map (occupied d) (sn_placed n)) (sn_spaces n);
  ni_cover : covers (bin_space d) (fun r => exists id, available d n id /\ has_room (sb_dims (sblock d id)) r)
    (sd_defects d ++ map (occupied d) (sn_placed n)) (sn_spaces n)
}.

Lemma bin_space_length : length (bin_space d) = length (sd_bin d).
Proof. unfold bin_space. apply map_length. Qed.

Lemma usable_spec : forall valid s, (forall id, In id valid -> (id < length (sd_blocks d))%nat) -> length s = length (sd_bin d) ->
  (usable d valid s = true <-> exists id, In id valid /\ has_room (sb_dims (sblock d id)) s).
Proof.
  intros valid s Hv L. unfold usable. rewrite existsb_exists. split; intros (id & A & B); exists id; (split; [assumption|]);
    apply fits_room in B || apply fits_room; auto; destruct (da_dims d Hd _ (block_in id (Hv id A))); congruence.
Qed.

Lemma root_ninv : Forall (fun l => 0 < l) (sd_bin d) -> exists n, root d = Some n /\ ninv n /\ sn_placed n = [].
Proof.
  intro Hpos.
  assert (Pb : positive (bin_space d)).
  { unfold positive, bin_space. clear - Hpos. induction Hpos; constructor; auto. }
  set (n0 := mkSN [] (seq 0 (length (sd_blocks d))) (map (fun _ => 0) (sd_copies d)) 0 0 0 []).
  pose (U := fun r => exists id, available d n0 id /\ has_room (sb_dims (sblock d id)) r).
  assert (Hpl : forall x, placed_copies d n0 x = 0) by (intro; unfold placed_copies, n0; cbn [sn_placed]; apply zsum_nil).
  assert (Hav : forall id, available d n0 id <-> (id < length (sd_blocks d))%nat).
  { intro id. unfold available. split; [tauto|]. intro H. split; [assumption|]. intros x Hx. rewrite Hpl.
    destruct (in_dec Nat.eq_dec x (map fst (sb_copies (sblock d id)))) as [Hin|Hin].
    - apply in_map_iff in Hin. destruct Hin as ([y c] & E & Hin). simpl in E. subst y.
      rewrite (content_in _ x c (block_in id H) Hin). destruct (da_copies d Hd _ x c (block_in id H) Hin). lia.
    - rewrite (content_out _ _ Hin). pose proof (da_available d Hd (nth x (sd_copies d) 0) (nth_In _ _ Hx)). lia. }
  destruct (start_good (bin_space d) U Pb) as [G0 C0].
  destruct (cut_all_spec (bin_space d) U (sd_defects d) [] [bin_space d]) as (l & E & G & C); [|assumption|assumption|].
  { intros o Ho. rewrite bin_space_length. apply (da_defects d Hd). assumption. }
  cbn [app] in G, C. unfold root. rewrite E.
  assert (N0 : forall sp, node_ok d (mkSN sp (seq 0 (length (sd_blocks d))) (map (fun _ => 0) (sd_copies d)) 0 0 0 [])).
  { intro sp. split; cbn [sn_placed sn_copies sn_weight sn_profit sn_items sn_valid].
    - intros p [].
    - intros p o [].
    - constructor.
    - intros x Hx. change (placed_copies d (mkSN sp (seq 0 (length (sd_blocks d))) (map (fun _ => 0) (sd_copies d)) 0 0 0 []) x) with (placed_copies d n0 x).
      rewrite Hpl. apply (da_available d Hd). apply nth_In. assumption.
    - intros; left; reflexivity.
    - split; [apply map_length|]. intros x Hx. unfold placed_copies. cbn [sn_placed]. rewrite zsum_nil.
      change 0 with ((fun _ : Z => 0) 0). rewrite map_nth. reflexivity.
    - unfold qsum. simpl. reflexivity.
    - unfold qsum. simpl. reflexivity.
    - rewrite zsum_nil. reflexivity.
    - split; [apply seq_NoDup|]. intro id. rewrite in_seq.
      change (available d (mkSN sp (seq 0 (length (sd_blocks d))) (map (fun _ => 0) (sd_copies d)) 0 0 0 []) id) with (available d n0 id).
      rewrite Hav. lia. }
  assert (K : exists sp, (match sd_defects d with [] => l | _ => swap_filter (usable d (seq 0 (length (sd_blocks d)))) l end) = sp
    /\ good (bin_space d) (sd_defects d) sp /\ covers (bin_space d) U (sd_defects d) sp).
  { destruct (sd_defects d) as [|o os] eqn:Eo; [exists l; auto|]. eexists. split; [reflexivity|]. split.
    - destruct G as [F [N A]]. split; [|split].
      + intros s Hs. apply swap_filter_in in Hs. apply F. tauto.
      + apply swap_filter_nodup. assumption.
      + intros s t Hs Ht. apply swap_filter_in in Hs. apply swap_filter_in in Ht. apply A; tauto.
    - intros r Fr Ur. destruct (C r Fr Ur) as (s & Hs & Ws). exists s. split; [|assumption]. apply swap_filter_in. split; [assumption|].
      apply usable_spec.
      + intros id Hid. apply in_seq in Hid. lia.
      + destruct G as [F _]. destruct (F s Hs) as (_ & W & _). rewrite (within_length _ _ W). apply bin_space_length.
      + destruct Ur as (id & Ha & Hr). exists id. split; [apply in_seq; apply Hav in Ha; lia|]. eapply has_room_within; eassumption. }
  destruct K as (sp & -> & G1 & C1). eexists. split; [reflexivity|]. split; [|reflexivity].
  split; [apply N0| |]; cbn [sn_placed sn_spaces map]; rewrite app_nil_r; assumption.
Qed.

Lemma apply_ninv : forall n ins, ninv n -> In ins (insertions d n) -> exists n', apply_insertion d n ins = Some n' /\ ninv n'
  /\ sn_placed n' = sn_placed n ++ [ins] /\ sn_items n < sn_items n'
  /\ (forall s, In s (sn_spaces n') -> exists id, In id (sn_valid n') /\ has_room (sb_dims (sblock d id)) s).
Proof.
  intros n [id pos] [K G C] Hin. destruct (insertions_spec n id pos Hin) as (s & Hs & Hid & Hf & Hw & Hp).
  destruct (nk_valid d n K) as [Hvn Hv]. pose proof (proj1 (Hv id) Hid) as [Hlt Hav].
  pose proof (block_in id Hlt) as Hb. destruct (da_dims d Hd _ Hb) as [Ld Pd].
  destruct (gd_free _ _ _ G s Hs) as (Sp & Sw & So).
  assert (Ls : length s = length (sd_bin d)) by (rewrite (within_length _ _ Sw); apply bin_space_length).
  apply fits_room in Hf; [|congruence].
  destruct (position_within (snd (anchor s (sd_bin d))) s (sb_dims (sblock d id))) as [Wp Lp]; [apply anchor_length; assumption|assumption|].
  rewrite <- Hp in Wp, Lp. set (bx := combine pos (sb_dims (sblock d id))) in *.
  assert (Hocc : occupied d (id, pos) = bx) by reflexivity.
  unfold apply_insertion. cbn [fst snd]. rewrite at_pos_combine. fold bx.
  set (copies := fold_left _ (sb_copies (sblock d id)) (sn_copies n)). set (profit := fold_left _ (sb_copies (sblock d id)) (sn_profit n)).
  set (valid := swap_filter _ (sn_valid n)).
  set (obs := sd_defects d ++ map (occupied d) (sn_placed n)) in *.
  pose (U := fun r => exists id, available d n id /\ has_room (sb_dims (sblock d id)) r).
  destruct (cut_spaces_spec (bin_space d) obs U bx) with (l := sn_spaces n) as (l & -> & G1 & C1 & A1); [|assumption|assumption|].
  { rewrite (within_length _ _ Wp), Ls. symmetry. apply bin_space_length. }
  set (n' := mkSN _ _ _ _ _ _ _). exists n'. split; [reflexivity|].
  destruct (nk_counts d n K) as [Lc Hc].
  assert (Hcop : length copies = length (sd_copies d) /\ forall x, (x < length (sd_copies d))%nat -> nth x copies 0 = placed_copies d n x + content (sblock d id) x).
  { assert (T : forall x, length copies = length (sn_copies n) /\ ((x < length (sn_copies n))%nat -> nth x copies 0 = nth x (sn_copies n) 0 + content (sblock d id) x)).
    { intro x. apply add_copies. intros [y c] He. rewrite Lc. apply (da_copies d Hd _ y c Hb He). }
    split; [rewrite (proj1 (T 0%nat)); assumption|]. intros x Hx. rewrite (proj2 (T x)) by (rewrite Lc; assumption). rewrite (Hc x Hx). reflexivity. }
  destruct Hcop as [Lcop Hcop].
  assert (Hpl : forall x, placed_copies d n' x = placed_copies d n x + content (sblock d id) x).
  { intro x. unfold placed_copies, n'. cbn [sn_placed]. rewrite zsum_snoc. reflexivity. }
  assert (Hle : forall x, (x < length (sd_copies d))%nat -> nth x copies 0 <= nth x (sd_copies d) 0).
  { intros x Hx. rewrite (Hcop x Hx). apply Hav. assumption. }
  assert (Hval : forall id', In id' valid <-> available d n' id').
  { intro id'. unfold valid. rewrite swap_filter_in, Hv. unfold available. split.
    - intros [[H1 H2] H3]. split; [assumption|]. intros x Hx. apply (copies_left_spec copies _ (block_in id' H1) Hle) with (x := x) in H3; [|assumption].
      rewrite Hpl, <- Hcop by assumption. assumption.
    - intros [H1 H2]. split; [split; [assumption|]|].
      + intros x Hx. specialize (H2 x Hx). rewrite Hpl in H2. pose proof (content_nonneg (sblock d id) x Hb). lia.
      + apply (copies_left_spec copies _ (block_in id' H1) Hle). intros x Hx. specialize (H2 x Hx). rewrite Hpl in H2. rewrite (Hcop x Hx). assumption. }
  assert (Hn' : node_ok d n').
  { split; unfold n'; cbn [sn_placed sn_copies sn_weight sn_profit sn_items sn_valid].
    - intros p Hp'. apply in_app_or in Hp'. destruct Hp' as [Hp'|[<-|[]]]; [apply (nk_inside d n K); assumption|].
      split; [assumption|]. eapply within_trans; [exact Wp|exact Sw].
    - intros p o Hp' Ho. apply in_app_or in Hp'. destruct Hp' as [Hp'|[<-|[]]]; [apply (nk_defects d n K); assumption|].
      rewrite Hocc. eapply apart_within; [exact Wp|]. apply So. apply in_or_app. left. assumption.
    - apply ord_pairs_app; [apply (nk_apart d n K)|repeat constructor|]. intros p q Hp' [<-|[]]. rewrite Hocc.
      apply apart_sym. eapply apart_within; [exact Wp|]. apply So. apply in_or_app. right. apply in_map. assumption.
    - intros x Hx. fold n'. rewrite Hpl. apply Hav. assumption.
    - intros w Ew. right. unfold too_heavy in Hw. rewrite Ew in Hw. apply negb_false_iff in Hw. apply Qle_bool_iff in Hw.
      rewrite qsum_snoc. cbn [fst]. rewrite <- (nk_weight d n K). assumption.
    - fold n'. split; [assumption|]. intros x Hx. rewrite Hpl. apply Hcop. assumption.
    - rewrite qsum_snoc. cbn [fst]. rewrite (nk_weight d n K). reflexivity.
    - rewrite qsum_snoc. cbn [fst]. unfold profit. rewrite add_profit, (nk_profit d n K). reflexivity.
    - rewrite zsum_snoc. cbn [fst]. rewrite (nk_items d n K). reflexivity.
    - fold n'. split; [apply swap_filter_nodup; assumption|assumption]. }
  assert (Hv' : forall id', In id' valid -> (id' < length (sd_blocks d))%nat) by (intros id' H; apply Hval in H; apply H).
  assert (Hll : forall t, In t l -> length t = length (sd_bin d)).
  { intros t Ht. destruct (gd_free _ _ _ G1 t Ht) as (_ & W & _). rewrite (within_length _ _ W). apply bin_space_length. }
  assert (Hobs : forall o, In o (bx :: obs) <-> In o (sd_defects d ++ map (occupied d) (sn_placed n'))).
  { intro o. unfold n', obs. cbn [sn_placed]. rewrite map_app. cbn [map]. rewrite Hocc. rewrite !in_app_iff. cbn [In]. rewrite in_app_iff. cbn [In]. tauto. }
  split; [split; [assumption| |]|split; [reflexivity|split]].
  - apply (good_ext _ (bx :: obs)); [assumption|]. unfold n'. cbn [sn_spaces].
    destruct (good_more _ _ _ _ G1 A1) as [F [N A]]. split; [|split].
    + intros t Ht. apply swap_filter_in in Ht. apply F. tauto.
    + apply swap_filter_nodup. assumption.
    + intros t u Ht Hu. apply swap_filter_in in Ht. apply swap_filter_in in Hu. apply A; tauto.
  - apply (covers_ext _ _ (bx :: obs)); [assumption|]. intros r Fr (id' & Ha & Hr). unfold n'. cbn [sn_spaces].
    destruct (C1 r Fr) as (t & Ht & Wt).
    + exists id'. split; [|assumption]. apply Hval in Ha. unfold valid in Ha. apply swap_filter_in in Ha. apply Hv. tauto.
    + exists t. split; [|assumption]. apply swap_filter_in. split; [assumption|]. apply usable_spec; [assumption|apply Hll; assumption|].
      exists id'. split; [apply Hval; assumption|]. eapply has_room_within; eassumption.
  - unfold n'. cbn [sn_items]. rewrite (da_number d Hd _ Hb).
    assert (0 < zsum snd (sb_copies (sblock d id))); [|lia].
    destruct (da_nodup d Hd _ Hb) as [_ Hne]. destruct (sb_copies (sblock d id)) as [|[x c] r] eqn:Ec; [contradiction|].
    rewrite zsum_cons. cbn [snd]. assert (0 < c) by (apply (da_copies d Hd _ x c Hb); rewrite Ec; left; reflexivity).
    assert (0 <= zsum snd r); [|lia]. apply zsum_nonneg. intros [y e] He. cbn [snd].
    assert (0 < e <= nth y (sd_copies d) 0); [|lia]. apply (da_copies d Hd _ y e Hb). rewrite Ec. right. assumption.
  - unfold n'. cbn [sn_spaces sn_valid]. intros t Ht. apply swap_filter_in in Ht. destruct Ht as [Ht Hu].
    apply usable_spec in Hu; auto.
Qed.

Lemma node_ninv : Forall (fun l => 0 < l) (sd_bin d) -> forall n, node_of d n -> ninv n.
Proof.
  intros Hpos n H. induction H as [n Hn|n ins n' Hn IH Hin Hap].
  - destruct (root_ninv Hpos) as (n0 & E & K & _). congruence.
  - destruct (apply_ninv n ins IH Hin) as (n1 & E & K & _). congruence.
Qed.

Lemma ninv_spaces : forall n, ninv n -> (forall s, In s (sn_spaces n) -> exists id, available d n id /\ has_room (sb_dims (sblock d id)) s) -> spaces_ok d n.
Proof.
  intros n [K G C] Hu. assert (Up : forall r r', within r r' -> (exists id, available d n id /\ has_room (sb_dims (sblock d id)) r) -> exists id, available d n id /\ has_room (sb_dims (sblock d id)) r').
  { intros r r' W (id & A & R). exists id. split; [assumption|]. eapply has_room_within; eassumption. }
  destruct (good_maximal _ _ _ _ Up G C) as [M1 M2].
  split.
  - apply (gd_anti _ _ _ G).
  - intros s Hs. apply M1; [assumption|]. apply Hu. assumption.
  - intros s id Ms Ha Hr. apply M2; [assumption|]. eauto.
  - intros pos id Ha Lp W A. destruct Ha as [Hlt Hc]. destruct (da_dims d Hd _ (block_in id Hlt)) as [Ld Pd]. apply C.
    + split; [apply positive_position; assumption|]. split; [assumption|]. assumption.
    + exists id. split; [split; assumption|]. apply room_of_position. congruence.
Qed.

(** The root without defects is not filtered: its only space is the bin. *)
Lemma root_spaces : Forall (fun l => 0 < l) (sd_bin d) -> forall n, root d = Some n -> spaces_ok d n.
Proof.
  intros Hpos n Hr. destruct (root_ninv Hpos) as (n0 & E & K & Hpl). rewrite E in Hr. injection Hr as <-.
  unfold root in E. destruct (sd_defects d) as [|o os] eqn:Ed.
  - cbn [cut_all] in E. injection E as <-. cbn [sn_placed] in Hpl.
    assert (Pb : positive (bin_space d)) by (unfold positive, bin_space; clear - Hpos; induction Hpos; constructor; auto).
    destruct K as [K G C]. cbn [sn_placed sn_spaces map] in G, C. rewrite Ed in G, C. cbn [app] in G, C.
    split; cbn [sn_spaces sn_placed map]; rewrite ?Ed; cbn [app].
    + repeat constructor. simpl. tauto.
    + intros s [<-|[]]. split; [apply (gd_free _ _ _ G); left; reflexivity|]. intros r' (_ & W & _) W'. apply within_antisym; assumption.
    + intros s id [(P & W & _) M] _ _. left. apply M; [|assumption]. apply (gd_free _ _ _ G). left. reflexivity.
    + intros pos id _ _ W _. exists (bin_space d). split; [left; reflexivity|assumption].
  - destruct (cut_all [bin_space d] (o :: os)) as [l|] eqn:El; [|discriminate]. injection E as <-. apply ninv_spaces; [assumption|].
    cbn [sn_spaces]. intros s Hs. pose proof (gd_free _ _ _ (ni_good _ K) s) as F. cbn [sn_spaces] in F. specialize (F Hs).
    apply swap_filter_in in Hs. destruct Hs as [_ Hu]. apply usable_spec in Hu.
    + destruct Hu as (id & A & B). exists id. split; [|assumption]. apply (nk_valid d _ (ni_node _ K)). assumption.
    + intros id Hid. apply in_seq in Hid. lia.
    + destruct F as (_ & W & _). rewrite (within_length _ _ W). apply bin_space_length.
Qed.

Lemma node_spaces : Forall (fun l => 0 < l) (sd_bin d) -> forall n, node_of d n -> spaces_ok d n.
Proof.
  intros Hpos n H. destruct H as [n Hn|n ins n' Hn Hin Hap]; [apply root_spaces; assumption|].
  destruct (apply_ninv n ins (node_ninv Hpos n Hn) Hin) as (n1 & E & K & _ & _ & Hu). rewrite Hap in E. injection E as <-.
  apply ninv_spaces; [assumption|]. intros s Hs. destruct (Hu s Hs) as (id & A & B). exists id. split; [|assumption].
  apply (nk_valid d _ (ni_node _ K)). assumption.
Qed.

(** ** The search never gets stuck *)

Lemma root_total : exists n, root d = Some n.
Proof.
  unfold root. destruct (cut_all_total (length (sd_bin d)) (sd_defects d) [bin_space d]) as (l & ->); [| |eauto].
  - intros s [<-|[]]. apply bin_space_length.
  - apply (da_defects d Hd).
Qed.

(** Without blocks nothing can be inserted. *)
Lemma no_blocks : sd_blocks d = [] -> forall n, node_of d n -> sn_valid n = [] /\ sn_placed n = [] /\ root d = Some n.
Proof.
  intros E n H. induction H as [n Hn|n ins n' Hn IH Hin Hap].
  - assert (Hn' := Hn). unfold root in Hn. rewrite E in Hn. destruct (cut_all _ _); [|discriminate]. injection Hn as <-. auto.
  - destruct IH as (V & _). destruct ins as [id pos]. destruct (insertions_spec n id pos Hin) as (s & _ & Hid & _). rewrite V in Hid. destruct Hid.
Qed.

Lemma no_blocks_node : sd_blocks d = [] -> forall n, node_of d n -> node_ok d n.
Proof.
  intros E n H. destruct (no_blocks E n H) as (V & P & R). unfold root in R. destruct (cut_all _ _) as [l|]; [|discriminate]. injection R as <-.
  split; cbn [sn_placed sn_copies sn_weight sn_profit sn_items sn_valid] in *.
  - intros p [].
  - intros p o [].
  - constructor.
  - intros x Hx. unfold placed_copies. cbn [sn_placed]. rewrite zsum_nil. apply (da_available d Hd), nth_In. assumption.
  - intros; left; reflexivity.
  - split; [apply map_length|]. intros x Hx. unfold placed_copies. cbn [sn_placed]. rewrite zsum_nil. apply (map_nth (fun _ : Z => 0) (sd_copies d) 0 x).
  - unfold qsum. simpl. reflexivity.
  - unfold qsum. simpl. reflexivity.
  - rewrite zsum_nil. reflexivity.
  - rewrite V. split; [constructor|]. intro id. split; [intros []|]. intros [H1 _]. rewrite E in H1. simpl in H1. lia.
Qed.

Lemma node_node_ok : forall n, node_of d n -> node_ok d n.
Proof. intros n H. destruct (da_bin d Hd) as [Hp|He]; [apply (ni_node n (node_ninv Hp n H))|apply no_blocks_node; assumption]. Qed.

Lemma child_exists : forall n ins, node_of d n -> In ins (insertions d n) -> exists n', apply_insertion d n ins = Some n'
  /\ sn_placed n' = sn_placed n ++ [ins] /\ sn_items n < sn_items n'.
Proof.
  intros n ins H Hin. destruct (da_bin d Hd) as [Hp|He].
  - destruct (apply_ninv n ins (node_ninv Hp n H) Hin) as (n' & A & _ & B & C & _). eauto.
  - destruct (no_blocks He n H) as (V & _). destruct ins as [id pos]. destruct (insertions_spec n id pos Hin) as (s & _ & Hid & _). rewrite V in Hid. destruct Hid.
Qed.

Lemma number_total : forall b, In b (sd_blocks d) -> zsum snd (sb_copies b) = zsum (content b) (seq 0 (length (sd_copies d))).
Proof. intros b Hb. unfold content. apply zsum_by_type. intros [x c] He. apply (da_copies d Hd b x c Hb He). Qed.

Lemma items_bound : forall n, node_ok d n -> sn_items n <= zsum (fun c => c) (sd_copies d).
Proof.
  intros n K. rewrite (nk_items d n K).
  assert (E : zsum (fun p => sb_number (sblock d (fst p))) (sn_placed n) = zsum (fun x => placed_copies d n x) (seq 0 (length (sd_copies d)))).
  { unfold placed_copies. assert (Hp : forall p, In p (sn_placed n) -> (fst p < length (sd_blocks d))%nat) by (intros; apply (nk_inside d n K); assumption).
    induction (sn_placed n) as [|p l IH].
    - symmetry. rewrite zsum_nil. apply zsum_all_zero. intros. apply zsum_nil.
    - rewrite zsum_cons, IH by (intros; apply Hp; right; assumption).
      rewrite (zsum_ext _ (fun x => zsum (fun p => content (sblock d (fst p)) x) (p :: l)) (fun x => content (sblock d (fst p)) x + zsum (fun p => content (sblock d (fst p)) x) l))
        by (intros; rewrite zsum_cons; reflexivity).
      rewrite zsum_plus. f_equal. assert (Hb : In (sblock d (fst p)) (sd_blocks d)) by (apply block_in, Hp; left; reflexivity).
      rewrite (da_number d Hd _ Hb). apply number_total. assumption. }
  rewrite E. transitivity (zsum (fun x => nth x (sd_copies d) 0) (seq 0 (length (sd_copies d)))).
  - apply zsum_le. intros x Hx. apply in_seq in Hx. apply (nk_copies d n K). lia.
  - clear. apply Z.eq_le_incl. induction (sd_copies d) as [|c l IH]; [reflexivity|]. cbn [length seq]. rewrite !zsum_cons. cbn [nth]. f_equal.
    rewrite <- seq_shift, zsum_map. cbn [nth]. exact IH.
Qed.

Lemma best_insertion_in : forall score n ins, best_insertion d score n = Some ins -> In ins (insertions d n).
Proof.
  intros score n ins. unfold best_insertion.
  assert (G : forall l acc, (forall t, fst acc = Some t -> In t (insertions d n)) -> (forall t, In t l -> In t (insertions d n)) ->
    fst (fold_left (fun acc ins => if Qle_bool (score n ins) (snd acc) then acc else (Some ins, score n ins)) l acc) = Some ins -> In ins (insertions d n)).
  { induction l as [|x l IH]; intros acc Ha Hl; cbn [fold_left]; [auto|]. apply IH; [|intros; apply Hl; right; assumption].
    intros t Ht. destruct (Qle_bool (score n x) (snd acc)); [auto|]. cbn [fst] in Ht. injection Ht as <-. apply Hl. left. reflexivity. }
  apply G; [discriminate|tauto].
Qed.

(** The greedy completion ends in a node of the search with no insertion of positive
    score. *)
Lemma greedy_spec : forall score n, node_of d n -> exists n', node_of d n' /\ best_insertion d score n' = None
  /\ (exists more, sn_placed n' = sn_placed n ++ more)
  /\ forall fuel, (Z.to_nat (zsum (fun c => c) (sd_copies d) - sn_items n) < fuel)%nat -> greedy d score fuel n = Some n'.
Proof.
  intros score n. remember (Z.to_nat (zsum (fun c => c) (sd_copies d) - sn_items n)) as k eqn:Ek. revert n Ek.
  induction k as [k IH] using lt_wf_ind. intros n Ek H. destruct (best_insertion d score n) as [ins|] eqn:E.
  - destruct (child_exists n ins H (best_insertion_in score n ins E)) as (n1 & A & B & D).
    assert (H1 : node_of d n1) by (eapply no_child; [exact H|apply (best_insertion_in score n ins E)|assumption]).
    pose proof (items_bound n1 (node_node_ok n1 H1)) as Hb.
    destruct (IH (Z.to_nat (zsum (fun c => c) (sd_copies d) - sn_items n1))) with (n := n1) as (n' & N1 & N2 & (more & N3) & N4); [lia|reflexivity|assumption|].
    exists n'. split; [assumption|]. split; [assumption|]. split; [exists (ins :: more); rewrite N3, B, <- app_assoc; reflexivity|].
    intros [|fuel] Hf; [lia|]. cbn [greedy]. rewrite E, A. apply N4. lia.
  - exists n. split; [assumption|]. split; [assumption|]. split; [exists []; rewrite app_nil_r; reflexivity|].
    intros [|fuel] Hf; [lia|]. cbn [greedy]. rewrite E. reflexivity.
Qed.

End Node.
