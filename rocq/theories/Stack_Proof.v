(** * Proofs about boxstacks solutions *)

From Coq Require Import List ZArith QArith Qminmax Bool Lia Arith Lqa.
From Verif Require Import Util Common_Model Common_Proof OneDim_Model OneDim_Proof Rect_Model RectSol_Spec RectSol_Proof RectAxle_Proof.
From Verif Require Import Box_Model Stack_Model Stack_Spec.
Import ListNotations.
Open Scope Z_scope.

(** ** Loops *)

Lemma fold_zadd : forall A (f : A -> Z) l a, fold_left (fun v p => v + f p) l a = a + zsum f l.
Proof. intros A f l. induction l as [|x l IH]; intro a; cbn [fold_left]; [rewrite zsum_nil; lia|]. rewrite IH, zsum_cons. lia. Qed.

Lemma fold_qadd : forall A (f : A -> Q) l a, (fold_left (fun v p => v + f p) l a == a + qsum f l)%Q.
Proof.
  intros A f l. induction l as [|x l IH]; intro a; cbn [fold_left]; [change (qsum f []) with 0%Q; ring|].
  rewrite IH, qsum_cons. ring.
Qed.

Lemma fold_left_ext : forall A B (f g : A -> B -> A) l a, (forall a x, In x l -> f a x = g a x) -> fold_left f l a = fold_left g l a.
Proof.
  intros A B f g l. induction l as [|x l IH]; intros a H; cbn [fold_left]; [reflexivity|].
  rewrite (H a x (or_introl eq_refl)). apply IH. intros b y Hy. apply H. right. exact Hy.
Qed.

Lemma fold_counts : forall A (g : A -> nat) n ps l,
  length (fold_left (fun l p => upd (g p) (fun k => k + n) l) ps l) = length l /\
  forall x, (x < length l)%nat ->
    nth x (fold_left (fun l p => upd (g p) (fun k => k + n) l) ps l) 0 = nth x l 0 + n * zsum (fun p => if Nat.eqb (g p) x then 1 else 0) ps.
Proof.
  intros A g n ps. induction ps as [|p ps IH]; intro l; cbn [fold_left].
  - split; [reflexivity|]. intros x _. rewrite zsum_nil. lia.
  - destruct (IH (upd (g p) (fun k => k + n) l)) as [I1 I2]. rewrite upd_length in I1, I2. split; [exact I1|].
    intros x Hx. rewrite (I2 x Hx), zsum_cons. destruct (Nat.eqb_spec (g p) x) as [E|E].
    + subst x. rewrite nth_upd_same by exact Hx. lia.
    + rewrite nth_upd_other by exact E. lia.
Qed.

Lemma add_groups_spec : forall n v l, length (fold_left (fun l h => upd h (fun w => w + v)%Q l) (seq 0 n) l) = length l /\
  forall h, (h < length l)%nat ->
    (nth h (fold_left (fun l h => upd h (fun w => w + v)%Q l) (seq 0 n) l) 0 == nth h l 0 + (if Nat.ltb h n then v else 0))%Q.
Proof.
  intros n v l. induction n as [|n [I1 I2]].
  - cbn [seq fold_left]. split; [reflexivity|]. intros h _. destruct (Nat.ltb_spec h 0); [lia|]. ring.
  - rewrite seq_S, fold_left_app. cbn [fold_left plus]. rewrite upd_length. split; [exact I1|]. intros h Hh.
    destruct (Nat.eq_dec n h) as [E|E].
    + subst n. rewrite nth_upd_same by (rewrite I1; exact Hh). rewrite (I2 h Hh).
      destruct (Nat.ltb_spec h h); [lia|]. destruct (Nat.ltb_spec h (S h)); [|lia]. ring.
    + rewrite nth_upd_other by exact E. rewrite (I2 h Hh).
      destruct (Nat.ltb_spec h n), (Nat.ltb_spec h (S n)); try lia; reflexivity.
Qed.

Lemma kadd_spec : forall i (f : KPlaced -> Q) items l,
  let r := fold_left (fun l p => add_groups (ki_group (kitem i (kp_type p))) (f p) l) items l in
  length r = length l /\
  forall g, (g < length l)%nat -> (nth g r 0 == nth g l 0 + qsum (fun p => if Nat.leb g (ki_group (kitem i (kp_type p))) then f p else 0) items)%Q.
Proof.
  intros i f items. cbv zeta. induction items as [|p items IH]; intro l; cbn [fold_left].
  - split; [reflexivity|]. intros g _. change (qsum _ []) with 0%Q. ring.
  - destruct (IH (add_groups (ki_group (kitem i (kp_type p))) (f p) l)) as [I1 I2].
    destruct (add_groups_spec (S (ki_group (kitem i (kp_type p)))) (f p) l) as [A1 A2].
    unfold add_groups in *. rewrite A1 in I1, I2. split; [exact I1|]. intros g Hg. rewrite (I2 g Hg), (A2 g Hg), qsum_cons.
    destruct (Nat.ltb_spec g (S (ki_group (kitem i (kp_type p))))), (Nat.leb_spec g (ki_group (kitem i (kp_type p)))); try lia; ring.
Qed.

Lemma kadd_weights_spec : forall i items l,
  length (kadd_weights i items l) = length l /\
  forall g, (g < length l)%nat -> (nth g (kadd_weights i items l) 0 == nth g l 0 + gweight i g (map kp_pair items))%Q.
Proof.
  intros i items l. destruct (kadd_spec i (fun p => ki_weight (kitem i (kp_type p))) items l) as [A B].
  split; [exact A|]. intros g Hg. unfold kadd_weights. rewrite (B g Hg). unfold gweight. rewrite qsum_map. reflexivity.
Qed.

Lemma kadd_moments_spec : forall i c items l,
  length (kadd_moments i c items l) = length l /\
  forall g, (g < length l)%nat -> (nth g (kadd_moments i c items l) 0 == nth g l 0 + c * gweight i g (map kp_pair items))%Q.
Proof.
  intros i c items l. destruct (kadd_spec i (fun p => c * ki_weight (kitem i (kp_type p)))%Q items l) as [A B].
  split; [exact A|]. intros g Hg. unfold kadd_moments. rewrite (B g Hg). unfold gweight. rewrite qsum_map, <- qsum_scale.
  apply Qplus_comp; [reflexivity|]. apply qsum_ext. intros p _. unfold kweight, kp_pair. cbn [fst]. destruct (Nat.leb _ _); ring.
Qed.

Lemma kcenter_mid : forall s, (kcenter s == mid (kview_stack s))%Q.
Proof.
  intro s. unfold kcenter, mid. cbn [kview_stack sd_x sd_xe]. unfold Z.sub. rewrite !inject_Z_plus, inject_Z_opp. field.
Qed.

Lemma nth_error_lt : forall A (l : list A) k x, nth_error l k = Some x -> (k < length l)%nat.
Proof. intros A l k x H. apply nth_error_Some. rewrite H. discriminate. Qed.

(** ** A stack *)

Lemma kplace_spec : forall i items z first ps e, kplace_items i z first items = (ps, e) ->
  let nest := fun l : list (nat * Rotation) => zsum (fun p => ki_nesting (kitem i (fst p))) (if first then tl l else l) in
  map kp_pair ps = map kp_pair items /\
  e = z + zsum (kheight i) (map kp_pair items) - nest (map kp_pair items) /\
  forall k p, nth_error ps k = Some p ->
    kp_z p + kheight i (kp_pair p) = z + zsum (kheight i) (firstn (S k) (map kp_pair items)) - nest (firstn (S k) (map kp_pair items)).
Proof.
  intros i items. cbv zeta. induction items as [|q items IH]; intros z first ps e H; cbn [kplace_items] in H.
  - injection H as <- <-. split; [reflexivity|]. split; [destruct first; cbn; lia|]. intros k p E. destruct k; discriminate.
  - destruct (kplace_items i _ false items) as [ps' e'] eqn:E. injection H as <- <-. apply IH in E. destruct E as (E1 & E2 & E3).
    cbn [map]. unfold kp_pair at 1. cbn [kp_type kp_rot]. split; [rewrite E1; reflexivity|].
    fold (kp_pair q). split.
    + rewrite E2. rewrite zsum_cons. change (v_z (ksize i (kp_pair q))) with (kheight i (kp_pair q)).
      destruct first; cbn [tl]; rewrite ?zsum_cons; cbn [kp_pair fst]; lia.
    + intros [|k] p Hp; cbn [nth_error] in Hp.
      * injection Hp as <-. cbn [kp_z kp_type kp_rot]. cbn [firstn]. rewrite zsum_cons, zsum_nil. unfold kp_pair. cbn [kp_type kp_rot].
        destruct first; cbn [tl]; rewrite ?zsum_cons, ?zsum_nil; cbn [fst]; lia.
      * rewrite (E3 k p Hp). change (firstn (S (S k)) (kp_pair q :: map kp_pair items)) with (kp_pair q :: firstn (S k) (map kp_pair items)).
        rewrite zsum_cons. change (v_z (ksize i (kp_pair q))) with (kheight i (kp_pair q)).
        destruct first; cbn [tl]; rewrite ?zsum_cons; cbn [kp_pair fst]; lia.
Qed.

Lemma kupdate_stack_spec : forall i s, kview_stack (kupdate_stack i s) = kview_stack s /\ KStackOk i (kupdate_stack i s).
Proof.
  intros i s. unfold kupdate_stack. destruct (kplace_items i 0 true (ks_items s)) as [ps z] eqn:E.
  apply kplace_spec in E. cbv zeta in E. destruct E as (E1 & E2 & E3).
  assert (V : forall x xe y ye z w m q, kview_stack (mkKS x xe y ye z ps w m q) = mkKSD x xe y ye (map kp_pair (ks_items s))).
  { intros. unfold kview_stack. cbn. f_equal. exact E1. }
  split; [rewrite V; reflexivity|].
  assert (L : length (repeat 0%Q (kgroups i)) = kgroups i) by apply repeat_length.
  assert (Z0 : forall g, nth g (repeat 0%Q (kgroups i)) 0%Q = 0%Q) by (intro g; apply nth_repeat).
  constructor; rewrite ?V; cbn [sd_items ks_z ks_items ks_weight ks_moment ks_profit].
  - rewrite E2. unfold stack_height. lia.
  - intros k p Hp. change (kp_type p, kp_rot p) with (kp_pair p). rewrite (E3 k p Hp). unfold stack_height. lia.
  - destruct (kadd_weights_spec i (ks_items s) (repeat 0%Q (kgroups i))) as [A B]. rewrite L in A, B. split; [exact A|].
    intros g Hg. rewrite (B g Hg), Z0. ring.
  - destruct (kadd_moments_spec i (kcenter s) (ks_items s) (repeat 0%Q (kgroups i))) as [A B]. rewrite L in A, B. split; [exact A|].
    intros g Hg. rewrite (B g Hg), Z0, kcenter_mid. unfold mid. cbn [sd_x sd_xe kview_stack]. ring.
  - unfold kadd_profits. rewrite fold_qadd, qsum_map. unfold kprofit, kp_pair. cbn [fst]. ring.
Qed.

(** ** A bin *)

Lemma fold_stack_weights : forall i stacks l,
  length (fold_left (fun l st => kadd_weights i (ks_items st) l) stacks l) = length l /\
  forall g, (g < length l)%nat -> (nth g (fold_left (fun l st => kadd_weights i (ks_items st) l) stacks l) 0
    == nth g l 0 + qsum (fun s => gweight i g (sd_items s)) (map kview_stack stacks))%Q.
Proof.
  intros i stacks. induction stacks as [|s stacks IH]; intro l; cbn [fold_left map].
  - split; [reflexivity|]. intros g _. change (qsum _ []) with 0%Q. ring.
  - destruct (kadd_weights_spec i (ks_items s) l) as [A B]. destruct (IH (kadd_weights i (ks_items s) l)) as [I1 I2].
    rewrite A in I1, I2. split; [exact I1|]. intros g Hg. rewrite (I2 g Hg), (B g Hg), qsum_cons. cbn [kview_stack sd_items].
    unfold kp_pair. ring.
Qed.

Lemma fold_stack_moments : forall i stacks l,
  length (fold_left (fun l st => kadd_moments i (kcenter st) (ks_items st) l) stacks l) = length l /\
  forall g, (g < length l)%nat -> (nth g (fold_left (fun l st => kadd_moments i (kcenter st) (ks_items st) l) stacks l) 0
    == nth g l 0 + qsum (fun s => mid s * gweight i g (sd_items s)) (map kview_stack stacks))%Q.
Proof.
  intros i stacks. induction stacks as [|s stacks IH]; intro l; cbn [fold_left map].
  - split; [reflexivity|]. intros g _. change (qsum _ []) with 0%Q. ring.
  - destruct (kadd_moments_spec i (kcenter s) (ks_items s) l) as [A B]. destruct (IH (kadd_moments i (kcenter s) (ks_items s) l)) as [I1 I2].
    rewrite A in I1, I2. split; [exact I1|]. intros g Hg. rewrite (I2 g Hg), (B g Hg), qsum_cons, kcenter_mid.
    cbn [kview_stack sd_items]. unfold kp_pair. ring.
Qed.

Lemma kall_items_pairs : forall b, map kp_pair (kall_items b) = kd_items (kview_bin b).
Proof.
  intro b. unfold kall_items, kd_items. cbn [kview_bin kd_stacks]. induction (kn_stacks b) as [|s l IH]; [reflexivity|].
  cbn [flat_map map]. rewrite map_app, IH. reflexivity.
Qed.

Lemma map_update_view : forall i stacks, map kview_stack (map (kupdate_stack i) stacks) = map kview_stack stacks.
Proof. intros i stacks. rewrite map_map. apply map_ext. intro s. apply kupdate_stack_spec. Qed.

(** Stacks of the last bin. *)
Lemma klast_max : forall bt v stacks xm ym w, 0 <= xm -> 0 <= ym ->
  exists w', fold_left (klast_step bt v) stacks (xm, ym, w)
    = (Z.max xm (fold_right Z.max 0 (map sd_xe (map kview_stack stacks))), Z.max ym (fold_right Z.max 0 (map sd_ye (map kview_stack stacks))), w').
Proof.
  intros bt v stacks. induction stacks as [|s stacks IH]; intros xm ym w Hx Hy; cbn [fold_left map fold_right].
  - exists w. rewrite !Z.max_l by lia. reflexivity.
  - unfold klast_step at 2. cbn [kview_stack sd_xe sd_ye].
    destruct (IH (if xm <? ks_xe s then ks_xe s else xm) (if ym <? ks_ye s then ks_ye s else ym)
      (v - v_z (kb_box bt) * Z.max ((v_x (kb_box bt) - (if xm <? ks_xe s then ks_xe s else xm)) * v_y (kb_box bt))
         (v_y (kb_box bt) - (if ym <? ks_ye s then ks_ye s else ym) * v_x (kb_box bt)))) as [w' E].
    + destruct (Z.ltb_spec xm (ks_xe s)); lia.
    + destruct (Z.ltb_spec ym (ks_ye s)); lia.
    + exists w'. rewrite E. f_equal. f_equal.
      * destruct (Z.ltb_spec xm (ks_xe s)); lia.
      * destruct (Z.ltb_spec ym (ks_ye s)); lia.
Qed.

Lemma klast_spec : forall bt v stacks w,
  let xm := fold_right Z.max 0 (map sd_xe (map kview_stack stacks)) in
  let ym := fold_right Z.max 0 (map sd_ye (map kview_stack stacks)) in
  fold_left (klast_step bt v) stacks (0, 0, w)
    = (xm, ym, match stacks with
               | [] => w
               | _ => v - v_z (kb_box bt) * Z.max ((v_x (kb_box bt) - xm) * v_y (kb_box bt)) (v_y (kb_box bt) - ym * v_x (kb_box bt))
               end).
Proof.
  intros bt v stacks w. cbv zeta. destruct (exists_last_or_nil _ stacks) as [-> |(l & s & ->)]; [reflexivity|].
  rewrite fold_left_app. cbn [fold_left]. destruct (klast_max bt v l 0 0 w) as [w' E]; [lia|lia|]. rewrite E.
  unfold klast_step. rewrite !map_app, !fold_max_app. cbn [map fold_right kview_stack sd_xe sd_ye].
  set (X := fold_right Z.max 0 (map sd_xe _)). set (Y := fold_right Z.max 0 (map sd_ye _)).
  assert (HX : 0 <= X) by (unfold X; clear; induction (map sd_xe _); cbn [fold_right]; lia).
  assert (HY : 0 <= Y) by (unfold Y; clear; induction (map sd_ye _); cbn [fold_right]; lia).
  assert (EX : (if Z.max 0 X <? ks_xe s then ks_xe s else Z.max 0 X) = Z.max X (Z.max (ks_xe s) 0)) by (destruct (Z.ltb_spec (Z.max 0 X) (ks_xe s)); lia).
  assert (EY : (if Z.max 0 Y <? ks_ye s then ks_ye s else Z.max 0 Y) = Z.max Y (Z.max (ks_ye s) 0)) by (destruct (Z.ltb_spec (Z.max 0 Y) (ks_ye s)); lia).
  rewrite EX, EY. destruct (l ++ [s]) as [|a r] eqn:N; [destruct l; discriminate|]. reflexivity.
Qed.

(** ** update_indicators *)

Section History.

Variable i : KInstance.
Variable cb : KCallback.

Record KInv (ds : list KDesc) (c : KCore) : Prop := {
  kv_ind : KIndicators i ds c;
  kv_bins : length (kc_bin_copies c) = length (kx_bins i);
  kv_items : length (kc_item_copies c) = length (kx_items i)
}.

Lemma kpacked_snoc : forall x ds d, kpacked x (ds ++ [d]) = kpacked x ds + kd_copies d * kcount x (kd_items d).
Proof. intros. unfold kpacked. apply zsum_snoc. Qed.
Lemma kused_snoc : forall t ds d, kused t (ds ++ [d]) = kused t ds + (if Nat.eqb (kd_type d) t then kd_copies d else 0).
Proof. intros. unfold kused. apply zsum_snoc. Qed.

Lemma kinv_rebins : forall ds c bins, KInv ds c -> KInv ds (kwith_bins c bins).
Proof. intros ds c bins [[] ? ?]. constructor; [constructor|..]; assumption. Qed.

Lemma zsum_const : forall A (c : Z) (l : list A), zsum (fun _ => c) l = c * Z.of_nat (length l).
Proof. intros A c l. induction l as [|x l IH]; [cbn; lia|]. rewrite zsum_cons, IH. cbn [length]. lia. Qed.

Definition klast_volume (bt : KBin) (v w : Z) (d : KDesc) : Z :=
  match kd_stacks d with
  | [] => w
  | _ => v - v_z (kb_box bt) * Z.max ((v_x (kb_box bt) - far sd_xe d) * v_y (kb_box bt)) (v_y (kb_box bt) - far sd_ye d * v_x (kb_box bt))
  end.

Record KFlags (s : KSolution) : Prop := {
  kf_feasible : kfeasible i (ksol_core s) (cb (ksol_core s)) = Some (ksol_feasible s);
  kf_callback : ksol_callback_ok s = cb (ksol_core s);
  kf_missing : kc_missing (ksol_core s) = kcount_missing i (kc_item_copies (ksol_core s));
  kf_copies : kc_item_copies_ok (ksol_core s) = kitem_copies_ok i (kc_item_copies (ksol_core s))
}.

Lemma kupdate_core : forall ds s pos b, KInv ds (ksol_core s) -> nth_error (kc_bins (ksol_core s)) pos = Some b ->
  kdesc_ok i (kview_bin b) -> exists c',
  kupdate i cb pos s = match kfeasible i c' (cb c') with None => None | Some f => Some (mkKSol c' (cb c') f) end /\
  KInv (ds ++ [kview_bin b]) c' /\
  (kc_missing c' = kcount_missing i (kc_item_copies c') /\ kc_item_copies_ok c' = kitem_copies_ok i (kc_item_copies c')) /\
  (exists b', kc_bins c' = upd pos (fun _ => b') (kc_bins (ksol_core s)) /\ KBinOk i b' /\ kview_bin b' = kview_bin b) /\
  (S pos = length (kc_bins (ksol_core s)) ->
     kc_x_max c' = far sd_xe (kview_bin b) /\ kc_y_max c' = far sd_ye (kview_bin b) /\
     kc_volume c' = klast_volume (kbin i (kn_type b)) (kc_bin_volume c') (kc_volume (ksol_core s)) (kview_bin b)).
Proof.
  intros ds s pos b [I Lb Li] Hb [Ht Hp]. unfold kupdate. cbv zeta. rewrite Hb.
  destruct (if (pos + 1 =? length (kc_bins (ksol_core s)))%nat then _ else _) as [[xm ym] volume] eqn:EL.
  match goal with |- context [match kfeasible i ?c _ with _ => _ end] => remember c as c' eqn:Ec end.
  exists c'. split; [reflexivity|].
  cbn [kview_bin kd_type] in Ht.
  split; [|split; [|split]].
  - destruct I as [I1 I2 I3 I4 I5 I6 I7 I8 I9 I10 I11 I12 I13]. constructor; rewrite ?Ec.
    + constructor; cbn [kc_number_of_bins kc_number_of_stacks kc_number_of_items kc_bin_volume kc_bin_area kc_stack_area kc_bin_weight kc_bin_cost kc_item_volume kc_item_weight kc_item_profit kc_bin_copies kc_item_copies].
      * rewrite zsum_snoc, I1. reflexivity.
      * rewrite (fold_zadd _ (fun _ => kn_copies b)), zsum_const, zsum_snoc, I2. cbn [kview_bin kd_copies kd_stacks]. rewrite map_length. reflexivity.
      * rewrite (fold_zadd _ (fun _ => kn_copies b)), zsum_const, zsum_snoc, I3. rewrite <- kall_items_pairs, map_length. reflexivity.
      * rewrite zsum_snoc, I4. reflexivity.
      * rewrite zsum_snoc, I5. reflexivity.
      * rewrite (fold_zadd _ (fun st => kn_copies b * (ks_xe st - ks_x st) * (ks_ye st - ks_y st))), zsum_snoc, I6.
        cbn [kview_bin kd_copies kd_stacks]. rewrite zsum_map, <- zsum_mult. f_equal. apply zsum_ext. intros st _. unfold base. cbn. lia.
      * unfold kadd_bin_weight. destruct (kc_bin_weight (ksol_core s)) as [w|], (kb_max_weight (kbin i (kn_type b))) as [m|] eqn:Em.
        -- destruct I7 as [J1 J2]. split.
           ++ intros d Hd. apply in_snoc in Hd. destruct Hd as [Hd| ->]; [apply J1, Hd|]. cbn [kview_bin kd_type]. rewrite Em. discriminate.
           ++ rewrite qsum_snoc, <- J2. cbn [kview_bin kd_type kd_copies]. rewrite Em. reflexivity.
        -- exists (kview_bin b). split; [apply in_or_app; right; left; reflexivity|exact Em].
        -- destruct I7 as (d & Hd & E). exists d. split; [apply in_or_app; left; exact Hd|exact E].
        -- exists (kview_bin b). split; [apply in_or_app; right; left; reflexivity|exact Em].
      * rewrite qsum_snoc, I8. reflexivity.
      * assert (E : forall st v, kvolume_step i (kn_copies b) v st = v + kn_copies b * (base (kview_stack st) * zsum (kheight i) (sd_items (kview_stack st)))).
        { intros st v. unfold kvolume_step. rewrite (fold_zadd _ (fun p => kn_copies b * v_z (ksize i (kp_pair p)) * (ks_ye st - ks_y st) * (ks_xe st - ks_x st))). f_equal.
          cbn [kview_stack sd_items]. rewrite zsum_map, <- !zsum_mult. apply zsum_ext. intros p _. unfold base, kheight, ksize, kp_pair. cbn [fst snd kview_stack sd_x sd_xe sd_y sd_ye]. lia. }
        rewrite (fold_left_ext _ _ _ (fun v st => v + kn_copies b * (base (kview_stack st) * zsum (kheight i) (sd_items (kview_stack st))))) by (intros; apply E).
        rewrite (fold_zadd _ (fun st => kn_copies b * (base (kview_stack st) * zsum (kheight i) (sd_items (kview_stack st))))), zsum_snoc, I9.
        cbn [kview_bin kd_copies kd_stacks]. rewrite zsum_map, zsum_mult. reflexivity.
      * rewrite (fold_qadd _ (fun p => inject_Z (kn_copies b) * ki_weight (kitem i (kp_type p)))%Q), qsum_snoc, I10, qsum_scale.
        rewrite <- kall_items_pairs, qsum_map. reflexivity.
      * rewrite (fold_qadd _ (fun p => inject_Z (kn_copies b) * ki_profit (kitem i (kp_type p)))%Q), qsum_snoc, I11, qsum_scale.
        rewrite <- kall_items_pairs, qsum_map. reflexivity.
      * intros t Hl. rewrite kused_snoc, <- (I12 t Hl). cbn [kview_bin kd_type kd_copies]. rewrite nth_upd by (rewrite Lb; exact Ht).
        destruct (Nat.eqb (kn_type b) t); cbv beta; lia.
      * intros x Hx. rewrite kpacked_snoc, <- (I13 x Hx). destruct (fold_counts _ kp_type (kn_copies b) (kall_items b) (kc_item_copies (ksol_core s))) as [_ F].
        rewrite F by (rewrite Li; exact Hx). unfold kcount. rewrite <- kall_items_pairs, zsum_map. reflexivity.
    + cbn [kc_bin_copies]. rewrite upd_length. exact Lb.
    + cbn [kc_item_copies]. destruct (fold_counts _ kp_type (kn_copies b) (kall_items b) (kc_item_copies (ksol_core s))) as [F _]. rewrite F. exact Li.
  - rewrite Ec. split; reflexivity.
  - eexists. split; [rewrite Ec; reflexivity|]. 
    assert (V : forall t n st w m q, kview_bin (mkKSB t n st w m q) = mkKD t n (map kview_stack st)) by reflexivity.
    assert (V2 : mkKD (kn_type b) (kn_copies b) (map kview_stack (map (kupdate_stack i) (kn_stacks b))) = kview_bin b)
      by (rewrite map_update_view; reflexivity).
    split; [|rewrite V; exact V2].
    assert (L : length (repeat 0%Q (kgroups i)) = kgroups i) by apply repeat_length.
    assert (Z0 : forall g, nth g (repeat 0%Q (kgroups i)) 0%Q = 0%Q) by (intro g; apply nth_repeat).
    constructor; rewrite ?V, ?V2; cbn [kn_stacks kn_weight kn_moment kn_profit].
    + intros st Hst. apply in_map_iff in Hst. destruct Hst as (st0 & <- & _). apply kupdate_stack_spec.
    + destruct (fold_stack_weights i (kn_stacks b) (repeat 0%Q (kgroups i))) as [A B]. rewrite L in A, B. split; [exact A|].
      intros g Hg. rewrite (B g Hg), Z0. unfold bin_gweight. cbn [kview_bin kd_stacks]. ring.
    + destruct (fold_stack_moments i (kn_stacks b) (repeat 0%Q (kgroups i))) as [A B]. rewrite L in A, B. split; [exact A|].
      intros g Hg. rewrite (B g Hg), Z0. unfold bin_gmoment. cbn [kview_bin kd_stacks]. ring.
    + unfold kadd_profits. rewrite fold_qadd, <- kall_items_pairs, qsum_map. unfold kprofit, kp_pair. cbn [fst]. ring.
  - intro Hl. rewrite Ec. cbn [kc_x_max kc_y_max kc_volume kc_bin_volume].
    assert (E1 : (pos + 1 =? length (kc_bins (ksol_core s)))%nat = true) by (apply Nat.eqb_eq; lia). rewrite E1, klast_spec in EL.
    injection EL as <- <- <-. split; [reflexivity|]. split; [reflexivity|].
    unfold klast_volume, far. cbn [kview_bin kd_stacks]. destruct (kn_stacks b) as [|a r]; reflexivity.
Qed.

(** ** Feasibility *)

Lemma kexceeds_false : forall a m, kexceeds (Some a) m = false <-> most a m.
Proof.
  intros a [m|]; cbn [kexceeds most]; [|tauto]. split; intro H; [apply Qltb_ge; exact H|].
  destruct (Qltb (m * PSTOL) a) eqn:E; [|reflexivity]. apply Qltb_lt in E. lra.
Qed.

Lemma most_compat : forall a b m, (a == b)%Q -> most a m -> most b m.
Proof. intros a b [m|] E H; cbn [most] in *; [rewrite <- E; exact H|exact H]. Qed.

Definition kaxle_ok (truck : Truck) (m w : Q) : Prop :=
  kexceeds (option_map fst (compute_axle_weights truck m w)) (tr_middle_maximum truck) = false /\
  kexceeds (option_map snd (compute_axle_weights truck m w)) (tr_rear_maximum truck) = false.

Lemma kaxle_groups_spec : forall truck ws ms gs, (forall g, In g gs -> (g < length ws)%nat /\ (g < length ms)%nat) ->
  exists a, kaxle_groups i truck ws ms gs = Some a /\
    (a = true <-> forall g, In g gs -> kcheck_weight i g = true -> kaxle_ok truck (nth g ms 0%Q) (nth g ws 0%Q)).
Proof.
  intros truck ws ms gs. induction gs as [|g gs IH]; intro H; cbn [kaxle_groups].
  - exists true. split; [reflexivity|]. split; [intros _ g []|reflexivity].
  - destruct IH as (a & E & A); [intros h Hh; apply H; right; exact Hh|].
    destruct (kcheck_weight i g) eqn:Eg; cbn [negb].
    + destruct (H g (or_introl eq_refl)) as [H1 H2].
      destruct (nth_error ms g) as [m|] eqn:Em; [|apply nth_error_None in Em; lia].
      destruct (nth_error ws g) as [w|] eqn:Ew; [|apply nth_error_None in Ew; lia].
      apply (nth_error_nth _ _ 0%Q) in Em. apply (nth_error_nth _ _ 0%Q) in Ew.
      destruct (kexceeds (option_map fst _) _) eqn:E1.
      { exists false. split; [reflexivity|]. split; [discriminate|]. intro K. destruct (K g (or_introl eq_refl) Eg) as [K1 _].
        rewrite Em, Ew in K1. congruence. }
      destruct (kexceeds (option_map snd _) _) eqn:E2.
      { exists false. split; [reflexivity|]. split; [discriminate|]. intro K. destruct (K g (or_introl eq_refl) Eg) as [_ K2].
        rewrite Em, Ew in K2. congruence. }
      exists a. split; [exact E|]. rewrite A. split.
      * intros K h [<-|Hh] Hc; [rewrite Em, Ew; split; assumption|apply K; assumption].
      * intros K h Hh. apply K. right. exact Hh.
    + exists a. split; [exact E|]. rewrite A. split.
      * intros K h [<-|Hh] Hc; [congruence|apply K; assumption].
      * intros K h Hh. apply K. right. exact Hh.
Qed.

Lemma kaxle_ok_iff : forall bt m w m' w', In bt (kx_bins i) -> trucks_ok i -> maxima_ok i -> (m == m')%Q -> (w == w')%Q ->
  (kaxle_ok (kb_truck bt) m w <->
   (tr_is (kb_truck bt) = true -> ~ (w' == 0)%Q -> forall middle rear, balanced (kb_truck bt) m' w' middle rear ->
      most middle (tr_middle_maximum (kb_truck bt)) /\ most rear (tr_rear_maximum (kb_truck bt)))).
Proof.
  intros bt m w m' w' Hbt Ht Hm Em Ew. unfold kaxle_ok. destruct (tr_is (kb_truck bt)) eqn:Et.
  - destruct (Ht bt Hbt Et) as [T1 T2]. destruct (Qeq_dec w 0) as [E0|E0].
    + assert (N : compute_axle_weights (kb_truck bt) m w = None).
      { unfold compute_axle_weights. rewrite Et. cbn [negb]. unfold qdiv_opt at 1. apply Qeq_eq_bool in E0. rewrite E0. reflexivity. }
      rewrite N. cbn [option_map kexceeds]. split; [intros _ _ K; exfalso; apply K; rewrite <- Ew; exact E0|intros _; split; reflexivity].
    + destruct (axle_defined (kb_truck bt) m w Et E0 T1 T2) as (a & b & E). rewrite E. cbn [option_map fst snd].
      rewrite !kexceeds_false. pose proof (axle_balanced _ _ _ _ _ Et E) as B. apply (balanced_compat _ _ _ _ _ m' w' Em Ew) in B. split.
      * intros [K1 K2] _ _ middle rear Hb. destruct (balanced_unique _ _ _ _ _ _ _ T1 T2 B Hb) as [U1 U2].
        split; [apply (most_compat a)|apply (most_compat b)]; assumption.
      * intro K. apply K; [reflexivity|rewrite <- Ew; exact E0|exact B].
  - unfold compute_axle_weights. rewrite Et. cbn [negb option_map fst snd]. rewrite !kexceeds_false.
    split; [intros _ K; discriminate|]. intros _. destruct (Hm bt Hbt Et) as [M1 M2].
    assert (P : (0 <= PSTOL)%Q) by (unfold PSTOL; vm_compute; discriminate).
    split; [destruct (tr_middle_maximum (kb_truck bt)) as [x|]|destruct (tr_rear_maximum (kb_truck bt)) as [x|]]; cbn [most]; try exact Logic.I;
      apply Qmult_le_0_compat; try exact P; auto.
Qed.

Definition kgood (b : KSBin) : Prop := KBinOk i b /\ kdesc_ok i (kview_bin b).

Lemma kaxles_bin : forall b, kgood b -> trucks_ok i -> maxima_ok i ->
  ((forall g, In g (seq 0 (kgroups i)) -> kcheck_weight i g = true ->
     kaxle_ok (kb_truck (kbin i (kn_type b))) (nth g (kn_moment b) 0%Q) (nth g (kn_weight b) 0%Q)) <-> axles_ok i (kview_bin b)).
Proof.
  intros b [[_ [_ W] [_ M] _] [Ht _]] Hk Hm. cbn [kview_bin kd_type] in Ht.
  assert (Hbt : In (kbin i (kn_type b)) (kx_bins i)) by (apply nth_In; exact Ht). unfold axles_ok. cbv zeta.
  split.
  - intros K Et g Hg Hc. assert (Hs : In g (seq 0 (kgroups i))) by (apply in_seq; lia). specialize (K g Hs Hc).
    destruct (kaxle_ok_iff _ _ _ (bin_gmoment i g (kview_bin b)) (bin_gweight i g (kview_bin b)) Hbt Hk Hm (M g Hg) (W g Hg)) as [A _].
    exact (A K Et).
  - intros K g Hs Hc. apply in_seq in Hs. assert (Hg : (g < kgroups i)%nat) by lia.
    destruct (kaxle_ok_iff _ _ _ (bin_gmoment i g (kview_bin b)) (bin_gweight i g (kview_bin b)) Hbt Hk Hm (M g Hg) (W g Hg)) as [_ A].
    apply A. intro Et. exact (K Et g Hg Hc).
Qed.

Lemma kaxle_bin_groups : forall b, KBinOk i b -> exists a,
  kaxle_groups i (kb_truck (kbin i (kn_type b))) (kn_weight b) (kn_moment b) (seq 0 (kgroups i)) = Some a /\
  (a = true <-> forall g, In g (seq 0 (kgroups i)) -> kcheck_weight i g = true ->
     kaxle_ok (kb_truck (kbin i (kn_type b))) (nth g (kn_moment b) 0%Q) (nth g (kn_weight b) 0%Q)).
Proof.
  intros b [_ [W _] [M _] _]. apply kaxle_groups_spec. intros g Hg. apply in_seq in Hg. rewrite W, M. lia.
Qed.

Lemma kfeasible_axles_spec : forall bins, (forall b, In b bins -> KBinOk i b) -> exists a, kfeasible_axles i bins = Some a /\
  (a = true <-> forall b, In b bins -> forall g, In g (seq 0 (kgroups i)) -> kcheck_weight i g = true ->
     kaxle_ok (kb_truck (kbin i (kn_type b))) (nth g (kn_moment b) 0%Q) (nth g (kn_weight b) 0%Q)).
Proof.
  intros bins. induction bins as [|b bins IH]; intro H; cbn [kfeasible_axles].
  - exists true. split; [reflexivity|]. split; [intros _ b []|reflexivity].
  - destruct (kaxle_bin_groups b (H b (or_introl eq_refl))) as (a & E & A). rewrite E.
    destruct IH as (a' & E' & A'); [intros c Hc; apply H; right; exact Hc|]. destruct a.
    + exists a'. split; [exact E'|]. rewrite A'. split.
      * intros K c [<-|Hc]; [apply A; reflexivity|apply K; exact Hc].
      * intros K c Hc. apply K. right. exact Hc.
    + exists false. split; [reflexivity|]. split; [discriminate|]. intro K. apply A. intros g Hg. apply (K b (or_introl eq_refl)). exact Hg.
Qed.

Lemma kgroups_pos : forall x, (x < length (kx_items i))%nat -> (0 < kgroups i)%nat.
Proof.
  assert (G : forall l n, (n <= fold_left (fun n it => Nat.max n (S (ki_group it))) l n)%nat).
  { induction l as [|a l IH]; intro n; cbn [fold_left]; [lia|]. specialize (IH (Nat.max n (S (ki_group a)))). lia. }
  intros x Hx. unfold kgroups. destruct (kx_items i) as [|a l]; [cbn in Hx; lia|]. cbn [fold_left].
  specialize (G l (Nat.max 0 (S (ki_group a)))). lia.
Qed.

Lemma gweight_zero : forall d, (bin_gweight i 0 d == qsum (kweight i) (kd_items d))%Q.
Proof.
  intro d. unfold bin_gweight, kd_items. induction (kd_stacks d) as [|s l IH]; [reflexivity|].
  cbn [flat_map]. rewrite qsum_cons, qsum_app, IH. reflexivity.
Qed.

Lemma ktotal_bin : forall b, kgood b ->
  (kexceeds (Some (match kn_weight b with [] => 0%Q | w :: _ => w end)) (kb_max_weight (kbin i (kn_type b))) = false <-> total_ok i (kview_bin b)).
Proof.
  intros b [[_ [L W] _ _] [_ Hp]]. rewrite kexceeds_false. unfold total_ok. cbn [kview_bin kd_type].
  assert (E : (match kn_weight b with [] => 0 | w :: _ => w end == qsum (kweight i) (kd_items (kview_bin b)))%Q).
  { destruct (kn_weight b) as [|w l] eqn:Ew.
    - destruct (kd_items (kview_bin b)) as [|p ps] eqn:Ei; [reflexivity|]. specialize (Hp p (or_introl eq_refl)).
      apply kgroups_pos in Hp. cbn in L. lia.
    - rewrite <- gweight_zero. cbn [length] in L. specialize (W 0%nat ltac:(lia)). cbn [nth] in W. exact W. }
  split; apply most_compat; [exact E|symmetry; exact E].
Qed.

Lemma kfeasible_spec : forall c ok, (forall b, In b (kc_bins c) -> KBinOk i b) -> exists f, kfeasible i c ok = Some f /\
  ((forall b, In b (kc_bins c) -> kgood b) -> trucks_ok i -> maxima_ok i ->
   (f = true <-> (forall d, In d (map kview_bin (kc_bins c)) -> total_ok i d /\ axles_ok i d) /\ ok = true /\ kc_item_copies_ok c = true /\ kc_missing c = 0)).
Proof.
  intros c ok H. unfold kfeasible. destruct (kfeasible_weight i (kc_bins c)) eqn:Ew; cbn [negb].
  - destruct (kfeasible_axles_spec (kc_bins c) H) as (a & E & A). rewrite E. eexists. split; [reflexivity|]. intros G Ht Hm.
    rewrite !andb_true_iff, A, Z.eqb_eq. unfold kfeasible_weight in Ew. rewrite forallb_forall in Ew. split.
    + intros [[[K1 K2] K3] K4]. split; [|repeat split; assumption]. intros d Hd. apply in_map_iff in Hd. destruct Hd as (b & <- & Hb).
      split; [apply (ktotal_bin b (G b Hb)), negb_true_iff, (Ew b Hb)|apply (kaxles_bin b (G b Hb) Ht Hm), (K1 b Hb)].
    + intros (K1 & K2 & K3 & K4). split; [|exact K4]. split; [|exact K3]. split; [|exact K2]. intros b Hb. apply (kaxles_bin b (G b Hb) Ht Hm).
      apply K1, in_map, Hb.
  - eexists. split; [reflexivity|]. intros G Ht Hm. split; [discriminate|]. intros (K1 & _). exfalso.
    assert (Et : kfeasible_weight i (kc_bins c) = true); [|congruence]. apply forallb_forall. intros b Hb. apply negb_true_iff.
    apply (ktotal_bin b (G b Hb)). apply K1, in_map, Hb.
Qed.

(** ** Counts *)

Lemma kmissing_zero : forall l, kcount_missing i l = 0 <->
  forall x, (x < length (kx_items i))%nat -> ki_copies_min (kitem i x) <= nth x l 0.
Proof.
  intro l. unfold kcount_missing.
  assert (G : forall xs n, 0 <= n -> 0 <= fold_left (fun n x => if nth x l 0 <? ki_copies_min (kitem i x) then n + 1 else n) xs n /\
    (fold_left (fun n x => if nth x l 0 <? ki_copies_min (kitem i x) then n + 1 else n) xs n = 0 <->
     n = 0 /\ forall x, In x xs -> ki_copies_min (kitem i x) <= nth x l 0)).
  { induction xs as [|x xs IH]; intros n Hn; cbn [fold_left].
    - split; [exact Hn|]. split; [intro E; split; [exact E|intros x []]|intros [E _]; exact E].
    - destruct (Z.ltb_spec (nth x l 0) (ki_copies_min (kitem i x))) as [L|L].
      + destruct (IH (n + 1) ltac:(lia)) as [I1 I2]. split; [exact I1|]. rewrite I2. split; [intros [E _]; lia|].
        intros [_ K]. specialize (K x (or_introl eq_refl)). lia.
      + destruct (IH n Hn) as [I1 I2]. split; [exact I1|]. rewrite I2. split; intros [E K]; (split; [exact E|]).
        * intros y [<-|Hy]; [lia|apply K, Hy].
        * intros y Hy. apply K. right. exact Hy. }
  destruct (G (seq 0 (length (kx_items i))) 0 ltac:(lia)) as [_ E]. rewrite E. split.
  - intros [_ K] x Hx. apply K. apply in_seq. lia.
  - intro K. split; [reflexivity|]. intros x Hx. apply in_seq in Hx. apply K. lia.
Qed.

Lemma kcopies_ok_iff : forall l, kitem_copies_ok i l = true <->
  forall x, (x < length (kx_items i))%nat -> nth x l 0 <= ki_copies (kitem i x).
Proof.
  intro l. unfold kitem_copies_ok. rewrite forallb_forall. split; intros H x Hx.
  - apply Z.leb_le, H, in_seq. lia.
  - apply Z.leb_le, H. apply in_seq in Hx. lia.
Qed.

(** ** Histories *)

Record KGood (s : KSolution) : Prop := {
  kg_inv : KInv (kview s) (ksol_core s);
  kg_bins : forall b, In b (kc_bins (ksol_core s)) -> kgood b;
  kg_flags : kview s <> [] -> KFlags s;
  kg_empty : kview s = [] -> s = ksol_new i;
  kg_last : forall ds d, kview s = ds ++ [d] -> kc_x_max (ksol_core s) = far sd_xe d /\ kc_y_max (ksol_core s) = far sd_ye d /\
    (kd_stacks d <> [] -> kc_volume (ksol_core s) = klast_volume (kbin i (kd_type d)) (kc_bin_volume (ksol_core s)) 0 d)
}.

Lemma kinv_new : KInv [] (ksol_core (ksol_new i)).
Proof.
  constructor; [constructor|..]; cbn; try reflexivity; try apply repeat_length.
  - split; [intros d []|reflexivity].
  - intros t _. rewrite nth_repeat. reflexivity.
  - intros x _. rewrite nth_repeat. reflexivity.
Qed.

Lemma kgood_new : KGood (ksol_new i).
Proof.
  constructor.
  - apply kinv_new.
  - intros b [].
  - intro N. exfalso. apply N. reflexivity.
  - reflexivity.
  - intros ds d E. destruct ds; discriminate.
Qed.

Lemma kgood_flags : forall c f, kfeasible i c (cb c) = Some f -> kc_missing c = kcount_missing i (kc_item_copies c) ->
  kc_item_copies_ok c = kitem_copies_ok i (kc_item_copies c) -> KFlags (mkKSol c (cb c) f).
Proof. intros c f H1 H2 H3. constructor; cbn; auto. Qed.

Lemma kpush_good : forall s b, KGood s -> kdesc_ok i (kview_bin b) -> exists s', kpush_bin i cb s b = Some s' /\
  KGood s' /\ kview s' = kview s ++ [kview_bin b].
Proof.
  intros s b [I B F E L] Hd. unfold kpush_bin. set (s0 := mkKSol _ _ _).
  assert (Eb : kc_bins (ksol_core s0) = kc_bins (ksol_core s) ++ [b]) by reflexivity.
  destruct (kupdate_core (kview s) s0 (length (kc_bins (ksol_core s))) b) as (c' & U & I' & (M & C) & (b' & Eb' & Ok & V) & Lst).
  - apply kinv_rebins. exact I.
  - rewrite Eb. apply nth_error_snoc.
  - exact Hd.
  - rewrite Eb, upd_snoc in Eb'.
    assert (G : forall x, In x (kc_bins c') -> kgood x).
    { rewrite Eb'. intros x Hx. apply in_snoc in Hx. destruct Hx as [Hx| ->]; [apply B, Hx|]. split; [exact Ok|rewrite V; exact Hd]. }
    destruct (kfeasible_spec c' (cb c')) as (f & Ef & _); [intros x Hx; apply (G x Hx)|]. rewrite Ef in U.
    exists (mkKSol c' (cb c') f). split; [exact U|].
    assert (W : kview (mkKSol c' (cb c') f) = kview s ++ [kview_bin b]).
    { unfold kview. cbn [ksol_core]. rewrite Eb', map_app. cbn [map]. rewrite V. reflexivity. }
    split; [|exact W]. constructor.
    + rewrite W. exact I'.
    + exact G.
    + intros _. apply kgood_flags; assumption.
    + rewrite W. intro N. destruct (kview s); discriminate.
    + rewrite W. intros ds d N. apply app_inj_tail in N. destruct N as [_ <-]. cbn [ksol_core].
      destruct Lst as (L1 & L2 & L3); [rewrite Eb, app_length; cbn; lia|]. split; [exact L1|]. split; [exact L2|]. intro Ne. rewrite L3.
      unfold klast_volume. cbn [kview_bin kd_type kd_stacks] in *. destruct (map kview_stack (kn_stacks b)); [congruence|reflexivity].
Qed.

(** [build]. *)
Record KPart (bins : list KSBin) (k : nat) (s : KSolution) : Prop := {
  kp_inv : KInv (firstn k (map kview_bin bins)) (ksol_core s);
  kp_view : kview s = map kview_bin bins;
  kp_done : forall p b, nth_error (kc_bins (ksol_core s)) p = Some b -> (p < k)%nat -> kgood b;
  kp_flags : (0 < k)%nat -> KFlags s;
  kp_last : forall ds d, map kview_bin bins = ds ++ [d] -> k = length bins ->
    kc_x_max (ksol_core s) = far sd_xe d /\ kc_y_max (ksol_core s) = far sd_ye d /\
    (kd_stacks d <> [] -> kc_volume (ksol_core s) = klast_volume (kbin i (kd_type d)) (kc_bin_volume (ksol_core s)) 0 d)
}.

Lemma kbuild_steps : forall bins n k s s', (forall b, In b bins -> kdesc_ok i (kview_bin b)) -> KPart bins k s ->
  (k + n = length bins)%nat -> kbuild_from i cb (seq k n) s = Some s' -> KPart bins (length bins) s'.
Proof.
  intros bins n. induction n as [|n IH]; intros k s s' Hd P E H; cbn [seq kbuild_from] in H.
  - injection H as <-. replace (length bins) with k by lia. exact P.
  - destruct P as [I V D F L]. destruct (kupdate i cb k s) as [s1|] eqn:U; [|discriminate].
    assert (Hlen : length (kc_bins (ksol_core s)) = length bins).
    { apply (f_equal (@length _)) in V. unfold kview in V. rewrite !map_length in V. exact V. }
    destruct (nth_error (kc_bins (ksol_core s)) k) as [b|] eqn:Nb; [|apply nth_error_None in Nb; lia].
    assert (Vb : nth_error (map kview_bin bins) k = Some (kview_bin b)).
    { rewrite <- V. unfold kview. apply map_nth_error. exact Nb. }
    assert (Hb : kdesc_ok i (kview_bin b)).
    { apply nth_error_In in Vb. apply in_map_iff in Vb. destruct Vb as (b0 & <- & Hb0). apply Hd, Hb0. }
    destruct (kupdate_core _ s k b I Nb Hb) as (c' & U' & I' & (M & C) & (b' & Eb' & Ok & Vb') & Lst).
    rewrite U in U'. destruct (kfeasible i c' (cb c')) as [f|] eqn:Ef; [|discriminate]. injection U' as ->.
    assert (View : kview (mkKSol c' (cb c') f) = map kview_bin bins).
    { rewrite <- V. unfold kview. cbn [ksol_core]. rewrite Eb'. apply nth_error_split in Nb. destruct Nb as (l1 & l2 & Sp & Ln). rewrite Sp.
      rewrite <- Ln. clear - Vb'. induction l1 as [|a l1 IH]; cbn [app length upd map]; [rewrite Vb'; reflexivity|f_equal; exact IH]. }
    apply (IH (S k) _ s' Hd) in H; [exact H| |lia]. constructor.
    + cbn [ksol_core]. rewrite (firstn_succ_snoc _ _ k (kview_bin b) Vb). exact I'.
    + exact View.
    + cbn [ksol_core]. intros p x Hx Hp. rewrite Eb' in Hx. destruct (Nat.eq_dec p k) as [-> |Np].
      * assert (x = b').
        { apply (nth_error_nth _ _ b') in Hx. rewrite nth_upd_same in Hx by lia. congruence. }
        subst x. split; [exact Ok|rewrite Vb'; exact Hb].
      * apply (D p x); [|lia]. assert (Hl : (p < length (kc_bins (ksol_core s)))%nat).
        { apply nth_error_lt in Hx. rewrite upd_length in Hx. exact Hx. }
        rewrite (nth_error_nth' _ x Hl). f_equal. apply (nth_error_nth _ _ x) in Hx. rewrite nth_upd_other in Hx by lia. exact Hx.
    + intros _. apply kgood_flags; assumption.
    + intros ds d Eds Ek. cbn [ksol_core]. destruct Lst as (L1 & L2 & L3); [lia|].
      assert (kview_bin b = d).
      { rewrite Eds in Vb. assert (Hl : length ds = k) by (apply (f_equal (@length _)) in Eds; rewrite map_length, app_length in Eds; cbn in Eds; lia).
        rewrite <- Hl, nth_error_snoc in Vb. congruence. }
      subst d. split; [exact L1|]. split; [exact L2|]. intro Ne. rewrite L3. unfold klast_volume. cbn [kview_bin kd_type kd_stacks] in *.
      destruct (map kview_stack (kn_stacks b)); [congruence|reflexivity].
Qed.

Lemma kbuild_good : forall bins s, (forall b, In b bins -> kdesc_ok i (kview_bin b)) -> kb_build i cb bins = Some s ->
  KGood s /\ kview s = map kview_bin bins.
Proof.
  intros bins s Hd H. unfold kb_build in H. cbv zeta in H.
  destruct bins as [|b0 bins0] eqn:Eb.
  - cbn [length seq kbuild_from] in H. injection H as <-. split; [apply kgood_new|reflexivity].
  - rewrite <- Eb in *. apply (kbuild_steps bins (length bins) 0 _ s Hd) in H; [|constructor|lia].
    + destruct H as [I V D F L]. assert (N : kview s <> []) by (rewrite V, Eb; discriminate).
      assert (P : (0 < length bins)%nat) by (rewrite Eb; cbn; lia).
      split; [|exact V]. constructor.
      * rewrite V. rewrite firstn_all2 in I by (rewrite map_length; lia). exact I.
      * intros b Hb. apply In_nth_error in Hb. destruct Hb as [p Hp]. apply (D p b Hp).
        apply nth_error_lt in Hp. apply (f_equal (@length _)) in V. unfold kview in V. rewrite !map_length in V. lia.
      * intros _. apply F. exact P.
      * intro N'. contradiction.
      * intros ds d E. apply (L ds d); [rewrite <- V; exact E|reflexivity].
    + cbn [firstn]. apply kinv_rebins. apply kinv_new.
    + reflexivity.
    + intros p b _ Hp. lia.
    + lia.
    + intros ds d _ E. rewrite Eb in E. discriminate.
Qed.

Lemma kbuild_one : forall b, kdesc_ok i (kview_bin b) -> exists s, kb_build i cb [b] = Some s.
Proof.
  intros b Hd. destruct (kpush_good (ksol_new i) b kgood_new Hd) as (s & E & _). exists s.
  unfold kb_build. cbn [length seq kbuild_from]. unfold kpush_bin in E. cbn [length] in E. 
  change (kc_bins (ksol_core (ksol_new i)) ++ [b]) with [b] in E. change (length (kc_bins (ksol_core (ksol_new i)))) with 0%nat in E.
  cbv zeta. rewrite E. reflexivity.
Qed.

(** Builder calls. *)
Lemma kb_run_spec : forall calls bins bins', kb_run i bins calls = Some bins' ->
  (forall b, In b bins -> kdesc_ok i (kview_bin b)) ->
  map kview_bin bins' = kdesc_run (map kview_bin bins) calls /\ (forall b, In b bins' -> kdesc_ok i (kview_bin b)).
Proof.
  induction calls as [|c calls IH]; intros bins bins' H Hd; cbn [kb_run kdesc_run] in *.
  - injection H as <-. split; [reflexivity|exact Hd].
  - destruct (kb_call i bins c) as [bins1|] eqn:E; [|discriminate]. destruct c as [t copies|pos x xe y ye|pos stack p]; cbn [kb_call] in E.
    + unfold kb_add_bin, kin_range in E. cbn [forallb] in E. rewrite andb_true_r in E. destruct (Nat.ltb_spec t (length (kx_bins i))) as [Lt|Lt]; [|discriminate].
      injection E as <-. apply IH in H.
      * rewrite map_app in H. exact H.
      * intros b Hb. apply in_snoc in Hb. destruct Hb as [Hb| ->]; [apply Hd, Hb|]. split; [exact Lt|intros q []].
    + unfold kb_add_stack in E. destruct (Nat.ltb_spec pos (length bins)) as [Lt|Lt]; [|discriminate]. injection E as <-. apply IH in H.
      * rewrite (map_upd _ _ kview_bin _ (fun d => mkKD (kd_type d) (kd_copies d) (kd_stacks d ++ [mkKSD x xe y ye []]))) in H; [exact H|].
        intros b. unfold kview_bin, kraw_bin. cbn. rewrite map_app. reflexivity.
      * intros b Hb. apply in_upd in Hb. destruct Hb as [Hb|(b0 & Hb & ->)]; [apply Hd, Hb|]. destruct (Hd b0 Hb) as [D1 D2].
        split; [exact D1|]. intros q Hq. apply D2. unfold kd_items, kview_bin, kraw_bin in *. cbn in *. rewrite map_app, flat_map_app in Hq.
        cbn in Hq. rewrite app_nil_r in Hq. exact Hq.
    + unfold kb_add_item in E. destruct (nth_error bins pos) as [b|] eqn:Nb; [|discriminate].
      destruct (nth_error (kn_stacks b) stack) as [st|] eqn:Ns; [|discriminate].
      destruct (Nat.ltb_spec (fst p) (length (kx_items i))) as [Lt|Lt]; cbn [andb] in E; [|discriminate].
      destruct (kcan_rotate _ _ && _ && _) eqn:Ec; [|rewrite ?Ec in E; discriminate]. injection E as <-. 
      assert (Vs : forall s, kview_stack (kpush_item p s) = mkKSD (ks_x s) (ks_xe s) (ks_y s) (ks_ye s) (sd_items (kview_stack s) ++ [p])).
      { intro s. unfold kpush_item, kraw_stack, kview_stack. cbn [ks_x ks_xe ks_y ks_ye ks_items sd_items]. f_equal.
        rewrite map_map. cbn [kp_type kp_rot]. rewrite map_app. cbn [map fst snd].
        f_equal; [rewrite map_map; apply map_ext; intro a; reflexivity|destruct p; reflexivity]. }
      assert (Vu : forall l, map kview_stack (upd stack (kpush_item p) l)
        = upd stack (fun s => mkKSD (sd_x s) (sd_xe s) (sd_y s) (sd_ye s) (sd_items s ++ [p])) (map kview_stack l)).
      { intro l. apply map_upd. intro s. rewrite Vs. reflexivity. }
      apply IH in H.
      * rewrite (map_upd _ _ kview_bin _ (fun d => mkKD (kd_type d) (kd_copies d)
          (upd stack (fun s => mkKSD (sd_x s) (sd_xe s) (sd_y s) (sd_ye s) (sd_items s ++ [p])) (kd_stacks d)))) in H; [exact H|].
        intros a. unfold kview_bin, kraw_bin. cbn [kn_type kn_copies kn_stacks kd_type kd_copies kd_stacks]. rewrite Vu. reflexivity.
      * intros a Ha. apply in_upd in Ha. destruct Ha as [Ha|(b0 & Ha & ->)]; [apply Hd, Ha|]. destruct (Hd b0 Ha) as [D1 D2].
        split; [exact D1|]. intros q Hq. unfold kd_items, kview_bin, kraw_bin in Hq. cbn [kd_stacks kn_stacks] in Hq. rewrite Vu in Hq.
        apply in_flat_map in Hq. destruct Hq as (s1 & Hs1 & Hq). apply in_upd in Hs1. destruct Hs1 as [Hs1|(s0 & Hs0 & ->)].
        -- apply D2. apply in_flat_map. exists s1. split; assumption.
        -- cbn [sd_items] in Hq. apply in_snoc in Hq. destruct Hq as [Hq| ->]; [|exact Lt]. apply D2. apply in_flat_map. exists s0. split; assumption.
Qed.

(** Appends. *)
Lemma kmap_id_mapped : forall ids id r, map_id ids id = Some r -> r = kmapped ids id.
Proof.
  intros ids id r H. unfold map_id in H. unfold kmapped. destruct ids as [|a ids]; [congruence|].
  symmetry. apply nth_error_nth. exact H.
Qed.

Lemma kmap_items_mapped : forall ids l r, kmap_items ids l = Some r ->
  r = map (fun p => (kmapped ids (fst p), snd p)) (map (fun p => (kp_type p, kp_rot p)) l).
Proof.
  intros ids l. induction l as [|p l IH]; intros r H; cbn [kmap_items] in H; [injection H as <-; reflexivity|].
  destruct (map_id ids (kp_type p)) as [id|] eqn:E; [|discriminate]. destruct (kmap_items ids l) as [r'|]; [|discriminate].
  injection H as <-. apply kmap_id_mapped in E. subst id. cbn [map fst snd]. f_equal. apply IH. reflexivity.
Qed.

Lemma kraw_view : forall x xe y ye items, kview_stack (kraw_stack x xe y ye items) = mkKSD x xe y ye items.
Proof.
  intros. unfold kview_stack, kraw_stack. cbn. f_equal. rewrite map_map. rewrite <- (List.map_id items) at 2. apply map_ext. intros []. reflexivity.
Qed.

Lemma kmap_stacks_mapped : forall ids l r, kmap_stacks ids l = Some r ->
  map kview_stack r = map (fun s => mkKSD (sd_x s) (sd_xe s) (sd_y s) (sd_ye s) (map (fun p => (kmapped ids (fst p), snd p)) (sd_items s))) (map kview_stack l).
Proof.
  intros ids l. induction l as [|s l IH]; intros r H; cbn [kmap_stacks] in H; [injection H as <-; reflexivity|].
  destruct (kmap_items ids (ks_items s)) as [items|] eqn:E; [|discriminate]. destruct (kmap_stacks ids l) as [r'|]; [|discriminate].
  injection H as <-. cbn [map]. rewrite kraw_view. apply kmap_items_mapped in E. rewrite E. f_equal. apply IH. reflexivity.
Qed.

Lemma kin_range_ok : forall t copies stacks, kin_range i t stacks = true -> kdesc_ok i (kview_bin (kraw_bin t copies stacks)).
Proof.
  intros t copies stacks H. unfold kin_range in H. apply andb_true_iff in H. destruct H as [H1 H2]. apply Nat.ltb_lt in H1.
  split; [exact H1|]. intros p Hp. rewrite forallb_forall in H2. unfold kd_items in Hp. apply in_flat_map in Hp. destruct Hp as (s & Hs & Hp).
  cbn [kview_bin kraw_bin kd_stacks kn_stacks] in Hs. apply in_map_iff in Hs. destruct Hs as (st & <- & Hst). specialize (H2 st Hst).
  rewrite forallb_forall in H2. cbn [kview_stack sd_items] in Hp. apply in_map_iff in Hp. destruct Hp as (q & <- & Hq).
  apply Nat.ltb_lt. apply (H2 q Hq).
Qed.

Lemma kappend_bin_spec : forall s source pos copies bids iids s', KGood s -> kappend_bin i cb s source pos copies bids iids = Some s' ->
  KGood s' /\ exists d, nth_error (kview source) pos = Some d /\ kview s' = kview s ++ [kmapped_desc bids iids copies d].
Proof.
  intros s source pos copies bids iids s' G H. unfold kappend_bin in H.
  destruct (nth_error (kc_bins (ksol_core source)) pos) as [b|] eqn:Nb; [|discriminate].
  destruct (map_id bids (kn_type b)) as [t|] eqn:Et; [|discriminate].
  destruct (kmap_stacks iids (kn_stacks b)) as [stacks|] eqn:Es; [|discriminate].
  destruct (kin_range i t stacks) eqn:R; [|discriminate].
  destruct (kpush_good s (kraw_bin t copies stacks) G (kin_range_ok t copies stacks R)) as (s1 & E1 & G1 & V1).
  rewrite E1 in H. injection H as <-. split; [exact G1|]. exists (kview_bin b).
  split; [unfold kview; apply map_nth_error; exact Nb|]. rewrite V1. f_equal. f_equal. unfold kmapped_desc.
  apply kmap_id_mapped in Et. apply kmap_stacks_mapped in Es. unfold kview_bin at 1, kraw_bin. cbn [kn_type kn_copies kn_stacks kview_bin kd_type kd_stacks].
  rewrite Et, Es. reflexivity.
Qed.

Lemma kappend_from_spec : forall source bids iids positions s s', KGood s ->
  kappend_from i cb s source bids iids positions = Some s' ->
  KGood s' /\ exists ds, map (nth_error (kview source)) positions = map Some ds /\
    kview s' = kview s ++ map (fun d => kmapped_desc bids iids (kd_copies d) d) ds.
Proof.
  intros source bids iids positions. induction positions as [|pos rest IH]; intros s s' G H; cbn [kappend_from] in H.
  - injection H as <-. split; [exact G|]. exists []. split; [reflexivity|]. cbn [map]. rewrite app_nil_r. reflexivity.
  - destruct (nth_error (kc_bins (ksol_core source)) pos) as [b|] eqn:Nb; [|discriminate].
    destruct (kappend_bin i cb s source pos (kn_copies b) bids iids) as [s1|] eqn:E; [|discriminate].
    apply kappend_bin_spec in E; [|exact G]. destruct E as (G1 & d & Nd & V1). apply IH in H; [|exact G1]. destruct H as (G2 & ds & M & V2).
    split; [exact G2|]. exists (d :: ds). cbn [map]. split; [rewrite Nd, M; reflexivity|]. rewrite V2, V1, <- app_assoc. cbn [app].
    unfold kview in Nd. rewrite (map_nth_error kview_bin _ _ Nb) in Nd. injection Nd as <-. reflexivity.
Qed.

Lemma ksol_run_spec : forall calls s s', KGood s -> ksol_run i cb s calls = Some s' ->
  KGood s' /\ kview s' = kview s ++ flat_map kcall_bins calls.
Proof.
  induction calls as [|c calls IH]; intros s s' G H; cbn [ksol_run flat_map] in *.
  - injection H as <-. rewrite app_nil_r. split; [exact G|reflexivity].
  - destruct (ksol_call i cb s c) as [s1|] eqn:E; [|discriminate].
    assert (S1 : KGood s1 /\ kview s1 = kview s ++ kcall_bins c).
    { destruct c as [source pos copies bids iids|source bids iids|t copies]; cbn [ksol_call kcall_bins] in *.
      - apply kappend_bin_spec in E; [|exact G]. destruct E as (G1 & d & Nd & V1). rewrite Nd. split; assumption.
      - unfold kappend_bins in E. apply kappend_from_spec in E; [|exact G]. destruct E as (G1 & ds & M & V1). split; [exact G1|].
        rewrite V1. f_equal. f_equal. apply map_nth_error_seq. unfold kview in M |- *. rewrite map_length. exact M.
      - unfold kappend_empty in E. destruct (kin_range i t []) eqn:R; [|discriminate].
        destruct (kpush_good s (kraw_bin t copies []) G (kin_range_ok t copies [] R)) as (s2 & E2 & G2 & V2).
        rewrite E2 in E. injection E as <-. split; assumption. }
    destruct S1 as [G1 V1]. apply IH in H; [|exact G1]. destruct H as [G2 V2]. split; [exact G2|]. rewrite V2, V1, app_assoc. reflexivity.
Qed.

Lemma khistory_spec : forall calls1 calls2 s, khistory i cb calls1 calls2 = Some s ->
  KGood s /\ kview s = kdesc_run [] calls1 ++ flat_map kcall_bins calls2.
Proof.
  intros calls1 calls2 s H. unfold khistory in H. destruct (kb_run i [] calls1) as [bins|] eqn:E1; [|discriminate].
  destruct (kb_build i cb bins) as [s1|] eqn:E2; [|discriminate]. apply kb_run_spec in E1; [|intros b []]. destruct E1 as [V1 D1].
  apply kbuild_good in E2; [|exact D1]. destruct E2 as [G1 V2]. apply ksol_run_spec in H; [|exact G1]. destruct H as [G2 V3].
  split; [exact G2|]. rewrite V3, V2, V1. reflexivity.
Qed.

End History.
