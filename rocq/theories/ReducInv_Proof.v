(** * The invariant of the rectangle reduction, and its steps *)

From Coq Require Import List ZArith QArith Bool Arith Lia Permutation.
From Verif Require Import Util Common_Model Rect_Model Rect_Spec Reduc_Model Reduc_Spec Reduc_Proof.
Import ListNotations.
Open Scope Z_scope.

Definition entryt (t : RT) (k : nat) : list Comp := match entry t k with Some e => e | None => [] end.
Definition tcontent (z x : nat) (t : RT) : Z := zsum (fun k => unitc z x (entryt t k)) (seq 0 (Z.to_nat (rt_copies t))).

Lemma single_bins_sum : forall (f : nat * list Place -> Z) ds, (forall d, In d ds -> 1 <= rd_copies d) ->
  zsum f (single_bins ds) = zsum (fun d => rd_copies d * f (rd_type d, rd_items d)) ds.
Proof.
  intros f ds. induction ds as [|d ds IH]; intros H; [reflexivity|]. unfold single_bins. cbn [flat_map]. rewrite zsum_app, zsum_cons.
  rewrite zsum_repeat. fold (single_bins ds). rewrite IH by (intros d' Hd; apply H; right; exact Hd).
  rewrite Z2Nat.id by (pose proof (H d (or_introl eq_refl)); lia). reflexivity.
Qed.
Lemma single_bins_in : forall ds b, In b (single_bins ds) -> exists d, In d ds /\ b = (rd_type d, rd_items d).
Proof.
  intros ds b Hb. apply in_flat_map in Hb. destruct Hb as (d & Hd & Hb). apply repeat_spec in Hb. exists d. split; assumption.
Qed.

Lemma zsum_const0 : forall (A : Type) (l : list A), zsum (fun _ => 0) l = 0.
Proof. intros A l. induction l as [|a l IH]; [reflexivity|]. rewrite zsum_cons, IH. reflexivity. Qed.
Lemma zsum_swap : forall (A B : Type) (f : A -> B -> Z) la lb, zsum (fun a => zsum (f a) lb) la = zsum (fun b => zsum (fun a => f a b) la) lb.
Proof.
  intros A B f la lb. induction la as [|a la IH]; [rewrite zsum_nil; symmetry; apply zsum_const0|].
  rewrite zsum_cons, IH, <- zsum_plus. apply zsum_ext. intros b _. rewrite zsum_cons. reflexivity.
Qed.
Lemma zsum_filter_if : forall (A : Type) (p : A -> bool) (f : A -> Z) l, zsum f (filter p l) = zsum (fun a => if p a then f a else 0) l.
Proof. intros A p f l. induction l as [|a l IH]; [reflexivity|]. cbn [filter]. rewrite zsum_cons. destruct (p a); [rewrite zsum_cons|]; rewrite IH; lia. Qed.
Lemma zsum_length : forall (A : Type) (l : list A), zsum (fun _ => 1) l = Z.of_nat (length l).
Proof. intros A l. induction l as [|a l IH]; [reflexivity|]. rewrite zsum_cons, IH. cbn [length]. lia. Qed.

Lemma existsb_in : forall x l, existsb (Nat.eqb x) l = true <-> In x l.
Proof.
  intros x l. rewrite existsb_exists. split.
  - intros (y & Hy & E). apply Nat.eqb_eq in E. subst y. exact Hy.
  - intros H. exists x. split; [exact H|apply Nat.eqb_refl].
Qed.
Lemma existsb_notin : forall x l, existsb (Nat.eqb x) l = false <-> ~ In x l.
Proof. intros x l. rewrite <- existsb_in. destruct (existsb (Nat.eqb x) l); split; congruence. Qed.

Lemma nth_map_seq : forall (A : Type) (f : nat -> A) n x d, (x < n)%nat -> nth x (map f (seq 0 n)) d = f x.
Proof. intros A f n x d H. rewrite (nth_indep _ d (f O)) by (rewrite map_length, seq_length; exact H). rewrite map_nth. rewrite seq_nth by exact H. reflexivity. Qed.

Section Inv.
Variable o : ROracle.
Variable i : RInstance.
Variables W H : Z.
Notation n := (n_types i) (only parsing).

Definition live (s : Red) (x : nat) : Prop := rt_removed (rtype s x) = false.

Record type_ok (x : nat) (t : RT) : Prop := {
  ty_copies : 1 <= rt_copies t <= ri_copies (ritem i x);
  ty_sizes : 0 < rt_x t /\ 0 < rt_y t;
  ty_len : rt_comps t = [] \/ length (rt_comps t) = Z.to_nat (rt_copies t);
  ty_free : oriented i x = false -> rt_comps t = [] /\ rt_x t = ri_x (ritem i x) /\ rt_y t = ri_y (ritem i x);
  ty_boxed : forall k, (k < Z.to_nat (rt_copies t))%nat ->
    boxed i (mkBox 0 0 (rt_x t) (rt_y t)) (place_comp 0 0 (mkComp x 0 0 false (entryt t k)))
}.

Definition content (s : Red) (z : nat) : Z :=
  zsum (fun x => if rt_removed (rtype s x) then 0 else tcontent z x (rtype s x)) (seq 0 n).

Record Inv (s : Red) : Prop := {
  in_len : length (re_types s) = n;
  in_types : forall x, (x < n)%nat -> live s x -> type_ok x (rtype s x);
  in_ded : exists F P,
    flat_map full_items (re_full s) = map Some F /\ Z.of_nat (length F) = zsum fb_copies (re_full s)
    /\ flat_map pair_items (re_pairs s) = map Some P /\ Z.of_nat (length P) = zsum pp_copies (re_pairs s)
    /\ (forall cs, In cs (F ++ P ++ re_groups s) -> boxed i (mkBox 0 0 W H) (flat_map (place_comp 0 0) cs))
    /\ forall z, (z < n)%nat -> content s z + zsum (lcount z) (F ++ P ++ re_groups s) = ri_copies (ritem i z);
  in_cap : 0 <= rb_copies (rbin i 0) -> dedicated s <= rb_copies (rbin i 0)
}.

Lemma inv_called : forall s, Inv s -> Inv (called s).
Proof. intros s [A B C D]. split; assumption. Qed.

Lemma entry_some : forall t k, rt_comps t = [] \/ length (rt_comps t) = Z.to_nat (rt_copies t) -> (k < Z.to_nat (rt_copies t))%nat ->
  entry t k = Some (entryt t k).
Proof.
  intros t k L Hk. unfold entryt, entry. destruct (rt_comps t) as [|e l]; [reflexivity|].
  destruct L as [L|L]; [discriminate L|]. destruct (nth_error (e :: l) k) eqn:E; [reflexivity|]. apply nth_error_None in E. lia.
Qed.
Lemma prior_entry : forall t k, rt_comps t = [] \/ length (rt_comps t) = Z.to_nat (rt_copies t) -> (k < Z.to_nat (rt_copies t))%nat ->
  nth_error (prior t) k = Some (entryt t k).
Proof.
  intros t k L Hk. rewrite <- (entry_some t k L Hk). unfold prior, extract, entry. destruct (rt_comps t) as [|e l].
  - rewrite (nth_error_nth' _ []) by (rewrite repeat_length; exact Hk). f_equal.
    assert (In (nth k (repeat [] (Z.to_nat (rt_copies t))) []) (repeat (@nil Comp) (Z.to_nat (rt_copies t)))) as X by (apply nth_In; rewrite repeat_length; exact Hk).
    apply repeat_spec in X. exact X.
  - destruct L as [L|L]; [discriminate L|]. destruct (Nat.ltb_spec (length (e :: l)) (Z.to_nat (rt_copies t))) as [C|C]; [lia|].
    rewrite <- L, firstn_all. reflexivity.
Qed.
Lemma prior_length : forall t, rt_comps t = [] \/ length (rt_comps t) = Z.to_nat (rt_copies t) -> length (prior t) = Z.to_nat (rt_copies t).
Proof.
  intros t L. unfold prior, extract. destruct (rt_comps t) as [|e l]; [apply repeat_length|].
  destruct L as [L|L]; [discriminate L|]. destruct (Nat.ltb_spec (length (e :: l)) (Z.to_nat (rt_copies t))) as [C|C]; [lia|].
  rewrite firstn_length. lia.
Qed.

(** ** Filling heads with entries *)

Definition cbox (s : Red) (c : Comp) : Box :=
  mkBox (co_dx c) (co_dy c)
    (co_dx c + (if co_rot c then rt_y (rtype s (co_type c)) else rt_x (rtype s (co_type c))))
    (co_dy c + (if co_rot c then rt_x (rtype s (co_type c)) else rt_y (rtype s (co_type c)))).
Definition head_ok (s : Red) (c : Comp) : Prop :=
  (co_type c < n)%nat /\ live s (co_type c) /\ (co_rot c = true -> oriented i (co_type c) = false).
Definition takes (s : Red) (c c' : Comp) : Prop :=
  same_head c c' /\ exists k, (k < Z.to_nat (rt_copies (rtype s (co_type c))))%nat /\ co_nested c' = entryt (rtype s (co_type c)) k.

Lemma unit_boxed : forall s x dx dy r k, Inv s -> head_ok s (mkComp x dx dy r []) -> (k < Z.to_nat (rt_copies (rtype s x)))%nat ->
  boxed i (cbox s (mkComp x dx dy r [])) (place_comp 0 0 (mkComp x dx dy r (entryt (rtype s x) k))).
Proof.
  intros s x dx dy r k I (Hx & Hl & Hr) Hk. cbn [co_type co_rot] in *. destruct (in_types s I x Hx Hl) as [T1 T2 T3 T4 T5].
  destruct r.
  - destruct (T4 (Hr eq_refl)) as (E & Ex & Ey).
    assert (entryt (rtype s x) k = []) as -> by (unfold entryt, entry; rewrite E; reflexivity).
    cbn [place_comp flat_map]. split; [|repeat constructor]. intros p [<-|[]]. cbn [pl_type pl_rot]. split; [exact Hx|]. split; [|intros _; exact (Hr eq_refl)].
    unfold within, cbox, pl_xe, pl_ye, pl_w, pl_h. cbn. rewrite Ex, Ey. lia.
  - pose proof (boxed_shift i _ _ dx dy (T5 k Hk)) as B.
    assert (E : map (shift dx dy) (place_comp 0 0 (mkComp x 0 0 false (entryt (rtype s x) k))) = place_comp 0 0 (mkComp x dx dy false (entryt (rtype s x) k))).
    { rewrite <- place_shift. cbn [place_comp]. rewrite !Z.add_0_r, !Z.add_0_l. reflexivity. }
    rewrite E in B. cbn [bx0 by0 bx1 by1] in B. eapply boxed_wide; [exact B|]. unfold within, cbox. cbn. lia.
Qed.

Lemma fill_boxed : forall s C l l', Inv s -> Forall2 (takes s) l l' ->
  (forall c, In c l -> head_ok s c /\ within (cbox s c) C) -> ForallOrdPairs (fun a b => apart (cbox s a) (cbox s b)) l ->
  boxed i C (flat_map (place_comp 0 0) l').
Proof.
  intros s C l l' I F A P.
  assert (X : forall c c', takes s c c' -> cbox s c' = cbox s c).
  { intros [x dx dy r e] [x' dx' dy' r' e'] [(E1 & E2 & E3 & E4) _]. cbn in *. subst. reflexivity. }
  assert (Y : (forall c', In c' l' -> boxed i (cbox s c') (place_comp 0 0 c') /\ within (cbox s c') C) /\ ForallOrdPairs (fun a b => apart (cbox s a) (cbox s b)) l').
  { revert A P. induction F as [|c c' l l' Hc Hl IH]; intros A P; [split; [intros c' []|constructor]|].
    inversion P as [|? ? P1 P2]. subst. destruct IH as [Y1 Y2]; [intros d Hd; apply A; right; exact Hd|exact P2|]. split.
    - intros d [<-|Hd]; [|apply Y1; exact Hd]. destruct (A c (or_introl eq_refl)) as [A1 A2]. rewrite (X c c' Hc). split; [|exact A2].
      destruct c as [x dx dy r e], c' as [x' dx' dy' r' e']. destruct Hc as [(E1 & E2 & E3 & E4) (k & Hk & En)]. cbn in E1, E2, E3, E4, En, Hk. subst.
      apply (unit_boxed s _ _ _ _ k I); [exact A1|exact Hk].
    - constructor; [|exact Y2]. apply Forall_forall. intros d Hd. rewrite (X c c' Hc).
      clear - Hl Hd P1 X. induction Hl as [|a a' l l' Ha Hl IH]; [destruct Hd|]. inversion P1 as [|? ? Q1 Q2]. subst. destruct Hd as [<-|Hd].
      + rewrite (X a a' Ha). exact Q1.
      + apply IH; assumption. }
  destruct Y as [Y1 Y2]. apply (boxed_flat i _ (cbox s)); assumption.
Qed.

Lemma given_takes : forall s ent hi l l', (forall c, In c l -> forall k, (k < hi (co_type c))%nat -> (k < Z.to_nat (rt_copies (rtype s (co_type c))))%nat /\ ent (co_type c) k = Some (entryt (rtype s (co_type c)) k)) ->
  Forall2 (given ent hi) l l' -> Forall2 (takes s) l l'.
Proof.
  intros s ent hi l l' A F. induction F as [|c c' l l' [Hs (k & Hk & He)] F IH]; [constructor|]. constructor.
  - split; [exact Hs|]. destruct (A c (or_introl eq_refl) k Hk) as [A1 A2]. exists k. split; [exact A1|]. congruence.
  - apply IH. intros d Hd. apply A. right. exact Hd.
Qed.

(** ** The effect of an enlargement *)

Definition zip_app (a b : list (list Comp)) : list (list Comp) := map (fun ab => fst ab ++ snd ab) (combine a b).
Definition enl (wide : bool) (t : RT) (entries : list (list Comp)) : RT :=
  mkRT (if wide then W else rt_x t) (if wide then rt_y t else H) (rt_copies t) (rt_removed t)
    (match rt_comps t with [] => entries | _ => zip_app (rt_comps t) entries end).

Lemma merge_zip : forall a b, (length a <= length b)%nat -> merge_entries a b = Some (zip_app a b).
Proof.
  induction a as [|x a IH]; intros b L; [reflexivity|]. destruct b as [|y b]; [cbn in L; lia|]. cbn [merge_entries]. rewrite IH by (cbn in L; lia). reflexivity.
Qed.
Lemma enlarge_enl : forall wide t entries, rt_comps t = [] \/ length (rt_comps t) = length entries -> enlarge W H wide t entries = Some (enl wide t entries).
Proof.
  intros wide t entries L. unfold enlarge, enl. destruct (rt_comps t) as [|e l] eqn:E; [reflexivity|].
  destruct L as [L|L]; [discriminate L|]. rewrite merge_zip by lia. reflexivity.
Qed.

Lemma apply_group_ok : forall wide ent l cnt types,
  NoDup (map fst l) -> (forall be, In be l -> (fst be < length types)%nat) ->
  (forall be, In be l -> rt_comps (nth (fst be) types dummy_rt) = [] \/ length (rt_comps (nth (fst be) types dummy_rt)) = length (snd be)) ->
  (forall c, In c (concat (flat_map snd l)) -> (co_type c < n)%nat) ->
  (forall c k, In c (concat (flat_map snd l)) -> (cnt (co_type c) <= k < cnt (co_type c) + occ (co_type c) (concat (flat_map snd l)))%nat -> ent (co_type c) k <> None) ->
  exists l', apply_group W H wide ent cnt types l = Some (fold_left (fun ts be => upd (fst be) (fun t => enl wide t (snd be)) ts) l' types)
    /\ Forall2 (fun be be' => fst be = fst be' /\ Forall2 (Forall2 (given ent (fun x => cnt x + occ x (concat (flat_map snd l)))%nat)) (snd be) (snd be')) l l'
    /\ forall z, zsum (fun be => zsum (lcount z) (snd be)) l'
         = zsum (fun x => zsum (fun k => unitc z x (entd ent x k)) (seq (cnt x) (occ x (concat (flat_map snd l))))) (seq 0 n).
Proof.
  intros wide ent l. induction l as [|[b es] l IH]; intros cnt types ND LT LC T E.
  - exists []. split; [reflexivity|]. split; [constructor|]. intros z. rewrite zsum_nil. symmetry. rewrite (zsum_ext _ _ (fun _ => 0)); [apply zsum_const0|reflexivity].
  - cbn [flat_map snd map fst] in *. rewrite concat_app in *. cbn [apply_group].
    destruct (hand_out_all_ok ent n es cnt) as (es' & cnt1 & H1 & H2 & H3 & H4).
    + intros c Hc. apply T. apply in_or_app. left. exact Hc.
    + intros c k Hc Hk. apply E; [apply in_or_app; left; exact Hc|]. rewrite occ_app. lia.
    + rewrite H1. inversion ND as [|? ? N1 N2]. subst.
      assert (Les : length es' = length es) by (clear - H3; induction H3; cbn; congruence).
      rewrite enlarge_enl by (rewrite Les; apply (LC (b, es)); left; reflexivity).
      destruct (IH cnt1 (upd b (fun _ => enl wide (nth b types dummy_rt) es') types)) as (l' & G1 & G2 & G3).
      * exact N2.
      * intros be Hb. rewrite upd_length. apply LT. right. exact Hb.
      * intros be Hb. rewrite nth_upd_other by (intros ->; apply N1; apply in_map; exact Hb). apply LC. right. exact Hb.
      * intros c Hc. apply T. apply in_or_app. right. exact Hc.
      * intros c k Hc Hk. apply E; [apply in_or_app; right; exact Hc|]. rewrite occ_app. rewrite H2 in Hk. lia.
      * exists ((b, es') :: l'). split; [|split].
        -- rewrite G1. cbn [fold_left fst snd]. f_equal. f_equal.
           assert (Hb : (b < length types)%nat) by (apply (LT (b, es)); left; reflexivity). clear - Hb.
           revert types Hb. induction b as [|b IHb]; intros [|t types] Hb; cbn in *; try lia; [reflexivity|]. f_equal. apply IHb. lia.
        -- constructor.
           ++ split; [reflexivity|]. cbn [snd]. revert H3. apply Forall2_weaken. intros a a'. apply Forall2_weaken. intros c c' [Hs (k & Hk & He)].
              split; [exact Hs|]. exists k. split; [|exact He]. rewrite occ_app. lia.
           ++ revert G2. apply Forall2_weaken. intros a a' [Ha Hf]. split; [exact Ha|]. revert Hf. apply Forall2_weaken. intros q q'. apply Forall2_weaken.
              intros c c' [Hs (k & Hk & He)]. split; [exact Hs|]. exists k. split; [|exact He]. rewrite H2 in Hk. rewrite occ_app. lia.
        -- intros z. rewrite zsum_cons. cbn [snd]. rewrite H4, G3, <- zsum_plus. apply zsum_ext. intros x _. rewrite H2, occ_app, seq_app, zsum_app. reflexivity.
Qed.

Lemma fold_enl_length : forall wide l types, length (fold_left (fun ts (be : nat * list (list Comp)) => upd (fst be) (fun t => enl wide t (snd be)) ts) l types) = length types.
Proof. intros wide l. induction l as [|be l IH]; intros types; [reflexivity|]. cbn [fold_left]. rewrite IH, upd_length. reflexivity. Qed.
Lemma fold_enl_other : forall wide l types x, ~ In x (map fst l) ->
  nth x (fold_left (fun ts (be : nat * list (list Comp)) => upd (fst be) (fun t => enl wide t (snd be)) ts) l types) dummy_rt = nth x types dummy_rt.
Proof.
  intros wide l. induction l as [|be l IH]; intros types x Hx; [reflexivity|]. cbn [fold_left map] in *. rewrite IH by (intros C; apply Hx; right; exact C).
  apply nth_upd_other. intros C. apply Hx. left. exact C.
Qed.
Lemma fold_enl_in : forall wide l types b es, NoDup (map fst l) -> In (b, es) l -> (b < length types)%nat ->
  nth b (fold_left (fun ts (be : nat * list (list Comp)) => upd (fst be) (fun t => enl wide t (snd be)) ts) l types) dummy_rt = enl wide (nth b types dummy_rt) es.
Proof.
  intros wide l. induction l as [|be l IH]; intros types b es ND Hin Hb; [destruct Hin|]. cbn [fold_left map] in *. inversion ND as [|? ? N1 N2]. subst.
  destruct Hin as [->|Hin].
  - cbn [fst snd] in *. rewrite fold_enl_other by exact N1. apply nth_upd_same. exact Hb.
  - rewrite (IH _ b es N2 Hin) by (rewrite upd_length; exact Hb). f_equal. apply nth_upd_other. intros <-. apply N1. apply (in_map fst _ _ Hin).
Qed.

(** A group step on the item types: the items of [rs] are removed, and those of
    [l] enlarged. *)
Record gstep (wide : bool) (s s' : Red) (l : list (nat * list (list Comp))) (rs : list nat) : Prop := {
  gs_len : length (re_types s') = length (re_types s);
  gs_rest : re_full s' = re_full s /\ re_pairs s' = re_pairs s /\ re_groups s' = re_groups s;
  gs_nodup : NoDup (map fst l);
  gs_rs : forall x, In x rs -> (x < n)%nat /\ live s x /\ rt_removed (rtype s' x) = true;
  gs_apart : forall x, In x rs -> ~ In x (map fst l);
  gs_big : forall b es, In (b, es) l -> (b < n)%nat /\ live s b /\ oriented i b = true /\ rtype s' b = enl wide (rtype s b) es
    /\ length es = Z.to_nat (rt_copies (rtype s b))
    /\ (if wide then rt_x (rtype s b) < W else rt_y (rtype s b) < H)
    /\ forall e, In e es -> boxed i (if wide then mkBox (rt_x (rtype s b)) 0 W (rt_y (rtype s b)) else mkBox 0 (rt_y (rtype s b)) (rt_x (rtype s b)) H)
                              (flat_map (place_comp 0 0) e);
  gs_other : forall x, (x < n)%nat -> ~ In x rs -> ~ In x (map fst l) -> rtype s' x = rtype s x;
  gs_total : forall z, zsum (fun be => zsum (lcount z) (snd be)) l
    = zsum (fun x => if existsb (Nat.eqb x) rs then tcontent z x (rtype s x) else 0) (seq 0 n)
}.

Lemma entryt_enl : forall wide t es k, rt_comps t = [] \/ length (rt_comps t) = Z.to_nat (rt_copies t) -> length es = Z.to_nat (rt_copies t) ->
  (k < Z.to_nat (rt_copies t))%nat -> entryt (enl wide t es) k = entryt t k ++ nth k es [].
Proof.
  intros wide t es k L Le Hk. unfold entryt, entry, enl. cbn [rt_comps]. destruct (rt_comps t) as [|e l] eqn:E.
  - cbn [app]. destruct es as [|e0 es]; [cbn in Le; lia|]. rewrite (nth_error_nth' _ []) by lia. reflexivity.
  - destruct L as [L|L]; [discriminate L|]. assert (Lz : length (zip_app (e :: l) es) = Z.to_nat (rt_copies t)) by (unfold zip_app; rewrite map_length, combine_length; lia).
    destruct (zip_app (e :: l) es) as [|z0 zs] eqn:Ez; [cbn in Lz; lia|]. rewrite <- Ez in *.
    rewrite (nth_error_nth' _ []) by lia. rewrite (nth_error_nth' (e :: l) []) by lia. unfold zip_app.
    rewrite (nth_indep _ [] ((fun ab : list Comp * list Comp => fst ab ++ snd ab) ([], []))) by (rewrite map_length, combine_length; lia).
    rewrite (map_nth (fun ab : list Comp * list Comp => fst ab ++ snd ab)), combine_nth by lia. reflexivity.
Qed.

Lemma zsum_nth_seq : forall (A : Type) (f : A -> Z) d l, zsum (fun k => f (nth k l d)) (seq 0 (length l)) = zsum f l.
Proof.
  intros A f d l. induction l as [|a l IH] using rev_ind; [reflexivity|]. rewrite app_length, Nat.add_1_r, seq_S, zsum_snoc, zsum_snoc. cbn [plus].
  rewrite app_nth2, Nat.sub_diag by lia. cbn [nth]. f_equal. rewrite <- IH. apply zsum_ext. intros k Hk. apply in_seq in Hk. rewrite app_nth1 by lia. reflexivity.
Qed.

Lemma gstep_inv : forall wide s s' l rs, 0 <= W -> 0 <= H -> Inv s -> gstep wide s s' l rs -> Inv s'.
Proof.
  intros wide s s' l rs HW HH I G. destruct G as [G1 (G2a & G2b & G2c) G3 G4 G4' G5 G6 G7]. pose proof I as [I1 I2 (F & P & D1 & D2 & D3 & D4 & D5 & D6) I4].
  assert (Dd : dedicated s' = dedicated s) by (unfold dedicated; rewrite G2a, G2b, G2c; reflexivity).
  split.
  - lia.
  - intros x Hx Hl. destruct (in_dec Nat.eq_dec x (map fst l)) as [Hin|Hin].
    + apply in_map_iff in Hin. destruct Hin as ([b es] & E & Hin). cbn in E. subst b. destruct (G5 x es Hin) as (_ & Lx & Ox & Ex & Len & Lt & Bx).
      destruct (I2 x Hx Lx) as [T1 T2 T3 T4 T5]. rewrite Ex. split.
      * exact T1.
      * cbn. destruct wide; lia.
      * cbn [enl rt_comps rt_copies]. destruct (rt_comps (rtype s x)) as [|e0 cs] eqn:Ec; [right; exact Len|]. right. unfold zip_app. rewrite map_length, combine_length.
        destruct T3 as [T3|T3]; [discriminate T3|lia].
      * intros C. congruence.
      * intros k Hk. cbn [enl rt_copies] in Hk. rewrite entryt_enl by assumption.
        assert (Hn : In (nth k es []) es) by (apply nth_In; lia). specialize (Bx _ Hn).
        cbn [place_comp]. rewrite flat_map_app. pose proof (T5 k Hk) as B5. cbn [place_comp] in B5.
        set (A1 := flat_map (place_comp (0 + 0) (0 + 0)) (entryt (rtype s x) k)) in *. change (place_comp (0 + 0) (0 + 0)) with (place_comp 0 0).
        change (mkPl x (0 + 0) (0 + 0) false :: A1 ++ flat_map (place_comp 0 0) (nth k es [])) with ((mkPl x (0 + 0) (0 + 0) false :: A1) ++ flat_map (place_comp 0 0) (nth k es [])).
        eapply boxed_app; [exact B5|exact Bx| | |]; unfold apart, within; destruct wide; cbn; lia.
    + destruct (in_dec Nat.eq_dec x rs) as [Hr|Hr]; [destruct (G4 x Hr) as (_ & _ & C); unfold live in Hl; congruence|].
      rewrite (G6 x Hx Hr Hin). apply I2; [exact Hx|]. unfold live. rewrite <- (G6 x Hx Hr Hin). exact Hl.
  - rewrite G2a, G2b, G2c. exists F, P. repeat (split; [assumption|]). intros z Hz. rewrite <- (D6 z Hz). f_equal.
    assert (X : forall x, In x (seq 0 n) -> (if rt_removed (rtype s' x) then 0 else tcontent z x (rtype s' x)) + (if existsb (Nat.eqb x) rs then tcontent z x (rtype s x) else 0)
        = (if rt_removed (rtype s x) then 0 else tcontent z x (rtype s x)) + zsum (fun be => if Nat.eqb (fst be) x then zsum (lcount z) (snd be) else 0) l).
    { intros x Hx. apply in_seq in Hx. destruct (existsb (Nat.eqb x) rs) eqn:Er.
      - apply existsb_in in Er. destruct (G4 x Er) as (_ & L1 & R1). unfold live in L1. rewrite R1, L1.
        rewrite (zsum_ext _ _ (fun _ => 0)); [rewrite zsum_const0; lia|]. intros be Hb. destruct (Nat.eqb_spec (fst be) x) as [C|C]; [|reflexivity].
        exfalso. apply (G4' x Er). rewrite <- C. apply in_map. exact Hb.
      - apply existsb_notin in Er. destruct (in_dec Nat.eq_dec x (map fst l)) as [Hin|Hin].
        + apply in_map_iff in Hin. destruct Hin as ([b es] & E & Hin). cbn in E. subst b. destruct (G5 x es Hin) as (Hxn & Lx & Ox & Ex & Len & Lt & Bx).
          destruct (I2 x Hxn Lx) as [T1 T2 T3 T4 T5].
          assert (S1 : zsum (fun be : nat * list (list Comp) => if Nat.eqb (fst be) x then zsum (lcount z) (snd be) else 0) l = zsum (lcount z) es).
          { clear - G3 Hin. induction l as [|be l IH]; [destruct Hin|]. cbn [map] in G3. inversion G3 as [|? ? N1 N2]. subst. rewrite zsum_cons. destruct Hin as [->|Hin].
            - cbn [fst snd]. rewrite Nat.eqb_refl. rewrite (zsum_ext (nat * list (list Comp)) _ (fun _ => 0) l); [rewrite zsum_const0; lia|]. intros be Hb. destruct (Nat.eqb_spec (fst be) x) as [C|C]; [|reflexivity].
              exfalso. apply N1. cbn [fst]. rewrite <- C. apply in_map. exact Hb.
            - rewrite (IH N2 Hin). destruct (Nat.eqb_spec (fst be) x) as [C|C]; [|lia]. exfalso. apply N1. rewrite C. apply (in_map fst _ _ Hin). }
          rewrite S1, Ex. cbn [enl rt_removed]. unfold live in Lx. rewrite Lx. unfold tcontent. cbn [enl rt_copies].
          rewrite (zsum_ext _ _ (fun k => unitc z x (entryt (rtype s x) k) + lcount z (nth k es []))).
          * rewrite zsum_plus, <- Len, zsum_nth_seq. lia.
          * intros k Hk. apply in_seq in Hk. fold (enl wide (rtype s x) es). rewrite entryt_enl by (try assumption; lia). apply unitc_app.
        + rewrite (G6 x) by (try assumption; lia). rewrite (zsum_ext _ _ (fun _ => 0)); [rewrite zsum_const0; lia|]. intros be Hb.
          destruct (Nat.eqb_spec (fst be) x) as [C|C]; [|reflexivity]. exfalso. apply Hin. rewrite <- C. apply in_map. exact Hb. }
    pose proof (zsum_ext _ _ _ (seq 0 n) X) as Y. rewrite !zsum_plus in Y. rewrite <- G7 in Y. rewrite zsum_swap in Y.
    rewrite (zsum_ext _ (fun be : nat * list (list Comp) => zsum (fun a => if Nat.eqb (fst be) a then zsum (lcount z) (snd be) else 0) (seq 0 n)) (fun be => zsum (lcount z) (snd be))) in Y.
    + unfold content. lia.
    + intros [b es] Hin. cbn [fst snd]. apply (zsum_pick_seq (fun _ => zsum (lcount z) es)). apply (G5 b es Hin).
  - rewrite Dd. exact I4.
Qed.

End Inv.
