(** * Scripts of builder calls that fill one node after the other *)

From Coq Require Import List ZArith QArith Bool Lia.
From Verif Require Import Util Common_Model Guil_Model Guil_Spec Guil_Proof GuilPlan_Proof Hyper_Model Hyper_Spec.
Import ListNotations.
Open Scope Z_scope.

(** The items of a list of nodes. *)
Definition its (ns : list GNode) : list nat := map (fun n => Z.to_nat (gn_item n)) (item_nodes ns).

Lemma its_app : forall a b, its (a ++ b) = its a ++ its b.
Proof. intros a b. unfold its, item_nodes. rewrite filter_app, map_app. reflexivity. Qed.

Lemma its_upd_same : forall ns p f, (forall n, nth_error ns p = Some n -> gis_item (f n) = gis_item n /\ gn_item (f n) = gn_item n) ->
  its (upd p f ns) = its ns.
Proof.
  induction ns as [|n ns IH]; intros [|p] f Hf; cbn [upd]; try reflexivity.
  - destruct (Hf n eq_refl) as [A B]. change (f n :: ns) with ([f n] ++ ns). change (n :: ns) with ([n] ++ ns).
    rewrite !its_app. f_equal. unfold its, item_nodes. cbn [filter]. rewrite A. destruct (gis_item n); [|reflexivity].
    cbn [map]. rewrite B. reflexivity.
  - change (n :: upd p f ns) with ([n] ++ upd p f ns). change (n :: ns) with ([n] ++ ns).
    rewrite !its_app. f_equal. apply IH. exact Hf.
Qed.

Lemma its_upd_none : forall ns p f, (forall n, nth_error ns p = Some n -> gis_item (f n) = false /\ gis_item n = false) ->
  its (upd p f ns) = its ns.
Proof.
  induction ns as [|n ns IH]; intros [|p] f Hf; cbn [upd]; try reflexivity.
  - destruct (Hf n eq_refl) as [A B]. change (f n :: ns) with ([f n] ++ ns). change (n :: ns) with ([n] ++ ns).
    rewrite !its_app. f_equal. unfold its, item_nodes. cbn [filter]. rewrite A, B. reflexivity.
  - change (n :: upd p f ns) with ([n] ++ upd p f ns). change (n :: ns) with ([n] ++ ns).
    rewrite !its_app. f_equal. apply IH. exact Hf.
Qed.

Lemma its_push : forall ns p c, gis_item c = false -> its (gpush_child ns p c) = its ns.
Proof.
  intros ns p c Hc. unfold gpush_child. rewrite its_app, its_upd_same by (intros n _; split; reflexivity).
  unfold its at 2, item_nodes. cbn [filter]. rewrite Hc. apply app_nil_r.
Qed.

Section Script.
Variable i : GInstance.
Variable o : GOrient.
Let ct := gp_ct (gin_params i).
Hypothesis Hct : 0 <= ct.

(** [ns] is [ns0] after something was put in its node [q] only. *)
Record Sub (ns0 : list GNode) (q : nat) (ns : list GNode) : Prop := {
  sb_len : (length ns0 <= length ns)%nat;
  sb_old : forall k, (k < length ns0)%nat -> k <> q -> gnode ns k = gnode ns0 k;
  sb_geo : geo (gnode ns q) = geo (gnode ns0 q);
  sb_new : forall k, (length ns0 <= k < length ns)%nat ->
    exists f, gn_f (gnode ns k) = Some f /\ (f = q \/ (length ns0 <= f)%nat) /\ (f < k)%nat
      /\ gn_d (gnode ns k) = gn_d (gnode ns f) + 1
}.

Lemma sub_refl : forall ns q, Sub ns q ns.
Proof. intros ns q. constructor; [lia|reflexivity|reflexivity|intros k Hk; lia]. Qed.

Lemma sub_depth : forall ns0 q ns, Sub ns0 q ns -> forall k, (length ns0 <= k < length ns)%nat ->
  gn_d (gnode ns q) + 1 <= gn_d (gnode ns k).
Proof.
  intros ns0 q ns HS k. induction k as [k IH] using lt_wf_ind. intros Hk.
  destruct (sb_new _ _ _ HS k Hk) as (f & _ & [->|Hf] & Hlt & ->); [lia|]. specialize (IH f Hlt ltac:(lia)). lia.
Qed.

(** Something put in a node of the new part. *)
Lemma sub_push : forall ns0 q ns p c, Sub ns0 q ns -> (q < length ns0)%nat ->
  p = q \/ (length ns0 <= p)%nat -> (p < length ns)%nat -> gn_f c = Some p -> gn_d c = gn_d (gnode ns p) + 1 ->
  Sub ns0 q (gpush_child ns p c).
Proof.
  intros ns0 q ns p c HS Hq Hp Hpl Hf Hd. pose proof (sb_len _ _ _ HS) as HL. constructor.
  - rewrite gpush_length. lia.
  - intros k Hk Hne. rewrite gpush_old by lia. destruct (Nat.eqb_spec p k) as [->|]; [lia|].
    apply (sb_old _ _ _ HS); assumption.
  - rewrite gpush_geo by lia. apply (sb_geo _ _ _ HS).
  - rewrite gpush_length. intros k Hk. destruct (Nat.eq_dec k (length ns)) as [->|Hne].
    + exists p. rewrite gpush_new. split; [exact Hf|]. split; [exact Hp|]. split; [exact Hpl|].
      destruct (geo_eq _ _ (gpush_geo ns p c p Hpl Hpl)) as (_ & -> & _). exact Hd.
    + destruct (sb_new _ _ _ HS k ltac:(lia)) as (f & F1 & F2 & F3 & F4). exists f.
      destruct (geo_eq _ _ (gpush_geo ns p c k Hpl ltac:(lia))) as (-> & -> & _).
      destruct (geo_eq _ _ (gpush_geo ns p c f Hpl ltac:(lia))) as (_ & -> & _). auto.
Qed.

Lemma sub_item : forall ns0 q ns p x, Sub ns0 q ns -> (q < length ns0)%nat ->
  p = q \/ (length ns0 <= p)%nat -> (p < length ns)%nat -> Sub ns0 q (upd p (fun n => gn_with_item n x) ns).
Proof.
  intros ns0 q ns p x HS Hq Hp Hpl. pose proof (sb_len _ _ _ HS) as HL.
  assert (HG : forall k, geo (gnode (upd p (fun n => gn_with_item n x) ns) k) = geo (gnode ns k)).
  { intros k. rewrite gnode_upd by exact Hpl. destruct (Nat.eqb p k); reflexivity. }
  constructor.
  - rewrite upd_length. lia.
  - intros k Hk Hne. rewrite gnode_upd by exact Hpl. destruct (Nat.eqb_spec p k) as [->|]; [lia|].
    apply (sb_old _ _ _ HS); assumption.
  - rewrite HG. apply (sb_geo _ _ _ HS).
  - rewrite upd_length. intros k Hk. destruct (sb_new _ _ _ HS k ltac:(lia)) as (f & F1 & F2 & F3 & F4). exists f.
    destruct (geo_eq _ _ (HG k)) as (-> & -> & _). destruct (geo_eq _ _ (HG f)) as (_ & -> & _). auto.
Qed.

Lemma sub_trans : forall ns0 q ns1 p ns2, Sub ns0 q ns1 -> (q < length ns0)%nat -> (length ns0 <= p < length ns1)%nat ->
  Sub ns1 p ns2 -> Sub ns0 q ns2.
Proof.
  intros ns0 q ns1 p ns2 H1 Hq Hp H2. pose proof (sb_len _ _ _ H1). pose proof (sb_len _ _ _ H2).
  assert (HG : forall k, (k < length ns1)%nat -> geo (gnode ns2 k) = geo (gnode ns1 k)).
  { intros k Hk. destruct (Nat.eq_dec k p) as [->|Hne]; [apply (sb_geo _ _ _ H2)|].
    rewrite (sb_old _ _ _ H2 k Hk Hne). reflexivity. }
  constructor.
  - lia.
  - intros k Hk Hne. rewrite (sb_old _ _ _ H2) by lia. apply (sb_old _ _ _ H1); assumption.
  - rewrite HG by lia. apply (sb_geo _ _ _ H1).
  - intros k Hk. destruct (le_lt_dec (length ns1) k) as [Hk2|Hk2].
    + destruct (sb_new _ _ _ H2 k ltac:(lia)) as (f & F1 & F2 & F3 & F4). exists f. split; [exact F1|].
      split; [right; lia|]. auto.
    + destruct (sb_new _ _ _ H1 k ltac:(lia)) as (f & F1 & F2 & F3 & F4). exists f.
      destruct (geo_eq _ _ (HG k Hk2)) as (-> & -> & _). destruct (geo_eq _ _ (HG f ltac:(lia))) as (_ & -> & _). auto.
Qed.

(** Finishing a node does not change the others. *)
Lemma finish_cases : forall ns p, gfinish ct ns p = ns
  \/ exists c, gfinish ct ns p = gpush_child ns p c /\ gn_f c = Some p /\ gn_d c = gn_d (gnode ns p) + 1 /\ gis_item c = false.
Proof.
  intros ns p. unfold gfinish. destruct (rev (gn_children (gnode ns p))) as [|c r]; [left; reflexivity|].
  destruct (_ <? _); [right; eexists; split; [reflexivity|auto]|].
  destruct (_ <? _); [right; eexists; split; [reflexivity|auto]|left; reflexivity].
Qed.

Lemma climb_to : forall fuel ns0 q ns c, Sub ns0 q ns -> (q < length ns0)%nat ->
  c = q \/ (length ns0 <= c)%nat -> (c < length ns)%nat -> (c - q <= fuel)%nat ->
  exists ns', gclimb fuel ct ns c (gn_d (gnode ns q) + 1) = Some (ns', q) /\ Sub ns0 q ns'
    /\ gnode ns' q = gnode ns q /\ its ns' = its ns /\ (length ns <= length ns')%nat
    /\ (forall k, (k < length ns)%nat -> geo (gnode ns' k) = geo (gnode ns k)).
Proof.
  induction fuel as [|fuel IH]; intros ns0 q ns c HS Hq Hc Hcl Hf.
  - assert (c = q) by lia. subst c. exists ns. cbn [gclimb]. replace (gn_d (gnode ns q) + 1 - 1) with (gn_d (gnode ns q)) by lia.
    rewrite Z.eqb_refl. auto 10.
  - destruct (Nat.eq_dec c q) as [->|Hne].
    { exists ns. cbn [gclimb]. replace (gn_d (gnode ns q) + 1 - 1) with (gn_d (gnode ns q)) by lia.
      rewrite Z.eqb_refl. auto 10. }
    assert (Hc2 : (length ns0 <= c)%nat) by lia.
    pose proof (sub_depth _ _ _ HS c ltac:(lia)) as Hd. cbn [gclimb].
    destruct (Z.eqb_spec (gn_d (gnode ns c)) (gn_d (gnode ns q) + 1 - 1)) as [E|_]; [lia|].
    destruct (sb_new _ _ _ HS c ltac:(lia)) as (f & F1 & F2 & F3 & F4).
    assert (Hfq : (c - q <= S fuel)%nat) by lia.
    assert (Hfl : (f - q <= fuel)%nat) by lia.
    destruct (finish_cases ns c) as [->|(n & E & N1 & N2 & N3)].
    + rewrite F1. apply IH; try assumption. lia.
    + rewrite E. destruct (geo_eq _ _ (gpush_geo ns c n c Hcl Hcl)) as (-> & _). rewrite F1.
      pose proof (sub_push _ _ _ c n HS Hq (or_intror Hc2) Hcl N1 N2) as HS2.
      pose proof (sb_len _ _ _ HS) as HL.
      assert (EQ : gnode (gpush_child ns c n) q = gnode ns q).
      { rewrite gpush_old by lia. destruct (Nat.eqb_spec c q); [contradiction|reflexivity]. }
      destruct (IH ns0 q (gpush_child ns c n) f HS2 Hq F2) as (ns' & I1 & I2 & I3 & I4 & I5 & I6);
        [rewrite gpush_length; lia|exact Hfl|].
      rewrite EQ in I1, I3. exists ns'. split; [exact I1|]. split; [exact I2|]. split; [exact I3|].
      split; [rewrite I4; apply its_push; exact N3|]. rewrite gpush_length in I5, I6. split; [lia|].
      intros k Hk. rewrite I6 by lia. apply gpush_geo; assumption.
Qed.

(** The node cut next from [q]. *)
Definition next_cut (ns : list GNode) (q : nat) : Z :=
  match rev (gn_children (gnode ns q)) with
  | [] => father_start o (gnode ns q)
  | c :: _ => (if vertical_at o (gn_d (gnode ns q) + 1) then gn_r (gnode ns c) else gn_t (gnode ns c)) + ct
  end.
Definition new_node (n : GNode) (q : nat) (s cut : Z) : GNode :=
  if vertical_at o (gn_d n + 1)
  then mkGN (Some q) (gn_d n + 1) s cut (gn_b n) (gn_t n) [] (-1)
  else mkGN (Some q) (gn_d n + 1) (gn_l n) (gn_r n) s cut [] (-1).

Lemma add_under : forall ns0 q ns cut, Sub ns0 q ns -> ns0 <> [] -> q = (length ns0 - 1)%nat ->
  gis_item (gnode ns q) = false ->
  (forall c, In c (gn_children (gnode ns q)) -> (c < length ns)%nat) ->
  next_cut ns q < cut -> cut <= father_end o (gnode ns q) ->
  exists ns2, gadd_node_in ct o ns (gn_d (gnode ns q) + 1) cut = Some (ns2, true)
    /\ Sub ns0 q ns2 /\ (length ns0 <= length ns2 - 1 < length ns2)%nat
    /\ gnode ns2 (length ns2 - 1) = new_node (gnode ns q) q (next_cut ns q) cut
    /\ gn_children (gnode ns2 q) = gn_children (gnode ns q) ++ [(length ns2 - 1)%nat]
    /\ gis_item (gnode ns2 q) = false /\ its ns2 = its ns.
Proof.
  intros ns0 q ns cut HS Hne Eq Hit Hch Hs He.
  assert (Hq : (q < length ns0)%nat) by (destruct ns0; [contradiction|cbn [length] in *; lia]).
  pose proof (sb_len _ _ _ HS) as HL. unfold gadd_node_in.
  assert (Hlast : (length ns - 1)%nat = q \/ (length ns0 <= length ns - 1)%nat) by lia.
  assert (Hdl : gn_d (gnode ns q) <= gn_d (gnode ns (length ns - 1))).
  { destruct Hlast as [->|Hl]; [lia|]. pose proof (sub_depth _ _ _ HS (length ns - 1) ltac:(lia)). lia. }
  destruct (Z.ltb_spec (gn_d (gnode ns (length ns - 1)) + 1) (gn_d (gnode ns q) + 1)) as [H|_]; [lia|].
  destruct (climb_to (length ns) ns0 q ns (length ns - 1) HS Hq Hlast ltac:(lia) ltac:(lia))
    as (ns1 & -> & HS1 & EQ & IT & HL1 & HG1).
  rewrite EQ. set (n := gnode ns q) in *.
  assert (ER : negb (match gn_f n with None => true | Some _ => false end) && (0 <=? gn_item n) = false).
  { unfold gis_item in Hit. destruct (gn_f n); [exact Hit|reflexivity]. }
  rewrite ER. cbv zeta.
  set (ns2 := if match gn_f n with None => true | Some _ => false end then ns1
              else upd q (fun n => gn_with_item n (-2)) ns1).
  assert (Hq1 : (q < length ns1)%nat) by lia.
  assert (HS2 : Sub ns0 q ns2).
  { unfold ns2. destruct (gn_f n); [|exact HS1]. apply sub_item; auto. }
  assert (L2 : length ns2 = length ns1) by (unfold ns2; destruct (gn_f n); [apply upd_length|reflexivity]).
  assert (HG2 : forall k, geo (gnode ns2 k) = geo (gnode ns1 k)).
  { intros k. unfold ns2. destruct (gn_f n); [|reflexivity]. rewrite gnode_upd by exact Hq1. destruct (Nat.eqb q k); reflexivity. }
  assert (IT2 : its ns2 = its ns).
  { unfold ns2. destruct (gn_f n) eqn:F; [|exact IT]. rewrite <- IT. apply its_upd_none. intros m Hm.
    apply nth_error_nth with (d := gdummy_node) in Hm. change (gnode ns1 q = m) in Hm. rewrite EQ in Hm. subst m.
    split; [|exact Hit]. unfold gis_item. cbn [gn_with_item gn_f gn_item]. fold n. rewrite F. reflexivity. }
  assert (C2 : gn_children (gnode ns2 q) = gn_children n /\ gis_item (gnode ns2 q) = false).
  { unfold ns2. destruct (gn_f n) eqn:F; [|rewrite EQ; split; [reflexivity|exact Hit]].
    rewrite gnode_upd by exact Hq1. rewrite Nat.eqb_refl, EQ. cbn [gn_with_item gn_children]. split; [reflexivity|].
    unfold gis_item. cbn [gn_with_item gn_f gn_item]. fold n. rewrite F. reflexivity. }
  assert (D2 : gn_d (gnode ns2 q) = gn_d n).
  { destruct (geo_eq _ _ (HG2 q)) as (_ & -> & _). rewrite EQ. reflexivity. }
  assert (KEY : forall c, c = new_node n q (next_cut ns q) cut ->
    Sub ns0 q (gpush_child ns2 q c)
    /\ (length ns0 <= length (gpush_child ns2 q c) - 1 < length (gpush_child ns2 q c))%nat
    /\ gnode (gpush_child ns2 q c) (length (gpush_child ns2 q c) - 1) = new_node n q (next_cut ns q) cut
    /\ gn_children (gnode (gpush_child ns2 q c) q) = gn_children n ++ [(length (gpush_child ns2 q c) - 1)%nat]
    /\ gis_item (gnode (gpush_child ns2 q c) q) = false /\ its (gpush_child ns2 q c) = its ns).
  { intros c Ec. pose proof (sb_len _ _ _ HS2). 
    assert (Nf : gn_f c = Some q /\ gn_d c = gn_d n + 1 /\ gis_item c = false).
    { subst c. unfold new_node. destruct (vertical_at o (gn_d n + 1)); auto. }
    destruct Nf as (Nf & Nd & Ni). rewrite gpush_length. cbn [Nat.sub]. rewrite Nat.sub_0_r.
    split; [apply sub_push; auto; [lia|congruence]|]. split; [lia|]. split; [rewrite gpush_new; exact Ec|].
    rewrite gpush_old by lia. rewrite Nat.eqb_refl. destruct C2 as [C2 C3]. cbn [gn_add_child gn_children].
    split; [rewrite C2; reflexivity|]. split; [exact C3|]. rewrite its_push by exact Ni. exact IT2. }
  rewrite ?vertical_same.
  assert (RE : forall c r, rev (gn_children n) = c :: r -> geo (gnode ns2 c) = geo (gnode ns c)).
  { intros c r E. rewrite HG2. apply HG1. apply Hch. rewrite in_rev, E. left. reflexivity. }
  unfold next_cut, new_node, father_start, father_end in *. fold n in Hs, He, KEY |- *.
  revert KEY Hs He. destruct (vertical_at o (gn_d n + 1)) eqn:V; intros KEY Hs He.
  - assert (Es : match rev (gn_children n) with [] => gn_l n | c :: _ => gn_r (gnode ns2 c) + ct end
                 = match rev (gn_children n) with [] => gn_l n | c :: _ => gn_r (gnode ns c) + ct end).
    { clear - RE. destruct (rev (gn_children n)) as [|c r]; [reflexivity|].
      destruct (geo_eq _ _ (RE c r eq_refl)) as (_ & _ & _ & -> & _). reflexivity. }
    rewrite Es. set (s := match rev (gn_children n) with [] => gn_l n | c :: _ => gn_r (gnode ns c) + ct end) in *.
    clearbody s. destruct (Z.leb_spec cut s) as [H|_]; [lia|].
    destruct (Z.ltb_spec (gn_r n) cut) as [H|_]; [lia|]. eexists. split; [reflexivity|]. exact (KEY _ eq_refl).
  - assert (Es : match rev (gn_children n) with [] => gn_b n | c :: _ => gn_t (gnode ns2 c) + ct end
                 = match rev (gn_children n) with [] => gn_b n | c :: _ => gn_t (gnode ns c) + ct end).
    { clear - RE. destruct (rev (gn_children n)) as [|c r]; [reflexivity|].
      destruct (geo_eq _ _ (RE c r eq_refl)) as (_ & _ & _ & _ & _ & ->). reflexivity. }
    rewrite Es. set (s := match rev (gn_children n) with [] => gn_b n | c :: _ => gn_t (gnode ns c) + ct end) in *.
    clearbody s. destruct (Z.leb_spec cut s) as [H|_]; [lia|].
    destruct (Z.ltb_spec (gn_t n) cut) as [H|_]; [lia|]. eexists. split; [reflexivity|]. exact (KEY _ eq_refl).
Qed.

(** The last node is a new one, of this depth and rectangle. *)
Record Fresh (ns : list GNode) (d l r b t : Z) : Prop := {
  fr_ne : ns <> [];
  fr_geo : gn_d (gnode ns (length ns - 1)) = d /\ gn_l (gnode ns (length ns - 1)) = l
    /\ gn_r (gnode ns (length ns - 1)) = r /\ gn_b (gnode ns (length ns - 1)) = b /\ gn_t (gnode ns (length ns - 1)) = t;
  fr_children : gn_children (gnode ns (length ns - 1)) = [];
  fr_item : gis_item (gnode ns (length ns - 1)) = false
}.
Definition inner (ns : list GNode) : Prop := gn_f (gnode ns (length ns - 1)) <> None.

(** The nodes after some calls on the last bin, none of which throws. *)
Fixpoint nrun (calls : list GCall) (ns : list GNode) : option (list GNode) :=
  match calls with
  | [] => Some ns
  | GAddBin _ _ _ :: _ => None
  | GAddNode depth cut :: rest =>
      if depth <? 1 then None
      else match gadd_node_in ct o ns depth cut with Some (ns', true) => nrun rest ns' | _ => None end
  | GSetItem x :: rest =>
      if Nat.ltb x (length (gin_items i)) then
        let n := gnode ns (length ns - 1) in
        if ((gn_r n - gn_l n =? gi_w (gitem i x)) && (gn_t n - gn_b n =? gi_h (gitem i x)))
           || ((gn_r n - gn_l n =? gi_h (gitem i x)) && (gn_t n - gn_b n =? gi_w (gitem i x)))
        then nrun rest (upd (length ns - 1) (fun n => gn_with_item n (Z.of_nat x)) ns) else None
      else None
  end.

Lemma nrun_app : forall c1 c2 ns ns1, nrun c1 ns = Some ns1 -> nrun (c1 ++ c2) ns = nrun c2 ns1.
Proof.
  induction c1 as [|c c1 IH]; intros c2 ns ns1 E; cbn [nrun app] in *; [injection E as <-; reflexivity|].
  destruct c as [t n oo|d cut|x].
  - discriminate.
  - destruct (d <? 1); [discriminate|]. destruct (gadd_node_in ct o ns d cut) as [[ns' [|]]|]; try discriminate. apply IH. exact E.
  - destruct (Nat.ltb x (length (gin_items i))); [|discriminate]. cbv zeta in *.
    match type of E with (if ?c then _ else _) = _ => destruct c end; [|discriminate]. apply IH. exact E.
Qed.

Lemma gback_one : forall b, gback [b] = Some ([], b).
Proof. reflexivity. Qed.

Lemma nrun_builder : forall calls b ns, gs_orient b = o -> nrun calls (gs_nodes b) = Some ns ->
  gaccepted i [b] calls = true /\ grun i [b] calls = Some [gwith_nodes b ns].
Proof.
  induction calls as [|c calls IH]; intros b ns Ho E.
  - injection E as <-. split; [reflexivity|]. cbn [grun]. destruct b; reflexivity.
  - destruct c as [t n oo|d cut|x]; cbn [nrun gaccepted grun gcall] in *; [discriminate| |].
    + unfold gadd_node. rewrite gback_one. destruct (d <? 1); [discriminate|]. rewrite Ho. fold ct.
      destruct (gadd_node_in ct o (gs_nodes b) d cut) as [[ns' [|]]|]; try discriminate. cbn [app].
      destruct (IH (gwith_nodes b ns') ns) as [A B]; [exact Ho|exact E|]. split; [exact A|].
      rewrite B. destruct b; reflexivity.
    + unfold gset_item. rewrite gback_one. destruct (Nat.ltb x (length (gin_items i))); [|discriminate]. cbv zeta in *.
      match type of E with (if ?c then _ else _) = _ => destruct c end; [|discriminate]. cbn [app].
      destruct (IH (gwith_nodes b (upd (length (gs_nodes b) - 1) (fun n => gn_with_item n (Z.of_nat x)) (gs_nodes b))) ns) as [A B];
        [exact Ho|exact E|]. split; [exact A|]. rewrite B. destruct b; reflexivity.
Qed.

(** A script [calls] fills the last node with the items [xs]. *)
Definition Fills (calls : list GCall) (ns : list GNode) (xs : list nat) : Prop :=
  exists ns', nrun calls ns = Some ns' /\ Sub ns (length ns - 1) ns' /\ its ns' = its ns ++ xs.

Lemma fills_nil : forall ns, Fills [] ns [].
Proof. intros ns. exists ns. split; [reflexivity|]. split; [apply sub_refl|]. rewrite app_nil_r. reflexivity. Qed.

Lemma fills_item : forall ns d l r b t x, Fresh ns d l r b t -> inner ns -> (x < length (gin_items i))%nat ->
  (r - l = gi_w (gitem i x) /\ t - b = gi_h (gitem i x)) \/ (r - l = gi_h (gitem i x) /\ t - b = gi_w (gitem i x)) ->
  Fills [GSetItem x] ns [x].
Proof.
  intros ns d l r b t x [Hne (Hd & Hl & Hr & Hb & Ht) Hc Hi] Hin Hx Hdim. unfold Fills. cbn [nrun].
  apply Nat.ltb_lt in Hx. rewrite Hx. cbv zeta. rewrite Hl, Hr, Hb, Ht.
  assert (E : ((r - l =? gi_w (gitem i x)) && (t - b =? gi_h (gitem i x)))
    || ((r - l =? gi_h (gitem i x)) && (t - b =? gi_w (gitem i x))) = true).
  { apply orb_true_iff. destruct Hdim as [[A B]|[A B]]; [left|right]; rewrite A, B, !Z.eqb_refl; reflexivity. }
  rewrite E. eexists. split; [reflexivity|].
  assert (HLn : (length ns - 1 < length ns)%nat) by (destruct ns; [contradiction|cbn [length]; lia]).
  split; [apply sub_item; [apply sub_refl|exact HLn|left; reflexivity|exact HLn]|].
  destruct (exists_last Hne) as (front & n & ->). rewrite app_length in *. cbn [length] in *.
  replace (length front + 1 - 1)%nat with (length front) in * by lia.
  assert (En : gnode (front ++ [n]) (length front) = n) by (unfold gnode; rewrite app_nth2, Nat.sub_diag by lia; reflexivity).
  assert (Eu : forall f, upd (length front) f (front ++ [n]) = front ++ [f n]).
  { intros f. clear. induction front as [|a front IH]; [reflexivity|]. cbn [length app upd]. rewrite IH. reflexivity. }
  rewrite Eu, !its_app, <- app_assoc. f_equal. rewrite En in Hi. unfold inner in Hin.
  rewrite app_length in Hin. cbn [length] in Hin. replace (length front + 1 - 1)%nat with (length front) in Hin by lia.
  rewrite En in Hin. unfold its, item_nodes. cbn [filter]. rewrite Hi. unfold gis_item.
  cbn [gn_with_item gn_f gn_item]. destruct (gn_f n); [|contradiction].
  destruct (Z.leb_spec 0 (Z.of_nat x)); [|lia]. cbn [map gn_with_item gn_item app]. rewrite Nat2Z.id. reflexivity.
Qed.

(** One part, then the script of this part. *)
Lemma fills_one_v : forall ns d l r b t cut calls xs, Fresh ns d l r b t -> 0 <= d ->
  vertical_at o (d + 1) = true -> l < cut <= r ->
  (forall ns2, Fresh ns2 (d + 1) l cut b t -> inner ns2 -> Fills calls ns2 xs) ->
  Fills (GAddNode (d + 1) cut :: calls) ns xs.
Proof.
  intros ns d l r b t cut calls xs [Hne (Hd & Hl & Hr & Hb & Ht) Hc Hi] Hd0 V Hcut HF.
  set (q := (length ns - 1)%nat) in *.
  destruct (add_under ns q ns cut (sub_refl ns q) Hne eq_refl Hi) as (ns2 & E & HS & HL & EN & EC & EI & IT).
  { rewrite Hc. intros c []. }
  { unfold next_cut. rewrite Hc. cbn [rev]. unfold father_start. rewrite Hd, V. lia. }
  { unfold father_end. rewrite Hd, V. lia. }
  rewrite Hd in E. unfold next_cut in EN. rewrite Hc in EN. cbn [rev] in EN. unfold father_start, new_node in EN.
  rewrite Hd, V in EN.
  assert (FR : Fresh ns2 (d + 1) l cut b t /\ inner ns2).
  { split; [|unfold inner; rewrite EN; discriminate]. constructor; rewrite ?EN; cbn [gn_d gn_l gn_r gn_b gn_t gn_children]; auto.
    destruct ns2; [cbn [length] in HL; lia|discriminate]. }
  destruct (HF ns2 (proj1 FR) (proj2 FR)) as (ns3 & R & S3 & I3). exists ns3. cbn [nrun].
  destruct (Z.ltb_spec (d + 1) 1) as [H|_]; [lia|]. rewrite E. split; [exact R|].
  split; [|rewrite I3, IT; reflexivity]. eapply sub_trans; [exact HS| |exact HL|exact S3].
  unfold q. destruct ns; [contradiction|cbn [length]; lia].
Qed.

Lemma fills_one_h : forall ns d l r b t cut calls xs, Fresh ns d l r b t -> 0 <= d ->
  vertical_at o (d + 1) = false -> b < cut <= t ->
  (forall ns2, Fresh ns2 (d + 1) l r b cut -> inner ns2 -> Fills calls ns2 xs) ->
  Fills (GAddNode (d + 1) cut :: calls) ns xs.
Proof.
  intros ns d l r b t cut calls xs [Hne (Hd & Hl & Hr & Hb & Ht) Hc Hi] Hd0 V Hcut HF.
  set (q := (length ns - 1)%nat) in *.
  destruct (add_under ns q ns cut (sub_refl ns q) Hne eq_refl Hi) as (ns2 & E & HS & HL & EN & EC & EI & IT).
  { rewrite Hc. intros c []. }
  { unfold next_cut. rewrite Hc. cbn [rev]. unfold father_start. rewrite Hd, V. lia. }
  { unfold father_end. rewrite Hd, V. lia. }
  rewrite Hd in E. unfold next_cut in EN. rewrite Hc in EN. cbn [rev] in EN. unfold father_start, new_node in EN.
  rewrite Hd, V in EN.
  assert (FR : Fresh ns2 (d + 1) l r b cut /\ inner ns2).
  { split; [|unfold inner; rewrite EN; discriminate].
    constructor; rewrite ?EN; cbn [gn_d gn_l gn_r gn_b gn_t gn_children]; auto.
    destruct ns2; [cbn [length] in HL; lia|discriminate]. }
  destruct (HF ns2 (proj1 FR) (proj2 FR)) as (ns3 & R & S3 & I3). exists ns3. cbn [nrun].
  destruct (Z.ltb_spec (d + 1) 1) as [H|_]; [lia|]. rewrite E. split; [exact R|].
  split; [|rewrite I3, IT; reflexivity]. eapply sub_trans; [exact HS| |exact HL|exact S3].
  unfold q. destruct ns; [contradiction|cbn [length]; lia].
Qed.

(** Two parts, each with its script. *)
Lemma fills_two_v : forall ns d l r b t cut1 cut2 calls1 calls2 xs1 xs2, Fresh ns d l r b t -> 0 <= d ->
  vertical_at o (d + 1) = true -> l < cut1 -> cut1 + ct < cut2 -> cut2 <= r ->
  (forall ns2, Fresh ns2 (d + 1) l cut1 b t -> inner ns2 -> Fills calls1 ns2 xs1) ->
  (forall ns2, Fresh ns2 (d + 1) (cut1 + ct) cut2 b t -> inner ns2 -> Fills calls2 ns2 xs2) ->
  Fills (GAddNode (d + 1) cut1 :: calls1 ++ GAddNode (d + 1) cut2 :: calls2) ns (xs1 ++ xs2).
Proof.
  intros ns d l r b t cut1 cut2 calls1 calls2 xs1 xs2 [Hne (Hd & Hl & Hr & Hb & Ht) Hc Hi] Hd0 V H1 H2 H3 F1 F2.
  set (q := (length ns - 1)%nat) in *.
  assert (Hq : (q < length ns)%nat) by (unfold q; destruct ns; [contradiction|cbn [length]; lia]).
  destruct (add_under ns q ns cut1 (sub_refl ns q) Hne eq_refl Hi) as (ns2 & E & HS & HL & EN & EC & EI & IT).
  { rewrite Hc. intros c []. }
  { unfold next_cut. rewrite Hc. cbn [rev]. unfold father_start. rewrite Hd, V. lia. }
  { unfold father_end. rewrite Hd, V. lia. }
  rewrite Hd in E. unfold next_cut in EN. rewrite Hc in EN, EC. cbn [rev] in EN. unfold father_start, new_node in EN.
  rewrite Hd, V in EN. cbn [app] in EC.
  assert (FR : Fresh ns2 (d + 1) l cut1 b t /\ inner ns2).
  { split; [|unfold inner; rewrite EN; discriminate]. constructor; rewrite ?EN; cbn [gn_d gn_l gn_r gn_b gn_t gn_children]; auto.
    destruct ns2; [cbn [length] in HL; lia|discriminate]. }
  destruct (F1 ns2 (proj1 FR) (proj2 FR)) as (ns3 & R & S3 & I3).
  pose proof (sub_trans _ _ _ _ _ HS Hq HL S3) as HS3. pose proof (sb_len _ _ _ S3) as HL3.
  assert (EQ : gnode ns3 q = gnode ns2 q) by (apply (sb_old _ _ _ S3); lia).
  assert (EG : geo (gnode ns3 q) = geo (gnode ns q)) by apply (sb_geo _ _ _ HS3).
  apply geo_eq in EG. destruct EG as (_ & G1 & G2 & G3 & G4 & G5).
  assert (EP : geo (gnode ns3 (length ns2 - 1)) = geo (gnode ns2 (length ns2 - 1))) by apply (sb_geo _ _ _ S3).
  rewrite EN in EP. apply geo_eq in EP. cbn [gn_f gn_d gn_l gn_r gn_b gn_t] in EP. destruct EP as (_ & _ & _ & P1 & _ & P2).
  assert (NC : next_cut ns3 q = cut1 + ct).
  { unfold next_cut. rewrite EQ, EC. cbn [rev app]. rewrite <- EQ, G1, Hd, V, P1. reflexivity. }
  destruct (add_under ns q ns3 cut2 HS3 Hne eq_refl) as (ns4 & E4 & HS4 & HL4 & EN4 & _ & _ & IT4).
  { rewrite EQ. exact EI. }
  { rewrite EQ, EC. intros c [<-|[]]. lia. }
  { rewrite NC. lia. }
  { unfold father_end. rewrite G1, Hd, V, G3, Hr. lia. }
  rewrite NC in EN4. unfold new_node in EN4. rewrite G1, Hd in E4, EN4. rewrite V in EN4. rewrite G4, G5, Hb, Ht in EN4.
  assert (FR4 : Fresh ns4 (d + 1) (cut1 + ct) cut2 b t /\ inner ns4).
  { split; [|unfold inner; rewrite EN4; discriminate]. constructor; rewrite ?EN4; cbn [gn_d gn_l gn_r gn_b gn_t gn_children]; auto.
    destruct ns4; [cbn [length] in HL4; lia|discriminate]. }
  destruct (F2 ns4 (proj1 FR4) (proj2 FR4)) as (ns5 & R5 & S5 & I5). exists ns5. split.
  - cbn [nrun]. destruct (Z.ltb_spec (d + 1) 1) as [H|_]; [lia|]. rewrite E. rewrite (nrun_app _ _ _ _ R). cbn [nrun].
    destruct (Z.ltb_spec (d + 1) 1) as [H|_]; [lia|]. rewrite E4. exact R5.
  - split; [eapply sub_trans; [exact HS4|exact Hq|exact HL4|exact S5]|].
    rewrite I5, IT4, I3, IT, app_assoc. reflexivity.
Qed.

Lemma fills_two_h : forall ns d l r b t cut1 cut2 calls1 calls2 xs1 xs2, Fresh ns d l r b t -> 0 <= d ->
  vertical_at o (d + 1) = false -> b < cut1 -> cut1 + ct < cut2 -> cut2 <= t ->
  (forall ns2, Fresh ns2 (d + 1) l r b cut1 -> inner ns2 -> Fills calls1 ns2 xs1) ->
  (forall ns2, Fresh ns2 (d + 1) l r (cut1 + ct) cut2 -> inner ns2 -> Fills calls2 ns2 xs2) ->
  Fills (GAddNode (d + 1) cut1 :: calls1 ++ GAddNode (d + 1) cut2 :: calls2) ns (xs1 ++ xs2).
Proof.
  intros ns d l r b t cut1 cut2 calls1 calls2 xs1 xs2 [Hne (Hd & Hl & Hr & Hb & Ht) Hc Hi] Hd0 V H1 H2 H3 F1 F2.
  set (q := (length ns - 1)%nat) in *.
  assert (Hq : (q < length ns)%nat) by (unfold q; destruct ns; [contradiction|cbn [length]; lia]).
  destruct (add_under ns q ns cut1 (sub_refl ns q) Hne eq_refl Hi) as (ns2 & E & HS & HL & EN & EC & EI & IT).
  { rewrite Hc. intros c []. }
  { unfold next_cut. rewrite Hc. cbn [rev]. unfold father_start. rewrite Hd, V. lia. }
  { unfold father_end. rewrite Hd, V. lia. }
  rewrite Hd in E. unfold next_cut in EN. rewrite Hc in EN, EC. cbn [rev] in EN. unfold father_start, new_node in EN.
  rewrite Hd, V in EN. cbn [app] in EC.
  assert (FR : Fresh ns2 (d + 1) l r b cut1 /\ inner ns2).
  { split; [|unfold inner; rewrite EN; discriminate]. constructor; rewrite ?EN; cbn [gn_d gn_l gn_r gn_b gn_t gn_children]; auto.
    destruct ns2; [cbn [length] in HL; lia|discriminate]. }
  destruct (F1 ns2 (proj1 FR) (proj2 FR)) as (ns3 & R & S3 & I3).
  pose proof (sub_trans _ _ _ _ _ HS Hq HL S3) as HS3. pose proof (sb_len _ _ _ S3) as HL3.
  assert (EQ : gnode ns3 q = gnode ns2 q) by (apply (sb_old _ _ _ S3); lia).
  assert (EG : geo (gnode ns3 q) = geo (gnode ns q)) by apply (sb_geo _ _ _ HS3).
  apply geo_eq in EG. destruct EG as (_ & G1 & G2 & G3 & G4 & G5).
  assert (EP : geo (gnode ns3 (length ns2 - 1)) = geo (gnode ns2 (length ns2 - 1))) by apply (sb_geo _ _ _ S3).
  rewrite EN in EP. apply geo_eq in EP. cbn [gn_f gn_d gn_l gn_r gn_b gn_t] in EP. destruct EP as (_ & _ & _ & _ & _ & P2).
  assert (NC : next_cut ns3 q = cut1 + ct).
  { unfold next_cut. rewrite EQ, EC. cbn [rev app]. rewrite <- EQ, G1, Hd, V, P2. reflexivity. }
  destruct (add_under ns q ns3 cut2 HS3 Hne eq_refl) as (ns4 & E4 & HS4 & HL4 & EN4 & _ & _ & IT4).
  { rewrite EQ. exact EI. }
  { rewrite EQ, EC. intros c [<-|[]]. lia. }
  { rewrite NC. lia. }
  { unfold father_end. rewrite G1, Hd, V, G5, Ht. lia. }
  rewrite NC in EN4. unfold new_node in EN4. rewrite G1, Hd in E4, EN4. rewrite V in EN4. rewrite G2, G3, Hl, Hr in EN4.
  assert (FR4 : Fresh ns4 (d + 1) l r (cut1 + ct) cut2 /\ inner ns4).
  { split; [|unfold inner; rewrite EN4; discriminate]. constructor; rewrite ?EN4; cbn [gn_d gn_l gn_r gn_b gn_t gn_children]; auto.
    destruct ns4; [cbn [length] in HL4; lia|discriminate]. }
  destruct (F2 ns4 (proj1 FR4) (proj2 FR4)) as (ns5 & R5 & S5 & I5). exists ns5. split.
  - cbn [nrun]. destruct (Z.ltb_spec (d + 1) 1) as [H|_]; [lia|]. rewrite E. rewrite (nrun_app _ _ _ _ R). cbn [nrun].
    destruct (Z.ltb_spec (d + 1) 1) as [H|_]; [lia|]. rewrite E4. exact R5.
  - split; [eapply sub_trans; [exact HS4|exact Hq|exact HL4|exact S5]|].
    rewrite I5, IT4, I3, IT, app_assoc. reflexivity.
Qed.
End Script.
