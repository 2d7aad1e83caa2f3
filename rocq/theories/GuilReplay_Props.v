(** * Sorting the subplates of a fitting cutting pattern cuts every plate again *)

From Coq Require Import List ZArith QArith Bool Lia Arith Permutation.
From Verif Require Import Util Common_Model OneDim_Model Guil_Model GuilSol_Model GuilBuild_Model GuilBuild_Spec GuilBuild_Proof GuilBuild_Props
  GuilFound_Proof GuilSort_Model GuilSort_Spec GuilWalk_Proof GuilSort_Proof GuilSort_Props.
Import ListNotations.
Open Scope Z_scope.

(** The extent of a node along the cuts that separate its children, vertical or
    not. *)
Definition extent (v : bool) (n : GNode) : Z := if v then gn_r n - gn_l n else gn_t n - gn_b n.

(** The children of every node that are not waste have a positive extent and fit
    in it with the cuts between them. *)
Definition Fitting (ct : Z) (o : GOrient) (ns : list GNode) : Prop :=
  forall id, content_kids ns id <> [] ->
  let v := gvertical o (gn_d (gnode ns id) + 1) in
  (forall k, In k (content_kids ns id) -> 0 < extent v (gnode ns k))
  /\ zsum_by (fun k => extent v (gnode ns k) + ct) (content_kids ns id) - ct <= extent v (gnode ns id).

Section Replay.
Variable i : GInstance.
Variable o : GOrient.
Variable ns : list GNode.
Variable root : nat.
Variable kids : nat -> list nat.
Hypothesis Hany : o <> GAny.
Hypothesis Hpat : Pattern o ns root.
Hypothesis Hkids : forall id, Permutation (kids id) (content_kids ns id).
Local Notation ct := (gp_ct (gin_params i)).
Hypothesis Hct : 0 <= ct.
Hypothesis Hfit : Fitting ct o ns.
Hypothesis Hsized : Sized i (bin_placements ns).

Lemma item_sized : forall k x l r b t, (k < length ns)%nat -> gn_f (gnode ns k) <> None -> 0 <= gn_item (gnode ns k) -> x = Z.to_nat (gn_item (gnode ns k)) ->
  Same ns k l r b t -> Sized i [mkPl x l r b t].
Proof.
  intros k x l r b t Hk Hf Hi -> [S1 S2] p [<-|[]]. cbn [pl_item pl_l pl_r pl_b pl_t]. rewrite S1, S2.
  apply (Hsized (mkPl (Z.to_nat (gn_item (gnode ns k))) (gn_l (gnode ns k)) (gn_r (gnode ns k)) (gn_b (gnode ns k)) (gn_t (gnode ns k)))).
  unfold bin_placements. apply in_flat_map. exists (gnode ns k). split; [apply nth_In; exact Hk|].
  unfold node_placement. destruct (gn_f (gnode ns k)); [|congruence]. apply Z.leb_le in Hi. rewrite Hi. left. reflexivity.
Qed.

Lemma replay_loop_ok : forall rec sub id depth p ns0 l r b t, 1 <= depth -> gn_d (gnode ns0 p) = depth - 1 -> gn_d (gnode ns id) = depth - 1 ->
  gn_l (gnode ns0 p) = l -> gn_r (gnode ns0 p) = r -> gn_b (gnode ns0 p) = b -> gn_t (gnode ns0 p) = t ->
  (root <= id)%nat -> Same ns id l r b t ->
  (forall kid l r b t bn, In kid (kids id) -> gs_orient bn = o -> Entry (gs_nodes bn) l r b t (depth + 1) -> (root <= kid)%nat -> Same ns kid l r b t ->
     gn_d (gnode ns kid) = depth ->
     exists ns' pls, rec kid (if gvertical o (depth + 1) then l else b) (if gvertical o (depth + 1) then b else l) [bn] = GROk [gwith_nodes bn ns']
       /\ After (gs_nodes bn) ns' (length (gs_nodes bn) - 1) pls /\ map pl_size pls = sub kid) ->
  (forall kid c p bins, kids kid = [] -> rec kid c p bins = GROk bins) ->
  let v := gvertical o depth in
  forall sibs, (forall k, In k sibs -> In k (kids id)) ->
  forall bn cur, gs_orient bn = o -> Ready i o ns0 (gs_nodes bn) p cur depth ->
  (sibs <> [] -> cur + zsum_by (fun k => extent v (gnode ns k) + ct) sibs - ct <= far v (gnode ns0 p)) ->
  exists bins', fst (fold_left (replay_step i v depth (if v then b else l) ns rec) sibs (GROk [bn], cur)) = GROk bins'.
Proof.
  intros rec sub id depth p ns0 l r b t Hd Hdp Hdi Hl Hr Hb Ht Hroot Hsame Hrec Hnil v.
  assert (Hv : gvertical o (depth + 1) = negb v) by (apply vertical_next; exact Hany).
  assert (Hpos : forall k, In k (kids id) -> 0 < extent v (gnode ns k)).
  { intros k Hk. apply (Permutation_in _ (Hkids id)) in Hk. destruct (Hfit id) as [F _]; [intros E; rewrite E in Hk; destruct Hk|].
    rewrite Hdi in F. replace (depth - 1 + 1) with depth in F by lia. apply F. exact Hk. }
  assert (Hsum : forall s, (forall k, In k s -> In k (kids id)) -> 0 <= zsum_by (fun k => extent v (gnode ns k) + ct) s).
  { clear - Hpos Hct. unfold zsum_by. induction s as [|k s IH]; intros H; [reflexivity|]. cbn [fold_right].
    specialize (IH (fun k' Hk' => H k' (or_intror Hk'))). specialize (Hpos k (H k (or_introl eq_refl))). lia. }
  induction sibs as [|k sibs IH]; intros Hin bn cur Ho HR Hroom; [eexists; reflexivity|].
  assert (Hkk : In k (kids id)) by (apply Hin; left; reflexivity).
  assert (Hk : In k (content_kids ns id)) by (apply (Permutation_in _ (Hkids id)); exact Hkk).
  destruct Hpat as [_ Hp2]. destruct (Hp2 id k Hroot Hk) as (Hik & Hdk & _ & Hgeo). rewrite Hdk, Hdi in Hgeo.
  replace (depth - 1 + 1) with depth in * by lia. rewrite Hdi in Hdk. replace (depth - 1 + 1) with depth in Hdk by lia. fold v in Hgeo.
  specialize (Hroom ltac:(discriminate)). unfold zsum_by in Hroom. cbn [fold_right] in Hroom. fold (zsum_by (fun k => extent v (gnode ns k) + ct) sibs) in Hroom.
  assert (Hs := Hsum sibs (fun k' Hk' => Hin k' (or_intror Hk'))). assert (Hp := Hpos k Hkk).
  cbn [fold_left]. unfold replay_step at 2. cbn [fst snd].
  change (if v then gn_r (gnode ns k) - gn_l (gnode ns k) else gn_t (gnode ns k) - gn_b (gnode ns k)) with (extent v (gnode ns k)).
  set (cut := cur + extent v (gnode ns k)) in *.
  destruct (add_ready i o ns0 bn p cur depth cut Hd Ho Hdp HR) as [[A _]|[_ (m & E' & R & Hlast & Hpiece & _ & Hcs & _)]].
  { fold v in A. unfold cut in A. lia. }
  rewrite E'. fold v in Hpiece.
  set (l' := if v then cur else l) in *. set (r' := if v then cut else r) in *.
  set (b' := if v then b else cur) in *. set (t' := if v then t else cut) in *.
  assert (HE : Entry (gs_nodes (gwith_nodes bn m)) l' r' b' t' (depth + 1)).
  { cbn [gwith_nodes gs_nodes]. unfold l', r', b', t'. constructor; try rewrite Hpiece; unfold piece;
      cbn [gn_d gn_l gn_r gn_b gn_t gn_children gn_f]; rewrite ?Hl, ?Hr, ?Hb, ?Ht; try reflexivity; try lia.
    - intros ->. simpl in Hlast. lia.
    - right. reflexivity.
    - intros _. discriminate. }
  assert (HS : Same ns k l' r' b' t').
  { unfold Same, l', r', b', t', cut, extent in *. destruct Hsame. destruct v; destruct Hgeo as [G1 G2]; rewrite G1, G2; split; lia. }
  assert (Hsub : exists ns' pls, (match (if 0 <=? gn_item (gnode ns k) then gof (gset_item i [gwith_nodes bn m] (Z.to_nat (gn_item (gnode ns k)))) else GROk [gwith_nodes bn m]) with
      | GROk bins => (rec k (if v then b else l) cur bins, cut + ct)
      | x => (x, cur) end) = (GROk [gwith_nodes (gwith_nodes bn m) ns'], cut + ct)
      /\ After m ns' (length m - 1) pls).
  { destruct (0 <=? gn_item (gnode ns k)) eqn:Ei.
    - apply Z.leb_le in Ei. pose proof Hk as Hk'. apply kids_in in Hk'. destruct Hk' as (K1 & _ & K3).
      destruct (set_found i l' r' b' t' (mkPl (Z.to_nat (gn_item (gnode ns k))) l' r' b' t') (gwith_nodes bn m) (depth + 1) HE) as (bins1 & Es); try reflexivity.
      { apply (item_sized k); try assumption; [congruence|reflexivity]. }
      cbn [pl_item] in Es. rewrite Es.
      destruct (set_after i o _ l' r' b' t' (depth + 1) (gwith_nodes bn m) bins1 Ho HE ltac:(lia) Es) as (ns' & -> & HA).
      assert (Hleaf : kids k = []).
      { destruct (kids k) as [|k' ks] eqn:Ekk; [reflexivity|]. exfalso.
        assert (Hc : In k' (content_kids ns k)) by (apply (Permutation_in _ (Hkids k)); rewrite Ekk; left; reflexivity).
        destruct (Hp2 k k' ltac:(lia) Hc) as (_ & _ & [X|X] & _); lia. }
      rewrite (Hnil k _ _ _ Hleaf). eexists. eexists. split; [reflexivity|exact HA].
    - destruct (Hrec k l' r' b' t' (gwith_nodes bn m) Hkk Ho HE ltac:(lia) HS Hdk) as (ns' & pls & Er & HA & _).
      exists ns', pls. split; [|exact HA]. rewrite Hv in Er. rewrite <- Er. unfold l', b'. destruct v; reflexivity. }
  destruct Hsub as (ns' & pls & Es & HA). rewrite Es.
  apply IH.
  - intros k' Hk'. apply Hin. right. exact Hk'.
  - exact Ho.
  - cbn [gwith_nodes gs_nodes].
    apply (after_ready i o ns0 m ns' p _ depth pls R Hlast Hcs); [| |exact HA]; rewrite Hpiece; [reflexivity|].
    unfold piece. cbn [gn_d]. destruct (rd_frame _ _ _ _ _ _ _ R) as (_ & F2 & _). lia.
  - intros _. unfold cut. lia.
Qed.

Lemma zsum_perm : forall f l l', Permutation l l' -> zsum_by f l = zsum_by f l'.
Proof. intros f l l' P. unfold zsum_by. induction P; cbn [fold_right]; lia. Qed.

Lemma replay_ok : forall fuel id depth l r b t bn, (length ns <= id + fuel)%nat -> gs_orient bn = o -> Entry (gs_nodes bn) l r b t depth ->
  (root <= id)%nat -> Same ns id l r b t -> gn_d (gnode ns id) = depth - 1 ->
  exists bins', replay i o ns kids fuel id depth (if gvertical o depth then l else b) (if gvertical o depth then b else l) [bn] = GROk bins'.
Proof.
  assert (Hrn : forall fuel id depth c p bins, kids id = [] -> replay i o ns kids fuel id depth c p bins = GROk bins)
    by (intros [|fuel] id depth c p bins E; cbn [replay]; rewrite E; reflexivity).
  induction fuel as [|fuel IH]; intros id depth l r b t bn Hfu Ho HE Hroot HS Hdi.
  all: destruct (kids id) as [|k sibs] eqn:Ek; [rewrite Hrn by exact Ek; eexists; reflexivity|].
  all: assert (Hk : In k (content_kids ns id)) by (apply (Permutation_in _ (Hkids id)); rewrite Ek; left; reflexivity).
  - exfalso. destruct (proj2 Hpat id k Hroot Hk) as (H & _). apply kids_in in Hk. lia.
  - cbn [replay]. rewrite Ek. destruct HE as [D0 D1 D2 E1 E2 E3 E4 E5 E6 E7] eqn:EHE.
    apply (replay_loop_ok (fun kid c p b => replay i o ns kids fuel kid (depth + 1) c p b) (walk ns kids fuel) id depth
       (length (gs_nodes bn) - 1) (gs_nodes bn) l r b t D0 D2 Hdi E1 E2 E3 E4 Hroot HS).
    + intros kid l' r' b' t' bn' Hkid Ho' HE' Hk' HS' Hd'.
      assert (Hc : In kid (content_kids ns id)) by (apply (Permutation_in _ (Hkids id)); exact Hkid).
      destruct (proj2 Hpat id kid Hroot Hc) as (Hlt & _).
      destruct (IH kid (depth + 1) l' r' b' t' bn' ltac:(lia) Ho' HE' Hk' HS' ltac:(lia)) as (bins' & Er).
      destruct (replay_sound i o ns root kids Hany Hpat Hkids fuel kid (depth + 1) l' r' b' t' bn' bins' Ho' HE' Hk' HS' ltac:(lia) Er) as (ns' & pls & -> & HA & HM).
      exists ns', pls. split; [exact Er|]. split; assumption.
    + intros kid c p bins Ekk. apply Hrn. exact Ekk.
    + intros k' Hk'. rewrite Ek. exact Hk'.
    + exact Ho.
    + eapply entry_ready. exact HE.
    + intros _. rewrite <- Ek, (zsum_perm _ _ _ (Hkids id)).
      destruct (Hfit id) as [_ F]; [intros E; rewrite E in Hk; destruct Hk|].
      rewrite Hdi in F. replace (depth - 1 + 1) with depth in F by lia. destruct HS as [S1 S2]. unfold extent at 2 in F. unfold far.
      destruct (gvertical o depth); lia.
Qed.
End Replay.

(** Every plate with a fitting cutting pattern and items of the sizes of their
    types is cut again after the sort, without exception. *)
Theorem C76_replays : forall i cs b, Sortable i b -> (gs_type b < length (gin_bins i))%nat -> 0 <= gp_ct (gin_params i) ->
  Fitting (gp_ct (gin_params i)) (gs_orient b) (gs_nodes b) -> Sized i (bin_placements (gs_nodes b)) ->
  exists b', sort_bin i cs (length (gs_nodes b)) b = GROk [b']
    /\ Permutation (map pl_size (bin_placements (gs_nodes b'))) (map pl_size (bin_placements (gs_nodes b))).
Proof.
  intros i cs b HS Htype Hct Hfit Hsz.
  assert (E : exists bins, sort_bin i cs (length (gs_nodes b)) b = GROk bins).
  { destruct HS as (Hany & Ht & root & HU & Hpat & Hro & U1 & U2 & U3 & U4). unfold sort_bin, gadd_bin.
    apply Nat.ltb_lt in Htype. rewrite Htype. cbn [app]. rewrite (usable_root _ _ HU).
    assert (Hv : gvertical (gs_orient b) 1 = match gs_orient b with GVertical => true | _ => false end) by (destruct (gs_orient b); reflexivity).
    rewrite <- Hv, U1, U3. eapply (replay_ok i (gs_orient b) (gs_nodes b) root _ Hany Hpat
      (fun id => sorted_kids_perm (gs_nodes b) (compute_node_lengths (gs_orient b) (gs_nodes b)) cs id) Hct Hfit Hsz
      (length (gs_nodes b)) root 1 _ _ _ _ _ ltac:(lia)).
    - reflexivity.
    - cbn [gs_nodes]. apply init_entry. exact Ht.
    - lia.
    - unfold Same. rewrite U1, U2, U3, U4. split; lia.
    - destruct Hpat as [D _]. exact D. }
  destruct E as (bins & E). destruct (sort_bin_sound _ _ _ _ HS E) as (b' & -> & _ & _ & P). exists b'. split; [exact E|exact P].
Qed.
Print Assumptions C76_replays.

Example C76_replays_nonvacuous :
  Fitting 1 GHorizontal (gs_nodes b76_bin) /\ Sized (b75_in GAny) (bin_placements (gs_nodes b76_bin))
  /\ gs_orient b76_bin = GHorizontal /\ gp_ct (gin_params (b75_in GAny)) = 1.
Proof.
  assert (K : forall id, content_kids (gs_nodes b76_bin) id =
    match id with 0 => [2] | 2 => [3] | 3 => [4; 5] | 5 => [6; 7] | _ => [] end%nat).
  { intros id. do 9 (destruct id as [|id]; [vm_compute; reflexivity|]). vm_compute. reflexivity. }
  split; [|split; [|split; reflexivity]].
  - intros id Hne. cbv zeta. rewrite K in *. do 9 (destruct id as [|id]; [try congruence;
      (split; [intros k Hk; cbn [In] in Hk; repeat (destruct Hk as [<-|Hk]; [vm_compute; reflexivity|]); contradiction|vm_compute; discriminate])|]).
    congruence.
  - intros p Hp. assert (E : bin_placements (gs_nodes b76_bin) = [mkPl 0 1 5 0 10; mkPl 1 6 11 0 4; mkPl 1 6 11 5 9]) by (vm_compute; reflexivity).
    rewrite E in Hp. destruct Hp as [<-|[<-|[<-|[]]]]; (split; [vm_compute; lia|]); vm_compute; auto.
Qed.
