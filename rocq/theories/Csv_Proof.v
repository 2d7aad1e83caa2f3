(** * Printed numbers and rows are read back *)

From Coq Require Import Ascii String List ZArith Bool Lia Arith.
From Verif Require Import Csv_Model Csv_Spec.
Import ListNotations.
Open Scope Z_scope.

Lemma digit_spec : forall d, 0 <= d <= 9 -> char_digit (digit_char d) = Some d /\ plain (digit_char d) = true
  /\ Ascii.eqb (digit_char d) "-" = false /\ Ascii.eqb (digit_char d) "+" = false /\ is_space (digit_char d) = false.
Proof.
  intros d H. assert (E : d = 0 \/ d = 1 \/ d = 2 \/ d = 3 \/ d = 4 \/ d = 5 \/ d = 6 \/ d = 7 \/ d = 8 \/ d = 9) by lia.
  repeat (destruct E as [->|E]; [vm_compute; auto|]). subst. vm_compute. auto.
Qed.

(** Value of a text of digits read after [acc]. *)
Lemma read_print : forall fuel n s acc0 b, 0 <= n -> (fuel <> 0)%nat -> n < 10 ^ Z.of_nat fuel ->
  exists k, 0 <= k /\ read_digits (print_digits fuel n s) acc0 b = read_digits s (acc0 * 10 ^ k + n) true.
Proof.
  induction fuel as [|fuel IH]; intros n s acc0 b Hn Hf Hb; [congruence|].
  cbn [print_digits]. destruct (Z.ltb_spec n 10) as [Hlt|Hge].
  - exists 1. split; [lia|]. rewrite Z.mod_small by lia. cbn [read_digits].
    destruct (digit_spec n) as [-> _]; [lia|]. reflexivity.
  - assert (Hb' : n / 10 < 10 ^ Z.of_nat fuel).
    { apply Z.div_lt_upper_bound; [lia|]. rewrite Nat2Z.inj_succ, Z.pow_succ_r in Hb by lia. lia. }
    assert (fuel <> 0)%nat.
    { intro E. subst fuel. simpl in Hb'. assert (1 <= n / 10) by (apply Z.div_le_lower_bound; lia). lia. }
    destruct (IH (n / 10) (String (digit_char (n mod 10)) s) acc0 b) as (k & Hk & E); [apply Z.div_pos; lia|assumption|assumption|].
    exists (k + 1). split; [lia|]. rewrite E. cbn [read_digits].
    pose proof (Z.mod_pos_bound n 10 ltac:(lia)) as Hm. destruct (digit_spec (n mod 10)) as [-> _]; [lia|].
    f_equal. rewrite Z.pow_add_r by lia. pose proof (Z.div_mod n 10 ltac:(lia)). lia.
Qed.

Lemma print_head : forall fuel n s, 0 <= n -> (fuel <> 0)%nat ->
  exists d s', 0 <= d <= 9 /\ print_digits fuel n s = String (digit_char d) s'.
Proof.
  induction fuel as [|fuel IH]; intros n s Hn Hf; [congruence|]. cbn [print_digits].
  pose proof (Z.mod_pos_bound n 10 ltac:(lia)) as Hm.
  destruct (Z.ltb_spec n 10); [exists (n mod 10), s; split; [lia|reflexivity]|].
  destruct fuel as [|fuel]; [exists (n mod 10), s; split; [lia|reflexivity]|].
  apply IH; [apply Z.div_pos; lia|congruence].
Qed.

Lemma log_fuel : forall n, 0 <= n -> n < 10 ^ Z.of_nat (S (Z.to_nat (Z.log2 n))).
Proof.
  intros n Hn. destruct (Z.eq_dec n 0) as [->|N]; [simpl; lia|].
  rewrite Nat2Z.inj_succ, Z2Nat.id by apply Z.log2_nonneg.
  pose proof (Z.log2_spec n ltac:(lia)) as [_ H]. eapply Z.lt_le_trans; [exact H|].
  apply Z.pow_le_mono_l. lia.
Qed.

Lemma read_sign_print : forall z, read_sign (skip_spaces (print_int z)) = Some z.
Proof.
  intro z. unfold print_int. destruct (Z.ltb_spec z 0) as [H|H].
  - cbn [skip_spaces]. change (is_space "-") with false. cbv iota. cbn [read_sign]. rewrite Ascii.eqb_refl.
    destruct (read_print (S (Z.to_nat (Z.log2 (- z)))) (- z) "" 0 false) as (k & _ & E); [lia|congruence|apply log_fuel; lia|].
    rewrite E. cbn [read_digits option_map]. f_equal. lia.
  - destruct (print_head (S (Z.to_nat (Z.log2 z))) z "" H ltac:(congruence)) as (d & s' & Hd & E').
    destruct (digit_spec d Hd) as (_ & _ & E1 & E2 & E3).
    assert (ES : skip_spaces (print_digits (S (Z.to_nat (Z.log2 z))) z "") = print_digits (S (Z.to_nat (Z.log2 z))) z "").
    { rewrite E'. cbn [skip_spaces]. rewrite E3. reflexivity. }
    rewrite ES. unfold read_sign. rewrite E' at 1. rewrite E1, E2.
    destruct (read_print (S (Z.to_nat (Z.log2 z))) z "" 0 false) as (k & _ & E); [lia|congruence|apply log_fuel; lia|].
    rewrite E. cbn [read_digits]. f_equal.
Qed.

Lemma stol_print : forall z, int64 z = true -> stol (print_int z) = Some z.
Proof. intros z H. unfold stol. rewrite read_sign_print, H. reflexivity. Qed.
Lemma stod_print : forall z, stod_int (print_int z) = Some z.
Proof. intro z. apply read_sign_print. Qed.
Lemma to_int32_id : forall z, - 2147483648 <= z < 2147483648 -> to_int32 z = z.
Proof. intros z H. unfold to_int32. rewrite Z.mod_small; lia. Qed.

Lemma print_digits_plain : forall fuel n s, 0 <= n -> all_chars plain s = true -> all_chars plain (print_digits fuel n s) = true.
Proof.
  induction fuel as [|fuel IH]; intros n s Hn Hs; [assumption|]. cbn [print_digits].
  pose proof (Z.mod_pos_bound n 10 ltac:(lia)) as Hm. destruct (digit_spec (n mod 10)) as (_ & HP & _); [lia|].
  assert (all_chars plain (String (digit_char (n mod 10)) s) = true) by (cbn [all_chars]; rewrite HP, Hs; reflexivity).
  destruct (n <? 10); [assumption|]. apply IH; [apply Z.div_pos; lia|assumption].
Qed.
Lemma print_int_plain : forall z, all_chars plain (print_int z) = true.
Proof.
  intro z. unfold print_int. destruct (Z.ltb_spec z 0).
  - cbn [all_chars]. rewrite print_digits_plain by (lia || reflexivity). reflexivity.
  - apply print_digits_plain; [lia|reflexivity].
Qed.
Lemma print_int_nonempty : forall z, print_int z <> ""%string.
Proof.
  intro z. unfold print_int. destruct (Z.ltb_spec z 0); [discriminate|].
  destruct (print_head (S (Z.to_nat (Z.log2 z))) z "" ltac:(lia) ltac:(congruence)) as (d & s' & _ & E). rewrite E. discriminate.
Qed.

(** ** Splitting *)

Definition no_char (c : ascii) (s : string) : bool := all_chars (fun a => negb (Ascii.eqb a c)) s.

Lemma split_none : forall c s, no_char c s = true -> split_on c s = [s].
Proof.
  intros c s. induction s as [|a s IH]; intro H; [reflexivity|]. unfold no_char in H. cbn [all_chars] in H.
  apply andb_true_iff in H. destruct H as [H1 H2]. apply negb_true_iff in H1. cbn [split_on]. rewrite H1, IH by assumption. reflexivity.
Qed.

Lemma split_app : forall c s1 s2, no_char c s1 = true ->
  split_on c (append s1 (String c s2)) = s1 :: split_on c s2.
Proof.
  intros c s1 s2. induction s1 as [|a s1 IH]; intro H.
  - simpl. rewrite Ascii.eqb_refl. reflexivity.
  - unfold no_char in H. cbn [all_chars] in H. apply andb_true_iff in H. destruct H as [H1 H2]. apply negb_true_iff in H1.
    cbn [append split_on]. rewrite H1, IH by assumption. reflexivity.
Qed.

Lemma split_join : forall cells, cells <> [] -> Forall (fun c => no_char comma c = true) cells ->
  split_on comma (join cells) = cells.
Proof.
  intros cells. induction cells as [|c cells IH]; intros Hne H; [congruence|]. inversion H; subst.
  destruct cells as [|c' cells]; [apply split_none; assumption|].
  change (join (c :: c' :: cells)) with (append c (String comma (join (c' :: cells)))).
  rewrite split_app, IH by (assumption || congruence). reflexivity.
Qed.

Lemma append_nil : forall s, append s "" = s.
Proof. induction s as [|a s IH]; simpl; congruence. Qed.
Lemma append_assoc : forall a b c, append (append a b) c = append a (append b c).
Proof. induction a as [|x a IH]; intros; simpl; congruence. Qed.

Lemma concat_cons : forall s l, String.concat "" (s :: l) = append s (String.concat "" l).
Proof. intros s [|x l]; simpl; [symmetry; apply append_nil|reflexivity]. Qed.

Lemma no_char_app : forall c s1 s2, no_char c (append s1 s2) = no_char c s1 && no_char c s2.
Proof.
  intros c s1 s2. induction s1 as [|a s1 IH]; [reflexivity|]. unfold no_char in *. cbn [append all_chars].
  rewrite IH, andb_assoc. reflexivity.
Qed.

Lemma no_newline_join : forall cells, Forall (fun c => no_char newline c = true) cells -> no_char newline (join cells) = true.
Proof.
  intros cells. induction cells as [|c cells IH]; intro H; [reflexivity|]. inversion H; subst.
  destruct cells as [|c' cells]; [assumption|].
  change (join (c :: c' :: cells)) with (append c (String comma (join (c' :: cells)))).
  rewrite no_char_app, H2. unfold no_char at 1. cbn [all_chars]. fold (no_char newline (join (c' :: cells))).
  rewrite IH by assumption. reflexivity.
Qed.

Lemma plain_no_char : forall s, all_chars plain s = true -> no_char comma s = true /\ no_char newline s = true.
Proof.
  induction s as [|a s IH]; intro H; [split; reflexivity|]. cbn [all_chars] in H. apply andb_true_iff in H.
  destruct H as [H1 H2]. destruct (IH H2) as [I1 I2]. unfold plain in H1. apply andb_true_iff in H1. destruct H1 as [P1 P2].
  unfold no_char in *. cbn [all_chars]. rewrite P1, P2, I1, I2. split; reflexivity.
Qed.

Lemma lines_rows : forall l, Forall plain_cells l -> get_lines (rows l) = map join l.
Proof.
  intros l H. unfold get_lines.
  assert (E : split_on newline (rows l) = map join l ++ [""%string]).
  { unfold rows. induction H as [|cells l Hc Hl IH]; [reflexivity|].
    cbn [map]. rewrite concat_cons. unfold row at 1. rewrite append_assoc.
    assert (E' : forall x, append (String newline "") x = String newline x) by reflexivity. rewrite E'.
    rewrite split_app, IH; [reflexivity|]. apply no_newline_join. eapply Forall_impl; [|apply Hc].
    intros c Hc'. apply (plain_no_char c). exact Hc'. }
  rewrite E. unfold drop_last_empty. rewrite last_last, removelast_last. reflexivity.
Qed.

Lemma cells_row : forall keep cells, plain_cells cells ->
  split_cells keep (join cells) = if keep then cells else drop_last_empty cells.
Proof.
  intros keep cells [Hne H]. unfold split_cells. rewrite split_join; [reflexivity|assumption|].
  eapply Forall_impl; [|exact H]. intros c Hc. apply (plain_no_char c). exact Hc.
Qed.

Lemma drop_last_nonempty : forall l x, x <> ""%string -> drop_last_empty (l ++ [x]) = l ++ [x].
Proof. intros l x H. unfold drop_last_empty. rewrite last_last. destruct x; [congruence|reflexivity]. Qed.
