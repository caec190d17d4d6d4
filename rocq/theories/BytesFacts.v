From Coq Require Export Lia ZifyBool ZifyNat ZifyN.
From Verif Require Export Bytes.
Ltac Zify.zify_post_hook ::= Z.div_mod_to_equations.

Arguments N.add : simpl never.
Arguments N.sub : simpl never.
Arguments N.mul : simpl never.
Arguments N.div : simpl never.
Arguments N.modulo : simpl never.
Arguments N.pow : simpl never.
Arguments N.eqb : simpl nomatch.
Arguments Z.add : simpl never.
Arguments Z.mul : simpl never.

Lemma to_N_bounded : forall b, (Byte.to_N b < 256)%N.
Proof. intros b. pose proof (Byte.to_N_bounded b). lia. Qed.

Lemma byte_of_N_to_N : forall b, byte_of_N (Byte.to_N b) = b.
Proof.
  intros b. unfold byte_of_N.
  rewrite N.mod_small by (apply to_N_bounded).
  rewrite Byte.of_to_N. reflexivity.
Qed.

Lemma to_N_byte_of_N : forall n, Byte.to_N (byte_of_N n) = (n mod 256)%N.
Proof.
  intros n. unfold byte_of_N.
  destruct (Byte.of_N (n mod 256)) as [b|] eqn:E.
  - apply Byte.to_of_N in E. exact E.
  - apply Byte.of_N_None_iff in E.
    assert (n mod 256 < 256)%N by (apply N.mod_lt; lia). lia.
Qed.

Lemma byte_eqb_eq : forall a b, byte_eqb a b = true <-> a = b.
Proof.
  intros a b. unfold byte_eqb. rewrite N.eqb_eq. split.
  - intros H. rewrite <- (byte_of_N_to_N a), H. apply byte_of_N_to_N.
  - intros ->. reflexivity.
Qed.

Lemma to_N_inj : forall a b, Byte.to_N a = Byte.to_N b -> a = b.
Proof. intros a b H. apply byte_eqb_eq. unfold byte_eqb. apply N.eqb_eq. exact H. Qed.

Lemma bytes_eqb_eq : forall a b, bytes_eqb a b = true <-> a = b.
Proof.
  induction a as [|x a IH]; intros [|y b]; simpl; split; intros H; try discriminate; auto.
  - apply andb_prop in H as [H1 H2]. apply byte_eqb_eq in H1. apply IH in H2. congruence.
  - inversion H; subst. apply andb_true_intro. split; [apply byte_eqb_eq|apply IH]; reflexivity.
Qed.

Lemma bytes_eqb_refl : forall a, bytes_eqb a a = true.
Proof. intros a. apply bytes_eqb_eq. reflexivity. Qed.

Lemma bytes_eqb_neq : forall a b, bytes_eqb a b = false <-> a <> b.
Proof.
  intros a b. destruct (bytes_eqb a b) eqn:E.
  - apply bytes_eqb_eq in E. split; [discriminate|contradiction].
  - split; [|reflexivity]. intros _ H. apply bytes_eqb_eq in H. congruence.
Qed.


Lemma bytes_ltb_irrefl : forall a, bytes_ltb a a = false.
Proof.
  induction a as [|x a IH]; simpl; [reflexivity|].
  destruct (N.ltb_spec (Byte.to_N x) (Byte.to_N x)); [lia|exact IH].
Qed.

Lemma bytes_ltb_trans : forall a b c, bytes_ltb a b = true -> bytes_ltb b c = true -> bytes_ltb a c = true.
Proof.
  induction a as [|x a IH]; intros [|y b] [|z c]; simpl; try discriminate; auto.
  destruct (N.ltb_spec (Byte.to_N x) (Byte.to_N y));
  destruct (N.ltb_spec (Byte.to_N y) (Byte.to_N x));
  destruct (N.ltb_spec (Byte.to_N y) (Byte.to_N z));
  destruct (N.ltb_spec (Byte.to_N z) (Byte.to_N y));
  destruct (N.ltb_spec (Byte.to_N x) (Byte.to_N z));
  destruct (N.ltb_spec (Byte.to_N z) (Byte.to_N x)); try lia; try discriminate; auto.
  apply IH.
Qed.

Lemma bytes_ltb_total : forall a b, bytes_ltb a b = false -> bytes_ltb b a = false -> a = b.
Proof.
  induction a as [|x a IH]; intros [|y b]; simpl; try discriminate; auto.
  destruct (N.ltb_spec (Byte.to_N x) (Byte.to_N y));
  destruct (N.ltb_spec (Byte.to_N y) (Byte.to_N x)); try lia; try discriminate.
  intros H1 H2. f_equal; [apply to_N_inj; lia|]. apply IH; assumption.
Qed.


(** Big-endian *)
Lemma be_enc_length : forall k n, length (be_enc k n) = k.
Proof. induction k as [|k IH]; intros n; simpl; [reflexivity|]. rewrite IH. reflexivity. Qed.

Lemma be_dec_acc_enc : forall k n acc,
  be_dec_acc acc (be_enc k n) = (acc * 256 ^ N.of_nat k + n mod 256 ^ N.of_nat k)%N.
Proof.
  induction k as [|k IH]; intros n acc.
  - simpl be_enc. simpl be_dec_acc. change (N.of_nat 0) with 0%N. rewrite N.pow_0_r, N.mod_1_r. lia.
  - cbn [be_enc be_dec_acc]. rewrite IH, to_N_byte_of_N.
    rewrite Nat2N.inj_succ, N.pow_succ_r'.
    set (P := (256 ^ N.of_nat k)%N).
    assert (HP : (P <> 0)%N) by (apply N.pow_nonzero; lia).
    rewrite (N.mul_comm 256 P).
    rewrite N.mod_mul_r by lia. nia.
Qed.

Lemma be_dec_enc : forall k n, be_dec (be_enc k n) = (n mod 256 ^ N.of_nat k)%N.
Proof. intros k n. unfold be_dec. rewrite be_dec_acc_enc. lia. Qed.

Lemma be_dec_enc_small : forall k n, (n < 256 ^ N.of_nat k)%N -> be_dec (be_enc k n) = n.
Proof. intros k n H. rewrite be_dec_enc. apply N.mod_small. exact H. Qed.

Lemma be_dec_acc_bound : forall b acc,
  (be_dec_acc acc b < (acc + 1) * 256 ^ blen b)%N.
Proof.
  unfold blen. induction b as [|x b IH]; intros acc.
  - simpl. change (N.of_nat 0) with 0%N. rewrite N.pow_0_r. lia.
  - cbn [be_dec_acc length]. rewrite Nat2N.inj_succ, N.pow_succ_r'.
    specialize (IH (acc * 256 + Byte.to_N x)%N). pose proof (to_N_bounded x).
    eapply N.lt_le_trans; [exact IH|]. nia.
Qed.

Lemma be_dec_bound : forall b, (be_dec b < 256 ^ blen b)%N.
Proof. intros b. pose proof (be_dec_acc_bound b 0). unfold be_dec. lia. Qed.

Lemma be_dec_acc_split : forall b acc, be_dec_acc acc b = (acc * 256 ^ blen b + be_dec b)%N.
Proof.
  unfold blen, be_dec. induction b as [|x b IH]; intros acc.
  - simpl. change (N.of_nat 0) with 0%N. rewrite N.pow_0_r. lia.
  - cbn [be_dec_acc length]. rewrite Nat2N.inj_succ, N.pow_succ_r'.
    rewrite IH. rewrite (IH (0 * 256 + _)%N). nia.
Qed.

Lemma be_dec_inj : forall a b, length a = length b -> be_dec a = be_dec b -> a = b.
Proof.
  induction a as [|x a IH]; intros [|y b] L H; simpl in L; try discriminate; auto.
  injection L as L. unfold be_dec in H. cbn [be_dec_acc] in H.
  rewrite (be_dec_acc_split a), (be_dec_acc_split b) in H. unfold blen in H. rewrite L in H.
  pose proof (be_dec_bound a) as Ha. pose proof (be_dec_bound b) as Hb. unfold blen in Ha, Hb.
  rewrite L in Ha.
  assert (Byte.to_N x = Byte.to_N y) as Hxy by nia.
  f_equal; [apply to_N_inj; exact Hxy|]. apply IH; [exact L|]. nia.
Qed.

Lemma be_enc_dec : forall b, be_enc (length b) (be_dec b) = b.
Proof.
  intros b. apply be_dec_inj.
  - apply be_enc_length.
  - apply be_dec_enc_small. apply be_dec_bound.
Qed.

Lemma firstn_app_exact : forall (A : Type) (a b : list A), firstn (length a) (a ++ b) = a.
Proof. intros A a b. rewrite firstn_app, firstn_all, Nat.sub_diag. simpl. apply app_nil_r. Qed.
Lemma skipn_app_exact : forall (A : Type) (a b : list A), skipn (length a) (a ++ b) = b.
Proof. intros A a b. rewrite skipn_app, skipn_all, Nat.sub_diag. reflexivity. Qed.

(** Hexadecimal *)
Lemma hex_value_digit : forall n, (n < 16)%N -> hex_value (hex_digit n) = Some n.
Proof.
  intros n H. unfold hex_digit, hex_value.
  destruct (N.ltb_spec n 10); rewrite to_N_byte_of_N.
  - rewrite N.mod_small by lia.
    replace ((48 <=? 48 + n)%N && (48 + n <=? 57)%N) with true by lia. f_equal. lia.
  - rewrite N.mod_small by lia.
    replace ((48 <=? 55 + n)%N && (55 + n <=? 57)%N) with false by lia.
    replace ((65 <=? 55 + n)%N && (55 + n <=? 70)%N) with true by lia. f_equal. lia.
Qed.

Lemma from_to_hex : forall b, from_hex (to_hex b) = Some b.
Proof.
  induction b as [|x b IH]; [reflexivity|].
  cbn [to_hex from_hex]. pose proof (to_N_bounded x).
  rewrite !hex_value_digit by lia. rewrite IH.
  replace (Byte.to_N x / 16 * 16 + Byte.to_N x mod 16)%N with (Byte.to_N x) by lia.
  rewrite byte_of_N_to_N. reflexivity.
Qed.

