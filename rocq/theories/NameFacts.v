From Verif Require Export Name TlvFacts.
Local Open Scope N_scope.

Lemma comp_eqb_eq : forall a b, comp_eqb a b = true <-> a = b.
Proof.
  intros [ta va] [tb vb]. unfold comp_eqb. cbn [t_type t_val].
  rewrite andb_true_iff, N.eqb_eq, bytes_eqb_eq. split.
  - intros [-> ->]. reflexivity.
  - intros H. injection H as -> ->. auto.
Qed.
Lemma comp_eqb_refl : forall a, comp_eqb a a = true.
Proof. intros a. apply comp_eqb_eq. reflexivity. Qed.

Lemma name_eqb_eq : forall a b, name_eqb a b = true <-> a = b.
Proof.
  induction a as [|x a IH]; intros [|y b]; cbn [name_eqb]; try (split; [discriminate|discriminate]).
  - split; reflexivity.
  - rewrite andb_true_iff, comp_eqb_eq, IH. split.
    + intros [-> ->]. reflexivity.
    + intros H. injection H as -> ->. auto.
Qed.
Lemma name_eqb_refl : forall a, name_eqb a a = true.
Proof. intros a. apply name_eqb_eq. reflexivity. Qed.

Lemma is_prefix_iff : forall a b, is_prefix a b = true <-> exists s, b = a ++ s.
Proof.
  induction a as [|x a IH]; intros b; cbn [is_prefix app].
  - split; [exists b; reflexivity|reflexivity].
  - destruct b as [|y b].
    + split; [discriminate|]. intros [s H]. discriminate.
    + rewrite andb_true_iff, comp_eqb_eq, IH. split.
      * intros [-> [s ->]]. exists s. reflexivity.
      * intros [s H]. injection H as -> ->. split; [reflexivity|]. exists s. reflexivity.
Qed.

Lemma is_prefix_app : forall a s, is_prefix a (a ++ s) = true.
Proof. intros a s. apply is_prefix_iff. exists s. reflexivity. Qed.

Lemma name_decode_tlv : forall n, wf_name n -> name_decode (name_tlv n) = Some n.
Proof.
  intros n H. unfold name_decode, name_tlv. cbn [t_type t_val].
  change (T_Name =? T_Name) with true. cbv iota. apply parse_enc. exact H.
Qed.

Lemma wf_name_app : forall a b, wf_name a -> wf_name b -> wf_name (a ++ b).
Proof. intros a b Ha Hb. apply Forall_app. split; assumption. Qed.

Lemma enc_tlvs_inj : forall a b, wf_name a -> wf_name b -> enc_tlvs a = enc_tlvs b -> a = b.
Proof.
  intros a b Ha Hb H. apply parse_enc in Ha. apply parse_enc in Hb. rewrite H in Ha. congruence.
Qed.

Lemma prefix_neg_app : forall a b, prefix_neg (length b) (a ++ b) = a.
Proof.
  intros a b. unfold prefix_neg. rewrite app_length.
  destruct (Nat.leb_spec (length b) (length a + length b)); [|lia].
  replace (length a + length b - length b)%nat with (length a) by lia. apply firstn_app_exact.
Qed.

Lemma get_neg_app : forall a b, (0 < length b)%nat -> get_neg (length b) (a ++ b) = nth_error b 0.
Proof.
  intros a b H. unfold get_neg. rewrite app_length.
  destruct (Nat.leb_spec (length b) (length a + length b)); [|lia].
  replace (length a + length b - length b)%nat with (length a) by lia.
  rewrite nth_error_app2 by lia. rewrite Nat.sub_diag. reflexivity.
Qed.

Lemma prefix_neg_firstn : forall k n, (k <= length n)%nat -> n = prefix_neg k n ++ skipn (length n - k) n.
Proof.
  intros k n H. unfold prefix_neg. destruct (Nat.leb_spec k (length n)); [|lia].
  rewrite firstn_skipn. reflexivity.
Qed.

(** A valid certificate name is <identity>/KEY/<key id>/<issuer>/<version>. *)
Lemma valid_cert_name_shape : forall n, valid_cert_name n = true ->
  exists kid iss ver, n = identity_of n ++ [c_KEY; kid; iss; ver].
Proof.
  intros n H. unfold valid_cert_name, get_neg in H.
  destruct (Nat.leb_spec 4 (length n)) as [Hl|]; [|discriminate].
  destruct (nth_error n (length n - 4)) as [c|] eqn:E; [|discriminate].
  apply comp_eqb_eq in H. subst c.
  unfold identity_of. pose proof (prefix_neg_firstn 4 n Hl) as P.
  assert (length (skipn (length n - 4) n) = 4)%nat as L by (rewrite skipn_length; lia).
  assert (nth_error (skipn (length n - 4) n) 0 = Some c_KEY) as K.
  { rewrite P in E at 1. unfold prefix_neg in E. destruct (Nat.leb_spec 4 (length n)) as [_|?] in E; [|lia].
    rewrite nth_error_app2 in E; rewrite firstn_length in *; [|lia].
    replace (length n - 4 - Nat.min (length n - 4) (length n))%nat with 0%nat in E by lia. exact E. }
  destruct (skipn (length n - 4) n) as [|a [|b [|c [|d [|]]]]]; cbn in L; try lia.
  cbn in K. injection K as ->. exists b, c, d. exact P.
Qed.

Lemma identity_of_shape : forall i a b c d, identity_of (i ++ [a; b; c; d]) = i.
Proof. intros. unfold identity_of. apply (prefix_neg_app i [a; b; c; d]). Qed.
Lemma key_name_of_shape : forall i a b c d, key_name_of (i ++ [a; b; c; d]) = i ++ [a; b].
Proof.
  intros. unfold key_name_of. change [a; b; c; d] with ([a; b] ++ [c; d]). rewrite app_assoc.
  apply (prefix_neg_app (i ++ [a; b]) [c; d]).
Qed.
Lemma valid_cert_name_of_shape : forall i b c d, valid_cert_name (i ++ [c_KEY; b; c; d]) = true.
Proof.
  intros. unfold valid_cert_name.
  pose proof (get_neg_app i [c_KEY; b; c; d] ltac:(cbn; lia)) as H. cbn [length nth_error] in H.
  rewrite H. apply comp_eqb_refl.
Qed.
