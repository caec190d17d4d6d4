(** [toy] meets every law. *)
From Verif Require Export ToyEnv JsonFacts.
Local Open Scope N_scope.

Lemma undelim_delim : forall b r, undelim (delim b ++ r) = Some (b, r).
Proof. induction b as [|x b IH]; intros r; cbn [delim app undelim]; [reflexivity|]. rewrite IH. reflexivity. Qed.


Lemma wf_compb_iff : forall c, wf_compb c = true <-> wf_tlv c.
Proof.
  intros c. unfold wf_compb, wf_tlv. rewrite !andb_true_iff, N.ltb_lt, N.leb_le, N.ltb_lt. tauto.
Qed.
Lemma wf_nameb_iff : forall n, wf_nameb n = true <-> wf_name n.
Proof.
  intros n. unfold wf_nameb, wf_name. rewrite forallb_forall, Forall_forall.
  split; intros H x Hx; apply wf_compb_iff; auto.
Qed.

Lemma dec_enc_name : forall n f r, wf_name n -> (length (enc_name n) <= f)%nat ->
  dec_name f (enc_name n ++ r) = Some (n, r).
Proof.
  induction n as [|[ty v] n IH]; intros f r W L.
  - destruct f as [|f]; [cbn in L; lia|]. reflexivity.
  - inversion W as [|a b W1 W2]; subst. destruct W1 as (T1 & T2 & T3). cbn [t_type t_val] in *.
    cbn [enc_name] in L. unfold enc_comp in L. cbn [t_type t_val length] in L. rewrite !app_length in L.
    destruct f as [|f]; [lia|].
    cbn [enc_name app dec_name]. unfold enc_comp. cbn [t_type t_val]. rewrite <- !app_assoc.
    rewrite take_be_enc by (unfold max_type in T2; change (256 ^ N.of_nat 4) with 4294967296; lia).
    rewrite undelim_delim. rewrite IH; [reflexivity|exact W2|lia].
Qed.

Lemma dec_names_enc : forall n r, wf_name n -> dec_names (enc_name n ++ r) = Some (n, r).
Proof. intros n r W. unfold dec_names. apply dec_enc_name; [exact W|rewrite app_length; lia]. Qed.

Lemma dec_time_enc : forall t r, (0 <= t < 2 ^ 63)%Z -> dec_time (enc_time t ++ r) = Some (t, r).
Proof.
  intros t r H. unfold dec_time, enc_time. rewrite take_be_enc.
  - rewrite Z2N.id by lia. reflexivity.
  - change (256 ^ N.of_nat 8) with 18446744073709551616. lia.
Qed.

Lemma dec_period_enc : forall v r, (0 <= fst v < 2 ^ 63)%Z -> (0 <= snd v < 2 ^ 63)%Z ->
  dec_period (enc_period v ++ r) = Some (v, r).
Proof.
  intros [a b] r Ha Hb. unfold dec_period, enc_period. cbn [fst snd] in *. rewrite <- app_assoc.
  rewrite dec_time_enc by exact Ha. rewrite dec_time_enc by exact Hb. reflexivity.
Qed.

Lemma dec_opt_enc : forall A (f : A -> bytes) (h : bytes -> option (A * bytes)) o r,
  (forall a, o = Some a -> forall r', h (f a ++ r') = Some (a, r')) ->
  dec_opt h (enc_opt f o ++ r) = Some (o, r).
Proof.
  intros A f h [a|] r H; cbn [enc_opt app dec_opt]; [|reflexivity]. rewrite (H a eq_refl). reflexivity.
Qed.

Lemma wf_certb_iff : forall c, wf_certb c = true <-> wf_cert c.
Proof.
  intros c. unfold wf_certb, wf_cert. rewrite !andb_true_iff, wf_nameb_iff. split.
  - intros ((H1 & H2) & H3). split; [exact H1|split]; intros.
    + rewrite H in H2. apply wf_nameb_iff. exact H2.
    + rewrite H in H3. unfold time_ok in H3.
      rewrite !andb_true_iff, !Z.eqb_eq, !Z.leb_le, !Z.ltb_lt in H3. lia.
  - intros (H1 & H2 & H3). split; [split; [exact H1|]|].
    + destruct (c_keyloc c) as [n|]; [|reflexivity]. apply wf_nameb_iff. apply H2. reflexivity.
    + destruct (c_validity c) as [[nb na]|]; [|reflexivity]. specialize (H3 nb na eq_refl). unfold time_ok.
      rewrite !andb_true_iff, !Z.eqb_eq, !Z.leb_le, !Z.ltb_lt. lia.
Qed.

Lemma toy_parse_wire : forall c, wf_cert c -> toy_cert_parse (toy_cert_wire c) = Some c.
Proof.
  intros [n k content v kl ex sg] (W1 & W2 & W3). cbn [c_name c_keyloc c_validity] in *.
  unfold toy_cert_parse, toy_cert_wire. cbn [c_name c_iskey c_content c_validity c_keyloc c_extra c_sig].
  rewrite dec_names_enc by exact W1. cbn [app].
  rewrite dec_opt_enc by (intros; apply undelim_delim).
  rewrite dec_opt_enc.
  2:{ intros [nb na] E r'. apply dec_period_enc; cbn [fst snd]; apply (W3 nb na E). }
  rewrite dec_opt_enc by (intros; apply dec_names_enc; auto).
  rewrite undelim_delim. rewrite <- (app_nil_r (delim sg)). rewrite undelim_delim.
  destruct k; reflexivity.
Qed.

Lemma toy_codec1 : forall c, wf_cert c -> toy_cert_unwire (toy_cert_wire c) = Some c.
Proof.
  intros c W. unfold toy_cert_unwire. rewrite toy_parse_wire by exact W.
  rewrite (proj2 (wf_certb_iff c) W), bytes_eqb_refl. reflexivity.
Qed.
Lemma toy_codec2 : forall b c, toy_cert_unwire b = Some c -> wf_cert c /\ toy_cert_wire c = b.
Proof.
  intros b c H. unfold toy_cert_unwire in H. destruct (toy_cert_parse b) as [c'|]; [|discriminate].
  destruct (wf_certb c' && bytes_eqb (toy_cert_wire c') b) eqn:T; [|discriminate]. injection H as <-.
  apply andb_prop in T as [T1 T2]. apply wf_certb_iff in T1. apply bytes_eqb_eq in T2. auto.
Qed.

(** URIs *)
Lemma unescape_escape : forall b, unescape (escape b) = Some b.
Proof.
  induction b as [|x b IH]; [reflexivity|]. cbn [escape]. pose proof (to_N_bounded x) as B.
  destruct (unreserved x) eqn:U.
  - destruct x; try discriminate U; cbn [unescape]; rewrite IH; reflexivity.
  - cbn [unescape]. rewrite !hex_value_digit by (try apply N.mod_lt; try apply N.div_lt_upper_bound; lia).
    rewrite IH. replace (Byte.to_N x / 16 * 16 + Byte.to_N x mod 16) with (Byte.to_N x) by lia.
    rewrite byte_of_N_to_N. reflexivity.
Qed.

Lemma unescape_dots : forall b, all_dots b = true -> unescape b = Some b.
Proof.
  induction b as [|x b IH]; intros H; [reflexivity|]. cbn [all_dots forallb] in H.
  apply andb_prop in H as [H1 H2]. apply byte_eqb_eq in H1. subst x. cbn [unescape]. rewrite IH by exact H2.
  reflexivity.
Qed.

Lemma uri_value_uri : forall v, uri_value (value_uri v) = Some v.
Proof.
  intros v. unfold uri_value, value_uri. destruct (all_dots v) eqn:D.
  - rewrite unescape_dots by (cbn; exact D). cbn [app all_dots forallb]. change (byte_eqb x2e x2e) with true.
    cbn [andb]. unfold all_dots in D. rewrite D. cbn [length Nat.ltb Nat.leb skipn]. reflexivity.
  - rewrite unescape_escape, D. reflexivity.
Qed.

Lemma hex_digit_uri : forall n, n < 16 -> uri_char (hex_digit n) = true /\ hex_digit n <> x2f /\ hex_digit n <> x3d.
Proof.
  intros n H.
  assert (forallb (fun k => uri_char (hex_digit (N.of_nat k)) && negb (byte_eqb (hex_digit (N.of_nat k)) x2f) &&
                            negb (byte_eqb (hex_digit (N.of_nat k)) x3d)) (seq 0 16) = true) as F by (vm_compute; reflexivity).
  rewrite forallb_forall in F. specialize (F (N.to_nat n)). rewrite N2Nat.id in F.
  assert (In (N.to_nat n) (seq 0 16)) as I by (apply in_seq; lia). specialize (F I).
  rewrite !andb_true_iff, !negb_true_iff in F. destruct F as [[F1 F2] F3].
  repeat split; [exact F1| |]; intros X; rewrite X in *; discriminate.
Qed.

(** No escaped value contains '/' or '='. *)
Definition plain (b : byte) : bool := uri_char b && negb (byte_eqb b x2f) && negb (byte_eqb b x3d).

Lemma hex_plain : forall n, n < 16 -> plain (hex_digit n) = true.
Proof.
  intros n H. destruct (hex_digit_uri n H) as (A & B & C). unfold plain. rewrite A.
  destruct (byte_eqb (hex_digit n) x2f) eqn:E1; [apply byte_eqb_eq in E1; contradiction|].
  destruct (byte_eqb (hex_digit n) x3d) eqn:E2; [apply byte_eqb_eq in E2; contradiction|]. reflexivity.
Qed.

Lemma escape_plain : forall b, forallb plain (escape b) = true.
Proof.
  induction b as [|x b IH]; [reflexivity|]. cbn [escape]. pose proof (to_N_bounded x) as B.
  destruct (unreserved x) eqn:U; cbn [forallb].
  - rewrite IH, andb_true_r. destruct x; try discriminate U; reflexivity.
  - rewrite IH. rewrite !hex_plain by (try apply N.mod_lt; try apply N.div_lt_upper_bound; lia). reflexivity.
Qed.

Lemma value_plain : forall v, forallb plain (value_uri v) = true.
Proof.
  intros v. unfold value_uri. destruct (all_dots v) eqn:D; [|apply escape_plain].
  rewrite forallb_app. cbn [forallb]. change (plain x2e) with true. cbn [andb].
  apply forallb_forall. intros x Hx. unfold all_dots in D. rewrite forallb_forall in D. specialize (D x Hx).
  apply byte_eqb_eq in D. subst. reflexivity.
Qed.

Lemma value_uri_nonempty : forall v, value_uri v <> [].
Proof.
  intros v. unfold value_uri. destruct (all_dots v) eqn:D; [discriminate|].
  destruct v as [|x v]; [discriminate|]. cbn [escape]. destruct (unreserved x); discriminate.
Qed.

Lemma digits_plain : forall s, forallb is_digit s = true -> forallb plain s = true.
Proof.
  induction s as [|x s IH]; intros H; [reflexivity|]. cbn [forallb] in *. apply andb_prop in H as [H1 H2].
  rewrite IH by exact H2. rewrite andb_true_r. destruct x; try discriminate H1; reflexivity.
Qed.

Lemma find_byte_none : forall c s, forallb (fun b => negb (byte_eqb b c)) s = true -> find_byte c s = None.
Proof.
  induction s as [|x s IH]; intros H; [reflexivity|]. cbn [forallb find_byte] in *.
  apply andb_prop in H as [H1 H2]. apply negb_true_iff in H1. rewrite H1, IH by exact H2. reflexivity.
Qed.
Lemma find_byte_app : forall c s r, forallb (fun b => negb (byte_eqb b c)) s = true ->
  find_byte c (s ++ c :: r) = Some (length s).
Proof.
  induction s as [|x s IH]; intros r H; cbn [app find_byte].
  - rewrite (proj2 (byte_eqb_eq c c) eq_refl). reflexivity.
  - cbn [forallb] in H. apply andb_prop in H as [H1 H2]. apply negb_true_iff in H1. rewrite H1, IH by exact H2.
    reflexivity.
Qed.
Lemma plain_no_eq : forall s, forallb plain s = true -> forallb (fun b => negb (byte_eqb b x3d)) s = true.
Proof.
  intros s H. apply forallb_forall. intros x Hx. rewrite forallb_forall in H. specialize (H x Hx).
  unfold plain in H. rewrite !andb_true_iff in H. tauto.
Qed.

Lemma uri_comp_uri : forall c, wf_tlv c -> uri_comp (comp_uri c) = Some c.
Proof.
  intros [ty v] (T1 & T2 & T3). cbn [t_type t_val] in *. unfold comp_uri, uri_comp. cbn [t_type t_val].
  destruct (N.eqb_spec ty T_Generic) as [->|N].
  - rewrite find_byte_none by (apply plain_no_eq; apply value_plain). rewrite uri_value_uri. reflexivity.
  - rewrite find_byte_app by (apply plain_no_eq; apply digits_plain; apply to_string_digits).
    rewrite firstn_app_exact. replace (S (length (to_string_N ty))) with (length (to_string_N ty ++ [x3d]))
      by (rewrite app_length; cbn; lia).
    change (to_string_N ty ++ x3d :: value_uri v) with (to_string_N ty ++ [x3d] ++ value_uri v).
    rewrite app_assoc, skipn_app_exact.
    rewrite parse_dec_to_string by (unfold max_type in T2; change (10 ^ 20) with 100000000000000000000; lia).
    rewrite uri_value_uri. reflexivity.
Qed.

Lemma comp_uri_noslash : forall c, forallb (fun b => negb (byte_eqb b x2f)) (comp_uri c) = true.
Proof.
  intros c. unfold comp_uri.
  assert (forall s, forallb plain s = true -> forallb (fun b => negb (byte_eqb b x2f)) s = true) as P.
  { intros s H. apply forallb_forall. intros x Hx. rewrite forallb_forall in H. specialize (H x Hx).
    unfold plain in H. rewrite !andb_true_iff in H. tauto. }
  destruct (t_type c =? T_Generic); [apply P; apply value_plain|].
  rewrite forallb_app. rewrite P by (apply digits_plain; apply to_string_digits). cbn [forallb].
  rewrite P by apply value_plain. reflexivity.
Qed.

Lemma comp_uri_nonempty : forall c, comp_uri c <> [].
Proof.
  intros c. unfold comp_uri. destruct (t_type c =? T_Generic); [apply value_uri_nonempty|].
  intros H. apply app_eq_nil in H as [_ H]. discriminate.
Qed.

Lemma split_on_nosep : forall c s, forallb (fun b => negb (byte_eqb b c)) s = true -> split_on c s = [s].
Proof.
  induction s as [|x s IH]; intros H; [reflexivity|]. cbn [forallb split_on] in *.
  apply andb_prop in H as [H1 H2]. apply negb_true_iff in H1. rewrite H1, IH by exact H2. reflexivity.
Qed.
Lemma split_on_app : forall c s r, forallb (fun b => negb (byte_eqb b c)) s = true ->
  split_on c (s ++ c :: r) = s :: split_on c r.
Proof.
  induction s as [|x s IH]; intros r H; cbn [app split_on].
  - rewrite (proj2 (byte_eqb_eq c c) eq_refl). reflexivity.
  - cbn [forallb] in H. apply andb_prop in H as [H1 H2]. apply negb_true_iff in H1. rewrite H1, IH by exact H2.
    reflexivity.
Qed.

Lemma split_uri : forall n s, forallb (fun b => negb (byte_eqb b x2f)) s = true ->
  split_on SLASH (s ++ flat_map (fun c => x2f :: comp_uri c) n) = s :: map comp_uri n.
Proof.
  induction n as [|c n IH]; intros s H; cbn [flat_map map].
  - rewrite app_nil_r. apply split_on_nosep. exact H.
  - cbn [app]. unfold SLASH. rewrite split_on_app by exact H. fold SLASH.
    rewrite IH by apply comp_uri_noslash. reflexivity.
Qed.

Lemma toy_uri1 : forall n, wf_name n -> toy_of_uri (toy_to_uri n) = Some n.
Proof.
  intros n W. unfold toy_of_uri, toy_to_uri. destruct n as [|c0 n0] eqn:En; [reflexivity|]. rewrite <- En in *.
  clear En c0 n0. pose proof (split_uri n [] eq_refl) as Sp. cbn [app] in Sp. rewrite Sp. cbn [filter nonempty].
  assert (all_some (map uri_comp (filter nonempty (map comp_uri n))) = Some n) as A.
  { clear Sp. induction n as [|c n IH]; [reflexivity|]. inversion W; subst. cbn [map filter].
    pose proof (comp_uri_nonempty c) as Ne. destruct (comp_uri c) as [|y s] eqn:Ec; [contradiction|].
    cbn [nonempty map all_some]. rewrite <- Ec, uri_comp_uri by assumption. rewrite IH by assumption. reflexivity. }
  rewrite A. rewrite (proj2 (wf_nameb_iff n) W). reflexivity.
Qed.

Lemma toy_uri2 : forall s n, toy_of_uri s = Some n -> wf_name n.
Proof.
  intros s n H. unfold toy_of_uri in H. destruct (all_some _) as [m|]; [|discriminate].
  destruct (wf_nameb m) eqn:W; [|discriminate]. injection H as <-. apply wf_nameb_iff. exact W.
Qed.

Lemma toy_uri3 : forall n, forallb uri_char (toy_to_uri n) = true.
Proof.
  assert (forall s, forallb plain s = true -> forallb uri_char s = true) as P.
  { intros s H. apply forallb_forall. intros x Hx. rewrite forallb_forall in H. specialize (H x Hx).
    unfold plain in H. rewrite !andb_true_iff in H. tauto. }
  intros n. unfold toy_to_uri. destruct n as [|c0 n0] eqn:En; [reflexivity|]. rewrite <- En. clear En c0 n0.
  induction n as [|c n IH]; [reflexivity|]. cbn [flat_map app forallb]. rewrite forallb_app, IH, andb_true_r.
  change (uri_char x2f) with true. cbn [andb]. unfold comp_uri.
  destruct (t_type c =? T_Generic); [apply P; apply value_plain|].
  rewrite forallb_app. rewrite P by (apply digits_plain; apply to_string_digits). cbn [forallb].
  rewrite P by apply value_plain. reflexivity.
Qed.

Lemma unescape_plain : forall s, forallb plain_char s = true -> unescape s = Some s.
Proof.
  induction s as [|x s IH]; intros H; [reflexivity|]. cbn [forallb] in H. apply andb_prop in H as [H1 H2].
  destruct x; try discriminate H1; cbn [unescape]; rewrite IH by exact H2; reflexivity.
Qed.

Lemma toy_uri4 : forall s, plain_text s -> toy_of_uri s = Some [gc s].
Proof.
  intros s (P & D & L). unfold toy_of_uri.
  assert (forall c, plain_char c = false -> forallb (fun b => negb (byte_eqb b c)) s = true) as A.
  { intros c Hc. apply forallb_forall. intros x Hx. rewrite forallb_forall in P. specialize (P x Hx).
    destruct (byte_eqb x c) eqn:B; [|reflexivity]. apply byte_eqb_eq in B. congruence. }
  unfold SLASH. rewrite split_on_nosep by (apply A; reflexivity). destruct s as [|b s]; [discriminate|].
  cbn [filter nonempty map all_some]. unfold uri_comp. rewrite find_byte_none by (apply A; reflexivity).
  unfold uri_value. rewrite (unescape_plain _ P).
  assert (all_dots (b :: s) = false) as ->.
  { destruct (all_dots (b :: s)) eqn:Q; [|reflexivity]. exfalso. apply existsb_exists in D as (x & Hx & Dx).
    unfold all_dots in Q. rewrite forallb_forall in Q. specialize (Q x Hx). apply byte_eqb_eq in Q. subst. discriminate. }
  replace (wf_nameb [gc (b :: s)]) with true; [reflexivity|]. unfold wf_nameb, wf_compb. cbn [forallb gc t_type t_val].
  apply N.ltb_lt in L. rewrite L. reflexivity.
Qed.

Lemma toy_hash_length : forall n b, length (toy_hash n b) = n.
Proof.
  intros n b. unfold toy_hash. destruct (sums 7 0 b) as [a c]. rewrite firstn_length, !app_length, repeat_length. lia.
Qed.
Theorem toy_laws : env_laws toy.
Proof.
  constructor; constructor; cbn [toy o_aes_enc o_aes_dec o_ecdh_pub o_ecdh o_hkdf o_hmac o_sha256 o_pub o_sign
    o_verify o_pubkey_ok o_cert_wire o_cert_unwire o_to_uri o_of_uri o_b64 o_unb64].
  - intros k iv ad pt ct tag H. unfold toy_aes_enc in H. injection H as <- <-. unfold toy_aes_dec.
    rewrite bytes_eqb_refl. reflexivity.
  - intros k iv ad pt ct tag H. unfold toy_aes_enc in H. injection H as <- <-. split; [reflexivity|].
    unfold toy_tag. apply toy_hash_length.
  - intros k iv ad ct tag pt H. unfold toy_aes_dec in H. destruct (bytes_eqb tag _) eqn:T; [|discriminate].
    injection H as <-. apply bytes_eqb_eq in T. unfold toy_aes_enc. congruence.
  - intros a b. unfold toy_ecdh, toy_ecdh_pub. rewrite !be_enc_length, Nat.eqb_refl, !be_dec_enc.
    change (256 ^ N.of_nat 8) with (256 ^ 8). f_equal. f_equal. lia.
  - intros a b. unfold toy_ecdh, toy_ecdh_pub. rewrite be_enc_length. reflexivity.
  - discriminate.
  - intros a. unfold toy_ecdh_pub, blen. cbn [length]. rewrite be_enc_length. reflexivity.
  - reflexivity.
  - intros. cbn [snd]. apply toy_hash_length.
  - intros. apply toy_hash_length.
  - intros. apply toy_hash_length.
  - intros sk m. unfold toy_verify, toy_pub. apply bytes_eqb_refl.
  - reflexivity.
  - discriminate.
  - exact toy_codec1.
  - intros b c H. apply (toy_codec2 b c H).
  - intros b c H. apply (toy_codec2 b c H).
  - exact from_to_hex.
  - intros [|x b] H; [contradiction|discriminate].
  - exact toy_uri1.
  - reflexivity.
  - exact toy_uri2.
  - exact toy_uri3.
  - exact toy_uri4.
Qed.
