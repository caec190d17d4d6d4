(** Decimal numbers in JSON text. *)
From Verif Require Export Json MultimapFacts NameFacts.
Local Open Scope N_scope.

Lemma digit_is_digit : forall n, n < 10 -> is_digit (digit n) = true /\ Byte.to_N (digit n) = 48 + n.
Proof.
  intros n H. unfold is_digit, digit. rewrite to_N_byte_of_N. rewrite N.mod_small by lia.
  split; [|reflexivity]. apply andb_true_intro. split; apply N.leb_le; lia.
Qed.

Lemma parse_digits_app : forall a b acc,
  parse_digits (a ++ b) acc = match parse_digits a acc with Some n => parse_digits b n | None => None end.
Proof.
  induction a as [|x a IH]; intros b acc; cbn [app parse_digits]; [reflexivity|].
  destruct (is_digit x); [apply IH|reflexivity].
Qed.

Lemma parse_dec_digits : forall f n, n < 10 ^ N.of_nat f -> (0 < f)%nat -> parse_digits (dec_digits f n) 0 = Some n.
Proof.
  induction f as [|f IH]; intros n H Hf; [lia|]. cbn [dec_digits].
  destruct (N.ltb_spec n 10) as [L|L].
  - cbn [parse_digits]. destruct (digit_is_digit n L) as [D1 D2]. rewrite D1, D2. f_equal. lia.
  - rewrite parse_digits_app. destruct f as [|f].
    + change (10 ^ N.of_nat 1) with 10 in H. lia.
    + rewrite IH; [|rewrite Nat2N.inj_succ, N.pow_succ_r' in H; lia|lia].
      cbn [parse_digits].
      assert (n mod 10 < 10) as M by (apply N.mod_lt; lia).
      destruct (digit_is_digit _ M) as [D1 D2]. rewrite D1, D2. f_equal. lia.
Qed.

Lemma dec_digits_nonempty : forall f n, dec_digits (S f) n <> [].
Proof.
  intros f n. cbn [dec_digits]. destruct (n <? 10); [discriminate|].
  intros H. apply app_eq_nil in H as [_ H]. discriminate.
Qed.

Lemma parse_dec_to_string : forall n, n < 10 ^ 20 -> parse_dec (to_string_N n) = Some n.
Proof.
  intros n H. unfold parse_dec, to_string_N.
  destruct (dec_digits 20 n) as [|x l] eqn:E; [apply dec_digits_nonempty in E; contradiction|].
  rewrite <- E. apply parse_dec_digits; [exact H|lia].
Qed.

Lemma to_string_digits : forall n, forallb is_digit (to_string_N n) = true.
Proof.
  intros n. unfold to_string_N. generalize 20%nat. intros f. revert n.
  induction f as [|f IH]; intros n; [reflexivity|]. cbn [dec_digits].
  destruct (N.ltb_spec n 10) as [L|L].
  - cbn [forallb]. rewrite (proj1 (digit_is_digit n L)). reflexivity.
  - rewrite forallb_app, IH. cbn [forallb].
    assert (n mod 10 < 10) as M by (apply N.mod_lt; lia).
    rewrite (proj1 (digit_is_digit _ M)). reflexivity.
Qed.

Lemma parse_dec_sign : forall s, forallb is_digit s = true -> s <> [] ->
  parse_int s = match parse_dec s with
                | Some n => if ((- 2 ^ 31 <=? Z.of_N n) && (Z.of_N n <? 2 ^ 31))%Z then Some (Z.of_N n) else None
                | None => None
                end.
Proof.
  intros [|x s] H Hs; [contradiction|]. unfold parse_int.
  cbn [forallb] in H. apply andb_prop in H as [H _].
  destruct x; try discriminate; destruct (parse_dec _); reflexivity.
Qed.

Lemma parse_int_to_string : forall z, (- 2 ^ 31 <= z < 2 ^ 31)%Z -> parse_int (to_string_Z z) = Some z.
Proof.
  intros z H. unfold to_string_Z. destruct (Z.ltb_spec z 0) as [L|L].
  - unfold parse_int. rewrite parse_dec_to_string by lia. cbn [option_map].
    destruct (Z.leb_spec (- 2 ^ 31) (- Z.of_N (Z.to_N (- z)))); [|lia].
    destruct (Z.ltb_spec (- Z.of_N (Z.to_N (- z))) (2 ^ 31)); [|lia]. cbn [andb]. f_equal. lia.
  - rewrite parse_dec_sign; [|apply to_string_digits|apply dec_digits_nonempty].
    rewrite parse_dec_to_string by lia. rewrite Z2N.id by lia.
    destruct (Z.leb_spec (- 2 ^ 31) z); [|lia]. destruct (Z.ltb_spec z (2 ^ 31)); [|lia]. reflexivity.
Qed.

Lemma parse_size_to_string : forall n, n < 2 ^ 64 -> parse_size (to_string_N n) = Some n.
Proof.
  intros n H. pose proof (to_string_digits n) as D. pose proof (parse_dec_to_string n) as P.
  destruct (to_string_N n) as [|x s] eqn:E; [apply dec_digits_nonempty in E; contradiction|].
  cbn [forallb] in D. apply andb_prop in D as [D _].
  assert (n < 10 ^ 20) as B by (change (2 ^ 64) with 18446744073709551616 in H; change (10 ^ 20) with 100000000000000000000; lia).
  specialize (P B). unfold parse_size.
  destruct x; try discriminate; rewrite P; destruct (N.ltb_spec n (2 ^ 64)); try lia; reflexivity.
Qed.
