From Verif Require Export Tlv BytesFacts.
Local Open Scope N_scope.

Lemma enc_var_nonempty : forall n, enc_var n <> [].
Proof. intros n. unfold enc_var. destruct (n <? 253), (n <=? 65535), (n <=? 4294967295); discriminate. Qed.

Lemma take_be_enc : forall k n rest, n < 256 ^ N.of_nat k ->
  take_be k (be_enc k n ++ rest) = Some (n, rest).
Proof.
  intros k n rest H. unfold take_be.
  rewrite app_length, be_enc_length.
  destruct (Nat.leb_spec k (k + length rest)); [|lia].
  assert (firstn k (be_enc k n ++ rest) = be_enc k n) as E1.
  { transitivity (firstn (length (be_enc k n)) (be_enc k n ++ rest)).
    - rewrite be_enc_length. reflexivity.
    - apply firstn_app_exact. }
  assert (skipn k (be_enc k n ++ rest) = rest) as E2.
  { transitivity (skipn (length (be_enc k n)) (be_enc k n ++ rest)).
    - rewrite be_enc_length. reflexivity.
    - apply skipn_app_exact. }
  rewrite E1, E2, be_dec_enc_small by exact H. reflexivity.
Qed.

Lemma dec_enc_var : forall n rest, n < 2 ^ 64 -> dec_var (enc_var n ++ rest) = Some (n, rest).
Proof.
  intros n rest H. unfold enc_var.
  destruct (N.ltb_spec n 253).
  { cbn [app dec_var]. rewrite to_N_byte_of_N, N.mod_small by lia.
    destruct (N.ltb_spec n 253); [reflexivity|lia]. }
  destruct (N.leb_spec n 65535).
  { cbn [app dec_var]. rewrite to_N_byte_of_N. change (253 mod 256) with 253.
    change (253 <? 253) with false. change (253 =? 253) with true. cbv iota.
    apply take_be_enc. change (256 ^ N.of_nat 2) with 65536. lia. }
  destruct (N.leb_spec n 4294967295).
  { cbn [app dec_var]. rewrite to_N_byte_of_N. change (254 mod 256) with 254.
    change (254 <? 253) with false. change (254 =? 253) with false. change (254 =? 254) with true. cbv iota.
    apply take_be_enc. change (256 ^ N.of_nat 4) with 4294967296. lia. }
  cbn [app dec_var]. rewrite to_N_byte_of_N. change (255 mod 256) with 255.
  change (255 <? 253) with false. change (255 =? 253) with false. change (255 =? 254) with false. cbv iota.
  apply take_be_enc. exact H.
Qed.

Lemma dec_enc_elem : forall t rest, wf_tlv t -> dec_elem (enc_tlv t ++ rest) = Some (t, rest).
Proof.
  intros [ty v] rest (H1 & H2 & H3). unfold max_type in *. cbn [t_type t_val] in *.
  unfold dec_elem, enc_tlv. cbn [t_type t_val]. rewrite <- !app_assoc.
  rewrite dec_enc_var by lia.
  unfold max_type.
  destruct (N.eqb_spec ty 0); [lia|]. destruct (N.ltb_spec 4294967295 ty); [lia|]. cbn [orb].
  rewrite dec_enc_var by exact H3.
  unfold blen. rewrite app_length.
  destruct (N.ltb_spec (N.of_nat (length v + length rest)) (N.of_nat (length v))); [lia|].
  rewrite Nat2N.id, firstn_app_exact, skipn_app_exact. reflexivity.
Qed.

Lemma take_be_len : forall k b n r, take_be k b = Some (n, r) -> (length r <= length b)%nat.
Proof.
  intros k b n r H. unfold take_be in H. destruct (Nat.leb k (length b)); [|discriminate].
  injection H as H1 H2. subst. rewrite skipn_length. lia.
Qed.

Lemma dec_var_len : forall b n r, dec_var b = Some (n, r) -> (length r < length b)%nat.
Proof.
  intros [|x b] n r H; [discriminate|]. cbn [dec_var] in H.
  destruct (Byte.to_N x <? 253).
  { injection H as H1 H2. subst. simpl. lia. }
  destruct (Byte.to_N x =? 253); [apply take_be_len in H; simpl; lia|].
  destruct (Byte.to_N x =? 254); apply take_be_len in H; simpl; lia.
Qed.

Lemma dec_elem_len : forall b t r, dec_elem b = Some (t, r) -> (length r < length b)%nat.
Proof.
  intros b t r H. unfold dec_elem in H.
  destruct (dec_var b) as [[ty b1]|] eqn:E1; [|discriminate].
  destruct ((ty =? 0) || (max_type <? ty)); [discriminate|].
  destruct (dec_var b1) as [[len b2]|] eqn:E2; [|discriminate].
  destruct (blen b2 <? len); [discriminate|]. injection H as H1 H2. subst.
  apply dec_var_len in E1. apply dec_var_len in E2. rewrite skipn_length. lia.
Qed.

Lemma parse_fuel_enough : forall f1 f2 b, (length b <= f1)%nat -> (length b <= f2)%nat ->
  parse_fuel f1 b = parse_fuel f2 b.
Proof.
  induction f1 as [|f1 IH]; intros f2 b H1 H2.
  { destruct b; [|simpl in H1; lia]. destruct f2; reflexivity. }
  destruct b as [|x b]; [destruct f2; reflexivity|].
  destruct f2 as [|f2]; [simpl in H2; lia|].
  cbn [parse_fuel]. destruct (dec_elem (x :: b)) as [[t r]|] eqn:E; [|reflexivity].
  apply dec_elem_len in E. simpl in *. rewrite (IH f2 r) by lia. reflexivity.
Qed.

(** [parse] unfolds like the loop of [Block::parse]; the fuel is never exhausted. *)
Lemma parse_step : forall b, b <> [] ->
  parse b = match dec_elem b with
            | None => None
            | Some (t, rest) => match parse rest with None => None | Some l => Some (t :: l) end
            end.
Proof.
  intros [|x b] H; [congruence|]. unfold parse at 1. cbn [length parse_fuel].
  destruct (dec_elem (x :: b)) as [[t r]|] eqn:E; [|reflexivity].
  apply dec_elem_len in E. simpl in E. unfold parse.
  rewrite (parse_fuel_enough (length b) (length r) r) by lia. reflexivity.
Qed.

Lemma parse_nil : parse [] = Some [].
Proof. reflexivity. Qed.

Lemma enc_tlv_nonempty : forall t, enc_tlv t <> [].
Proof. intros t H. unfold enc_tlv in H. apply app_eq_nil in H as [H _]. apply enc_var_nonempty in H. exact H. Qed.

Lemma parse_cons : forall t rest, wf_tlv t ->
  parse (enc_tlv t ++ rest) = match parse rest with None => None | Some l => Some (t :: l) end.
Proof.
  intros t rest H. rewrite parse_step.
  - rewrite dec_enc_elem by exact H. reflexivity.
  - intros E. apply app_eq_nil in E as [E _]. apply enc_tlv_nonempty in E. exact E.
Qed.

Theorem parse_enc : forall l, Forall wf_tlv l -> parse (enc_tlvs l) = Some l.
Proof.
  induction l as [|t l IH]; intros H; [reflexivity|].
  inversion H; subst. cbn [enc_tlvs]. rewrite parse_cons by assumption. rewrite IH by assumption. reflexivity.
Qed.

Lemma enc_tlvs_app : forall a b, enc_tlvs (a ++ b) = enc_tlvs a ++ enc_tlvs b.
Proof. induction a as [|t a IH]; intros b; cbn [app enc_tlvs]; [reflexivity|]. rewrite IH, app_assoc. reflexivity. Qed.

Lemma block_from_value_enc : forall t, wf_tlv t -> block_from_value (enc_tlv t) = Some t.
Proof.
  intros t H. unfold block_from_value. rewrite <- (app_nil_r (enc_tlv t)).
  rewrite dec_enc_elem by exact H. reflexivity.
Qed.

Lemma nni_dec_enc : forall n, n < 2 ^ 64 -> nni_dec (nni_enc n) = Some n.
Proof.
  intros n H. unfold nni_enc.
  destruct (N.leb_spec n 255).
  { unfold nni_dec. rewrite be_enc_length. f_equal. apply be_dec_enc_small. change (256 ^ N.of_nat 1) with 256. lia. }
  destruct (N.leb_spec n 65535).
  { unfold nni_dec. rewrite be_enc_length. f_equal. apply be_dec_enc_small. change (256 ^ N.of_nat 2) with 65536. lia. }
  destruct (N.leb_spec n 4294967295).
  { unfold nni_dec. rewrite be_enc_length. f_equal. apply be_dec_enc_small. change (256 ^ N.of_nat 4) with 4294967296. lia. }
  unfold nni_dec. rewrite be_enc_length. f_equal. apply be_dec_enc_small. exact H.
Qed.

Lemma nni_enc_len : forall n, blen (nni_enc n) <= 8.
Proof.
  intros n. unfold blen, nni_enc.
  destruct (n <=? 255), (n <=? 65535), (n <=? 4294967295); rewrite be_enc_length; lia.
Qed.


Lemma dec_elem_wf_type : forall b t r, dec_elem b = Some (t, r) -> 0 < t_type t /\ t_type t <= max_type.
Proof.
  intros b t r H. unfold dec_elem in H.
  destruct (dec_var b) as [[ty b1]|] eqn:E1; [|discriminate].
  destruct (N.eqb_spec ty 0); [discriminate|]. destruct (N.ltb_spec max_type ty); [discriminate|].
  cbn [orb] in H.
  destruct (dec_var b1) as [[len b2]|] eqn:E2; [|discriminate].
  destruct (blen b2 <? len); [discriminate|]. injection H as <- <-. cbn [t_type]. lia.
Qed.
