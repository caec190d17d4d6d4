(** Witnesses and corollaries for the statements about encrypted payloads. *)
From Verif Require Export CryptoFacts Samples.
Local Open Scope N_scope.

Lemma sends_distinct : forall E l iv, aes_laws E -> (iv = [] \/ iv12 iv) ->
  Forall (fun s => length (sd_rnd s) = 8%nat /\ sd_payload s <> [] /\ small_payload (sd_payload s)) l ->
  NoDup (map wire_iv (emitted E l iv)) /\
  Forall (fun b => exists i, wire_iv b = Some i) (emitted E l iv).
Proof.
  intros E l iv LA H F. destruct (sends_spec E l iv LA H F) as (A & B & _). split; [exact B|].
  eapply Forall_impl; [|exact A]. intros b (i & W & _). exists i. exact W.
Qed.
(** Two empty payloads in a row. *)
Lemma empty_payload_repeats : exists s, sd_payload s = [] /\ length (sd_rnd s) = 8%nat /\
  exists b1 b2 iv, emitted toy [s; s] [] = [b1; b2] /\ wire_iv b1 = Some iv /\ wire_iv b2 = Some iv.
Proof.
  exists (Send (repeat x01 16) [] (bs "ad") (bs "random..")). split; [reflexivity|]. split; [reflexivity|].
  eexists. eexists. exists (bs "random.." ++ repeat x00 4). split; [vm_compute; reflexivity|]. meets.
Qed.
Lemma decode_authentic : forall E key block ad div eiv pt div', aes_laws E -> decode_aes E key block ad div eiv = (Ok pt, div') ->
  exists els iv tag ct, parse block = Some els /\ In (Tlv T_InitializationVector iv) els /\
    In (Tlv T_AuthenticationTag tag) els /\ In (Tlv T_EncryptedPayload ct) els /\ wire_iv block = Some iv /\
    o_aes_dec E key iv ad ct tag = Some pt /\ o_aes_enc E key iv ad pt = (ct, tag).
Proof.
  intros E key block ad div eiv pt div' LA H. apply decode_ok_inv in H as (iv & tag & ct & V & _ & D & _).
  destruct (dec_view_iv _ _ _ _ V) as (_ & _ & W).
  unfold dec_view in V. destruct (parse block) as [els|] eqn:P; [|discriminate].
  destruct (get T_EncryptedPayload els) as [p|] eqn:G1; [|discriminate].
  destruct (get T_InitializationVector els) as [i|] eqn:G2; [|discriminate].
  destruct (get T_AuthenticationTag els) as [t|] eqn:G3; [|discriminate].
  destruct (_ && _) in V; [|discriminate]. injection V as <- <- <-.
  exists els, (t_val i), (t_val t), (t_val p). split; [reflexivity|].
  assert (forall ty x, get ty els = Some x -> In (Tlv ty (t_val x)) els) as G.
  { intros ty x Hg. apply get_type in Hg as [<- Hin]. destruct x. exact Hin. }
  repeat split; auto. apply (l_aes_dec_inv _ LA). exact D.
Qed.
Lemma decode_fail_trace : forall E key block ad div eiv o div', decode_aes E key block ad div eiv = (o, div') -> fails o ->
  div' = div \/
  exists iv, wire_iv block = Some iv /\ div' = iv /\ iv12 iv /\
    (div = [] \/ rand_part iv = rand_part div /\ ctr_part div <= ctr_part iv) /\ (eiv = [] \/ rand_part iv <> rand_part eiv).
Proof.
  intros E key block ad div eiv o div' H F. destruct (decode_div _ _ _ _ _ _ _ _ H) as [->|(iv & W & I & [F1 F2] & R)]; [left; reflexivity|].
  right. exists iv. destruct R as [->|(pt & -> & _)]; [|exfalso; eapply F; reflexivity].
  split; [exact W|]. split; [reflexivity|]. split; [exact I|]. split.
  - destruct F2 as [->|(_ & C & P)]; [left; reflexivity|right]. split; [exact P|exact C].
  - destruct F1 as [->|(_ & P)]; [left; reflexivity|right; exact P].
Qed.
Lemma rejected_leaves_trace : exists key block ad div eiv iv,
  iv12 div /\ eiv = [] /\ decode_aes toy key block ad div eiv = (Exn, iv) /\ iv <> div /\
  exists good, fst (decode_aes toy key good ad div eiv) = Ok (bs "payload") /\ fst (decode_aes toy key good ad iv eiv) = Exn.
Proof.
  set (key := repeat x01 16). set (div := bs "abcdefgh" ++ [x00; x00; x00; x05]). set (iv := bs "abcdefgh" ++ [x7f; x00; x00; x05]).
  exists key, (enc_tlvs [Tlv T_InitializationVector iv; Tlv T_AuthenticationTag (repeat x00 16); Tlv T_EncryptedPayload (bs "zzz")]),
         (bs "id"), div, [], iv.
  split; [reflexivity|]. split; [reflexivity|]. split; [vm_compute; reflexivity|]. split; [vm_compute; discriminate|].
  exists (sealed toy key div (bs "id") (bs "payload")). meets.
Qed.
Lemma code_always_six : forall ws code, gen_code ws = Ok code -> exists k, k < 1000000 /\ code = six_digits k.
Proof. intros ws code H. apply gen_code_spec in H as (w & _ & _ & _ & k & K & C). exists k. auto. Qed.
(** The first accepted word of the stream decides. *)
Lemma code_first_word : forall ws code, gen_code ws = Ok code <->
  exists a w b, ws = a ++ w :: b /\ Forall (fun x => accepted_word x = false) a /\ accepted_word w = true /\ code = code_of_word w.
Proof.
  induction ws as [|x ws IH]; intros code.
  - split; [discriminate|]. intros (a & w & b & H & _). destruct a; discriminate.
  - assert (gen_code (x :: ws) = if accepted_word x then Ok (code_of_word x) else gen_code ws) as ->.
    { unfold gen_code. cbn [find]. destruct (accepted_word x); reflexivity. }
    destruct (accepted_word x) eqn:A.
    + split.
      * intros H. injection H as <-. exists [], x, ws. repeat split; auto.
      * intros (a & w & b & H & F & _ & ->). destruct a as [|y a]; cbn in H; injection H as -> ->; [reflexivity|].
        inversion F as [|? ? F1 F2]. congruence.
    + rewrite IH. split; intros (a & w & b & H & F & W & ->).
      * exists (x :: a), w, b. subst ws. repeat split; auto.
      * destruct a as [|y a]; cbn in H; injection H as H1 H2; [congruence|]. inversion F. subst. exists a, w, b. repeat split; auto.
Qed.
Lemma code_uniform : forall k, k < 1000000 -> forall w, w < 2 ^ 32 ->
  (accepted_word w = true /\ code_of_word w = six_digits k <-> exists j, j < 4294 /\ w = 4294 * k + j).
Proof.
  intros k K w W. rewrite code_words by assumption. split.
  - intros H. exists (w - 4294 * k). lia.
  - intros (j & J & ->). lia.
Qed.

(** ** Return codes *)
Definition bad_hkdf : env :=
  Env toy_aes_enc toy_aes_dec toy_ecdh_pub toy_ecdh (fun _ _ _ => ((-1)%Z, repeat x00 16))
      (fun k d => toy_hash 32 (delim k ++ d)) (toy_hash 32) toy_pub toy_sign toy_verify toy_pubkey_ok toy_cert_wire
      toy_cert_unwire toy_to_uri toy_of_uri to_hex from_hex.
Lemma negative_codes_accepted :
  (exists E sk peer, (fst (o_ecdh E sk peer) < 0)%Z /\ derive_secret E sk peer = Ok (repeat x00 32)) /\
  (exists E s salt info, (fst (o_hkdf E s salt info) < 0)%Z /\ hkdf E s salt info = Ok (repeat x00 16)).
Proof.
  split.
  - exists toy, (bs "k"), (xff :: bs "bad point"). meets.
  - exists bad_hkdf, (bs "s"), [], []. meets.
Qed.
Lemma zero_codes_rejected : forall E,
  (forall sk peer, derive_secret E sk peer = if (fst (o_ecdh E sk peer) =? 0)%Z then Exn else Ok (snd (o_ecdh E sk peer))) /\
  (forall s salt info, hkdf E s salt info = if (fst (o_hkdf E s salt info) =? 0)%Z then Exn else Ok (snd (o_hkdf E s salt info))).
Proof. intros E. split; intros; [unfold derive_secret; destruct (o_ecdh E sk peer)|unfold hkdf; destruct (o_hkdf E s salt info)]; reflexivity. Qed.
Lemma zero_codes_rejected' : forall E,
  (forall sk peer, fst (o_ecdh E sk peer) = 0%Z -> derive_secret E sk peer = Exn) /\
  (forall s salt info, fst (o_hkdf E s salt info) = 0%Z -> hkdf E s salt info = Exn) /\
  (forall sk peer k, fst (o_ecdh E sk peer) = 1%Z -> (derive_secret E sk peer = Ok k <-> snd (o_ecdh E sk peer) = k)) /\
  (forall s salt info k, fst (o_hkdf E s salt info) = 1%Z -> (hkdf E s salt info = Ok k <-> snd (o_hkdf E s salt info) = k)).
Proof.
  intros E. destruct (zero_codes_rejected E) as [A B].
  repeat split; intros; rewrite ?A, ?B in *; rewrite ?H in *; cbn in *; congruence.
Qed.
