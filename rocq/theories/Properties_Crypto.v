(** Properties of the encrypted payloads and of the secret codes: C09 to C14 and C60. *)
From Verif Require Export CryptoWitness.
Local Open Scope N_scope.

(** ** C09: encrypted payload round trip *)
(** In a conversation of any length (Spec_Crypto.v: each peer sends when it likes, each direction is
    delivered in order) every received block gives the payload that was sent; a peer that has received
    everything has the IV the sender will use next (or, if nothing but empty payloads was sent, none yet). *)
Theorem C09_conversation : forall E key rA rB l, aes_laws E -> length rA = 8%nat -> length rB = 8%nat -> rA <> rB ->
  Forall payload_fits l ->
  let s := converse E key rA rB l in
  Forall (fun x => snd x = Ok (fst x)) (cv_log s) /\
  (cv_toB s = [] -> cv_dB s = cv_eA s \/ cv_dB s = [] /\ (cv_eA s = [] \/ ctr_part (cv_eA s) = 0)) /\
  (cv_toA s = [] -> cv_dA s = cv_eB s \/ cv_dA s = [] /\ (cv_eB s = [] \/ ctr_part (cv_eB s) = 0)).
Proof. exact conversation. Qed.
Print Assumptions C09_conversation.
(** As long as the total number of 16-byte blocks of each peer fits in 32 bits no send fails: every payload
    sent is delivered or still queued. *)
Theorem C09_nothing_lost : forall E key rA rB l, length rA = 8%nat -> length rB = 8%nat ->
  Forall (fun e => match e with CSend _ p _ => small_payload p | CRecv _ => True end) l ->
  total16 (sent_by true l) < 2 ^ 32 - 1 -> total16 (sent_by false l) < 2 ^ 32 - 1 ->
  let s := converse E key rA rB l in
  (length (cv_log s) + length (cv_toA s) + length (cv_toB s) = length (sent_by true l) + length (sent_by false l))%nat.
Proof. exact (fun E key rA rB l H1 H2 H3 H4 H5 => proj2 (proj2 (converse_count E key rA rB l H1 H2 H3 H4 H5))). Qed.
Print Assumptions C09_nothing_lost.
Definition C09_script : list cevent :=
  [CSend true (bs "first") (bs "id"); CSend false (bs "crossing") (bs "id"); CRecv true; CSend true (bs "second") (bs "id");
   CRecv false; CRecv false; CSend false (repeat x41 40) (bs "other"); CRecv true].
Example C09_case :
  aes_laws toy /\ length (bs "randomAA") = 8%nat /\ length (bs "randomBB") = 8%nat /\ bs "randomAA" <> bs "randomBB" /\
  total16 (sent_by true C09_script) < 2 ^ 32 - 1 /\ total16 (sent_by false C09_script) < 2 ^ 32 - 1 /\
  cv_log (converse toy (repeat x01 16) (bs "randomAA") (bs "randomBB") C09_script) =
    [(bs "crossing", Ok (bs "crossing")); (bs "first", Ok (bs "first")); (bs "second", Ok (bs "second"));
     (repeat x41 40, Ok (repeat x41 40))].
Proof. meets. Qed.
Example C09_payloads : Forall payload_fits C09_script.
Proof. repeat (constructor; [cbn [payload_fits]; try exact I; meets|]). constructor. Qed.

(** ** C10: an initialization vector is never used twice by one sender *)
Theorem C10_ivs_distinct : forall E l iv, aes_laws E -> (iv = [] \/ iv12 iv) ->
  Forall (fun s => length (sd_rnd s) = 8%nat /\ sd_payload s <> [] /\ small_payload (sd_payload s)) l ->
  NoDup (map wire_iv (emitted E l iv)) /\ Forall (fun b => exists i, wire_iv b = Some i) (emitted E l iv).
Proof. exact sends_distinct. Qed.
Print Assumptions C10_ivs_distinct.
Example C10_case :
  let s p := Send (repeat x01 16) p (bs "ad") (bs "random..") in
  Forall (fun s => length (sd_rnd s) = 8%nat /\ sd_payload s <> [] /\ small_payload (sd_payload s))
         [s (bs "a"); s (bs "a"); s (repeat x41 33)] /\
  map wire_iv (emitted toy [s (bs "a"); s (bs "a"); s (repeat x41 33); s (bs "b")] []) =
    map (fun c => Some (bs "random.." ++ [x00; x00; x00; c])) [x00; x01; x02; x05].
Proof. unfold small_payload. meets. Qed.
(** The counter advances by the number of blocks, and encryption throws instead of letting it wrap. *)
Theorem C10_counter_never_wraps : forall E key p ad iv rnd, iv12 iv -> small_payload p ->
  (ctr_part iv + blocks16 p < 2 ^ 32 - 1 ->
     exists b iv', encode_aes E key p ad iv rnd = (Ok b, iv') /\ iv12 iv' /\ rand_part iv' = rand_part iv /\
                   ctr_part iv' = ctr_part iv + blocks16 p) /\
  (2 ^ 32 - 1 <= ctr_part iv + blocks16 p -> encode_aes E key p ad iv rnd = (Exn, iv)).
Proof. exact encode_counter. Qed.
Print Assumptions C10_counter_never_wraps.
Example C10_counter_case :
  let iv := bs "random.." ++ [xff; xff; xff; xfd] in
  iv12 iv /\ small_payload (bs "x") /\ ctr_part iv + blocks16 (bs "x") < 2 ^ 32 - 1 /\
  2 ^ 32 - 1 <= ctr_part iv + blocks16 (repeat x41 17).
Proof. unfold iv12, small_payload. meets. Qed.
(** Without the hypothesis that payloads are non-empty the statement is false. *)
Theorem C10_empty_payload_refuted : exists s, sd_payload s = [] /\ length (sd_rnd s) = 8%nat /\
  exists b1 b2 iv, emitted toy [s; s] [] = [b1; b2] /\ wire_iv b1 = Some iv /\ wire_iv b2 = Some iv.
Proof. exact empty_payload_repeats. Qed.
Print Assumptions C10_empty_payload_refuted.

(** ** C11: replayed and reordered blocks are rejected *)
(** Any blocks, in any order; [after] (Spec_Crypto.v) orders any two accepted ones. *)
Theorem C11_accepted_in_order : forall E l iv, (iv = [] \/ iv12 iv) ->
  Forall (fun x => exists i, wire_iv (fst x) = Some i /\ iv12 i /\
            (iv = [] \/ rand_part i = rand_part iv /\ ctr_part iv <= ctr_part i)) (accepted E l iv) /\
  StronglySorted after (accepted E l iv).
Proof. exact accepted_spec. Qed.
Print Assumptions C11_accepted_in_order.
Theorem C11_accepted_once : forall l, StronglySorted after l ->
  Forall (fun x => snd x <> [] /\ small_payload (snd x)) l -> NoDup (map fst l).
Proof. exact sorted_nodup. Qed.
Print Assumptions C11_accepted_once.
Example C11_case :
  let k := repeat x01 16 in
  let b n p := sealed toy k (bs "random.." ++ [x00; x00; x00; n]) (bs "id") p in
  let r x := Recv k x (bs "id") [] in
  accepted toy [r (b x00 (bs "a")); r (b x00 (bs "a")); r (b x05 (bs "b")); r (b x01 (bs "late")); r (b x06 (bs "c"))] [] =
    [(b x00 (bs "a"), bs "a"); (b x05 (bs "b"), bs "b"); (b x06 (bs "c"), bs "c")].
Proof. meets. Qed.

(** ** C12: reflected blocks are rejected *)
Theorem C12_own_prefix_rejected : forall E key block ad div eiv iv, eiv <> [] -> wire_iv block = Some iv ->
  rand_part iv = rand_part eiv -> fails (fst (decode_aes E key block ad div eiv)).
Proof. exact reflect_rejected. Qed.
Print Assumptions C12_own_prefix_rejected.
Theorem C12_own_block_rejected : forall E l key ad div b, aes_laws E ->
  Forall (fun s => length (sd_rnd s) = 8%nat /\ fits (sd_payload s)) l ->
  In b (emitted E l []) -> fails (fst (decode_aes E key b ad div (snd (sends E l [])))).
Proof. exact own_block_rejected. Qed.
Print Assumptions C12_own_block_rejected.
Example C12_case :
  let s := Send (repeat x01 16) (bs "hello") (bs "id") (bs "random..") in
  Forall (fun s => length (sd_rnd s) = 8%nat /\ fits (sd_payload s)) [s; s] /\ length (emitted toy [s; s] []) = 2%nat.
Proof. meets. Qed.

(** ** C13: an accepted block is authentic; a rejected one leaves no trace (false) *)
Theorem C13_authentic : forall E key block ad div eiv pt div', aes_laws E -> decode_aes E key block ad div eiv = (Ok pt, div') ->
  exists els iv tag ct, parse block = Some els /\ In (Tlv T_InitializationVector iv) els /\
    In (Tlv T_AuthenticationTag tag) els /\ In (Tlv T_EncryptedPayload ct) els /\ wire_iv block = Some iv /\
    o_aes_dec E key iv ad ct tag = Some pt /\ o_aes_enc E key iv ad pt = (ct, tag).
Proof. exact decode_authentic. Qed.
Print Assumptions C13_authentic.
Example C13_case : fst (decode_aes toy (bs "k") (sealed toy (bs "k") (bs "random..0001") (bs "id") (bs "p")) (bs "id") [] []) = Ok (bs "p").
Proof. meets. Qed.
(** A forged block is rejected but moves the decryption IV, so that a genuine block is then rejected. *)
Theorem C13_no_trace_refuted : exists key block ad div eiv iv,
  iv12 div /\ eiv = [] /\ decode_aes toy key block ad div eiv = (Exn, iv) /\ iv <> div /\
  exists good, fst (decode_aes toy key good ad div eiv) = Ok (bs "payload") /\ fst (decode_aes toy key good ad iv eiv) = Exn.
Proof. exact rejected_leaves_trace. Qed.
Print Assumptions C13_no_trace_refuted.
(** What a rejected block can do: nothing, or set the IV to the one it carries, with the same random part
    and a counter that is not smaller, and not the random part of the receiver. *)
Theorem C13_trace_partial : forall E key block ad div eiv o div', decode_aes E key block ad div eiv = (o, div') -> fails o ->
  div' = div \/
  exists iv, wire_iv block = Some iv /\ div' = iv /\ iv12 iv /\
    (div = [] \/ rand_part iv = rand_part div /\ ctr_part div <= ctr_part iv) /\ (eiv = [] \/ rand_part iv <> rand_part eiv).
Proof. exact decode_fail_trace. Qed.
Print Assumptions C13_trace_partial.

(** ** C14: secret codes are six digits and uniformly distributed *)
Theorem C14_code_is_six_digits : forall words code, gen_code words = Ok code -> exists k, k < 1000000 /\ code = six_digits k.
Proof. exact code_always_six. Qed.
Print Assumptions C14_code_is_six_digits.
(** The code is that of the first accepted random word ... *)
Theorem C14_first_word : forall ws code, gen_code ws = Ok code <->
  exists a w b, ws = a ++ w :: b /\ Forall (fun x => accepted_word x = false) a /\ accepted_word w = true /\ code = code_of_word w.
Proof. exact code_first_word. Qed.
Print Assumptions C14_first_word.
(** ... and each code comes from exactly 4294 accepted words. *)
Theorem C14_uniform : forall k, k < 1000000 -> forall w, w < 2 ^ 32 ->
  (accepted_word w = true /\ code_of_word w = six_digits k <-> exists j, j < 4294 /\ w = 4294 * k + j).
Proof. exact code_uniform. Qed.
Print Assumptions C14_uniform.
Theorem C14_codes_differ : forall a b, a < 1000000 -> b < 1000000 -> six_digits a = six_digits b -> a = b.
Proof. exact six_digits_inj. Qed.
Print Assumptions C14_codes_differ.
Example C14_case : gen_code [4294000001; 4294967295; 12345678] = Ok (bs "002875") /\ six_digits 2875 = bs "002875" /\
  gen_code [4293999999] = Ok (bs "999999") /\ gen_code [0] = Ok (bs "000000").
Proof. meets. Qed.

(** ** C60: key agreement failures are detected -- false *)
Theorem C60_negative_codes_refuted :
  (exists E sk peer, (fst (o_ecdh E sk peer) < 0)%Z /\ derive_secret E sk peer = Ok (repeat x00 32)) /\
  (exists E s salt info, (fst (o_hkdf E s salt info) < 0)%Z /\ hkdf E s salt info = Ok (repeat x00 16)).
Proof. exact negative_codes_accepted. Qed.
Print Assumptions C60_negative_codes_refuted.
Theorem C60_zero_codes_partial : forall E,
  (forall sk peer, fst (o_ecdh E sk peer) = 0%Z -> derive_secret E sk peer = Exn) /\
  (forall s salt info, fst (o_hkdf E s salt info) = 0%Z -> hkdf E s salt info = Exn) /\
  (forall sk peer k, fst (o_ecdh E sk peer) = 1%Z -> (derive_secret E sk peer = Ok k <-> snd (o_ecdh E sk peer) = k)) /\
  (forall s salt info k, fst (o_hkdf E s salt info) = 1%Z -> (hkdf E s salt info = Ok k <-> snd (o_hkdf E s salt info) = k)).
Proof. exact zero_codes_rejected'. Qed.
Print Assumptions C60_zero_codes_partial.
Example C60_case : fst (o_ecdh toy (bs "k") (bs "junk")) = 0%Z /\ fst (o_ecdh toy (bs "k") (o_ecdh_pub toy (bs "j"))) = 1%Z.
Proof. meets. Qed.
