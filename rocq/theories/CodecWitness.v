(** Witnesses for the refuted statements about the wire formats. *)
From Verif Require Export EncoderFacts RequestFacts ChallengeCodecFacts Samples.
Local Open Scope N_scope.

Lemma info_encode_total : forall E p c, p_info p <> [] \/ c_keyloc c <> None -> exists content, info_encode E p c = Ok content.
Proof.
  intros E p c H. unfold info_encode. destruct (p_info p) as [|x l]; cbn [bind]; [|eexists; reflexivity].
  destruct (c_keyloc c) as [k|]; cbn [of_opt bind]; [eexists; reflexivity|]. destruct H as [H|H]; congruence.
Qed.
Lemma reply_overflow : exists b, fst (reply_decode (repeat x00 32) (repeat x00 8) b) = UB.
Proof. exists (enc_tlvs [Tlv T_EcdhPub (bs "key"); Tlv T_Salt (repeat x41 33)]). vm_compute. reflexivity. Qed.
Lemma noncritical_between :
  (exists a t b m, Forall wf_tlv (a ++ t :: b) /\ ~ critical (t_type t) /\
     probe_params_decode (enc_tlvs (a ++ b)) = Ok m /\ probe_params_decode (enc_tlvs (a ++ t :: b)) = Exn) /\
  (exists s content content' a t b d d', Forall wf_tlv (a ++ t :: b) /\ ~ critical (t_type t) /\
     decode_aes toy (rs_key s) content (rs_id s) (rs_div s) (rs_eiv s) = (Ok (enc_tlvs (a ++ t :: b)), d) /\
     decode_aes toy (rs_key s) content' (rs_id s) (rs_div s) (rs_eiv s) = (Ok (enc_tlvs (a ++ b)), d') /\
     fst (chal_decode toy x_now content' s) = Ok tt /\ fst (chal_decode toy x_now content s) = Exn).
Proof.
  assert (~ critical 1000) as N.
  { intros H. apply is_critical_iff in H. vm_compute in H. discriminate. }
  split.
  - exists [Tlv T_ParameterKey (bs "email")], (Tlv 1000 []), [Tlv T_ParameterValue (bs "a")], [(bs "email", bs "a")].
    split; [cbn [app]; meets|]. split; [exact N|]. meets.
  - set (a := [Tlv T_Status (nni_enc 1); Tlv T_ParameterKey (bs "nonce")]).
    set (b := [Tlv T_ParameterValue (repeat x41 16)]).
    exists x_sel, (sealed toy (rs_key x_sel) (bs "abcdefgh0001") (rs_id x_sel) (enc_tlvs (a ++ Tlv 1000 [] :: b))),
           (sealed toy (rs_key x_sel) (bs "abcdefgh0001") (rs_id x_sel) (enc_tlvs (a ++ b))), a, (Tlv 1000 []), b,
           (snd (decode_aes toy (rs_key x_sel) (sealed toy (rs_key x_sel) (bs "abcdefgh0001") (rs_id x_sel) (enc_tlvs (a ++ Tlv 1000 [] :: b))) (rs_id x_sel) [] [])),
           (snd (decode_aes toy (rs_key x_sel) (sealed toy (rs_key x_sel) (bs "abcdefgh0001") (rs_id x_sel) (enc_tlvs (a ++ b))) (rs_id x_sel) [] [])).
    split; [subst a b; cbn [app]; meets|]. split; [exact N|]. meets.
Qed.
