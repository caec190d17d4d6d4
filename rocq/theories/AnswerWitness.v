(** Replies a requester acts on, and replies that make it leave the language. *)
From Verif Require Export AnswerFacts RequesterWitness.
Local Open Scope N_scope.

(** A profile without certificate, a NEW reply with a request ID of nine bytes, a CHALLENGE reply with 2^62 seconds left. *)
Definition j_none : data := Eval vm_compute in y_signed (enc_tlvs [Tlv T_CaInfo (bs "no certificate")]).
Definition j_long : data := Eval vm_compute in y_signed (enc_tlvs [Tlv T_EcdhPub (bs "p"); Tlv T_RequestId (repeat x41 9)]).
Definition j_ages : data := Eval vm_compute in
  y_signed (match fst (encode_aes toy (rs_key (snd x_chal1)) (enc_tlvs [Tlv T_Status (nni_enc 1); Tlv T_RemainingTime (nni_enc (2 ^ 62))]) (rs_id (snd x_chal1)) [] (bs "serverIV")) with Ok b => b | _ => [] end).
Lemma j_sound : rs_div (snd x_chal1) = [] \/ iv12 (rs_div (snd x_chal1)).
Proof. left. vm_compute. reflexivity. Qed.
Lemma j_sound' : rs_eiv (snd x_chal1) = [] \/ iv12 (rs_eiv (snd x_chal1)).
Proof. right. vm_compute. reflexivity. Qed.
Lemma j_faults : on_profile toy j_none = UB /\ fst (on_new_response toy x_req1 (x_rin x_now 2) j_long) = UB /\
  (rs_div (snd x_chal1) = [] \/ iv12 (rs_div (snd x_chal1))) /\ (rs_eiv (snd x_chal1) = [] \/ iv12 (rs_eiv (snd x_chal1))) /\
  fst (on_challenge_response toy (snd x_chal1) (x_rin x_now 4) j_ages) = UB.
Proof. split; [vm_compute; reflexivity|]. split; [vm_compute; reflexivity|]. split; [exact j_sound|]. split; [exact j_sound'|]. vm_compute. reflexivity. Qed.
Lemma j_good : (exists p, on_profile toy y_profile = Ok p /\ on_profile_redirected toy y_profile (full_name toy x_ca_cert) = Ok p) /\
  (exists chals s', on_new_response toy x_req1 (x_rin x_now 2) (the_put (snd x_ca1)) = (Ok chals, s')) /\
  exists s', on_challenge_response toy (snd x_chal1) (x_rin x_now 4) (the_put (snd x_ca2)) = (Ok tt, s').
Proof. split; [exact y_profile_ok|exact y_good]. Qed.
Definition j_probe : data := Eval vm_compute in y_signed (probe_encode [x_id] (Some 2) []).
Lemma j_probed : on_probe_response toy j_probe (rs_profile x_req1) = Ok ([(x_id, 2%Z)], []).
Proof. vm_compute. reflexivity. Qed.
