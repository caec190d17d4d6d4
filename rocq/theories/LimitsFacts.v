(** Proofs about limits: packet sizes, lost replies, abandoned requests. *)
From Verif Require Export Spec_Limits SessionFacts OutcomeFacts TlvFacts.
From Coq Require Import Lia.
Local Open Scope N_scope.

(** ** A CHALLENGE Interest whose error reply is too large *)
Definition long_name (g : ca_cfg) (k : nat) : name :=
  p_prefix (cfp g) ++ [gc (bs "CA"); gc (bs "CHALLENGE"); Tlv T_Generic (repeat x00 8)] ++ [gc (repeat x61 k)].
Lemma var_mid : forall n, 253 <= n -> n <= 65535 -> blen (enc_var n) = 3.
Proof. intros n A B. unfold enc_var. destruct (N.ltb_spec n 253); [lia|]. destruct (N.leb_spec n 65535); [|lia]. reflexivity. Qed.
Lemma enc_mid : forall ty v, ty < 253 -> 253 <= blen v -> blen v <= 65535 -> blen (enc_tlv (Tlv ty v)) = 4 + blen v.
Proof.
  intros ty v T A B. unfold enc_tlv. cbn [t_type t_val]. rewrite !blen_app, (var_mid (blen v)) by assumption.
  unfold enc_var at 1. destruct (N.ltb_spec ty 253); [|lia]. change (blen [byte_of_N ty]) with 1. lia.
Qed.
Lemma long_name_size : forall g k, blen (enc_tlvs (p_prefix (cfp g))) + N.of_nat k <= 60000 -> 253 <= N.of_nat k ->
  blen (name_wire (long_name g k)) = 33 + blen (enc_tlvs (p_prefix (cfp g))) + N.of_nat k.
Proof.
  intros g k A B. assert (R : blen (repeat x61 k) = N.of_nat k) by (unfold blen; rewrite repeat_length; reflexivity).
  assert (Q : blen (enc_tlvs (long_name g k)) = 29 + blen (enc_tlvs (p_prefix (cfp g))) + N.of_nat k).
  { unfold long_name. rewrite !enc_tlvs_app, !blen_app. cbn [enc_tlvs]. rewrite !blen_app. change (gc (repeat x61 k)) with (Tlv T_Generic (repeat x61 k)). rewrite (enc_mid T_Generic (repeat x61 k)) by (rewrite ?R; unfold T_Generic; lia).
    change (blen (enc_tlv (gc (bs "CA")))) with 4. change (blen (enc_tlv (gc (bs "CHALLENGE")))) with 11. change (blen (enc_tlv (Tlv T_Generic (repeat x00 8)))) with 10.
    change (blen []) with 0. rewrite R. lia. }
  unfold name_wire, name_tlv. rewrite enc_mid by (rewrite ?Q; unfold T_Name; lia). rewrite Q. lia.
Qed.
Lemma oversized_on : forall E g S (ops : store_ops S) s i, blen (enc_tlvs (p_prefix (cfp g))) <= 8000 ->
  exists x d, interest_size x <= packet_limit /\ i_sig x = None /\ on_interest E g ops s i x = ([EPut d], Ok tt) /\ packet_limit < data_size_above d.
Proof.
  intros E g S ops s i PS. set (P := blen (enc_tlvs (p_prefix (cfp g)))) in *. set (k := N.to_nat (8750 - P)).
  assert (K : N.of_nat k = 8750 - P) by apply N2Nat.id.
  pose proof (long_name_size g k ltac:(lia) ltac:(lia)) as SZ. fold P in SZ.
  set (x := Interest (long_name g k) None None).
  assert (N : names_request g (repeat x00 8) x) by (exists T_Generic, [gc (repeat x61 k)]; split; reflexivity).
  pose proof (names_addressed g x _ N) as AD.
  assert (FW : exists code info, on_interest E g ops s i x = ([EPut (error_data E g (i_name x) code info)], Ok tt) /\ 30 <= blen info).
  { rewrite (on_interest_at E g S ops _ s i x AD). cbn [handle]. unfold on_challenge. rewrite (proj2 (challenge_id_names g x _ AD) N).
    destruct (s_get ops (ca_store s) (repeat x00 8)) as [r|].
    - assert (V : verify_interest E x (rq_cert r) = false) by reflexivity. rewrite V. cbn [negb]. unfold put_error. eexists _, _. split; [reflexivity|vm_compute; discriminate].
    - unfold put_error. eexists _, _. split; [reflexivity|vm_compute; discriminate]. }
  destruct FW as (code & info & FW & L). exists x, (error_data E g (i_name x) code info). split; [|split; [reflexivity|split]].
  - unfold interest_size, packet_limit. cbn [i_params x i_name]. rewrite SZ. lia.
  - exact FW.
  - unfold data_size_above, packet_limit. change (d_name (error_data E g (i_name x) code info)) with (long_name g k). rewrite SZ.
    change (d_content (error_data E g (i_name x) code info)) with (err_encode code info).
    assert (L2 : 30 <= blen (enc_tlv (Tlv T_Content (err_encode code info)))).
    { assert (UP : forall t, blen (t_val t) <= blen (enc_tlv t)) by (intros t; unfold enc_tlv; rewrite !blen_app; lia).
      pose proof (UP (Tlv T_Content (err_encode code info))) as U1. pose proof (UP (Tlv T_ErrorInfo info)) as U2. cbn [t_val] in *.
      assert (U3 : blen (enc_tlv (Tlv T_ErrorInfo info)) <= blen (err_encode code info)) by (unfold err_encode; cbn [enc_tlvs]; rewrite !blen_app; lia). lia. }
    lia.
Qed.
Lemma oversized : forall E g S (ops : store_ops S) s i, ca_at E g ops s -> blen (enc_tlvs (p_prefix (cfp g))) <= 8000 ->
  exists x d, interest_size x <= packet_limit /\ i_sig x = None /\ step E g ops s (EvInterest i x) = Some (s, [EPut d]) /\ packet_limit < data_size_above d.
Proof.
  intros E g S ops s i _ PS. destruct (oversized_on E g S ops s i PS) as (x & d & A & B & FW & C). exists x, d. split; [exact A|]. split; [exact B|]. split; [|exact C].
  rewrite (ok_step E g S ops s i x _ FW). reflexivity.
Qed.

(** ** Abandoned requests *)
Lemma abandoned : forall E g S (ops : store_ops S) s s' id r, ca_at E g ops s -> pending ops s id = Some r -> quiet E g ops id (public_key (rq_cert r)) s s' -> pending ops s' id = Some r.
Proof.
  intros E g S ops s s' id r A P (tr & ST & F). induction ST as [s|s ev es s1 tr s2 ST ST' IH]; [exact P|]. inversion F as [|st tr' [F1 F2] F3]; subst.
  apply IH; [exact (ca_at_step _ _ _ _ _ _ _ _ A ST)|exact (quiet_step E g S ops (HStep s ev es s1) id r A ST P F1 F2)|exact F3].
Qed.
Lemma late_forward : forall E cfg i params r cs ty life t, rq_status r = ST_CHALLENGE -> rq_cs r = Some cs -> code_life ty life -> wants_code cs -> get T_ParameterValue params = Some t ->
  (sec life <= in_t1 i - cs_time cs)%Z -> handle_challenge E cfg i ty params r = Some (ret_error r OUT_OF_TIME (bs "Secret expired.") None).
Proof.
  intros E cfg i params r cs ty life t ST C CL WC GP LT.
  assert (W : bytes_eqb (cs_status cs) NEED_CODE || bytes_eqb (cs_status cs) WRONG_CODE = true) by (destruct WC as [->| ->]; reflexivity).
  apply Z.leb_le in LT. destruct CL; unfold handle_challenge.
  - change (bytes_eqb (bs "pin") CH_PIN) with true. cbv iota. unfold handle_pin. rewrite ST. change (ST_CHALLENGE =? ST_BEFORE) with false. cbv iota.
    unfold check_code. rewrite C, W, GP. change pin_life with 3600%Z. rewrite LT. reflexivity.
  - change (bytes_eqb (bs "email") CH_PIN) with false. change (bytes_eqb (bs "email") CH_EMAIL) with true. cbv iota. unfold handle_email. rewrite ST. change (ST_CHALLENGE =? ST_BEFORE) with false. cbv iota.
    unfold check_code. rewrite C, W, GP. change email_life with 300%Z. rewrite LT. reflexivity.
Qed.
Lemma late_code : forall E g S (ops : store_ops S) s i x id r cs params ty life t, ca_at E g ops s -> names_request g id x -> pending ops s id = Some r -> rq_cs r = Some cs ->
  signed_by E x (public_key (rq_cert r)) -> acceptable E r x params -> selects params ty -> code_life ty life -> wants_code cs -> get T_ParameterValue params = Some t ->
  (sec life <= in_t1 i - cs_time cs)%Z ->
  exists s' d, step E g ops s (EvInterest i x) = Some (s', [EDelete id; EPut d]) /\ error_reply E g x OUT_OF_TIME d /\ pending ops s' id = None.
Proof.
  intros E g S ops s i x id r cs params ty life t A N P C SB AC SE CL WC GP LT. destruct (pending_live E g S ops s id r A P) as [ID LV]. pose proof (live_cs_none r cs LV C) as STA.
  destruct (acceptable_opened E r x params ty LV AC SE) as (dv & OP). pose proof (chal_forward E g S ops s i x id r params ty dv A N P SB OP) as FW.
  rewrite (late_forward E (cf_chal g) i params (set_div dv r) cs ty life t STA C CL WC GP LT) in FW. cbn [ret_error h_out h_email email_effs] in FW.
  change (negb (OUT_OF_TIME =? NO_ERROR)) with true in FW. cbv iota in FW. unfold drop_error in FW. cbn [app] in FW. rewrite ID in FW.
  pose proof (ok_step E g S ops s i x _ FW) as ST. eexists _, _. split; [exact ST|]. split.
  - apply error_data_reply. split; [discriminate|]. split; [discriminate|vm_compute; reflexivity].
  - eapply (deleted_gone E g S ops _ _ _ _ id A ST). left. reflexivity.
Qed.

(** ** Lost replies *)
Lemma pin_again : forall E g S (ops : store_ops S) s i x id r cs params, ca_at E g ops s -> names_request g id x -> pending ops s id = Some r -> rq_cs r = Some cs -> wants_code cs ->
  signed_by E x (public_key (rq_cert r)) -> acceptable E r x params -> starts_over params (bs "pin") -> on_interest E g ops s i x = ([], Exn).
Proof.
  intros E g S ops s i x id r cs params A N P C WC SB AC [SE NV]. destruct (pending_live E g S ops s id r A P) as [ID LV]. pose proof (live_cs_none r cs LV C) as STA.
  destruct (acceptable_opened E r x params _ LV AC SE) as (dv & OP). rewrite (chal_forward E g S ops s i x id r params _ dv A N P SB OP).
  unfold handle_challenge. change (bytes_eqb (bs "pin") CH_PIN) with true. cbv iota. unfold handle_pin. cbn [set_div rq_status]. rewrite STA. change (ST_CHALLENGE =? ST_BEFORE) with false. cbv iota.
  unfold check_code. cbn [set_div rq_cs]. rewrite C. assert (W : bytes_eqb (cs_status cs) NEED_CODE || bytes_eqb (cs_status cs) WRONG_CODE = true) by (destruct WC as [->| ->]; reflexivity).
  rewrite W, (NV eq_refl). reflexivity.
Qed.
Lemma unknown_request : forall E g S (ops : store_ops S) s i x id, names_request g id x -> pending ops s id = None ->
  exists d, step E g ops s (EvInterest i x) = Some (s, [EPut d]) /\ error_reply E g x INVALID_PARAMETER d.
Proof.
  intros E g S ops s i x id N P. pose proof (names_addressed g x _ N) as AD.
  assert (FW : on_interest E g ops s i x = ([EPut (error_data E g (i_name x) INVALID_PARAMETER (bs "No certificate request state can be found."))], Ok tt)).
  { rewrite (on_interest_at E g S ops _ s i x AD). cbn [handle]. unfold on_challenge. rewrite (proj2 (challenge_id_names g x _ AD) N).
    change (s_get ops (ca_store s) id) with (pending ops s id). rewrite P. reflexivity. }
  eexists. split; [rewrite (ok_step E g S ops s i x _ FW); reflexivity|]. apply error_data_reply. split; [discriminate|]. split; [discriminate|vm_compute; reflexivity].
Qed.
Lemma last_lost : forall E g S (ops : store_ops S) s i x id r cs params ty code, aes_laws E -> ca_at E g ops s -> names_request g id x -> pending ops s id = Some r -> rq_cs r = Some cs -> rq_type r = RT_NEW ->
  signed_by E x (public_key (rq_cert r)) -> acceptable E r x params -> selects params ty -> guesses i params cs ty code -> sec_get (bs "code") (cs_secrets cs) = Some code ->
  blen (name_wire (c_name (rq_cert r))) < 2 ^ 31 -> blen (name_wire (p_fwd (cfp g))) < 2 ^ 32 ->
  exists s' es c, step E g ops s (EvInterest i x) = Some (s', es) /\ In (EIssue c) es /\
    forall i' x', names_request g id x' -> exists d, step E g ops s' (EvInterest i' x') = Some (s', [EPut d]) /\ error_reply E g x' INVALID_PARAMETER d.
Proof.
  intros E g S ops s i x id r cs params ty code LA A N P C RT SB AC SE GU SC B1 B2.
  destruct (@right_code E g S ops s i x id r cs params ty code LA A N P C RT SB AC SE GU SC B1 B2) as (s' & es & c & d & l & t & ST & IN & _ & P' & _).
  exists s', es, c. split; [exact ST|]. split; [exact IN|]. intros i' x' N'. exact (unknown_request E g S ops s' i' x' id N' P').
Qed.
Lemma email_again : forall E g S (ops : store_ops S) s i x id r cs params t code, ca_at E g ops s -> names_request g id x -> pending ops s id = Some r -> rq_cs r = Some cs -> wants_code cs ->
  signed_by E x (public_key (rq_cert r)) -> acceptable E r x params -> starts_over params (bs "email") -> get T_ParameterValue params = Some t -> (in_t1 i - cs_time cs < sec 300)%Z ->
  sec_get (bs "code") (cs_secrets cs) = Some code -> t_val t <> code -> exists s' es, step E g ops s (EvInterest i x) = Some (s', es) /\
    (1 < cs_tries cs /\ (exists r' cs', pending ops s' id = Some r' /\ rq_cs r' = Some cs' /\ cs_tries cs' = cs_tries cs - 1) \/ cs_tries cs = 1 /\ pending ops s' id = None).
Proof.
  intros E g S ops s i x id r cs params t code A N P C WC SB AC [SE _] GP LT SC NE.
  destruct (@wrong_code E g S ops s i x id r cs params (bs "email") (t_val t) code A N P C SB AC SE) as (s' & es & ST & _ & Z); [|exact SC|exact NE|].
  - exists 300%Z, t. split; [constructor|]. auto.
  - exists s', es. split; [exact ST|]. destruct Z as [(T & r' & cs' & P' & C' & T' & _)|(T & P' & _)]; [left; split; [exact T|]; exists r', cs'; auto|right; auto].
Qed.

(** ** The CA's own certificate *)
Lemma chains : forall E g S (ops : store_ops S) tr st s c, sig_laws E -> public_key (cf_cert g) = o_pub E (cf_sk g) -> ca_history E g ops (tr ++ [st]) s -> In (EIssue c) (h_effs st) ->
  cert_signed_by E c (public_key (cf_cert g)) /\ c_keyloc c = Some (cf_keyloc g) /\
  exists new i x, In new tr /\ handles new i x /\ addressed g VNew (i_name x) /\ within (in_t1 i) (c_validity (cf_cert g)).
Proof.
  intros E g S ops tr st s c LS PK H IN. destruct (issued_says E g S ops tr st s c H IN) as (id & key & c0 & a1 & new & a2 & i & x & nb & na & -> & AC & _ & _ & CE & _).
  destruct CE as (kn & is0 & v0 & v & _ & _ & CT & _ & KY & KL & SG). split; [|split; [exact KL|]].
  - rewrite PK. unfold cert_signed_by. rewrite SG. apply (l_sign_verify E LS).
  - destruct AC as (i1 & x1 & peer & HD & AD & ADM & _). exists new, i1, x1. split; [apply in_or_app; right; left; reflexivity|]. split; [exact HD|]. split; [exact AD|exact (ad_ca _ _ _ _ _ _ _ _ ADM)].
Qed.
