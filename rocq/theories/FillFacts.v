(** The parameters of a possession challenge as the library fills them in, and the errors of the challenge. *)
From Verif Require Export PossessionFacts Requester.
Local Open Scope N_scope.

Lemma poss_loop_absent : forall E l cred proof, (forall w, ~ pair_in l (bs "issued-cert") w) ->
  exists proof', poss_loop E l cred proof = Some (cred, proof').
Proof.
  intros E. induction l as [|k l IH]; intros cred proof N; cbn [poss_loop]; [eexists; reflexivity|].
  destruct l as [|v l]; [eexists; reflexivity|].
  assert (N' : forall w, ~ pair_in (v :: l) (bs "issued-cert") w) by (intros w Q; exact (N w (pair_in_cons k _ _ _ Q))).
  destruct (N.eqb_spec (t_type k) T_ParameterKey) as [K|K]; cbn [andb]; [|apply IH, N'].
  destruct (N.eqb_spec (t_type v) T_ParameterValue) as [V|V]; [|apply IH, N'].
  destruct (bytes_eqb (t_val k) K_CRED) eqn:B1.
  - exfalso. apply bytes_eqb_eq in B1. apply (N (t_val v)). exists [], l. cbn [app]. rewrite <- K, <- V. change (bs "issued-cert") with K_CRED. rewrite <- B1. destruct k, v. reflexivity.
  - destruct (bytes_eqb (t_val k) K_PROOF); apply IH, N'.
Qed.

Lemma possession_no_credential : forall E cfg i params r h anchors, handle_challenge E cfg i (bs "possession") params r = Some h ->
  cc_anchors cfg = Ok anchors -> params <> [] -> rq_status r = ST_BEFORE -> (forall w, ~ pair_in params (bs "issued-cert") w) ->
  (exists info, h_out h = Ok (1, info)) /\ rq_status (h_req h) = ST_FAILURE.
Proof.
  intros E cfg i params r h anchors H A NE ST N. rewrite hc_possession in H. injection H as <-. unfold handle_possession. rewrite A.
  destruct params as [|p0 ps]; [contradiction|]. destruct (poss_loop_absent E (p0 :: ps) None [] N) as (pf & ->). rewrite ST.
  change (ST_BEFORE =? ST_BEFORE) with true. cbv iota. split; [eexists; reflexivity|reflexivity].
Qed.

Lemma possession_no_proof : forall E cfg i params r h cs anchors, handle_challenge E cfg i (bs "possession") params r = Some h ->
  cc_anchors cfg = Ok anchors -> params <> [] -> rq_status r <> ST_BEFORE -> rq_cs r = Some cs -> cs_status cs = bs "need-proof" ->
  (forall w, ~ pair_in params (bs "issued-cert") w) -> (forall v, ~ pair_in params (bs "proof") v) ->
  (exists info, h_out h = Ok (1, info)) /\ rq_status (h_req h) = ST_FAILURE.
Proof.
  intros E cfg i params r h cs anchors H A NE ST C SS N NP. rewrite hc_possession in H. injection H as <-. unfold handle_possession. rewrite A.
  destruct params as [|p0 ps]; [contradiction|]. destruct (poss_loop_absent E (p0 :: ps) None [] N) as (pf & PL). rewrite PL.
  destruct (poss_loop_spec _ _ _ _ _ _ PL) as [_ [->|PP]]; [|destruct (NP pf PP)].
  apply N.eqb_neq in ST. rewrite ST, C, SS. change (bytes_eqb (bs "need-proof") NEED_PROOF) with true. cbv iota.
  split; [eexists; reflexivity|reflexivity].
Qed.

Lemma pl_start : forall E ty w b c, block_from_value w = Some b -> data_decode E b = Some c ->
  poss_loop E [Tlv T_SelectedChallenge ty; Tlv T_ParameterKey (bs "issued-cert"); Tlv T_ParameterValue w] None [] = Some (Some c, []).
Proof.
  intros E ty w b c BV DD. cbn [poss_loop t_type t_val]. change (T_SelectedChallenge =? T_ParameterKey) with false. change (T_ParameterKey =? T_ParameterKey) with true. change (T_ParameterValue =? T_ParameterValue) with true.
  cbn [andb]. change (bytes_eqb (bs "issued-cert") K_CRED) with true. cbv iota. rewrite BV, DD. reflexivity.
Qed.

(** A credential no anchor vouches for. *)
Lemma possession_untrusted : forall E cfg i ty w b c r h anchors loc, 
  handle_challenge E cfg i (bs "possession") [Tlv T_SelectedChallenge ty; Tlv T_ParameterKey (bs "issued-cert"); Tlv T_ParameterValue w] r = Some h ->
  cc_anchors cfg = Ok anchors -> rq_status r = ST_BEFORE -> block_from_value w = Some b -> data_decode E b = Some c -> c_content c <> None -> c_keyloc c = Some loc ->
  o_pubkey_ok E (public_key c) = true -> ~ trusted E cfg c ->
  (exists info, h_out h = Ok (4, info)) /\ rq_status (h_req h) = ST_FAILURE.
Proof.
  intros E cfg i ty w b c r h anchors loc H A ST BV DD CC KL PK NT. rewrite hc_possession in H. injection H as <-. unfold handle_possession. rewrite A.
  rewrite (pl_start E ty w b c BV DD), ST. change (ST_BEFORE =? ST_BEFORE) with true. cbv iota. unfold has_content. destruct (c_content c) as [k|]; [|contradiction].
  rewrite KL, PK. cbn [negb]. destruct (existsb (anchor_ok E c loc) anchors) eqn:EX; [|split; [eexists; reflexivity|reflexivity]].
  exfalso. apply NT. apply existsb_exists in EX as (an & I & Q). unfold anchor_ok in Q. apply andb_true_iff in Q as [Q V]. exists anchors, an, loc.
  split; [exact A|]. split; [exact I|]. split; [exact KL|]. split; [|exact V]. apply orb_true_iff in Q as [Q|Q]; apply name_eqb_eq in Q; auto.
Qed.

Section Fill.
  Context {E : env}.
  Lemma cert_tlv_wf : forall c, fits (o_cert_wire E c) -> wf_tlv (cert_tlv E c).
  Proof. intros c F. split; [vm_compute; reflexivity|]. split; [vm_compute; discriminate|exact F]. Qed.
  Lemma filled_start : forall cfg i r c sk nonce, codec_laws E -> wf_cert c -> fits (o_cert_wire E c) -> c_content c <> None -> trusted E cfg c -> o_pubkey_ok E (public_key c) = true ->
    rq_status r = ST_BEFORE ->
    exists asked payload h cs, requested_params (bs "possession") ST_BEFORE [] = Some (Ok asked) /\ gen_challenge_tlv (bs "possession") ST_BEFORE [] (fulfill_parameters E asked c sk nonce) = Some (Ok payload) /\
      handle_challenge E cfg i (bs "possession") payload r = Some h /\ h_out h = Ok (NO_ERROR, []) /\ rq_status (h_req h) = ST_CHALLENGE /\ rq_cs (h_req h) = Some cs /\ proves E cs c (rnd_nonce i).
  Proof.
    intros cfg i r c sk nonce L W F CC TR PK ST. destruct (trusted_anchor _ _ _ TR) as (anchors & loc & AN & KL & EX).
    assert (DE : dec_elem (enc_tlv (cert_tlv E c)) = Some (cert_tlv E c, [])).
    { pose proof (stored_credential E c F) as Q. unfold block_from_value in Q. destruct (dec_elem (enc_tlv (cert_tlv E c))) as [[t rest]|]; [|discriminate]. destruct rest as [|z zs]; [|discriminate]. injection Q as ->. reflexivity. }
    exists [(K_CRED, prompt_cred)]. exists [Tlv T_SelectedChallenge CH_POSSESSION_TYPE; Tlv T_ParameterKey K_CRED; Tlv T_ParameterValue (enc_tlv (cert_tlv E c))].
    eexists. eexists. split; [reflexivity|]. split.
    { unfold gen_challenge_tlv. change (bytes_eqb (bs "possession") CH_PIN) with false. change (bytes_eqb (bs "possession") CH_EMAIL) with false. change (bytes_eqb (bs "possession") CH_POSSESSION) with true.
      change (ST_BEFORE =? ST_BEFORE) with true. cbv iota. unfold fulfill_parameters. cbn [map fst]. change (bytes_eqb K_CRED K_CRED) with true. cbv iota. rewrite DE. reflexivity. }
    split; [rewrite hc_possession; reflexivity|]. unfold handle_possession. rewrite AN.
    assert (DD : data_decode E (cert_tlv E c) = Some c) by exact (l_cert_codec E L c W).
    change K_CRED with (bs "issued-cert") at 1 3 5 7 9. rewrite !(pl_start E _ _ _ c (stored_credential E c F) DD), ST. change (ST_BEFORE =? ST_BEFORE) with true. cbv iota. unfold has_content.
    destruct (c_content c) as [k|]; [|contradiction]. rewrite KL, PK. cbn [negb]. rewrite EX. split; [reflexivity|]. split; [reflexivity|]. split; [reflexivity|]. split; reflexivity.
  Qed.
  Lemma filled_proof : forall cfg i r c sk nonce cs anchors, codec_laws E -> sig_laws E -> wf_cert c -> fits (o_cert_wire E c) -> cert_ok c = true -> cc_anchors cfg = Ok anchors ->
    rq_status r <> ST_BEFORE -> rq_cs r = Some cs -> proves E cs c nonce -> public_key c = o_pub E sk -> o_sign E sk (MRaw nonce) <> [] ->
    exists asked payload h, requested_params (bs "possession") ST_CHALLENGE (cs_status cs) = Some (Ok asked) /\ gen_challenge_tlv (bs "possession") ST_CHALLENGE (cs_status cs) (fulfill_parameters E asked c sk nonce) = Some (Ok payload) /\
      handle_challenge E cfg i (bs "possession") payload r = Some h /\ h_out h = Ok (NO_ERROR, []) /\ rq_status (h_req h) = ST_PENDING.
  Proof.
    intros cfg i r c sk nonce cs anchors L LS W F OK AN ST C [SS SEC] PU NE. rewrite SS.
    exists [(K_PROOF, prompt_proof)], [Tlv T_ParameterKey K_PROOF; Tlv T_ParameterValue (o_sign E sk (MRaw nonce))]. eexists.
    split; [reflexivity|]. split; [reflexivity|]. split; [rewrite hc_possession; reflexivity|]. unfold handle_possession. rewrite AN.
    assert (PL : poss_loop E [Tlv T_ParameterKey K_PROOF; Tlv T_ParameterValue (o_sign E sk (MRaw nonce))] None [] = Some (None, o_sign E sk (MRaw nonce))) by reflexivity.
    rewrite PL. apply N.eqb_neq in ST. rewrite ST, C, SS. change (bytes_eqb (bs "need-proof") NEED_PROOF) with true. cbv iota. cbn [has_content].
    remember (o_sign E sk (MRaw nonce)) as sg eqn:SG. destruct sg as [|q qs]; [contradiction|]. rewrite SEC. change K_CRED with (bs "issued-cert"). change K_NONCE with (bs "nonce").
    destruct (secrets_get E nonce c) as [G1 G2]. unfold possession_secrets in G1, G2. rewrite G1, G2, !from_to_hex, (stored_credential E c F).
    unfold cert_decode, data_decode. change (t_type (cert_tlv E c) =? T_Data) with true. cbv iota. change (t_val (cert_tlv E c)) with (o_cert_wire E c). rewrite (l_cert_codec E L c W), OK, PU, (l_pub_ok E LS). cbn [negb].
    rewrite SG, (l_sign_verify E LS). split; reflexivity.
  Qed.
  Lemma filled_keys : forall params c sk nonce, map fst (fulfill_parameters E params c sk nonce) = map fst params.
  Proof. intros params c sk nonce. unfold fulfill_parameters. rewrite map_map. apply map_ext. intros [k v]. cbn [fst]. destruct (bytes_eqb k K_CRED); [reflexivity|]. destruct (bytes_eqb k K_PROOF); reflexivity. Qed.
  Lemma filled_others : forall params c sk nonce k v, In (k, v) (fulfill_parameters E params c sk nonce) <->
    (k = bs "issued-cert" /\ v = enc_tlv (cert_tlv E c) /\ In k (map fst params)) \/ (k = bs "proof" /\ v = o_sign E sk (MRaw nonce) /\ In k (map fst params)) \/
    (k <> bs "issued-cert" /\ k <> bs "proof" /\ In (k, v) params).
  Proof.
    intros params c sk nonce k v. unfold fulfill_parameters. rewrite in_map_iff. change (bs "issued-cert") with K_CRED. change (bs "proof") with K_PROOF. split.
    - intros ([k0 v0] & Q & I). cbn [fst] in Q. destruct (bytes_eqb k0 K_CRED) eqn:B1.
      + apply bytes_eqb_eq in B1. injection Q as <- <-. left. split; [exact B1|]. split; [reflexivity|]. apply in_map_iff. exists (k0, v0). auto.
      + destruct (bytes_eqb k0 K_PROOF) eqn:B2.
        * apply bytes_eqb_eq in B2. injection Q as <- <-. right; left. split; [exact B2|]. split; [reflexivity|]. apply in_map_iff. exists (k0, v0). auto.
        * injection Q as <- <-. right; right. split; [intros Z; apply bytes_eqb_eq in Z; congruence|]. split; [intros Z; apply bytes_eqb_eq in Z; congruence|exact I].
    - intros [(-> & -> & I)|[(-> & -> & I)|(N1 & N2 & I)]].
      + apply in_map_iff in I as ([k0 v0] & Q & I). cbn [fst] in Q. exists (k0, v0). rewrite <- Q in *. cbn [fst]. rewrite Q. change (bytes_eqb K_CRED K_CRED) with true. split; [reflexivity|]. rewrite <- Q. exact I.
      + apply in_map_iff in I as ([k0 v0] & Q & I). cbn [fst] in Q. exists (k0, v0). cbn [fst]. rewrite Q. change (bytes_eqb K_PROOF K_CRED) with false. change (bytes_eqb K_PROOF K_PROOF) with true. split; [reflexivity|]. rewrite <- Q. exact I.
      + exists (k, v). cbn [fst]. destruct (bytes_eqb k K_CRED) eqn:B1; [apply bytes_eqb_eq in B1; contradiction|]. destruct (bytes_eqb k K_PROOF) eqn:B2; [apply bytes_eqb_eq in B2; contradiction|]. auto.
  Qed.
End Fill.
Lemma filled_all : forall E params c sk nonce, map fst (fulfill_parameters E params c sk nonce) = map fst params /\
  forall k v, In (k, v) (fulfill_parameters E params c sk nonce) <->
    (k = bs "issued-cert" /\ v = enc_tlv (cert_tlv E c) /\ In k (map fst params)) \/ (k = bs "proof" /\ v = o_sign E sk (MRaw nonce) /\ In k (map fst params)) \/
    (k <> bs "issued-cert" /\ k <> bs "proof" /\ In (k, v) params).
Proof. intros E params c sk nonce. split; [apply filled_keys|intros k v; apply filled_others]. Qed.
