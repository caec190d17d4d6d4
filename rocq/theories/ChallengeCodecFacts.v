(** Facts about CHALLENGE replies. *)
From Verif Require Export CryptoFacts Spec_Reply.
Local Open Scope N_scope.

Lemma enc_var_len : forall n, blen (enc_var n) <= 9.
Proof.
  intros n. unfold enc_var, blen.
  repeat (destruct (_ <? _)); repeat (destruct (_ <=? _)); cbn [length]; rewrite ?be_enc_length; cbn; lia.
Qed.
Lemma enc_tlv_len : forall t, blen (enc_tlv t) <= 18 + blen (t_val t).
Proof.
  intros t. unfold enc_tlv. pose proof (enc_var_len (t_type t)). pose proof (enc_var_len (blen (t_val t))).
  unfold blen in *. rewrite !app_length. lia.
Qed.
Lemma blen_app : forall a b, blen (a ++ b) = blen a + blen b.
Proof. intros. unfold blen. rewrite app_length. lia. Qed.

(** The requester's state after reading the elements the CA writes. *)
Definition chal_result (now : Z) (r : request) (issued fwd : name) (nonce : bytes) (s : rstate) : rstate :=
  let s1 := upd_status (rq_status r) s in
  let s2 := match rq_cs r with
            | None => s1
            | Some c =>
                let s' := upd_fresh (now + sec (cs_rtime c))%Z (upd_tries (Z.of_N (cs_tries c)) (upd_cstatus (cs_status c) s1)) in
                if bytes_eqb (cs_status c) (bs "need-proof") then upd_nonce nonce s' else s'
            end in
  match issued with
  | [] => s2
  | _ :: _ => upd_fwd fwd (upd_issued issued s2)
  end.

Lemma to_i32_small : forall n, n < 2 ^ 31 -> to_i32 n = Z.of_N n.
Proof. intros n H. unfold to_i32. rewrite Z.mod_small by lia. destruct (Z.ltb_spec (Z.of_N n) (2 ^ 31)); lia. Qed.

Lemma time_plus_ok : forall now z, (0 <= z)%Z -> (0 <= now)%Z -> (now + sec z < 2 ^ 63)%Z ->
  time_plus_secs now (to_u64 z) = Ok (now + sec z)%Z.
Proof.
  intros now z H1 H2 H3. unfold time_plus_secs. unfold sec in *. rewrite to_i64_u64 by lia.
  destruct (Z.leb_spec (- 2 ^ 63) (z * 1000000000)); [|lia].
  destruct (Z.ltb_spec (z * 1000000000) (2 ^ 63)); [|lia].
  destruct (Z.leb_spec (- 2 ^ 63) (now + z * 1000000000)); [|lia].
  destruct (Z.ltb_spec (now + z * 1000000000) (2 ^ 63)); [|lia]. reflexivity.
Qed.

Lemma chal_plain_fits : forall now r issued fwd nonce l, (forall c, rq_cs r = Some c -> cs_ok now nonce c) ->
  blen (name_wire issued) < 2 ^ 32 -> blen (name_wire fwd) < 2 ^ 32 -> chal_plain r issued fwd = Ok l ->
  Forall wf_tlv l /\ fits (enc_tlvs l).
Proof.
  intros now r issued fwd nonce l C F1 F2 H. unfold chal_plain in H.
  assert (forall ty v k, 0 < ty -> ty <= max_type -> blen v <= k -> k < 2 ^ 33 -> wf_tlv (Tlv ty v) /\ blen (enc_tlv (Tlv ty v)) <= 18 + k) as W.
  { intros ty v k H1 H2 H3 H4. split; [apply wf_tlv_intro; auto; unfold fits; lia|]. pose proof (enc_tlv_len (Tlv ty v)) as X. cbn [t_val] in X. lia. }
  destruct (W T_Status (nni_enc (rq_status r)) 8) as [S1 S2]; [reflexivity|discriminate|apply nni_enc_len|reflexivity|].
  assert (Forall wf_tlv (match issued with [] => [] | _ :: _ => [Tlv T_IssuedCertName (name_wire issued); Tlv T_ForwardingHint (name_wire fwd)] end)
          /\ blen (enc_tlvs (match issued with [] => [] | _ :: _ => [Tlv T_IssuedCertName (name_wire issued); Tlv T_ForwardingHint (name_wire fwd)] end)) <= 2 ^ 34) as [I1 I2].
  { destruct (W T_IssuedCertName (name_wire issued) (2 ^ 32)) as [A1 A2]; [reflexivity|discriminate|lia|reflexivity|].
    destruct (W T_ForwardingHint (name_wire fwd) (2 ^ 32)) as [B1 B2]; [reflexivity|discriminate|lia|reflexivity|].
    destruct issued; [split; [constructor|vm_compute; discriminate]|]. split; [constructor; [exact A1|constructor; [exact B1|constructor]]|].
    cbn [enc_tlvs]. rewrite !blen_app. change (blen []) with 0. lia. }
  destruct (rq_cs r) as [c|] eqn:RC.
  - destruct (C c eq_refl) as (C1 & C2 & C3 & C4 & C5 & C6).
    destruct (W T_ChallengeStatus (cs_status c) (2 ^ 32)) as [A1 A2]; [reflexivity|discriminate|lia|reflexivity|].
    destruct (W T_RemainingTries (nni_enc (cs_tries c)) 8) as [B1 B2]; [reflexivity|discriminate|apply nni_enc_len|reflexivity|].
    destruct (W T_RemainingTime (nni_enc (to_u64 (cs_rtime c))) 8) as [D1 D2]; [reflexivity|discriminate|apply nni_enc_len|reflexivity|].
    destruct (W T_ParameterKey (bs "nonce") 8) as [K1 K2]; [reflexivity|discriminate|vm_compute; discriminate|reflexivity|].
    destruct (bytes_eqb (cs_status c) (bs "need-proof")) eqn:NP.
    + apply bytes_eqb_eq in NP. destruct (C6 NP) as [C7 C8]. rewrite C7, from_to_hex in H. cbn [of_opt bind app] in H.
      destruct (W T_ParameterValue nonce 16) as [V1 V2]; [reflexivity|discriminate|unfold blen; rewrite C8; discriminate|reflexivity|].
      assert (l = Tlv T_Status (nni_enc (rq_status r)) :: Tlv T_ChallengeStatus (cs_status c) :: Tlv T_RemainingTries (nni_enc (cs_tries c)) :: Tlv T_RemainingTime (nni_enc (to_u64 (cs_rtime c))) :: Tlv T_ParameterKey (bs "nonce") :: Tlv T_ParameterValue nonce :: match issued with [] => [] | _ :: _ => [Tlv T_IssuedCertName (name_wire issued); Tlv T_ForwardingHint (name_wire fwd)] end) as -> by congruence.
      split; [repeat (constructor; [assumption|]); exact I1|]. unfold fits. cbn [enc_tlvs]. rewrite !blen_app. lia.
    + cbn [of_opt bind app] in H.
      assert (l = Tlv T_Status (nni_enc (rq_status r)) :: Tlv T_ChallengeStatus (cs_status c) :: Tlv T_RemainingTries (nni_enc (cs_tries c)) :: Tlv T_RemainingTime (nni_enc (to_u64 (cs_rtime c))) :: match issued with [] => [] | _ :: _ => [Tlv T_IssuedCertName (name_wire issued); Tlv T_ForwardingHint (name_wire fwd)] end) as -> by congruence.
      split; [repeat (constructor; [assumption|]); exact I1|]. unfold fits. cbn [enc_tlvs]. rewrite !blen_app. lia.
  - cbn [of_opt bind app] in H.
    assert (l = Tlv T_Status (nni_enc (rq_status r)) :: match issued with [] => [] | _ :: _ => [Tlv T_IssuedCertName (name_wire issued); Tlv T_ForwardingHint (name_wire fwd)] end) as -> by congruence.
    split; [repeat (constructor; [assumption|]); exact I1|]. unfold fits. cbn [enc_tlvs]. rewrite !blen_app. lia.
Qed.

Ltac one_step := cbn [chal_loop t_type t_val]; ncmp; reflexivity.
Lemma cl_status : forall now all v l ns s, chal_loop now all (Tlv T_Status v :: l) false ns s =
  match get T_Status all with
  | Some f => match status_from f with Some v => chal_loop now all l false (S ns) (upd_status v s) | None => (Exn, s) end
  | None => (Exn, s)
  end.
Proof. intros. one_step. Qed.
Lemma cl_cstatus : forall now all v l ns s, chal_loop now all (Tlv T_ChallengeStatus v :: l) false ns s = chal_loop now all l false ns (upd_cstatus v s).
Proof. intros. one_step. Qed.
Lemma cl_tries : forall now all n l ns s, n < 2 ^ 64 ->
  chal_loop now all (Tlv T_RemainingTries (nni_enc n) :: l) false ns s = chal_loop now all l false ns (upd_tries (to_i32 n) s).
Proof. intros. cbn [chal_loop t_type t_val]. ncmp. rewrite nni_dec_enc by assumption. reflexivity. Qed.
Lemma cl_time : forall now all n tm l ns s, n < 2 ^ 64 -> time_plus_secs now n = Ok tm ->
  chal_loop now all (Tlv T_RemainingTime (nni_enc n) :: l) false ns s = chal_loop now all l false ns (upd_fresh tm s).
Proof. intros now all n tm l ns s H T. cbn [chal_loop t_type t_val]. ncmp. rewrite nni_dec_enc by assumption. rewrite T. reflexivity. Qed.
Lemma cl_nonce : forall now all v l ns s, length v = 16%nat ->
  chal_loop now all (Tlv T_ParameterKey (bs "nonce") :: Tlv T_ParameterValue v :: l) false ns s = chal_loop now all l false ns (upd_nonce v s).
Proof.
  intros now all v l ns s H. cbn [chal_loop t_type t_val]. ncmp. rewrite bytes_eqb_refl. unfold blen. rewrite H. reflexivity.
Qed.
Lemma cl_issued : forall now all n l ns s, name_fits n ->
  chal_loop now all (Tlv T_IssuedCertName (name_wire n) :: l) false ns s = chal_loop now all l false ns (upd_issued n s).
Proof.
  intros now all n l ns s H. cbn [chal_loop t_type t_val]. ncmp. unfold name_wire.
  rewrite (block_from_value_enc (name_tlv n)) by (apply name_tlv_wf; exact H). rewrite name_decode_tlv by apply H. reflexivity.
Qed.
Lemma cl_fwd : forall now all n l ns s, name_fits n ->
  chal_loop now all (Tlv T_ForwardingHint (name_wire n) :: l) false ns s = chal_loop now all l false ns (upd_fwd n s).
Proof.
  intros now all n l ns s H. cbn [chal_loop t_type t_val]. ncmp. unfold name_wire.
  rewrite (block_from_value_enc (name_tlv n)) by (apply name_tlv_wf; exact H). rewrite name_decode_tlv by apply H. reflexivity.
Qed.

Lemma chal_tail : forall now all issued fwd ns s, name_fits issued -> name_fits fwd ->
  chal_loop now all (match issued with [] => [] | _ :: _ => [Tlv T_IssuedCertName (name_wire issued); Tlv T_ForwardingHint (name_wire fwd)] end) false ns s
  = (Ok ns, match issued with [] => s | _ :: _ => upd_fwd fwd (upd_issued issued s) end).
Proof.
  intros now all issued fwd ns s F1 F2. destruct issued as [|c n]; [reflexivity|].
  rewrite cl_issued, cl_fwd by assumption. reflexivity.
Qed.

Lemma chal_loop_plain : forall now r issued fwd nonce l s, (forall c, rq_cs r = Some c -> cs_ok now nonce c) ->
  rq_status r <= 6 -> name_fits issued -> name_fits fwd -> chal_plain r issued fwd = Ok l ->
  chal_loop now l l false O s = (Ok 1%nat, chal_result now r issued fwd nonce s).
Proof.
  intros now r issued fwd nonce l s C ST F1 F2 H.
  assert (forall rest, get T_Status (Tlv T_Status (nni_enc (rq_status r)) :: rest) = Some (Tlv T_Status (nni_enc (rq_status r)))) as G by reflexivity.
  assert (status_from (Tlv T_Status (nni_enc (rq_status r))) = Some (rq_status r)) as S1.
  { unfold status_from. cbn [t_val]. rewrite nni_dec_enc by lia. destruct (N.ltb_spec 6 (rq_status r)); [lia|reflexivity]. }
  assert (exists rest, l = Tlv T_Status (nni_enc (rq_status r)) :: rest) as [rest ->].
  { unfold chal_plain in H. destruct (match rq_cs r with None => _ | Some c => _ end) as [x| | |]; try discriminate. cbn [bind] in H.
    eexists. injection H as <-. reflexivity. }
  rewrite cl_status, G, S1. revert H. generalize (Tlv T_Status (nni_enc (rq_status r)) :: rest) at 2. intros all H.
  unfold chal_plain in H. unfold chal_result.
  destruct (rq_cs r) as [c|] eqn:RC.
  - destruct (C c eq_refl) as (C1 & C2 & C3 & C4 & C5 & C6).
    destruct (bytes_eqb (cs_status c) (bs "need-proof")) eqn:NP.
    + apply bytes_eqb_eq in NP. destruct (C6 NP) as [C7 C8]. rewrite C7, from_to_hex in H. cbn [of_opt bind app] in H.
      injection H as <-. rewrite cl_cstatus, cl_tries by lia. rewrite (cl_time _ _ _ (now + sec (cs_rtime c))%Z) by (apply to_u64_bound || (apply time_plus_ok; assumption)).
      rewrite cl_nonce by exact C8.
      rewrite to_i32_small by exact C2. rewrite chal_tail by assumption. reflexivity.
    + cbn [of_opt bind app] in H.
      injection H as <-. rewrite cl_cstatus, cl_tries by lia. rewrite (cl_time _ _ _ (now + sec (cs_rtime c))%Z) by (apply to_u64_bound || (apply time_plus_ok; assumption)).
      rewrite to_i32_small by exact C2. rewrite chal_tail by assumption. reflexivity.
  - cbn [of_opt bind app] in H. injection H as <-.
    rewrite chal_tail by assumption. reflexivity.
Qed.

(** The requester can read the next block of the CA. *)
Lemma chal_roundtrip : forall E now r issued fwd rnd8 nonce content r' s, aes_laws E ->
  (forall c, rq_cs r = Some c -> cs_ok now nonce c) -> rq_status r <= 6 ->
  name_fits issued -> name_fits fwd -> blen (name_wire issued) < 2 ^ 32 -> blen (name_wire fwd) < 2 ^ 32 ->
  in_sync r rnd8 s -> chal_encode E r issued fwd rnd8 = (Ok content, r') ->
  chal_decode E now content s = (Ok tt, chal_result now r issued fwd nonce (upd_div (rq_eiv r') s)).
Proof.
  intros E now r issued fwd rnd8 nonce content r' s L C ST F1 F2 F3 F4 (Y1 & Y2 & Y3 & Y4 & Y5) H.
  unfold chal_encode in H. destruct (chal_plain r issued fwd) as [l| | |] eqn:P; try discriminate.
  destruct (chal_plain_fits now r issued fwd nonce l C F3 F4 P) as [W1 W2].
  assert (rq_eiv r = [] \/ iv12 (rq_eiv r)) as Hi by (destruct Y4 as [[A _]|[A _]]; auto).
  pose proof (iv12_initial (rq_eiv r) rnd8 Hi Y3) as I1.
  destruct (encode_aes_spec E (rq_key r) (enc_tlvs l) (rq_id r) (rq_eiv r) rnd8 Hi Y3) as [(iv2 & U & X)|[U X]]; rewrite X in H; [|discriminate].
  injection H as <- <-. cbn [rq_eiv set_eiv].
  destruct (sealed_view E (rq_key r) _ (rq_id r) (enc_tlvs l) L I1 W2) as (ct & tag & X1 & X2 & X3).
  unfold chal_decode. rewrite Y1, Y2.
  rewrite (decode_accepts E (rq_key r) _ (rq_id r) (rs_div s) (rs_eiv s) _ tag ct (enc_tlvs l) X3).
  - rewrite U. rewrite parse_enc by exact W1. rewrite (chal_loop_plain now r issued fwd nonce) by assumption. reflexivity.
  - split.
    + destruct Y5 as [Y5|[Y5 Y6]]; [left; exact Y5|right]. split; [exact Y5|]. intros X6. apply Y6. change (rand_part (rs_eiv s)) with (iv_prefix (rs_eiv s)).
      rewrite <- X6. destruct (rq_eiv r) as [|x iv]; [apply initial_prefix; exact Y3|reflexivity].
    + destruct Y4 as [[_ A]|[A B]]; [left; exact A|]. rewrite initial_ne by exact A. destruct B as [->| ->]; [left; reflexivity|right].
      split; [lia|]. split; [lia|reflexivity].
  - eapply l_aes_dec_enc; eassumption.
  - symmetry. exact X2.
Qed.

Lemma chal_told : forall E now r issued fwd rnd8 nonce content r' s, aes_laws E ->
  (forall c, rq_cs r = Some c -> cs_ok now nonce c) -> rq_status r <= 6 ->
  name_fits issued -> name_fits fwd -> blen (name_wire issued) < 2 ^ 32 -> blen (name_wire fwd) < 2 ^ 32 ->
  in_sync r rnd8 s -> chal_encode E r issued fwd rnd8 = (Ok content, r') ->
  exists s', chal_decode E now content s = (Ok tt, s') /\ told now r issued fwd nonce s s' /\
    same_session s s' /\ rs_div s' = rq_eiv r'.
Proof.
  intros E now r issued fwd rnd8 nonce content r' s LA Hc Hs Hi Hf Li Lf Sy En.
  exists (chal_result now r issued fwd nonce (upd_div (rq_eiv r') s)).
  split; [eapply chal_roundtrip; eassumption|].
  unfold told, same_session, chal_result.
  destruct (rq_cs r) as [c|]; [destruct (bytes_eqb (cs_status c) (bs "need-proof"))|];
    (destruct issued; cbn; repeat split; try congruence; try discriminate).
Qed.
