(** The encoders produce the messages of [Spec_Wire]. *)
From Verif Require Import BytesFacts TlvFacts CryptoFacts ChalProps TraceFacts TraceProps TraceCounts SessionFacts NetworkFacts RequesterFacts.
From Verif Require ClientSessionFacts.
From Verif Require Export Spec_Wire.
From Coq Require Import Lia.
Local Open Scope N_scope.

(** ** TLV *)
Lemma be_fold : forall b a, fold_left (fun a x => a * 256 + Byte.to_N x) b a = be_dec_acc a b.
Proof. induction b as [|x b IH]; intros a; [reflexivity|]. exact (IH _). Qed.
Lemma big_endian_dec : forall b, big_endian b = be_dec b.
Proof. intros b. exact (be_fold b 0). Qed.
Lemma be_back : forall k n, n < 256 ^ N.of_nat k -> big_endian (be_enc k n) = n.
Proof. intros k n H. rewrite big_endian_dec. apply be_dec_enc_small, H. Qed.
Lemma var_enc : forall n, n < 2 ^ 64 -> var_number n (enc_var n).
Proof.
  intros n H. unfold enc_var. destruct (N.ltb_spec n 253) as [A|A].
  - assert (Q : Byte.to_N (byte_of_N n) = n) by (rewrite to_N_byte_of_N; apply N.mod_small; lia).
    rewrite <- Q at 1. apply vn_1. lia.
  - destruct (N.leb_spec n 65535) as [B|B].
    + rewrite <- (be_back 2 n) at 1 by (change (256 ^ N.of_nat 2) with 65536; lia). apply vn_3; [apply be_enc_length|]. rewrite be_back; [lia|change (256 ^ N.of_nat 2) with 65536; lia].
    + destruct (N.leb_spec n 4294967295) as [C|C].
      * rewrite <- (be_back 4 n) at 1 by (change (256 ^ N.of_nat 4) with 4294967296; lia). apply vn_5; [apply be_enc_length|]. rewrite be_back; [lia|change (256 ^ N.of_nat 4) with 4294967296; lia].
      * rewrite <- (be_back 8 n) at 1 by exact H. apply vn_9; [apply be_enc_length|]. rewrite be_back; [lia|exact H].
Qed.
Lemma nni_integer : forall n, n < 2 ^ 64 -> integer n (nni_enc n).
Proof.
  intros n H. unfold nni_enc, integer. destruct (N.leb_spec n 255) as [A|A]; [split; [apply be_back; change (256 ^ N.of_nat 1) with 256; lia|left; apply be_enc_length]|].
  destruct (N.leb_spec n 65535) as [B|B]; [split; [apply be_back; change (256 ^ N.of_nat 2) with 65536; lia|right; left; split; [apply be_enc_length|lia]]|].
  destruct (N.leb_spec n 4294967295) as [C|C]; [split; [apply be_back; change (256 ^ N.of_nat 4) with 4294967296; lia|right; right; left; split; [apply be_enc_length|lia]]|].
  split; [apply be_back; exact H|]. right. right. right. split; [apply be_enc_length|lia].
Qed.
Definition as_pair (t : tlv) : N * bytes := (t_type t, t_val t).
Lemma msg_enc : forall l, Forall (fun t => t_type t < 2 ^ 64) l -> fits (enc_tlvs l) -> message (map as_pair l) (enc_tlvs l).
Proof.
  induction l as [|t l IH]; intros T F; [constructor|]. inversion T as [|? ? T1 T2]; subst. cbn [enc_tlvs map] in *. unfold fits in *. unfold enc_tlv in F |- *. rewrite !blen_app in F.
  rewrite <- !app_assoc. apply msg_cons; [apply var_enc, T1|apply var_enc; lia|]. apply IH; [exact T2|lia].
Qed.
Ltac types := repeat first [apply Forall_nil | apply Forall_cons; [reflexivity|]].
Lemma in_fits : forall l t, In t l -> fits (enc_tlvs l) -> fits (t_val t).
Proof.
  induction l as [|u l IH]; intros t I F; [destruct I|]. unfold fits in *; cbn [enc_tlvs] in F; rewrite blen_app in F. destruct I as [<-|I].
  - unfold enc_tlv in F. rewrite !blen_app in F. lia.
  - apply (IH t I). lia.
Qed.
Lemma one_msg : forall ty v, ty < 2 ^ 64 -> fits (enc_tlv (Tlv ty v)) -> message [(ty, v)] (enc_tlv (Tlv ty v)).
Proof.
  intros ty v T F. pose proof (msg_enc [Tlv ty v]) as M. cbn [enc_tlvs map as_pair t_type t_val] in M. rewrite app_nil_r in M. apply M; [constructor; [exact T|constructor]|exact F].
Qed.
Lemma name_wired : forall n, wf_name n -> fits (name_wire n) -> wire_name n (name_wire n).
Proof.
  intros n W F. unfold wire_name. exists (enc_tlvs n). split; [|apply one_msg; [reflexivity|exact F]].
  apply msg_enc; [|unfold name_wire, name_tlv, enc_tlv, fits in *; cbn [t_type t_val] in F; rewrite !blen_app in F; lia].
  eapply Forall_impl; [|exact W]. intros t (_ & A & _). unfold max_type in A. cbn beta. lia.
Qed.
Lemma cert_wired : forall E c, fits (enc_tlv (cert_tlv E c)) -> wire_cert E c (enc_tlv (cert_tlv E c)).
Proof. intros E c F. apply one_msg; [reflexivity|exact F]. Qed.

(** ** Messages *)
(** There is one encoding. *)
Lemma var_one : forall n b, var_number n b -> b = enc_var n.
Proof.
  assert (BY : forall b k, length b = k -> be_enc k (be_dec b) = b) by (intros b k <-; apply be_enc_dec).
  intros n b H. unfold enc_var. destruct H as [x L|b L G|b L G|b L G]; try rewrite !big_endian_dec in *.
  - apply N.ltb_lt in L. rewrite L. f_equal. unfold byte_of_N. apply N.ltb_lt in L. rewrite N.mod_small by lia. rewrite Byte.of_to_N. reflexivity.
  - pose proof (be_dec_bound b) as B. unfold blen in B. rewrite L in B. change (256 ^ N.of_nat 2) with 65536 in B. destruct (N.ltb_spec (be_dec b) 253); [lia|]. destruct (N.leb_spec (be_dec b) 65535); [|lia]. rewrite (BY b 2%nat L). reflexivity.
  - pose proof (be_dec_bound b) as B. unfold blen in B. rewrite L in B. change (256 ^ N.of_nat 4) with 4294967296 in B. destruct (N.ltb_spec (be_dec b) 253); [lia|]. destruct (N.leb_spec (be_dec b) 65535); [lia|]. destruct (N.leb_spec (be_dec b) 4294967295); [|lia]. rewrite (BY b 4%nat L). reflexivity.
  - destruct (N.ltb_spec (be_dec b) 253); [lia|]. destruct (N.leb_spec (be_dec b) 65535); [lia|]. destruct (N.leb_spec (be_dec b) 4294967295); [lia|]. rewrite (BY b 8%nat L). reflexivity.
Qed.
Lemma full_name_wired : forall E c, wire_full_name E c (full_name E c).
Proof.
  intros E c w H. unfold wire_cert in H. inversion H as [|ty v l t n w0 A B C]; subst. inversion C; subst. apply var_one in A, B. unfold full_name, cert_tlv, enc_tlv. cbn [t_type t_val].
  rewrite A, B, app_nil_r. reflexivity.
Qed.
Lemma redirects_wired : forall E l params reds, redirects E l params = Ok reds -> Forall (fun n => exists c policy, In (Some c, policy) l /\ wire_full_name E c n) reds.
Proof.
  induction l as [|[c p] l IH]; intros params reds H; cbn [redirects] in H; [injection H as <-; constructor|].
  assert (MORE : forall reds', Forall (fun n => exists c policy, In (Some c, policy) l /\ wire_full_name E c n) reds' -> Forall (fun n => exists c0 policy, In (Some c0, policy) ((c, p) :: l) /\ wire_full_name E c0 n) reds').
  { intros reds' F. eapply Forall_impl; [|exact F]. intros n (c0 & q & A & B). exists c0, q. split; [right; exact A|exact B]. }
  destruct (is_redirecting p params); [|exact (MORE _ (IH _ _ H))]. destruct c as [c|]; [|discriminate]. destruct (redirects E l params) as [r| | |] eqn:R; cbn [bind] in H; try discriminate. injection H as <-.
  constructor; [exists c, p; split; [left; reflexivity|apply full_name_wired]|exact (MORE _ (IH _ _ R))].
Qed.

Lemma error_wired : forall code info, code < 2 ^ 64 -> fits (err_encode code info) -> wire_error code info (err_encode code info).
Proof. intros code info C F. exists (nni_enc code). split; [apply nni_integer, C|]. apply (msg_enc [Tlv T_ErrorCode (nni_enc code); Tlv T_ErrorInfo info]); [types|exact F]. Qed.
Lemma map_pair : forall ty l, map as_pair (map (Tlv ty) l) = map (pair ty) l.
Proof. intros ty l. rewrite map_map. reflexivity. Qed.
Lemma types_map : forall ty (l : list bytes), ty < 2 ^ 64 -> Forall (fun t => t_type t < 2 ^ 64) (map (Tlv ty) l).
Proof. intros ty l H. apply Forall_forall. intros t I. apply in_map_iff in I as (b & <- & _). exact H. Qed.
Lemma info_wired : forall E p c w, info_encode E p c = Ok w -> fits w ->
  exists text, (p_info p <> [] -> text = p_info p) /\ wire_info E (p_prefix p) text (p_probe_keys p) (to_u64 (p_maxvalid p)) c w.
Proof.
  intros E p c w H F. unfold info_encode in H.
  assert (X : exists text, (p_info p <> [] -> text = p_info p) /\ w = enc_tlvs ([Tlv T_CaPrefix (name_wire (p_prefix p)); Tlv T_CaInfo text] ++ map (Tlv T_ParameterKey) (p_probe_keys p)
                ++ [Tlv T_MaxValidityPeriod (nni_enc (to_u64 (p_maxvalid p))); Tlv T_CaCertificate (enc_tlv (cert_tlv E c))])).
  { destruct (p_info p) as [|b0 info].
    - destruct (of_opt (c_keyloc c)); try discriminate. cbn [bind] in H. injection H as <-. eexists. split; [intros Q; destruct Q; reflexivity|reflexivity].
    - cbn [bind] in H. injection H as <-. eexists. split; [intros _; reflexivity|reflexivity]. }
  destruct X as (text & T & ->). exists text. split; [exact T|].
  assert (B : fits (enc_tlv (cert_tlv E c))).
  { refine (in_fits _ (Tlv T_CaCertificate (enc_tlv (cert_tlv E c))) _ F). apply in_or_app. right. apply in_or_app. right. right. left. reflexivity. }
  exists (nni_enc (to_u64 (p_maxvalid p))), (enc_tlv (cert_tlv E c)). split; [apply nni_integer; unfold to_u64; lia|]. split; [apply cert_wired, B|].
  apply msg_enc in F; [|apply Forall_app; split; [types|]; apply Forall_app; split; [apply types_map; reflexivity|types]].
  rewrite !map_app, map_pair in F. exact F.
Qed.
Lemma probe_wired : forall ids max redirects, (forall k, max = Some k -> k < 2 ^ 64) -> fits (probe_encode ids max redirects) ->
  wire_probe ids max redirects (probe_encode ids max redirects).
Proof.
  intros ids max redirects K F. set (offer := fun n => enc_tlvs (name_tlv n :: match max with Some k => [Tlv T_MaxSuffixLength (nni_enc k)] | None => [] end)).
  assert (Q : probe_encode ids max redirects = enc_tlvs (map (Tlv T_ProbeResponse) (map offer ids) ++ map (Tlv T_ProbeRedirect) (map name_wire redirects))).
  { unfold probe_encode. f_equal. rewrite !map_map. reflexivity. }
  rewrite Q in F |- *. exists (map offer ids). split.
  - assert (B : forall n, In n ids -> fits (offer n)).
    { intros n I. refine (in_fits _ (Tlv T_ProbeResponse (offer n)) _ F). apply in_or_app. left. apply in_map, in_map, I. }
    clear F Q. induction ids as [|n ids IH]; [constructor|]. cbn [map]. constructor; [|apply IH; intros m I; apply B; right; exact I].
    pose proof (B n (or_introl eq_refl)) as F. unfold offer, wire_offer in *. destruct max as [k|]; [|apply app_nil_r].
    exists (nni_enc k), (enc_tlv (Tlv T_MaxSuffixLength (nni_enc k))). split; [apply nni_integer, K; reflexivity|]. cbn [enc_tlvs] in F |- *. rewrite app_nil_r in F |- *.
    split; [|reflexivity]. apply one_msg; [reflexivity|]. unfold fits in *. rewrite blen_app in F. lia.
  - apply msg_enc in F; [|apply Forall_app; split; apply types_map; reflexivity]. rewrite map_app, !map_pair in F. rewrite (map_map name_wire) in F. exact F.
Qed.
Lemma new_wired : forall pub salt id challenges, length salt = 32%nat -> length id = 8%nat -> fits (reply_encode pub salt id challenges) ->
  wire_new pub salt id challenges (reply_encode pub salt id challenges).
Proof.
  intros pub salt id challenges L1 L2 F. split; [exact L1|]. split; [exact L2|]. unfold reply_encode in *.
  apply msg_enc in F; [|apply Forall_app; split; [types|apply types_map; reflexivity]]. rewrite map_app, map_pair in F. exact F.
Qed.
Lemma sealed_wired : forall E key iv id plain, aes_laws E -> iv12 iv -> fits (sealed E key iv id plain) -> wire_sealed E key id plain (sealed E key iv id plain) /\ fits plain.
Proof.
  intros E key iv id plain L I F. unfold sealed in *. destruct (o_aes_enc E key iv id plain) as [ct tag] eqn:Q. destruct (l_aes_len E L _ _ _ _ _ _ Q) as [L1 L2].
  split; [exists iv, ct, tag; split; [exact I|]; split; [exact L2|]; split; [exact Q|]; apply msg_enc in F; [exact F|types]|].
  assert (G : fits ct) by (refine (in_fits _ (Tlv T_EncryptedPayload ct) _ F); right; right; left; reflexivity). unfold fits, blen in *. rewrite <- L1. exact G.
Qed.
Lemma told_wired : forall r cs nonce, rq_status r = ST_CHALLENGE -> cs_tries cs < 2 ^ 64 -> 
  let l := told_tlvs r cs (match nonce with Some v => [Tlv T_ParameterKey (bs "nonce"); Tlv T_ParameterValue v] | None => [] end) in
  fits (enc_tlvs l) -> wire_continued (cs_status cs) (cs_tries cs) (to_u64 (cs_rtime cs)) nonce (enc_tlvs l).
Proof.
  intros r cs nonce S T l F. exists (nni_enc (cs_tries cs)), (nni_enc (to_u64 (cs_rtime cs))). split; [apply nni_integer, T|]. split; [apply nni_integer; unfold to_u64; lia|].
  subst l. unfold told_tlvs in *. rewrite S in *. apply msg_enc in F; [destruct nonce; exact F|]. destruct nonce; types.
Qed.

(** ** The CA *)
Lemma to_verb_of : forall g v x verb, addressed g v (i_name x) -> (exists rest, verb_comps v = gc verb :: rest) -> to_verb (p_prefix (cfp g)) verb x.
Proof. intros g v x verb [rest H] [r0 Q]. exists (r0 ++ rest). rewrite H, Q. reflexivity. Qed.
Lemma put_in_error : forall E g asked x code info d, plain_error code info -> d = error_data E g (i_name x) code info -> fits (d_content d) -> ca_message E g asked x (d_content d).
Proof.
  intros E g asked x code info d (N & C & B) -> F. apply (cm_error E g asked x code info); [|exact B|apply error_wired; [lia|exact F]]. unfold NO_ERROR in N. lia.
Qed.
Lemma plain_put : forall E i r r2 issued fwd payload r3 l, aes_laws E -> live r -> rq_eiv r2 = rq_eiv r -> chal_encode E r2 issued fwd (rnd_iv i) = (Ok payload, r3) ->
  chal_plain r2 issued fwd = Ok l -> fits payload -> wire_sealed E (rq_key r2) (rq_id r2) (enc_tlvs l) payload /\ fits (enc_tlvs l).
Proof.
  intros E i r r2 issued fwd payload r3 l L LV Q CE P F.
  assert (EI : rq_eiv r2 = [] \/ iv12 (rq_eiv r2)) by (rewrite Q; exact (live_eiv r LV)).
  apply chal_encode_ok in CE as (l' & iv2 & P' & _ & _ & ->); [|exact EI|apply rnd_iv_len]. rewrite P in P'. injection P' as <-.
  apply sealed_wired; [exact L|apply iv12_initial; [exact EI|apply rnd_iv_len]|exact F].
Qed.
Lemma moved_nonce : forall E cfg i params r ty cs em, moves E cfg i params r ty cs em ->
  exists nonce, (cs_status cs = bs "need-proof" <-> nonce <> None) /\ (forall v, nonce = Some v -> length v = 16%nat) /\ In (cs_status cs) [bs "need-code"; bs "wrong-code"; bs "need-proof"] /\
    forall dv ty' r', chal_plain (moved dv ty' cs r') [] [] = Ok (told_tlvs (moved dv ty' cs r') cs (match nonce with Some v => [Tlv T_ParameterKey (bs "nonce"); Tlv T_ParameterValue v] | None => [] end)).
Proof.
  intros E cfg i params r ty cs em M. destruct M as [[_ S]|(_ & _ & cs0 & _ & (? & ? & ? & _ & _ & _ & _ & _ & ->))].
  - destruct S.
    + exists None. cbn [cs_status]. split; [split; intros Q; [discriminate Q|destruct Q; reflexivity]|]. split; [discriminate|]. split; [left; reflexivity|]. reflexivity.
    + exists None. cbn [cs_status]. split; [split; intros Q; [discriminate Q|destruct Q; reflexivity]|]. split; [discriminate|]. split; [left; reflexivity|]. reflexivity.
    + exists (Some (rnd_nonce i)). cbn [cs_status]. split; [split; intros Q; [discriminate|reflexivity]|]. split; [intros v Q; injection Q as <-; apply be_enc_length|]. split; [right; right; left; reflexivity|].
      intros dv ty' r'. unfold chal_plain, told_tlvs. cbn [moved set_cs rq_cs cs_status cs_secrets cs_tries cs_rtime]. change (bytes_eqb (bs "need-proof") (bs "need-proof")) with true. cbv iota.
      cbn [sec_get]. change (bytes_eqb (bs "nonce") (bs "nonce")) with true. cbv iota. rewrite from_to_hex. reflexivity.
  - exists None. cbn [cs_status]. split; [split; intros Q; [discriminate Q|destruct Q; reflexivity]|]. split; [discriminate|]. split; [right; left; reflexivity|]. reflexivity.
Qed.
Lemma interest_wired : forall E g S (ops : store_ops S) s i x full o d, aes_laws E -> hash_laws E -> ca_at E g ops s -> (forall k, p_maxsuffix (cfp g) = Some k -> k < 2 ^ 64) ->
  on_interest E g ops s i x = (full, o) -> In (EPut d) full -> fits (d_content d) -> ca_message E g (asked_for ops s) x (d_content d).
Proof.
  intros E g S ops s i x full o d LA LH A MX H I F. destruct (on_interest_cases E g S ops s i x) as [[_ O]|(v & AD & O)]; rewrite O in H; [injection H as <- <-; destruct I|].
  assert (NEWC : forall rt verb, rt = RT_NEW \/ rt = RT_REVOKE -> verb = bs "NEW" \/ verb = bs "REVOKE" -> to_verb (p_prefix (cfp g)) verb x ->
    on_new E g (fun r => match s_add ops (ca_store s) r with Some _ => true | None => false end) (ca_idkey s) i rt x = (full, o) -> ca_message E g (asked_for ops s) x (d_content d)).
  { intros rt verb RT VB TV H'. apply on_new_cases in H' as [(peer & c & _ & _ & _ & ->)|[(code & info & _ & -> & PE & _)|(_ & -> & _)]]; [..|exact RT].
    - destruct I as [I|[I|[I|[]]]]; try discriminate. injection I as <-. apply (cm_new E g (asked_for ops s) x verb (in_sk i) (rnd_salt i) (request_id_of E (ca_idkey s) (c_name c)) _ VB TV).
      apply new_wired; [apply be_enc_length|apply request_id_len, LH|exact F].
    - destruct I as [I|[]]. injection I as I. apply (put_in_error E g (asked_for ops s) x code info d PE (eq_sym I) F).
    - destruct I. }
  destruct v; cbn [handle] in H.
  - apply discovery_cases in H as [(es0 & d0 & G & _ & m & -> & M1 & _)|[-> _]]; [|destruct I]. apply get_profile_spec in G.
    assert (N0 : exists v0, d_name d0 = profile_name g v0).
    { destruct G as [[P _]|(_ & _ & D & _)]; [destruct (reach_profile E g S ops s (at_reach _ _ _ _ A) d0 P) as (v0 & Q & _); eauto|eauto]. }
    destruct N0 as (v0 & N0).
    assert (D : d = m).
    { apply in_app_or in I as [I|[I|[]]]; [|congruence]. destruct G as [[_ ->]|(_ & -> & _)]; [destruct I|destruct I as [I|[]]; discriminate]. }
    subst d. rewrite M1, N0.
    assert (N2 : prefix_neg 1 (profile_name g v0) = p_prefix (cfp g) ++ [Tlv 8 (bs "CA"); Tlv 8 (bs "INFO"); Tlv 54 (nni_enc v0)]).
    { unfold profile_name. exact (eq_trans (f_equal (prefix_neg 1) (app_assoc (p_prefix (cfp g)) [gc (bs "CA"); gc (bs "INFO"); version_comp v0] [Tlv T_Segment (nni_enc 0)])) (prefix_neg_app _ [Tlv T_Segment (nni_enc 0)])). }
    rewrite N2. apply cm_version; [apply nni_enc_len|]. apply (to_verb_of g VInfo x (bs "INFO") AD). eexists. reflexivity.
  - unfold on_probe in H.
    assert (TV : to_verb (p_prefix (cfp g)) (bs "PROBE") x) by (apply (to_verb_of g VProbe x (bs "PROBE") AD); eexists; reflexivity).
    assert (OK : forall reds sufs, Forall (fun n => exists c policy, In (Some c, policy) (cf_redirect (cf g)) /\ wire_full_name E c n) reds -> In (EPut d) [EPut (reply_data E g (i_name x) (probe_encode (map (fun s => p_prefix (cfp g) ++ s) sufs) (p_maxsuffix (cfp g)) reds))] -> ca_message E g (asked_for ops s) x (d_content d)).
    { intros reds sufs RS [Q|[]]. injection Q as <-. apply (cm_probe E g (asked_for ops s) x sufs reds _ TV RS). apply probe_wired; [exact MX|exact F]. }
    destruct (do params <- _; _) as [[reds sufs]| | |] eqn:RES; [|injection H as <- <-; destruct I..].
    assert (RS : Forall (fun n => exists c policy, In (Some c, policy) (cf_redirect (cf g)) /\ wire_full_name E c n) reds).
    { destruct (probe_params_decode _) as [params| | |]; cbn [bind] in RES; try discriminate. destruct (redirects E (cf_redirect (cf g)) params) as [rs| | |] eqn:RD; cbn [bind] in RES; try discriminate.
      destruct (suffixes _ _ _ _) as [sf| | |]; cbn [bind] in RES; try discriminate. injection RES as <- _. exact (redirects_wired _ _ _ _ RD). }
    destruct reds as [|r0 reds]; [destruct sufs as [|s0 sufs]|]; injection H as <- <-; [|exact (OK [] (s0 :: sufs) RS I)|exact (OK (r0 :: reds) sufs RS I)].
    destruct I as [I|[]]. injection I as I. refine (put_in_error E g (asked_for ops s) x INVALID_PARAMETER _ d _ (eq_sym I) F). perr.
  - refine (NEWC RT_NEW (bs "NEW") (or_introl eq_refl) (or_introl eq_refl) _ H). apply (to_verb_of g VNew x (bs "NEW") AD). eexists. reflexivity.
  - assert (TV : to_verb (p_prefix (cfp g)) (bs "CHALLENGE") x) by (apply (to_verb_of g VChallenge x (bs "CHALLENGE") AD); eexists; reflexivity).
    destruct (on_challenge_cases E g (s_get ops (ca_store s)) i x) as [(r & (id & CI & G) & CO)|[(_ & _ & info & FI & Q)|(_ & Q)]]; [|rewrite Q in H; injection H as <- <-..].
    2:{ destruct I as [I|[]]. injection I as I. refine (put_in_error E g (asked_for ops s) x INVALID_PARAMETER info d _ (eq_sym I) F). split; [discriminate|]. split; [discriminate|exact FI]. }
    2:{ destruct I. }
    rewrite H in CO. destruct (pending_live E g S ops s id r A G) as [_ LV].
    assert (EMS : forall em, ~ In (EPut d) (email_effs em)) by (intros [cmd|] X; [destruct X as [X|[]]; discriminate|destruct X]).
    inversion CO as [info FI SG|code info SG PE|o' SG Q|params ty dv cs em payload r3 SG OP KT M CE|params ty dv cs em o' r3 SG OP KT M Q N|params ty dv cs c payload r3 SG OP KT ST CS PA TY IC CE
      |params ty dv cs c o' r3 SG OP KT ST CS PA TY IC Q N|params ty dv cs payload r3 SG OP KT ST CS PA TY CE|params ty dv cs o' r3 SG OP KT ST CS PA TY Q N]; subst full o.
    + destruct I as [I|[]]. injection I as I. refine (put_in_error E g (asked_for ops s) x BAD_SIGNATURE info d _ (eq_sym I) F). split; [discriminate|]. split; [discriminate|exact FI].
    + destruct I as [I|[I|[]]]; [discriminate|]. injection I as I. exact (put_in_error E g (asked_for ops s) x code info d PE (eq_sym I) F).
    + destruct I.
    + apply in_app_or in I as [I|[I|[I|[I|[]]]]]; try discriminate; [destruct (EMS em I)|]. injection I as <-. cbn [reply_data mk_data d_content] in F |- *.
      destruct (moved_nonce E (cf_chal g) i params (set_div dv r) ty cs em M) as (nonce & N1 & N2 & N3 & PL).
      destruct (moved_live E g i x r params ty dv cs em payload r3 LV OP KT M CE) as (_ & _ & _ & _ & TR & _).
      destruct (plain_put E i r (moved dv ty cs r) [] [] payload r3 _ LA LV eq_refl CE (PL dv ty r) F) as [WS FP].
      refine (cm_continued E g (asked_for ops s) x _ _ (cs_status cs) (cs_tries cs) (to_u64 (cs_rtime cs)) nonce _ payload TV N3 TR N1 N2 _ WS). apply told_wired; [reflexivity|lia|exact FP].
    + destruct (EMS em I).
    + destruct I as [I|[I|[I|[I|[]]]]]; try discriminate. injection I as <-. cbn [reply_data mk_data d_content] in F |- *.
      assert (CN : exists c0 cl, c_name c = c0 :: cl).
      { unfold issue_certificate in IC. destruct (of_opt (c_validity (rq_cert r))); try discriminate. cbn [bind] in IC. injection IC as <-. cbn [c_name]. destruct (key_name_of _); do 2 eexists; reflexivity. }
      destruct CN as (c0 & cl & CN).
      assert (CM : exists r0 v, asked_for ops s r0 /\ blen v <= 8 /\ c_name c = key_name_of (c_name r0) ++ [Tlv 8 (bs "NDNCERT"); Tlv 54 v]).
      { unfold issue_certificate in IC. destruct (of_opt (c_validity (rq_cert r))); try discriminate. cbn [bind] in IC. injection IC as <-. cbn [c_name].
        exists (rq_cert r). eexists. split; [exists id, r; split; [exact G|reflexivity]|]. split; [|reflexivity]. apply nni_enc_len. }
      set (l := [Tlv T_Status (nni_enc ST_SUCCESS); Tlv T_IssuedCertName (name_wire (c_name c)); Tlv T_ForwardingHint (name_wire (p_fwd (cfp g)))]).
      assert (PL : chal_plain (set_status ST_SUCCESS (set_cert c (passed dv ty r))) (c_name c) (p_fwd (cfp g)) = Ok l).
      { unfold chal_plain, l. cbn [set_status set_cert passed set_cs rq_cs rq_status bind app]. rewrite CN. reflexivity. }
      destruct (plain_put E i r (set_status ST_SUCCESS (set_cert c (passed dv ty r))) _ _ payload r3 l LA LV eq_refl CE PL F) as [WS FP].
      refine (cm_success E g (asked_for ops s) x _ _ (Some (c_name c, p_fwd (cfp g))) _ payload TV _ _ WS); [intros a b Q; injection Q as <- <-; split; [reflexivity|exact CM]|].
      apply msg_enc in FP; [exact FP|unfold l; types].
    + destruct I as [I|[I|[]]]; discriminate.
    + destruct I as [I|[I|[I|[]]]]; try discriminate. injection I as <-. cbn [reply_data mk_data d_content] in F |- *.
      assert (PL : chal_plain (set_status ST_SUCCESS (passed dv ty r)) [] [] = Ok [Tlv T_Status (nni_enc ST_SUCCESS)]) by reflexivity.
      destruct (plain_put E i r (set_status ST_SUCCESS (passed dv ty r)) _ _ payload r3 _ LA LV eq_refl CE PL F) as [WS FP].
      refine (cm_success E g (asked_for ops s) x _ _ None _ payload TV _ _ WS); [discriminate|]. apply msg_enc in FP; [exact FP|types].
    + destruct I as [I|[]]. discriminate.
  - refine (NEWC RT_REVOKE (bs "REVOKE") (or_intror eq_refl) (or_intror eq_refl) _ H). apply (to_verb_of g VRevoke x (bs "REVOKE") AD). eexists. reflexivity.
Qed.
Lemma replies_wired : forall E g S (ops : store_ops S) tr st s i x d, aes_laws E -> hash_laws E -> (forall k, p_maxsuffix (cfp g) = Some k -> k < 2 ^ 64) ->
  ca_history E g ops (tr ++ [st]) s -> handles st i x -> In (EPut d) (h_effs st) -> fits (d_content d) -> ca_message E g (asked_for ops (h_pre st)) x (d_content d).
Proof.
  intros E g S ops tr st s i x d LA LH MX H HA I F. apply history_snoc in H as (H & ST & _). pose proof (history_at _ _ _ _ _ _ H) as A.
  destruct HA as [EV|(n & key & EV)]; rewrite EV in ST; cbn [step] in ST; destruct (on_interest E g ops (h_pre st) i x) as [full o] eqn:OI.
  - assert (Q : full = h_effs st) by (destruct o; inversion ST; reflexivity). subst full. exact (interest_wired E g S ops (h_pre st) i x _ o d LA LH A MX OI I F).
  - assert (Q : h_effs st = firstn n full) by (destruct o; inversion ST; reflexivity). rewrite Q in I.
    refine (interest_wired E g S ops (h_pre st) i x _ o d LA LH A MX OI _ F). rewrite <- (firstn_skipn n full). apply in_or_app. left. exact I.
Qed.
Lemma profile_wired : forall E g S (ops : store_ops S) s ev s' es d, step E g ops s ev = Some (s', es) -> In (EProfile d) es -> fits (d_content d) ->
  exists v text, d_name d = p_prefix (cfp g) ++ [Tlv 8 (bs "CA"); Tlv 8 (bs "INFO"); Tlv 54 v; Tlv 50 [x00]] /\ (p_info (cfp g) <> [] -> text = p_info (cfp g)) /\
    wire_info E (p_prefix (cfp g)) text (p_probe_keys (cfp g)) (to_u64 (p_maxvalid (cfp g))) (cf_cert g) (d_content d).
Proof.
  intros E g S ops s ev s' es d ST I F.
  assert (X : exists v, profile_data E g None v = Ok d).
  { destruct ev as [i x|i x n key|key|i]; cbn [step] in ST.
    - destruct (on_interest E g ops s i x) as [full o] eqn:OI. assert (Q : full = es) by (destruct o; inversion ST; reflexivity). subst full. exact (ClientSessionFacts.interest_made E g S ops s i x es o OI d I).
    - destruct (on_interest E g ops s i x) as [full o] eqn:OI. assert (Q : es = firstn n full) by (destruct o; inversion ST; reflexivity).
      apply (ClientSessionFacts.interest_made E g S ops s i x full o OI d). rewrite <- (firstn_skipn n full). apply in_or_app. left. rewrite <- Q. exact I.
    - injection ST as <- <-. destruct I.
    - unfold on_get_profile in ST. destruct (ca_prof s) as [d0|]; [destruct (profile_data E g (Some d0) (in_version i)); inversion ST; subst; destruct I|].
      destruct (profile_data E g None (in_version i)) as [d1| | |] eqn:P; inversion ST; subst; try (destruct I; fail). destruct I as [I|[]]. injection I as <-. eauto. }
  destruct X as (v & P). unfold profile_data in P. destruct (info_encode E (cfp g) (cf_cert g)) as [w| | |] eqn:IE; try discriminate. cbn [bind] in P. injection P as <-. cbn [mk_data d_name d_content] in *.
  destruct (info_wired E (cfp g) (cf_cert g) w IE F) as (text & T & W). exists (nni_enc v), text. split; [reflexivity|]. split; [exact T|exact W].
Qed.

(** ** The requester *)
Lemma pairs_wired : forall m, fits (probe_params_encode m) -> wire_pairs m (probe_params_encode m).
Proof.
  intros m F. unfold wire_pairs, probe_params_encode in *. apply msg_enc in F; [|apply Forall_forall; intros t I; apply in_flat_map in I as (kv & _ & [<-|[<-|[]]]); reflexivity].
  assert (Q : map as_pair (flat_map (fun kv => [Tlv T_ParameterKey (fst kv); Tlv T_ParameterValue (snd kv)]) m) = flat_map (fun kv => [(133, fst kv); (135, snd kv)]) m).
  { clear F. induction m as [|kv m IH]; [reflexivity|]. cbn [flat_map app map]. rewrite IH. reflexivity. }
  rewrite Q in F. exact F.
Qed.
Lemma request_wired : forall E rt ty pub c, (rt = RT_NEW /\ ty = 147) \/ (rt = RT_REVOKE /\ ty = 177) -> fits (req_encode E rt pub c) -> wire_request E ty pub c (req_encode E rt pub c).
Proof.
  intros E rt ty pub c T F.
  assert (Q : req_encode E rt pub c = enc_tlvs [Tlv T_EcdhPub pub; Tlv ty (enc_tlv (cert_tlv E c))]) by (destruct T as [[-> ->]|[-> ->]]; reflexivity). rewrite Q in *.
  exists (enc_tlv (cert_tlv E c)). split.
  - apply cert_wired. refine (in_fits _ (Tlv ty (enc_tlv (cert_tlv E c))) _ F). right. left. reflexivity.
  - apply msg_enc in F; [exact F|]. destruct T as [[_ ->]|[_ ->]]; types.
Qed.
Lemma comps_assoc : forall (p a : name) d, (p ++ a) ++ [d] = p ++ a ++ [d].
Proof. intros. symmetry. apply app_assoc. Qed.
Lemma probe_sent : forall E p m x, gen_probe E p m = x -> fits (probe_params_encode m) -> exists w, interest_to (p_prefix p) [bs "PROBE"] x w /\ wire_pairs m w.
Proof.
  intros E p m x <- F. exists (probe_params_encode m). split; [|apply pairs_wired, F]. split; [eexists; unfold gen_probe, unsigned_interest; cbn [i_name]; rewrite comps_assoc; reflexivity|reflexivity].
Qed.
Lemma new_sent : forall E s ri kn sk nb na x s', gen_new E s ri kn sk nb na = (Ok (Some x), s') -> (forall w, i_params x = Some w -> fits w) ->
  exists w c, interest_to (p_prefix (rs_profile s)) [bs "NEW"] x w /\ wire_request E 147 (o_ecdh_pub E (rs_ecdh s)) c w /\ key_name_of (c_name c) = kn.
Proof.
  intros E s ri kn sk nb na x s' H F. unfold gen_new in H. destruct (negb _); [discriminate|]. destruct kn as [|k0 kn0] eqn:KN; [discriminate|]. rewrite <- KN in *.
  destruct (get_neg 2 kn) as [k|]; [|discriminate]. destruct (comp_eqb k c_KEY); [|discriminate]. injection H as <- _. cbn [signed_interest i_params] in F. specialize (F _ eq_refl).
  exists (req_encode E RT_NEW (o_ecdh_pub E (rs_ecdh s)) (cert_request E sk ri kn nb na)), (cert_request E sk ri kn nb na).
  split; [split; [eexists; unfold signed_interest; cbn [i_name]; rewrite comps_assoc; reflexivity|reflexivity]|].
  split; [apply request_wired; [left; auto|exact F]|]. unfold key_name_of, cert_request. cbn [c_name]. exact (prefix_neg_app kn [gc (bs "cert-request"); version_comp (ri_version ri)]).
Qed.
Lemma revoke_sent : forall E s c x, gen_revoke E s c = Some x -> (forall w, i_params x = Some w -> fits w) ->
  exists w, interest_to (p_prefix (rs_profile s)) [bs "REVOKE"] x w /\ wire_request E 177 (o_ecdh_pub E (rs_ecdh s)) c w.
Proof.
  intros E s c x H F. unfold gen_revoke in H. destruct (negb _); [discriminate|]. injection H as <-. cbn [unsigned_interest i_params] in F. specialize (F _ eq_refl).
  eexists. split; [split; [eexists; unfold unsigned_interest; cbn [i_name]; rewrite comps_assoc; reflexivity|reflexivity]|]. apply request_wired; [right; auto|exact F].
Qed.
Lemma answer_wired : forall ty st cst m l, gen_challenge_tlv ty st cst m = Some (Ok l) -> fits (enc_tlvs l) -> wire_answer ty (enc_tlvs l).
Proof.
  intros ty st cst m l H F.
  assert (ONE : forall t k, one_param t k m = Ok l -> exists v, l = [Tlv T_SelectedChallenge t; Tlv T_ParameterKey k; Tlv T_ParameterValue v]).
  { intros t k Q. unfold one_param in Q. destruct m as [|[k' v] [|]]; try discriminate. destruct (bytes_eqb k' k); [|discriminate]. injection Q as <-. eauto. }
  unfold gen_challenge_tlv in H. destruct (bytes_eqb ty CH_PIN) eqn:T1; [apply bytes_eqb_eq in T1; subst ty|destruct (bytes_eqb ty CH_EMAIL) eqn:T2; [apply bytes_eqb_eq in T2; subst ty|
    destruct (bytes_eqb ty CH_POSSESSION) eqn:T3; [apply bytes_eqb_eq in T3; subst ty|discriminate]]]; injection H as H.
  - destruct (st =? ST_BEFORE).
    + injection H as <-. apply wa_pin_start. apply msg_enc in F; [exact F|types].
    + destruct (_ && _); [|discriminate]. destruct (ONE _ _ H) as (v & ->). apply (wa_code CH_PIN v); [left; reflexivity|]. apply msg_enc in F; [exact F|types].
  - destruct (st =? ST_BEFORE).
    + destruct (ONE _ _ H) as (v & ->). apply (wa_email_start v). apply msg_enc in F; [exact F|types].
    + destruct (_ && _); [|discriminate]. destruct (ONE _ _ H) as (v & ->). apply (wa_code CH_EMAIL v); [right; reflexivity|]. apply msg_enc in F; [exact F|types].
  - destruct (st =? ST_BEFORE).
    + destruct m as [|[k v] [|]]; try discriminate. destruct (bytes_eqb k K_CRED); [|discriminate]. destruct (of_opt (dec_elem v)) as [blk| | |]; try discriminate. cbn [bind] in H. injection H as <-.
      apply (wa_credential (enc_tlv (fst blk))). apply msg_enc in F; [exact F|types].
    + destruct (_ && _); [|discriminate]. destruct m as [|[k v] [|]]; try discriminate. destruct (bytes_eqb k K_PROOF); [|discriminate]. injection H as <-. apply (wa_proof v). apply msg_enc in F; [exact F|types].
Qed.
Lemma challenge_sent : forall E s ri m x s', aes_laws E -> rs_eiv s = [] \/ iv12 (rs_eiv s) -> gen_challenge E s ri m = (Ok x, s') -> (forall w, i_params x = Some w -> fits w) ->
  exists w plain, interest_to (p_prefix (rs_profile s)) [bs "CHALLENGE"; rs_id s] x w /\ wire_sealed E (rs_key s) (rs_id s) plain w /\ wire_answer (rs_ctype s) plain.
Proof.
  intros E s ri m x s' LA EI H F. unfold gen_challenge in H. destruct (rs_ctype s) as [|c0 ct] eqn:CT; [discriminate|]. rewrite <- CT in *.
  destruct (gen_challenge_tlv (rs_ctype s) (rs_status s) (rs_cstatus s) m) as [[l| | |]|] eqn:G; try discriminate.
  destruct (encode_aes_spec E (rs_key s) (enc_tlvs l) (rs_id s) (rs_eiv s) (be_enc 8 (ri_iv ri)) EI (be_enc_length _ _)) as [(iv2 & _ & Q)|[_ Q]]; rewrite Q in H; [|discriminate].
  destruct (rs_keypair s) as [[kn sk]|]; [|discriminate]. injection H as <- _. cbn [signed_interest i_params] in F. specialize (F _ eq_refl).
  apply sealed_wired in F as [WS FP]; [|exact LA|apply iv12_initial; [exact EI|reflexivity]].
  eexists. exists (enc_tlvs l). split; [split; [eexists; unfold signed_interest; cbn [i_name]; rewrite comps_assoc; reflexivity|reflexivity]|]. split; [exact WS|]. exact (answer_wired _ _ _ _ _ G FP).
Qed.
