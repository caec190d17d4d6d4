(** Requester and CA on an attacker's network. *)
From Verif Require Import TraceCounts ChallengeCodecFacts CaFacts TraceFacts CaProps ChalProps TraceProps OutcomeFacts RequesterFacts SessionFacts AcceptFacts ClientSessionFacts.
From Verif Require Import Spec_Accept.
From Verif Require Export Spec_Network.
From Coq Require Import Lia.
Local Open Scope N_scope.

(** ** Which Interest a Data packet of the CA answers *)
Lemma info_not : forall g rest v, v = VNew \/ v = VChallenge -> ~ addressed g v (p_prefix (cfp g) ++ [gc (bs "CA"); gc (bs "INFO")] ++ rest).
Proof.
  intros g rest v V [r Q]. apply app_inv_head in Q. destruct V as [-> | ->]; cbn [verb_comps app] in Q; injection Q as Q; exfalso; revert Q; vm_compute; discriminate.
Qed.
Lemma put_answers : forall E g S (ops : store_ops S) s i x full o d v, reachable E g ops s -> on_interest E g ops s i x = (full, o) ->
  In (EPut d) full \/ In (EProfile d) full -> v = VNew \/ v = VChallenge -> addressed g v (d_name d) -> i_name x = d_name d /\ In (EPut d) full.
Proof.
  intros E g S ops s i x full o d v RE H I V AD.
  destruct (on_interest_cases E g S ops s i x) as [[_ O]|(w & W & O)]; rewrite O in H; [injection H as <- <-; destruct I as [[]|[]]|].
  destruct w; cbn [handle] in H.
  - exfalso. pose proof (reach_profile E g S ops s RE) as K.
    apply discovery_cases in H as [(es0 & d0 & G & _ & m & -> & _ & M2 & _)|[-> _]]; [|destruct I as [[]|[]]].
    apply get_profile_spec in G.
    assert (N0 : exists v0, d_name d0 = profile_name g v0) by (destruct G as [[P _]|(_ & _ & D & _)]; [destruct (K d0 P) as (v0 & Q & _); eauto|eauto]). destruct N0 as (v0 & N0).
    assert (NM : d_name m = p_prefix (cfp g) ++ [gc (bs "CA"); gc (bs "INFO")] ++ [Tlv T_Keyword (bs "metadata"); version_comp (in_mversion i); Tlv T_Segment (nni_enc 0)]).
    { assert (N2 : prefix_neg 2 (profile_name g v0) = p_prefix (cfp g) ++ [gc (bs "CA"); gc (bs "INFO")]).
      { unfold profile_name. exact (eq_trans (f_equal (prefix_neg 2) (app_assoc (p_prefix (cfp g)) [gc (bs "CA"); gc (bs "INFO")] [version_comp v0; Tlv T_Segment (nni_enc 0)])) (prefix_neg_app _ [version_comp v0; Tlv T_Segment (nni_enc 0)])). }
      rewrite M2, N0, N2, <- app_assoc. reflexivity. }
    assert (D : d = d0 \/ d = m).
    { destruct I as [I|I]; apply in_app_or in I as [I|[I|[]]]; try discriminate; try (injection I as ->; auto);
        (destruct G as [[_ ->]|(_ & -> & _)]; [destruct I|destruct I as [I|[]]; try discriminate; injection I as ->; auto]). }
    destruct D as [-> | ->]; [rewrite N0 in AD|rewrite NM in AD]; revert AD; apply info_not, V.
  - unfold on_probe in H. destruct (bind _ _) as [[reds sufs]| | |]; try (injection H as <- <-; destruct I as [[]|[]]).
    destruct reds, sufs; injection H as <- <-; (destruct I as [[I|[]]|[I|[]]]; [injection I as <-|discriminate]); (split; [reflexivity|left; reflexivity]).
  - apply on_new_cases in H as [(peer & c & _ & _ & _ & ->)|[(code & info & _ & -> & _)|(_ & -> & _)]]; [..|destruct I as [[]|[]]|left; reflexivity].
    + destruct I as [[I|[I|[I|[]]]]|[I|[I|[I|[]]]]]; try discriminate. injection I as <-. split; [reflexivity|right; left; reflexivity].
    + destruct I as [[I|[]]|[I|[]]]; try discriminate. injection I as <-. split; [reflexivity|left; reflexivity].
  - destruct (on_challenge_cases E g (s_get ops (ca_store s)) i x) as [(r & F & CO)|[(_ & _ & info & _ & Q)|(_ & Q)]].
    + rewrite H in CO.
      assert (X : forall em, In (EPut d) (email_effs em) \/ In (EProfile d) (email_effs em) -> False) by (intros [cmd|] [X|X]; destruct X as [X|[]] || destruct X; discriminate).
      inversion CO; subst full; subst;
        try (exfalso; destruct I as [[]|[]]; fail);
        try (destruct I as [I|I]; repeat (destruct I as [I|I]; try discriminate); try contradiction; injection I as <-; split; [reflexivity|auto 6 using in_eq, in_cons]).
      * destruct I as [I|I]; apply in_app_or in I as [I|I]; try (destruct (X em); auto; fail); repeat (destruct I as [I|I]; try discriminate); try contradiction. injection I as <-.
        split; [reflexivity|]. apply in_or_app. right. right. left. reflexivity.
      * destruct (X em I).
      * exfalso. destruct I as [[I|[I|[]]]|[I|[I|[]]]]; discriminate.
      * exfalso. destruct I as [[I|[]]|[I|[]]]; discriminate.
    + rewrite Q in H. injection H as <- <-. destruct I as [[I|[]]|[I|[]]]; try discriminate. injection I as <-. split; [reflexivity|left; reflexivity].
    + rewrite Q in H. injection H as <- <-. destruct I as [[]|[]].
  - apply on_new_cases in H as [(peer & c & _ & _ & _ & ->)|[(code & info & _ & -> & _)|(_ & -> & _)]]; [..|destruct I as [[]|[]]|right; reflexivity].
    + destruct I as [[I|[I|[I|[]]]]|[I|[I|[I|[]]]]]; try discriminate. injection I as <-. split; [reflexivity|right; left; reflexivity].
    + destruct I as [[I|[]]|[I|[]]]; try discriminate. injection I as <-. split; [reflexivity|left; reflexivity].
Qed.
(** The same for a step, with what the handler does. *)
Lemma step_answers : forall E g S (ops : store_ops S) s ev s' es d v, reachable E g ops s -> step E g ops s ev = Some (s', es) ->
  In (EPut d) es \/ In (EProfile d) es -> v = VNew \/ v = VChallenge -> addressed g v (d_name d) ->
  exists i x full o, (ev = EvInterest i x \/ exists n key, ev = EvCrash i x n key) /\ on_interest E g ops s i x = (full, o) /\ cut es full /\ i_name x = d_name d /\ In (EPut d) es.
Proof.
  intros E g S ops s ev s' es d v RE ST I V AD. destruct ev as [i x|i x n key|key|i]; cbn [step] in ST.
  - destruct (on_interest E g ops s i x) as [full o] eqn:O. assert (Q : es = full) by (destruct o; try discriminate; injection ST as <- <-; reflexivity). subst es.
    destruct (put_answers E g S ops s i x full o d v RE O I V AD) as [A B]. exists i, x, full, o. split; [auto|]. split; [exact O|]. split; [apply cut_refl|]. auto.
  - destruct (on_interest E g ops s i x) as [full o] eqn:O. assert (Q : es = firstn n full) by (destruct o; try discriminate; injection ST as <- <-; reflexivity). subst es.
    assert (C : cut (firstn n full) full) by (exists (skipn n full); symmetry; apply firstn_skipn).
    assert (I2 : In (EPut d) full \/ In (EProfile d) full) by (destruct C as [rest ->]; destruct I; [left|right]; apply in_or_app; left; assumption).
    destruct (put_answers E g S ops s i x full o d v RE O I2 V AD) as [A B]. exists i, x, full, o. split; [right; eauto|]. split; [exact O|]. split; [exact C|]. split; [exact A|].
    destruct I as [I|I]; [exact I|]. exfalso.
    assert (J : In (EProfile d) full) by (destruct C as [rest ->]; apply in_or_app; left; exact I).
    pose proof (interest_made E g S ops s i x full o O d J) as (v0 & PD). unfold profile_data in PD. destruct (info_encode E (cfp g) (cf_cert g)); cbn [bind] in PD; try discriminate. injection PD as <-.
    revert AD. cbn [d_name mk_data]. exact (info_not g [version_comp v0; segment0] v V).
  - injection ST as <- <-. destruct I as [[]|[]].
  - exfalso. destruct (on_get_profile E g (ca_prof s) i) as [es0 o] eqn:G. assert (Q : es = es0) by (destruct o; try discriminate; injection ST as <- <-; reflexivity). subst es0.
    destruct o as [d0| | |].
    2-4: unfold on_get_profile in G; destruct (profile_data E g (ca_prof s) (in_version i)); try discriminate; injection G as <-; destruct I as [[]|[]].
    apply get_profile_spec in G as [[_ ->]|(_ & -> & D & _)]; [destruct I as [[]|[]]|]. destruct I as [[I|[]]|[I|[]]]; try discriminate. injection I as ->.
    rewrite D in AD. revert AD. exact (info_not g [version_comp (in_version i); segment0] v V).
Qed.

(** ** Reading a reply *)
Lemma same_reading : forall E s ri d d' cc, p_cert (rs_profile s) = Some cc -> data_msg d = data_msg d' -> data_verifies E d cc -> data_verifies E d' cc ->
  on_new_response E s ri d = on_new_response E s ri d' /\ on_challenge_response E s ri d = on_challenge_response E s ri d'.
Proof.
  intros E s ri d d' cc PC M V V'. assert (C : d_content d = d_content d') by (unfold data_msg in M; injection M; auto).
  assert (K : check_reply E (rs_profile s) d = check_reply E (rs_profile s) d').
  { unfold check_reply, verify_data, process_if_error. rewrite PC. unfold data_verifies in V, V'. rewrite V, V', C. reflexivity. }
  unfold on_new_response, on_challenge_response. rewrite K, C. auto.
Qed.
Lemma unverified : forall E s ri d cc, p_cert (rs_profile s) = Some cc -> ~ data_verifies E d cc ->
  on_new_response E s ri d = (Exn, s) /\ on_challenge_response E s ri d = (Exn, s).
Proof.
  intros E s ri d cc PC V. assert (K : check_reply E (rs_profile s) d = Exn).
  { unfold check_reply, verify_data. rewrite PC. unfold data_verifies in V. destruct (o_verify E (public_key cc) (data_msg d) (d_sig d)); [contradiction V; reflexivity|reflexivity]. }
  unfold on_new_response, on_challenge_response. rewrite K. auto.
Qed.
Lemma ca_verifies : forall E g d cc, sig_laws E -> public_key cc = o_pub E (cf_sk g) -> data_signed_by E d (cf_sk g) -> data_verifies E d cc.
Proof. intros E g d cc LS PK DS. unfold data_verifies. rewrite PK, DS. apply (l_sign_verify E LS). Qed.
Lemma reply_signed : forall E g n content, data_signed_by E (reply_data E g n content) (cf_sk g).
Proof. intros. reflexivity. Qed.
Lemma error_unread : forall E g s ri x code info, plain_error code info ->
  on_new_response E s ri (error_data E g (i_name x) code info) = (match p_cert (rs_profile s) with None => UB | Some _ => Exn end, s) /\
  on_challenge_response E s ri (error_data E g (i_name x) code info) = (match p_cert (rs_profile s) with None => UB | Some _ => Exn end, s).
Proof.
  intros E g s ri x code info PL. destruct (error_data_reply E g x code info (plain_fits _ _ PL)) as (_ & _ & info' & D). destruct PL as (NZ & _).
  assert (K : check_reply E (rs_profile s) (error_data E g (i_name x) code info) = match p_cert (rs_profile s) with None => UB | Some _ => Exn end).
  { unfold check_reply. destruct (p_cert (rs_profile s)) as [c|]; [|reflexivity]. destruct (verify_data E _ c); [|reflexivity]. unfold process_if_error. rewrite D. cbn [fst]. apply N.eqb_neq in NZ. rewrite NZ. reflexivity. }
  unfold on_new_response, on_challenge_response. rewrite K. destruct (p_cert (rs_profile s)); auto.
Qed.

(** A NEW reply of the CA. *)
Lemma ca_new_read : forall E g S (ops : store_ops S) ca i x full o es d' d s ri o' s' cc, env_laws E -> Forall fits (p_challenges (cfp g)) ->
  on_interest E g ops ca i x = (full, o) -> cut es full -> addressed g VNew (i_name x) -> In (EPut d') es -> data_msg d = data_msg d' ->
  p_cert (rs_profile s) = Some cc -> public_key cc = o_pub E (cf_sk g) -> length (rs_id s) = 8%nat -> length (ri_salt0 ri) = 32%nat -> data_verifies E d cc ->
  on_new_response E s ri d = (o', s') ->
  (o' = Exn /\ s' = s) \/
  exists peer c, let id := request_id_of E (ca_idkey ca) (c_name c) in admissible E g i RT_NEW id x peer c /\ In (EAdd (created E g i RT_NEW id peer c)) es /\
    o' = Ok (p_challenges (cfp g)) /\ s' = upd_key (session_key E i id (o_ecdh_pub E (rs_ecdh s))) (upd_id id s).
Proof.
  intros E g S ops ca i x full o es d' d s ri o' s' cc L FC H C AD I M PC PK L1 L2 V R.
  rewrite (on_interest_new E g S ops ca i RT_NEW x (or_introl eq_refl) AD) in H. pose proof (laws_sig E L) as LS.
  apply on_new_cases in H as [(peer & c & ADM & _ & _ & ->)|[(code & info & _ & -> & PL & _)|(_ & -> & _)]]; [..|left; reflexivity].
  - right. exists peer, c. intros id.
    apply cut_cons in C as [->|(e1 & -> & C)]; [destruct I|]. split; [exact ADM|]. split; [left; reflexivity|].
    destruct I as [I|I]; [discriminate|]. apply cut_cons in C as [->|(e2 & -> & C)]; [destruct I|].
    assert (D : d' = new_reply E g i x id).
    { destruct I as [I|I]; [injection I as <-; reflexivity|]. apply cut_cons in C as [->|(e3 & -> & C)]; [destruct I|]. destruct I as [I|I]; [discriminate|]. apply cut_nil in C. subst. destruct I. }
    subst d'. rewrite (proj1 (same_reading E s ri d _ cc PC M V (ca_verifies E g _ cc LS PK (reply_signed E g _ _)))) in R.
    rewrite (new_answered E g i x id s ri cc (laws_ecdh E L) (laws_hash E L) LS FC PC PK L1 L2) in R by (unfold id; apply request_id_len, (laws_hash E L)).
    injection R as <- <-. auto.
  - left. apply cut_cons in C as [->|(e1 & -> & C)]; [destruct I|]. apply cut_nil in C. subst e1. destruct I as [I|[]]. injection I as <-.
    rewrite (proj1 (same_reading E s ri d _ cc PC M V (ca_verifies E g _ cc LS PK (reply_signed E g _ _)))) in R. rewrite (proj1 (error_unread E g s ri x code info PL)), PC in R. injection R as <- <-. auto.
  - apply cut_nil in C. subst. destruct I.
Qed.

(** The plaintext of a CHALLENGE reply of the CA, as the requester reads it. *)
Lemma sealed_read : forall E now s s' iv l, aes_laws E -> iv12 iv -> Forall wf_tlv l -> fits (enc_tlvs l) ->
  chal_decode E now (sealed E (rs_key s) iv (rs_id s) (enc_tlvs l)) s = (Ok tt, s') -> challenge_reads now (enc_tlvs l) s s' /\ rest_kept s s' /\ parse (enc_tlvs l) = Some l.
Proof.
  intros E now s s' iv l LA I W F H. apply chal_decode_iff in H as (pt & (els & pp & iv' & tag' & P & G1 & G2 & G3 & _ & _ & _ & _ & D & _) & R & RK).
  destruct (sealed_parse E (rs_key s) iv (rs_id s) (enc_tlvs l) LA I F) as (ct & tag & EN & _ & _ & P'). rewrite P' in P. injection P as <-.
  cbn [get t_type] in G1, G2, G3. injection G1 as <-. injection G2 as <-. injection G3 as <-. cbn [t_val] in D.
  rewrite (l_aes_dec_enc E LA _ _ _ _ _ _ EN) in D. injection D as <-. split; [exact R|]. split; [exact RK|apply parse_enc, W].
Qed.
Ltac field H := match type of H with
  | Spec_Accept.takes _ _ [] _ _ => apply takes_nil in H
  | Spec_Accept.takes _ _ (_ :: _) _ _ => apply takes_cons in H; cbn [t_type t_val] in H;
      match type of H with context [N.eqb ?a ?b] => let v := eval vm_compute in (N.eqb a b) in change (N.eqb a b) with v in H end; cbv iota in H; field H
  | exists v, _ => let v := fresh "v" in let R := fresh "R" in destruct H as (v & R & H); field H
  end.
Lemma told_read : forall now r cs nonce s s', cs_tries cs <= 3 -> parse (enc_tlvs (told_tlvs r cs nonce)) = Some (told_tlvs r cs nonce) -> rq_status r <= 6 ->
  (nonce = [] \/ exists v, nonce = [Tlv T_ParameterKey (bs "nonce"); Tlv T_ParameterValue v]) ->
  challenge_reads now (enc_tlvs (told_tlvs r cs nonce)) s s' ->
  rs_status s' = rq_status r /\ rs_cstatus s' = cs_status cs /\ rs_tries s' = Z.of_N (cs_tries cs).
Proof.
  intros now r cs nonce s s' T P S6 NN (els & st & P' & _ & V & ND & _ & C & TR & _). rewrite P in P'. injection P' as <-.
  assert (X : st = nni_enc (rq_status r) /\ rs_cstatus s' = cs_status cs /\ as_i32 (nni_enc (cs_tries cs)) (rs_tries s')).
  { unfold told_tlvs in V, C, TR. destruct NN as [->|[v ->]]; field C; field TR; cbn in V; injection V as <-; subst; auto. }
  destruct X as (-> & X & (n & D & ->)). rewrite nni_dec_enc in ND by lia. injection ND as <-. rewrite nni_dec_enc in D by lia. injection D as <-.
  split; [reflexivity|]. split; [exact X|]. apply to_i32_small. lia.
Qed.
Lemma name_read : forall n m, name_fits n -> is_name (name_wire n) m -> m = n.
Proof.
  intros n m F (t & B & D). unfold name_wire in B. rewrite (block_from_value_enc (name_tlv n)) in B by (apply name_tlv_wf; exact F). injection B as <-. rewrite name_decode_tlv in D by apply F. congruence.
Qed.
Definition issued_tlvs (n fwd : name) : list tlv := [Tlv T_Status (nni_enc ST_SUCCESS); Tlv T_IssuedCertName (name_wire n); Tlv T_ForwardingHint (name_wire fwd)].
Lemma issued_read : forall now n fwd s s', name_fits n -> name_fits fwd -> parse (enc_tlvs (issued_tlvs n fwd)) = Some (issued_tlvs n fwd) ->
  challenge_reads now (enc_tlvs (issued_tlvs n fwd)) s s' -> rs_status s' = ST_SUCCESS /\ rs_issued s' = n /\ rs_fwd s' = fwd.
Proof.
  intros now n fwd s s' F1 F2 P (els & st & P' & _ & V & ND & _ & _ & _ & _ & I & W & _). rewrite P in P'. injection P' as <-.
  unfold issued_tlvs in V, I, W. field I. field W. cbn in V. injection V as <-. subst. assert (Q : Some ST_SUCCESS = Some (rs_status s')) by exact ND. split; [congruence|]. split; eapply name_read; eassumption.
Qed.

(** A CHALLENGE reply of the CA. *)
Lemma ca_chal_read : forall E g S (ops : store_ops S) ca i x full o es d' d s ri s' cc id, env_laws E -> config_fits g -> ca_at E g ops ca ->
  names_request g id x -> on_interest E g ops ca i x = (full, o) -> cut es full -> In (EPut d') es -> data_msg d = data_msg d' ->
  p_cert (rs_profile s) = Some cc -> public_key cc = o_pub E (cf_sk g) -> data_verifies E d cc -> rs_id s = id ->
  (forall r params, pending ops ca id = Some r -> opens E (rq_key r) id x params -> rq_key r = rs_key s /\ rq_type r = RT_NEW /\ blen (name_wire (c_name (rq_cert r))) < 2 ^ 31) ->
  on_challenge_response E s ri d = (Ok tt, s') ->
  exists r, pending ops ca id = Some r /\ rq_key r = rs_key s /\ rq_type r = RT_NEW /\ signed_by E x (public_key (rq_cert r)) /\ (exists params, opens E (rq_key r) id x params) /\ rest_kept s s' /\
  ((exists r3 cs, In (EUpdate r3) es /\ rq_id r3 = id /\ rq_key r3 = rq_key r /\ rq_type r3 = RT_NEW /\ rq_cert r3 = rq_cert r /\ rq_status r3 = ST_CHALLENGE /\ rq_cs r3 = Some cs /\
      rs_status s' = ST_CHALLENGE /\ rs_cstatus s' = cs_status cs /\ rs_tries s' = Z.of_N (cs_tries cs)) \/
   exists c, In (EIssue c) es /\ certifies E g (rq_cert r) c /\ rs_status s' = ST_SUCCESS /\ rs_issued s' = c_name c /\ rs_fwd s' = p_fwd (cfp g)).
Proof.
  intros E g S ops ca i x full o es d' d s ri s' cc id L (SANE & FC & NF & BF) A N H C I M PC PK V ID K R.
  pose proof (laws_aes E L) as LA. pose proof (laws_sig E L) as LS. pose proof (names_addressed g x id N) as AD.
  rewrite (on_interest_at E g S ops _ ca i x AD) in H. cbn [handle] in H.
  assert (RD : forall content, d' = reply_data E g (i_name x) content -> on_challenge_response E s ri (reply_data E g (i_name x) content) = (Ok tt, s')).
  { intros content ->. rewrite <- (proj2 (same_reading E s ri d _ cc PC M V (ca_verifies E g _ cc LS PK (reply_signed E g _ _)))). exact R. }
  assert (ER : forall code info, plain_error code info -> d' <> error_data E g (i_name x) code info).
  { intros code info PL Q. pose proof (RD _ Q) as Z. change (reply_data E g (i_name x) (err_encode code info)) with (error_data E g (i_name x) code info) in Z.
    rewrite (proj2 (error_unread E g s ri x code info PL)), PC in Z. discriminate. }
  assert (DC : forall content, on_challenge_response E s ri (reply_data E g (i_name x) content) = (Ok tt, s') -> chal_decode E (ri_now ri) content s = (Ok tt, s')).
  { intros content Z. unfold on_challenge_response in Z. destruct (check_reply E (rs_profile s) _) as [[]| | |]; try discriminate. exact Z. }
  assert (FI : forall r, finds g (s_get ops (ca_store ca)) x r -> pending ops ca id = Some r).
  { intros r (id' & CI & G). apply (challenge_id_names g x id' AD) in CI. rewrite (names_same g id id' x N CI). exact G. }
  destruct (on_challenge_cases E g (s_get ops (ca_store ca)) i x) as [(r & F & CO)|[(_ & _ & info & FF & Q)|(_ & Q)]].
  2:{ rewrite Q in H. injection H as <- <-. apply cut_cons in C as [->|(e1 & -> & C)]; [destruct I|]. apply cut_nil in C. subst e1. destruct I as [I|[]]. injection I as <-.
      destruct (ER INVALID_PARAMETER info); [|reflexivity]. split; [discriminate|]. split; [discriminate|exact FF]. }
  2:{ rewrite Q in H. injection H as <- <-. apply cut_nil in C. subst. destruct I. }
  apply FI in F. rewrite H in CO. destruct (pending_good E g S ops ca id r A F) as (RI & STO & GD). destruct (pending_live E g S ops ca id r A F) as [_ LV].
  exists r. split; [exact F|].
  assert (EMS : forall em, ~ In (EPut d') (email_effs em)) by (intros [cmd|] X; [destruct X as [X|[]]; discriminate|destruct X]).
  inversion CO; subst full; subst o; subst.
  - apply cut_cons in C as [->|(e1 & -> & C)]; [destruct I|]. apply cut_nil in C. subst e1. destruct I as [I|[]]. injection I as <-.
    exfalso. apply (ER BAD_SIGNATURE info); [|reflexivity]. split; [discriminate|]. split; [discriminate|assumption].
  - apply cut_cons in C as [->|(e1 & -> & C)]; [destruct I|]. destruct I as [I|I]; [discriminate|]. apply cut_cons in C as [->|(e2 & -> & C)]; [destruct I|]. apply cut_nil in C. subst e2. destruct I as [I|[]]. injection I as <-.
    exfalso. apply (ER code info); [assumption|reflexivity].
  - apply cut_nil in C. subst. destruct I.
  - (* the challenge goes on *)
    match goal with HO : opened E x r ?pp ?tt ?dd, HM : moves _ _ i _ _ _ _ _, HK : known_type _ |- _ => rename HO into OP, HM into MV, HK into KT end.
    match goal with HC : chal_encode E _ _ _ _ = (Ok ?py, ?rr) |- _ => rename HC into CE end.
    match goal with HS : signed_by E x _ |- _ => rename HS into SB end.
    destruct (opened_opens _ _ _ _ _ _ OP) as [OO _]. rewrite RI in OO. destruct (K r params F OO) as (K1 & K2 & K3).
    split; [exact K1|]. split; [exact K2|]. split; [exact SB|]. split; [exists params; exact OO|].
    destruct (moved_live E g i x r params ty dv cs em payload r3 LV OP KT MV CE) as (iv2 & R3 & _ & _ & TR & _).
    destruct (moved_plain E (cf_chal g) i params r dv ty cs em MV) as (nonce & NN & PL).
    destruct (told_size i (moved dv ty cs r) cs nonce (moves_status _ _ _ _ _ _ _ _ MV) NN) as [WF SZ].
    apply chal_encode_ok in CE as (l & iv3 & PL' & _ & _ & PQ); [|exact (live_eiv r LV)|apply rnd_iv_len]. rewrite PL in PL'. injection PL' as <-.
    change (rq_key (moved dv ty cs r)) with (rq_key r) in PQ. change (rq_id (moved dv ty cs r)) with (rq_id r) in PQ. change (rq_eiv (moved dv ty cs r)) with (rq_eiv r) in PQ.
    assert (IU : In (EUpdate r3) es /\ d' = reply_data E g (i_name x) payload).
    { destruct C as [rest C]. clear -C I EMS. destruct em as [cmd|]; cbn [email_effs app] in C.
      - destruct es as [|e0 es]; [destruct I|]. injection C as <- C. destruct I as [I|I]; [discriminate|].
        destruct es as [|e1 es]; [destruct I|]. injection C as <- C. destruct I as [I|I]; [discriminate|]. split; [right; left; reflexivity|].
        destruct es as [|e2 es]; [destruct I|]. injection C as <- C. destruct I as [I|I]; [congruence|].
        destruct es as [|e3 es]; [destruct I|]. injection C as <- C. destruct I as [I|I]; [discriminate|]. destruct es; [destruct I|discriminate].
      - destruct es as [|e1 es]; [destruct I|]. injection C as <- C. destruct I as [I|I]; [discriminate|]. split; [left; reflexivity|].
        destruct es as [|e2 es]; [destruct I|]. injection C as <- C. destruct I as [I|I]; [congruence|].
        destruct es as [|e3 es]; [destruct I|]. injection C as <- C. destruct I as [I|I]; [discriminate|]. destruct es; [destruct I|discriminate]. }
    destruct IU as [IU ->]. pose proof (DC _ (RD _ eq_refl)) as D. rewrite PQ, K1, RI in D.
    apply sealed_read in D as (CR & RK & P); [|exact LA|apply iv12_initial; [exact (live_eiv r LV)|apply rnd_iv_len]|exact WF|unfold fits; lia].
    split; [exact RK|]. left. exists r3, cs. split; [exact IU|]. subst r3.
    apply told_read in CR as (Q1 & Q2 & Q3); [|lia|exact P|cbn; vm_compute; discriminate|destruct NN as [->| ->]; [left; reflexivity|right; eexists; reflexivity]].
    repeat (split; [first [reflexivity|exact K2|assumption]|]). auto.
  - exfalso. destruct C as [rest C]. apply (EMS em). rewrite C. apply in_or_app. left. exact I.
  - (* issued *)
    match goal with HO : opened E x r ?pp ?tt ?dd, HM : issue_certificate _ _ _ _ = _ |- _ => rename HO into OP, HM into IC end.
    match goal with HC : chal_encode E _ _ _ _ = (Ok ?py, ?rr) |- _ => rename HC into CE end.
    match goal with HS : signed_by E x _ |- _ => rename HS into SB end.
    destruct (opened_opens _ _ _ _ _ _ OP) as [OO _]. rewrite RI in OO. destruct (K r params F OO) as (K1 & K2 & K3).
    split; [exact K1|]. split; [exact K2|]. split; [exact SB|]. split; [exists params; exact OO|].
    destruct (issued_facts E g (in_version i) r c GD IC) as [CF NP]. destruct (@issued_size E g r c (in_version i) (proj2 (proj2 (proj2 GD))) IC K3) as [NE B3].
    pose proof (issued_fits E g (in_version i) r c GD (proj1 (proj2 STO)) IC B3) as NC.
    set (r2 := set_status ST_SUCCESS (set_cert c (passed dv ty r))) in *.
    assert (PL : chal_plain r2 (c_name c) (p_fwd (cfp g)) = Ok (issued_tlvs (c_name c) (p_fwd (cfp g)))).
    { unfold chal_plain, issued_tlvs. destruct (c_name c) as [|n0 n1]; [contradiction|]. reflexivity. }
    destruct (chal_plain_fits 0%Z r2 (c_name c) (p_fwd (cfp g)) [] _ (fun c' Q => ltac:(discriminate)) B3 BF PL) as [WF FL].
    apply chal_encode_ok in CE as (l & iv3 & PL' & _ & _ & PQ); [|exact (live_eiv r LV)|apply rnd_iv_len]. rewrite PL in PL'. injection PL' as <-.
    change (rq_key r2) with (rq_key r) in PQ. change (rq_id r2) with (rq_id r) in PQ. change (rq_eiv r2) with (rq_eiv r) in PQ.
    assert (IU : In (EIssue c) es /\ d' = reply_data E g (i_name x) payload).
    { destruct C as [rest C]. clear -C I.
      destruct es as [|e0 es]; [destruct I|]. injection C as <- C. destruct I as [I|I]; [discriminate|]. split; [left; reflexivity|].
      destruct es as [|e1 es]; [destruct I|]. injection C as <- C. destruct I as [I|I]; [discriminate|].
      destruct es as [|e2 es]; [destruct I|]. injection C as <- C. destruct I as [I|I]; [congruence|].
      destruct es as [|e3 es]; [destruct I|]. injection C as <- C. destruct I as [I|I]; [discriminate|]. destruct es; [destruct I|discriminate]. }
    destruct IU as [IU ->]. pose proof (DC _ (RD _ eq_refl)) as D. rewrite PQ, K1, RI in D.
    apply sealed_read in D as (CR & RK & P); [|exact LA|apply iv12_initial; [exact (live_eiv r LV)|apply rnd_iv_len]|exact WF|exact FL].
    split; [exact RK|]. right. exists c. apply issued_read in CR as (Q1 & Q2 & Q3); [|exact NC|exact NF|exact P]. auto 6.
  - exfalso. destruct C as [rest C]. destruct es as [|e0 es]; [destruct I|]. injection C as <- C. destruct I as [I|I]; [discriminate|].
    destruct es as [|e1 es]; [destruct I|]. injection C as <- C. destruct I as [I|I]; [discriminate|]. destruct es; [destruct I|discriminate].
  - exfalso. match goal with HO : opened E x r ?pp ?tt ?dd |- _ => destruct (opened_opens _ _ _ _ _ _ HO) as [OO _] end. rewrite RI in OO. destruct (K r params F OO) as (K1 & K2 & K3).
    match goal with HT : rq_type r = RT_REVOKE |- _ => rewrite HT in K2 end. discriminate.
  - exfalso. destruct C as [rest C]. destruct es as [|e1 es]; [destruct I|]. injection C as <- C. destruct I as [I|I]; [discriminate|]. destruct es; [destruct I|discriminate].
Qed.

(** ** One request per event *)
Lemma interest_one_add : forall E g S (ops : store_ops S) s i x full o r r', on_interest E g ops s i x = (full, o) -> In (EAdd r) full -> In (EAdd r') full -> r = r'.
Proof.
  intros E g S ops s i x full o r r' H I I'.
  assert (NE : forall r em, ~ In (EAdd r) (email_effs em)) by (intros r0 [cmd|] X; [destruct X as [X|[]]; discriminate|destruct X]).
  destruct (on_interest_cases E g S ops s i x) as [[_ O]|(w & W & O)]; rewrite O in H; [injection H as <- <-; destruct I|].
  assert (NW : forall rt, on_new E g (fun r => match s_add ops (ca_store s) r with Some _ => true | None => false end) (ca_idkey s) i rt x = (full, o) -> rt = RT_NEW \/ rt = RT_REVOKE -> r = r').
  { intros rt Q RT. apply on_new_cases in Q as [(peer & c & _ & _ & _ & ->)|[(code & info & _ & -> & _)|(_ & -> & _)]]; [..|destruct I|exact RT].
    - destruct I as [I|[I|[I|[]]]]; try discriminate. destruct I' as [I'|[I'|[I'|[]]]]; try discriminate. congruence.
    - destruct I as [I|[]]; discriminate. }
  destruct w; cbn [handle] in H; try (apply (NW _ H); auto; fail).
  - exfalso. apply discovery_cases in H as [(es0 & d0 & G & _ & m & -> & _)|[-> _]]; [|destruct I]. apply get_profile_spec in G.
    apply in_app_or in I as [I|[I|[]]]; [|discriminate]. destruct G as [[_ ->]|(_ & -> & _)]; [destruct I|destruct I as [I|[]]; discriminate].
  - exfalso. unfold on_probe in H. destruct (bind _ _) as [[reds sufs]| | |]; try (injection H as <- <-; destruct I).
    destruct reds, sufs; injection H as <- <-; destruct I as [I|[]]; discriminate.
  - exfalso. destruct (on_challenge_cases E g (s_get ops (ca_store s)) i x) as [(r0 & F & CO)|[(_ & _ & info & _ & Q)|(_ & Q)]].
    + rewrite H in CO. inversion CO; subst full; subst; repeat (destruct I as [I|I]; try discriminate); try contradiction.
      * apply in_app_or in I as [I|I]; [exact (NE _ _ I)|]. repeat (destruct I as [I|I]; try discriminate); contradiction.
      * exact (NE _ _ I).
    + rewrite Q in H. injection H as <- <-. destruct I as [I|[]]; discriminate.
    + rewrite Q in H. injection H as <- <-. destruct I.
Qed.
Lemma step_one_add : forall E g S (ops : store_ops S) s ev s' es r r', step E g ops s ev = Some (s', es) -> In (EAdd r) es -> In (EAdd r') es -> r = r'.
Proof.
  intros E g S ops s ev s' es r r' ST I I'. destruct ev as [i x|i x n key|key|i]; cbn [step] in ST.
  - destruct (on_interest E g ops s i x) as [full o] eqn:O. assert (Q : es = full) by (destruct o; try discriminate; injection ST as <- <-; reflexivity). subst es. exact (interest_one_add _ _ _ _ _ _ _ _ _ _ _ O I I').
  - destruct (on_interest E g ops s i x) as [full o] eqn:O. assert (Q : es = firstn n full) by (destruct o; try discriminate; injection ST as <- <-; reflexivity). subst es.
    assert (C : cut (firstn n full) full) by (exists (skipn n full); symmetry; apply firstn_skipn). exact (interest_one_add _ _ _ _ _ _ _ _ _ _ _ O (in_cut _ _ _ C I) (in_cut _ _ _ C I')).
  - injection ST as <- <-. destruct I.
  - exfalso. destruct (on_get_profile E g (ca_prof s) i) as [es0 o] eqn:G. assert (Q : es = es0) by (destruct o; try discriminate; injection ST as <- <-; reflexivity). subst es0.
    destruct o as [d0| | |].
    2-4: unfold on_get_profile in G; destruct (profile_data E g (ca_prof s) (in_version i)); try discriminate; injection G as <-; destruct I.
    apply get_profile_spec in G as [[_ ->]|(_ & -> & _)]; [destruct I|]. destruct I as [I|[]]; discriminate.
Qed.

(** ** Runs *)
Definition ca_steps {S} (tr : list (deed S)) : list (hstep S) := flat_map (fun e => match e with DCa st => [st] | _ => [] end) tr.
Lemma ca_steps_app : forall S (a b : list (deed S)), ca_steps (a ++ b) = ca_steps a ++ ca_steps b.
Proof. intros S a b. apply flat_map_app. Qed.
Lemma in_ca_steps : forall S (tr : list (deed S)) st, In st (ca_steps tr) <-> In (DCa st) tr.
Proof.
  intros S tr st. unfold ca_steps. rewrite in_flat_map. split.
  - intros (e & I & J). destruct e; cbn in J; try contradiction. destruct J as [->|[]]. exact I.
  - intros I. exists (DCa st). split; [exact I|left; reflexivity].
Qed.
Lemma ca_steps_split : forall S (tr : list (deed S)) a1 st a2, ca_steps tr = a1 ++ st :: a2 -> exists b1 b2, tr = b1 ++ DCa st :: b2 /\ ca_steps b1 = a1 /\ ca_steps b2 = a2.
Proof.
  intros S tr. induction tr as [|e tr IH]; intros a1 st a2 H; [destruct a1; discriminate|].
  destruct e as [st0|x c|x d o s'|x key|x d o s']; cbn [ca_steps flat_map app] in H.
  1:{ destruct a1 as [|y a1]; cbn [app] in H; injection H as -> H; [exists [], tr; auto|]. destruct (IH _ _ _ H) as (b1 & b2 & -> & <- & <-). exists (DCa y :: b1), b2. auto. }
  all: destruct (IH _ _ _ H) as (b1 & b2 & -> & <- & <-); eexists (_ :: b1), b2; split; [reflexivity|auto].
Qed.
Lemma last_split : forall A (tr : list A) e a y b, tr ++ [e] = a ++ y :: b -> (b = [] /\ tr = a /\ e = y) \/ exists b', b = b' ++ [e] /\ tr = a ++ y :: b'.
Proof.
  intros A tr e a y b H. destruct (exists_last (l := y :: b)) as (b' & z & Q); [discriminate|]. rewrite Q in H. rewrite app_assoc in H. apply app_inj_tail in H as [-> <-].
  destruct b' as [|y' b']; cbn [app] in Q; injection Q as -> Q; [left; rewrite app_nil_r; auto|right; exists b'; auto].
Qed.

Section Run.
  Context (E : env) (g : ca_cfg) {S : Type} (ops : store_ops S) (p : profile) (sk : bytes).
  Context (SET : setting E g ops p).
  Notation net := (network E g ops p sk).
  Notation idl := (ideal E g ops sk).

  Lemma ideal_prefix : forall a b, idl (a ++ b) -> idl a.
  Proof.
    assert (ST : forall (a b : list (deed S)) x, sent a x -> sent (a ++ b) x).
    { intros a b x [[c I]|[key I]]; [left; exists c|right; exists key]; apply in_or_app; left; exact I. }
    intros a b [D I G Z K]. constructor.
    - intros a1 e b1 d -> R V. apply (D a1 e (b1 ++ b) d); [rewrite <- app_assoc; reflexivity|exact R|exact V].
    - intros a1 st b1 i x -> H V. apply (I a1 st (b1 ++ b) i x); [rewrite <- app_assoc; reflexivity|exact H|exact V].
    - intros st i x x' J H T N. apply (G st i x x'); auto. apply in_or_app. left. exact J.
    - intros st i x key id r params J H T. apply (Z st i x key id r params); auto; apply in_or_app; left; assumption.
    - intros a1 st b1 st' c1 r r' ->. apply (K a1 st b1 st' (c1 ++ b)). rewrite <- app_assoc. cbn [app]. rewrite <- app_assoc. reflexivity.
  Qed.
  Lemma net_history : forall tr ca s w, net tr ca s w -> ca_history E g ops (ca_steps tr) ca.
  Proof.
    intros tr ca s w N. induction N; try (rewrite ca_steps_app; cbn [ca_steps flat_map]; rewrite app_nil_r; exact IHN); try exact IHN.
    - destruct SET as [L PF B _ _]. constructor; [exact (laws_codec E L)|exact PF|exact B|]. exists key. constructor.
    - rewrite ca_steps_app. cbn [ca_steps flat_map app]. exact (history_push S E g ops _ (HStep ca ev es ca') IHN H).
  Qed.
  Lemma net_step : forall tr ca s w st, net tr ca s w -> In (DCa st) tr ->
    exists a1 a2, ca_steps tr = a1 ++ st :: a2 /\ ca_history E g ops a1 (h_pre st) /\ ca_at E g ops (h_pre st) /\ step E g ops (h_pre st) (h_ev st) = Some (h_post st, h_effs st).
  Proof.
    intros tr ca s w st N I. apply in_ca_steps in I. apply in_split in I as (a1 & a2 & Q). pose proof (net_history _ _ _ _ N) as H. rewrite Q in H.
    change (st :: a2) with ([st] ++ a2) in H. rewrite app_assoc in H. apply history_cut in H as (m & H & _). apply history_snoc in H as (H & ST & _).
    exists a1, a2. split; [exact Q|]. split; [exact H|]. split; [exact (history_at _ _ _ _ _ _ H)|exact ST].
  Qed.

  (** The run up to a deed. *)
  Inductive does : deed S -> ca_state S -> rstate -> wait -> rstate -> Prop :=
  | do_ca : forall st s w, does (DCa st) (h_pre st) s w s
  | do_new : forall x ca s w ri kn nb na s', sendable E sk ri kn nb na -> gen_new E s ri kn sk nb na = (Ok (Some x), s') -> does (DNew x (cert_request E sk ri kn nb na)) ca s w s'
  | do_new_reply : forall x d o ca s s' ri, d_name d = i_name x -> length (ri_salt0 ri) = 32%nat -> on_new_response E s ri d = (o, s') -> does (DNewReply x d o s') ca s (WaitNew x) s'
  | do_chal : forall x ca s w ri params s', gen_challenge E s ri params = (Ok x, s') -> does (DChallenge x (rs_key s)) ca s w s'
  | do_chal_reply : forall x d o ca s s' ri, d_name d = i_name x -> on_challenge_response E s ri d = (o, s') -> does (DChalReply x d o s') ca s (WaitChallenge x) s'.
  Lemma net_at : forall tr ca s w, net tr ca s w -> forall a e b, tr = a ++ e :: b -> exists ca1 s1 w1 s2, net a ca1 s1 w1 /\ does e ca1 s1 w1 s2.
  Proof.
    intros tr ca s w N. induction N; intros a0 e0 b0 Q; try (eapply IHN; exact Q; fail).
    1: destruct a0; discriminate.
    all: apply last_split in Q as [(-> & -> & <-)|(b' & -> & Q)]; [|eapply IHN; exact Q].
    - exists ca, s, w, s. split; [exact N|]. exact (do_ca (HStep ca ev es ca') s w).
    - exists ca, s, w, s'. split; [exact N|]. econstructor; eassumption.
    - exists ca, s, (WaitNew x), s'. split; [exact N|]. econstructor; eassumption.
    - exists ca, s, w, s'. split; [exact N|]. econstructor; eassumption.
    - exists ca, s, (WaitChallenge x), s'. split; [exact N|]. econstructor; eassumption.
  Qed.

  (** ** What holds throughout *)
  Record inv (tr : list (deed S)) (s : rstate) (w : wait) : Prop := {
    iv_profile : rs_profile s = p;
    iv_len : length (rs_id s) = 8%nat;
    iv_new : forall x c0, In (DNew x c0) tr -> addressed g VNew (i_name x) /\ carries E RT_NEW x (o_ecdh_pub E (rs_ecdh s)) c0 /\ blen (name_wire (c_name c0)) < 2 ^ 31;
    iv_chal : forall x key, In (DChallenge x key) tr -> addressed g VChallenge (i_name x);
    iv_wait_new : forall x, w = WaitNew x -> exists c0, In (DNew x c0) tr;
    iv_wait_chal : forall x, w = WaitChallenge x -> In (DChallenge x (rs_key s)) tr /\ names_request g (rs_id s) x;
    iv_joined : forall x0 s0, joined tr x0 s0 -> rs_id s = rs_id s0 /\ rs_key s = rs_key s0 /\ exists c0 r, took_in tr x0 c0 r /\ rq_id r = rs_id s0 /\ rq_key r = rs_key s0
  }.
  Lemma took_more : forall (a b : list (deed S)) x c0 r, took_in a x c0 r -> took_in (a ++ b) x c0 r.
  Proof. intros a b x c0 r (st & i & A & B & C). exists st, i. split; [apply in_or_app; left; exact A|]. split; [apply in_or_app; left; exact B|exact C]. Qed.
  Lemma joined_last : forall (tr : list (deed S)) e x0 s0, ~ is_join e -> joined (tr ++ [e]) x0 s0 -> joined tr x0 s0.
  Proof.
    intros tr e x0 s0 N (a & d & chals & b & Q & F). apply last_split in Q as [(-> & -> & ->)|(b' & -> & ->)]; [exfalso; apply N; do 4 eexists; reflexivity|].
    apply Forall_app in F as [F _]. exists a, d, chals, b'. auto.
  Qed.
  Lemma gen_new_inv : forall s ri kn nb na x s', p_prefix (rs_profile s) = p_prefix (cfp g) -> sendable E sk ri kn nb na -> gen_new E s ri kn sk nb na = (Ok (Some x), s') ->
    carries E RT_NEW x (o_ecdh_pub E (rs_ecdh s)) (cert_request E sk ri kn nb na) /\ blen (name_wire (c_name (cert_request E sk ri kn nb na))) < 2 ^ 31 /\
    exists identity, s' = upd_keypair (Some (kn, sk)) (upd_identity identity s).
  Proof.
    intros s ri kn nb na x s' PX (W1 & W2 & B & MV & F) H. pose proof (se_env _ _ _ _ SET) as L.
    pose proof (laws_sig E L) as LS. pose proof (laws_ecdh E L) as LE. pose proof (laws_codec E L) as LC.
    assert (KU : key_under (p_prefix (rs_profile s)) kn).
    { unfold gen_new in H. apply key_under_iff. destruct (is_prefix _ kn); cbn [negb] in H; [|discriminate]. split; [reflexivity|]. destruct kn; [discriminate|].
      destruct (get_neg 2 _) as [k|]; [|discriminate]. destruct (comp_eqb k c_KEY) eqn:Q; [|discriminate]. apply comp_eqb_eq in Q. subst. reflexivity. }
    pose proof KU as (_ & identity & kid & KN). rewrite (gen_new_eq E s ri kn sk nb na identity kid KU KN) in H. injection H as <- <-.
    destruct (mk_validity nb na) as [nb' na'] eqn:Q. destruct (MV nb' na' eq_refl) as [R1 R2].
    assert (FE : fits (o_ecdh_pub E (rs_ecdh s))) by (pose proof (l_ecdh_pub_len E LE (rs_ecdh s)); unfold fits; lia).
    split; [apply carries_encoded; auto; [eapply request_wf; eassumption|apply request_ok; eauto]|]. split; [|eexists; reflexivity].
    unfold cert_request. cbn [c_name]. pose proof (name_wire_app kn [gc (bs "cert-request"); version_comp (ri_version ri)]) as L1. cbn [enc_tlvs] in L1. rewrite !blen_app in L1.
    pose proof (enc_tlv_len (gc (bs "cert-request"))) as L3. pose proof (enc_tlv_len (version_comp (ri_version ri))) as L4. cbn [gc version_comp t_val] in L3, L4. pose proof (nni_enc_len (ri_version ri)).
    change (blen (bs "cert-request")) with 12 in L3. change (blen []) with 0 in *. lia.
  Qed.
  Lemma gen_chal_inv : forall s ri params x s', p_prefix (rs_profile s) = p_prefix (cfp g) -> length (rs_id s) = 8%nat -> gen_challenge E s ri params = (Ok x, s') -> names_request g (rs_id s) x.
  Proof.
    intros s ri params x s' PX L8 H. unfold gen_challenge in H. destruct (rs_ctype s); [discriminate|]. destruct (gen_challenge_tlv _ _ _ _) as [[els| | |]|]; try discriminate. destruct (encode_aes _ _ _ _ _ _) as [o iv].
    destruct o as [q| | |]; try discriminate. destruct (rs_keypair s) as [[kn k]|]; [|discriminate]. injection H as <- _. rewrite PX. unfold signed_interest. cbn [i_name].
    exists T_Generic. eexists. split; [rewrite <- app_assoc; reflexivity|exact L8].
  Qed.
  Lemma gen_chal_keeps : forall s ri params o s', gen_challenge E s ri params = (o, s') -> exists iv, s' = upd_eiv iv s.
  Proof.
    intros s ri params o s' H. assert (SELF : s = upd_eiv (rs_eiv s) s) by (destruct s; reflexivity).
    unfold gen_challenge in H. destruct (rs_ctype s); [injection H as _ <-; eauto|]. destruct (gen_challenge_tlv _ _ _ _) as [[els| | |]|]; try (injection H as _ <-; eauto; fail).
    destruct (encode_aes _ _ _ _ _ _) as [o' iv]. destruct o' as [q| | |]; try (injection H as _ <-; eauto; fail). destruct (rs_keypair s) as [[kn k]|]; injection H as _ <-; eauto.
  Qed.
  Lemma carries_same : forall x p1 c1 p2 c2, carries E RT_NEW x p1 c1 -> carries E RT_NEW x p2 c2 -> p1 = p2 /\ c1 = c2.
  Proof. intros x p1 c1 p2 c2 C1 C2. apply carries_decode in C1; [|auto]. apply carries_decode in C2; [|auto]. rewrite C1 in C2. injection C2; auto. Qed.

  (** A NEW reply is the CA's, or does nothing. *)
  Lemma new_read : forall tr ca s x ri d o s', net tr ca s (WaitNew x) -> inv tr s (WaitNew x) -> idl (tr ++ [DNewReply x d o s']) ->
    d_name d = i_name x -> length (ri_salt0 ri) = 32%nat -> on_new_response E s ri d = (o, s') ->
    (o = Exn /\ s' = s) \/
    (exists c0 r, took_in tr x c0 r /\ rq_id r = rs_id s' /\ rq_key r = rs_key s' /\ o = Ok (p_challenges (cfp g)) /\ s' = upd_key (rq_key r) (upd_id (rq_id r) s) /\ length (rq_id r) = 8%nat).
  Proof.
    intros tr ca s x ri d o s' N IV ID DN L32 R. destruct SET as [L PF B (SANE & FC & CF) (PX & cc & PC & PK)].
    pose proof (iv_profile _ _ _ IV) as PP. pose proof PC as PC'. rewrite <- PP in PC'.
    destruct (o_verify E (public_key cc) (data_msg d) (d_sig d)) eqn:V.
    2:{ left. rewrite (proj1 (unverified E s ri d cc PC' ltac:(unfold data_verifies; rewrite V; discriminate))) in R. injection R as <- <-. auto. }
    destruct (iv_wait_new _ _ _ IV x eq_refl) as (c0 & IN). destruct (iv_new _ _ _ IV x c0 IN) as (AD & CA & _).
    pose proof V as V'. rewrite PK in V'.
    destruct (id_data _ _ _ _ _ ID tr _ [] d eq_refl ltac:(left; do 3 eexists; reflexivity) V') as (st & d' & IS & IP & M).
    destruct (net_step _ _ _ _ _ N IS) as (a1 & a2 & _ & _ & A & ST). destruct st as [pre ev es post]. cbn [h_pre h_ev h_post h_effs] in *.
    assert (DN' : d_name d' = d_name d) by (unfold data_msg in M; injection M; auto).
    assert (AD' : addressed g VNew (d_name d')) by (rewrite DN', DN; exact AD).
    destruct (step_answers E g S ops pre ev post es d' VNew (at_reach _ _ _ _ A) ST IP (or_introl eq_refl) AD') as (i & x' & full & o' & EV & OI & CU & NX & IP').
    assert (x' = x) as ->.
    { apply (id_digest _ _ _ _ _ ID (HStep pre ev es post) i x' x); [apply in_or_app; left; exact IS|exact EV|left; exists c0; apply in_or_app; left; exact IN|congruence]. }
    destruct (ca_new_read E g S ops pre i x full o' es d' d s ri o s' cc L FC OI CU AD IP' (eq_sym M) PC' PK (iv_len _ _ _ IV) L32 V R) as [Q|(peer & c & ADM & IA & -> & ->)]; [left; exact Q|].
    right. destruct (carries_same x _ _ _ _ (ad_params _ _ _ _ _ _ _ _ ADM) CA) as [-> ->].
    eexists c0, _. split; [exists (HStep pre ev es post), i; split; [exact IN|]; split; [exact IS|]; split; [exact EV|]; split; [exact IA|]; split; reflexivity|].
    split; [reflexivity|]. split; [reflexivity|]. split; [reflexivity|]. split; [reflexivity|]. apply request_id_len, (laws_hash E L).
  Qed.
  Lemma net_inv : forall tr ca s w, net tr ca s w -> idl tr -> inv tr s w.
  Proof.
    pose proof SET as [_ _ _ _ (PX & _)].
    intros tr ca s w N. induction N; intros ID.
    - constructor; try (intros ? ? []; fail); try discriminate; [reflexivity|exact H|]. intros x0 s0 (a & d & chals & b & Q & _). destruct a; discriminate.
    - pose proof (IHN (ideal_prefix _ _ ID)) as [P1 P2 P3 P4 P5 P6 P7]. constructor; [exact P1|exact P2|..].
      + intros x c0 I. apply in_app_or in I as [I|[I|[]]]; [exact (P3 x c0 I)|discriminate].
      + intros x key I. apply in_app_or in I as [I|[I|[]]]; [exact (P4 x key I)|discriminate].
      + intros x Q. destruct (P5 x Q) as [c0 I]. exists c0. apply in_or_app. left. exact I.
      + intros x Q. destruct (P6 x Q) as [I J]. split; [apply in_or_app; left; exact I|exact J].
      + intros x0 s0 J. apply joined_last in J; [|intros (? & ? & ? & ? & Q); discriminate]. destruct (P7 x0 s0 J) as (Q1 & Q2 & c0 & r & T & Q3). split; [exact Q1|]. split; [exact Q2|]. exists c0, r. split; [apply took_more, T|exact Q3].
    - pose proof (IHN (ideal_prefix _ _ ID)) as [P1 P2 P3 P4 P5 P6 P7]. assert (PX' : p_prefix (rs_profile s) = p_prefix (cfp g)) by (rewrite P1; exact PX).
      destruct (gen_new_inv s ri keyname nb na x s' PX' H H0) as (CA & SZ & identity & ->). constructor; [exact P1|exact P2|..].
      + intros x0 c0 I. apply in_app_or in I as [I|[I|[]]]; [exact (P3 x0 c0 I)|]. injection I as <- <-. split; [exact (new_addressed E g s ri keyname sk nb na x _ PX' H0)|]. split; [exact CA|exact SZ].
      + intros x0 key I. apply in_app_or in I as [I|[I|[]]]; [exact (P4 x0 key I)|discriminate].
      + intros x0 Q. injection Q as <-. eexists. apply in_or_app. right. left. reflexivity.
      + discriminate.
      + intros x0 s0 J. apply joined_last in J; [|intros (? & ? & ? & ? & Q); discriminate]. destruct (P7 x0 s0 J) as (Q1 & Q2 & c0 & r & T & Q3). split; [exact Q1|]. split; [exact Q2|]. exists c0, r. split; [apply took_more, T|exact Q3].
    - pose proof (IHN (ideal_prefix _ _ ID)) as IV. pose proof IV as [P1 P2 P3 P4 P5 P6 P7].
      assert (I1 : forall x0 c0, In (DNew x0 c0) (tr ++ [DNewReply x d o s']) -> In (DNew x0 c0) tr) by (intros x0 c0 I; apply in_app_or in I as [I|[I|[]]]; [exact I|discriminate]).
      assert (I2 : forall x0 c0, In (DChallenge x0 c0) (tr ++ [DNewReply x d o s']) -> In (DChallenge x0 c0) tr) by (intros x0 c0 I; apply in_app_or in I as [I|[I|[]]]; [exact I|discriminate]).
      destruct (new_read tr ca s x ri d o s' N IV ID H H0 H1) as [[-> ->]|(c0 & r & T & Q1 & Q2 & -> & Q3 & L8)].
      + constructor; [exact P1|exact P2|intros x0 c0 I; apply P3, I1, I|intros x0 key I; apply (P4 x0 key), I2, I|discriminate|discriminate|].
        intros x0 s0 J. apply joined_last in J; [|intros (? & ? & ? & ? & Q); discriminate]. destruct (P7 x0 s0 J) as (Q1 & Q2 & c0 & r & T & Q3). split; [exact Q1|]. split; [exact Q2|]. exists c0, r. split; [apply took_more, T|exact Q3].
      + assert (EC : rs_ecdh s' = rs_ecdh s) by (rewrite Q3; reflexivity). assert (PR : rs_profile s' = rs_profile s) by (rewrite Q3; reflexivity).
        constructor; [rewrite PR; exact P1|rewrite <- Q1; exact L8|intros x0 c1 I; rewrite EC; apply P3, I1, I|intros x0 key I; apply (P4 x0 key), I2, I|discriminate|discriminate|].
        intros x0 s0 (a & d0 & chals & b & Q & F). apply last_split in Q as [(-> & -> & Q)|(b' & -> & ->)].
        * injection Q as -> -> -> ->. split; [reflexivity|]. split; [reflexivity|]. exists c0, r. split; [apply took_more, T|auto].
        * exfalso. apply Forall_app in F as [_ F]. inversion F as [|? ? Z _]; subst. apply Z. do 4 eexists. reflexivity.
    - pose proof (IHN ID) as [P1 P2 P3 P4 P5 P6 P7]. unfold select_challenge in H. destruct (requested_params _ _ _); injection H as _ <-; constructor; assumption.
    - pose proof (IHN (ideal_prefix _ _ ID)) as [P1 P2 P3 P4 P5 P6 P7]. assert (PX' : p_prefix (rs_profile s) = p_prefix (cfp g)) by (rewrite P1; exact PX).
      pose proof (gen_chal_inv s ri params x s' PX' P2 H) as NR. pose proof (chal_addressed E g s ri params x s' PX' H) as AD. destruct (gen_chal_keeps _ _ _ _ _ H) as (iv & ->).
      constructor; [exact P1|exact P2|..].
      + intros x0 c0 I. apply in_app_or in I as [I|[I|[]]]; [exact (P3 x0 c0 I)|discriminate].
      + intros x0 key I. apply in_app_or in I as [I|[I|[]]]; [exact (P4 x0 key I)|]. injection I as <- _. exact AD.
      + discriminate.
      + intros x0 Q. injection Q as <-. split; [apply in_or_app; right; left; reflexivity|exact NR].
      + intros x0 s0 J. apply joined_last in J; [|intros (? & ? & ? & ? & Q); discriminate]. destruct (P7 x0 s0 J) as (Q1 & Q2 & c0 & r & T & Q3). split; [exact Q1|]. split; [exact Q2|]. exists c0, r. split; [apply took_more, T|exact Q3].
    - pose proof (IHN ID) as [P1 P2 P3 P4 P5 P6 P7]. destruct (gen_chal_keeps _ _ _ _ _ H) as (iv & ->). constructor; try assumption; discriminate.
    - pose proof (IHN (ideal_prefix _ _ ID)) as [P1 P2 P3 P4 P5 P6 P7]. pose proof (challenge_kept _ _ _ _ _ _ H0) as (K1 & K2 & K3 & K4 & K5 & K6 & K7 & _).
      constructor; [rewrite K1; exact P1|rewrite K4; exact P2|..].
      + intros x0 c0 I. rewrite K6. apply in_app_or in I as [I|[I|[]]]; [exact (P3 x0 c0 I)|discriminate].
      + intros x0 key I. apply in_app_or in I as [I|[I|[]]]; [exact (P4 x0 key I)|discriminate].
      + discriminate.
      + discriminate.
      + intros x0 s0 J. apply joined_last in J; [|intros (? & ? & ? & ? & Q); discriminate]. rewrite K4, K7. destruct (P7 x0 s0 J) as (Q1 & Q2 & c0 & r & T & Q3). split; [exact Q1|]. split; [exact Q2|]. exists c0, r. split; [apply took_more, T|exact Q3].
  Qed.

  (** ** The requester's view *)
  Lemma joins_agree : forall tr ca s w a x d chals s' b, net tr ca s w -> idl tr -> tr = a ++ DNewReply x d (Ok chals) s' :: b ->
    exists c0 r, took_in a x c0 r /\ rq_id r = rs_id s' /\ rq_key r = rs_key s' /\ chals = p_challenges (cfp g).
  Proof.
    intros tr ca s w a x d chals s' b N ID Q. destruct (net_at _ _ _ _ N _ _ _ Q) as (ca1 & s1 & w1 & s2 & N1 & D).
    assert (ID1 : idl (a ++ [DNewReply x d (Ok chals) s'])) by (apply (ideal_prefix _ b); rewrite <- app_assoc; cbn [app]; rewrite <- Q; exact ID).
    inversion D as [| |x0 d0 o0 ca0 s0 s0' ri DN L32 R| |]; subst. pose proof (net_inv _ _ _ _ N1 (ideal_prefix _ _ ID1)) as IV.
    destruct (new_read a ca1 s1 x ri d (Ok chals) s2 N1 IV ID1 DN L32 R) as [[Z _]|(c0 & r & T & Q1 & Q2 & Z & _)]; [discriminate|].
    exists c0, r. split; [exact T|]. split; [exact Q1|]. split; [exact Q2|]. congruence.
  Qed.
  Lemma same_add : forall tr ca s w st st' r r', net tr ca s w -> idl tr -> In (DCa st) tr -> In (DCa st') tr -> In (EAdd r) (h_effs st) -> In (EAdd r') (h_effs st') -> rq_key r = rq_key r' -> r = r'.
  Proof.
    intros tr ca s w st st' r r' N ID I I' A A' K. destruct (net_step _ _ _ _ _ N I) as (_ & _ & _ & _ & _ & ST).
    apply in_split in I as (a & b & Q). rewrite Q in I'. apply in_app_or in I' as [I'|[I'|I']].
    - exfalso. apply in_split in I' as (a1 & a2 & ->). rewrite <- app_assoc in Q. cbn [app] in Q. exact (id_keys _ _ _ _ _ ID _ _ _ _ _ _ _ Q A' A (eq_sym K)).
    - injection I' as ->. exact (step_one_add _ _ _ _ _ _ _ _ _ _ ST A A').
    - exfalso. apply in_split in I' as (b1 & b2 & ->). exact (id_keys _ _ _ _ _ ID _ _ _ _ _ _ _ Q A A' K).
  Qed.
  Lemma challenges_agree : forall tr ca s w a x d s' b x0 s0, net tr ca s w -> idl tr -> tr = a ++ DChalReply x d (Ok tt) s' :: b -> joined a x0 s0 ->
    exists c0 r0 st i, took_in a x0 c0 r0 /\ rq_id r0 = rs_id s' /\ rq_key r0 = rs_key s' /\
      In (DCa st) a /\ handles st i x /\ names_request g (rs_id s') x /\
      ((exists r cs, In (EUpdate r) (h_effs st) /\ rq_id r = rq_id r0 /\ rq_key r = rq_key r0 /\ rq_cert r = c0 /\ rq_status r = ST_CHALLENGE /\ rq_cs r = Some cs /\
          rs_status s' = ST_CHALLENGE /\ rs_cstatus s' = cs_status cs /\ rs_tries s' = Z.of_N (cs_tries cs)) \/
       exists c, In (EIssue c) (h_effs st) /\ certifies E g c0 c /\ rs_status s' = ST_SUCCESS /\ rs_issued s' = c_name c /\ rs_fwd s' = p_fwd (cfp g)).
  Proof.
    intros tr ca s w a x d s' b x0 s0 N ID Q J. destruct (net_at _ _ _ _ N _ _ _ Q) as (ca1 & s1 & w1 & s2 & N1 & D).
    assert (ID1 : idl (a ++ [DChalReply x d (Ok tt) s'])) by (apply (ideal_prefix _ b); rewrite <- app_assoc; cbn [app]; rewrite <- Q; exact ID).
    inversion D as [| | | |y0 d0 o0 ca0 s00 s0' ri DN R]; subst. clear D. pose proof (ideal_prefix _ _ ID1) as ID0. pose proof (net_inv _ _ _ _ N1 ID0) as IV.
    rename s2 into s'. destruct (iv_joined _ _ _ IV x0 s0 J) as (J1 & J2 & c0 & r0 & T & T1 & T2). pose proof T as (st0 & i0 & T3 & T4 & T5 & T6 & T7 & T8).
    destruct (iv_wait_chal _ _ _ IV x eq_refl) as [IN NR]. pose proof (iv_chal _ _ _ IV _ _ IN) as AD.
    pose proof SET as [L PF B CF (PX & cc & PC & PK)]. pose proof PC as PC'. rewrite <- (iv_profile _ _ _ IV) in PC'.
    destruct (o_verify E (public_key cc) (data_msg d) (d_sig d)) eqn:V.
    2:{ exfalso. rewrite (proj2 (unverified E s1 ri d cc PC' ltac:(unfold data_verifies; rewrite V; discriminate))) in R. discriminate. }
    pose proof V as V'. rewrite PK in V'.
    destruct (id_data _ _ _ _ _ ID1 a _ [] d eq_refl ltac:(right; do 3 eexists; reflexivity) V') as (st & d' & IS & IP & M).
    destruct (net_step _ _ _ _ _ N1 IS) as (a1 & a2 & CS & HI & A & ST).
    assert (DN' : d_name d' = d_name d) by (unfold data_msg in M; injection M; auto).
    assert (AD' : addressed g VChallenge (d_name d')) by (rewrite DN', DN; exact AD).
    destruct (step_answers E g S ops (h_pre st) (h_ev st) (h_post st) (h_effs st) d' VChallenge (at_reach _ _ _ _ A) ST IP (or_intror eq_refl) AD') as (i & x' & full & o' & EV & OI & CU & NX & IP').
    assert (x' = x) as ->.
    { apply (id_digest _ _ _ _ _ ID0 st i x' x); [exact IS|exact EV|right; eexists; exact IN|congruence]. }
    assert (K : forall r params, pending ops (h_pre st) (rs_id s1) = Some r -> opens E (rq_key r) (rs_id s1) x params ->
      rq_key r = rs_key s1 /\ rq_cert r = c0 /\ rq_type r = RT_NEW).
    { intros r params PE OP. assert (KE : rq_key r = rs_key s1) by exact (id_sealed _ _ _ _ _ ID0 st i x (rs_key s1) (rs_id s1) r params IS EV IN NR PE OP). split; [exact KE|].
      destruct (has_origin S E g ops a1 (h_pre st) (rs_id s1) r HI PE) as (b1 & st1 & b2 & QA & (i1 & x1 & peer & _ & _ & _ & KQ & IA) & _).
      assert (I1 : In (DCa st1) a) by (apply in_ca_steps; rewrite CS, QA; apply in_or_app; left; apply in_or_app; right; left; reflexivity).
      assert (X : r0 = created E g i1 (rq_type r) (rs_id s1) peer (rq_cert r)).
      { apply (same_add a ca1 s1 (WaitChallenge x) st0 st1 _ _ N1 ID0 T4 I1 T6 IA). cbn [created rq_key]. rewrite <- KQ. congruence. }
      rewrite X in T7, T8. auto. }
    destruct (iv_new _ _ _ IV x0 c0 T3) as (_ & _ & SZ).
    destruct (ca_chal_read E g S ops (h_pre st) i x full o' (h_effs st) d' d s1 ri s' cc (rs_id s1) L CF A NR OI CU IP' (eq_sym M) PC' PK V eq_refl) as (r & PE & K1 & K2 & _ & (params & OP) & RK & OUT).
    { intros r params PE OP. destruct (K r params PE OP) as (Z1 & Z2 & Z3). rewrite Z2. auto. }
    { exact R. }
    destruct (K r params PE OP) as (_ & KC & _). destruct RK as (_ & _ & _ & RK1 & _ & _ & RK2 & _).
    exists c0, r0, st, i. split; [exact T|]. split; [congruence|]. split; [congruence|]. split; [exact IS|]. split; [exact EV|]. split; [rewrite RK1; exact NR|].
    rewrite KC in OUT. destruct OUT as [(r3 & cs & U1 & U2 & U3 & _ & U5 & U6 & U7 & U8 & U9 & U10)|(c & U1 & U2 & U3 & U4 & U5)]; [left|right].
    - exists r3, cs. split; [exact U1|]. split; [congruence|]. split; [congruence|]. auto 10.
    - exists c. auto 10.
  Qed.

  (** ** The CA's view *)
  Lemma new_or_challenge : forall x x', addressed g VNew (i_name x) -> addressed g VChallenge (i_name x') -> interest_msg x <> interest_msg x'.
  Proof.
    intros x x' [r Q] [r' Q'] M. unfold interest_msg in M. injection M as M _. rewrite Q, Q' in M. unfold strip_digest in M. rewrite !filter_app in M. apply app_inv_head in M.
    revert M. cbn. discriminate.
  Qed.
  Lemma params_same : forall x x', interest_msg x = interest_msg x' -> params_of x = params_of x'.
  Proof. intros x x' M. unfold interest_msg in M. injection M as _ M. exact M. Qed.
  Lemma issue_agrees : forall tr ca s w a st b c, net tr ca s w -> idl tr -> tr = a ++ DCa st :: b -> In (EIssue c) (h_effs st) -> public_key c = o_pub E sk ->
    exists c0 r new x1 y1 i1 start x2 key2 y2 i2 x3 key3 y3 i3,
      certifies E g c0 c /\
      (In (DNew x1 c0) a /\ In (DCa new) a /\ handles new i1 y1 /\ interest_msg y1 = interest_msg x1 /\ In (EAdd r) (h_effs new) /\ rq_type r = RT_NEW /\ rq_cert r = c0) /\
      (In (DChallenge x2 key2) a /\ In (DCa start) a /\ handles start i2 y2 /\ interest_msg y2 = interest_msg x2 /\ names_request g (rq_id r) y2) /\
      (In (DChallenge x3 key3) a /\ handles st i3 y3 /\ interest_msg y3 = interest_msg x3 /\ names_request g (rq_id r) y3).
  Proof.
    intros tr ca s w a st b c N ID Q IS PK.
    destruct (net_at _ _ _ _ N _ _ _ Q) as (ca1 & s1 & w1 & s2 & N1 & _).
    assert (ID1 : idl (a ++ [DCa st])) by (apply (ideal_prefix _ b); rewrite <- app_assoc; cbn [app]; rewrite <- Q; exact ID).
    pose proof (net_inv _ _ _ _ N1 (ideal_prefix _ _ ID1)) as IV.
    pose proof (net_history _ _ _ _ N) as H. rewrite Q, ca_steps_app in H. cbn [ca_steps flat_map app] in H.
    change (st :: flat_map (fun e => match e with DCa st => [st] | _ => [] end) b) with ([st] ++ ca_steps b) in H. rewrite app_assoc in H. apply history_cut in H as (m & H & _).
    destruct (after_passing E g S ops (ca_steps a) st m c H IS) as (id & key & c0 & a1 & new & a2 & start & a3 & i0 & params0 & ty0 & r & cs & em & i & params & ty & QA & AC & _ & AK0 & _ & _ & _ & AK & _ & CE).
    assert (PK0 : public_key c0 = o_pub E sk).
    { rewrite <- PK. destruct CE as (? & ? & ? & ? & _ & _ & CC & _). unfold public_key. rewrite CC. reflexivity. }
    pose proof QA as QB. apply ca_steps_split in QB as (e1 & e2 & QB & _ & QC). apply ca_steps_split in QC as (e3 & e4 & -> & _ & _).
    destruct AC as (i1 & y1 & peer & HD1 & AD1 & ADM & _ & IA). destruct AK0 as (y2 & HD2 & NR2 & SG2 & _). destruct AK as (y3 & HD3 & NR3 & SG3 & _).
    rewrite PK0 in SG2, SG3. change (RT_NEW =? RT_NEW) with true in AD1. cbv iota in AD1.
    assert (SG1 : signed_by E y1 (o_pub E sk)).
    { destruct (ad_cert _ _ _ _ _ _ _ _ ADM) as [(_ & _ & _ & SG)|(Z & _)]; [rewrite <- PK0; exact SG|discriminate]. }
    assert (S1 : exists x', sent e1 x' /\ interest_msg x' = interest_msg y1).
    { apply (id_interest _ _ _ _ _ ID1 e1 new ((e3 ++ DCa start :: e4) ++ [DCa st]) i1 y1); [rewrite QB, <- app_assoc; reflexivity|exact HD1|exact SG1]. }
    assert (S2 : exists x', sent (e1 ++ DCa new :: e3) x' /\ interest_msg x' = interest_msg y2).
    { apply (id_interest _ _ _ _ _ ID1 (e1 ++ DCa new :: e3) start (e4 ++ [DCa st]) i0 y2); [rewrite QB, <- !app_assoc; cbn [app]; rewrite <- app_assoc; reflexivity|exact HD2|exact SG2]. }
    assert (S3 : exists x', sent a x' /\ interest_msg x' = interest_msg y3) by exact (id_interest _ _ _ _ _ ID1 a st [] i y3 eq_refl HD3 SG3).
    assert (IN1 : forall e, In e e1 -> In e a) by (intros e I; rewrite QB; apply in_or_app; left; exact I).
    assert (IN2 : forall e, In e (e1 ++ DCa new :: e3) -> In e a).
    { intros e I. rewrite QB. apply in_app_or in I as [I|[I|I]]; apply in_or_app; [left; exact I|right; left; exact I|right; right; apply in_or_app; left; exact I]. }
    assert (CH : forall x' y id, sent a x' -> interest_msg x' = interest_msg y -> names_request g id y -> exists key', In (DChallenge x' key') a).
    { intros x' y id' [[c1 I]|Z] M NR; [|exact Z]. exfalso. destruct (iv_new _ _ _ IV _ _ I) as (AD & _). exact (new_or_challenge _ _ AD (names_addressed g y id' NR) M). }
    destruct S1 as (x1 & S1 & M1). destruct S2 as (x2 & S2 & M2). destruct S3 as (x3 & S3 & M3).
    assert (S1' : exists c1, In (DNew x1 c1) a).
    { destruct S1 as [[c1 I]|[k I]]; [exists c1; apply IN1, I|]. exfalso. exact (new_or_challenge _ _ AD1 (iv_chal _ _ _ IV _ _ (IN1 _ I)) (eq_sym M1)). }
    destruct S1' as (c1 & I1). destruct (iv_new _ _ _ IV _ _ I1) as (_ & CA & _).
    assert (c1 = c0) as ->.
    { pose proof (ad_params _ _ _ _ _ _ _ _ ADM) as CA'. apply carries_decode in CA; [|auto]. apply carries_decode in CA'; [|auto]. rewrite (params_same _ _ M1), CA' in CA. injection CA as _ Z. auto. }
    destruct (CH x2 y2 id) as (k2 & I2); [destruct S2 as [[z S2]|[z S2]]; [left|right]; exists z; apply IN2, S2|exact M2|exact NR2|].
    destruct (CH x3 y3 id S3 M3 NR3) as (k3 & I3).
    exists c0, (created E g i1 RT_NEW id peer c0), new, x1, y1, i1, start, x2, k2, y2, i0, x3, k3, y3, i. split; [exact CE|].
    split; [|split].
    - split; [exact I1|]. split; [rewrite QB; apply in_or_app; right; left; reflexivity|]. split; [exact HD1|]. split; [symmetry; exact M1|]. split; [exact IA|]. split; reflexivity.
    - split; [exact I2|]. split; [rewrite QB; apply in_or_app; right; right; apply in_or_app; right; left; reflexivity|]. split; [exact HD2|]. split; [symmetry; exact M2|exact NR2].
    - split; [exact I3|]. split; [exact HD3|]. split; [symmetry; exact M3|exact NR3].
  Qed.
End Run.
