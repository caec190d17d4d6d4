(** The buffers of a requester's request keep their sizes. *)
From Verif Require Export ClientFacts Spec_ClientEnd.
From Verif Require Import NarrowFacts ClientEndFacts.
From Coq Require Import Lia.
Local Open Scope N_scope.

Lemma memcpy_len : forall dst src r, memcpy_into dst src = Ok r -> length r = length dst.
Proof.
  intros dst src r. unfold memcpy_into. destruct (Nat.ltb_spec (length dst) (length src)); [discriminate|]. intros Q. injection Q as <-. rewrite app_length, skipn_length. lia.
Qed.
Lemma reply_loop_id : forall l r a b c o r', reply_loop l r a b c = (o, r') -> length (rp_id r') = length (rp_id r).
Proof.
  induction l as [|t l IH]; intros r a b c o r' H; cbn [reply_loop] in H; [injection H as _ <-; reflexivity|].
  destruct (_ =? T_Challenge); [exact (IH _ _ _ _ _ _ H)|]. destruct (_ =? T_EcdhPub); [exact (IH _ _ _ _ _ _ H)|]. destruct (_ =? T_Salt).
  { destruct (memcpy_into (rp_salt r) (t_val t)); [exact (IH _ _ _ _ _ _ H)|injection H as _ <-; reflexivity..]. }
  destruct (_ =? T_RequestId).
  { destruct (memcpy_into (rp_id r) (t_val t)) eqn:M; [|injection H as _ <-; reflexivity..]. rewrite (IH _ _ _ _ _ _ H). exact (memcpy_len _ _ _ M). }
  destruct (is_critical _); [injection H as _ <-; reflexivity|exact (IH _ _ _ _ _ _ H)].
Qed.
Lemma reply_decode_id : forall salt0 id0 b o r, reply_decode salt0 id0 b = (o, r) -> length (rp_id r) = length id0.
Proof.
  intros salt0 id0 b o r. unfold reply_decode. cbv zeta. destruct (parse b); [|intros Q; injection Q as _ <-; reflexivity]. destruct (reply_loop _ _ _ _ _) as [[[[ec sc] ic]| | |] r1] eqn:R; intros Q; injection Q as _ <-; exact (reply_loop_id _ _ _ _ _ _ _ R).
Qed.

Definition fixed (s s' : rstate) : Prop := rs_profile s' = rs_profile s /\ rs_type s' = rs_type s /\ rs_ecdh s' = rs_ecdh s.
(** An update that touches none of the fields. *)
Definition alike (s s' : rstate) : Prop := fixed s s' /\ rs_id s' = rs_id s /\ rs_key s' = rs_key s /\ rs_eiv s' = rs_eiv s /\ rs_div s' = rs_div s.
Lemma chal_loop_shape : forall now all l nonce ns s o s', in_shape s -> chal_loop now all l nonce ns s = (o, s') -> in_shape s' /\ alike s s'.
Proof.
  intros now all. induction l as [|t l IH]; intros nonce ns s o s' B H; cbn [chal_loop] in H; [injection H as _ <-; split; [exact B|repeat split]|].
  assert (STOP : forall (o0 : res nat), (o0, s) = (o, s') -> in_shape s' /\ alike s s') by (intros o0 Q; injection Q as _ <-; split; [exact B|repeat split]).
  assert (GO : forall nonce1 ns1 s1, in_shape s1 -> alike s s1 -> chal_loop now all l nonce1 ns1 s1 = (o, s') -> in_shape s' /\ alike s s').
  { intros nonce1 ns1 s1 B1 (K1 & K2 & K3 & K4 & K5) H1. destruct (IH _ _ _ _ _ B1 H1) as (A & (L1 & L2 & L3) & L4 & L5 & L6 & L7). split; [exact A|]. destruct K1 as (M1 & M2 & M3). split; [|repeat split; congruence]. split; [congruence|split; congruence]. }
  assert (ALK : forall f, (forall x, alike x (f x)) -> alike s (f s)) by (intros f Q; apply Q).
  pose proof B as (B1 & B2 & B3 & B4 & B5 & B6 & B7 & B8).
  destruct nonce.
  { destruct (_ =? T_ParameterValue); [|exact (STOP _ H)]. destruct (blen (t_val t) =? 16) eqn:L; [|exact (STOP _ H)]. refine (GO _ _ _ _ _ H); [|repeat split]. apply N.eqb_eq in L. unfold blen in L.
    split; [exact B1|]. split; [exact B2|]. split; [cbn; lia|]. repeat split; assumption || (cbn; tauto). }
  destruct (_ =? T_Status).
  { destruct (get T_Status all) as [f|]; [|exact (STOP _ H)]. destruct (status_from f) as [v|] eqn:SF; [|exact (STOP _ H)]. refine (GO _ _ (upd_status v s) _ _ H); [|repeat split].
    unfold status_from in SF. destruct (nni_dec (t_val f)) as [n|]; [|discriminate]. destruct (6 <? n) eqn:L; [discriminate|]. injection SF as <-. apply N.ltb_ge in L.
    split; [exact B1|]. split; [exact B2|]. split; [exact B3|]. split; [exact B4|]. split; [exact B5|]. split; [exact L|]. split; [exact B7|exact B8]. }
  destruct (_ =? T_ChallengeStatus); [refine (GO _ _ (upd_cstatus _ s) B _ H); repeat split|].
  destruct (_ =? T_RemainingTries).
  { destruct (nni_dec _) as [n|]; [|exact (STOP _ H)]. refine (GO _ _ (upd_tries _ s) _ _ H); [|repeat split]. split; [exact B1|]. split; [exact B2|]. split; [exact B3|]. split; [exact B4|]. split; [exact B5|]. split; [exact B6|]. split; [exact (proj1 (i32_held n))|exact B8]. }
  destruct (_ =? T_RemainingTime).
  { destruct (nni_dec _) as [n|]; [|exact (STOP _ H)]. destruct (time_plus_secs now n) as [tm| | |] eqn:TM; try exact (STOP _ H). refine (GO _ _ (upd_fresh tm s) _ _ H); [|repeat split]. split; [exact B1|]. split; [exact B2|]. split; [exact B3|]. split; [exact B4|]. split; [exact B5|]. split; [exact B6|]. split; [exact B7|].
    unfold time_plus_secs in TM. cbv zeta in TM. destruct (_ && _ && _ && _)%bool eqn:C; [|discriminate]. injection TM as <-. apply Bool.andb_true_iff in C as [C C4]. apply Bool.andb_true_iff in C as [C C3]. apply Z.leb_le in C3. apply Z.ltb_lt in C4. split; [exact C3|exact C4]. }
  destruct (_ =? T_IssuedCertName). { destruct (block_from_value _) as [b|]; [|exact (STOP _ H)]. destruct (name_decode b); [refine (GO _ _ (upd_issued _ s) B _ H); repeat split|exact (STOP _ H)]. }
  destruct (_ =? T_ForwardingHint). { destruct (block_from_value _) as [b|]; [|exact (STOP _ H)]. destruct (name_decode b); [refine (GO _ _ (upd_fwd _ s) B _ H); repeat split|exact (STOP _ H)]. }
  destruct (_ =? T_ParameterKey). { destruct (bytes_eqb _ _); [refine (GO _ _ s B _ H); repeat split|exact (STOP _ H)]. }
  destruct (is_critical _); [exact (STOP _ H)|refine (GO _ _ s B _ H); repeat split].
Qed.
Lemma len_sound : forall iv, (length iv = 0%nat \/ length iv = 12%nat) <-> iv_sound iv.
Proof. intros iv. unfold iv_sound, iv12. destruct iv; cbn; split; intros [H|H]; auto; discriminate. Qed.

Section Shape.
  Context (E : env) (HL : hash_laws E) (p : profile) (rt : N) (ecdh : bytes).
  Theorem use_shape : forall s, in_use E p rt ecdh s -> in_shape s /\ rs_profile s = p /\ rs_type s = rt /\ rs_ecdh s = ecdh.
  Proof.
    intros s H. induction H as [id0 L|s ri kn sk nb na o s' H (B & F) G|s ri d o s' H (B & F) G|s t o s' H (B & F) G|s ri m o s' H (B & F) G|s ri d o s' H (B & F) G].
    - split; [|repeat split]. split; [exact L|]. do 2 (split; [reflexivity|]). do 2 (split; [left; reflexivity|]). repeat split; discriminate.
    - destruct (gen_new_shape _ _ _ _ _ _ _ _ _ G) as (_ & _ & [->| ->]); exact (conj B F).
    - pose proof B as (B1 & B2 & B3 & B4 & B5 & B6 & B7 & B8). revert G. unfold on_new_response. destruct (check_reply E (rs_profile s) d); [|intros Q; injection Q as _ <-; exact (conj B F)..].
      destruct (reply_decode (ri_salt0 ri) (rs_id s) (d_content d)) as [o1 r] eqn:R. apply reply_decode_id in R.
      assert (BB : in_shape (upd_id (rp_id r) s)) by (split; [cbn; congruence|exact (proj2 B)]).
      cbv zeta. destruct o1; [|intros Q; injection Q as _ <-; exact (conj BB F)..]. destruct (derive_secret E (rs_ecdh s) (rp_ecdh r)) as [z| | |]; cbn [bind]; [|intros Q; injection Q as _ <-; exact (conj BB F)..].
      unfold hkdf. destruct (o_hkdf E z (rp_salt r) (rp_id r)) as [rc k] eqn:K. pose proof (l_hkdf_len E HL z (rp_salt r) (rp_id r)) as KL. rewrite K in KL. cbn [snd] in KL.
      destruct (rc =? 0)%Z; intros Q; injection Q as _ <-; [exact (conj BB F)|]. split; [|exact F]. split; [exact (proj1 BB)|]. split; [exact KL|exact (proj2 (proj2 BB))].
    - revert G. unfold select_challenge. destruct (requested_params _ _ _); intros Q; injection Q as _ <-; exact (conj B F).
    - pose proof B as (B1 & B2 & B3 & B4 & B5 & B6 & B7 & B8). apply len_sound in B4. destruct (gen_challenge_shape E s ri m o s' B4 G) as (_ & _ & IV & -> & _). apply len_sound in IV. split; [|exact F].
      split; [exact B1|]. split; [exact B2|]. split; [exact B3|]. split; [exact IV|]. split; [exact B5|]. split; [exact B6|]. split; [exact B7|exact B8].
    - pose proof B as (B1 & B2 & B3 & B4 & B5 & B6 & B7 & B8). revert G. unfold on_challenge_response. destruct (check_reply E (rs_profile s) d); [|intros Q; injection Q as _ <-; exact (conj B F)..].
      unfold chal_decode. pose proof (aes_iv E (rs_key s) (d_content d) (rs_id s) (rs_div s) (rs_eiv s) (proj1 (len_sound _) B5) (proj1 (len_sound _) B4)) as IV.
      destruct (decode_aes E (rs_key s) (d_content d) (rs_id s) (rs_div s) (rs_eiv s)) as [o1 iv]. cbn [snd] in IV. apply len_sound in IV.
      assert (BB : in_shape (upd_div iv s)) by (split; [exact B1|]; split; [exact B2|]; split; [exact B3|]; split; [exact B4|]; split; [exact IV|]; split; [exact B6|]; split; [exact B7|exact B8]).
      cbv zeta. destruct o1 as [pt| | |]; [|intros Q; injection Q as _ <-; exact (conj BB F)..]. destruct (parse pt) as [els|]; [|intros Q; injection Q as _ <-; exact (conj BB F)].
      destruct (chal_loop (ri_now ri) els els false 0 (upd_div iv s)) as [[n| | |] s2] eqn:C; intros Q; injection Q as _ <-; destruct (chal_loop_shape _ _ _ _ _ _ _ _ BB C) as (A & (L1 & L2 & L3) & _);
        (split; [exact A|]); cbn in L1, L2, L3; rewrite L1, L2, L3; exact F.
  Qed.
End Shape.

(** ** The client's request *)
Section ClientUse.
  Context (E : env) (file : option ptree) (pb : pib).
  Definition tracked (c : client) : Prop := forall s, cl_req c = Some s -> exists p ecdh, in_use E p 1 ecdh s.
  Lemma run_challenge_tracked : forall c s ci ls t c' nx, (exists p ecdh, in_use E p 1 ecdh s) -> run_challenge E c s ci ls t = (c', nx) -> tracked c'.
  Proof.
    intros c s ci ls t c' nx (p & ecdh & U). unfold run_challenge. destruct (select_challenge s t) as [o s1] eqn:S. pose proof (iu_select E p 1 ecdh s t o s1 U S) as U1.
    assert (T1 : forall nx0, (up_req (Some s1) c, nx0) = (c', nx) -> tracked c') by (intros nx0 Q; injection Q as <- _; intros s0 Q; injection Q as <-; eauto).
    destruct o as [req| | |]; [|exact (T1 _)..]. cbv zeta. match goal with |- match ?x with _ => _ end = _ -> _ => destruct x as [ps| | |] end; [|exact (T1 _)..].
    destruct (gen_challenge E s1 (ci_ri ci) ps) as [o2 s2] eqn:G. pose proof (iu_gen_challenge E p 1 ecdh s1 _ ps o2 s2 U1 G) as U2.
    destruct o2; intros Q; injection Q as <- _; intros s0 Q; injection Q as <-; eauto.
  Qed.
  Lemma run_new_tracked : forall c ci ls p idn c' nx, length (ci_id0 ci) = 8%nat -> tracked c -> run_new E c ci ls p idn = (c', nx) -> tracked c'.
  Proof.
    intros c ci ls p idn c' nx L T. unfold run_new. destruct (capture_validity 3 ls) as [[hours|] ls1]; [|intros Q; injection Q as <- _; exact T]. cbv zeta. set (s := request_init p RT_NEW (ci_ecdh ci) (ci_id0 ci)).
    assert (U : in_use E p 1 (ci_ecdh ci) s) by exact (iu_made E p 1 (ci_ecdh ci) (ci_id0 ci) L).
    destruct (match pib_get idn _ with Some i => _ | None => _ end) as [c2 i] eqn:C2.
    assert (R2 : cl_req c2 = Some s) by (revert C2; destruct (pib_get idn _); intros Q; injection Q as <- _; reflexivity).
    destruct (match id_default i with Some _ => _ | None => _ end) as [c3 i2] eqn:C3.
    assert (R3 : cl_req c3 = Some s) by (revert C3; destruct (id_default i); intros Q; injection Q as <- _; exact R2).
    destruct (match cl_newid c3 with [] => _ | _ :: _ => _ end) as [ok c4] eqn:C4.
    assert (R4 : cl_req c4 = Some s).
    { revert C4. destruct (cl_newid c3); [|intros Q; injection Q as _ <-; exact R3]. unfold capture_key. destruct (next_line ls1) as [l ls2]. destruct (bytes_eqb _ _); [intros Q; injection Q as _ <-; exact R3|]. destruct (stoul l); [|intros Q; injection Q as _ <-; exact R3]. destruct (_ <=? _); intros Q; injection Q as _ <-; exact R3. }
    assert (T4 : tracked c4) by (intros s0 Q; rewrite R4 in Q; injection Q as <-; eauto).
    destruct ok as [[kn sk]|]; [|intros Q; injection Q as <- _; exact T4]. destruct (i64_fits _ && i64_fits _); [|intros Q; injection Q as <- _; exact T4].
    destruct (gen_new E s (ci_ri ci) kn sk (ci_now ci) _) as [o s1] eqn:G. pose proof (iu_gen_new E p 1 (ci_ecdh ci) s _ kn sk _ _ o s1 U G) as U1.
    destruct o as [[x|]| | |]; intros Q; injection Q as <- _; intros s0 Q; injection Q as <-; eauto.
  Qed.
  Lemma step_tracked : forall c w ci ev c' nx, length (ci_id0 ci) = 8%nat -> tracked c -> client_step E c w ci ev = (c', nx) -> tracked c'.
  Proof.
    intros c w ci ev c' nx L T. assert (SAME : forall nx0, (c, nx0) = (c', nx) -> tracked c') by (intros nx0 Q; injection Q as <- _; exact T).
    assert (REQ : forall c0, cl_req c0 = cl_req c -> forall nx0, (c0, nx0) = (c', nx) -> tracked c') by (intros c0 R nx0 Q; injection Q as <- _; unfold tracked; rewrite R; exact T).
    assert (DIS : forall ca full, discover c ca full = (c', nx) -> tracked c') by (intros ca full; unfold discover; destruct (gen_discovery ca); exact (SAME _)).
    assert (RED : forall f, redirect_to c f = (c', nx) -> tracked c') by (intros f; unfold redirect_to; destruct (ca_of_full f); [exact (DIS _ _)|exact (SAME _)..]).
    destruct ev as [d|d| | |].
    - destruct w as [full|full|p| | |]; cbn [client_step].
      + unfold meta_cb. destruct (gen_profile_interest d); exact (SAME _).
      + unfold info_cb. destruct (match full with [] => _ | _ :: _ => _ end) as [p| | |]; [|exact (SAME _)..]. destruct (cl_trusted c); [exact (REQ (up_probe _ c) eq_refl _)|].
        destruct (next_line (ci_lines ci)) as [l ls]. destruct (bytes_eqb _ _); [exact (REQ (up_probe _ (up_trusted _ c)) eq_refl _)|exact (SAME _)].
      + unfold probe_cb. destruct (on_probe_response E d p) as [[names redirects]| | |]; [|exact (SAME _)..]. destruct redirects as [|f [|f' r]].
        * destruct names as [|[n0 z0] [|x r]]; [exact (SAME _)|exact (run_new_tracked _ _ _ _ _ _ _ L T)|]. destruct (capture_one _ _) as [[k|] ls]; [|exact (SAME _)]. destruct (nth_error _ k) as [[n1 z1]|]; [exact (run_new_tracked _ _ _ _ _ _ _ L T)|exact (SAME _)].
        * exact (RED _).
        * destruct (all_cas _); [|exact (SAME _)..]. destruct (capture_one _ _) as [[k|] ls]; [|exact (SAME _)]. destruct (nth_error _ k); [exact (RED _)|exact (SAME _)].
      + unfold new_cb. destruct (cl_req c) as [s|] eqn:RQ; [|exact (SAME _)]. destruct (T s RQ) as (p & ecdh & U). destruct (on_new_response E s (ci_ri ci) d) as [o s1] eqn:O. pose proof (iu_on_new E p 1 ecdh s _ d o s1 U O) as U1.
        assert (T1 : forall nx0, (up_req (Some s1) c, nx0) = (c', nx) -> tracked c') by (intros nx0 Q; injection Q as <- _; intros s0 Q; injection Q as <-; eauto).
        destruct o as [chals| | |]; [|exact (T1 _)..]. cbv zeta. destruct chals as [|c0 chals]; [exact (T1 _)|]. destruct (existsb _ _); [apply run_challenge_tracked; eauto|]. destruct (capture_index 3 _ _) as [[k|] ls]; [|exact (T1 _)].
        destruct (nth_error _ k); [apply run_challenge_tracked; eauto|exact (T1 _)].
      + unfold challenge_cb. destruct (cl_req c) as [s|] eqn:RQ; [|exact (SAME _)]. destruct (T s RQ) as (p & ecdh & U). destruct (on_challenge_response E s (ci_ri ci) d) as [o s1] eqn:O. pose proof (iu_on_challenge E p 1 ecdh s _ d o s1 U O) as U1.
        assert (T1 : forall nx0, (up_req (Some s1) c, nx0) = (c', nx) -> tracked c') by (intros nx0 Q; injection Q as <- _; intros s0 Q; injection Q as <-; eauto).
        destruct o as [u| | |]; [|exact (T1 _)..]. cbv zeta. destruct (_ =? _); [exact (T1 _)|apply run_challenge_tracked; eauto].
      + exact (SAME _).
    - destruct w; cbn [client_step]; try exact (SAME _). unfold cert_cb, on_cert_fetch. destruct (cert_ok d); [|exact (SAME _)]. destruct (pib_get _ _) as [j|]; [|exact (SAME _)]. destruct (find_key _ j) as [[kn sk]|]; [|exact (SAME _)]. destruct (bytes_eqb _ _); [exact (REQ (up_installed _ c) eq_refl _)|exact (SAME _)].
    - exact (SAME _).
    - exact (SAME _).
    - cbn [client_step]. unfold handle_signal. destruct (cl_req c) eqn:RQ; [|exact (SAME _)]. rewrite <- RQ in REQ. destruct (cl_newid c); [destruct (cl_newkey c)|]; [exact (SAME _)|..]; destruct (pib_get _ _); try exact (SAME _); refine (REQ (up_pib _ c) eq_refl _).
  Qed.
  Theorem client_in_use : forall h c nx s, client_run E file pb h c nx -> (forall ci ev, In (ci, ev) h -> length (ci_id0 ci) = 8%nat) -> cl_req c = Some s -> exists p ecdh, in_use E p 1 ecdh s.
  Proof.
    intros h c nx s H L. revert s. change (tracked c). induction H as [ci c nx S|h c i w ci ev c' nx H IH M S|h c ci c' nx H IH S].
    - assert (N : cl_req c = None); [|intros s Q; congruence]. revert S. unfold client_start. cbv zeta.
      assert (DIS : forall c0 ca full, cl_req c0 = None -> discover c0 ca full = (c, nx) -> cl_req c = None) by (intros c0 ca full R; unfold discover; destruct (gen_discovery ca); intros Q; injection Q as <- _; exact R).
      destruct (store_load E file) as [known| | |]; try (intros Q; injection Q as <- _; reflexivity). destruct (next_line (ci_lines ci)) as [l ls]. destruct (bytes_eqb _ _).
      + destruct (o_of_uri E _); [apply DIS; reflexivity|intros Q; injection Q as <- _; reflexivity].
      + destruct (stoul l) as [v|]; [|intros Q; injection Q as <- _; reflexivity]. destruct (_ <=? v); [intros Q; injection Q as <- _; reflexivity|]. destruct (nth_error _ _); [apply DIS; reflexivity|intros Q; injection Q as <- _; reflexivity].
    - apply (step_tracked c w ci ev c' nx); [exact (L ci (Some ev) (or_introl eq_refl))| |exact S]. apply IH. intros ci0 ev0 I0. exact (L ci0 ev0 (or_intror I0)).
    - apply (step_tracked c WCert ci CSignal c' nx); [exact (L ci (Some CSignal) (or_introl eq_refl))| |exact S]. apply IH. intros ci0 ev0 I0. exact (L ci0 ev0 (or_intror I0)).
  Qed.
End ClientUse.
