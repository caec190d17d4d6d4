(** Which replies a requester acts on. *)
From Verif Require Export Spec_Answer RequesterFacts AcceptFacts RequestFacts ChalProps ClientFacts.
From Coq Require Import Lia.
Local Open Scope N_scope.

Section Answer.
  Context {E : env}.

  Lemma profile_ok_iff : forall d p, on_profile E d = Ok p <-> info_reads E (d_content d) p /\ exists c, p_cert p = Some c /\ data_verifies E d c.
  Proof.
    intros d p. unfold on_profile. rewrite <- info_decode_iff. destruct (info_decode E (d_content d)) as [q| | |]; cbn [bind].
    2-4: split; [discriminate|intros [Q _]; discriminate].
    destruct (p_cert q) as [c|] eqn:C; [|split; [discriminate|intros [Q (c & C' & _)]; injection Q as <-; congruence]].
    unfold verify_data, data_verifies. destruct (o_verify E (public_key c) (data_msg d) (d_sig d)) eqn:V; split; try discriminate.
    - intros Q. injection Q as <-. split; [reflexivity|]. exists c. auto.
    - intros [Q _]. exact Q.
    - intros [Q (c' & C' & V')]. injection Q as <-. congruence.
  Qed.
  Lemma profile_ub_iff : forall d, on_profile E d = UB <-> exists p, info_reads E (d_content d) p /\ p_cert p = None.
  Proof.
    intros d. unfold on_profile. destruct (info_safe E (d_content d)) as [NU NH]. destruct (info_decode E (d_content d)) as [q| | |] eqn:I; cbn [bind]; try contradiction.
    - apply info_decode_iff in I. destruct (p_cert q) as [c|] eqn:C.
      + split; [destruct (verify_data E d c); discriminate|]. intros (p & R & N). apply info_decode_iff in R, I. congruence.
      + split; [|reflexivity]. intros _. exists q. auto.
    - split; [discriminate|]. intros (p & R & _). apply info_decode_iff in R. congruence.
  Qed.
  Lemma redirected_ok_iff : forall d full p, codec_laws E ->
    on_profile_redirected E d full = Ok p <-> info_reads E (d_content d) p /\ exists c, p_cert p = Some c /\ data_verifies E d c /\ full_name E c = full.
  Proof.
    intros d full p L. split.
    - intros H. destruct (profile_redirected E d full p L H) as (O & c & C & _ & V & F). apply profile_ok_iff in O as [R _]. split; [exact R|]. exists c. auto.
    - intros (R & c & C & V & F). assert (O : on_profile E d = Ok p) by (apply profile_ok_iff; split; [exact R|exists c; auto]).
      apply info_decode_iff in R. unfold on_profile_redirected. rewrite R. cbn [bind]. rewrite C. rewrite (carried_again _ _ _ L (info_carries _ _ _ _ R C)). cbn [of_opt bind].
      rewrite F. replace (name_eqb full full) with true by (symmetry; apply name_eqb_eq; reflexivity). exact O.
  Qed.
  Lemma redirected_ub_iff : forall d full, codec_laws E -> on_profile_redirected E d full = UB <-> exists p, info_reads E (d_content d) p /\ p_cert p = None.
  Proof.
    intros d full L. rewrite <- profile_ub_iff. unfold on_profile_redirected. unfold on_profile at 2. destruct (info_decode E (d_content d)) as [q| | |] eqn:I; cbn [bind]; try tauto.
    destruct (p_cert q) as [c|] eqn:C; [|tauto]. rewrite (carried_again _ _ _ L (info_carries _ _ _ _ I C)). cbn [of_opt bind].
    destruct (name_eqb (full_name E c) full); [unfold on_profile; rewrite I; cbn [bind]; rewrite C; tauto|]. split; [discriminate|]. destruct (verify_data E d c); discriminate.
  Qed.

  Lemma check_cases : forall p d,
    (sound_reply E p d /\ check_reply E p d = Ok tt) \/ (p_cert p = None /\ check_reply E p d = UB) \/ (~ sound_reply E p d /\ p_cert p <> None /\ check_reply E p d = Exn).
  Proof.
    intros p d. destruct (p_cert p) as [c|] eqn:C.
    - destruct (check_bad E p c d C) as [B G]. destruct (check_reply E p d) as [[]| | |] eqn:K.
      + left. split; [|reflexivity]. exists c. split; [exact C|]. apply G. reflexivity.
      + right. right. split; [|split; [discriminate|reflexivity]]. intros (c' & C' & N). assert (c' = c) by congruence. subst. apply N. apply B. reflexivity.
      + exfalso. unfold check_reply in K. rewrite C in K. destruct (verify_data E d c); [|discriminate]. unfold process_if_error in K. destruct (_ =? _); discriminate.
      + exfalso. unfold check_reply in K. rewrite C in K. destruct (verify_data E d c); [|discriminate]. unfold process_if_error in K. destruct (_ =? _); discriminate.
    - right. left. unfold check_reply. rewrite C. auto.
  Qed.

  Lemma probe_ok_iff : forall d p names redirects, on_probe_response E d p = Ok (names, redirects) <-> sound_reply E p d /\ probe_reads (d_content d) names redirects.
  Proof.
    intros d p names redirects. unfold on_probe_response. rewrite <- probe_decode_iff. destruct (check_cases p d) as [[S ->]|[[N ->]|(S & _ & ->)]]; cbn [bind].
    - tauto.
    - split; [discriminate|]. intros [(c & C & _) _]. congruence.
    - split; [discriminate|]. intros [S' _]. contradiction.
  Qed.
  Lemma probe_ub_iff : forall d p, on_probe_response E d p = UB <-> p_cert p = None.
  Proof.
    intros d p. unfold on_probe_response. destruct (check_cases p d) as [[S ->]|[[N ->]|(S & N & ->)]]; cbn [bind].
    - destruct (calm_probe (d_content d)) as [NU _]. destruct S as (c & C & _). split; [intros Q; contradiction|congruence].
    - tauto.
    - split; [discriminate|contradiction].
  Qed.
  Lemma joined_eq : forall id key s s', joined id key s s' -> s' = upd_key key (upd_id id s).
  Proof.
    intros id key s s' J. destruct s, s'. unfold joined in J. cbn in J. repeat match goal with H : _ /\ _ |- _ => destruct H end. cbn. subst. reflexivity.
  Qed.
  Lemma new_ok_iff : forall s ri d chals s', on_new_response E s ri d = (Ok chals, s') <->
    sound_reply E (rs_profile s) d /\ exists peer salt id key, reply_reads (ri_salt0 ri) (rs_id s) (d_content d) peer salt id chals /\ agrees E (rs_ecdh s) peer salt id key /\ joined id key s s'.
  Proof.
    intros s ri d chals s'. unfold on_new_response. destruct (check_cases (rs_profile s) d) as [[SR ->]|[[N ->]|(SR & N & ->)]].
    2:{ split; [discriminate|]. intros [(c & C & _) _]. congruence. }
    2:{ split; [discriminate|]. intros [S' _]. contradiction. }
    destruct (reply_decode (ri_salt0 ri) (rs_id s) (d_content d)) as [o [peer salt id ch]] eqn:RD. cbn [rp_id rp_ecdh rp_salt rp_challenges].
    assert (NO : o <> Ok tt -> forall peer salt id, ~ reply_reads (ri_salt0 ri) (rs_id s) (d_content d) peer salt id chals).
    { intros NE p2 s2 i2 R. apply reply_decode_iff in R. rewrite RD in R. congruence. }
    destruct o as [[]| | |].
    2-4: split; [discriminate|]; intros (_ & p2 & s2 & i2 & k2 & R & _); exfalso; refine (NO _ _ _ _ R); discriminate.
    pose proof RD as R. apply reply_decode_iff in R. unfold derive_secret. destruct (o_ecdh E (rs_ecdh s) peer) as [rc secret] eqn:EC.
    assert (AG : forall key, agrees E (rs_ecdh s) peer salt id key <-> rc <> 0%Z /\ exists rc', rc' <> 0%Z /\ o_hkdf E secret salt id = (rc', key)).
    { intros key. unfold agrees. rewrite EC. split; [intros (a & b & c & Q1 & Q2 & Q3 & Q4); injection Q3 as <- <-; split; [exact Q1|exists c; auto]|].
      intros (Q1 & c & Q2 & Q3). exists rc, secret, c. auto. }
    assert (ONLY : forall p2 s2 i2 k2, reply_reads (ri_salt0 ri) (rs_id s) (d_content d) p2 s2 i2 chals -> agrees E (rs_ecdh s) p2 s2 i2 k2 -> ch = chals /\ i2 = id /\ rc <> 0%Z /\ exists rc', rc' <> 0%Z /\ o_hkdf E secret salt id = (rc', k2)).
    { intros p2 s2 i2 k2 R2 A2. apply reply_decode_iff in R2. rewrite RD in R2. injection R2 as <- <- <- <-. apply AG in A2. tauto. }
    destruct (Z.eqb_spec rc 0) as [Z|Z]; cbn [bind].
    { split; [discriminate|]. intros (_ & p2 & s2 & i2 & k2 & R2 & A2 & _). exfalso. destruct (ONLY _ _ _ _ R2 A2) as (_ & _ & NZ & _). contradiction. }
    unfold hkdf. destruct (o_hkdf E secret salt id) as [rc' key] eqn:HK. destruct (Z.eqb_spec rc' 0) as [Z'|Z'].
    { split; [discriminate|]. intros (_ & p2 & s2 & i2 & k2 & R2 & A2 & _). exfalso. destruct (ONLY _ _ _ _ R2 A2) as (_ & _ & _ & c & NZ & Q). congruence. }
    split.
    - intros Q. injection Q as <- <-. split; [exact SR|]. exists peer, salt, id, key. split; [exact R|]. split; [apply AG; split; [exact Z|exists rc'; auto]|]. repeat split.
    - intros (_ & p2 & s2 & i2 & k2 & R2 & A2 & J). destruct (ONLY _ _ _ _ R2 A2) as (<- & -> & _ & c & _ & Q). assert (k2 = key) by congruence. subst k2. f_equal.
      symmetry. exact (joined_eq _ _ _ _ J).
  Qed.
  Lemma new_ub_iff : forall s ri d, fst (on_new_response E s ri d) = UB <-> p_cert (rs_profile s) = None \/
    (sound_reply E (rs_profile s) d /\ exists before t rest, parse (d_content d) = Some (before ++ t :: rest) /\ only_known_critical known_new_reply before /\
       Forall (fun t => ~ too_long (ri_salt0 ri) (rs_id s) t) before /\ too_long (ri_salt0 ri) (rs_id s) t).
  Proof.
    intros s ri d. rewrite <- reply_decode_ub_iff. unfold on_new_response. destruct (check_cases (rs_profile s) d) as [[SR ->]|[[N ->]|(SR & N & ->)]].
    2:{ split; [auto|reflexivity]. }
    2:{ split; [discriminate|]. intros [Q|[Q _]]; contradiction. }
    assert (NN : p_cert (rs_profile s) <> None) by (destruct SR as (c & C & _); congruence).
    destruct (reply_decode (ri_salt0 ri) (rs_id s) (d_content d)) as [o r] eqn:RD. cbn [fst]. destruct o as [[]| | |]; cbn [fst].
    - split; [|intros [Q|[_ Q]]; [contradiction|discriminate]]. unfold derive_secret. destruct (o_ecdh E (rs_ecdh s) (rp_ecdh r)) as [rc secret]. destruct (rc =? 0)%Z; cbn [bind]; [discriminate|].
      unfold hkdf. destruct (o_hkdf E secret (rp_salt r) (rp_id r)) as [rc' key]. destruct (rc' =? 0)%Z; discriminate.
    - split; [discriminate|]. intros [Q|[_ Q]]; [contradiction|discriminate].
    - split; [auto|reflexivity].
    - split; [discriminate|]. intros [Q|[_ Q]]; [contradiction|discriminate].
  Qed.
  Lemma challenge_ok_iff : forall s ri d s', on_challenge_response E s ri d = (Ok tt, s') <->
    sound_reply E (rs_profile s) d /\ exists pt, aes_reads E (rs_key s) (rs_id s) (rs_div s) (rs_eiv s) (d_content d) pt (rs_div s') /\ challenge_reads (ri_now ri) pt s s' /\ rest_kept s s'.
  Proof.
    intros s ri d s'. unfold on_challenge_response. rewrite <- chal_decode_iff. destruct (check_cases (rs_profile s) d) as [[SR ->]|[[N ->]|(SR & N & ->)]].
    - tauto.
    - split; [discriminate|]. intros [(c & C & _) _]. congruence.
    - split; [discriminate|]. intros [S' _]. contradiction.
  Qed.

  (** ** The loop over the decrypted reply *)
  Lemma known_in : forall ty, In ty known_challenge_reply -> (ty =? T_Status) || (ty =? T_ChallengeStatus) || (ty =? T_RemainingTries) || (ty =? T_RemainingTime) || (ty =? T_IssuedCertName) || (ty =? T_ForwardingHint) || (ty =? T_ParameterKey) || (ty =? T_ParameterValue) = true.
  Proof. intros ty H. cbv [known_challenge_reply In] in H. repeat (destruct H as [<-|H]; [reflexivity|]). destruct H. Qed.
  Lemma fine_cons : forall now all t l, fine_item now all t -> fine_part now all l -> fine_part now all (t :: l).
  Proof. intros now all t l F (items & -> & I & L). exists (inl t :: items). split; [reflexivity|]. split; [intros t' [Q|Q]; [injection Q as <-; exact F|exact (I t' Q)]|intros v [Q|Q]; [discriminate|exact (L v Q)]]. Qed.
  Definition halts (now : Z) (all l : list tlv) : Prop := exists before t rest, l = before ++ t :: rest /\ fine_part now all before /\ t_type t = T_RemainingTime /\ out_of_range now (t_val t).
  Lemma halts_cons : forall now all t l, fine_item now all t -> (halts now all (t :: l) <-> halts now all l).
  Proof.
    intros now all t l F. split.
    - intros (before & u & rest & Q & (items & -> & I & L) & T & O). destruct items as [|[t'|v] items]; cbn [flat_map app] in Q.
      + injection Q as -> ->. exfalso. destruct F as (_ & _ & F & _). destruct (F T) as [z Z]. destruct O as (n & _ & O). exact (O z Z).
      + injection Q as -> ->. eexists. exists u, rest. split; [reflexivity|]. split; [|auto]. exists items. split; [reflexivity|]. split; [intros a A; apply I; right; exact A|intros a A; apply L; right; exact A].
      + injection Q as -> ->. exfalso. destruct F as (_ & _ & _ & _ & _ & F & _). apply F. reflexivity.
    - intros (before & u & rest & -> & FP & T & O). exists (t :: before), u, rest. split; [reflexivity|]. split; [exact (fine_cons _ _ _ _ F FP)|auto].
  Qed.
  Lemma halts_not : forall now all t l, ~ fine_item now all t -> t_type t <> T_ParameterKey -> ~ (t_type t = T_RemainingTime /\ out_of_range now (t_val t)) -> ~ halts now all (t :: l).
  Proof.
    intros now all t l F K O (before & u & rest & Q & (items & -> & I & L) & T & OO). destruct items as [|[t'|v] items]; cbn [flat_map app] in Q.
    - injection Q as -> ->. apply O. auto.
    - injection Q as -> _. apply F. apply I. left. reflexivity.
    - injection Q as -> _. apply K. reflexivity.
  Qed.
  Lemma loop_ub : forall now all n l ns s, (length l <= n)%nat -> (fst (chal_loop now all l false ns s) = UB <-> halts now all l).
  Proof.
    intros now all n. induction n as [|n IH]; intros l ns s LN.
    { destruct l; [|cbn in LN; lia]. split; [discriminate|]. intros (before & t & rest & Q & _). destruct before; discriminate. }
    destruct l as [|t l]; [split; [discriminate|]; intros (before & t & rest & Q & _); destruct before; discriminate|]. cbn [length] in LN.
    assert (IHl : forall ns s, fst (chal_loop now all l false ns s) = UB <-> halts now all l) by (intros; apply IH; lia).
    assert (GO : forall ns' s', fine_item now all t -> fst (chal_loop now all l false ns' s') = UB <-> halts now all (t :: l)) by (intros ns' s' F; rewrite (halts_cons now all t l F); apply IHl).
    assert (NO : forall s', ~ fine_item now all t -> t_type t <> T_ParameterKey -> ~ (t_type t = T_RemainingTime /\ out_of_range now (t_val t)) -> fst (@Exn nat, s' : rstate) = UB <-> halts now all (t :: l)).
    { intros s' F K O. split; [discriminate|]. intros H. destruct (halts_not now all t l F K O H). }
    cbn [chal_loop].
    destruct (N.eqb_spec (t_type t) T_Status) as [T|T0].
    { assert (NK : t_type t <> T_ParameterKey) by (rewrite T; discriminate). assert (NT : ~ (t_type t = T_RemainingTime /\ out_of_range now (t_val t))) by (rewrite T; intros [Q _]; discriminate).
      destruct (get T_Status all) as [f|] eqn:G; [|apply NO; auto; intros (F & _); destruct (F T) as (f & k & Q & _); congruence].
      unfold status_from. destruct (nni_dec (t_val f)) as [k|] eqn:V; [|apply NO; auto; intros (F & _); destruct (F T) as (f' & k & Q & Q' & _); congruence].
      destruct (N.ltb_spec 6 k) as [LT|LE].
      - apply NO; auto. intros (F & _). destruct (F T) as (f' & k' & Q & Q' & LE). assert (k' = k) by congruence. lia.
      - apply GO. split; [intros _; exists f, k; auto|]. rewrite T. repeat (split; [try (intros Q; discriminate); try (intros [Q|Q]; discriminate)|]); try discriminate. intros _. cbv [known_challenge_reply In]. auto. }
    destruct (N.eqb_spec (t_type t) T_ChallengeStatus) as [T|T1].
    { apply GO. split; [intros Q; contradiction|]. rewrite T. repeat (split; [try (intros Q; discriminate); try (intros [Q|Q]; discriminate)|]); try discriminate. intros _. cbv [known_challenge_reply In]. auto 10. }
    destruct (N.eqb_spec (t_type t) T_RemainingTries) as [T|T2].
    { assert (NK : t_type t <> T_ParameterKey) by (rewrite T; discriminate). assert (NT : ~ (t_type t = T_RemainingTime /\ out_of_range now (t_val t))) by (rewrite T; intros [Q _]; discriminate).
      destruct (nni_dec (t_val t)) as [k|] eqn:V; [|apply NO; auto; intros (_ & F & _); destruct (F T) as (z & k & Q & _); congruence].
      apply GO. split; [intros Q; contradiction|]. split; [intros _; eexists; exists k; split; [exact V|reflexivity]|]. rewrite T. repeat (split; [try (intros Q; discriminate); try (intros [Q|Q]; discriminate)|]); try discriminate. intros _. cbv [known_challenge_reply In]. auto 10. }
    destruct (N.eqb_spec (t_type t) T_RemainingTime) as [T|T3].
    { destruct (nni_dec (t_val t)) as [k|] eqn:V.
      - destruct (time_plus_secs now k) as [z| | |] eqn:TP.
        + apply GO. split; [intros Q; contradiction|]. split; [intros Q; contradiction|]. split; [intros _; exists z; apply (after_iff _ _ _ _ V); exact TP|].
          rewrite T. repeat (split; [try (intros Q; discriminate); try (intros [Q|Q]; discriminate)|]); try discriminate. intros _. cbv [known_challenge_reply In]. auto 10.
        + unfold time_plus_secs in TP. cbv zeta in TP. destruct (_ && _)%bool; discriminate.
        + split; [intros _|reflexivity]. exists [], t, l. split; [reflexivity|]. split; [exists []; split; [reflexivity|split; intros ? []]|]. split; [exact T|].
          exists k. split; [exact V|]. intros z Z. apply (after_iff _ _ _ _ V) in Z. congruence.
        + unfold time_plus_secs in TP. cbv zeta in TP. destruct (_ && _)%bool; discriminate.
      - apply NO; [intros (_ & _ & F & _); destruct (F T) as (z & k & Q & _); congruence|rewrite T; discriminate|intros [_ (k & Q & _)]; congruence]. }
    assert (NT : ~ (t_type t = T_RemainingTime /\ out_of_range now (t_val t))) by (intros [Q _]; contradiction).
    destruct (N.eqb_spec (t_type t) T_IssuedCertName) as [T|T4].
    { assert (NK : t_type t <> T_ParameterKey) by (rewrite T; discriminate).
      destruct (block_from_value (t_val t)) as [b|] eqn:B; [|apply NO; auto; intros (_ & _ & _ & F & _); destruct (F (or_introl T)) as (m & b & Q & _); congruence].
      destruct (name_decode b) as [m|] eqn:D; [|apply NO; auto; intros (_ & _ & _ & F & _); destruct (F (or_introl T)) as (m & b' & Q & Q'); congruence].
      apply GO. split; [intros Q; contradiction|]. split; [intros Q; contradiction|]. split; [intros Q; contradiction|]. split; [intros _; exists m, b; auto|].
      rewrite T. split; [|split; discriminate]. intros _. cbv [known_challenge_reply In]. auto 10. }
    destruct (N.eqb_spec (t_type t) T_ForwardingHint) as [T|T5].
    { assert (NK : t_type t <> T_ParameterKey) by (rewrite T; discriminate).
      destruct (block_from_value (t_val t)) as [b|] eqn:B; [|apply NO; auto; intros (_ & _ & _ & F & _); destruct (F (or_intror T)) as (m & b & Q & _); congruence].
      destruct (name_decode b) as [m|] eqn:D; [|apply NO; auto; intros (_ & _ & _ & F & _); destruct (F (or_intror T)) as (m & b' & Q & Q'); congruence].
      apply GO. split; [intros Q; contradiction|]. split; [intros Q; contradiction|]. split; [intros Q; contradiction|]. split; [intros _; exists m, b; auto|].
      rewrite T. split; [|split; discriminate]. intros _. cbv [known_challenge_reply In]. auto 10. }
    destruct (N.eqb_spec (t_type t) T_ParameterKey) as [T|T6].
    { assert (NE : forall v l', ~ (t = nonce_key /\ l = Tlv T_ParameterValue v :: l' /\ length v = 16%nat) -> True) by auto. clear NE.
      assert (KEY : halts now all (t :: l) <-> t = nonce_key /\ exists v l', l = Tlv T_ParameterValue v :: l' /\ length v = 16%nat /\ halts now all l').
      { split.
        - intros (before & u & rest & Q & (items & -> & I & L) & TU & O). destruct items as [|[t'|v] items]; cbn [flat_map app] in Q.
          + injection Q as -> ->. congruence.
          + injection Q as -> _. exfalso. destruct (I t' (or_introl eq_refl)) as (_ & _ & _ & _ & _ & F & _). contradiction.
          + injection Q as -> ->. split; [reflexivity|]. exists v. eexists. split; [reflexivity|]. split; [apply L; left; reflexivity|]. eexists. exists u, rest. split; [reflexivity|]. split; [|auto].
            exists items. split; [reflexivity|]. split; [intros a A; apply I; right; exact A|intros a A; apply L; right; exact A].
        - intros (-> & v & l' & -> & LV & before & u & rest & -> & (items & -> & I & L) & TU & O). eexists. exists u, rest. split.
          2:{ split; [|auto]. exists (inr v :: items). split; [reflexivity|]. split; [intros a [A|A]; [discriminate|apply I; exact A]|intros a [A|A]; [injection A as <-; exact LV|apply L; exact A]]. }
          reflexivity. }
      rewrite KEY. destruct (bytes_eqb (t_val t) (bs "nonce")) eqn:NB.
      - apply bytes_eqb_eq in NB. assert (TK : t = nonce_key) by (destruct t; cbn in T, NB; subst; reflexivity). destruct l as [|u l]; cbn [chal_loop].
        + split; [discriminate|]. intros (_ & v & l' & Q & _). discriminate.
        + destruct (N.eqb_spec (t_type u) T_ParameterValue) as [TU|TU].
          * destruct (N.eqb_spec (blen (t_val u)) 16) as [LU|LU].
            -- rewrite (IH l ns (upd_nonce (t_val u) s)) by (cbn [length] in LN; lia). split.
               ++ intros H. split; [exact TK|]. exists (t_val u), l. split; [destruct u; cbn in TU; subst; reflexivity|]. split; [unfold blen in LU; lia|exact H].
               ++ intros (_ & v & l' & Q & _ & H). injection Q as _ ->. exact H.
            -- split; [discriminate|]. intros (_ & v & l' & Q & LV & _). exfalso. injection Q as -> _. apply LU. cbn [t_val]. unfold blen. rewrite LV. reflexivity.
          * split; [discriminate|]. intros (_ & v & l' & Q & _). exfalso. injection Q as -> _. apply TU. reflexivity.
      - split; [discriminate|]. intros (Q & _). exfalso. subst t. discriminate NB. }
    destruct (is_critical (t_type t)) eqn:IC.
    - apply NO; auto. intros (_ & _ & _ & _ & F & _ & PV). specialize (F (proj1 (is_critical_iff _) IC)). apply known_in in F.
      repeat (apply orb_true_iff in F; destruct F as [F|F]); apply N.eqb_eq in F; contradiction.
    - apply GO. split; [intros Q; contradiction|]. split; [intros Q; contradiction|]. split; [intros Q; contradiction|]. split; [intros [Q|Q]; contradiction|].
      split; [intros Q; apply is_critical_iff in Q; congruence|]. split; [exact T6|]. intros Q. rewrite Q in IC. discriminate IC.
  Qed.
  Lemma challenge_ub_iff : forall s ri d, rs_div s = [] \/ iv12 (rs_div s) -> rs_eiv s = [] \/ iv12 (rs_eiv s) ->
    fst (on_challenge_response E s ri d) = UB <-> p_cert (rs_profile s) = None \/
      (sound_reply E (rs_profile s) d /\ exists pt iv' els before t rest, aes_reads E (rs_key s) (rs_id s) (rs_div s) (rs_eiv s) (d_content d) pt iv' /\ parse pt = Some els /\
         els = before ++ t :: rest /\ fine_part (ri_now ri) els before /\ t_type t = T_RemainingTime /\ out_of_range (ri_now ri) (t_val t)).
  Proof.
    intros s ri d DV EV. unfold on_challenge_response. destruct (check_cases (rs_profile s) d) as [[SR ->]|[[N ->]|(SR & N & ->)]].
    2:{ split; [auto|reflexivity]. }
    2:{ split; [discriminate|]. intros [Q|[Q _]]; contradiction. }
    assert (NN : p_cert (rs_profile s) <> None) by (destruct SR as (c & C & _); congruence).
    unfold chal_decode. destruct (decode_aes_safe E (rs_key s) (d_content d) (rs_id s) (rs_div s) (rs_eiv s) DV EV) as [NU NH].
    destruct (decode_aes E (rs_key s) (d_content d) (rs_id s) (rs_div s) (rs_eiv s)) as [o iv] eqn:DA. cbn [fst] in NU, NH.
    destruct o as [pt| | |]; try contradiction.
    - assert (ONLY : forall pt' iv', aes_reads E (rs_key s) (rs_id s) (rs_div s) (rs_eiv s) (d_content d) pt' iv' -> pt' = pt) by (intros pt' iv' R; apply aes_iff in R; congruence).
      destruct (parse pt) as [els|] eqn:P.
      + pose proof (loop_ub (ri_now ri) els (length els) els O (upd_div iv s) (le_n _)) as LU. destruct (chal_loop (ri_now ri) els els false O (upd_div iv s)) as [o2 s2]. cbn [fst] in LU.
        assert (H : halts (ri_now ri) els els <-> p_cert (rs_profile s) = None \/ (sound_reply E (rs_profile s) d /\ exists pt iv' els before t rest, aes_reads E (rs_key s) (rs_id s) (rs_div s) (rs_eiv s) (d_content d) pt iv' /\ parse pt = Some els /\
           els = before ++ t :: rest /\ fine_part (ri_now ri) els before /\ t_type t = T_RemainingTime /\ out_of_range (ri_now ri) (t_val t))).
        { split.
          - intros (before & t & rest & Q & FP & T & O). right. split; [exact SR|]. exists pt, iv, els, before, t, rest. split; [apply aes_iff; exact DA|]. auto.
          - intros [Q|(_ & pt' & iv' & els' & before & t & rest & R & P' & Q & FP & T & O)]; [contradiction|]. rewrite (ONLY _ _ R) in P'. rewrite P in P'. injection P' as <-. exists before, t, rest. split; [exact Q|]. split; [exact FP|]. split; [exact T|exact O]. }
        rewrite <- H, <- LU. destruct o2 as [k| | |]; cbn [fst]; [destruct (Nat.eqb k 1)| | |]; split; (discriminate || reflexivity).
      + split; [discriminate|]. intros [Q|(_ & pt' & iv' & els & before & t & rest & R & P' & _)]; [contradiction|]. rewrite (ONLY _ _ R) in P'. congruence.
    - split; [discriminate|]. intros [Q|(_ & pt' & iv' & els & before & t & rest & R & P' & _)]; [contradiction|]. apply aes_iff in R. congruence.
  Qed.
  (** Every other reply is turned down with an exception. *)
  Lemma answers_end : forall s ri d full, rs_div s = [] \/ iv12 (rs_div s) -> rs_eiv s = [] \/ iv12 (rs_eiv s) -> codec_laws E ->
    on_profile E d <> Hang /\ on_profile_redirected E d full <> Hang /\ on_probe_response E d (rs_profile s) <> Hang /\
    fst (on_new_response E s ri d) <> Hang /\ fst (on_challenge_response E s ri d) <> Hang.
  Proof.
    intros s ri d full DV EV L. assert (P : on_profile E d <> Hang) by (exact (proj1 (profile_outcomes E d))). split; [exact P|]. split; [|split; [|split]].
    - unfold on_profile_redirected. destruct (info_safe E (d_content d)) as [_ NH]. destruct (info_decode E (d_content d)) as [q| | |] eqn:I; cbn [bind]; try discriminate; try contradiction.
      destruct (p_cert q) as [c|] eqn:C; [|discriminate]. rewrite (carried_again _ _ _ L (info_carries _ _ _ _ I C)). cbn [of_opt bind]. destruct (name_eqb _ _); [exact P|discriminate].
    - unfold on_probe_response. destruct (check_cases (rs_profile s) d) as [[SR ->]|[[N ->]|(SR & N & ->)]]; cbn [bind]; try discriminate. exact (proj2 (calm_probe (d_content d))).
    - destruct (on_new_response E s ri d) as [o s'] eqn:ON. cbn [fst]. unfold on_new_response in ON. destruct (check_cases (rs_profile s) d) as [[SR Q]|[[N Q]|(SR & N & Q)]]; rewrite Q in ON; try (injection ON as <- <-; discriminate).
      destruct (reply_decode (ri_salt0 ri) (rs_id s) (d_content d)) as [o2 r] eqn:RD. assert (NH : o2 <> Hang).
      { intros ->. unfold reply_decode in RD. destruct (parse (d_content d)) as [els|]; [|discriminate].
        match type of RD with context [reply_loop ?a ?b ?c ?e ?f] => pose proof (reply_loop_no_hang a b c e f) as NH; destruct (reply_loop a b c e f) as [[[[? ?] ?]| | |] r2] end; cbn [fst] in NH; try contradiction; try discriminate.
        repeat match type of RD with context [if ?x then _ else _] => destruct x end; discriminate. }
      destruct o2 as [[]| | |]; try contradiction; try (injection ON as <- <-; discriminate).
      unfold derive_secret in ON. destruct (o_ecdh E (rs_ecdh s) (rp_ecdh r)) as [rc secret]. destruct (rc =? 0)%Z; cbn [bind] in ON; [injection ON as <- <-; discriminate|].
      unfold hkdf in ON. destruct (o_hkdf E secret (rp_salt r) (rp_id r)) as [rc' key]. destruct (rc' =? 0)%Z; injection ON as <- <-; discriminate.
    - unfold on_challenge_response. destruct (check_cases (rs_profile s) d) as [[SR ->]|[[N ->]|(SR & N & ->)]]; try discriminate.
      unfold chal_decode. destruct (decode_aes_safe E (rs_key s) (d_content d) (rs_id s) (rs_div s) (rs_eiv s) DV EV) as [NU NH].
      destruct (decode_aes E (rs_key s) (d_content d) (rs_id s) (rs_div s) (rs_eiv s)) as [o iv]. cbn [fst] in NU, NH. destruct o as [pt| | |]; try discriminate; try contradiction.
      destruct (parse pt) as [els|]; [|discriminate]. destruct (chal_loop (ri_now ri) els els false O (upd_div iv s)) as [o2 s2] eqn:CL. pose proof (chal_loop_ub _ _ _ _ _ _ _ _ CL) as (_ & _ & NL & _).
      destruct o2 as [k| | |]; cbn [fst]; try discriminate; try contradiction. destruct (Nat.eqb k 1); discriminate.
  Qed.
End Answer.
