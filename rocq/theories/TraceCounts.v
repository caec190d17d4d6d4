(** Counting along histories: comparisons of codes, initialization vectors. *)
From Verif Require Export TraceProps.
From Coq Require Import Lia.
Local Open Scope N_scope.

(** ** The plaintext of a reply that moves a challenge on *)
Lemma short_len : forall ty v k, blen v <= k -> blen (enc_tlv (Tlv ty v)) <= 18 + k.
Proof. intros ty v k H. pose proof (enc_tlv_len (Tlv ty v)) as X. cbn [t_val] in X. lia. Qed.
Definition chal_status_ok (s : bytes) : Prop := s = bs "need-code" \/ s = bs "wrong-code" \/ s = bs "need-proof".
Lemma moves_status : forall E cfg i params r ty cs em, moves E cfg i params r ty cs em -> chal_status_ok (cs_status cs).
Proof.
  intros E cfg i params r ty cs em [[_ S]|(_ & _ & cs0 & _ & (? & ? & ? & _ & _ & _ & _ & _ & ->))]; [destruct S|]; cbn [cs_status]; unfold chal_status_ok; auto.
Qed.
Definition told_tlvs (r : request) (cs : cstate) (nonce : list tlv) : list tlv :=
  Tlv T_Status (nni_enc (rq_status r)) :: Tlv T_ChallengeStatus (cs_status cs) :: Tlv T_RemainingTries (nni_enc (cs_tries cs)) ::
  Tlv T_RemainingTime (nni_enc (to_u64 (cs_rtime cs))) :: nonce.
Lemma moved_plain : forall E cfg i params r dv ty cs em, moves E cfg i params (set_div dv r) ty cs em ->
  exists nonce, (nonce = [] \/ nonce = [Tlv T_ParameterKey (bs "nonce"); Tlv T_ParameterValue (rnd_nonce i)]) /\
    chal_plain (moved dv ty cs r) [] [] = Ok (told_tlvs (moved dv ty cs r) cs nonce).
Proof.
  intros E cfg i params r dv ty cs em M. unfold chal_plain, told_tlvs. cbn [moved set_cs rq_cs].
  destruct M as [[_ S]|(_ & _ & cs0 & _ & (? & ? & ? & _ & _ & _ & _ & _ & ->))].
  - destruct S.
    + exists []. split; [auto|reflexivity].
    + exists []. split; [auto|reflexivity].
    + exists [Tlv T_ParameterKey (bs "nonce"); Tlv T_ParameterValue (rnd_nonce i)]. split; [auto|]. cbn [cs_status cs_secrets cs_tries cs_rtime].
      change (bytes_eqb (bs "need-proof") (bs "need-proof")) with true. cbv iota. cbn [sec_get]. change (bytes_eqb (bs "nonce") (bs "nonce")) with true. cbv iota.
      rewrite from_to_hex. reflexivity.
  - exists []. split; [auto|reflexivity].
Qed.
Lemma told_size : forall i r cs nonce, chal_status_ok (cs_status cs) -> nonce = [] \/ nonce = [Tlv T_ParameterKey (bs "nonce"); Tlv T_ParameterValue (rnd_nonce i)] ->
  Forall wf_tlv (told_tlvs r cs nonce) /\ 0 < blen (enc_tlvs (told_tlvs r cs nonce)) <= 256.
Proof.
  intros i r cs nonce CS NN.
  assert (W : forall ty v k, 0 < ty -> ty <= max_type -> blen v <= k -> k < 2 ^ 33 -> wf_tlv (Tlv ty v) /\ blen (enc_tlv (Tlv ty v)) <= 18 + k).
  { intros ty v k H1 H2 H3 H4. split; [apply wf_tlv_intro; auto; unfold fits; lia|]. apply short_len. exact H3. }
  destruct (W T_Status (nni_enc (rq_status r)) 8) as [S1 S2]; [reflexivity|discriminate|apply nni_enc_len|reflexivity|].
  destruct (W T_ChallengeStatus (cs_status cs) 10) as [A1 A2]; [reflexivity|discriminate|destruct CS as [->|[->| ->]]; vm_compute; discriminate|reflexivity|].
  destruct (W T_RemainingTries (nni_enc (cs_tries cs)) 8) as [B1 B2]; [reflexivity|discriminate|apply nni_enc_len|reflexivity|].
  destruct (W T_RemainingTime (nni_enc (to_u64 (cs_rtime cs))) 8) as [D1 D2]; [reflexivity|discriminate|apply nni_enc_len|reflexivity|].
  destruct (W T_ParameterKey (bs "nonce") 8) as [K1 K2]; [reflexivity|discriminate|vm_compute; discriminate|reflexivity|].
  destruct (W T_ParameterValue (rnd_nonce i) 16) as [V1 V2]; [reflexivity|discriminate|unfold blen, rnd_nonce; rewrite be_enc_length; discriminate|reflexivity|].
  assert (P : 0 < blen (enc_tlv (Tlv T_Status (nni_enc (rq_status r))))) by (assert (0 < blen (enc_var T_Status)) by reflexivity; unfold enc_tlv; cbn [t_type]; rewrite !blen_app; lia).
  split; [unfold told_tlvs; destruct NN as [->| ->]; repeat (constructor; [assumption|]); constructor|].
  unfold told_tlvs. destruct NN as [->| ->]; cbn [enc_tlvs]; rewrite !blen_app; change (blen []) with 0; lia.
Qed.
Lemma aes_blocks_256 : forall n, 0 < n <= 256 -> 1 <= aes_blocks n <= 16.
Proof.
  intros n H. rewrite aes_blocks_small by lia. split; [change 1 with (16 / 16); apply N.div_le_mono; lia|].
  apply N.lt_succ_r. apply N.div_lt_upper_bound; lia.
Qed.

(** ** Encryption IVs *)
Lemma moved_reply : forall E cfg i x r params ty dv cs em payload r3, live r -> opened E x r params ty dv ->
  moves E cfg i params (set_div dv r) ty cs em -> chal_encode E (moved dv ty cs r) [] [] (rnd_iv i) = (Ok payload, r3) ->
  let iv := initial_iv (rq_eiv r) (rnd_iv i) in
  exists nonce iv2, (nonce = [] \/ nonce = [Tlv T_ParameterKey (bs "nonce"); Tlv T_ParameterValue (rnd_nonce i)]) /\
    payload = sealed E (rq_key r) iv (rq_id r) (enc_tlvs (told_tlvs (moved dv ty cs r) cs nonce)) /\ r3 = set_eiv iv2 (moved dv ty cs r) /\
    iv12 iv /\ iv12 iv2 /\ iv_prefix iv2 = iv_prefix iv /\ iv_counter iv + 1 <= iv_counter iv2 <= iv_counter iv + 16.
Proof.
  intros E cfg i x r params ty dv cs em payload r3 LV OP M CE iv. destruct (moved_plain E cfg i params r dv ty cs em M) as (nonce & NN & P).
  apply chal_encode_ok in CE as (l & iv2 & P' & U & -> & ->); [|exact (live_eiv r LV)|apply rnd_iv_len]. rewrite P in P'. injection P' as <-.
  change (rq_eiv (moved dv ty cs r)) with (rq_eiv r) in *. fold iv in U |- *.
  assert (I : iv12 iv) by (apply iv12_initial; [exact (live_eiv r LV)|apply rnd_iv_len]).
  destruct (told_size i (moved dv ty cs r) cs nonce (moves_status _ _ _ _ _ _ _ _ M) NN) as [_ SZ]. apply aes_blocks_256 in SZ.
  apply (update_iv_spec _ _ _ I) in U as (U1 & U2 & U3 & _). exists nonce, iv2. split; [exact NN|]. split; [reflexivity|]. split; [reflexivity|].
  split; [exact I|]. split; [exact U1|]. split; [exact U2|]. lia.
Qed.

(** ** Invariants of pending requests *)
Lemma history_of : forall S E g (ops : store_ops S) s, ca_at E g ops s -> exists tr, ca_history E g ops tr s.
Proof.
  intros S E g ops s [LC NF B (key & evs & h & R)]. revert h s R. 
  assert (G : forall evs s0 h s, run E g ops s0 evs = Some (s, h) -> exists tr, steps E g ops s0 tr s).
  { clear. induction evs as [|ev evs IH]; intros s0 h s R; cbn [run] in R; [injection R as -> _; exists []; constructor|].
    destruct (step E g ops s0 ev) as [[s1 es]|] eqn:ST; [|discriminate]. destruct (run E g ops s1 evs) as [[s2 h2]|] eqn:R2; [|discriminate].
    injection R as <- _. destruct (IH _ _ _ R2) as (tr & H). exists (HStep s0 ev es s1 :: tr). econstructor; eassumption. }
  intros h s R. destruct (G _ _ _ _ R) as (tr & H). exists tr. constructor; eauto.
Qed.
Lemma pending_inv : forall E g (P : request -> Prop), (forall i rt id peer c, P (created E g i rt id peer c)) ->
  (forall nrm i x r r' es, nrm_ok nrm -> live r -> P r -> chal_step E g nrm i x r es (Some r') -> P r') ->
  forall S (ops : store_ops S) s id r, ca_at E g ops s -> pending ops s id = Some r -> P r.
Proof.
  intros E g P PN PC S ops s id r A H. destruct (history_of _ _ _ _ _ A) as (tr & HI). clear A. revert s id r HI H.
  induction tr as [|st tr IH] using rev_ind; intros s id r HI H.
  - destruct HI as [LC NF B (key & HI)]. inversion HI; subst. exfalso. destruct (back_end_laws E S ops B LC) as (inv & nrm & SL).
    destruct (init_inv E g ops inv nrm SL key) as [_ Z]. unfold pending in H. unfold ca_get in Z. rewrite Z in H. discriminate.
  - apply history_snoc in HI as (HI & ST & ->). pose proof (history_at _ _ _ _ _ _ HI) as A.
    destruct (at_id_step S E g ops _ _ _ _ A ST) as (nrm & NO & IDS). destruct (IDS id) as [m1 M Z]. rewrite H in Z.
    destruct Z as [Z|[_ Z]]; [|discriminate]. subst m1.
    remember (pending ops (h_pre st) id) as m0 eqn:P0. remember (Some r) as m2 eqn:P2.
    inversion M as [es0 m F NN|i0 x0 es0 info FI EV0 N0 C|i0 x0 rt idkey peer c tail EV0 RT ID0 ADM CT|i0 x0 r0 es0 m EV0 N0 IDR CS].
    + apply (IH (h_pre st) id r HI). congruence.
    + congruence.
    + assert (r = created E g i0 rt id peer c) as -> by congruence. apply PN.
    + subst es0 m. rewrite P2 in CS. apply (PC nrm i0 x0 r0 r (h_effs st) NO); [|apply (IH (h_pre st) id r0 HI); congruence|exact CS].
      apply (pending_live E g S ops (h_pre st) id r0 A). congruence.
Qed.
(** The counter of the encryption IV is bounded by the tries used. *)
Lemma counter_small : forall E g S (ops : store_ops S) s id r cs, ca_at E g ops s -> pending ops s id = Some r -> rq_cs r = Some cs ->
  iv_counter (rq_eiv r) + 16 * cs_tries cs <= 64.
Proof.
  intros E g S ops s id r cs A P. revert cs. revert S ops s id r A P.
  assert (G : forall S (ops : store_ops S) s id r, ca_at E g ops s -> pending ops s id = Some r -> forall cs, rq_cs r = Some cs -> iv_counter (rq_eiv r) + 16 * cs_tries cs <= 64).
  { intros S ops s id r. apply (pending_inv E g (fun r => forall cs, rq_cs r = Some cs -> iv_counter (rq_eiv r) + 16 * cs_tries cs <= 64)); [discriminate|].
    intros nrm i x r0 r' es NO LV IH CS cs C.
    inversion CS as [es1 F|info FI NS|code info tail SB PE C0|params ty dv cs1 em payload r3 tail SB OP K MV CE C0|params ty dv cs1 c0 PF RT IC|params ty dv cs1 c0 tail PF RT IC T|params ty dv cs1 tail PF RT T]; subst; auto.
    destruct (moved_reply E (cf_chal g) i x r0 params ty dv cs1 em payload r3 LV OP MV CE) as (nonce & iv2 & _ & _ & -> & I1 & I2 & _ & CT).
    destruct (nrm_cs nrm _ cs NO C) as (cs2 & C2 & _ & _ & TR & _). cbn in C2. injection C2 as <-. rewrite TR.
    destruct (nrm_fixed nrm (set_eiv iv2 (moved dv ty cs1 r0)) NO) as (_ & _ & _ & _ & _ & -> & _). cbn [set_eiv rq_eiv].
    destruct MV as [[ST SS]|(ST & _ & cs0 & C1 & (given & code & life & _ & _ & _ & _ & TT & ->))].
    - destruct (live_before r0 LV ST) as (_ & Q & _). rewrite Q in CT. rewrite initial_counter in CT by apply rnd_iv_len.
      assert (cs_tries cs1 <= 3) by (destruct SS; cbn [cs_tries]; lia). lia.
    - destruct (live_cs r0 LV ST) as (cs1 & Q & B). cbn [set_div rq_cs] in C1. pose proof (IH cs0 C1) as IH1. cbn [cs_tries].
      destruct LV as [(Z & _)|(_ & _ & _ & Z & _)]; [contradiction|]. rewrite (initial_ne _ _ Z) in CT. lia. }
  intros S ops s id r A P cs C. exact (G S ops s id r A P cs C).
Qed.

(** ** C23: at most three comparisons *)
Definition budget (m : option request) : N := match m with None => 0 | Some r => match rq_cs r with None => 3 | Some cs => cs_tries cs end end.
Lemma budget_step : forall E g S (ops : store_ops S) s ev s' es id, ca_at E g ops s -> step E g ops s ev = Some (s', es) ->
  ~ adds id (HStep s ev es s') ->
  budget (pending ops s' id) <= budget (pending ops s id) /\
  (answered (HStep s ev es s') -> (exists given, compares E g ops id (HStep s ev es s') given) -> budget (pending ops s' id) + 1 <= budget (pending ops s id)).
Proof.
  intros E g S ops s ev s' es id A ST NA. destruct (pending ops s id) as [r|] eqn:P.
  - destruct (pending_live E g S ops s id r A P) as [ID LV].
    assert (B1 : forall cs, rq_cs r = Some cs -> 1 <= budget (Some r)).
    { intros cs C. cbn [budget]. rewrite C. destruct LV as [(_ & _ & Q & _)|(_ & _ & (cs0 & Q & B) & _)]; [congruence|]. assert (cs0 = cs) by congruence. subst. lia. }
    assert (CR : forall given, compares E g ops id (HStep s ev es s') given -> exists i x cs, ev_interest ev = Some (i, x) /\ names_request g id x /\ signed_by E x (public_key (rq_cert r)) /\ rq_cs r = Some cs).
    { intros given (i & params & ty & r0 & cs & P0 & C & (x & HD & N & SB & _) & _). cbn [h_pre] in P0. rewrite P in P0. injection P0 as <-.
      apply ev_handles in HD. exists i, x, cs. auto. }
    assert (GONE : pending ops s' id = None -> budget (pending ops s' id) <= budget (Some r) /\ (answered (HStep s ev es s') -> (exists given, compares E g ops id (HStep s ev es s') given) -> budget (pending ops s' id) + 1 <= budget (Some r))).
    { intros ->. split; [apply N.le_0_l|]. intros _ (given & Q). destruct (CR given Q) as (i & x & cs & _ & _ & _ & C). exact (B1 cs C). }
    destruct (at_id_step S E g ops _ _ _ _ A ST) as (nrm & NO & IDS). destruct (IDS id) as [m1 M Z]. rewrite P in M.
    destruct Z as [Z|[_ Z]]; [|exact (GONE Z)].
    inversion M as [es0 m F NN|i0 x0 es0 info FI EV0 N0 C|i0 x0 rt idkey peer c tail EV0 RT ID0 ADM CT|i0 x0 r0 es0 m EV0 N0 IDR CS].
    + assert (Y : pending ops s' id = Some r) by congruence. rewrite Y. split; [lia|]. intros _ (given & Q). destruct (CR given Q) as (i & x & cs & EV & N & _). destruct (NN i x EV N).
    + subst r0 es0 m.
      inversion CS as [es1 F|info FI NS|code info tail SB PE C0|params ty dv cs1 em payload r3 tail SB OP K MV CE C0|params ty dv cs1 c0 PF RT IC|params ty dv cs1 c0 tail PF RT IC T|params ty dv cs1 tail PF RT T]; subst es; match goal with Q : _ = m1 |- _ => rewrite <- Q in Z end; try exact (GONE Z); rewrite Z.
      * split; [lia|]. intros AN _. destruct AN. cbn [h_effs]. clear -F. induction F as [|e l Q _ IH]; [reflexivity|]. destruct e; try (destruct Q; fail). exact IH.
      * split; [lia|]. intros _ (given & Q). destruct (CR given Q) as (i & x & cs & EV & N & SB & _). rewrite EV in EV0. injection EV0 as -> ->. contradiction.
      * destruct (moved_live E g i0 x0 r params ty dv cs1 em payload r3 LV OP K MV CE) as (iv2 & -> & _).
        assert (X : budget (Some (nrm (set_eiv iv2 (moved dv ty cs1 r)))) = cs_tries cs1).
        { cbn [budget]. destruct (NO (set_eiv iv2 (moved dv ty cs1 r))) as [Q|Q]; rewrite Q; reflexivity. }
        rewrite X. destruct MV as [[BF SS]|(BF & _ & cs0 & C1 & (given & code & life & _ & _ & _ & _ & TT & ->))].
        -- destruct (live_before r LV BF) as (Q & _). cbn [budget]. rewrite Q. split; [destruct SS; cbn [cs_tries]; lia|].
           intros _ (given & QQ). destruct (CR given QQ) as (? & ? & ? & _ & _ & _ & CC). congruence.
        -- cbn [set_div rq_cs] in C1. cbn [budget cs_tries]. rewrite C1. split; intros; lia.
      * split; [lia|]. intros AN _. destruct AN. reflexivity.
  - rewrite (none_stays E g S ops id s [HStep s ev es s'] s' A); [|econstructor; [exact ST|constructor]|exact P|constructor; [exact NA|constructor]].
    split; [cbn; lia|]. intros _ (given & i & params & ty & r0 & cs & P0 & _). cbn [h_pre] in P0. congruence.
Qed.
Lemma few_comparisons : forall E g S (ops : store_ops S) s tr s' id n, ca_at E g ops s -> steps E g ops s tr s' -> no_add id tr ->
  tally (fun st => answered st /\ exists given, compares E g ops id st given) tr n -> N.of_nat n + budget (pending ops s' id) <= budget (pending ops s id).
Proof.
  intros E g S ops s tr s' id n A H. revert A n. induction H as [|s ev es s1 tr s2 ST _ IH]; intros A n NA C.
  - inversion C; subst. lia.
  - inversion NA as [|? ? N1 N2]; subst. destruct (budget_step E g S ops _ _ _ _ id A ST N1) as [B1 B2].
    pose proof (ca_at_step E g S ops s ev s1 es A ST) as A1.
    inversion C as [|? ? k [AN CP] C2|? ? k _ C2]; subst.
    + specialize (IH A1 k N2 C2). specialize (B2 AN CP). lia.
    + specialize (IH A1 n N2 C2). lia.
Qed.
Lemma budget_3 : forall E g S (ops : store_ops S) s id, ca_at E g ops s -> budget (pending ops s id) <= 3.
Proof.
  intros E g S ops s id A. destruct (pending ops s id) as [r|] eqn:P; [|cbn; lia]. destruct (pending_live E g S ops s id r A P) as [_ LV]. cbn [budget].
  destruct LV as [(_ & _ & Q & _)|(_ & _ & (cs & Q & B) & _)]; rewrite Q; lia.
Qed.
(** A third wrong code ends the request. *)

(** ** C30: initialization vectors of the replies *)
Lemma first_iv : forall iv rest, iv12 iv -> wire_iv (enc_tlv (Tlv T_InitializationVector iv) ++ rest) = Some iv \/ wire_iv (enc_tlv (Tlv T_InitializationVector iv) ++ rest) = None.
Proof.
  intros iv rest I. unfold wire_iv. rewrite parse_cons.
  - destruct (parse rest); [left; reflexivity|right; reflexivity].
  - apply wf_tlv_intro; [reflexivity|discriminate|apply fits_short; rewrite I; apply Nat.leb_le; reflexivity].
Qed.
Lemma sealed_wire : forall E key iv ad p iv', iv12 iv -> wire_iv (sealed E key iv ad p) = Some iv' -> iv' = iv.
Proof.
  intros E key iv ad p iv' I H. unfold sealed in H. destruct (o_aes_enc E key iv ad p) as [ct tag]. cbn [enc_tlvs] in H.
  destruct (first_iv iv (enc_tlv (Tlv T_AuthenticationTag tag) ++ enc_tlv (Tlv T_EncryptedPayload ct) ++ []) I) as [Q|Q]; rewrite Q in H; congruence.
Qed.
Lemma error_no_iv : forall E g n code info, fits info -> wire_iv (d_content (error_data E g n code info)) = None.
Proof.
  intros E g n code info F. unfold error_data, reply_data, mk_data. cbn [d_content]. unfold wire_iv, err_encode. rewrite parse_enc; [reflexivity|].
  constructor; [apply wf_tlv_intro; [reflexivity|discriminate|unfold fits; eapply N.le_lt_trans; [apply nni_enc_len|reflexivity]]|].
  constructor; [apply wf_tlv_intro; [reflexivity|discriminate|exact F]|constructor].
Qed.
Definition iv_bound (p : bytes) (c : N) (m : option request) : Prop :=
  m = None \/ exists r, m = Some r /\ iv12 (rq_eiv r) /\ iv_prefix (rq_eiv r) = p /\ c <= iv_counter (rq_eiv r).
Lemma chal_iv : forall E g nrm i x r es m d iv, nrm_ok nrm -> live r -> chal_step E g nrm i x r es m -> In (EPut d) es -> wire_iv (d_content d) = Some iv ->
  iv = initial_iv (rq_eiv r) (rnd_iv i) /\ iv_bound (iv_prefix iv) (iv_counter iv + 1) m.
Proof.
  intros E g nrm i x r es m d iv NO LV CS IN W.
  assert (OK : forall r' issued fwd payload r3 tail, rq_eiv r' = rq_eiv r -> chal_encode E r' issued fwd (rnd_iv i) = (Ok payload, r3) ->
     cut tail [EPut (reply_data E g (i_name x) payload); ECallback r3] -> In (EPut d) tail -> iv = initial_iv (rq_eiv r) (rnd_iv i)).
  { intros r' issued fwd payload r3 tail EV CE C Q. apply (in_cut _ _ _ C) in Q. destruct Q as [Q|[Q|[]]]; [|discriminate]. injection Q as <-.
    unfold reply_data, mk_data in W. cbn [d_content] in W.
    apply chal_encode_ok in CE as (l & iv2 & _ & _ & _ & ->); [|rewrite EV; exact (live_eiv r LV)|apply rnd_iv_len].
    rewrite EV in W. apply sealed_wire in W; [exact W|apply iv12_initial; [exact (live_eiv r LV)|apply rnd_iv_len]]. }
  assert (ER : forall code info, fits info -> ~ EPut (error_data E g (i_name x) code info) = EPut d).
  { intros code info FI Q. injection Q as <-. rewrite error_no_iv in W by exact FI. discriminate. }
  inversion CS as [es1 F|info FI NS|code info tail SB PE C|params ty dv cs em payload r3 tail SB OP K MV CE C|params ty dv cs c0 PF RT IC|params ty dv cs c0 tail PF RT IC T|params ty dv cs tail PF RT T]; subst.
  - rewrite Forall_forall in F. destruct (F _ IN).
  - destruct IN as [Q|[]]. destruct (ER _ _ FI Q).
  - destruct IN as [Q|IN]; [discriminate|]. apply (in_cut _ _ _ C) in IN. destruct IN as [Q|[]]. destruct PE as (_ & _ & FI). destruct (ER _ _ (short_fits _ FI) Q).
  - apply in_app_or in IN as [IN|[Q|IN]]; [|discriminate|]. { pose proof (emails em) as F. rewrite Forall_forall in F. destruct (F _ IN). }
    assert (X : iv = initial_iv (rq_eiv r) (rnd_iv i)) by (exact (OK (moved dv ty cs r) [] [] payload r3 tail eq_refl CE C IN)). split; [exact X|].
    destruct (moved_reply E (cf_chal g) i x r params ty dv cs em payload r3 LV OP MV CE) as (nonce & iv2 & _ & _ & -> & I1 & I2 & PF & CT). rewrite <- X in *.
    right. eexists. split; [reflexivity|]. destruct (nrm_fixed nrm (set_eiv iv2 (moved dv ty cs r)) NO) as (_ & _ & _ & _ & _ & -> & _). cbn [set_eiv rq_eiv].
    split; [exact I2|]. split; [exact PF|lia].
  - destruct IN as [Q|[]]; discriminate.
  - split; [|left; reflexivity]. destruct IN as [Q|[Q|IN]]; try discriminate. destruct T as [->|(payload & r3 & CE & C)]; [destruct IN|].
    refine (OK _ _ _ payload r3 tail _ CE C IN). reflexivity.
  - split; [|left; reflexivity]. destruct IN as [Q|IN]; try discriminate. destruct T as [->|(payload & r3 & CE & C)]; [destruct IN|].
    refine (OK _ _ _ payload r3 tail _ CE C IN). reflexivity.
Qed.
Lemma names_step : forall E g S (ops : store_ops S) s ev s' es i x id, ca_at E g ops s -> step E g ops s ev = Some (s', es) ->
  ev_interest ev = Some (i, x) -> names_request g id x -> pending ops s id = None -> (exists info, fits info /\ cut es [EPut (error_data E g (i_name x) INVALID_PARAMETER info)]) \/ exists r, In (EAdd r) es /\ rq_id r = id.
Proof.
  intros E g S ops s ev s' es i x id A ST EV N P. destruct (at_id_step S E g ops _ _ _ _ A ST) as (nrm & NO & IDS). destruct (IDS id) as [m1 M Z]. rewrite P in M.
  inversion M as [es0 m F NN|i0 x0 es0 info FI EV0 N0 C|i0 x0 rt idkey peer c tail EV0 RT ID0 ADM CT|i0 x0 r0 es0 m EV0 N0 IDR CS].
  - destruct (NN i x EV N).
  - left. exists info. rewrite EV in EV0. injection EV0 as -> ->. split; [exact FI|exact C].
  - right. exists (created E g i0 rt id peer c). subst. split; [left; reflexivity|reflexivity].
Qed.
Lemma reply_step : forall E g S (ops : store_ops S) st id iv, ca_at E g ops (h_pre st) -> step E g ops (h_pre st) (h_ev st) = Some (h_post st, h_effs st) ->
  reply_iv g id st iv -> exists i r, pending ops (h_pre st) id = Some r /\ iv = initial_iv (rq_eiv r) (rnd_iv i) /\ live r /\
    iv_bound (iv_prefix iv) (iv_counter iv + 1) (pending ops (h_post st) id).
Proof.
  intros E g S ops st id iv A ST (i & x & d & HD & N & IN & W). apply ev_handles in HD.
  destruct (pending ops (h_pre st) id) as [r|] eqn:P.
  - destruct (pending_chal_step E g S ops _ _ _ _ _ _ _ _ A ST HD N P) as (nrm & m & NO & IDR & LV & CS & Z). exists i, r.
    destruct (chal_iv E g nrm i x r _ m d iv NO LV CS IN W) as [X Y]. split; [reflexivity|]. split; [exact X|]. split; [exact LV|].
    destruct Z as [Z|[_ Z]]; rewrite Z; [exact Y|left; reflexivity].
  - exfalso. destruct (names_step E g S ops _ _ _ _ _ _ _ A ST HD N P) as [(info & FI & C)|(r & IA & _)].
    + apply (in_cut _ _ _ C) in IN. destruct IN as [Q|[]]. injection Q as <-. rewrite error_no_iv in W by exact FI. discriminate.
    + (* a CHALLENGE Interest adds nothing *)
      destruct (at_id_step S E g ops _ _ _ _ A ST) as (nrm & NO & IDS). destruct (IDS (rq_id r)) as [m1 M Z].
      remember (pending ops (h_pre st) (rq_id r)) as m0 eqn:P0. remember (h_effs st) as es eqn:ES.
      inversion M as [es0 m F NN|i0 x0 es0 info FI EV0 N0 C|i0 x0 rt idkey peer c tail EV0 RT ID0 ADM CT|i0 x0 r0 es0 m EV0 N0 IDR CS].
      * rewrite Forall_forall in F. exact (F _ IA eq_refl).
      * apply (in_cut _ _ _ C) in IA. destruct IA as [Q|[]]. discriminate.
      * rewrite HD in EV0. injection EV0 as <- <-. apply names_addressed in N. destruct RT as [[_ AD]|[_ AD]]; pose proof (addressed_unique g _ _ _ AD N); discriminate.
      * exact (chal_no_add _ _ _ _ _ _ _ _ r CS IA).
Qed.
Lemma iv_bound_step : forall E g S (ops : store_ops S) s ev s' es id p c, ca_at E g ops s -> step E g ops s ev = Some (s', es) ->
  ~ adds id (HStep s ev es s') -> iv_bound p c (pending ops s id) -> iv_bound p c (pending ops s' id).
Proof.
  intros E g S ops s ev s' es id p c A ST NA [N|(r & P & I1 & I2 & I3)].
  - left. apply (none_stays E g S ops id s [HStep s ev es s'] s' A); [econstructor; [exact ST|constructor]|exact N|constructor; [exact NA|constructor]].
  - destruct (pending_live E g S ops s id r A P) as [ID LV]. destruct (at_id_step S E g ops _ _ _ _ A ST) as (nrm & NO & IDS). destruct (IDS id) as [m1 M Z]. rewrite P in M.
    destruct Z as [Z|[_ Z]]; [|left; exact Z]. rewrite Z.
    inversion M as [es0 m F NN|i0 x0 es0 info FI EV0 N0 C|i0 x0 rt idkey peer c0 tail EV0 RT ID0 ADM CT|i0 x0 r0 es0 m EV0 N0 IDR CS].
    + right. exists r. auto.
    + subst r0 es0 m.
      inversion CS as [es1 F|info FI NS|code info tail SB PE C|params ty dv cs em payload r3 tail SB OP K MV CE C|params ty dv cs c1 PF RT IC|params ty dv cs c1 tail PF RT IC T|params ty dv cs tail PF RT T]; try (left; congruence); try (right; exists r; auto; fail).
      destruct (moved_reply E (cf_chal g) i0 x0 r params ty dv cs em payload r3 LV OP MV CE) as (nonce & iv2 & _ & _ & -> & J1 & J2 & PF & CT).
      rewrite (initial_ne _ _ I1) in *. right. eexists. split; [reflexivity|].
      destruct (nrm_fixed nrm (set_eiv iv2 (moved dv ty cs r)) NO) as (_ & _ & _ & _ & _ & -> & _). cbn [set_eiv rq_eiv].
      split; [exact J2|]. split; [congruence|lia].
Qed.
Lemma iv_bound_steps : forall E g S (ops : store_ops S) s tr s' id p c, ca_at E g ops s -> steps E g ops s tr s' -> no_add id tr ->
  iv_bound p c (pending ops s id) -> iv_bound p c (pending ops s' id).
Proof.
  intros E g S ops s tr s' id p c A H. revert A. induction H as [|s ev es s1 tr s2 ST _ IH]; intros A NA B; [exact B|].
  inversion NA as [|? ? N1 N2]; subst. apply IH; [eapply ca_at_step; eassumption|exact N2|]. eapply iv_bound_step; eassumption.
Qed.
Lemma distinct_ivs : forall E g S (ops : store_ops S) a st1 b st2 c s id iv1 iv2, ca_history E g ops (a ++ st1 :: b ++ st2 :: c) s ->
  no_add id b -> reply_iv g id st1 iv1 -> reply_iv g id st2 iv2 ->
  iv_prefix iv1 = iv_prefix iv2 /\ iv_counter iv1 < iv_counter iv2.
Proof.
  intros E g S ops a st1 b st2 c s id iv1 iv2 H NA R1 R2. apply history_mid in H as (A & ST & A2 & SS).
  destruct (reply_step E g S ops st1 id iv1 A ST R1) as (i1 & r1 & P1 & _ & _ & B1).
  destruct (steps_mid _ _ _ _ _ _ _ _ _ SS) as (S1 & S2 & _). pose proof (steps_at _ _ _ _ _ _ _ A2 S1) as A3.
  destruct (reply_step E g S ops st2 id iv2 A3 S2 R2) as (i2 & r2 & P2 & X2 & _ & _).
  destruct (iv_bound_steps E g S ops _ _ _ id _ _ A2 S1 NA B1) as [Q|(r & Q & I1 & I2 & I3)]; [congruence|].
  rewrite P2 in Q. injection Q as <-. rewrite (initial_ne _ _ I1) in X2. subst iv2. split; [auto|lia].
Qed.

(** ** C31: an Interest is accepted once *)
Lemma names_absent : forall E g S (ops : store_ops S) s ev s' es i x id, ca_at E g ops s -> step E g ops s ev = Some (s', es) ->
  ev_interest ev = Some (i, x) -> names_request g id x -> pending ops s id = None -> exists info, fits info /\ cut es [EPut (error_data E g (i_name x) INVALID_PARAMETER info)].
Proof.
  intros E g S ops s ev s' es i x id A ST EV N P. destruct (at_id_step S E g ops _ _ _ _ A ST) as (nrm & NO & IDS). destruct (IDS id) as [m1 M Z]. rewrite P in M.
  inversion M as [es0 m F NN|i0 x0 es0 info FI EV0 N0 C|i0 x0 rt idkey peer c tail EV0 RT ID0 ADM CT|i0 x0 r0 es0 m EV0 N0 IDR CS].
  - destruct (NN i x EV N).
  - exists info. rewrite EV in EV0. injection EV0 as -> ->. split; [exact FI|exact C].
  - exfalso. rewrite EV in EV0. injection EV0 as <- <-. apply names_addressed in N. destruct RT as [[_ AD]|[_ AD]]; pose proof (addressed_unique g _ _ _ AD N); discriminate.
Qed.
Lemma get_len : forall b els ty t, parse b = Some els -> get ty els = Some t -> blen (t_val t) <= blen b.
Proof.
  intros b els. revert b. induction els as [|t0 els IH]; intros b ty t P G; [discriminate|].
  destruct b as [|x b]; [discriminate|]. rewrite parse_step in P by discriminate. destruct (dec_elem (x :: b)) as [[t1 rest]|] eqn:D; [|discriminate].
  destruct (parse rest) as [l|] eqn:R; [|discriminate]. injection P as -> ->. cbn [get] in G. pose proof (dec_elem_len _ _ _ D) as L.
  destruct (t_type t0 =? ty).
  - injection G as <-. unfold dec_elem in D. destruct (dec_var (x :: b)) as [[ty1 b1]|] eqn:E1; [|discriminate].
    destruct ((ty1 =? 0) || (max_type <? ty1)); [discriminate|]. destruct (dec_var b1) as [[len b2]|] eqn:E2; [|discriminate].
    destruct (blen b2 <? len); [discriminate|]. injection D as <- <-. cbn [t_val]. unfold blen. rewrite firstn_length.
    apply dec_var_len in E1. apply dec_var_len in E2. lia.
  - pose proof (IH rest ty t R G). unfold blen in *. lia.
Qed.
Lemma dec_view_len : forall block iv tag ct, dec_view block = Some (iv, tag, ct) -> blen ct <= blen block.
Proof.
  intros block iv tag ct H. unfold dec_view in H. destruct (parse block) as [els|] eqn:P; [|discriminate].
  destruct (get T_EncryptedPayload els) as [p|] eqn:G; [|discriminate].
  destruct (get T_InitializationVector els) as [i|]; [|discriminate].
  destruct (get T_AuthenticationTag els) as [t|]; [|discriminate].
  destruct (_ =? 12); [|discriminate]. destruct (_ =? 16); [|discriminate]. injection H as <- <- <-. exact (get_len _ _ _ _ P G).
Qed.
Lemma opened_iv : forall E x r params ty dv, blen (params_of x) < 2 ^ 32 -> opened E x r params ty dv ->
  exists iv, wire_iv (params_of x) = Some iv /\ fresh_for iv (rq_div r) (rq_eiv r) /\ iv12 dv /\ iv_prefix dv = iv_prefix iv /\ iv_counter iv + 1 <= iv_counter dv.
Proof.
  intros E x r params ty dv SM (pt & D & NE & _). apply decode_ok_inv in D as (iv & tag & ct & V & F & _ & L & U).
  destruct (dec_view_iv _ _ _ _ V) as (I1 & _ & I2). apply (update_iv_spec _ _ _ I1) in U as (U1 & U2 & U3 & _).
  pose proof (dec_view_len _ _ _ _ V) as DL. exists iv. split; [exact I2|]. split; [exact F|]. split; [exact U1|]. split; [exact U2|].
  rewrite U3. assert (BL : blen pt = blen ct) by (unfold blen; lia). assert (0 < blen pt) by (destruct pt; [contradiction|unfold blen; cbn [length]; lia]).
  rewrite aes_blocks_small by lia. assert (16 / 16 <= (blen pt + 15) / 16) by (apply N.div_le_mono; lia). change (16 / 16) with 1 in *. lia.
Qed.
Definition div_bound (c : N) (m : option request) : Prop := m = None \/ exists r, m = Some r /\ iv12 (rq_div r) /\ c <= iv_counter (rq_div r).
Lemma takes_step : forall E g S (ops : store_ops S) st id x, ca_at E g ops (h_pre st) -> step E g ops (h_pre st) (h_ev st) = Some (h_post st, h_effs st) ->
  takes g id st x -> exists i r nrm m params ty dv, pending ops (h_pre st) id = Some r /\ handles st i x /\ nrm_ok nrm /\ live r /\ opened E x r params ty dv /\ chal_step E g nrm i x r (h_effs st) m /\ rq_id r = id /\
    signed_by E x (public_key (rq_cert r)) /\
    (pending ops (h_post st) id = m \/ restarts (h_ev st) /\ pending ops (h_post st) id = None) /\
    (m = None \/ (m = Some r /\ exists c, h_effs st = [EIssue c]) \/ exists r', m = Some r' /\ rq_div r' = dv).
Proof.
  intros E g S ops st id x A ST (i & HD & N & TK). pose proof HD as HD0. apply ev_handles in HD.
  destruct (pending ops (h_pre st) id) as [r|] eqn:P.
  - destruct (pending_chal_step E g S ops _ _ _ _ _ _ _ _ A ST HD N P) as (nrm & m & NO & IDR & LV & CS & Z).
    assert (TT : forall code info tail, cut tail [EPut (error_data E g (i_name x) code info)] -> h_effs st = EDelete (rq_id r) :: tail -> False).
    { intros code info tail C Q. rewrite Q in TK. destruct TK as [(r1 & [K|K])|[(c1 & [K|K])|(r1 & [K|K] & _)]]; try discriminate; apply (in_cut _ _ _ C) in K; destruct K as [K|[]]; discriminate. }
    exists i, r, nrm, m. pose proof CS as CS'.
    inversion CS as [es1 F|info FI NS|code info tail SB PE C|params ty dv cs em payload r3 tail SB OP K MV CE C|params ty dv cs c1 PF RT IC|params ty dv cs c1 tail PF RT IC T|params ty dv cs tail PF RT T].
    + exfalso. rewrite Forall_forall in F. destruct TK as [(r1 & K)|[(c1 & K)|(r1 & K & _)]]; destruct (F _ K).
    + exfalso. match goal with Q : _ = h_effs st |- _ => rewrite <- Q in TK end. destruct TK as [(r1 & [K|[]])|[(c1 & [K|[]])|(r1 & [K|[]] & _)]]; discriminate.
    + exfalso. eapply TT; [exact C|auto].
    + exists params, ty, dv. split; [reflexivity|]. split; [assumption|]. split; [exact NO|]. split; [exact LV|]. split; [exact OP|]. split; [congruence|]. split; [exact IDR|]. split; [exact SB|]. split; [congruence|].
      right. right. eexists. split; [reflexivity|]. destruct (moved_live E g i x r params ty dv cs em payload r3 LV OP K MV CE) as (iv2 & -> & _).
      destruct (nrm_fixed nrm (set_eiv iv2 (moved dv ty cs r)) NO) as (_ & _ & _ & _ & _ & _ & ->). reflexivity.
    + destruct PF as (SB & OP & _). exists params, ty, dv. split; [reflexivity|]. split; [assumption|]. split; [exact NO|]. split; [exact LV|]. split; [exact OP|]. split; [congruence|]. split; [exact IDR|]. split; [exact SB|]. split; [congruence|].
      right. left. split; [reflexivity|]. eauto.
    + destruct PF as (SB & OP & _). exists params, ty, dv. split; [reflexivity|]. split; [assumption|]. split; [exact NO|]. split; [exact LV|]. split; [exact OP|]. split; [congruence|]. split; [exact IDR|]. split; [exact SB|]. split; [congruence|]. auto.
    + destruct PF as (SB & OP & _). exists params, ty, dv. split; [reflexivity|]. split; [assumption|]. split; [exact NO|]. split; [exact LV|]. split; [exact OP|]. split; [congruence|]. split; [exact IDR|]. split; [exact SB|]. split; [congruence|]. auto.
  - exfalso. destruct (names_absent E g S ops _ _ _ _ _ _ _ A ST HD N P) as (info & FI & C).
    destruct TK as [(r1 & K)|[(c1 & K)|(r1 & K & _)]]; apply (in_cut _ _ _ C) in K; destruct K as [K|[]]; discriminate.
Qed.
Lemma div_bound_step : forall E g S (ops : store_ops S) s ev s' es id c, ca_at E g ops s -> step E g ops s ev = Some (s', es) ->
  ~ adds id (HStep s ev es s') -> div_bound c (pending ops s id) -> div_bound c (pending ops s' id).
Proof.
  intros E g S ops s ev s' es id c A ST NA [N|(r & P & I1 & I2)].
  - left. apply (none_stays E g S ops id s [HStep s ev es s'] s' A); [econstructor; [exact ST|constructor]|exact N|constructor; [exact NA|constructor]].
  - destruct (pending_live E g S ops s id r A P) as [ID LV]. destruct (at_id_step S E g ops _ _ _ _ A ST) as (nrm & NO & IDS). destruct (IDS id) as [m1 M Z]. rewrite P in M.
    destruct Z as [Z|[_ Z]]; [|left; exact Z]. rewrite Z.
    inversion M as [es0 m F NN|i0 x0 es0 info FI EV0 N0 C|i0 x0 rt idkey peer c0 tail EV0 RT ID0 ADM CT|i0 x0 r0 es0 m EV0 N0 IDR CS].
    + right. exists r. auto.
    + subst r0 es0 m.
      inversion CS as [es1 F|info FI NS|code info tail SB PE C|params ty dv cs em payload r3 tail SB OP K MV CE C|params ty dv cs c1 PF RT IC|params ty dv cs c1 tail PF RT IC T|params ty dv cs tail PF RT T]; try (left; congruence); try (right; exists r; auto; fail).
      destruct (moved_live E g i0 x0 r params ty dv cs em payload r3 LV OP K MV CE) as (iv2 & -> & _ & D & _).
      right. eexists. split; [reflexivity|]. destruct (nrm_fixed nrm (set_eiv iv2 (moved dv ty cs r)) NO) as (_ & _ & _ & _ & _ & _ & ->). cbn [set_eiv rq_div moved set_cs set_ctype set_status set_div].
      split; [exact D|]. destruct OP as (pt & DE & _). apply decode_ok_inv in DE as (iv & tag & ct & V & (_ & F2) & _ & L & U).
      destruct (dec_view_iv _ _ _ _ V) as (J1 & _). apply (update_iv_spec _ _ _ J1) in U as (_ & _ & U3 & _).
      destruct F2 as [Q|(_ & Q & _)]; [rewrite Q in I1; discriminate|]. lia.
Qed.
Lemma div_bound_steps : forall E g S (ops : store_ops S) s tr s' id c, ca_at E g ops s -> steps E g ops s tr s' -> no_add id tr ->
  div_bound c (pending ops s id) -> div_bound c (pending ops s' id).
Proof.
  intros E g S ops s tr s' id c A H. revert A. induction H as [|s ev es s1 tr s2 ST _ IH]; intros A NA B; [exact B|].
  inversion NA as [|? ? N1 N2]; subst. apply IH; [eapply ca_at_step; eassumption|exact N2|]. eapply div_bound_step; eassumption.
Qed.
Lemma taken_once : forall E g S (ops : store_ops S) a st1 b st2 c s id x1 x2, ca_history E g ops (a ++ st1 :: b ++ st2 :: c) s -> no_add id b ->
  takes g id st1 x1 -> recorded id st1 -> takes g id st2 x2 -> blen (params_of x1) < 2 ^ 32 -> wire_iv (params_of x1) <> wire_iv (params_of x2).
Proof.
  intros E g S ops a st1 b st2 c s id x1 x2 H NA T1 RC T2 SM EQ. apply history_mid in H as (A & ST & A2 & SS).
  destruct (takes_step E g S ops st1 id x1 A ST T1) as (i & r & nrm & m & params & ty & dv & P & HD & NO & LV & OP & CS & IDR & SB & Z & MM).
  destruct (opened_iv E x1 r params ty dv SM OP) as (iv & W & _ & DV & _ & CT).
  assert (B1 : div_bound (iv_counter iv + 1) (pending ops (h_post st1) id)).
  { destruct Z as [Z|[_ Z]]; [|left; exact Z]. rewrite Z. destruct MM as [->|[[-> (c0 & Q)]|(r' & -> & <-)]]; [left; reflexivity| |right; exists r'; auto].
    exfalso. destruct RC as [(r1 & K)|K]; rewrite Q in K; destruct K as [K|[]]; discriminate. }
  destruct (steps_mid _ _ _ _ _ _ _ _ _ SS) as (S1 & S2 & _). pose proof (steps_at _ _ _ _ _ _ _ A2 S1) as A3.
  destruct (takes_step E g S ops st2 id x2 A3 S2 T2) as (i2 & r2 & nrm2 & m2 & params2 & ty2 & dv2 & P2 & _ & _ & _ & OP2 & _).
  destruct (div_bound_steps E g S ops _ _ _ id _ A2 S1 NA B1) as [Q|(r3 & Q & J1 & J2)]; [congruence|]. rewrite P2 in Q. injection Q as <-.
  destruct OP2 as (pt & DE & _). apply decode_ok_inv in DE as (iv2 & tag & ct & V & (_ & F2) & _). destruct (dec_view_iv _ _ _ _ V) as (_ & _ & W2).
  rewrite EQ in W. rewrite W in W2. injection W2 as <-. destruct F2 as [Q|(_ & Q & _)]; [rewrite Q in J1; discriminate|]. lia.
Qed.

(** ** C32: who can make a request disappear *)
