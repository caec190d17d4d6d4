(** Facts about NEW/REVOKE parameters and replies, and about unknown elements. *)
From Verif Require Export EncoderFacts.
Local Open Scope N_scope.

Lemma fails_exn : forall A, fails (@Exn A). Proof. intros A a H. discriminate. Qed.
Lemma fails_ub : forall A, fails (@UB A). Proof. intros A a H. discriminate. Qed.
Lemma fails_hang : forall A, fails (@Hang A). Proof. intros A a H. discriminate. Qed.
#[export] Hint Resolve fails_exn fails_ub fails_hang : core.

Lemma count_0_notin : forall ty l t, count ty l = O -> In t l -> t_type t <> ty.
Proof.
  induction l as [|a l IH]; intros t H I; [destruct I|]. rewrite count_cons in H.
  destruct (N.eqb_spec (t_type a) ty); [discriminate|]. destruct I as [<-|I]; [assumption|]. apply IH; assumption.
Qed.
Lemma count_unique : forall ty l a b, count ty l = 1%nat -> In a l -> In b l -> t_type a = ty -> t_type b = ty -> a = b.
Proof.
  induction l as [|t l IH]; intros a b H Ia Ib Ta Tb; [destruct Ia|]. rewrite count_cons in H.
  destruct (N.eqb_spec (t_type t) ty) as [T|T].
  - injection H as H.
    destruct Ia as [<-|Ia]; [|exfalso; eapply count_0_notin; eassumption].
    destruct Ib as [<-|Ib]; [reflexivity|exfalso; eapply count_0_notin; eassumption].
  - destruct Ia as [<-|Ia]; [contradiction|]. destruct Ib as [<-|Ib]; [contradiction|]. apply IH; assumption.
Qed.

Lemma okc_cons : forall known t l, only_known_critical known (t :: l) <->
  (critical (t_type t) -> In (t_type t) known) /\ only_known_critical known l.
Proof.
  intros known t l. unfold only_known_critical. split.
  - intros H. split; [intros C; apply H; [left; reflexivity|exact C]|intros t' I; apply H; right; exact I].
  - intros [A B] t' [<-|I]; [exact A|apply B; exact I].
Qed.
Lemma not_critical : forall ty, is_critical ty = false -> critical ty -> False.
Proof. intros ty H C. apply is_critical_iff in C. congruence. Qed.

Lemma cert_type_test : forall rt cty ty, cert_type rt cty ->
  ((rt =? RT_NEW) && (ty =? T_CertRequest)) || ((rt =? RT_REVOKE) && (ty =? T_CertToRevoke)) = (ty =? cty).
Proof.
  intros rt cty ty [[-> ->]|[-> ->]]; ncmp; cbn [andb orb]; [rewrite orb_false_r|]; reflexivity.
Qed.
Lemma cert_type_ne : forall rt cty, cert_type rt cty -> cty <> T_EcdhPub.
Proof. intros rt cty [[_ ->]|[_ ->]]; discriminate. Qed.

Lemma req_loop_spec : forall E rt cty l e c ec pc e' c' ec' pc', cert_type rt cty ->
  req_loop E rt l (e, c, ec, pc) = Ok (e', c', ec', pc') ->
  ec' = (ec + count T_EcdhPub l)%nat /\ pc' = (pc + count cty l)%nat /\
  only_known_critical [T_EcdhPub; cty] l /\
  (if Nat.eqb (count T_EcdhPub l) 0 then e' = e else In (Tlv T_EcdhPub e') l) /\
  (if Nat.eqb (count cty l) 0 then c' = c else exists t c1, In t l /\ t_type t = cty /\ carries_cert E t c1 /\ c' = Some c1).
Proof.
  intros E rt cty l. induction l as [|t l IH]; intros e c ec pc e' c' ec' pc' CT H; cbn [req_loop] in H.
  - injection H as <- <- <- <-. cbn. rewrite !Nat.add_0_r. repeat split; auto. intros t [].
  - rewrite (cert_type_test rt cty _ CT) in H. rewrite !count_cons, okc_cons.
    destruct (N.eqb_spec (t_type t) T_EcdhPub) as [T1|T1].
    + destruct (N.eqb_spec (t_type t) cty) as [T2|_]; [exfalso; apply (cert_type_ne _ _ CT); congruence|].
      destruct (IH _ _ _ _ _ _ _ _ CT H) as (A & B & C & D & F). cbn [Nat.eqb].
      repeat split; try lia; auto.
      * intros _. left. auto.
      * destruct (Nat.eqb (count T_EcdhPub l) 0); [subst e'; left; destruct t; cbn in *; subst; reflexivity|right; exact D].
      * destruct (Nat.eqb (count cty l) 0); [exact F|]. destruct F as (t' & c1 & F1 & F2). exists t', c1. split; [right; exact F1|exact F2].
    + destruct (N.eqb_spec (t_type t) cty) as [T2|T2].
      * destruct (parse (t_val t)) as [els|] eqn:P; [|discriminate]. cbn [of_opt bind] in H.
        destruct (get T_Data els) as [d|] eqn:G; [|discriminate]. cbn [of_opt bind] in H.
        destruct (cert_decode E d) as [c1|] eqn:CD; [|discriminate]. cbn [of_opt bind] in H.
        destruct (IH _ _ _ _ _ _ _ _ CT H) as (A & B & C & D & F). cbn [Nat.eqb].
        repeat split; try lia; auto.
        -- intros _. right. left. auto.
        -- destruct (Nat.eqb (count T_EcdhPub l) 0); [exact D|right; exact D].
        -- destruct (Nat.eqb (count cty l) 0).
           ++ exists t, c1. repeat split; auto; [left; reflexivity|exists els, d; auto].
           ++ destruct F as (t' & c2 & F1 & F2). exists t', c2. split; [right; exact F1|exact F2].
      * destruct (is_critical (t_type t)) eqn:K; [discriminate|].
        destruct (IH _ _ _ _ _ _ _ _ CT H) as (A & B & C & D & F).
        repeat split; auto.
        -- intros X. exfalso. eapply not_critical; eassumption.
        -- destruct (Nat.eqb (count T_EcdhPub l) 0); [exact D|right; exact D].
        -- destruct (Nat.eqb (count cty l) 0); [exact F|]. destruct F as (t' & c1 & F1 & F2). exists t', c1. split; [right; exact F1|exact F2].
Qed.

Lemma req_loop_ok : forall E rt cty l st, cert_type rt cty -> only_known_critical [T_EcdhPub; cty] l ->
  (forall t, In t l -> t_type t = cty -> exists c, carries_cert E t c) ->
  exists st', req_loop E rt l st = Ok st'.
Proof.
  intros E rt cty l. induction l as [|t l IH]; intros [[[e c] ec] pc] CT K C; cbn [req_loop]; [eexists; reflexivity|].
  rewrite (cert_type_test rt cty _ CT). apply okc_cons in K as [K1 K2].
  assert (forall t', In t' l -> t_type t' = cty -> exists c, carries_cert E t' c) as C' by (intros; apply C; [right|]; assumption).
  destruct (N.eqb_spec (t_type t) T_EcdhPub) as [T1|T1]; [apply IH; assumption|].
  destruct (N.eqb_spec (t_type t) cty) as [T2|T2].
  - destruct (C t) as (c1 & els & d & P & G & D); [left; reflexivity|exact T2|].
    rewrite P. cbn [of_opt bind]. rewrite G. cbn [of_opt bind]. rewrite D. cbn [of_opt bind]. apply IH; assumption.
  - destruct (is_critical (t_type t)) eqn:X; [|apply IH; assumption].
    apply is_critical_iff in X. destruct (K1 X) as [Y|[Y|[]]]; congruence.
Qed.

Lemma carries_fun : forall E t c1 c2, carries_cert E t c1 -> carries_cert E t c2 -> c1 = c2.
Proof. intros E t c1 c2 (i & d & A & B & C) (i' & d' & A' & B' & C'). congruence. Qed.

Lemma req_decode_iff : forall E rt cty b e c, cert_type rt cty ->
  (req_decode E rt b = Ok (e, c) <-> request_params E cty b e c).
Proof.
  intros E rt cty b e c CT. unfold req_decode, request_params. split.
  - intros H. destruct (parse b) as [els|]; [|discriminate]. cbn [of_opt bind] in H.
    destruct (req_loop E rt els ([], None, O, O)) as [[[[e1 c1] ec] pc]| | |] eqn:L; try discriminate. cbn [bind] in H.
    destruct (req_loop_spec _ _ _ _ _ _ _ _ _ _ _ _ CT L) as (A & B & C & D & F).
    cbn [Nat.add] in A, B. subst ec pc.
    destruct (Nat.eqb_spec (count T_EcdhPub els) 1) as [C1|C1]; [|discriminate].
    destruct (Nat.eqb_spec (count cty els) 1) as [C2|C2]; [|discriminate]. cbn [negb orb] in H.
    rewrite C1 in D. rewrite C2 in F. cbn [Nat.eqb] in D, F. destruct F as (t & c2 & F1 & F2 & F3 & ->).
    injection H as <- <-. exists els, t. repeat split; auto.
  - intros (els & t & P & C1 & I1 & C2 & I2 & T2 & CC & K). rewrite P. cbn [of_opt bind].
    destruct (req_loop_ok E rt cty els ([], None, O, O) CT K) as [[[[e1 c1] ec] pc] L].
    { intros t' I T. exists c. rewrite (count_unique _ _ _ _ C2 I I2 T T2). exact CC. }
    rewrite L. cbn [bind].
    destruct (req_loop_spec _ _ _ _ _ _ _ _ _ _ _ _ CT L) as (A & B & C & D & F).
    cbn [Nat.add] in A, B. subst ec pc. rewrite C1, C2 in *. cbn [Nat.eqb negb orb] in *.
    destruct F as (t' & c2 & F1 & F2 & F3 & ->).
    pose proof (count_unique _ _ _ _ C2 F1 I2 F2 T2) as ->. rewrite (carries_fun _ _ _ _ F3 CC).
    pose proof (count_unique _ _ _ _ C1 D I1 eq_refl eq_refl) as X. injection X as ->. reflexivity.
Qed.

(** For any other request type (RENEW in particular) decoding always fails. *)
Lemma req_loop_other : forall E rt l e c ec pc e' c' ec' pc', rt <> RT_NEW -> rt <> RT_REVOKE ->
  req_loop E rt l (e, c, ec, pc) = Ok (e', c', ec', pc') -> pc' = pc.
Proof.
  intros E rt l. induction l as [|t l IH]; intros e c ec pc e' c' ec' pc' H1 H2 H; cbn [req_loop] in H; [congruence|].
  rewrite (proj2 (N.eqb_neq _ _) H1), (proj2 (N.eqb_neq _ _) H2) in H. cbn [andb orb] in H.
  destruct (t_type t =? T_EcdhPub); [eapply IH; eassumption|].
  destruct (is_critical (t_type t)); [discriminate|eapply IH; eassumption].
Qed.
Lemma req_decode_other : forall E rt b, rt <> RT_NEW -> rt <> RT_REVOKE -> fails (req_decode E rt b).
Proof.
  intros E rt b H1 H2 a H. unfold req_decode in H. destruct (parse b) as [els|]; [|discriminate]. cbn [of_opt bind] in H.
  destruct (req_loop E rt els ([], None, O, O)) as [[[[e1 c1] ec] pc]| | |] eqn:L; try discriminate. cbn [bind] in H.
  apply req_loop_other in L; auto. subst pc. destruct (Nat.eqb ec 1); discriminate.
Qed.

Lemma req_roundtrip : forall E rt ecdh c, codec_laws E -> rt = RT_NEW \/ rt = RT_REVOKE ->
  fits ecdh -> wf_cert c -> cert_ok c = true -> fits (enc_tlv (cert_tlv E c)) ->
  req_decode E rt (req_encode E rt ecdh c) = Ok (ecdh, c).
Proof.
  intros E rt ecdh c L R F1 W K F2.
  assert (parse (enc_tlv (cert_tlv E c)) = Some [cert_tlv E c]) as P by (apply parse_one, cert_tlv_wf, F2).
  unfold req_decode, req_encode.
  destruct R as [-> | ->]; ncmp; cbn [orb].
  - rewrite parse_enc by (constructor; [wft; exact F1|constructor; [wft; exact F2|constructor]]).
    cbn [of_opt bind req_loop t_type t_val]. ncmp. cbn [andb orb]. rewrite P. cbn [of_opt bind get cert_tlv t_type]. ncmp.
    cbn [of_opt bind]. fold (cert_tlv E c). rewrite cert_decode_tlv by assumption. reflexivity.
  - rewrite parse_enc by (constructor; [wft; exact F1|constructor; [wft; exact F2|constructor]]).
    cbn [of_opt bind req_loop t_type t_val]. ncmp. cbn [andb orb]. rewrite P. cbn [of_opt bind get cert_tlv t_type]. ncmp.
    cbn [of_opt bind]. fold (cert_tlv E c). rewrite cert_decode_tlv by assumption. reflexivity.
Qed.

(** ** Replies *)
Lemma reply_loop_chals : forall l r ec sc ic,
  reply_loop (map (Tlv T_Challenge) l) r ec sc ic =
  (Ok (ec, sc, ic), Reply (rp_ecdh r) (rp_salt r) (rp_id r) (rp_challenges r ++ l)).
Proof.
  induction l as [|c l IH]; intros r ec sc ic; cbn [map reply_loop t_type t_val].
  - rewrite app_nil_r. destruct r; reflexivity.
  - ncmp. rewrite IH. cbn [rp_ecdh rp_salt rp_id rp_challenges]. rewrite <- app_assoc. reflexivity.
Qed.
Lemma memcpy_full : forall dst src, length dst = length src -> memcpy_into dst src = Ok src.
Proof.
  intros dst src H. unfold memcpy_into. rewrite H, Nat.ltb_irrefl. rewrite <- H, skipn_all, app_nil_r. reflexivity.
Qed.
Lemma fits_short : forall b, (length b <= 100)%nat -> fits b.
Proof. intros b H. unfold fits, blen. lia. Qed.

Lemma reply_roundtrip : forall ecdh salt id chals salt0 id0,
  fits ecdh -> length salt = 32%nat -> length id = 8%nat -> Forall fits chals ->
  length salt0 = 32%nat -> length id0 = 8%nat ->
  reply_decode salt0 id0 (reply_encode ecdh salt id chals) = (Ok tt, Reply ecdh salt id chals).
Proof.
  intros ecdh salt id chals salt0 id0 F1 L1 L2 F2 L3 L4. unfold reply_decode, reply_encode. rewrite parse_enc.
  2:{ apply Forall_app. split.
      - constructor; [wft; exact F1|]. constructor; [wft; apply fits_short; rewrite L1; apply Nat.leb_le; vm_compute; reflexivity|].
        constructor; [wft; apply fits_short; rewrite L2; apply Nat.leb_le; vm_compute; reflexivity|constructor].
      - apply Forall_map. eapply Forall_impl; [|exact F2]. intros k Fk. wft. exact Fk. }
  cbn [app reply_loop t_type t_val rp_ecdh rp_salt rp_id rp_challenges]. ncmp.
  rewrite memcpy_full by congruence. cbn [rp_ecdh rp_salt rp_id rp_challenges].
  rewrite memcpy_full by congruence. rewrite reply_loop_chals. reflexivity.
Qed.

(** When the reply decoder writes out of bounds. *)
Lemma memcpy_cases : forall dst src, ((length dst < length src)%nat /\ memcpy_into dst src = UB) \/
  ((length src <= length dst)%nat /\ memcpy_into dst src = Ok (src ++ skipn (length src) dst) /\
   length (src ++ skipn (length src) dst) = length dst).
Proof.
  intros dst src. unfold memcpy_into. destruct (Nat.ltb_spec (length dst) (length src)); [left; auto|right].
  repeat split; auto. rewrite app_length, skipn_length. lia.
Qed.

Lemma reply_loop_ub : forall l r ec sc ic,
  (fst (reply_loop l r ec sc ic) = UB <->
   exists a t b, l = a ++ t :: b /\ only_known_critical known_new_reply a /\
     Forall (fun t => ~ too_long (rp_salt r) (rp_id r) t) a /\ too_long (rp_salt r) (rp_id r) t) /\
  fst (reply_loop l r ec sc ic) <> Hang.
Proof.
  induction l as [|t l IH]; intros r ec sc ic; cbn [reply_loop].
  { split; [|discriminate]. split; [discriminate|]. intros (a & t & b & H & _). destruct a; discriminate. }
  assert (forall r' ec' sc' ic', length (rp_salt r') = length (rp_salt r) -> length (rp_id r') = length (rp_id r) ->
     (critical (t_type t) -> In (t_type t) known_new_reply) -> ~ too_long (rp_salt r) (rp_id r) t ->
     (fst (reply_loop l r' ec' sc' ic') = UB <->
      exists a t0 b, t :: l = a ++ t0 :: b /\ only_known_critical known_new_reply a /\
        Forall (fun t => ~ too_long (rp_salt r) (rp_id r) t) a /\ too_long (rp_salt r) (rp_id r) t0) /\
     fst (reply_loop l r' ec' sc' ic') <> Hang) as G.
  { intros r' ec' sc' ic' S1 S2 K N. destruct (IH r' ec' sc' ic') as [[I1 I2] I3].
    assert (forall x, too_long (rp_salt r') (rp_id r') x <-> too_long (rp_salt r) (rp_id r) x) as EQ.
    { intros x. unfold too_long. rewrite S1, S2. reflexivity. }
    split; [|exact I3]. split.
    - intros H. destruct (I1 H) as (a & t0 & b & A & B & C & D). exists (t :: a), t0, b. rewrite A.
      repeat split.
      + apply okc_cons. auto.
      + constructor; [exact N|]. eapply Forall_impl; [|exact C]. intros x Hx. rewrite <- EQ. exact Hx.
      + apply EQ. exact D.
    - intros (a & t0 & b & A & B & C & D). apply I2. destruct a as [|y a].
      + injection A as <- <-. contradiction.
      + injection A as <- ->. apply okc_cons in B as [_ B]. inversion C; subst. exists a, t0, b.
        repeat split; auto; [|apply EQ; exact D]. eapply Forall_impl; [|eassumption]. intros x Hx. rewrite EQ. exact Hx. }
  assert (too_long (rp_salt r) (rp_id r) t ->
     exists a t0 b, t :: l = a ++ t0 :: b /\ only_known_critical known_new_reply a /\
        Forall (fun t => ~ too_long (rp_salt r) (rp_id r) t) a /\ too_long (rp_salt r) (rp_id r) t0) as G0.
  { intros H. exists [], t, l. repeat split; auto. intros x []. }
  destruct (N.eqb_spec (t_type t) T_Challenge) as [T1|T1].
  { apply G; auto; [intros _; rewrite T1; cbn; auto|intros [[X _]|[X _]]; rewrite T1 in X; discriminate]. }
  destruct (N.eqb_spec (t_type t) T_EcdhPub) as [T2|T2].
  { apply G; auto; [intros _; rewrite T2; cbn; auto|intros [[X _]|[X _]]; rewrite T2 in X; discriminate]. }
  destruct (N.eqb_spec (t_type t) T_Salt) as [T3|T3].
  { destruct (memcpy_cases (rp_salt r) (t_val t)) as [[A ->]|(A & -> & B)].
    - cbn [fst]. split; [|discriminate]. split; [|reflexivity]. intros _. apply G0. left. auto.
    - apply G; auto; [intros _; rewrite T3; cbn; auto|intros [[_ X]|[X _]]; [lia|rewrite T3 in X; discriminate]]. }
  destruct (N.eqb_spec (t_type t) T_RequestId) as [T4|T4].
  { destruct (memcpy_cases (rp_id r) (t_val t)) as [[A ->]|(A & -> & B)].
    - cbn [fst]. split; [|discriminate]. split; [|reflexivity]. intros _. apply G0. right. auto.
    - apply G; auto; [intros _; rewrite T4; cbn; auto 6|intros [[X _]|[_ X]]; [rewrite T4 in X; discriminate|lia]]. }
  destruct (is_critical (t_type t)) eqn:K.
  - cbn [fst]. split; [|discriminate]. split; [discriminate|]. intros (a & t0 & b & A & B & C & D). exfalso.
    destruct a as [|y a].
    + injection A as <- <-. destruct D as [[X _]|[X _]]; congruence.
    + injection A as <- ->. apply okc_cons in B as [B _]. apply is_critical_iff in K. specialize (B K).
      cbn in B. destruct B as [B|[B|[B|[B|[]]]]]; congruence.
  - apply G; auto.
    + intros X. exfalso. eapply not_critical; eassumption.
    + intros [[X _]|[X _]]; congruence.
Qed.

Lemma reply_decode_ub_iff : forall salt0 id0 b,
  fst (reply_decode salt0 id0 b) = UB <->
  exists a t c, parse b = Some (a ++ t :: c) /\ only_known_critical known_new_reply a /\
     Forall (fun t => ~ too_long salt0 id0 t) a /\ too_long salt0 id0 t.
Proof.
  intros salt0 id0 b. unfold reply_decode. destruct (parse b) as [els|].
  2:{ cbn. split; [discriminate|]. intros (a & t & c & H & _). discriminate. }
  destruct (reply_loop_ub els (Reply [] salt0 id0 []) O O O) as [[I1 I2] I3]. cbn [rp_salt rp_id] in *.
  assert (fst (reply_loop els (Reply [] salt0 id0 []) 0 0 0) = UB <->
          exists a t c, Some els = Some (a ++ t :: c) /\ only_known_critical known_new_reply a /\
          Forall (fun t => ~ too_long salt0 id0 t) a /\ too_long salt0 id0 t) as G.
  { split.
    - intros H. destruct (I1 H) as (a & t & c & A & B & C & D). exists a, t, c. rewrite A. auto.
    - intros (a & t & c & A & B & C & D). apply I2. exists a, t, c. injection A as A. auto. }
  rewrite <- G.
  destruct (reply_loop els (Reply [] salt0 id0 []) 0 0 0) as [[[[ec sc] ic]| | |] r]; cbn [fst] in *;
    try (split; congruence).
  destruct (negb (Nat.eqb ec 1) || negb (Nat.eqb sc 1) || negb (Nat.eqb ic 1)); split; discriminate.
Qed.

(** ** Unknown elements *)
Ltac neq_known H := intros X; apply H; rewrite X; cbn; tauto.

Lemma not_known : forall known ty k, ~ In ty known -> In k known -> (ty =? k) = false.
Proof. intros known ty k H I. apply N.eqb_neq. intros ->. contradiction. Qed.
Lemma noncrit_not : forall ty k, ~ critical ty -> critical k -> (ty =? k) = false.
Proof. intros ty k H I. apply N.eqb_neq. intros ->. contradiction. Qed.
Lemma noncrit_false : forall ty, ~ critical ty -> is_critical ty = false.
Proof. intros ty H. destruct (is_critical ty) eqn:K; [|reflexivity]. apply is_critical_iff in K. contradiction. Qed.
Lemma crit_true : forall ty, critical ty -> is_critical ty = true.
Proof. intros ty H. apply is_critical_iff. exact H. Qed.

Ltac crit := apply is_critical_iff; reflexivity.

Lemma parse_insert : forall a t b, Forall wf_tlv (a ++ t :: b) ->
  parse (enc_tlvs (a ++ t :: b)) = Some (a ++ t :: b) /\ parse (enc_tlvs (a ++ b)) = Some (a ++ b).
Proof.
  intros a t b H. split; apply parse_enc; [exact H|].
  apply Forall_app in H as [H1 H2]. inversion H2; subst. apply Forall_app. auto.
Qed.

(** INFO *)
Lemma info_unknown : forall E a t b, Forall wf_tlv (a ++ t :: b) ->
  (critical (t_type t) -> ~ In (t_type t) known_info -> fails (info_decode E (enc_tlvs (a ++ t :: b)))) /\
  (~ critical (t_type t) -> info_decode E (enc_tlvs (a ++ t :: b)) = info_decode E (enc_tlvs (a ++ b))).
Proof.
  intros E a t b W. destruct (parse_insert a t b W) as [P1 P2]. unfold info_decode. rewrite P1, P2. cbn [of_opt bind].
  rewrite !info_loop_app. split.
  - intros C K. destruct (info_loop E a empty_profile) as [p| | |]; cbn [bind]; auto. cbn [info_loop].
    unfold info_item. rewrite (crit_true _ C).
    rewrite !(not_known known_info) by (auto; cbn; tauto). cbn [bind]. auto.
  - intros C. destruct (info_loop E a empty_profile) as [p| | |]; cbn [bind]; auto. cbn [info_loop].
    unfold info_item. rewrite (noncrit_false _ C).
    rewrite !noncrit_not by (auto; crit). reflexivity.
Qed.

(** PROBE replies *)
Lemma probe_unknown : forall a t b, Forall wf_tlv (a ++ t :: b) ->
  (critical (t_type t) -> ~ In (t_type t) known_probe_reply -> fails (probe_decode (enc_tlvs (a ++ t :: b)))) /\
  (~ critical (t_type t) -> probe_decode (enc_tlvs (a ++ t :: b)) = probe_decode (enc_tlvs (a ++ b))).
Proof.
  intros a t b W. destruct (parse_insert a t b W) as [P1 P2]. unfold probe_decode. rewrite P1, P2. cbn [of_opt bind].
  rewrite !probe_loop_app. split.
  - intros C K. destruct (probe_loop a ([], [])) as [p| | |]; cbn [bind]; auto. cbn [probe_loop].
    rewrite (crit_true _ C). rewrite !(not_known known_probe_reply) by (auto; cbn; tauto). auto.
  - intros C. destruct (probe_loop a ([], [])) as [p| | |]; cbn [bind]; auto. cbn [probe_loop].
    rewrite (noncrit_false _ C). rewrite !noncrit_not by (auto; crit). reflexivity.
Qed.

(** NEW/REVOKE parameters *)
Lemma req_loop_app : forall E rt a b st, req_loop E rt (a ++ b) st = bind (req_loop E rt a st) (req_loop E rt b).
Proof.
  intros E rt. induction a as [|t a IH]; intros b st; cbn [app req_loop bind]; [reflexivity|].
  destruct st as [[[e c] ec] pc].
  destruct (t_type t =? T_EcdhPub); [apply IH|].
  destruct (_ || _).
  { destruct (parse (t_val t)) as [els|]; cbn [of_opt bind]; [|reflexivity].
    destruct (get T_Data els); cbn [of_opt bind]; [|reflexivity].
    destruct (cert_decode E t0); cbn [of_opt bind]; auto. }
  destruct (is_critical (t_type t)); cbn [bind]; auto.
Qed.
Lemma req_unknown : forall E rt cty a t b, cert_type rt cty -> Forall wf_tlv (a ++ t :: b) ->
  (critical (t_type t) -> ~ In (t_type t) [T_EcdhPub; cty] -> fails (req_decode E rt (enc_tlvs (a ++ t :: b)))) /\
  (~ critical (t_type t) -> req_decode E rt (enc_tlvs (a ++ t :: b)) = req_decode E rt (enc_tlvs (a ++ b))).
Proof.
  intros E rt cty a t b CT W. destruct (parse_insert a t b W) as [P1 P2]. unfold req_decode. rewrite P1, P2. cbn [of_opt bind].
  rewrite !req_loop_app. split.
  - intros C K. destruct (req_loop E rt a ([], None, O, O)) as [[[[e c] ec] pc]| | |]; cbn [bind]; auto. cbn [req_loop].
    rewrite (cert_type_test rt cty _ CT), (crit_true _ C).
    rewrite !(not_known [T_EcdhPub; cty]) by (auto; cbn; tauto). cbn [bind]. auto.
  - intros C. destruct (req_loop E rt a ([], None, O, O)) as [[[[e c] ec] pc]| | |]; cbn [bind]; auto. cbn [req_loop].
    rewrite (cert_type_test rt cty _ CT), (noncrit_false _ C).
    rewrite !noncrit_not; auto; try crit. destruct CT as [[_ ->]|[_ ->]]; crit.
Qed.

(** NEW/REVOKE replies *)
Lemma reply_loop_app : forall a b r ec sc ic, reply_loop (a ++ b) r ec sc ic =
  match reply_loop a r ec sc ic with
  | (Ok (ec', sc', ic'), r') => reply_loop b r' ec' sc' ic'
  | x => x
  end.
Proof.
  induction a as [|t a IH]; intros b r ec sc ic; cbn [app reply_loop]; [reflexivity|].
  destruct (t_type t =? T_Challenge); [apply IH|].
  destruct (t_type t =? T_EcdhPub); [apply IH|].
  destruct (t_type t =? T_Salt); [destruct (memcpy_into _ _); [apply IH|reflexivity..]|].
  destruct (t_type t =? T_RequestId); [destruct (memcpy_into _ _); [apply IH|reflexivity..]|].
  destruct (is_critical (t_type t)); [reflexivity|apply IH].
Qed.
Lemma reply_unknown : forall salt0 id0 a t b, Forall wf_tlv (a ++ t :: b) ->
  (critical (t_type t) -> ~ In (t_type t) known_new_reply -> fails (fst (reply_decode salt0 id0 (enc_tlvs (a ++ t :: b))))) /\
  (~ critical (t_type t) -> reply_decode salt0 id0 (enc_tlvs (a ++ t :: b)) = reply_decode salt0 id0 (enc_tlvs (a ++ b))).
Proof.
  intros salt0 id0 a t b W. destruct (parse_insert a t b W) as [P1 P2]. unfold reply_decode. rewrite P1, P2.
  rewrite !reply_loop_app. split.
  - intros C K. destruct (reply_loop a _ O O O) as [[[[ec sc] ic]| | |] r]; cbn [fst]; auto. cbn [reply_loop].
    rewrite (crit_true _ C). rewrite !(not_known known_new_reply) by (auto; cbn; tauto). cbn [fst]. auto.
  - intros C. destruct (reply_loop a _ O O O) as [[[[ec sc] ic]| | |] r]; cbn [fst]; auto. cbn [reply_loop].
    rewrite (noncrit_false _ C). rewrite !noncrit_not by (auto; crit). reflexivity.
Qed.

(** PROBE parameters: keys and values are read in pairs, so an element between a key and its value is not
    ignored. *)
Lemma pp_loop_step : forall x l m, probe_params_loop (x :: l) m =
  match l with
  | b :: l2 =>
      if (t_type x =? T_ParameterKey) && (t_type b =? T_ParameterValue)
      then probe_params_loop l2 (mm_insert (t_val x) (t_val b) m)
      else if is_critical (t_type x) then Exn
      else probe_params_loop l m
  | [] => if is_critical (t_type x) then Exn else Ok m
  end.
Proof. intros x [|b l] m; reflexivity. Qed.

Lemma pp_crit : forall t b a m, critical (t_type t) -> ~ In (t_type t) known_probe_params ->
  fails (probe_params_loop (a ++ t :: b) m).
Proof.
  intros t b a m C K. remember (length a) as n eqn:Hn. revert a Hn m.
  assert ((t_type t =? T_ParameterKey) = false) as T1 by (apply (not_known known_probe_params); [exact K|cbn; tauto]).
  assert ((t_type t =? T_ParameterValue) = false) as T2 by (apply (not_known known_probe_params); [exact K|cbn; tauto]).
  induction n as [n IH] using lt_wf_ind. intros a Hn m.
  destruct a as [|x a]; cbn [app]; rewrite pp_loop_step.
  - rewrite T1, (crit_true _ C). destruct b; cbn [andb]; auto.
  - destruct a as [|y a]; cbn [app].
    + rewrite T2, andb_false_r. destruct (is_critical (t_type x)); auto.
      apply (IH O) with (a := []); [cbn in Hn; lia|reflexivity].
    + destruct (_ && _); [apply (IH (length a)); [cbn in Hn; lia|reflexivity]|].
      destruct (is_critical (t_type x)); auto. apply (IH (length (y :: a))) with (a := y :: a); [cbn in *; lia|reflexivity].
Qed.

Lemma pp_noncrit : forall t b a m, ~ critical (t_type t) ->
  (forall k v a' b', a = a' ++ [k] -> b = v :: b' -> t_type k = T_ParameterKey -> t_type v <> T_ParameterValue) ->
  probe_params_loop (a ++ t :: b) m = probe_params_loop (a ++ b) m.
Proof.
  intros t b a m C. remember (length a) as n eqn:Hn. revert a Hn m.
  assert (T_ParameterKey =? t_type t = false) as T0 by (rewrite N.eqb_sym; apply noncrit_not; [exact C|crit]).
  assert ((t_type t =? T_ParameterKey) = false) as T1 by (apply noncrit_not; [exact C|crit]).
  assert ((t_type t =? T_ParameterValue) = false) as T2 by (apply noncrit_not; [exact C|crit]).
  induction n as [n IH] using lt_wf_ind. intros a Hn m Q.
  destruct a as [|x a]; cbn [app].
  - rewrite pp_loop_step, T1, (noncrit_false _ C). destruct b; reflexivity.
  - destruct a as [|y a]; cbn [app].
    + rewrite pp_loop_step. rewrite T2, andb_false_r.
      destruct b as [|v b].
      * rewrite (pp_loop_step x []). destruct (is_critical (t_type x)); [reflexivity|]. cbn [probe_params_loop].
        rewrite (noncrit_false _ C). reflexivity.
      * rewrite (pp_loop_step x (v :: b)).
        destruct (N.eqb_spec (t_type x) T_ParameterKey) as [X1|X1]; cbn [andb].
        -- rewrite (proj2 (N.eqb_neq _ _) (Q x v [] b eq_refl eq_refl X1)).
           destruct (is_critical (t_type x)); [reflexivity|]. rewrite pp_loop_step, T1, (noncrit_false _ C). reflexivity.
        -- destruct (is_critical (t_type x)); [reflexivity|]. rewrite pp_loop_step, T1, (noncrit_false _ C). reflexivity.
    + rewrite (pp_loop_step x (y :: a ++ t :: b)), (pp_loop_step x (y :: a ++ b)).
      destruct (_ && _).
      * apply (IH (length a)); [cbn in Hn; lia|reflexivity|]. intros k v a' b' -> -> K. eapply (Q k v (x :: y :: a')); auto.
      * destruct (is_critical (t_type x)); [reflexivity|].
        apply (IH (length (y :: a))) with (a := y :: a); [cbn in *; lia|reflexivity|].
        intros k v a' b' E' -> K. eapply (Q k v (x :: a')); auto. rewrite E'. reflexivity.
Qed.
Lemma probe_params_unknown : forall a t b, Forall wf_tlv (a ++ t :: b) ->
  (critical (t_type t) -> ~ In (t_type t) known_probe_params -> fails (probe_params_decode (enc_tlvs (a ++ t :: b)))) /\
  (~ critical (t_type t) ->
   (forall k v a' b', a = a' ++ [k] -> b = v :: b' -> t_type k = T_ParameterKey -> t_type v <> T_ParameterValue) ->
   probe_params_decode (enc_tlvs (a ++ t :: b)) = probe_params_decode (enc_tlvs (a ++ b))).
Proof.
  intros a t b W. destruct (parse_insert a t b W) as [P1 P2]. unfold probe_params_decode. rewrite P1, P2. cbn [of_opt bind].
  split; [apply pp_crit|apply pp_noncrit].
Qed.

(** CHALLENGE replies (the decrypted payload) *)
Lemma chal_crit : forall now all t b a ns s nonce, critical (t_type t) -> ~ In (t_type t) known_challenge_reply ->
  fails (fst (chal_loop now all (a ++ t :: b) nonce ns s)).
Proof.
  intros now all t b a. induction a as [|x a IH]; intros ns s nonce C K; cbn [app chal_loop].
  - rewrite (not_known known_challenge_reply _ T_ParameterValue) by (auto; cbn; tauto). destruct nonce; cbn [fst]; auto.
    rewrite (crit_true _ C), !(not_known known_challenge_reply) by (auto; cbn; tauto). cbn [fst]. auto.
  - repeat match goal with
    | |- fails (fst (chal_loop _ _ _ _ _ _)) => apply IH; assumption
    | |- fails (fst (_, _)) => cbn [fst]; auto; fail
    | |- context [match ?d with _ => _ end] => destruct d
    end.
Qed.
Lemma chal_noncrit : forall now all t b a ns s nonce, ~ critical (t_type t) ->
  (forall k a', a = a' ++ [k] -> t_type k <> T_ParameterKey) -> (nonce = true -> a <> []) ->
  chal_loop now all (a ++ t :: b) nonce ns s = chal_loop now all (a ++ b) nonce ns s.
Proof.
  intros now all t b a. induction a as [|x a IH]; intros ns s nonce C Q N; cbn [app].
  - destruct nonce; [exfalso; apply N; reflexivity|]. cbn [chal_loop].
    rewrite (noncrit_false _ C), !noncrit_not by (auto; crit). reflexivity.
  - assert (forall ns s, chal_loop now all (a ++ t :: b) false ns s = chal_loop now all (a ++ b) false ns s) as G.
    { intros. apply IH; [exact C| |discriminate]. intros k a' ->. apply (Q k (x :: a')). reflexivity. }
    cbn [chal_loop].
    destruct nonce.
    { destruct (t_type x =? T_ParameterValue); [|reflexivity]. destruct (blen (t_val x) =? 16); [apply G|reflexivity]. }
    destruct (t_type x =? T_Status).
    { destruct (get T_Status all) as [f|]; [|reflexivity]. destruct (status_from f); [apply G|reflexivity]. }
    destruct (t_type x =? T_ChallengeStatus); [apply G|].
    destruct (t_type x =? T_RemainingTries).
    { destruct (nni_dec (t_val x)); [apply G|reflexivity]. }
    destruct (t_type x =? T_RemainingTime).
    { destruct (nni_dec (t_val x)); [|reflexivity]. destruct (time_plus_secs now n); [apply G|reflexivity..]. }
    destruct (t_type x =? T_IssuedCertName).
    { destruct (block_from_value (t_val x)); [|reflexivity]. destruct (name_decode t0); [apply G|reflexivity]. }
    destruct (t_type x =? T_ForwardingHint).
    { destruct (block_from_value (t_val x)); [|reflexivity]. destruct (name_decode t0); [apply G|reflexivity]. }
    destruct (N.eqb_spec (t_type x) T_ParameterKey) as [X|X].
    { destruct (bytes_eqb (t_val x) (bs "nonce")); [|reflexivity].
      apply IH; [exact C| |]; [intros k a' ->; apply (Q k (x :: a')); reflexivity|].
      intros _ ->. apply (Q x []); [reflexivity|exact X]. }
    destruct (is_critical (t_type x)); [reflexivity|apply G].
Qed.

Lemma get_insert : forall ty a t b, t_type t <> ty -> get ty (a ++ t :: b) = get ty (a ++ b).
Proof.
  intros ty a t b H. induction a as [|x a IH]; cbn [app get].
  - rewrite (proj2 (N.eqb_neq _ _) H). reflexivity.
  - destruct (t_type x =? ty); [reflexivity|exact IH].
Qed.
Lemma chal_loop_all : forall now all all' l nonce ns s, get T_Status all = get T_Status all' ->
  chal_loop now all l nonce ns s = chal_loop now all' l nonce ns s.
Proof.
  intros now all all' l. induction l as [|x l IH]; intros nonce ns s H; cbn [chal_loop]; [reflexivity|].
  rewrite H. repeat match goal with
    | |- ?x = ?x => reflexivity
    | |- chal_loop _ _ _ _ _ _ = chal_loop _ _ _ _ _ _ => apply IH; exact H
    | |- context [match ?d with _ => _ end] => destruct d
    end.
Qed.

Lemma req_decode_renew : forall E b, fails (req_decode E RT_RENEW b).
Proof. intros E b. apply req_decode_other; discriminate. Qed.
Lemma chal_loop_div : forall now all d l nonce ns s,
  chal_loop now all l nonce ns (upd_div d s) =
  (fst (chal_loop now all l nonce ns s), upd_div d (snd (chal_loop now all l nonce ns s))).
Proof.
  intros now all d l. induction l as [|x l IH]; intros nonce ns s; cbn [chal_loop]; [reflexivity|].
  repeat match goal with
    | |- chal_loop _ _ _ _ _ (?f (upd_div ?d ?s)) = _ => change (f (upd_div d s)) with (upd_div d (f s)); apply IH
    | |- chal_loop _ _ _ _ _ (?f ?v (upd_div ?d ?s)) = _ => change (f v (upd_div d s)) with (upd_div d (f v s)); apply IH
    | |- chal_loop _ _ _ _ _ _ = _ => apply IH
    | |- (_, _) = (_, _) => reflexivity
    | |- context [match ?d with _ => _ end] => destruct d
    end.
Qed.
Lemma chal_unknown : forall E now s a t b content d, Forall wf_tlv (a ++ t :: b) ->
  decode_aes E (rs_key s) content (rs_id s) (rs_div s) (rs_eiv s) = (Ok (enc_tlvs (a ++ t :: b)), d) ->
  (critical (t_type t) -> ~ In (t_type t) known_challenge_reply -> fails (fst (chal_decode E now content s))) /\
  (~ critical (t_type t) -> (forall k a', a = a' ++ [k] -> t_type k <> T_ParameterKey) ->
   forall content' d', decode_aes E (rs_key s) content' (rs_id s) (rs_div s) (rs_eiv s) = (Ok (enc_tlvs (a ++ b)), d') ->
   fst (chal_decode E now content s) = fst (chal_decode E now content' s) /\
   upd_div d' (snd (chal_decode E now content s)) = snd (chal_decode E now content' s)).
Proof.
  intros E now s a t b content d W D. destruct (parse_insert a t b W) as [P1 P2].
  unfold chal_decode. rewrite D, P1. split.
  - intros C K. pose proof (chal_crit now (a ++ t :: b) t b a O (upd_div d s) false C K) as G.
    destruct (chal_loop now (a ++ t :: b) (a ++ t :: b) false 0 (upd_div d s)) as [[n| | |] s2]; cbn [fst] in *; auto.
    exfalso. eapply G. reflexivity.
  - intros C Q content' d' D'. rewrite D', P2.
    rewrite chal_noncrit by (auto; discriminate).
    rewrite (chal_loop_all now (a ++ t :: b) (a ++ b)) by (apply get_insert; intros X; apply C; rewrite X; crit).
    rewrite !chal_loop_div.
    destruct (chal_loop now (a ++ b) (a ++ b) false 0 s) as [[n| | |] s2]; cbn [fst snd]; split; reflexivity.
Qed.
