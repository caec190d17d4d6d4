(** What each CA handler does. *)
From Verif Require Export ChallengeFacts ChallengeCodecFacts StorageFacts.
Local Open Scope N_scope.

(** ** Dispatch *)
Lemma dispatch_iff : forall g n v, In v (dispatch g n) <-> addressed g v n.
Proof.
  intros g n v. unfold dispatch. rewrite in_map_iff. unfold addressed. split.
  - intros ([p v'] & <- & H). apply filter_In in H as [H1 H2]. cbn [fst snd] in *. apply is_prefix_iff in H2 as [s ->].
    unfold filters in H1. cbn [In] in H1.
    destruct H1 as [H1|[H1|[H1|[H1|[H1|[]]]]]]; injection H1 as <- <-; exists s; cbn [verb_comps]; rewrite <- !app_assoc; reflexivity.
  - intros [rest ->]. exists (p_prefix (cfp g) ++ [c_CA] ++ verb_comps v, v). split; [reflexivity|]. apply filter_In. split.
    + unfold filters. rewrite app_assoc. destruct v; cbn [verb_comps In]; auto 10.
    + cbn [fst]. apply is_prefix_iff. exists rest. rewrite <- !app_assoc. reflexivity.
Qed.
Lemma addressed_unique : forall g n v v', addressed g v n -> addressed g v' n -> v = v'.
Proof.
  intros g n v v' [r1 H1] [r2 H2]. rewrite H1 in H2. apply app_inv_head in H2. cbn [app] in H2. injection H2 as H2.
  destruct v, v'; try reflexivity; cbn [verb_comps app] in H2; injection H2; intros; try discriminate;
    match goal with H : gc _ = gc _ |- _ => vm_compute in H; discriminate end.
Qed.
Lemma nodup_filters : forall g, NoDup (map snd (filters g)).
Proof. intros g. cbn. repeat constructor; cbn; intuition discriminate. Qed.
Lemma dispatch_nodup : forall g n, NoDup (dispatch g n).
Proof. intros g n. unfold dispatch. apply filter_nodup_map, nodup_filters. Qed.
Lemma dispatch_cases : forall g n, dispatch g n = [] \/ exists v, dispatch g n = [v] /\ addressed g v n.
Proof.
  intros g n. pose proof (dispatch_iff g n) as I. pose proof (dispatch_nodup g n) as D.
  destruct (dispatch g n) as [|v [|w l]]; [auto| |].
  - right. exists v. split; [reflexivity|]. apply I. left. reflexivity.
  - exfalso. assert (v = w) as -> by (apply (addressed_unique g n); apply I; cbn; auto).
    inversion D as [|? ? X]; subst. apply X. left. reflexivity.
Qed.
Lemma dispatch_addressed : forall g n v, addressed g v n -> dispatch g n = [v].
Proof.
  intros g n v H. destruct (dispatch_cases g n) as [D|(w & D & W)].
  - apply dispatch_iff in H. rewrite D in H. destruct H.
  - rewrite D. f_equal. apply (addressed_unique g n); assumption.
Qed.
Lemma dispatch_none : forall g n, (forall v, ~ addressed g v n) -> dispatch g n = [].
Proof. intros g n H. destruct (dispatch_cases g n) as [D|(w & D & W)]; [exact D|]. exfalso. apply (H w W). Qed.

Lemma on_interest_cases : forall E g S (ops : store_ops S) s i x,
  ((forall v, ~ addressed g v (i_name x)) /\ on_interest E g ops s i x = ([], Ok tt)) \/
  exists v, addressed g v (i_name x) /\ on_interest E g ops s i x = handle E g ops v s i x.
Proof.
  intros E g S ops s i x. unfold on_interest. destruct (dispatch_cases g (i_name x)) as [D|(v & D & A)].
  - left. rewrite D. split; [|reflexivity]. intros v H. apply dispatch_iff in H. rewrite D in H. destruct H.
  - right. exists v. split; [exact A|]. rewrite D. cbn [handle_all].
    destruct (handle E g ops v s i x) as [es [[]| | |]]; [rewrite app_nil_r|..]; reflexivity.
Qed.
Lemma on_interest_at : forall E g S (ops : store_ops S) v s i x, addressed g v (i_name x) ->
  on_interest E g ops s i x = handle E g ops v s i x.
Proof.
  intros E g S ops v s i x A. destruct (on_interest_cases E g S ops s i x) as [[N _]|(w & W & ->)]; [destruct (N v A)|].
  f_equal. apply (addressed_unique g (i_name x)); assumption.
Qed.

(** ** NEW and REVOKE *)
Lemma name_allowed_policy : forall g n, name_allowed g n = true -> name_policy g n.
Proof.
  intros g n H. unfold name_allowed in H. apply andb_prop in H as [H H4]. apply andb_prop in H as [H H3]. apply andb_prop in H as [H1 H2].
  apply is_prefix_iff in H1 as [s H1]. destruct (valid_cert_name_shape n H2) as (kid & iss & ver & Q). rewrite H1 in H3, H4, Q.
  exists s, kid, iss, ver. rewrite app_length in *. apply Nat.ltb_lt in H3. split; [rewrite <- app_assoc in Q; exact Q|].
  split; [destruct s; [cbn in H3; lia|discriminate]|]. intros k K. rewrite K in H4. apply N.leb_le in H4.
  pose proof (N.mod_le (N.of_nat (length (p_prefix (cfp g))) + k) (2 ^ 64)) as M. lia.
Qed.
Lemma policy_name_allowed : forall g n, suffix_limit_sane g -> name_policy g n -> name_allowed g n = true.
Proof.
  intros g n S (s & kid & iss & ver & -> & N & L). unfold name_allowed. rewrite app_assoc. rewrite identity_of_shape.
  rewrite is_prefix_app, app_length. rewrite valid_cert_name_of_shape. cbn [andb].
  assert (length s <> O) by (destruct s; [contradiction|discriminate]).
  assert (Nat.ltb (length (p_prefix (cfp g))) (length (p_prefix (cfp g)) + length s) = true) as -> by (apply Nat.ltb_lt; lia).
  cbn [andb]. destruct (p_maxsuffix (cfp g)) as [k|] eqn:K; [|reflexivity]. apply N.leb_le. rewrite N.mod_small by (apply S, K).
  specialize (L k eq_refl). lia.
Qed.
Lemma period_allowed_iff : forall g now nb na, period_allowed g now nb na = true <-> period_policy g now nb na.
Proof.
  intros g now nb na. unfold period_allowed, period_policy, grace. rewrite negb_true_iff, !orb_false_iff, !Z.ltb_ge, Z.leb_gt. tauto.
Qed.
Lemma verify_interest_iff : forall E x c, verify_interest E x c = true <-> signed_by E x (public_key c).
Proof.
  intros E x c. unfold verify_interest, signed_by. destruct (i_sig x) as [s|].
  - split; [intros H; exists s; auto|intros (s' & H & V); injection H as <-; exact V].
  - split; [discriminate|intros (s & H & _); discriminate].
Qed.
Lemma not_true : forall b, b = false -> b <> true. Proof. intros [] H; congruence. Qed.

Lemma carries_decode : forall E rt x peer c, rt = RT_NEW \/ rt = RT_REVOKE ->
  (carries E rt x peer c <-> req_decode E rt (params_of x) = Ok (peer, c)).
Proof.
  intros E rt x peer c R. unfold carries. split.
  - intros (cty & T & P). apply (req_decode_iff E rt cty); assumption.
  - intros D. destruct R as [->| ->].
    + exists T_CertRequest. assert (T : cert_type RT_NEW T_CertRequest) by (left; auto). split; [exact T|]. apply (req_decode_iff E RT_NEW _ _ _ _ T), D.
    + exists T_CertToRevoke. assert (T : cert_type RT_REVOKE T_CertToRevoke) by (right; auto). split; [exact T|]. apply (req_decode_iff E RT_REVOKE _ _ _ _ T), D.
Qed.
Lemma req_loop_total : forall E rt l st, req_loop E rt l st <> UB /\ req_loop E rt l st <> Hang.
Proof.
  intros E rt. induction l as [|t l IH]; intros [[[e c] ec] pc]; cbn [req_loop]; [split; discriminate|].
  destruct (t_type t =? T_EcdhPub); [apply IH|].
  destruct (((rt =? RT_NEW) && (t_type t =? T_CertRequest)) || ((rt =? RT_REVOKE) && (t_type t =? T_CertToRevoke))).
  - destruct (parse (t_val t)); cbn [of_opt bind]; [|split; discriminate].
    destruct (get T_Data l0); cbn [of_opt bind]; [|split; discriminate].
    destruct (cert_decode E t0); cbn [of_opt bind]; [apply IH|split; discriminate].
  - destruct (is_critical (t_type t)); [split; discriminate|apply IH].
Qed.
Lemma req_decode_total : forall E rt b, req_decode E rt b <> UB /\ req_decode E rt b <> Hang.
Proof.
  intros E rt b. unfold req_decode. destruct (parse b); cbn [of_opt bind]; [|split; discriminate].
  destruct (req_loop_total E rt l ([], None, O, O)) as [A B].
  destruct (req_loop E rt l ([], None, O, O)) as [[[[e c] ec] pc]| | |]; cbn [bind]; try (split; congruence).
  destruct (negb (Nat.eqb ec 1) || negb (Nat.eqb pc 1)); [split; discriminate|]. destruct c; split; discriminate.
Qed.

Lemma on_new_cases : forall E g add_ok idkey i rt x es o, rt = RT_NEW \/ rt = RT_REVOKE ->
  on_new E g add_ok idkey i rt x = (es, o) ->
  (exists peer c, let id := request_id_of E idkey (c_name c) in
     admissible E g i rt id x peer c /\ add_ok (created E g i rt id peer c) = true /\ o = Ok tt /\
     es = [EAdd (created E g i rt id peer c); EPut (new_reply E g i x id); ECallback (created E g i rt id peer c)]) \/
  (exists code info, o = Ok tt /\ es = [EPut (error_data E g (i_name x) code info)] /\ plain_error code info /\
     (suffix_limit_sane g -> refusal E g i rt idkey (fun id => exists peer c, carries E rt x peer c /\ id = request_id_of E idkey (c_name c) /\ add_ok (created E g i rt id peer c) = false) x code)) \/
  (o = Exn /\ es = [] /\ new_throws E g i rt idkey x).
Proof.
  intros E g add_ok idkey i rt x es o RT H. unfold on_new in H.
  set (PEND := fun id => exists peer c, carries E rt x peer c /\ id = request_id_of E idkey (c_name c) /\ add_ok (created E g i rt id peer c) = false).
  assert (PS : forall code info, put_error E g x code info = (es, o) -> (suffix_limit_sane g -> refusal E g i rt idkey PEND x code) -> plain_error code info ->
    exists code info, o = Ok tt /\ es = [EPut (error_data E g (i_name x) code info)] /\ plain_error code info /\ (suffix_limit_sane g -> refusal E g i rt idkey PEND x code)).
  { intros code info P R PL. unfold put_error in P. injection P as <- <-. exists code, info. auto. }
  pose proof (fun code info Q R => PS code info Q (fun _ => R)) as PE.
  unfold cert_is_valid in H. destruct (c_validity (cf_cert g)) as [[nb na]|] eqn:CV.
  2:{ right. right. injection H as <- <-. split; [reflexivity|]. split; [reflexivity|]. apply NT_ca, CV. }
  destruct ((nb <=? in_t1 i)%Z && (in_t1 i <=? na)%Z) eqn:V.
  2:{ right. left. apply (PE _ _ H (RF_ca_expired E g i rt idkey PEND x nb na CV ltac:(apply andb_false_iff in V as [V|V]; apply Z.leb_gt in V; lia)) ltac:(perr)). }
  apply andb_prop in V as [V1 V2]. apply Z.leb_le in V1, V2.
  destruct (req_decode_total E rt (params_of x)) as [NU NH].
  destruct (req_decode E rt (params_of x)) as [[peer c]| | |] eqn:D; try contradiction.
  2:{ right. left. refine (PE _ _ H (RF_params E g i rt idkey PEND x _) ltac:(destruct (i_params x); perr)). intros peer c C. apply carries_decode in C; [|exact RT]. congruence. }
  apply carries_decode in D; [|exact RT].
  destruct peer as [|p0 pr] eqn:PQ; [right; left; exact (PE _ _ H (RF_empty_key E g i rt idkey PEND x c D) ltac:(perr))|]. rewrite <- PQ in *.
  unfold derive_secret in H. destruct (o_ecdh E (in_sk i) peer) as [rc secret] eqn:EC.
  destruct (Z.eqb_spec rc 0) as [RC|RC].
  { right. left. refine (PE _ _ H (RF_bad_key E g i rt idkey PEND x peer c D _) ltac:(perr)). rewrite EC. exact RC. }
  destruct (name_allowed g (c_name c)) eqn:NA; cbn [negb] in H.
  2:{ right. left. refine (PS _ _ H (fun SANE => RF_name E g i rt idkey PEND x peer c D _) ltac:(perr)). intros P. rewrite (policy_name_allowed g _ SANE P) in NA. discriminate. }
  apply name_allowed_policy in NA.
  assert (TC : forall r, type_checks E g rt (in_t2 i) x c = r ->
     (r = Ok None /\ cert_policy E g rt (in_t2 i) x c) \/
     (exists code info, r = Ok (Some (code, info)) /\ plain_error code info /\ refusal E g i rt idkey PEND x code) \/
     (r = Exn /\ new_throws E g i rt idkey x)).
  { intros r <-. unfold type_checks. destruct (N.eqb_spec rt RT_NEW) as [R1|R1].
    - destruct (c_validity c) as [[cnb cna]|] eqn:W; cbn [of_opt bind fst snd].
      2:{ right. right. split; [reflexivity|]. exact (NT_request E g i rt idkey x peer c D R1 W). }
      destruct (period_allowed g (in_t2 i) cnb cna) eqn:PA; cbn [negb].
      2:{ right. left. do 2 eexists. split; [reflexivity|]. split; [perr|]. apply (RF_period E g i rt idkey PEND x peer c cnb cna D R1 W).
          intros P. apply period_allowed_iff in P. congruence. }
      destruct (verify_cert E c c) eqn:VC; cbn [negb].
      2:{ right. left. do 2 eexists. split; [reflexivity|]. split; [perr|]. exact (RF_cert_signature E g i rt idkey PEND x peer c D R1 (not_true _ VC)). }
      destruct (verify_interest E x c) eqn:VI; cbn [negb].
      2:{ right. left. do 2 eexists. split; [reflexivity|]. split; [perr|]. apply (RF_signature E g i rt idkey PEND x peer c D R1).
          intros P. apply verify_interest_iff in P. congruence. }
      left. split; [reflexivity|]. left. split; [exact R1|]. split; [exists cnb, cna; split; [exact W|apply period_allowed_iff, PA]|].
      split; [exact VC|apply verify_interest_iff, VI].
    - destruct RT as [RT|RT]; [contradiction|]. rewrite RT. rewrite N.eqb_refl.
      destruct (verify_cert E c (cf_cert g)) eqn:VC; cbn [negb].
      + left. split; [reflexivity|]. right. split; [reflexivity|exact VC].
      + right. left. do 2 eexists. split; [reflexivity|]. split; [perr|]. rewrite <- RT. exact (RF_revoke E g i rt idkey PEND x peer c D RT (not_true _ VC)). }
  destruct (TC _ eq_refl) as [[T CP]|[(code & info & T & PL & R)|[T R]]]; [rewrite T in H|..].
  2:{ rewrite T in H. right. left. exact (PE _ _ H R PL). }
  2:{ rewrite T in H. injection H as <- <-. auto. }
  set (id := request_id_of E idkey (c_name c)) in *. unfold hkdf in H.
  destruct (o_hkdf E secret (rnd_salt i) id) as [hrc key] eqn:HK. destruct (Z.eqb_spec hrc 0) as [HR|HR].
  { right. right. injection H as <- <-. split; [reflexivity|]. split; [reflexivity|]. apply (NT_hkdf E g i rt idkey x peer c D).
    unfold key_derivable. fold id. rewrite EC. cbn [snd]. rewrite HK. cbn [fst]. intros Q. apply Q, HR. }
  assert (NR : new_request g id rt c key = created E g i rt id peer c).
  { unfold new_request, created, session_key. rewrite EC. cbn [snd]. rewrite HK. reflexivity. }
  rewrite NR in H. destruct (add_ok (created E g i rt id peer c)) eqn:AO; cbn [negb] in H.
  - left. exists peer, c. fold id. split; [|split; [exact AO|]].
    + constructor; try assumption.
      * exists nb, na. auto.
      * subst peer. discriminate.
      * rewrite EC. exact RC.
      * unfold key_derivable. rewrite EC. cbn [snd]. rewrite HK. exact HR.
    + injection H as <- <-. split; reflexivity.
  - right. left. refine (PE _ _ H (RF_duplicate E g i rt idkey PEND x peer c D _) ltac:(perr)). exists peer, c. auto.
Qed.

(** An admissible Interest is accepted. *)
Lemma on_new_accepts : forall E g add_ok idkey i rt x peer c, suffix_limit_sane g ->
  let id := request_id_of E idkey (c_name c) in
  admissible E g i rt id x peer c -> add_ok (created E g i rt id peer c) = true ->
  on_new E g add_ok idkey i rt x =
    ([EAdd (created E g i rt id peer c); EPut (new_reply E g i x id); ECallback (created E g i rt id peer c)], Ok tt).
Proof.
  intros E g add_ok idkey i rt x peer c SANE id [ (nb & na & V & B1 & B2) P NE U NP CP K] A. unfold on_new, cert_is_valid. rewrite V.
  assert (((nb <=? in_t1 i)%Z && (in_t1 i <=? na)%Z) = true) as -> by (apply andb_true_intro; split; apply Z.leb_le; lia).
  assert (RT : rt = RT_NEW \/ rt = RT_REVOKE) by (destruct CP as [[-> _]|[-> _]]; auto).
  apply carries_decode in P; [|exact RT]. rewrite P. destruct peer as [|p0 pr] eqn:PQ; [contradiction|]. rewrite <- PQ in *.
  unfold derive_secret. unfold key_derivable in K. destruct (o_ecdh E (in_sk i) peer) as [rc secret] eqn:EC. cbn [fst snd] in *.
  destruct (Z.eqb_spec rc 0) as [RC|RC]; [contradiction|]. rewrite (policy_name_allowed g _ SANE NP). cbn [negb].
  assert (type_checks E g rt (in_t2 i) x c = Ok None) as ->.
  { unfold type_checks. destruct CP as [(R & (cnb & cna & W & PP) & S1 & S2)|(R & S1)]; rewrite R.
    - rewrite N.eqb_refl, W. cbn [of_opt bind fst snd]. apply period_allowed_iff in PP. rewrite PP. cbn [negb].
      unfold verify_cert. unfold cert_signed_by in S1. rewrite S1. cbn [negb]. apply verify_interest_iff in S2. rewrite S2. reflexivity.
    - change (RT_REVOKE =? RT_NEW) with false. rewrite N.eqb_refl. unfold verify_cert. unfold cert_signed_by in S1. rewrite S1. reflexivity. }
  fold id. unfold hkdf. destruct (o_hkdf E secret (rnd_salt i) id) as [hrc key] eqn:HK. cbn [fst] in K.
  destruct (Z.eqb_spec hrc 0) as [HR|HR]; [contradiction|].
  assert (new_request g id rt c key = created E g i rt id peer c) as ->.
  { unfold new_request, created, session_key. rewrite EC. cbn [snd]. rewrite HK. reflexivity. }
  rewrite A. reflexivity.
Qed.

(** ** CHALLENGE *)
Definition email_effs (em : option bytes) : list eff := match em with Some c => [EEmail c] | None => [] end.

(** The decrypted parameters, the challenge they name, and the new decryption IV. *)
Definition opened (E : env) (x : interest) (r : request) (params : list tlv) (ty dv : bytes) : Prop :=
  exists pt, decode_aes E (rq_key r) (params_of x) (rq_id r) (rq_div r) (rq_eiv r) = (Ok pt, dv) /\
    pt <> [] /\ parse pt = Some params /\ selects params ty.
(** A challenge is started, or goes on after a wrong code. *)
Definition moves (E : env) (cfg : chal_cfg) (i : inputs) (params : list tlv) (r : request) (ty : bytes) (cs : cstate) (em : option bytes) : Prop :=
  (rq_status r = ST_BEFORE /\ starts E cfg i params r ty cs em) \/
  (rq_status r <> ST_BEFORE /\ em = None /\ exists cs0, rq_cs r = Some cs0 /\ retries i params cs0 ty cs).
Definition moved (dv ty : bytes) (cs : cstate) (r : request) : request :=
  set_cs (Some cs) (set_ctype (recorded_type ty) (set_status ST_CHALLENGE (set_div dv r))).
Definition passed (dv ty : bytes) (r : request) : request :=
  set_cs None (set_ctype (recorded_type ty) (set_status ST_PENDING (set_div dv r))).
Definition known_type (ty : bytes) : Prop := ty = bs "pin" \/ ty = bs "email" \/ ty = bs "possession".

Inductive chal_out (E : env) (g : ca_cfg) (i : inputs) (x : interest) (r : request) : hout -> Prop :=
| CO_unsigned : forall info, short info -> ~ signed_by E x (public_key (rq_cert r)) ->
    chal_out E g i x r ([EPut (error_data E g (i_name x) BAD_SIGNATURE info)], Ok tt)
| CO_drop : forall code info, signed_by E x (public_key (rq_cert r)) -> plain_error code info ->
    chal_out E g i x r ([EDelete (rq_id r); EPut (error_data E g (i_name x) code info)], Ok tt)
| CO_stuck : forall o, signed_by E x (public_key (rq_cert r)) -> o = Exn \/ o = UB \/ o = Hang ->
    chal_out E g i x r ([], o)
| CO_moved : forall params ty dv cs em payload r3, signed_by E x (public_key (rq_cert r)) ->
    opened E x r params ty dv -> known_type ty -> moves E (cf_chal g) i params (set_div dv r) ty cs em ->
    chal_encode E (moved dv ty cs r) [] [] (rnd_iv i) = (Ok payload, r3) ->
    chal_out E g i x r (email_effs em ++ [EUpdate r3; EPut (reply_data E g (i_name x) payload); ECallback r3], Ok tt)
| CO_moved_stuck : forall params ty dv cs em o r3, signed_by E x (public_key (rq_cert r)) ->
    opened E x r params ty dv -> known_type ty -> moves E (cf_chal g) i params (set_div dv r) ty cs em ->
    o = Exn \/ o = UB \/ o = Hang -> (forall payload, chal_encode E (moved dv ty cs r) [] [] (rnd_iv i) <> (Ok payload, r3)) ->
    chal_out E g i x r (email_effs em, o)
| CO_issued : forall params ty dv cs c payload r3, signed_by E x (public_key (rq_cert r)) ->
    opened E x r params ty dv -> known_type ty -> rq_status r <> ST_BEFORE -> rq_cs r = Some cs -> passes E i params cs ty ->
    (rq_type r = RT_NEW \/ rq_type r = RT_RENEW) -> issue_certificate E g (in_version i) r = Ok c ->
    chal_encode E (set_status ST_SUCCESS (set_cert c (passed dv ty r))) (c_name c) (p_fwd (cfp g)) (rnd_iv i) = (Ok payload, r3) ->
    chal_out E g i x r ([EIssue c; EDelete (rq_id r); EPut (reply_data E g (i_name x) payload); ECallback r3], Ok tt)
| CO_issued_stuck : forall params ty dv cs c o r3, signed_by E x (public_key (rq_cert r)) ->
    opened E x r params ty dv -> known_type ty -> rq_status r <> ST_BEFORE -> rq_cs r = Some cs -> passes E i params cs ty ->
    (rq_type r = RT_NEW \/ rq_type r = RT_RENEW) -> issue_certificate E g (in_version i) r = Ok c ->
    o = Exn \/ o = UB \/ o = Hang ->
    (forall payload, chal_encode E (set_status ST_SUCCESS (set_cert c (passed dv ty r))) (c_name c) (p_fwd (cfp g)) (rnd_iv i) <> (Ok payload, r3)) ->
    chal_out E g i x r ([EIssue c; EDelete (rq_id r)], o)
| CO_revoked : forall params ty dv cs payload r3, signed_by E x (public_key (rq_cert r)) ->
    opened E x r params ty dv -> known_type ty -> rq_status r <> ST_BEFORE -> rq_cs r = Some cs -> passes E i params cs ty ->
    rq_type r = RT_REVOKE ->
    chal_encode E (set_status ST_SUCCESS (passed dv ty r)) [] [] (rnd_iv i) = (Ok payload, r3) ->
    chal_out E g i x r ([EDelete (rq_id r); EPut (reply_data E g (i_name x) payload); ECallback r3], Ok tt)
| CO_revoked_stuck : forall params ty dv cs o r3, signed_by E x (public_key (rq_cert r)) ->
    opened E x r params ty dv -> known_type ty -> rq_status r <> ST_BEFORE -> rq_cs r = Some cs -> passes E i params cs ty ->
    rq_type r = RT_REVOKE -> o = Exn \/ o = UB \/ o = Hang ->
    (forall payload, chal_encode E (set_status ST_SUCCESS (passed dv ty r)) [] [] (rnd_iv i) <> (Ok payload, r3)) ->
    chal_out E g i x r ([EDelete (rq_id r)], o).

(** [get_req] finds the request. *)
Definition finds (g : ca_cfg) (get_req : bytes -> option request) (x : interest) (r : request) : Prop :=
  exists id, challenge_id g (i_name x) = Ok id /\ get_req id = Some r.

Lemma on_challenge_found : forall E g get_req i x r, finds g get_req x r ->
  chal_out E g i x r (on_challenge E g get_req i x).
Proof.
  intros E g get_req i x r (id & CI & G). unfold on_challenge. rewrite CI, G.
  destruct (verify_interest E x (rq_cert r)) eqn:V; cbn [negb].
  2:{ apply CO_unsigned; [vm_compute; discriminate|]. intros S. apply verify_interest_iff in S. congruence. }
  apply verify_interest_iff in V.
  destruct (decode_aes E (rq_key r) (params_of x) (rq_id r) (rq_div r) (rq_eiv r)) as [o dv] eqn:D.
  destruct o as [pt| | |]; [|apply CO_drop; [exact V|perr]|apply CO_stuck; auto|apply CO_stuck; auto].
  destruct pt as [|p0 pt0] eqn:PQ; [apply CO_drop; [exact V|perr]|]. rewrite <- PQ in *.
  destruct (parse pt) as [params|] eqn:P; [|apply CO_stuck; auto].
  destruct (get T_SelectedChallenge params) as [ct|] eqn:SC; [|apply CO_stuck; auto].
  assert (OP : opened E x r params (t_val ct) dv).
  { exists pt. split; [exact D|]. split; [subst; discriminate|]. split; [exact P|]. exists ct. auto. }
  destruct (handle_challenge E (cf_chal g) i (t_val ct) params (set_div dv r)) as [h|] eqn:H.
  2:{ apply CO_drop; [exact V|perr]. }
  apply hc_cases in H as [H KT]. remember (t_val ct) as ty eqn:TY. clear TY. destruct H as [o O|code info C|cs em ST S|cs cs' ST C R|cs ST C PA]; cbn [h_email h_out h_req email_effs].
  - destruct O as [->|[->| ->]]; apply CO_stuck; auto.
  - pose proof (proj1 C) as C0. apply N.eqb_neq in C0. rewrite C0. cbn [negb]. exact (CO_drop E g i x r code info V C).
  - change (NO_ERROR =? NO_ERROR) with true. cbn [negb]. fold (moved dv ty cs r). fold (email_effs em). unfold after_challenge.
    change (rq_status (moved dv ty cs r) =? ST_PENDING) with false. cbv iota.
    assert (M : moves E (cf_chal g) i params (set_div dv r) ty cs em) by (left; auto).
    destruct (chal_encode E (moved dv ty cs r) [] [] (rnd_iv i)) as [o r3] eqn:CE.
    destruct o as [payload| | |];
      [unfold finish; rewrite <- app_assoc; exact (CO_moved E g i x r params ty dv cs em payload r3 V OP KT M CE)|..];
      apply (CO_moved_stuck E g i x r params ty dv cs em _ r3 V OP KT M); auto; intros payload Q; rewrite CE in Q; discriminate.
  - change (NO_ERROR =? NO_ERROR) with true. cbn [negb]. fold (moved dv ty cs' r). unfold after_challenge.
    change (rq_status (moved dv ty cs' r) =? ST_PENDING) with false. cbv iota.
    assert (M : moves E (cf_chal g) i params (set_div dv r) ty cs' None) by (right; eauto 6).
    destruct (chal_encode E (moved dv ty cs' r) [] [] (rnd_iv i)) as [o r3] eqn:CE.
    destruct o as [payload| | |];
      [exact (CO_moved E g i x r params ty dv cs' None payload r3 V OP KT M CE)|..];
      apply (CO_moved_stuck E g i x r params ty dv cs' None _ r3 V OP KT M); auto; intros payload Q; rewrite CE in Q; discriminate.
  - change (NO_ERROR =? NO_ERROR) with true. cbn [negb]. fold (passed dv ty r). unfold after_challenge.
    change (rq_status (passed dv ty r) =? ST_PENDING) with true. cbv iota.
    change (rq_type (passed dv ty r)) with (rq_type r). change (rq_id (passed dv ty r)) with (rq_id r). cbn [rq_cs set_div] in C.
    destruct ((rq_type r =? RT_NEW) || (rq_type r =? RT_RENEW)) eqn:T.
    + assert (T' : rq_type r = RT_NEW \/ rq_type r = RT_RENEW) by (apply orb_true_iff in T as [T|T]; apply N.eqb_eq in T; auto).
      change (issue_certificate E g (in_version i) (passed dv ty r)) with (issue_certificate E g (in_version i) r).
      destruct (issue_certificate E g (in_version i) r) as [c| | |] eqn:IC; [|apply CO_stuck; auto..].
      destruct (chal_encode E (set_status ST_SUCCESS (set_cert c (passed dv ty r))) (c_name c) (p_fwd (cfp g)) (rnd_iv i)) as [o r3] eqn:CE.
      destruct o as [payload| | |];
        [exact (CO_issued E g i x r params ty dv cs c payload r3 V OP KT ST C PA T' IC CE)|..];
        apply (CO_issued_stuck E g i x r params ty dv cs c _ r3 V OP KT ST C PA T' IC); auto; intros payload Q; rewrite CE in Q; discriminate.
    + destruct (N.eqb_spec (rq_type r) RT_REVOKE) as [RV|RV]; [|apply CO_stuck; auto].
      destruct (chal_encode E (set_status ST_SUCCESS (passed dv ty r)) [] [] (rnd_iv i)) as [o r3] eqn:CE.
      destruct o as [payload| | |];
        [exact (CO_revoked E g i x r params ty dv cs payload r3 V OP KT ST C PA RV CE)|..];
        apply (CO_revoked_stuck E g i x r params ty dv cs _ r3 V OP KT ST C PA RV); auto; intros payload Q; rewrite CE in Q; discriminate.
Qed.

Lemma on_challenge_cases : forall E g get_req i x,
  (exists r, finds g get_req x r /\ chal_out E g i x r (on_challenge E g get_req i x)) \/
  ((forall r, ~ finds g get_req x r) /\ challenge_id g (i_name x) <> UB /\
     exists info, short info /\ on_challenge E g get_req i x = ([EPut (error_data E g (i_name x) INVALID_PARAMETER info)], Ok tt)) \/
  (challenge_id g (i_name x) = UB /\ on_challenge E g get_req i x = ([], UB)).
Proof.
  intros E g get_req i x. destruct (challenge_id g (i_name x)) as [id| | |] eqn:CI.
  - destruct (get_req id) as [r|] eqn:G.
    + left. exists r. assert (F : finds g get_req x r) by (exists id; auto). split; [exact F|]. apply on_challenge_found, F.
    + right. left. split; [intros r (id' & A & B); rewrite CI in A; injection A as <-; congruence|]. split; [discriminate|].
      unfold on_challenge. rewrite CI, G. eexists. split; [|reflexivity]. vm_compute. discriminate.
  - right. left. split; [intros r (id' & A & _); congruence|]. split; [discriminate|]. unfold on_challenge. rewrite CI. eexists. split; [|reflexivity]. vm_compute. discriminate.
  - right. right. split; [reflexivity|]. unfold on_challenge. rewrite CI. reflexivity.
  - exfalso. unfold challenge_id in CI. destruct (nth_error (i_name x) _); [destruct (_ =? 8)|]; discriminate.
Qed.

Lemma challenge_id_names : forall g x id, addressed g VChallenge (i_name x) ->
  (challenge_id g (i_name x) = Ok id <-> names_request g id x).
Proof.
  intros g x id [rest A]. unfold challenge_id, names_request. rewrite A. cbn [verb_comps app].
  rewrite nth_error_app2 by lia. replace (length (p_prefix (cfp g)) + 2 - length (p_prefix (cfp g)))%nat with 2%nat by lia. cbn [nth_error]. split.
  - destruct rest as [|c rest]; [discriminate|]. destruct (blen (t_val c) =? 8) eqn:L; [|discriminate]. intros Q. injection Q as <-.
    exists (t_type c), rest. split; [destruct c; reflexivity|]. apply N.eqb_eq in L. unfold blen in L. lia.
  - intros (ty & rest' & Q & L). apply app_inv_head in Q. injection Q as Q. rewrite Q. cbn [t_val]. unfold blen. rewrite L. reflexivity.
Qed.
Lemma names_addressed : forall g x id, names_request g id x -> addressed g VChallenge (i_name x).
Proof. intros g x id (ty & rest & H & _). exists (Tlv ty id :: rest). rewrite H. reflexivity. Qed.
