(** PROBE from end to end, and fetching the certificate a session ends in. *)
From Verif Require Import SessionFacts ServerFacts RequesterFacts OutcomeFacts.
From Coq Require Import Lia.
Local Open Scope N_scope.

(** ** PROBE *)
Lemma probe_addressed : forall E g p params, p_prefix p = p_prefix (cfp g) -> addressed g VProbe (i_name (gen_probe E p params)).
Proof. intros E g p params Q. unfold gen_probe, unsigned_interest. cbn [i_name]. rewrite Q. eexists. rewrite <- app_assoc. reflexivity. Qed.
Lemma probe_read_back : forall E p params, mm_sorted params -> Forall (fun kv => fits (fst kv) /\ fits (snd kv)) params ->
  probe_params_decode (params_of (gen_probe E p params)) = Ok params.
Proof. intros E p params S F. exact (probe_params_roundtrip params S F). Qed.
Lemma probe_no_error_loop : forall els st r, probe_loop els st = Ok r -> count T_ErrorCode els = 0%nat.
Proof.
  induction els as [|t els IH]; intros st r H; [reflexivity|]. cbn [probe_loop] in H. unfold count in *. cbn [filter].
  destruct (N.eqb_spec (t_type t) T_ErrorCode) as [Q|Q].
  - exfalso. rewrite Q in H. cbn in H. discriminate.
  - destruct (t_type t =? T_ProbeResponse).
    + destruct (of_opt (parse (t_val t))); cbn [bind] in H; try discriminate. destruct (probe_item_loop _ _); cbn [bind] in H; try discriminate.
      destruct (fst _); [discriminate|]. eapply IH; exact H.
    + destruct (t_type t =? T_ProbeRedirect).
      * destruct (of_opt (block_from_value (t_val t))); cbn [bind] in H; try discriminate. destruct (of_opt (name_decode _)); cbn [bind] in H; try discriminate. eapply IH; exact H.
      * destruct (is_critical (t_type t)); [discriminate|]. eapply IH; exact H.
Qed.
Lemma probe_no_error : forall b r, probe_decode b = Ok r -> fst (err_decode b) = NO_ERROR.
Proof.
  intros b r H. unfold probe_decode in H. destruct (parse b) as [els|] eqn:P; cbn [of_opt bind] in H; [|discriminate].
  eapply no_error; [exact P|]. eapply probe_no_error_loop; exact H.
Qed.
Lemma probe_end_to_end : forall E g S (ops : store_ops S) s i p c params rs ns, sig_laws E -> p_prefix p = p_prefix (cfp g) -> p_cert p = Some c -> public_key c = o_pub E (cf_sk g) ->
  mm_sorted params -> Forall (fun kv => fits (fst kv) /\ fits (snd kv)) params -> targets E params (cf_redirect (cf g)) rs -> offers E params (assigns g) (in_words64 i) ns ->
  (rs <> [] \/ ns <> []) -> p_prefix (cfp g) <> [] -> Forall (probe_fits (p_maxsuffix (cfp g))) (map (app (p_prefix (cfp g))) ns) -> Forall name_fits rs ->
  (forall k, p_maxsuffix (cfp g) = Some k -> k < 2 ^ 64) ->
  exists d, on_interest E g ops s i (gen_probe E p params) = ([EPut d], Ok tt) /\
    on_probe_response E d p = Ok (map (fun n => (p_prefix (cfp g) ++ n, narrow_suffix (p_maxsuffix (cfp g)))) ns, rs).
Proof.
  intros E g S ops s i p c params rs ns LS PF PC PK SO F T O NE PN F1 F2 F3.
  destruct (probe_answer E g S ops s i (gen_probe E p params) params rs ns (probe_addressed E g p params PF) (probe_read_back E p params SO F) T O NE PN F1 F2 F3) as (d & OI & _ & SG & PD).
  exists d. split; [exact OI|]. unfold on_probe_response, check_reply, process_if_error, verify_data. rewrite PC, PK, SG, (l_sign_verify E LS), (probe_no_error _ _ PD). exact PD.
Qed.
Lemma probe_end_nothing : forall E g S (ops : store_ops S) s i p c params, sig_laws E -> p_prefix p = p_prefix (cfp g) -> p_cert p = Some c -> public_key c = o_pub E (cf_sk g) ->
  mm_sorted params -> Forall (fun kv => fits (fst kv) /\ fits (snd kv)) params -> targets E params (cf_redirect (cf g)) [] -> offers E params (assigns g) (in_words64 i) [] ->
  exists d, on_interest E g ops s i (gen_probe E p params) = ([EPut d], Ok tt) /\ on_probe_response E d p = Exn.
Proof.
  intros E g S ops s i p c params LS PF PC PK SO F T O.
  destruct (probe_nothing E g S ops s i (gen_probe E p params) params (probe_addressed E g p params PF) (probe_read_back E p params SO F) T O) as (d & OI & _ & SG & info & ER).
  exists d. split; [exact OI|]. unfold on_probe_response, check_reply, process_if_error, verify_data. rewrite PC, PK, SG, (l_sign_verify E LS), ER. reflexivity.
Qed.

(** ** Fetching the certificate *)
Lemma last_start : forall S (tr : list (hstep S)), exists a b, tr = a ++ b /\ (a = [] \/ exists a' st, a = a' ++ [st] /\ restarts (h_ev st)) /\ Forall (fun st => ~ restarts (h_ev st)) b.
Proof.
  intros S tr. induction tr as [|st tr IH] using rev_ind; [exists [], []; auto|]. destruct IH as (a & b & -> & FR & NR).
  assert (D : restarts (h_ev st) \/ ~ restarts (h_ev st)) by (destruct (h_ev st); cbn; auto). destruct D as [D|D].
  - exists ((a ++ b) ++ [st]), []. rewrite app_nil_r. split; [reflexivity|]. split; [right; eauto|constructor].
  - exists a, (b ++ [st]). rewrite app_assoc. split; [reflexivity|]. split; [exact FR|]. apply Forall_app. split; [exact NR|constructor; [exact D|constructor]].
Qed.
Lemma announced_app : forall S (a b : list (hstep S)) cs ds, announced a cs -> announced b ds -> announced (a ++ b) (cs ++ ds).
Proof. intros S a b cs ds H K. induction H; cbn [app]; [exact K|apply an_yes; assumption|apply an_no; assumption]. Qed.
Lemma not_profile : forall g n v, name_policy g n -> ~ begins n (profile_name g v).
Proof.
  intros g n v (suffix & kid & iss & ver & -> & NE & _) (rest & Q). apply (f_equal (@length tlv)) in Q. unfold profile_name in Q.
  rewrite !app_length in Q. cbn [length] in Q. destruct suffix; [contradiction|]. cbn [length] in Q. lia.
Qed.
Lemma issued_cert_ok : forall E g c sk, sig_laws E -> name_policy g (c_name c) -> c_iskey c = true -> public_key c = o_pub E sk -> cert_ok c = true.
Proof.
  intros E g c sk LS (suffix & kid & iss & ver & Q & _) K PK. unfold cert_ok. rewrite K, Q, app_assoc. change (gc (bs "KEY")) with c_KEY. rewrite valid_cert_name_of_shape.
  pose proof (l_pub_nonempty E LS sk) as N. unfold public_key in PK. destruct (c_content c) as [[|b l]|]; [congruence|reflexivity|congruence].
Qed.
Lemma round_step : forall E g S (ops : store_ops S) ca s ri rj i ctype params ca' es s', round E g ops ca s ri rj i ctype params = Some (ca', es, s') ->
  exists x, step E g ops ca (EvInterest i x) = Some (ca', es).
Proof.
  intros E g S ops ca s ri rj i ctype params ca' es s' H. unfold round in H. destruct (select_challenge s ctype) as [[m| | |] s1]; try discriminate.
  destruct (gen_challenge E s1 ri params) as [[x| | |] s2]; try discriminate. destruct (step E g ops ca (EvInterest i x)) as [[ca1 es1]|] eqn:ST; [|discriminate].
  destruct (puts es1) as [|d [|d' l]]; try discriminate. destruct (on_challenge_response E s2 rj d) as [[m'| | |] s3]; try discriminate. injection H as <- <- <-. eauto.
Qed.
Lemma announced_fetched : forall E g S (ops : store_ops S) tr st later s1 s c newer profile v sk, sig_laws E -> ca_history E g ops (tr ++ [st]) s1 -> steps E g ops s1 later s ->
  announces st c -> ~ restarts (h_ev st) -> public_key c = o_pub E sk -> d_name profile = profile_name g v ->
  Forall (fun e => ~ restarts (h_ev e)) later -> announced later newer -> (length newer < 100)%nat -> Forall (fun c' => ~ begins (c_name c) (full_name E c')) newer ->
  serve E profile (server_cache (seen (tr ++ st :: later))) (c_name c) = Some (SCert c) /\ on_cert_fetch c = Ok c.
Proof.
  intros E g S ops tr st later s1 s c newer profile v sk LS H ST AN NS PK PN NR AL LN OT.
  destruct (issued_says E g S ops tr st s1 c H (proj1 AN)) as (id & key & c0 & a1 & new & a2 & i & x & nb & na & _ & _ & _ & _ & CE & NP & _).
  split; [|unfold on_cert_fetch; rewrite (issued_cert_ok E g c sk LS NP); [reflexivity| |exact PK]; destruct CE as (? & ? & ? & ? & _ & _ & _ & _ & K & _); exact K].
  destruct (last_start S tr) as (a & b & -> & FR & NB).
  assert (HH : ca_history E g ops (a ++ (b ++ st :: later)) s).
  { destruct H as [LC NF B (k & H)]. constructor; [exact LC|exact NF|exact B|]. exists k. replace (a ++ b ++ st :: later) with (((a ++ b) ++ [st]) ++ later) by (rewrite <- !app_assoc; reflexivity).
    apply steps_app. exists s1. auto. }
  assert (H0 : exists m, ca_history E g ops (a ++ b) m) by (apply history_cut in H as (m & H & _); eauto). destruct H0 as (m & H0).
  destruct (cache_holds _ _ _ _ _ _ _ H0 FR NB) as [(older & AO) _].
  assert (NR2 : Forall (fun e => ~ restarts (h_ev e)) (b ++ st :: later)) by (apply Forall_app; split; [exact NB|constructor; assumption]).
  assert (AA : announced (b ++ st :: later) (older ++ c :: newer)) by (apply announced_app; [exact AO|apply an_yes; assumption]).
  destruct (fetchable E g S ops a (b ++ st :: later) s older c newer profile (c_name c) HH FR NR2 AA LN) as (c' & SV & IN & BG).
  - eexists. reflexivity.
  - rewrite PN. apply not_profile, NP.
  - rewrite <- app_assoc. rewrite SV. destruct IN as [<-|IN]; [reflexivity|]. rewrite Forall_forall in OT. destruct (OT _ IN BG).
Qed.
Lemma session_fetched : forall E g S (ops : store_ops S) ctype life id sk creq code k t tr ca s ri rj i profile v, env_laws E -> config_fits g -> code_life ctype life ->
  ca_history E g ops tr ca -> session E g ops ctype life id sk creq (Some (code, k, t)) ca s -> (t <= in_t1 i < t + sec life - 1000)%Z -> clock_ok rj ->
  d_name profile = profile_name g v ->
  exists ca' es s' x c, let st := HStep ca (EvInterest i x) es ca' in
    round E g ops ca s ri rj i ctype [(bs "code", code)] = Some (ca', es, s') /\ ca_history E g ops (tr ++ [st]) ca' /\
    certifies E g creq c /\ public_key c = o_pub E sk /\
    forall later ca2 newer, steps E g ops ca' later ca2 -> Forall (fun e => ~ restarts (h_ev e)) later -> announced later newer -> (length newer < 100)%nat ->
      Forall (fun c' => ~ begins (c_name c) (full_name E c')) newer ->
      serve E profile (server_cache (seen (tr ++ st :: later))) (i_name (fst (gen_cert_fetch s'))) = Some (SCert c) /\ on_cert_fetch c = Ok c.
Proof.
  intros E g S ops ctype life id sk creq code k t tr ca s ri rj i profile v L CF CL H SE TB CK PN.
  destruct (right_ok E g S ops ctype life id sk creq code k t ca s ri rj i L CF CL SE TB CK) as (ca' & s' & c & d & r & RD & CE & PK & _ & IS & _ & _).
  destruct (round_step _ _ _ _ _ _ _ _ _ _ _ _ _ _ RD) as (x & ST).
  exists ca', [EIssue c; EDelete id; EPut d; ECallback r], s', x, c. cbn zeta. split; [exact RD|].
  pose proof (history_push S E g ops tr (HStep ca (EvInterest i x) [EIssue c; EDelete id; EPut d; ECallback r] ca') H ST) as HP.
  split; [exact HP|]. split; [exact CE|]. split; [exact PK|]. intros later ca2 newer SL NR AL LN OT. unfold gen_cert_fetch. cbn [fst i_name]. rewrite IS.
  eapply announced_fetched; try eassumption; [exact (laws_sig _ L)| |].
  - split; [left; reflexivity|]. cbn. discriminate.
  - intros [].
Qed.
Lemma restart_loses : forall E S (tr : list (hstep S)) st profile n c, restarts (h_ev st) -> serve E profile (server_cache (seen (tr ++ [st]))) n <> Some (SCert c).
Proof.
  intros E S tr st profile n c R. rewrite (fresh_cache S (tr ++ [st])) by (right; eauto). unfold serve. destruct (is_prefix n (d_name profile)); discriminate.
Qed.
