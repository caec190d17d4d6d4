(** C100: the CA server process. *)
From Verif Require Import ProcessFacts ProcessWitness TraceWitness.
Local Open Scope N_scope.

(** ** C100: the whole server *)
(** Through starts, kills and exceptions the CA module inside the server lives one of the histories the other theorems are about: the
    same Interests, with the same replies. *)
Theorem C100_module : forall E g S (ops : store_ops S) repo tr p, server_history E g ops repo tr p ->
  exists h s, ca_history E g ops h s /\ server_dealings tr = module_dealings h /\ (forall ca d cache, p = Running ca d cache -> s = ca).
Proof. exact process_module. Qed.
Print Assumptions C100_module.
(** The certificates announced since the last start: without a repo the latest hundred are cached; with one each is written to it. *)
Theorem C100_certificates : forall E g S (ops : store_ops S) repo tr ca d cache, server_history E g ops repo tr (Running ca d cache) ->
  exists u st w a b, tr = u ++ st :: w /\ is_start (p_ev st) /\ Forall (fun st => ~ is_start (p_ev st)) w /\
    ca_history E g ops (a ++ b) ca /\ Forall (fun st => ~ restarts (h_ev st)) b /\ server_dealings w = module_dealings b /\
    exists cs, announced b cs /\
      if repo then cache = [] /\ flat_map (fun st => published (p_outs st)) w = cs else cache = firstn 100 (rev cs).
Proof. exact process_certs. Qed.
Print Assumptions C100_certificates.
(** The profile packet is the one made when the process started, and is written to the repo then if there is one. *)
Theorem C100_profile : forall E g S (ops : store_ops S) repo tr ca d cache, server_history E g ops repo tr (Running ca d cache) ->
  (exists v, d_name d = profile_name g v /\ data_signed_by E d (cf_sk g) /\ info_encode E (cfp g) (cf_cert g) = Ok (d_content d)) /\
  exists u st0 ev os0 ca0 cache0 w, tr = u ++ SStep st0 ev os0 (Running ca0 d cache0) :: w /\ is_start ev /\ Forall (fun st => ~ is_start (p_ev st)) w /\
    os0 = if repo then [ORepoProfile d] else [].
Proof. exact process_profile. Qed.
Print Assumptions C100_profile.
(** Discovery always names that packet, *)
Theorem C100_metadata : forall E g S (ops : store_ops S) repo tr ca d cache i x, server_history E g ops repo tr (Running ca d cache) -> addressed g VInfo (i_name x) ->
  exists os m v, pstep E g ops repo (Running ca d cache) (PvInterest i x) = Some (Running ca d cache, os) /\ module_packets os = [m] /\
    d_name d = profile_name g v /\ d_content m = name_wire (p_prefix (cfp g) ++ [gc (bs "CA"); gc (bs "INFO"); version_comp v]) /\
    d_name m = p_prefix (cfp g) ++ [gc (bs "CA"); gc (bs "INFO"); Tlv T_Keyword (bs "metadata"); version_comp (in_mversion i); Tlv T_Segment (nni_enc 0)].
Proof. exact process_metadata. Qed.
Print Assumptions C100_metadata.
(** and a server without a repo answers for it with nothing else. *)
Theorem C100_fetch : forall E g S (ops : store_ops S) tr ca d cache i x, server_history E g ops false tr (Running ca d cache) ->
  i_name x = d_name d -> pstep E g ops false (Running ca d cache) (PvInterest i x) = Some (Running ca d cache, [OServed (SProfile d)]).
Proof. exact process_fetch. Qed.
Print Assumptions C100_fetch.
(** With a repo the server's own filter is not there: the module alone answers. *)
Theorem C100_repo : forall E g S (ops : store_ops S) ca d cache i x p os, pstep E g ops true (Running ca d cache) (PvInterest i x) = Some (p, os) ->
  packets E os = map d_name (module_packets os) /\ ((forall v, ~ addressed g v (i_name x)) -> os = []).
Proof. exact process_repo. Qed.
Print Assumptions C100_repo.
(** One packet at most, unless a cached certificate's name continues the name of a protocol Interest. *)
Theorem C100_single_partial : forall E g S (ops : store_ops S) repo tr ca d cache i x p os, server_history E g ops repo tr (Running ca d cache) ->
  pstep E g ops repo (Running ca d cache) (PvInterest i x) = Some (p, os) ->
  (length (packets E os) <= 1)%nat \/ exists v c, addressed g v (i_name x) /\ In c cache /\ begins (i_name x) (full_name E c).
Proof. exact process_single. Qed.
Print Assumptions C100_single_partial.
(** Whoever obtains a certificate for [prefix]/CA/INFO/32=metadata has it sent in answer to every discovery, before the metadata and
    unusable as such. *)
Theorem C100_single_refuted : exists tr ca d c i x m, server_history toy h_cfg (db_ops toy) false tr (Running ca d [c]) /\ gen_discovery (p_prefix (cfp h_cfg)) = Ok x /\
  pstep toy h_cfg (db_ops toy) false (Running ca d [c]) (PvInterest i x) = Some (Running ca d [c], [OServed (SCert c); OModule m]) /\
  forall d' y, d_name d' = c_name c -> gen_profile_interest d' <> Ok y.
Proof. exact discovery_taken. Qed.
Print Assumptions C100_single_refuted.
(** Every packet has a name the Interest asks for, unless a discovery Interest has components after the keyword. *)
Theorem C100_matches : forall E g S (ops : store_ops S) repo tr ca d cache i x p os n, server_history E g ops repo tr (Running ca d cache) ->
  pstep E g ops repo (Running ca d cache) (PvInterest i x) = Some (p, os) -> In n (packets E os) ->
  begins (i_name x) n \/ exists c rest, i_name x = p_prefix (cfp g) ++ [gc (bs "CA"); gc (bs "INFO"); Tlv 32 (bs "metadata")] ++ c :: rest.
Proof. exact process_matches. Qed.
Print Assumptions C100_matches.
(** What it takes to end the server with a packet, *)
Theorem C100_ends_partial : forall E g S (ops : store_ops S) repo tr ca d cache i x st os, server_history E g ops repo tr (Running ca d cache) ->
  pstep E g ops repo (Running ca d cache) (PvInterest i x) = Some (Down st, os) ->
  (exists rt, (rt = RT_NEW \/ rt = RT_REVOKE) /\ addressed g (verb_of rt) (i_name x) /\ new_throws E g i rt (ca_idkey ca) x) \/
  (exists id r, names_request g id x /\ pending ops ca id = Some r /\ signed_by E x (public_key (rq_cert r))).
Proof. exact process_ends. Qed.
Print Assumptions C100_ends_partial.
(** and one that does: a NEW Interest from anyone, with a certificate request that has no validity period. *)
Theorem C100_ends_refuted : exists tr ca d cache i x st, server_history toy h_cfg (db_ops toy) false tr (Running ca d cache) /\ addressed h_cfg VNew (i_name x) /\
  pstep toy h_cfg (db_ops toy) false (Running ca d cache) (PvInterest i x) = Some (Down st, []).
Proof. exact server_killed. Qed.
Print Assumptions C100_ends_refuted.
(** The network need not bring the server the Interests for the certificates it caches: the prefix it registers is no prefix of their names. *)
Theorem C100_routed_refuted : exists tr ca d c, server_history toy h_cfg (db_ops toy) false tr (Running ca d [c]) /\ ~ begins (registered h_cfg) (full_name toy c).
Proof. exact cert_unrouted. Qed.
Print Assumptions C100_routed_refuted.
Example C100_case : server_history toy h_cfg (db_ops toy) false o_tr (Running o_ca o_d [o_c]) /\ addressed h_cfg VInfo (i_name h_disc) /\
  pstep toy h_cfg (db_ops toy) false (Running h_ca o_d [h_c]) h_v4 = Some (Running h_ca o_d [h_c], [OServed (SCert h_c); OModule h_m]).
Proof. split; [exact o_runs|]. split; [exists []; vm_compute; reflexivity|exact h_answers]. Qed.
