(** C110: a client that one CA sends to another. *)
From Verif Require Import RedirectFacts RedirectWitness.
Local Open Scope N_scope.

(** ** C110: a redirected client gets to the CA its first CA named *)
(** A CA whose redirection policies match answers PROBE with the certificates of other CAs.  The user chooses one (or there is
    only one), and the client asks that CA for its profile. *)
Theorem C110_follows : forall E g S (ops : store_ops S) file pb h c x p cc m s i ci rs ns prefix target ls n last, sig_laws E -> client_run E file pb h c (NWait x (WProbe p)) ->
  p_prefix p = p_prefix (cfp g) -> p_cert p = Some cc -> public_key cc = o_pub E (cf_sk g) -> cl_probe c = Some m -> Forall (fun kv => fits (fst kv) /\ fits (snd kv)) m ->
  targets E m (cf_redirect (cf g)) rs -> offers E m (assignments g) (in_words64 i) ns -> p_prefix (cfp g) <> [] -> Forall (probe_fits (p_maxsuffix (cfp g))) (map (app (p_prefix (cfp g))) ns) ->
  Forall name_fits rs -> (forall k, p_maxsuffix (cfp g) = Some k -> k < 2 ^ 64) -> proper_targets g ->
  chooses (ci_lines ci) rs (full_name E target) ls -> ca_named prefix target -> prefix = n ++ [last] -> t_val last <> bs "CA" ->
  exists d x', on_interest E g ops s i x = ([EPut d], Ok tt) /\ gen_discovery prefix = Ok x' /\
    client_run E file pb ((ci, Some (CData d)) :: h) c (NWait x' (WMeta (full_name E target))).
Proof. exact follows. Qed.
Print Assumptions C110_follows.
Example C110_follows_case : exists h c x, client_run toy w_file [] h c (NWait x (WProbe u_profile)) /\ p_prefix u_profile = p_prefix (cfp rd_near) /\ p_cert u_profile = Some x_ca_cert /\ public_key x_ca_cert = o_pub toy (cf_sk rd_near) /\
  cl_probe c = Some u_params /\ Forall (fun kv => fits (fst kv) /\ fits (snd kv)) u_params /\ targets toy u_params (cf_redirect (cf rd_near)) [rd_full; full_name toy x_anchor] /\
  offers toy u_params (assignments rd_near) (in_words64 (x_inputs x_now 1)) [[gc (bs "alice")]] /\ Forall (probe_fits (p_maxsuffix (cfp rd_near))) (map (app (p_prefix (cfp rd_near))) [[gc (bs "alice")]]) /\
  Forall name_fits [rd_full; full_name toy x_anchor] /\ proper_targets rd_near /\ chooses [bs "0"] [rd_full; full_name toy x_anchor] rd_full [] /\ ca_named rd_prefix rd_cert.
Proof. exact rd_follows. Qed.
(** The second CA, whatever it has done before, shows its profile; the client takes it, since it carries the certificate the
    first CA named, and asks for names with the parameters typed for the first CA.  From there on C77 speaks of the second
    CA. *)
Theorem C110_arrives : forall E g S (ops : store_ops S) ca i file pb h c x n last m0 ci1 ci2, codec_laws E -> sig_laws E -> reachable E g ops ca ->
  p_prefix (cfp g) = n ++ [last] -> t_val last <> bs "CA" -> in_mversion i < 2 ^ 64 -> publishable E g ->
  client_run E file pb h c (NWait x (WMeta (full_name E (cf_cert g)))) -> gen_discovery (p_prefix (cfp g)) = Ok x -> cl_probe c = Some m0 ->
  exists ca' m d w, answers E g ops ca i x ca' m /\ ca_prof ca' = Some d /\ d_name d = profile_name g w /\
    (w < 2 ^ 64 -> name_fits (p_prefix (cfp g) ++ [gc (bs "CA"); gc (bs "INFO"); version_comp w]) -> exists y c2 z p,
       client_run E file pb ((ci1, Some (CData m)) :: h) c (NWait y (WInfo (full_name E (cf_cert g)))) /\ i_name y = d_name d /\
       client_run E file pb ((ci2, Some (CData d)) :: (ci1, Some (CData m)) :: h) c2 (NWait z (WProbe p)) /\
       p_prefix p = p_prefix (cfp g) /\ p_cert p = Some (cf_cert g) /\ p_probe_keys p = p_probe_keys (cfp g) /\ cl_probe c2 = Some m0 /\ cl_pib c2 = cl_pib c).
Proof. exact arrives. Qed.
Print Assumptions C110_arrives.
Example C110_arrives_case : exists h c x n last, reachable toy rd_far (db_ops toy) rd_ca0 /\ p_prefix (cfp rd_far) = n ++ [last] /\ t_val last <> bs "CA" /\ in_mversion (x_inputs x_now 1) < 2 ^ 64 /\ publishable toy rd_far /\
  client_run toy w_file [] h c (NWait x (WMeta (full_name toy (cf_cert rd_far)))) /\ gen_discovery (p_prefix (cfp rd_far)) = Ok x /\ cl_probe c = Some u_params.
Proof. exact rd_arrives. Qed.
(** There the hypotheses of C77 hold for the second CA. *)
Example C110_applies_case : exists h c x, client_run toy w_file [] h c (NWait x (WProbe rd_profile)) /\ p_prefix rd_profile = p_prefix (cfp rd_far) /\ p_cert rd_profile = Some rd_cert /\ public_key rd_cert = o_pub toy (cf_sk rd_far) /\
  cl_probe c = Some u_params /\ targets toy u_params (cf_redirect (cf rd_far)) [] /\ offers toy u_params (assignments rd_far) (in_words64 (x_inputs x_now 1)) [[gc (bs "alice")]] /\
  picks [] (w_ci 6 [bs "1"]) [] (p_prefix (cfp rd_far) ++ [gc (bs "alice")]) (gc (bs "k1")) x_sk.
Proof. exact rd_applies. Qed.
(** What the second CA wants to know is not asked for. *)
Theorem C110_asked_refuted : exists h c x p m k, client_run toy w_file [] h c (NWait x (WProbe p)) /\ p_cert p = Some rd_cert /\ cl_probe c = Some m /\ In k (p_probe_keys p) /\ ~ In k (map fst m).
Proof. exact rd_not_asked. Qed.
Print Assumptions C110_asked_refuted.
