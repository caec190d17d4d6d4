(** Name assignment, redirection and PROBE: theorems C44-C48.  Vocabulary in Spec_Policy.v. *)
From Verif Require Import PolicyWitness.
Local Open Scope N_scope.

(** ** C45: parameter-based name assignment *)
(** The format is cut at slashes; empty pieces are ignored. *)
Theorem C45_format : forall kind pieces, pieces <> [] -> Forall (free "/"%byte) pieces ->
  forall type, In (type, kind) [(bs "param", AParam); (bs "hash", AHash); (bs "email", AEmail); (bs "random", ARandom)] ->
  create_assign type (join "/"%byte pieces) = Some (Assign kind (filter (fun p => negb (bytes_eqb p [])) pieces)).
Proof. exact format_pieces. Qed.
Print Assumptions C45_format.
Example C45_format_case : Forall (free "/"%byte) [[]; bs "email"; []; bs "name"] /\
  join "/"%byte [[]; bs "email"; []; bs "name"] = bs "/email//name" /\
  create_assign (bs "param") (bs "/email//name") = Some (Assign AParam [bs "email"; bs "name"]).
Proof. split; [repeat constructor; apply free_b; vm_compute; reflexivity|meets]. Qed.

(** The name is made of the literals and first non-empty values in order -- each read as a URI, so that it is one
    component only for plain text (next theorem). *)
Theorem C45_param_partial : forall E params w fmt n, assign_name E (Assign AParam fmt) w params = Ok [n] <-> param_name E params fmt n.
Proof. exact param_offer. Qed.
Print Assumptions C45_param_partial.
Theorem C45_param_plain_partial : forall E params w fmt texts, codec_laws E ->
  Forall2 (fun item text => item_text params item text /\ plain_text text) fmt texts ->
  assign_name E (Assign AParam fmt) w params = Ok [map gc texts].
Proof. exact param_plain. Qed.
Print Assumptions C45_param_plain_partial.
Example C45_param_case : codec_laws toy /\
  Forall2 (fun item text => item_text y_params item text /\ plain_text text) [[x22] ++ bs "guest" ++ [x22]; bs "name"] [bs "guest"; bs "alice"] /\
  assign_name toy (Assign AParam [[x22] ++ bs "guest" ++ [x22]; bs "name"]) 0 y_params = Ok [[gc (bs "guest"); gc (bs "alice")]].
Proof. split; [meets|]. split; [exact y_texts|meets]. Qed.
(** Nothing, exactly if an item is missing or empty (before any item that is no URI). *)
Theorem C45_param_nothing : forall E params w fmt, assign_name E (Assign AParam fmt) w params = Ok [] <-> param_missing E params fmt.
Proof. exact param_nothing. Qed.
Print Assumptions C45_param_nothing.
Example C45_param_nothing_case : assign_name toy (Assign AParam [bs "name"; bs "group"]) 0 y_params = Ok [] /\
  assign_name toy (Assign AParam [bs "name"]) 0 [(bs "name", [])] = Ok [].
Proof. meets. Qed.
Theorem C45_param_throws : forall E params w fmt, assign_name E (Assign AParam fmt) w params = Exn <-> param_throws E params fmt.
Proof. exact param_exn. Qed.
Print Assumptions C45_param_throws.
Example C45_param_throws_case : assign_name toy (Assign AParam [bs "name"]) 0 [(bs "name", bs "%zz")] = Exn /\
  assign_name toy (Assign AParam [bs "name"]) 0 [(bs "name", bs "..")] = Exn.
Proof. meets. Qed.
(** False as stated: a non-empty value with a slash is not one component of the name. *)
Theorem C45_param_refuted : exists fmt params v, first_value params (hd [] fmt) v /\ length fmt = 1%nat /\ v <> [] /\
  assign_name toy (Assign AParam fmt) 0 params <> Ok [[gc v]] /\
  assign_name toy (Assign AParam fmt) 0 params = Ok [[gc (bs "a"); gc (bs "b")]].
Proof. exact param_value_split. Qed.
Print Assumptions C45_param_refuted.

Theorem C45_hash : forall E params w fmt n, assign_name E (Assign AHash fmt) w params = Ok [n] <-> hash_name E params fmt n.
Proof. exact hash_offer. Qed.
Print Assumptions C45_hash.
Theorem C45_hash_nothing : forall E params w fmt, assign_name E (Assign AHash fmt) w params = Ok [] <-> exists k, In k fmt /\ ~ In k (map fst params).
Proof. exact hash_nothing. Qed.
Print Assumptions C45_hash_nothing.
Example C45_hash_case : assign_name toy (Assign AHash [bs "team"; bs "name"]) 0 y_params =
  Ok [[gc (to_hex (o_sha256 toy (bs "a/b"))); gc (to_hex (o_sha256 toy (bs "alice")))]] /\
  assign_name toy (Assign AHash [bs "name"; bs "group"]) 0 y_params = Ok [].
Proof. meets. Qed.

(** ** C46: email-based name assignment *)
(** The address is the value of the first parameter in key order, which is the email parameter if [k] is "email". *)
Theorem C46_email_partial : forall E w fmt k addr rest n, fmt <> [] -> In (bs "email") (map fst ((k, addr) :: rest)) ->
  (assign_name E (Assign AEmail fmt) w ((k, addr) :: rest) = Ok [n] <-> email_name fmt addr n).
Proof. exact email_offer. Qed.
Print Assumptions C46_email_partial.
Example C46_email_case : email_name [bs "edu"; bs "cs"] (bs "joe@cs.ucla.edu") [gc (bs "ucla"); gc (bs "joe")] /\
  assign_name toy (Assign AEmail [bs "edu"; bs "cs"]) 0 [(bs "email", bs "joe@cs.ucla.edu"); (bs "name", bs "joe")] = Ok [[gc (bs "ucla"); gc (bs "joe")]].
Proof. split; [exact y_email|meets]. Qed.
Theorem C46_nothing : forall E w fmt params, fmt = [] \/ ~ In (bs "email") (map fst params) -> assign_name E (Assign AEmail fmt) w params = Ok [].
Proof. exact email_nothing. Qed.
Print Assumptions C46_nothing.
(** No '@', or nothing before it. *)
Theorem C46_bad_address : forall E w fmt k addr rest, fmt <> [] -> In (bs "email") (map fst ((k, addr) :: rest)) ->
  (free "@"%byte addr \/ exists dom, addr = "@"%byte :: dom /\ free "@"%byte dom) -> assign_name E (Assign AEmail fmt) w ((k, addr) :: rest) = Ok [].
Proof. exact email_bad_address. Qed.
Print Assumptions C46_bad_address.
Example C46_nothing_case : free "@"%byte (bs "joe.edu") /\ assign_name toy (Assign AEmail [bs "edu"]) 0 [(bs "email", bs "joe.edu")] = Ok [] /\
  ~ In (bs "email") (map fst [(bs "mail", bs "joe@a.edu")]) /\ assign_name toy (Assign AEmail [bs "edu"]) 0 [(bs "mail", bs "joe@a.edu")] = Ok [].
Proof. split; [apply free_b; vm_compute; reflexivity|]. split; [meets|]. split; [|meets]. intros [H|[]]. discriminate. Qed.
(** False as stated: another parameter may be taken for the address. *)
Theorem C46_email_refuted : exists fmt params addr n, fmt <> [] /\ mm_sorted params /\ first_value params (bs "email") addr /\
  assign_name toy (Assign AEmail fmt) 0 params = Ok [n] /\ ~ email_name fmt addr n.
Proof. exact email_not_from_email. Qed.
Print Assumptions C46_email_refuted.

(** ** C47: redirection policies *)
Theorem C47_param : forall pairs, pairs <> [] ->
  Forall (fun kv => free "="%byte (fst kv) /\ free "&"%byte (fst kv) /\ free "&"%byte (snd kv)) pairs ->
  exists p, create_policy (bs "param") (join "&"%byte (map (fun kv => fst kv ++ ["="%byte] ++ snd kv) pairs)) = Ok (Some p) /\
    forall params, is_redirecting p params = true <-> (forall k v, In (k, v) pairs -> In (k, v) params).
Proof. exact param_policy. Qed.
Print Assumptions C47_param.
Example C47_param_case :
  Forall (fun kv => free "="%byte (fst kv) /\ free "&"%byte (fst kv) /\ free "&"%byte (snd kv)) [(bs "name", bs "b=c"); (bs "name", []); ([], bs "x")] /\
  join "&"%byte (map (fun kv => fst kv ++ ["="%byte] ++ snd kv) [(bs "name", bs "b=c"); (bs "name", []); ([], bs "x")]) = bs "name=b=c&name=&=x".
Proof. split; [repeat constructor; apply free_b; vm_compute; reflexivity|reflexivity]. Qed.
Theorem C47_param_illformed : forall pieces, pieces <> [] -> join "&"%byte pieces <> [] -> Forall (free "&"%byte) pieces -> Exists (free "="%byte) pieces ->
  create_policy (bs "param") (join "&"%byte pieces) = Exn.
Proof. exact param_policy_illformed. Qed.
Print Assumptions C47_param_illformed.
Example C47_illformed_case : Forall (free "&"%byte) [bs "a=b"; bs "c"] /\ Exists (free "="%byte) [bs "a=b"; bs "c"] /\
  create_policy (bs "param") (bs "a=b&c") = Exn.
Proof.
  split; [repeat constructor; apply free_b; vm_compute; reflexivity|]. split; [right; left; apply free_b; vm_compute; reflexivity|meets].
Qed.
(** The empty format is accepted and matches everything. *)
Theorem C47_param_empty : create_policy (bs "param") [] = Ok (Some (PParam [])) /\ forall params, is_redirecting (PParam []) params = true.
Proof. exact empty_param_policy. Qed.
Print Assumptions C47_param_empty.
Theorem C47_email : forall dom, exists p, create_policy (bs "email") dom = Ok (Some p) /\
  forall params, is_redirecting p params = true <-> (free "@"%byte dom /\ exists loc, In (bs "email", loc ++ ["@"%byte] ++ dom) params).
Proof. exact email_policy. Qed.
Print Assumptions C47_email.
Example C47_email_case : create_policy (bs "email") (bs "b.c") = Ok (Some (PEmail (bs "b.c"))) /\
  is_redirecting (PEmail (bs "b.c")) [(bs "email", bs "x"); (bs "email", bs "a@@b.c")] = true /\
  is_redirecting (PEmail (bs "b.c")) [(bs "email", bs "a@b.c@d")] = false.
Proof. meets. Qed.
Theorem C47_unknown : forall type format, type <> bs "param" -> type <> bs "email" -> create_policy type format = Ok None.
Proof. exact unknown_policy. Qed.
Print Assumptions C47_unknown.

(** ** C48: PROBE replies contain exactly what the policies yield *)
Theorem C48_probe_reply : forall E g S (ops : store_ops S) s i x params rs ns, addressed g VProbe (i_name x) ->
  probe_params_decode (params_of x) = Ok params -> targets E params (cf_redirect (cf g)) rs -> offers E params (assignments g) (in_words64 i) ns ->
  (rs <> [] \/ ns <> []) -> p_prefix (cfp g) <> [] -> Forall (probe_fits (p_maxsuffix (cfp g))) (map (app (p_prefix (cfp g))) ns) -> Forall name_fits rs ->
  (forall k, p_maxsuffix (cfp g) = Some k -> k < 2 ^ 64) ->
  exists d, on_interest E g ops s i x = ([EPut d], Ok tt) /\ d_name d = i_name x /\ data_signed_by E d (cf_sk g) /\
    probe_decode (d_content d) = Ok (map (fun n => (p_prefix (cfp g) ++ n, narrow_suffix (p_maxsuffix (cfp g)))) ns, rs).
Proof. exact probe_answer. Qed.
Print Assumptions C48_probe_reply.
Theorem C48_nothing : forall E g S (ops : store_ops S) s i x params, addressed g VProbe (i_name x) ->
  probe_params_decode (params_of x) = Ok params -> targets E params (cf_redirect (cf g)) [] -> offers E params (assignments g) (in_words64 i) [] ->
  exists d, on_interest E g ops s i x = ([EPut d], Ok tt) /\ error_reply E g x (4 (* invalid parameter *)) d.
Proof. exact probe_nothing. Qed.
Print Assumptions C48_nothing.
(** The two theorems cover every PROBE, unless a redirection without a certificate matches or a text is no URI. *)
Theorem C48_total : forall E g i params, (forall p, In (None, p) (cf_redirect (cf g)) -> ~ redirects_to p params) ->
  (forall fmt, In (Assign AParam fmt) (assignments g) -> ~ param_throws E params fmt) ->
  exists rs ns, targets E params (cf_redirect (cf g)) rs /\ offers E params (assignments g) (in_words64 i) ns.
Proof. exact probe_total. Qed.
Print Assumptions C48_total.
Example C48_case : addressed y_cfg VProbe (i_name (y_probe y_params)) /\ probe_params_decode (params_of (y_probe y_params)) = Ok y_params /\
  targets toy y_params (cf_redirect (cf y_cfg)) [full_name toy x_anchor; full_name toy x_cred] /\
  offers toy y_params (assignments y_cfg) (in_words64 y_inputs) y_names /\
  Forall (probe_fits (Some 2)) (map (app x_prefix) y_names) /\ Forall name_fits [full_name toy x_anchor; full_name toy x_cred].
Proof. split; [eexists; vm_compute; reflexivity|]. split; [meets|]. split; [exact y_targets|]. split; [exact y_offers|]. unfold probe_fits. meets. Qed.
Example C48_nothing_case : targets toy [] (cf_redirect (cf x_cfg)) [] /\ offers toy [] (assignments x_cfg) (in_words64 y_inputs) [] /\
  probe_params_decode (params_of (y_probe [])) = Ok [].
Proof. split; [apply y_nothing|]. split; [apply y_nothing|meets]. Qed.

(** ** C44: offered names *)
Theorem C44_under_prefix : forall E g S (ops : store_ops S) s i x params rs ns, addressed g VProbe (i_name x) ->
  probe_params_decode (params_of x) = Ok params -> targets E params (cf_redirect (cf g)) rs -> offers E params (assignments g) (in_words64 i) ns ->
  (rs <> [] \/ ns <> []) -> p_prefix (cfp g) <> [] -> Forall (probe_fits (p_maxsuffix (cfp g))) (map (app (p_prefix (cfp g))) ns) -> Forall name_fits rs ->
  (forall k, p_maxsuffix (cfp g) = Some k -> k < 2 ^ 64) ->
  exists d names, on_interest E g ops s i x = ([EPut d], Ok tt) /\ probe_decode (d_content d) = Ok (names, rs) /\
    forall n k, In (n, k) names -> exists suffix, n = p_prefix (cfp g) ++ suffix.
Proof. exact probe_under_prefix. Qed.
Print Assumptions C44_under_prefix.
(** Hypotheses met: C48_case. *)
(** A certificate for an offered name passes the name check if every configured function is random, hash or param
    with a format of 1 to [limit] items, and the texts are plain; nothing of the kind holds for email functions. *)
Theorem C44_requestable_partial : forall E g params ws ns n kid issuer version, codec_laws E ->
  Forall (fitting (p_maxsuffix (cfp g)) params) (assignments g) -> offers E params (assignments g) ws ns -> In n ns ->
  name_policy g ((p_prefix (cfp g) ++ n) ++ [gc (bs "KEY"); kid; issuer; version]).
Proof. exact offered_can_be_requested. Qed.
Print Assumptions C44_requestable_partial.
Example C44_case : Forall (fitting (p_maxsuffix (cfp x_cfg)) [(bs "name", bs "alice")]) (assignments x_cfg) /\
  offers toy [(bs "name", bs "alice")] (assignments x_cfg) [] [[gc (bs "alice")]].
Proof.
  split; [|apply suffixes_offers; vm_compute; reflexivity]. constructor; [|constructor]. split; [discriminate|].
  split; [intros k H; injection H as <-; vm_compute; discriminate|]. intros item text [<-|[]] T. apply text_of_iff in T. vm_compute in T. injection T as <-.
  unfold plain_text. meets.
Qed.
(** False in general. *)
Theorem C44_requestable_refuted : exists g s i x d names rs n k i' x' peer c d',
  reachable toy g mem_ops s /\ on_interest toy g mem_ops s i x = ([EPut d], Ok tt) /\
  probe_decode (d_content d) = Ok (names, rs) /\ In (n, k) names /\
  addressed g VNew (i_name x') /\ carries toy RT_NEW x' peer c /\ identity_of (c_name c) = n /\
  on_interest toy g mem_ops s i' x' = ([EPut d'], Ok tt) /\ error_reply toy g x' (5 (* name not allowed *)) d'.
Proof. exact offered_not_requestable. Qed.
Print Assumptions C44_requestable_refuted.
