(** Corollaries and concrete cases for the statements about name assignment, redirection and PROBE. *)
From Verif Require Export CaProps Samples.
Local Open Scope N_scope.

Lemma format_pieces : forall kind pieces, pieces <> [] -> Forall (free SLASH) pieces ->
  forall type, In (type, kind) [(bs "param", AParam); (bs "hash", AHash); (bs "email", AEmail); (bs "random", ARandom)] ->
  create_assign type (join SLASH pieces) = Some (Assign kind (filter (fun p => negb (bytes_eqb p [])) pieces)).
Proof.
  intros kind pieces NE F type IN.
  assert (name_format (join SLASH pieces) = filter (fun p => negb (bytes_eqb p [])) pieces) as Q by (unfold name_format; rewrite (split_join SLASH) by assumption; apply filter_nonempty).
  repeat destruct IN as [IN|IN]; [injection IN as <- <-..|destruct IN]; unfold create_assign; rewrite <- Q; reflexivity.
Qed.

Lemma param_offer : forall E params w fmt n, assign_name E (Assign AParam fmt) w params = Ok [n] <-> param_name E params fmt n.
Proof.
  intros E params w fmt n. rewrite assign_name_offers. split; [intros H; inversion H; subst; assumption|apply of_param].
Qed.
Lemma param_nothing : forall E params w fmt, assign_name E (Assign AParam fmt) w params = Ok [] <-> param_missing E params fmt.
Proof. intros E params w fmt. rewrite assign_name_offers. split; [intros H; inversion H; subst; assumption|apply of_param_none]. Qed.
Lemma param_exn : forall E params w fmt, assign_name E (Assign AParam fmt) w params = Exn <-> param_throws E params fmt.
Proof.
  intros E params w fmt. unfold assign_name. cbn [a_kind a_format]. rewrite <- assign_param_throws.
  destruct (assign_param E fmt params); cbn [bind]; split; intros H; try discriminate; reflexivity.
Qed.
Lemma param_plain_name : forall E params fmt texts, codec_laws E -> Forall2 (fun item text => item_text params item text /\ plain_text text) fmt texts ->
  param_name E params fmt (map gc texts).
Proof.
  intros E params fmt texts LC F. induction F as [|item text fmt texts (T & P) F IH]; [constructor|].
  exact (pn_item E params item text [gc text] fmt _ T (l_uri_comp E LC text P) IH).
Qed.
Lemma param_plain : forall E params w fmt texts, codec_laws E -> Forall2 (fun item text => item_text params item text /\ plain_text text) fmt texts ->
  assign_name E (Assign AParam fmt) w params = Ok [map gc texts].
Proof. intros E params w fmt texts LC F. apply param_offer. apply param_plain_name; assumption. Qed.
Lemma hash_offer : forall E params w fmt n, assign_name E (Assign AHash fmt) w params = Ok [n] <-> hash_name E params fmt n.
Proof. intros E params w fmt n. rewrite assign_name_offers. split; [intros H; inversion H; subst; assumption|apply of_hash]. Qed.
Lemma hash_nothing : forall E params w fmt, assign_name E (Assign AHash fmt) w params = Ok [] <-> exists k, In k fmt /\ ~ In k (map fst params).
Proof.
  intros E params w fmt. rewrite <- (assign_hash_none E). unfold assign_name. cbn [a_kind a_format].
  destruct (assign_hash E fmt params); split; intros H; try discriminate; reflexivity.
Qed.
Lemma email_offer : forall E w fmt k addr rest n, fmt <> [] -> In (bs "email") (map fst ((k, addr) :: rest)) ->
  (assign_name E (Assign AEmail fmt) w ((k, addr) :: rest) = Ok [n] <-> email_name fmt addr n).
Proof.
  intros E w fmt k addr rest n NF IN. rewrite <- (assign_email_name fmt k addr rest n NF IN). unfold assign_name. cbn [a_kind a_format].
  destruct (assign_email fmt ((k, addr) :: rest)); split; intros H; try discriminate; injection H as ->; reflexivity.
Qed.
Lemma email_nothing : forall E w fmt params, fmt = [] \/ ~ In (bs "email") (map fst params) -> assign_name E (Assign AEmail fmt) w params = Ok [].
Proof. intros E w fmt params H. unfold assign_name. cbn [a_kind a_format]. rewrite assign_email_absent by exact H. reflexivity. Qed.
Lemma email_bad_address : forall E w fmt k addr rest, fmt <> [] -> In (bs "email") (map fst ((k, addr) :: rest)) ->
  (free AT addr \/ exists dom, addr = AT :: dom /\ free AT dom) -> assign_name E (Assign AEmail fmt) w ((k, addr) :: rest) = Ok [].
Proof.
  intros E w fmt k addr rest NF IN B. apply assign_name_offers. apply of_email_none. intros k' addr' rest' n _ Q _ (loc & labels & ks & A & NL & NE & FA & _).
  injection Q as <- <- <-. destruct B as [B|(dom & B & FD)].
  - apply B. rewrite A. apply in_or_app. right. left. reflexivity.
  - rewrite B in A. destruct loc as [|b loc]; [contradiction|]. cbn [app] in A. injection A as _ A. apply FD. rewrite A. apply in_or_app. right. left. reflexivity.
Qed.

(** ** Concrete parameters *)
Definition y_params : mmap := mm_of [(bs "name", bs "alice"); (bs "email", bs "joe@cs.ucla.edu"); (bs "name", bs "bob"); (bs "team", bs "a/b")].
Lemma y_texts : Forall2 (fun item text => item_text y_params item text /\ plain_text text)
  [[QUOTE] ++ bs "guest" ++ [QUOTE]; bs "name"] [bs "guest"; bs "alice"].
Proof.
  constructor; [|constructor; [|constructor]]; (split; [apply text_of_iff; vm_compute; reflexivity|]); unfold plain_text; meets.
Qed.
(** A value with a slash becomes two components; one that is no URI makes the function throw. *)
Lemma param_value_split : exists fmt params v, first_value params (hd [] fmt) v /\ length fmt = 1%nat /\ v <> [] /\
  assign_name toy (Assign AParam fmt) 0 params <> Ok [[gc v]] /\
  assign_name toy (Assign AParam fmt) 0 params = Ok [[gc (bs "a"); gc (bs "b")]].
Proof.
  exists [bs "team"], y_params, (bs "a/b"). split; [apply find_first; vm_compute; reflexivity|]. meets.
Qed.
Lemma free_b : forall c l, forallb (fun x => negb (byte_eqb x c)) l = true -> free c l.
Proof. intros c l H IN. rewrite forallb_forall in H. specialize (H _ IN). rewrite (proj2 (byte_eqb_eq c c) eq_refl) in H. discriminate. Qed.
Lemma y_email : email_name [bs "edu"; bs "cs"] (bs "joe@cs.ucla.edu") [gc (bs "ucla"); gc (bs "joe")].
Proof.
  exists (bs "joe"), [bs "cs"; bs "ucla"; bs "edu"], [bs "ucla"].
  split; [reflexivity|]. split; [discriminate|]. split; [discriminate|]. split; [apply free_b; vm_compute; reflexivity|].
  split; [repeat constructor; apply free_b; vm_compute; reflexivity|]. split; [|reflexivity].
  apply kept_drop. apply kept_keep; [discriminate|]. apply kept_drop. constructor.
Qed.
(** With another parameter before "email" in key order, that one is taken for the address. *)
Lemma email_not_from_email : exists fmt params addr n, fmt <> [] /\ mm_sorted params /\ first_value params (bs "email") addr /\
  assign_name toy (Assign AEmail fmt) 0 params = Ok [n] /\ ~ email_name fmt addr n.
Proof.
  set (params := mm_of [(bs "email", bs "joe@cs.ucla.edu"); (bs "contact", bs "root@evil.com")]).
  exists [bs "com"], params, (bs "joe@cs.ucla.edu"), [gc (bs "evil"); gc (bs "root")].
  split; [discriminate|]. split; [apply mm_of_is_sorted|]. split; [apply find_first; vm_compute; reflexivity|]. split; [vm_compute; reflexivity|].
  intros H. assert (IN : In (bs "email") (map fst [(bs "email", bs "joe@cs.ucla.edu")])) by (left; reflexivity).
  apply (assign_email_name [bs "com"] (bs "email") (bs "joe@cs.ucla.edu") [] _ ltac:(discriminate) IN) in H. revert H. vm_compute. discriminate.
Qed.

(** ** A CA with redirections and name assignment functions *)
Definition y_cfg : ca_cfg :=
  CaCfg (Config x_profile [(Some x_anchor, PEmail (bs "cs.ucla.edu")); (None, PParam [(bs "name", bs "carol")]); (Some x_cred, PParam [(bs "name", bs "bob"); (bs "name", bs "alice")])]
                [Assign AParam [[QUOTE] ++ bs "guest" ++ [QUOTE]; bs "name"]; Assign ARandom []; Assign AHash [bs "nothing"]; Assign AEmail [bs "edu"]; Assign ARandom []])
        (ChalCfg (bs "send.sh") (Ok [x_anchor])) x_ca_cert x_ca_sk x_keyloc.
Definition y_probe (params : mmap) : interest :=
  Interest (x_prefix ++ [c_CA; gc (bs "PROBE"); Tlv 2 (bs "digest")]) (Some (probe_params_encode params)) None.
Definition y_inputs : inputs := Inputs x_now x_now [] 0 0 [] 0 0 0 true [2 ^ 64 - 1; 17].
Definition y_names : list name :=
  [[gc (bs "guest"); gc (bs "alice")]; [gc (bs "18446744073709551615")]; [gc (bs "ucla"); gc (bs "cs"); gc (bs "joe")]; [gc (bs "17")]].

Lemma y_targets : targets toy y_params (cf_redirect (cf y_cfg)) [full_name toy x_anchor; full_name toy x_cred].
Proof. apply targets_iff. vm_compute. reflexivity. Qed.
Lemma y_offers : offers toy y_params (assigns y_cfg) (in_words64 y_inputs) y_names.
Proof. apply suffixes_offers. vm_compute. reflexivity. Qed.
Lemma y_nothing : targets toy [] (cf_redirect (cf x_cfg)) [] /\ offers toy [] (assigns x_cfg) (in_words64 y_inputs) [].
Proof. split; [apply targets_iff|apply suffixes_offers]; vm_compute; reflexivity. Qed.

(** ** Offered names and the name check *)
Lemma probe_under_prefix : forall E g S (ops : store_ops S) s i x params rs ns, addressed g VProbe (i_name x) ->
  probe_params_decode (params_of x) = Ok params -> targets E params (cf_redirect (cf g)) rs -> offers E params (assigns g) (in_words64 i) ns ->
  (rs <> [] \/ ns <> []) -> p_prefix (cfp g) <> [] -> Forall (probe_fits (p_maxsuffix (cfp g))) (map (app (p_prefix (cfp g))) ns) -> Forall name_fits rs ->
  (forall k, p_maxsuffix (cfp g) = Some k -> k < 2 ^ 64) ->
  exists d names, on_interest E g ops s i x = ([EPut d], Ok tt) /\ probe_decode (d_content d) = Ok (names, rs) /\
    forall n k, In (n, k) names -> exists suffix, n = p_prefix (cfp g) ++ suffix.
Proof.
  intros E g S ops s i x params rs ns AD D T O NE PN F1 F2 F3.
  destruct (probe_answer E g S ops s i x params rs ns AD D T O NE PN F1 F2 F3) as (d & OI & _ & _ & PD).
  eexists d, _. split; [exact OI|]. split; [exact PD|]. intros n k IN. apply in_map_iff in IN as (m & Q & _). injection Q as <- _. exists m. reflexivity.
Qed.
(** Functions whose names fit the limit: formats neither empty nor longer than the limit, and plain texts. *)
Definition fitting (limit : option N) (params : mmap) (a : assign) : Prop :=
  match a_kind a with
  | ARandom => forall k, limit = Some k -> 1 <= k
  | AHash => a_format a <> [] /\ forall k, limit = Some k -> N.of_nat (length (a_format a)) <= k
  | AParam => a_format a <> [] /\ (forall k, limit = Some k -> N.of_nat (length (a_format a)) <= k) /\
              forall item text, In item (a_format a) -> item_text params item text -> plain_text text
  | AEmail => False
  end.
Lemma forall2_length : forall A B (R : A -> B -> Prop) l m, Forall2 R l m -> length l = length m.
Proof. intros A B R l m F. induction F; cbn [length]; congruence. Qed.
Lemma fitting_offers : forall E g params w a ns n kid issuer version, codec_laws E -> fitting (p_maxsuffix (cfp g)) params a ->
  offers1 E params w a ns -> In n ns -> name_policy g ((p_prefix (cfp g) ++ n) ++ [gc (bs "KEY"); kid; issuer; version]).
Proof.
  intros E g params w a ns n kid issuer version LC F O IN.
  assert (G : n <> [] /\ forall k, p_maxsuffix (cfp g) = Some k -> N.of_nat (length n) <= k).
  { destruct O as [fmt m P|fmt P|fmt m P|fmt P|fmt k addr rest m NF Q I2 EN|fmt NO|fmt]; cbn [fitting a_kind a_format] in F; try destruct IN as [<-|[]]; try destruct IN; try destruct F as [].
    - destruct H0 as [L PT]. assert (length m = length fmt) as ->.
      { clear - P PT LC. induction P as [|item text n fmt m T U P IH]; [reflexivity|]. rewrite app_length. cbn [length].
        rewrite IH by (intros it tx I2; apply PT; right; exact I2).
        rewrite (l_uri_comp E LC text) in U by (eapply PT; [left; reflexivity|exact T]). injection U as <-. reflexivity. }
      split; [|exact L]. destruct P as [|item text n fmt m T U P]; [contradiction|].
      rewrite (l_uri_comp E LC text) in U by (eapply PT; [left; reflexivity|exact T]). injection U as <-. discriminate.
    - rewrite <- (forall2_length _ _ _ _ _ P). split; [|exact H0]. intros ->. inversion P; subst. contradiction.
    - split; [discriminate|]. exact F. }
  destruct G as [NE L]. exists n, kid, issuer, version. rewrite <- !app_assoc. auto.
Qed.
Lemma offered_can_be_requested : forall E g params ws ns n kid issuer version, codec_laws E ->
  Forall (fitting (p_maxsuffix (cfp g)) params) (assigns g) -> offers E params (assigns g) ws ns -> In n ns ->
  name_policy g ((p_prefix (cfp g) ++ n) ++ [gc (bs "KEY"); kid; issuer; version]).
Proof.
  intros E g params ws ns n kid issuer version LC F O IN. induction O as [ws|a l ws ms rs K O1 O IH|a l ws ms rs K O1 O IH]; [destruct IN|..];
    inversion F as [|? ? F1 F2]; subst; (apply in_app_or in IN as [IN|IN]; [eapply fitting_offers; eauto|auto]).
Qed.

(** An offered name that cannot be requested: three components where two are allowed. *)
Definition y_new : interest := Eval vm_compute in
  match fst (gen_new toy x_req0 (x_rin x_now 1) (x_prefix ++ [gc (bs "ucla"); gc (bs "cs"); gc (bs "joe"); c_KEY; gc (bs "k1")]) x_sk x_now (x_now + sec 3600)) with
  | Ok (Some i) => i
  | _ => Interest [] None None
  end.
Definition y_decoded : bytes * cert := Eval vm_compute in
  match req_decode toy RT_NEW (params_of y_new) with Ok z => z | _ => ([], x_ca_cert) end.
Definition y_ca : ca_state mem := ca_init mem_ops (bs "key").
Definition y_offer : data := Eval vm_compute in the_put (fst (on_interest toy y_cfg mem_ops y_ca y_inputs (y_probe y_params))).
Definition y_refusal : data := Eval vm_compute in the_put (fst (on_interest toy y_cfg mem_ops y_ca (x_inputs x_now 1) y_new)).
Definition y_joe : name := Eval vm_compute in x_prefix ++ [gc (bs "ucla"); gc (bs "cs"); gc (bs "joe")].
Lemma y_offer_put : on_interest toy y_cfg mem_ops y_ca y_inputs (y_probe y_params) = ([EPut y_offer], Ok tt).
Proof. vm_compute. reflexivity. Qed.
Lemma y_offer_read : probe_decode (d_content y_offer) = Ok (map (fun n => (x_prefix ++ n, 2%Z)) y_names, [full_name toy x_anchor; full_name toy x_cred]).
Proof. vm_compute. reflexivity. Qed.
Lemma y_decoded_ok : req_decode toy RT_NEW (params_of y_new) = Ok (fst y_decoded, snd y_decoded).
Proof. vm_compute. reflexivity. Qed.
Lemma y_refusal_put : on_interest toy y_cfg mem_ops y_ca (x_inputs x_now 1) y_new = ([EPut y_refusal], Ok tt).
Proof. vm_compute. reflexivity. Qed.
Lemma offered_not_requestable : exists g s i x d names rs n k i' x' peer c d',
  reachable toy g mem_ops s /\ on_interest toy g mem_ops s i x = ([EPut d], Ok tt) /\
  probe_decode (d_content d) = Ok (names, rs) /\ In (n, k) names /\
  addressed g VNew (i_name x') /\ carries toy RT_NEW x' peer c /\ identity_of (c_name c) = n /\
  on_interest toy g mem_ops s i' x' = ([EPut d'], Ok tt) /\ error_reply toy g x' NAME_NOT_ALLOWED d'.
Proof.
  exists y_cfg, y_ca, y_inputs, (y_probe y_params), y_offer.
  exists (map (fun n => (x_prefix ++ n, 2%Z)) y_names), [full_name toy x_anchor; full_name toy x_cred], y_joe, 2%Z.
  exists (x_inputs x_now 1), y_new, (fst y_decoded), (snd y_decoded), y_refusal.
  split; [exists (bs "key"), [], []; reflexivity|]. split; [exact y_offer_put|]. split; [exact y_offer_read|].
  split; [right; right; left; reflexivity|]. split; [eexists; vm_compute; reflexivity|].
  split; [apply carries_decode; [left; reflexivity|exact y_decoded_ok]|].
  split; [vm_compute; reflexivity|]. split; [exact y_refusal_put|]. split; [reflexivity|]. split; [vm_compute; reflexivity|]. eexists. vm_compute. reflexivity.
Qed.
