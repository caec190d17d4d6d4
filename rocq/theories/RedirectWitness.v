(** A client that one CA sends to another: the example CA redirects addresses at "example" to a second CA. *)
From Verif Require Export RedirectFacts ClientSessionWitness PolicyWitness.
From Verif Require Import PolicyFacts.
Local Open Scope N_scope.

Definition rd_prefix : name := [gc (bs "ndn"); gc (bs "far")].
Definition rd_sk : bytes := bs "far signing key".
Definition rd_keyloc : name := rd_prefix ++ [c_KEY; gc (bs "k0")].
Definition rd_cert : cert := Eval vm_compute in x_self rd_sk rd_keyloc 0 1000000000.
Definition rd_near : ca_cfg :=
  CaCfg (Config x_profile [(Some rd_cert, PEmail (bs "example")); (Some x_cred, PParam [(bs "name", bs "bob")]); (Some x_anchor, PParam [])] [Assign AParam [bs "name"]])
        (ChalCfg (bs "send.sh") (Ok [x_anchor])) x_ca_cert x_ca_sk x_keyloc.
Definition rd_far : ca_cfg :=
  CaCfg (Config (Profile rd_prefix [gc (bs "edge")] (bs "Far CA") [bs "name"; bs "staff"] 864000 (Some 2) [CH_PIN; CH_EMAIL] (Some rd_cert)) [] [Assign AParam [bs "name"]])
        (ChalCfg (bs "send.sh") (Ok [x_anchor])) rd_cert rd_sk rd_keyloc.
Definition rd_full : name := full_name toy rd_cert.
Lemma rd_proper : proper_targets rd_near.
Proof.
  intros c p [Q|[Q|[Q|[]]]]; injection Q as <- _; [exists rd_prefix|exists [gc (bs "org"); gc (bs "bob")]|exists [gc (bs "org")]]; do 3 eexists; vm_compute; reflexivity.
Qed.
Lemma rd_follows : exists h c x, client_run toy w_file [] h c (NWait x (WProbe u_profile)) /\ p_prefix u_profile = p_prefix (cfp rd_near) /\ p_cert u_profile = Some x_ca_cert /\ public_key x_ca_cert = o_pub toy (cf_sk rd_near) /\
  cl_probe c = Some u_params /\ Forall (fun kv => fits (fst kv) /\ fits (snd kv)) u_params /\ targets toy u_params (cf_redirect (cf rd_near)) [rd_full; full_name toy x_anchor] /\
  offers toy u_params (assigns rd_near) (in_words64 (x_inputs x_now 1)) [[gc (bs "alice")]] /\ Forall (probe_fits (p_maxsuffix (cfp rd_near))) (map (app (p_prefix (cfp rd_near))) [[gc (bs "alice")]]) /\
  Forall name_fits [rd_full; full_name toy x_anchor] /\ proper_targets rd_near /\ chooses [bs "0"] [rd_full; full_name toy x_anchor] rd_full [] /\ ca_named rd_prefix rd_cert.
Proof.
  exists w_h2, (fst w_2), (w_sent w_2). split; [exact w_run_2|]. split; [reflexivity|]. split; [reflexivity|]. split; [reflexivity|]. split; [reflexivity|].
  split; [meets|]. split; [apply targets_iff; vm_compute; reflexivity|]. split; [apply suffixes_offers; vm_compute; reflexivity|].
  split; [constructor; [split; meets|constructor]|]. split; [constructor; [meets|constructor; [meets|constructor]]|]. split; [exact rd_proper|].
  split; [eapply ch_number with (v := 0); [cbn; lia|reflexivity|reflexivity|reflexivity]|]. do 3 eexists. vm_compute. reflexivity.
Qed.
Lemma rd_publishable : publishable toy rd_far.
Proof.
  unfold publishable. split; [meets|]. split; [meets|]. split; [meets|]. split; [repeat constructor; meets|]. split; [intros k H; injection H as <-; meets|]. split; [left; discriminate|]. split; [split; meets|]. meets.
Qed.
Definition rd_ca0 : ca_state db := ca_init (db_ops toy) (bs "far id key").
Lemma rd_arrives : exists h c x n last, reachable toy rd_far (db_ops toy) rd_ca0 /\ p_prefix (cfp rd_far) = n ++ [last] /\ t_val last <> bs "CA" /\ in_mversion (x_inputs x_now 1) < 2 ^ 64 /\ publishable toy rd_far /\
  client_run toy w_file [] h c (NWait x (WMeta (full_name toy (cf_cert rd_far)))) /\ gen_discovery (p_prefix (cfp rd_far)) = Ok x /\ cl_probe c = Some u_params.
Proof.
  destruct rd_follows as (h & c & x & R & PX & PC & PK & PM & F & TG & OF & PF & NF & PT & CH & CN).
  destruct (follows toy rd_near db (db_ops toy) w_file [] h c x u_profile x_ca_cert u_params x_ca0 (x_inputs x_now 1) (w_ci 3 [bs "0"]) [rd_full; full_name toy x_anchor] [[gc (bs "alice")]] rd_prefix rd_cert [] [gc (bs "ndn")] (gc (bs "far"))) as (d & x' & _ & GD & R');
    try assumption; try reflexivity; try discriminate.
  - apply toy_laws.
  - intros k Q. injection Q as <-. reflexivity.
  - exists ((w_ci 3 [bs "0"], Some (CData d)) :: h), c, x', [gc (bs "ndn")], (gc (bs "far")).
    split; [exists (bs "far id key"), [], []; reflexivity|]. split; [reflexivity|]. split; [discriminate|]. split; [reflexivity|]. split; [exact rd_publishable|]. split; [exact R'|]. split; [exact GD|exact PM].
Qed.
(** The run.  The second CA wants to know a staff number, which the client does not ask for. *)
Definition rd_go (g : ca_cfg) (s : ca_state db) (x : interest) : ca_state db * list eff :=
  match step toy g (db_ops toy) s (EvInterest (x_inputs x_now 1) x) with Some r => r | None => (s, []) end.
Definition rd_last (es : list eff) : data := the_put (rev es).
Definition rd_e3 : cinputs * clevent := Eval vm_compute in (w_ci 3 [bs "0"], CData (rd_last (snd (rd_go rd_near x_ca0 (w_sent w_2))))).
Definition rd_3 : client * cnext := Eval vm_compute in w_play1 w_2 rd_e3.
Definition rd_ca1 := Eval vm_compute in rd_go rd_far rd_ca0 (w_sent rd_3).
Definition rd_e4 : cinputs * clevent := Eval vm_compute in (w_ci 4 [], CData (rd_last (snd rd_ca1))).
Definition rd_4 : client * cnext := Eval vm_compute in w_play1 rd_3 rd_e4.
Definition rd_e5 : cinputs * clevent := Eval vm_compute in (w_ci 5 [], CData (match ca_prof (fst rd_ca1) with Some d => d | None => y_profile end)).
Definition rd_5 : client * cnext := Eval vm_compute in w_play1 rd_4 rd_e5.
Definition rd_h5 : history := (fst rd_e5, Some (snd rd_e5)) :: (fst rd_e4, Some (snd rd_e4)) :: (fst rd_e3, Some (snd rd_e3)) :: w_h2.
Definition rd_profile : profile := Eval vm_compute in match snd rd_5 with NWait _ (WProbe p) => p | _ => x_profile end.
Lemma rd_run : client_run toy w_file [] rd_h5 (fst rd_5) (snd rd_5).
Proof.
  assert (R3 : client_run toy w_file [] ((fst rd_e3, Some (snd rd_e3)) :: w_h2) (fst rd_3) (snd rd_3)) by w_step w_run_2.
  assert (R4 : client_run toy w_file [] ((fst rd_e4, Some (snd rd_e4)) :: (fst rd_e3, Some (snd rd_e3)) :: w_h2) (fst rd_4) (snd rd_4)) by w_step R3.
  w_step R4.
Qed.
Lemma rd_not_asked : exists h c x p m k, client_run toy w_file [] h c (NWait x (WProbe p)) /\ p_cert p = Some rd_cert /\ cl_probe c = Some m /\ In k (p_probe_keys p) /\ ~ In k (map fst m).
Proof.
  exists rd_h5, (fst rd_5), (w_sent rd_5), rd_profile, u_params, (bs "staff"). split; [exact rd_run|]. split; [reflexivity|]. split; [reflexivity|]. split; [right; left; reflexivity|].
  vm_compute. intros [Q|[Q|[]]]; discriminate.
Qed.
(** From there the client applies to the second CA. *)
Lemma rd_applies : exists h c x, client_run toy w_file [] h c (NWait x (WProbe rd_profile)) /\ p_prefix rd_profile = p_prefix (cfp rd_far) /\ p_cert rd_profile = Some rd_cert /\ public_key rd_cert = o_pub toy (cf_sk rd_far) /\
  cl_probe c = Some u_params /\ targets toy u_params (cf_redirect (cf rd_far)) [] /\ offers toy u_params (assigns rd_far) (in_words64 (x_inputs x_now 1)) [[gc (bs "alice")]] /\
  picks [] (w_ci 6 [bs "1"]) [] (p_prefix (cfp rd_far) ++ [gc (bs "alice")]) (gc (bs "k1")) x_sk.
Proof.
  exists rd_h5, (fst rd_5), (w_sent rd_5). split; [exact rd_run|]. split; [reflexivity|]. split; [reflexivity|]. split; [reflexivity|]. split; [reflexivity|]. split; [constructor|].
  split; [apply suffixes_offers; vm_compute; reflexivity|]. apply pk_identity. reflexivity.
Qed.
