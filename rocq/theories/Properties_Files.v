(** The texts ndncert writes and reads: theorems C79-C81.  Vocabulary in Spec_JsonText.v and Spec_Files.v. *)
From Verif Require Import FilesWitness.
Local Open Scope N_scope.

(** ** C79: what is written as JSON is read back *)
(** [json_tree]: no node has a value and children, and the root has no value.  [utf8_tree]: every text in it has the
    shape of UTF-8. *)
Theorem C79_read_back : forall t, json_tree t -> utf8_tree t -> exists text, write_json t = Ok text /\ read_json text = Some t.
Proof. exact (fun t J U => match json_back t J with ex_intro _ text (conj W (conj R _)) => ex_intro _ text (conj W (R U)) end). Qed.
Print Assumptions C79_read_back.
Example C79_case : json_tree f_odd /\ utf8_tree f_odd.
Proof. exact f_odd_ok. Qed.
(** Any other text is written, but the reader throws; any other tree is not written. *)
Theorem C79_not_utf8 : forall t, json_tree t -> ~ utf8_tree t -> exists text, write_json t = Ok text /\ read_json text = None.
Proof. exact (fun t J N => match json_back t J with ex_intro _ text (conj W (conj _ R)) => ex_intro _ text (conj W (R N)) end). Qed.
Print Assumptions C79_not_utf8.
Theorem C79_not_json : forall t, ~ json_tree t -> write_json t = Exn.
Proof. exact json_refused. Qed.
Print Assumptions C79_not_json.
Example C79_other_cases : (exists t text, json_tree t /\ write_json t = Ok text /\ read_json text = None) /\ ~ json_tree (pt_leaf (bs "x")).
Proof. split; [exact f_latin1|intros [H _]; discriminate H]. Qed.

(** ** C80: the secrets of a challenge survive the database *)
Theorem C80_secrets : forall E g S (ops : store_ops S) tr s id r cs, ca_history E g ops tr s -> pending ops s id = Some r -> rq_cs r = Some cs ->
  exists text, write_json (secrets_tree (cs_secrets cs)) = Ok text /\ read_json text = Some (secrets_tree (cs_secrets cs)).
Proof. exact secrets_readable. Qed.
Print Assumptions C80_secrets.
Example C80_case : exists r cs, ca_history toy w_cfg mem_ops [w_e1; p_e2] (fst p_ca2) /\ cc_anchors (cf_chal w_cfg) = possession_anchors toy (read_json f_file) /\
  pending mem_ops (fst p_ca2) z_id = Some r /\ rq_cs r = Some cs /\ cs_status cs = bs "need-proof".
Proof. exact f_case. Qed.

(** ** C81: the trust anchors are those of the configuration file *)
Theorem C81_anchors : forall E j l, possession_anchors E (Some j) = Ok l <-> exists t, first_child j (bs "anchor-list") t /\ certificates_in E (pt_children t) l.
Proof. exact anchors_iff. Qed.
Print Assumptions C81_anchors.
Theorem C81_otherwise : forall E file, (forall l, possession_anchors E file <> Ok l) -> possession_anchors E file = Exn.
Proof. exact anchors_throw. Qed.
Print Assumptions C81_otherwise.
(** A request waits for a proof only for a credential that an anchor listed in the file has signed. *)
Theorem C81_vouched : forall E g S (ops : store_ops S) tr s id r cs file, ca_history E g ops tr s -> cc_anchors (cf_chal g) = possession_anchors E (read_json file) ->
  pending ops s id = Some r -> rq_cs r = Some cs -> cs_status cs = bs "need-proof" ->
  exists c anchor loc, sec_get (bs "issued-cert") (cs_secrets cs) = Some (to_hex (enc_tlv (cert_tlv E c))) /\
    lists_anchor E file anchor /\ c_keyloc c = Some loc /\ (key_name_of (c_name anchor) = loc \/ c_name anchor = loc) /\ cert_signed_by E c (public_key anchor).
Proof. exact vouched. Qed.
Print Assumptions C81_vouched.
(** A file with an entry that holds no certificate, one with the anchor, and an empty one. *)
Example C81_case : possession_anchors toy (read_json f_file) = Ok [x_anchor] /\ possession_anchors toy None = Exn /\ exists r cs, ca_history toy w_cfg mem_ops [w_e1; p_e2] (fst p_ca2) /\
  cc_anchors (cf_chal w_cfg) = possession_anchors toy (read_json f_file) /\ pending mem_ops (fst p_ca2) z_id = Some r /\ rq_cs r = Some cs /\ cs_status cs = bs "need-proof".
Proof. exact (conj f_anchors (conj eq_refl f_case)). Qed.

(** ** C50: saved profile lists can be loaded again *)
(** The file that is saved is JSON, and loading it throws. *)
Theorem C50_text_refuted : forall E l, exists text, write_json (store_save E l) = Ok text /\ store_load E (read_json text) = Exn.
Proof. exact saved_text. Qed.
Print Assumptions C50_text_refuted.
