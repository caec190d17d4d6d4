(** The JSON texts ndncert reads: theorem C95.  Vocabulary in Spec_JsonGrammar.v and Spec_Config.v. *)
From Verif Require Import JsonGrammarWitness.
Local Open Scope N_scope.

(** ** C95: files are read as JSON, no more and no less *)
(** [json_text s t]: by the grammar of RFC 8259, the text [s] stands for the tree [t].  Deviations: a string may contain
    control characters and ill-formed UTF-8 such as overlong forms. *)
Theorem C95_read : forall s t, read_json s = Some t <-> json_text s t.
Proof. exact read_json_iff. Qed.
Print Assumptions C95_read.
Example C95_read_case : json_text m_file m_tree /\ Forall (fun s => forall t, ~ json_text s t) m_bad.
Proof. exact (conj (proj1 (read_json_iff _ _) m_reads) m_no_text). Qed.
(** A text has one meaning. *)
Theorem C95_unambiguous : forall s t t', json_text s t -> json_text s t' -> t = t'.
Proof. exact json_unambiguous. Qed.
Print Assumptions C95_unambiguous.
(** What is written is JSON for the tree written. *)
Theorem C95_written : forall t s, write_json t = Ok s -> utf8_tree t -> json_text s t.
Proof. exact written_json. Qed.
Print Assumptions C95_written.
Example C95_written_case : exists t s, write_json t = Ok s /\ utf8_tree t /\ pt_children t <> [].
Proof. exact m_written. Qed.
(** The CA starts with configuration [c] iff its configuration file is a JSON text with the fields of [c]. *)
Theorem C95_configuration : forall E file c, config_load E (read_json file) = Ok c <-> exists j, json_text file j /\ config_read E j c.
Proof. exact configuration_text. Qed.
Print Assumptions C95_configuration.
Example C95_configuration_case : config_load toy (read_json m_file) = Ok m_config.
Proof. exact m_loads. Qed.
