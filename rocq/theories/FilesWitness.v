(** Sample files. *)
From Verif Require Export FilesFacts ConfigWitness TraceWitness.
Local Open Scope N_scope.

Definition f_tree : ptree := k_obj [(bs "anchor-list", k_arr [k_obj [(bs "certificate", k_str (bs "?"))]; k_obj [(bs "certificate", k_str (io_save toy x_anchor))]; k_obj []])].
(** a file as an operator writes it *)
Definition f_file : bytes := Eval vm_compute in
  bs "{ ""anchor-list"": [{""certificate"":""?""} , {""certificate"":""" ++ flat_map js_escape1 (io_save toy x_anchor) ++ bs """ }, {}]}".
Lemma f_reads : read_json f_file = Some f_tree.
Proof. vm_compute. reflexivity. Qed.
Lemma f_anchors : possession_anchors toy (read_json f_file) = Ok [x_anchor].
Proof. rewrite f_reads. vm_compute. reflexivity. Qed.
Lemma f_case : exists r cs, ca_history toy w_cfg mem_ops [w_e1; p_e2] (fst p_ca2) /\ cc_anchors (cf_chal w_cfg) = possession_anchors toy (read_json f_file) /\
  pending mem_ops (fst p_ca2) z_id = Some r /\ rq_cs r = Some cs /\ cs_status cs = bs "need-proof".
Proof.
  do 2 eexists. split; [exact (history_more _ _ _ _ [_] _ _ _ _ w_h1 (some_pair _ _ _ _ p_step2))|]. split; [rewrite f_anchors; reflexivity|]. split; [vm_compute; reflexivity|]. split; reflexivity.
Qed.

(** A tree with an escape of every kind, an array and an empty node *)
Definition f_odd : ptree := k_obj [([], k_arr [k_str (bs "a/""\" ++ [x00; x08; x09; x0a; x0c; x0d; x1f; x7f]); k_str [xc3; xa9]; k_str []]); (bs "k", k_obj [(bs "n", k_str [xf0; x9f; x98; x80]); (bs "k", k_str [])])].
Lemma f_odd_ok : json_tree f_odd /\ utf8_tree f_odd.
Proof. split; [apply json_tree_ok; reflexivity|apply treeb_ok; reflexivity]. Qed.
Lemma f_latin1 : exists t text, json_tree t /\ write_json t = Ok text /\ read_json text = None.
Proof.
  exists (k_obj [(bs "ca-info", k_str [xe9; x20])]). eexists. split; [apply json_tree_ok; reflexivity|]. split; [vm_compute; reflexivity|]. vm_compute. reflexivity.
Qed.
