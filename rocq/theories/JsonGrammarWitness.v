(** Sample texts for C95. *)
From Verif Require Export JsonGrammarFacts ConfigWitness.
Local Open Scope N_scope.

Definition m_file : bytes := Eval vm_compute in
  bs "{ ""ca-prefix"" : ""\/example/ca"", ""ca-info"" : ""\u20AC \ud83d\uDE00"",
  ""max-validity-period"": 3600 , ""max-suffix-length"":null, ""extra"": [ 0 , -1.50e+7, 2E9, true, false, [], {} ],
  ""supported-challenges"" : [ {""challenge"": ""PIN""} ] } ".
Definition m_tree : ptree :=
  k_obj [(bs "ca-prefix", k_str (bs "/example/ca")); (bs "ca-info", k_str [xe2; x82; xac; x20; xf0; x9f; x98; x80]); (bs "max-validity-period", k_str (bs "3600"));
         (bs "max-suffix-length", k_str (bs "null"));
         (bs "extra", k_arr [k_str (bs "0"); k_str (bs "-1.50e+7"); k_str (bs "2E9"); k_str (bs "true"); k_str (bs "false"); PT [] []; PT [] []]);
         (bs "supported-challenges", k_arr [k_obj [(bs "challenge", k_str (bs "PIN"))]])].
Definition m_config : config :=
  Config (Profile k_prefix (k_prefix ++ [gc (bs "CA")]) [xe2; x82; xac; x20; xf0; x9f; x98; x80] [] 3600 None [bs "pin"] None) [] [].
Lemma m_reads : read_json m_file = Some m_tree.
Proof. vm_compute. reflexivity. Qed.
Lemma m_loads : config_load toy (read_json m_file) = Ok m_config.
Proof. rewrite m_reads. vm_compute. reflexivity. Qed.
(** No JSON: nothing at all; a trailing comma; a comment; a bare word; a leading zero; a plus sign; a missing fraction;
    half a surrogate pair; an unknown escape; an open string; two values. *)
Definition m_bad : list bytes :=
  [[]; bs "{""a"":1,}"; bs "[1] // one"; bs "{a:1}"; bs "01"; bs "+1"; bs "1."; bs """\ud83d"""; bs """\x41"""; bs """abc"; bs "[] []"].
Lemma m_refused : forallb (fun s => match read_json s with None => true | Some _ => false end) m_bad = true.
Proof. vm_compute. reflexivity. Qed.
Lemma m_no_text : Forall (fun s => forall t, ~ json_text s t) m_bad.
Proof.
  apply Forall_forall. intros s I t T. apply read_json_iff in T. pose proof (proj1 (forallb_forall _ _) m_refused s I) as H. cbv beta in H. rewrite T in H. discriminate.
Qed.
Lemma m_written : exists t s, write_json t = Ok s /\ utf8_tree t /\ pt_children t <> [].
Proof. exists m_tree. eexists. split; [vm_compute; reflexivity|]. split; [apply treeb_ok; vm_compute; reflexivity|discriminate]. Qed.
