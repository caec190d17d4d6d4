(** C102: settings like the sample's, and addresses that mislead the script. *)
From Verif Require Export MailFacts TraceWitness.
From Verif Require Import CaFacts.
Local Open Scope N_scope.

Definition ms_text : bytes := bs "PIN code: {0} from CA {1} for {2}.".
Definition ms_html : bytes := bs "<b>{0}</b>".
Definition ms_conf (mode : bytes) : mail_conf := settings mode (bs "mail.example") (bs "587") (bs "robot") (bs "secret") (bs "noreply@example") (bs "Challenge") ms_text ms_html.
Lemma toy_rooted : rooted_uris toy.
Proof. intros [|c n]; reflexivity. Qed.
Lemma ms_text_filled : forall code ca cert, filled code ca cert ms_text (bs "PIN code: " ++ code ++ bs " from CA " ++ ca ++ bs " for " ++ cert ++ bs ".").
Proof. intros. unfold ms_text. cbn [bs String.list_byte_of_string app]. repeat (apply fl_char; [discriminate|discriminate|]). apply (fl_code code ca cert). repeat (apply fl_char; [discriminate|discriminate|]). apply (fl_ca code ca cert). repeat (apply fl_char; [discriminate|discriminate|]). apply (fl_cert code ca cert). repeat (apply fl_char; [discriminate|discriminate|]). apply fl_end. Qed.
Lemma ms_html_filled : forall code ca cert, filled code ca cert ms_html (bs "<b>" ++ code ++ bs "</b>").
Proof. intros. unfold ms_html. cbn [bs String.list_byte_of_string app]. repeat (apply fl_char; [discriminate|discriminate|]). apply (fl_code code ca cert). repeat (apply fl_char; [discriminate|discriminate|]). apply fl_end. Qed.

(** A valid address that argparse takes for an option. *)
Definition ms_dash : bytes := bs "-a@b.c".
Definition ms_chal := Eval vm_compute in z_chal [] [Tlv T_SelectedChallenge (bs "email"); Tlv T_ParameterKey (bs "email"); Tlv T_ParameterValue ms_dash].
Definition ms_ca2 := Eval vm_compute in w_go (fst w_ca1) (x_inputs (x_now + sec 10) 2) (fst ms_chal).
Lemma ms_step2 : step toy w_cfg mem_ops (fst w_ca1) (EvInterest (x_inputs (x_now + sec 10) 2) (fst ms_chal)) = Some ms_ca2.
Proof. vm_compute. reflexivity. Qed.
Definition ms_e2 := HStep (fst w_ca1) (EvInterest (x_inputs (x_now + sec 10) 2) (fst ms_chal)) (snd ms_ca2) (fst ms_ca2).
Lemma ms_h2 : ca_history toy w_cfg mem_ops ([w_e1] ++ [ms_e2]) (fst ms_ca2).
Proof. exact (history_more _ _ _ _ [_] _ _ _ _ w_h1 (some_pair _ _ _ _ ms_step2)). Qed.
Definition the_cmd (es : list eff) : bytes := match es with EEmail c :: _ => c | _ => [] end.
Lemma waits_unmailed : exists g tr st s id r cs addr cmd script args, ca_history toy g mem_ops (tr ++ [st]) s /\ pending mem_ops s id = Some r /\ rq_cs r = Some cs /\
  cs_status cs = bs "need-code" /\ In (EEmail cmd) (h_effs st) /\ build_args cmd = Ok (script :: addr :: args) /\ is_valid_email addr = true /\
  forall k, mail_script k (addr :: args) = [].
Proof.
  exists w_cfg, [w_e1], ms_e2, (fst ms_ca2), z_id, (pending_of (fst ms_ca2) z_id). eexists. exists ms_dash, (the_cmd (snd ms_ca2)), (bs "send.sh"), [x_code; o_to_uri toy x_prefix; o_to_uri toy (c_name x_creq)].
  split; [exact ms_h2|]. split; [vm_compute; reflexivity|]. split; [vm_compute; reflexivity|]. split; [vm_compute; reflexivity|]. split; [left; reflexivity|]. split; [vm_compute; reflexivity|]. split; [vm_compute; reflexivity|].
  intros k. vm_compute. reflexivity.
Qed.

(** An address that leaves the quotes open: the rest of the command line becomes the last argument. *)
Definition ms_evil : bytes := bs "bob@b.c" ++ DQ ++ bs " " ++ DQ ++ bs "see http://evil" ++ DQ ++ bs " " ++ DQ ++ bs "/ndn" ++ DQ ++ bs " ".
Definition ms_chal2 := Eval vm_compute in z_chal [] [Tlv T_SelectedChallenge (bs "email"); Tlv T_ParameterKey (bs "email"); Tlv T_ParameterValue ms_evil].
Definition ms_ca3 := Eval vm_compute in w_go (fst w_ca1) (x_inputs (x_now + sec 10) 2) (fst ms_chal2).
Lemma ms_step3 : step toy w_cfg mem_ops (fst w_ca1) (EvInterest (x_inputs (x_now + sec 10) 2) (fst ms_chal2)) = Some ms_ca3.
Proof. vm_compute. reflexivity. Qed.
Definition ms_e3 := HStep (fst w_ca1) (EvInterest (x_inputs (x_now + sec 10) 2) (fst ms_chal2)) (snd ms_ca3) (fst ms_ca3).
Lemma ms_h3 : ca_history toy w_cfg mem_ops ([w_e1] ++ [ms_e3]) (fst ms_ca3).
Proof. exact (history_more _ _ _ _ [_] _ _ _ _ w_h1 (some_pair _ _ _ _ ms_step3)). Qed.
Definition the_args (cmd : bytes) : list bytes := match build_args cmd with Ok (_ :: l) => l | _ => [] end.
Definition the_mail (l : list smtp) : mail := match rev l with _ :: SSend _ _ m :: _ => m | _ => Mail [] [] [] [] [] end.
Lemma chosen_text : exists g tr st s cmd script args k from m rest, ca_history toy g mem_ops (tr ++ [st]) s /\ In (EEmail cmd) (h_effs st) /\ build_args cmd = Ok (script :: args) /\
  In (SSend from (bs "bob@b.c") m) (mail_script k args) /\ ml_text m = bs "PIN code: see http://evil from CA /ndn for " ++ rest /\ ml_html m = bs "<b>see http://evil</b>".
Proof.
  exists w_cfg, [w_e1], ms_e3, (fst ms_ca3), (the_cmd (snd ms_ca3)), (bs "send.sh"), (the_args (the_cmd (snd ms_ca3))), (ms_conf (bs "tls")), (bs "noreply@example"), (the_mail (mail_script (ms_conf (bs "tls")) (the_args (the_cmd (snd ms_ca3))))).
  exists (skipn 43 (ml_text (the_mail (mail_script (ms_conf (bs "tls")) (the_args (the_cmd (snd ms_ca3))))))).
  split; [exact ms_h3|]. split; [left; reflexivity|]. split; [vm_compute; reflexivity|]. split; [vm_compute; do 4 right; left; reflexivity|]. split; vm_compute; reflexivity.
Qed.

Definition ms_args : list bytes := [bs "alice@example.com"; bs "123456"; bs "/ndn"; bs "/ndn/alice/KEY/1/self/1"].
Lemma in_the_clear : exists k argv a user password b, mc_mode k = Some (bs "TLS") /\ mail_script k argv = a ++ SLogin user password :: b /\ ~ encrypted a.
Proof.
  exists (ms_conf (bs "TLS")), ms_args, [SConnect false (bs "mail.example") (bs "587"); SEhlo], (bs "robot"), (bs "secret"). eexists.
  split; [reflexivity|]. split; [vm_compute; reflexivity|]. intros [[Q|[Q|[]]]|(server & port & [Q|[Q|[]]])]; discriminate Q.
Qed.
