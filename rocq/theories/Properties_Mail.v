(** C102: the script that mails the codes. *)
From Verif Require Import MailFacts MailWitness.
Local Open Scope N_scope.

(** ** C102: the mail *)
(** With complete settings, run on the CA's command line, the script sends one mail: to the address given, with the templates filled with
    the code of the challenge, the CA and the certificate name.  The address has no quote or NUL and does not begin with a hyphen. *)
Theorem C102_mail_partial : forall E script addr ws code r mode server port user password from subject tt th text html, codec_laws E -> rooted_uris E ->
  script <> [] -> ~ In x22 script -> ~ In x20 script -> ~ In x22 addr -> ~ In x00 addr -> hd_error addr <> Some "-"%byte -> gen_code ws = Ok code ->
  filled code (o_to_uri E (rq_prefix r)) (o_to_uri E (c_name (rq_cert r))) tt text ->
  filled code (o_to_uri E (rq_prefix r)) (o_to_uri E (c_name (rq_cert r))) th html ->
  exists args before, build_args (email_command E script addr code r) = Ok (script :: args) /\
    mail_script (settings mode server port user password from subject tt th) args = before ++ [SSend from addr (Mail from addr subject text html); SClose] /\
    ~ Exists delivers before.
Proof. exact mails_code. Qed.
Print Assumptions C102_mail_partial.
Example C102_case : codec_laws toy /\ rooted_uris toy /\ ~ In x22 (bs "alice@example.com") /\ hd_error (bs "alice@example.com") <> Some "-"%byte /\ gen_code [12345680] = Ok x_code /\
  filled x_code (bs "/ndn") (bs "/ndn/alice/KEY/1/self/1") (bs "PIN code: {0} from CA {1} for {2}.") (bs "PIN code: " ++ x_code ++ bs " from CA /ndn for /ndn/alice/KEY/1/self/1.") /\
  mail_script (ms_conf (bs "tls")) ms_args = [SConnect false (bs "mail.example") (bs "587"); SEhlo; SStartTls; SLogin (bs "robot") (bs "secret");
    SSend (bs "noreply@example") (bs "alice@example.com") (Mail (bs "noreply@example") (bs "alice@example.com") (bs "Challenge")
      (bs "PIN code: 123456 from CA /ndn for /ndn/alice/KEY/1/self/1.") (bs "<b>123456</b>")); SClose].
Proof.
  split; [exact (laws_codec toy toy_laws)|]. split; [exact toy_rooted|]. split; [cbn; intros H; repeat (destruct H as [H|H]; [discriminate|]); exact H|].
  split; [discriminate|]. split; [vm_compute; reflexivity|]. split; [exact (ms_text_filled x_code (bs "/ndn") (bs "/ndn/alice/KEY/1/self/1"))|vm_compute; reflexivity].
Qed.
(** Whatever the arguments: at most one mail, to one recipient, the one in its header and one of the arguments. *)
Theorem C102_one : forall k argv a from rcpt m b, mail_script k argv = a ++ SSend from rcpt m :: b ->
  ~ Exists delivers (a ++ b) /\ rcpt = ml_to m /\ from = ml_from m /\ mc_from k = Some from /\ mc_subject k = Some (ml_subject m) /\ exists arg, In arg argv /\ rcpt = cstr arg.
Proof. exact one_mail. Qed.
Print Assumptions C102_one.
(** Exactly when the script sends a mail, and which one: the four arguments left after argparse are the address, the code, the CA and the
    certificate name, no setting is missing, and both templates have a text. *)
Theorem C102_exact : forall k argv m, (exists from rcpt, In (SSend from rcpt m) (mail_script k argv)) <->
  exists email code ca cert mode server port user password from subject t h text html, arguments (map cstr argv) [email; code; ca; cert] /\
    k = settings mode server port user password from subject t h /\ (renders code ca cert None t text \/ renders code ca cert (Some 0) t text) /\
    (renders code ca cert None h html \/ renders code ca cert (Some 0) h html) /\ m = Mail from email subject text html.
Proof. exact mail_iff. Qed.
Print Assumptions C102_exact.
(** "--" lets any address through; fields may be numbered with leading zeros, or empty, but not both. *)
Example C102_exact_case : arguments ([bs "--"; ms_dash] ++ tl ms_args) (ms_dash :: tl ms_args) /\ option_like ms_dash /\ ~ option_like (bs "-1.5") /\
  renders x_code (bs "/ndn") (bs "/c") None (bs "{00}{{{2}") (x_code ++ bs "{/c") /\ renders x_code (bs "/ndn") (bs "/c") (Some 0) (bs "{} {}") (x_code ++ bs " /ndn") /\
  format (bs "{0} {}") x_code (bs "/ndn") (bs "/c") = None.
Proof.
  split; [constructor|]. split; [apply option_iff; reflexivity|]. split; [intros H; apply option_iff in H; discriminate H|].
  split; [|split; [|reflexivity]].
  - apply (rn_number _ _ _ [x30] x30 0 x_code (bs "{{{2}")); [repeat constructor|reflexivity|left; split; reflexivity|]. apply (rn_open _ _ _ None (bs "{2}") (bs "/c")).
    apply (rn_number _ _ _ [] x32 2 (bs "/c") [] []); [constructor|reflexivity|right; right; split; reflexivity|constructor].
  - apply (rn_next _ _ _ 0 x_code (bs " {}")); [left; split; reflexivity|]. apply (rn_char _ _ _ (Some 1) x20 (bs "{}") (bs "/ndn")); [discriminate|discriminate|].
    apply (rn_next _ _ _ 1 (bs "/ndn") [] []); [right; left; split; reflexivity|constructor].
Qed.
(** In the modes "ssl" and "tls" the password and the code go over an encrypted connection. *)
Theorem C102_private_partial : forall k argv a x b, mc_mode k = Some (bs "ssl") \/ mc_mode k = Some (bs "tls") ->
  mail_script k argv = a ++ x :: b -> confidential x -> encrypted a.
Proof. exact kept_private. Qed.
Print Assumptions C102_private_partial.
Theorem C102_login : forall k argv user password, In (SLogin user password) (mail_script k argv) ->
  mc_user k = Some user /\ mc_password k = Some password /\ user <> [] /\ password <> [].
Proof. exact logs_in. Qed.
Print Assumptions C102_login.
(** Any other word than "ssl", "tls" and "none", for example "TLS", is taken for no encryption without a complaint. *)
Theorem C102_private_refuted : exists k argv a user password b, mc_mode k = Some (bs "TLS") /\ mail_script k argv = a ++ SLogin user password :: b /\ ~ encrypted a.
Proof. exact in_the_clear. Qed.
Print Assumptions C102_private_refuted.
(** A valid address that begins with a hyphen: the CA waits for a code, but the script takes the address for an option and mails nothing. *)
Theorem C102_mail_refuted : exists g tr st s id r cs addr cmd script args, ca_history toy g mem_ops (tr ++ [st]) s /\ pending mem_ops s id = Some r /\ rq_cs r = Some cs /\
  cs_status cs = bs "need-code" /\ In (EEmail cmd) (h_effs st) /\ build_args cmd = Ok (script :: addr :: args) /\ is_valid_email addr = true /\
  forall k, mail_script k (addr :: args) = [].
Proof. exact waits_unmailed. Qed.
Print Assumptions C102_mail_refuted.
(** An address with quotes lets a requester send a text of their choice, in the CA's name and unescaped, to anybody. *)
Theorem C102_text_refuted : exists g tr st s cmd script args k from m rest, ca_history toy g mem_ops (tr ++ [st]) s /\ In (EEmail cmd) (h_effs st) /\ build_args cmd = Ok (script :: args) /\
  In (SSend from (bs "bob@b.c") m) (mail_script k args) /\ ml_text m = bs "PIN code: see http://evil from CA /ndn for " ++ rest /\ ml_html m = bs "<b>see http://evil</b>".
Proof. exact chosen_text. Qed.
Print Assumptions C102_text_refuted.
