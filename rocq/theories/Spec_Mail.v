(** Vocabulary for the statements about the script that mails the codes. *)
From Verif Require Export MailScript Spec_Trace.
Local Open Scope N_scope.

(** A template and its text: {0}, {1} and {2} stand for the code, the CA and the certificate name, doubled braces for
    single ones. *)
Inductive filled (code ca cert : bytes) : bytes -> bytes -> Prop :=
| fl_end : filled code ca cert [] []
| fl_char : forall c t s, c <> "{"%byte -> c <> "}"%byte -> filled code ca cert t s -> filled code ca cert (c :: t) (c :: s)
| fl_open : forall t s, filled code ca cert t s -> filled code ca cert (bs "{{" ++ t) (bs "{" ++ s)
| fl_close : forall t s, filled code ca cert t s -> filled code ca cert (bs "}}" ++ t) (bs "}" ++ s)
| fl_code : forall t s, filled code ca cert t s -> filled code ca cert (bs "{0}" ++ t) (code ++ s)
| fl_ca : forall t s, filled code ca cert t s -> filled code ca cert (bs "{1}" ++ t) (ca ++ s)
| fl_cert : forall t s, filled code ca cert t s -> filled code ca cert (bs "{2}" ++ t) (cert ++ s).

(** What [str.format] makes of any template: [next] is the index of the next empty field, or [None] if the fields are numbered. *)
Definition nth_value (code ca cert : bytes) (n : N) (v : bytes) : Prop := n = 0 /\ v = code \/ n = 1 /\ v = ca \/ n = 2 /\ v = cert.
Inductive renders (code ca cert : bytes) : option N -> bytes -> bytes -> Prop :=
| rn_end : forall next, renders code ca cert next [] []
| rn_char : forall next c t s, c <> "{"%byte -> c <> "}"%byte -> renders code ca cert next t s -> renders code ca cert next (c :: t) (c :: s)
| rn_open : forall next t s, renders code ca cert next t s -> renders code ca cert next (bs "{{" ++ t) (bs "{" ++ s)
| rn_close : forall next t s, renders code ca cert next t s -> renders code ca cert next (bs "}}" ++ t) (bs "}" ++ s)
| rn_number : forall zeros d n v t s, Forall (eq "0"%byte) zeros -> Byte.to_N d = 48 + n -> nth_value code ca cert n v -> renders code ca cert None t s ->
    renders code ca cert None (bs "{" ++ zeros ++ [d] ++ bs "}" ++ t) (v ++ s)
| rn_next : forall n v t s, nth_value code ca cert n v -> renders code ca cert (Some (n + 1)) t s -> renders code ca cert (Some n) (bs "{}" ++ t) (v ++ s).

(** A word argparse takes for an option. *)
Definition all_digits (s : bytes) : Prop := Forall (fun c => 48 <= Byte.to_N c <= 57) s.
Definition negative_number (a : bytes) : Prop :=
  exists ds, a = bs "-" ++ ds /\ (ds <> [] /\ all_digits ds \/ exists ip fp, ds = ip ++ bs "." ++ fp /\ all_digits ip /\ all_digits fp /\ fp <> []).
Definition option_like (a : bytes) : Prop :=
  (exists rest, a = bs "-h" ++ rest) \/
  (exists rest, a = bs "--" ++ rest /\
     (~ In " "%byte a \/ exists word more, rest = word ++ more /\ (more = [] \/ exists v, more = bs "=" ++ v) /\ exists end_, bs "help" = word ++ end_)) \/
  (exists c rest, a = bs "-" ++ c :: rest /\ c <> "-"%byte /\ ~ negative_number a /\ ~ In " "%byte a).
(** The arguments without options, up to and after the first "--". *)
Inductive arguments : list bytes -> list bytes -> Prop :=
| ar_nil : arguments [] []
| ar_rest : forall l, arguments (bs "--" :: l) l
| ar_one : forall a argv l, a <> bs "--" -> ~ option_like a -> arguments argv l -> arguments (a :: argv) (a :: l).

(** A configuration with all settings. *)
Definition settings (mode server port user password from subject text html : bytes) : mail_conf :=
  MailConf (Some mode) (Some server) (Some port) (Some user) (Some password) (Some from) (Some subject) (Some text) (Some html).

(** [Name::toUri] begins with a slash. *)
Definition rooted_uris (E : env) : Prop := forall n, hd_error (o_to_uri E n) = Some "/"%byte.
(** The connection is encrypted after these actions. *)
Definition encrypted (done : list smtp) : Prop := In SStartTls done \/ exists server port, In (SConnect true server port) done.
(** An action that shows the password or the code. *)
Definition confidential (a : smtp) : Prop := match a with SLogin _ _ | SSend _ _ _ => True | _ => False end.
Definition delivers (a : smtp) : Prop := match a with SSend _ _ _ => True | _ => False end.
