(** The script ndncert ships for the email challenge (ndncert-send-email-challenge.py).  Strings are bytes; what
    argparse, configparser, str.format and smtplib do follows Python 3.8. *)
From Verif Require Export EmailScript.
Local Open Scope N_scope.

(** ** Arguments: [argparse] with four positional arguments and -h/--help (lines 13-18) *)
Definition ascii_digit (c : byte) : bool := in_range x30 x39 c.
(** [_negative_number_matcher]: ^-\d+$|^-\d*\.\d+$ (ASCII digits only). *)
Definition neg_number (a : bytes) : bool :=
  match a with
  | x2d :: r => rx_match (RAlt (RPlus (RChar ascii_digit)) (RSeq (RStar (RChar ascii_digit)) (RSeq (RChar (byte_eqb x2e)) (RPlus (RChar ascii_digit))))) r
  | _ => false
  end.
Fixpoint before_eq (a : bytes) : bytes :=
  match a with
  | [] => []
  | c :: a' => if byte_eqb c x3d then [] else c :: before_eq a'
  end.
Fixpoint starts_with (p a : bytes) : bool :=
  match p, a with
  | [], _ => true
  | x :: p', y :: a' => byte_eqb x y && starts_with p' a'
  | _ :: _, [] => false
  end.
(** [_parse_optional]: the arguments taken for options.  None of them leads to a mail: -h prints a help text, all
    others are errors. *)
Definition is_option (a : bytes) : bool :=
  match a with
  | x2d :: c :: _ =>
      if byte_eqb c x68 then true
      else if byte_eqb c x2d then starts_with (before_eq a) (bs "--help") || negb (existsb (byte_eqb x20) a)
      else negb (neg_number a || existsb (byte_eqb x20) a)
  | _ => false
  end.
(** [parse_args]: [--] ends the options. *)
Fixpoint positionals (argv : list bytes) : option (list bytes) :=
  match argv with
  | [] => Some []
  | a :: r => if bytes_eqb a (bs "--") then Some r
              else if is_option a then None
              else match positionals r with Some l => Some (a :: l) | None => None end
  end.

(** ** Configuration (lines 21-34): what [ConfigParser.get] returns, if it does not throw *)
Record mail_conf : Type := MailConf {
  mc_mode : option bytes;      (* ENCRYPT_MODE *)
  mc_server : option bytes;
  mc_port : option bytes;
  mc_user : option bytes;
  mc_password : option bytes;
  mc_from : option bytes;
  mc_subject : option bytes;
  mc_text : option bytes;      (* TEXT_TEMPLATE *)
  mc_html : option bytes       (* HTML_TEMPLATE *)
}.

(** ** [str.format] (lines 35-36)
    A field is an index or empty (the next index); fields with conversions, format specifications or attributes are
    left out (no text). *)
Inductive piece : Type :=
| PText (c : byte)
| PField (f : bytes).
Inductive fstate : Type :=
| FText                  (* between fields *)
| FOpen                  (* after an opening brace *)
| FField (acc : bytes)   (* in a field, last character first *)
| FClose.                (* after a closing brace outside a field *)
Definition cons_piece (p : piece) (o : option (list piece)) : option (list piece) :=
  match o with Some l => Some (p :: l) | None => None end.
Fixpoint format_pieces (t : bytes) (st : fstate) : option (list piece) :=
  match t with
  | [] => match st with FText => Some [] | _ => None end
  | c :: t' =>
      match st with
      | FText => if byte_eqb c x7b then format_pieces t' FOpen
                 else if byte_eqb c x7d then format_pieces t' FClose
                 else cons_piece (PText c) (format_pieces t' FText)
      | FOpen => if byte_eqb c x7b then cons_piece (PText x7b) (format_pieces t' FText)
                 else if byte_eqb c x7d then cons_piece (PField []) (format_pieces t' FText)
                 else format_pieces t' (FField [c])
      | FField acc => if byte_eqb c x7d then cons_piece (PField (rev acc)) (format_pieces t' FText)
                      else if byte_eqb c x7b then None
                      else format_pieces t' (FField (c :: acc))
      | FClose => if byte_eqb c x7d then cons_piece (PText x7d) (format_pieces t' FText) else None
      end
  end.
Definition field_index (f : bytes) : option N :=
  if forallb ascii_digit f then Some (fold_left (fun n c => 10 * n + (Byte.to_N c - 48)) f 0) else None.
Definition pick (a0 a1 a2 : bytes) (n : N) : option bytes :=
  if n =? 0 then Some a0 else if n =? 1 then Some a1 else if n =? 2 then Some a2 else None.
(** [next]: the index of the next empty field; [manual]: a numbered one was seen.
    Mixing both is an error. *)
Fixpoint fill_pieces (a0 a1 a2 : bytes) (l : list piece) (next : N) (manual : bool) : option bytes :=
  match l with
  | [] => Some []
  | PText c :: l' => match fill_pieces a0 a1 a2 l' next manual with Some s => Some (c :: s) | None => None end
  | PField [] :: l' =>
      if manual then None
      else match pick a0 a1 a2 next, fill_pieces a0 a1 a2 l' (next + 1) manual with
           | Some v, Some s => Some (v ++ s)
           | _, _ => None
           end
  | PField f :: l' =>
      if 0 <? next then None
      else match field_index f with
           | Some n => match pick a0 a1 a2 n, fill_pieces a0 a1 a2 l' next true with
                       | Some v, Some s => Some (v ++ s)
                       | _, _ => None
                       end
           | None => None
           end
  end.
Definition format (t a0 a1 a2 : bytes) : option bytes :=
  match format_pieces t FText with Some l => fill_pieces a0 a1 a2 l 0 false | None => None end.

(** ** The message (lines 38-44) and the SMTP session (lines 46-60) *)
Record mail : Type := Mail { ml_from : bytes; ml_to : bytes; ml_subject : bytes; ml_text : bytes; ml_html : bytes }.
Inductive smtp : Type :=
| SConnect (ssl : bool) (server port : bytes)
| SEhlo
| SStartTls
| SLogin (user password : bytes)
| SSend (from rcpt : bytes) (m : mail)
| SClose.
Definition session (mode server port user password : bytes) (m : mail) : list smtp :=
  [SConnect (bytes_eqb mode (bs "ssl")) server port] ++
  (if bytes_eqb mode (bs "none") then [] else SEhlo :: (if bytes_eqb mode (bs "tls") then [SStartTls] else [])) ++
  (match user, password with _ :: _, _ :: _ => [SLogin user password] | _, _ => [] end) ++
  [SSend (ml_from m) (ml_to m) m; SClose].

(** The whole script: what it does if nothing fails; an exception cuts the list short.  The kernel passes arguments
    as C strings. *)
Definition mail_script (k : mail_conf) (argv : list bytes) : list smtp :=
  match positionals (map cstr argv) with
  | Some [email; secret; ca; cert] =>
      match mc_mode k, mc_server k, mc_port k, mc_user k, mc_password k, mc_from k, mc_subject k, mc_text k, mc_html k with
      | Some mode, Some server, Some port, Some user, Some password, Some from, Some subject, Some t, Some h =>
          match format t secret ca cert, format h secret ca cert with
          | Some text, Some html => session mode server port user password (Mail from email subject text html)
          | _, _ => []
          end
      | _, _, _, _, _, _, _, _, _ => []
      end
  | _ => []
  end.
