(** The email challenge's address check and the arguments its script gets. *)
From Verif Require Export Challenge.
Local Open Scope N_scope.

(** ** Regular expressions
    [std::regex_match] (ECMAScript) for the constructs the pattern uses: character sets, [.], concatenation
    and [+].  The whole string must match, so the anchors of the pattern add nothing. *)
Inductive rx : Type :=
| RNone                               (* matches nothing *)
| REmpty                              (* matches the empty string *)
| RChar (p : byte -> bool)
| RSeq (a b : rx)
| RAlt (a b : rx)
| RStar (a : rx).
Definition RPlus (a : rx) : rx := RSeq a (RStar a).

(** Matching by derivatives. *)
Fixpoint rx_null (r : rx) : bool :=
  match r with
  | RNone | RChar _ => false
  | REmpty | RStar _ => true
  | RSeq a b => rx_null a && rx_null b
  | RAlt a b => rx_null a || rx_null b
  end.
Fixpoint rx_der (c : byte) (r : rx) : rx :=
  match r with
  | RNone | REmpty => RNone
  | RChar p => if p c then REmpty else RNone
  | RSeq a b => if rx_null a then RAlt (RSeq (rx_der c a) b) (rx_der c b) else RSeq (rx_der c a) b
  | RAlt a b => RAlt (rx_der c a) (rx_der c b)
  | RStar a => RSeq (rx_der c a) (RStar a)
  end.
Fixpoint rx_match (r : rx) (s : bytes) : bool :=
  match s with
  | [] => rx_null r
  | c :: s' => rx_match (rx_der c r) s'
  end.

Definition one_of (l : bytes) (c : byte) : bool := existsb (byte_eqb c) l.
Definition in_range (a b c : byte) : bool := (Byte.to_N a <=? Byte.to_N c) && (Byte.to_N c <=? Byte.to_N b).
Definition alnum (c : byte) : bool := in_range x61 x7a c || in_range x41 x5a c || in_range x30 x39 c.
(** [.] matches anything but a line terminator. *)
Definition any_char (c : byte) : bool := negb (byte_eqb c x0a) && negb (byte_eqb c x0d).

(** The pattern of [ChallengeEmail::isValidEmailAddress] (challenge-email.cpp:155). *)
Definition email_pattern : rx :=
  RSeq (RPlus (RChar (fun c => alnum c || one_of (bs "_.+-") c)))
  (RSeq (RChar (byte_eqb x40))
  (RSeq (RPlus (RChar (fun c => alnum c || one_of (bs "-") c)))
  (RSeq (RChar any_char)
        (RPlus (RChar (fun c => alnum c || one_of (bs "-.") c)))))).
(** [ChallengeEmail::isValidEmailAddress] (challenge-email.cpp:152-158); nothing in the code base outside
    the unit tests calls it. *)
Definition is_valid_email (s : bytes) : bool := rx_match email_pattern s.

(** ** The script's arguments
    [boost::process::child(std::string)]: Boost.Process v1 splits the command line
    ([boost/process/detail/posix/basic_cmd.hpp], [build_args]).  Not part of ndncert; the text of Boost 1.71
    is followed. *)
(** [boost::replace_all]: a backslash and a quote become a quote. *)
Fixpoint unescape (s : bytes) : bytes :=
  match s with
  | [] => []
  | c :: s' =>
      match s' with
      | d :: s'' => if byte_eqb c x5c && byte_eqb d x22 then x22 :: unescape s'' else c :: unescape s'
      | [] => [c]
      end
  end.
(** [make_entry]: outer quotes are removed; for the entry that is one quote the iterators cross. *)
Definition make_entry (part : bytes) : res bytes :=
  match part with
  | x22 :: p => match rev p with
                | x22 :: q => Ok (unescape (rev q))
                | [] => UB
                | _ => Ok (unescape part)
                end
  | _ => Ok (unescape part)
  end.
(** The loop: [quoted]: [in_quote]; [part]: the characters since [part_beg], last first; [prev]: [*(itr - 1)]. *)
Fixpoint split_args (s : bytes) (quoted : bool) (part : bytes) (prev : option byte) : res (list bytes) :=
  match s with
  | [] => match part with
          | [] => Ok []
          | _ :: _ => do e <- make_entry (rev part); Ok [e]
          end
  | c :: s' =>
      let quoted' := xorb quoted (byte_eqb c x22) in
      if negb quoted' && byte_eqb c x20 then
        match prev with
        | Some p => if byte_eqb p x20 then split_args s' quoted' [] (Some c)
                    else do e <- make_entry (rev part); do r <- split_args s' quoted' [] (Some c); Ok (e :: r)
        | None => split_args s' quoted' [] (Some c)
        end
      else split_args s' quoted' (c :: part) (Some c)
  end.
(** The program and its arguments. *)
Definition build_args (cmd : bytes) : res (list bytes) := split_args cmd false [] None.
