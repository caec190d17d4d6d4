(** src/detail/error-encoder.cpp *)
From Verif Require Export Types.
Local Open Scope N_scope.

(** [errortlv::encodeDataContent] (error-encoder.cpp:29-37): the value of the Content block. *)
Definition err_encode (code : N) (info : bytes) : bytes :=
  enc_tlvs [Tlv T_ErrorCode (nni_enc code); Tlv T_ErrorInfo info].

(** The loop of [errortlv::decodefromDataContent] (error-encoder.cpp:46-65).  State: error, errorInfo,
    codeCount, infoCount, otherCriticalCount.  Each ErrorCode element re-reads the {e first} one
    (error-encoder.cpp:53, 57). *)
Fixpoint err_loop (all todo : list tlv) (st : N * bytes * nat * nat * nat) : res (N * bytes * nat * nat * nat) :=
  match todo with
  | [] => Ok st
  | t :: l =>
      let '(e, s, cc, ic, oc) := st in
      if t_type t =? T_ErrorCode then
        do first <- of_opt (get T_ErrorCode all);
        do n <- of_opt (nni_dec (t_val first));
        err_loop all l (n, s, S cc, ic, oc)
      else if t_type t =? T_ErrorInfo then
        do first <- of_opt (get T_ErrorInfo all);
        err_loop all l (e, t_val first, cc, S ic, oc)
      else if is_critical (t_type t) then err_loop all l (e, s, cc, ic, S oc)
      else err_loop all l (e, s, cc, ic, oc)
  end.

Definition err_body (b : bytes) : res (N * bytes) :=
  do els <- of_opt (parse b);
  do st <- err_loop els els (NO_ERROR, [], O, O, O);
  let '(e, s, cc, ic, oc) := st in
  if Nat.eqb cc 0 && Nat.eqb ic 0 then Ok (NO_ERROR, [])
  else if negb (Nat.eqb cc 1) || negb (Nat.eqb ic 1) then Exn
  else if Nat.ltb 0 oc then Exn
  else Ok (e, s).

(** [errortlv::decodefromDataContent] (error-encoder.cpp:39-83): an exception is turned into
    {NO_ERROR, ""}.  [b]: the value of the Content block. *)
Definition err_decode (b : bytes) : N * bytes :=
  match err_body b with
  | Ok r => r
  | _ => (NO_ERROR, [])
  end.
