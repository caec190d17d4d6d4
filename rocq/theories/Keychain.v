(** src/requester-request.cpp: which keys a request works with. *)
From Verif Require Export Client.
Local Open Scope N_scope.

(** [genNewInterest] (requester-request.cpp:120-159) with the lookup of the key in the key chain (lines 132-136): [getIdentity] and [getKey] throw
    if there is none, after [m_identityName] has been set. *)
Definition gen_new_from (E : env) (p : pib) (s : rstate) (ri : rinputs) (keyName : name) (nb na : Z) : res (option interest) * rstate :=
  if negb (is_prefix (p_prefix (rs_profile s)) keyName) then (Ok None, s)
  else match keyName with
  | [] => (Ok None, s)
  | _ :: _ =>
      match get_neg 2 keyName with
      | None => (Exn, s)
      | Some k =>
          if comp_eqb k c_KEY then
            match pib_get (prefix_neg 2 keyName) p with
            | None => (Exn, upd_identity (prefix_neg 2 keyName) s)
            | Some i =>
                match find_key keyName i with
                | None => (Exn, upd_identity (prefix_neg 2 keyName) s)
                | Some (_, sk) => gen_new E s ri keyName sk nb na
                end
            end
          else (Exn, s)
      end
  end.

(** The calls on a [Request] (requester-request.hpp:40-216), and what they return.  The key chain is the same in all calls. *)
Inductive rq_call : Type :=
| QNew (ri : rinputs) (keyName : name) (nb na : Z)
| QRevoke (c : cert)
| QReply (ri : rinputs) (d : data)
| QSelect (ctype : bytes)
| QChallenge (ri : rinputs) (params : mmap)
| QChallengeReply (ri : rinputs) (d : data)
| QFetch.
Inductive rq_out : Type :=
| ONew (o : res (option interest))
| ORevoke (o : option interest)
| OReply (o : res (list bytes))
| OSelect (o : res mmap)
| OChallenge (o : res interest)
| OChallengeReply (o : res unit)
| OFetch (o : interest * option name).
(** requester-request.cpp:120-259 *)
Definition call_req (E : env) (p : pib) (s : rstate) (c : rq_call) : rq_out * rstate :=
  match c with
  | QNew ri kn nb na => let (o, s') := gen_new_from E p s ri kn nb na in (ONew o, s')
  | QRevoke c => (ORevoke (gen_revoke E s c), s)
  | QReply ri d => let (o, s') := on_new_response E s ri d in (OReply o, s')
  | QSelect t => let (o, s') := select_challenge s t in (OSelect o, s')
  | QChallenge ri m => let (o, s') := gen_challenge E s ri m in (OChallenge o, s')
  | QChallengeReply ri d => let (o, s') := on_challenge_response E s ri d in (OChallengeReply o, s')
  | QFetch => (OFetch (gen_cert_fetch s), s)
  end.
