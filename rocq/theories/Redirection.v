(** src/redirection *)
From Verif Require Export NameAssign.
Local Open Scope N_scope.

(** redirection-param.hpp:28, redirection-email.hpp:28 *)
Inductive policy : Type :=
| PParam (fmt : mmap)
| PEmail (domain : bytes).

Definition AMP : byte := x26.
Definition EQ : byte := x3d.

(** The loop of [RedirectionParam::RedirectionParam] (redirection-param.cpp:36-44). *)
Fixpoint redirect_param_loop (pieces : list bytes) (m : mmap) : res mmap :=
  match pieces with
  | [] => Ok m
  | s :: ps =>
      match find_byte EQ s with
      | None => Exn
      | Some i => redirect_param_loop ps (mm_insert (firstn i s) (skipn (S i) s) m)
      end
  end.
(** [RedirectionParam::RedirectionParam] (redirection-param.cpp:30-45) *)
Definition redirect_param_ctor (format : bytes) : res mmap :=
  match format with
  | [] => Ok []
  | _ :: _ => redirect_param_loop (split_on AMP format) []
  end.

(** [RedirectionPolicy::createPolicyFunc] (redirection-policy.cpp:25-31); inner [None]: unknown type. *)
Definition create_policy (type format : bytes) : res (option policy) :=
  if bytes_eqb type (bs "param") then do m <- redirect_param_ctor format; Ok (Some (PParam m))
  else if bytes_eqb type (bs "email") then Ok (Some (PEmail format))
  else Ok None.

(** [isRedirecting] (redirection-param.cpp:47-63, redirection-email.cpp:32-42) *)
Definition is_redirecting (p : policy) (params : mmap) : bool :=
  match p with
  | PParam fmt => forallb (fun kv => existsb (bytes_eqb (snd kv)) (mm_all (fst kv) params)) fmt
  | PEmail dom =>
      existsb (fun v => match rfind_byte AT v with
                        | Some i => bytes_eqb (skipn (S i) v) dom
                        | None => false
                        end) (mm_all (bs "email") params)
  end.
