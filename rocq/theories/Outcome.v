(** Outcomes of C++ code. *)
From Verif Require Export Bytes.

(** [Ok a]  : the call returns [a];
    [Exn]   : the call throws an exception derived from [std::exception];
    [UB]    : the call has undefined behaviour (out-of-bounds access, null dereference, read of an
              indeterminate value, signed overflow): nothing is known afterwards;
    [Hang]  : the call has not returned after the random words supplied to it were used up (only
              [generateSecretCode] can do this, challenge-module.cpp:63-65). *)
Inductive res (A : Type) : Type :=
| Ok (a : A)
| Exn
| UB
| Hang.
Arguments Ok {A} a.
Arguments Exn {A}.
Arguments UB {A}.
Arguments Hang {A}.

Definition bind {A B} (x : res A) (f : A -> res B) : res B :=
  match x with
  | Ok a => f a
  | Exn => Exn
  | UB => UB
  | Hang => Hang
  end.
Notation "'do' x <- a ; b" := (bind a (fun x => b))
  (at level 200, x pattern, a at level 100, b at level 200, right associativity).

Definition rmap {A B} (f : A -> B) (x : res A) : res B := bind x (fun a => Ok (f a)).

(** [Some a] is a normal return, [None] an exception. *)
Definition of_opt {A} (x : option A) : res A :=
  match x with Some a => Ok a | None => Exn end.
