(** src/name-assignment *)
From Verif Require Export Types.
Local Open Scope N_scope.

(** Pieces of [s] between occurrences of [c] (always at least one piece). *)
Fixpoint split_on (c : byte) (s : bytes) : list bytes :=
  match s with
  | [] => [[]]
  | x :: s' =>
      if byte_eqb x c then [] :: split_on c s'
      else match split_on c s' with
           | p :: ps => (x :: p) :: ps
           | [] => [[x]]
           end
  end.

Definition nonempty (b : bytes) : bool := match b with [] => false | _ :: _ => true end.

Definition SLASH : byte := x2f.
Definition DOT : byte := x2e.
Definition AT : byte := x40.
Definition QUOTE : byte := x22.

(** [NameAssignmentFunc::NameAssignmentFunc] (assignment-func.cpp:25-38): the non-empty pieces of the
    format between slashes. *)
Definition name_format (format : bytes) : list bytes := filter nonempty (split_on SLASH format).

Inductive assign_kind : Type := AParam | AHash | AEmail | ARandom.
Record assign : Type := Assign { a_kind : assign_kind; a_format : list bytes }.

(** [createNameAssignmentFunc] (assignment-func.cpp:40-46) with the registered types
    (assignment-param.cpp:25, assignment-hash.cpp:27, assignment-email.cpp:25, assignment-random.cpp:27). *)
Definition create_assign (type format : bytes) : option assign :=
  if bytes_eqb type (bs "param") then Some (Assign AParam (name_format format))
  else if bytes_eqb type (bs "hash") then Some (Assign AHash (name_format format))
  else if bytes_eqb type (bs "email") then Some (Assign AEmail (name_format format))
  else if bytes_eqb type (bs "random") then Some (Assign ARandom (name_format format))
  else None.

(** Is [item] a quoted literal (assignment-param.cpp:38)?  Returns what is between the quotes. *)
Definition quoted (item : bytes) : option bytes :=
  match item with
  | q :: rest =>
      match rev rest with
      | q2 :: mid => if byte_eqb q QUOTE && byte_eqb q2 QUOTE then Some (rev mid) else None
      | [] => None
      end
  | [] => None
  end.

(** [AssignmentParam::assignName] (assignment-param.cpp:32-53); [Ok None]: no name.  [Name::append] has no
    overload for a std::string: literal and value are converted by [Name(std::string)], i.e. read as a URI
    that may give several components, or none, or throw. *)
Fixpoint assign_param (E : env) (fmt : list bytes) (params : mmap) : res (option name) :=
  match fmt with
  | [] => Ok (Some [])
  | item :: fmt' =>
      match (match quoted item with
             | Some lit => Some lit
             | None => match mm_find item params with
                       | Some (x :: v) => Some (x :: v)
                       | _ => None
                       end
             end) with
      | Some text =>
          do n <- of_opt (o_of_uri E text);
          do r <- assign_param E fmt' params;
          Ok (option_map (app n) r)
      | None => Ok None
      end
  end.

(** [AssignmentHash::assignName] (assignment-hash.cpp:34-52).  A digest in hexadecimal is its own URI. *)
Fixpoint assign_hash (E : env) (fmt : list bytes) (params : mmap) : option name :=
  match fmt with
  | [] => Some []
  | item :: fmt' =>
      match mm_find item params with
      | Some v => option_map (cons (gc (to_hex (o_sha256 E v)))) (assign_hash E fmt' params)
      | None => None
      end
  end.

(** The loop of [AssignmentEmail::assignName] (assignment-email.cpp:44-54): cuts [domain] at its last dot
    until there is none; [std::string::data()] passed as a C string stops at a NUL.  The domain gets
    shorter in each round, so its length is enough fuel ([NameAssignFacts.email_loop_fuel]). *)
Fixpoint email_loop (fuel : nat) (domain : bytes) (fmt : list bytes) : name :=
  match fuel with
  | O => []
  | S f =>
      match rfind_byte DOT domain with
      | None => []
      | Some i =>
          let label := skipn (S i) domain in
          let rest := firstn i domain in
          match fmt with
          | x :: fmt' =>
              if bytes_eqb label x then email_loop f rest fmt'
              else gc (cstr label) :: email_loop f rest fmt
          | [] => gc (cstr label) :: email_loop f rest fmt
          end
      end
  end.

(** [AssignmentEmail::assignName] (assignment-email.cpp:32-60).  The address is the value of the {e first}
    parameter in key order ([params.begin()->second], line 38), whatever its key. *)
Definition assign_email (fmt : list bytes) (params : mmap) : option name :=
  match fmt, mm_find (bs "email") params, params with
  | _ :: _, Some _, (_, email) :: _ =>
      match rfind_byte AT email with
      | Some (S k) =>
          let at_ := S k in
          let domain := DOT :: skipn (S at_) email in
          Some (email_loop (length domain) domain fmt ++ [gc (cstr (firstn at_ email))])
      | _ => None
      end
  | _, _, _ => None
  end.

(** [assignName]: the suggested name suffixes; [w]: the random 64-bit word for AssignmentRandom
    (assignment-random.cpp:34-38). *)
Definition assign_name (E : env) (a : assign) (w : N) (params : mmap) : res (list name) :=
  let opt := fun o : option name => match o with Some n => [n] | None => [] end in
  match a_kind a with
  | AParam => do o <- assign_param E (a_format a) params; Ok (opt o)
  | AHash => Ok (opt (assign_hash E (a_format a) params))
  | AEmail => Ok (opt (assign_email (a_format a) params))
  | ARandom => Ok [[gc (to_string_N (w mod 2 ^ 64))]]
  end.
