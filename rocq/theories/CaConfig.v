(** src/detail/ca-configuration.cpp *)
From Verif Require Export CaProfile Redirection.
Local Open Scope N_scope.

(** [CaConfig] (src/detail/ca-configuration.hpp:33-74).  A redirection holds a null certificate pointer
    when the certificate text could not be loaded and no prefix was given. *)
Record config : Type := Config {
  cf_profile : profile;
  cf_redirect : list (option cert * policy);
  cf_assign : list assign
}.

(** One redirect-to item (ca-configuration.cpp:51-74).  [caCert->getIdentity()] dereferences a null pointer
    when the certificate could not be loaded; the order in which the two operands of [!=] are evaluated is
    not specified, so this is undefined even if [Name(caPrefixStr)] would throw. *)
Definition redirect_item (E : env) (t : ptree) : res (option cert * policy) :=
  let prefix := pt_get K_CA_PREFIX [] t in
  match pt_get K_CERTIFICATE [] t with
  | [] => Exn
  | s =>
      let c := io_load E s in
      do _ <- (match prefix with
               | [] => Ok tt
               | _ :: _ =>
                   match c with
                   | None => UB
                   | Some c' =>
                       do n <- of_opt (o_of_uri E prefix);
                       if name_eqb n (identity_of (c_name c')) then Ok tt else Exn
                   end
               end);
      match pt_get K_POLICY_TYPE [] t with
      | [] => Exn
      | ty => do p <- create_policy ty (pt_get K_POLICY_PARAM [] t);
              match p with
              | None => Exn
              | Some p' => Ok (c, p')
              end
      end
  end.
Fixpoint redirect_items (E : env) (l : list (bytes * ptree)) : res (list (option cert * policy)) :=
  match l with
  | [] => Ok []
  | (_, t) :: l' => do x <- redirect_item E t; do r <- redirect_items E l'; Ok (x :: r)
  end.

(** The name-assignment section (ca-configuration.cpp:77-87). *)
Fixpoint assign_items (l : list (bytes * ptree)) : res (list assign) :=
  match l with
  | [] => Ok []
  | (k, t) :: l' =>
      match create_assign k (pt_data t) with
      | None => Exn
      | Some a => do r <- assign_items l'; Ok (a :: r)
      end
  end.

(** [CaConfig::load] (ca-configuration.cpp:29-89); [file]: the result of read_json, [None] if it
    throws. *)
Definition config_load (E : env) (file : option ptree) : res config :=
  do j <- of_opt file;
  match pt_children j with
  | [] => Exn
  | _ :: _ =>
      do p <- profile_from_json E j;
      match p_challenges p with
      | [] => Exn
      | _ :: _ =>
          do reds <- (match pt_child K_REDIRECTION j with
                      | Some t => redirect_items E (pt_children t)
                      | None => Ok []
                      end);
          do asg <- (match pt_child K_NAME_ASSIGNMENT j with
                     | Some t => assign_items (pt_children t)
                     | None => Ok []
                     end);
          Ok (Config p reds asg)
      end
  end.
