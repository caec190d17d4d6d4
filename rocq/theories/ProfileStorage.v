(** src/detail/profile-storage.cpp *)
From Verif Require Export CaProfile.
Local Open Scope N_scope.

(** The loop of [ProfileStorage::load(const JsonSection&)] (profile-storage.cpp:47-54). *)
Fixpoint load_items (E : env) (l : list (bytes * ptree)) : res (list profile) :=
  match l with
  | [] => Ok []
  | (_, t) :: l' =>
      do p <- profile_from_json E t;
      match p_cert p with
      | None => Exn
      | Some _ => do r <- load_items E l'; Ok (p :: r)
      end
  end.
(** [ProfileStorage::load(const JsonSection&)] (profile-storage.cpp:43-55); [get_child] throws if there is
    no "ca-list". *)
Definition store_load_json (E : env) (j : ptree) : res (list profile) :=
  match pt_child (bs "ca-list") j with
  | None => Exn
  | Some t => load_items E (pt_children t)
  end.
(** [ProfileStorage::load(fileName)] (profile-storage.cpp:27-41) *)
Definition store_load (E : env) (file : option ptree) : res (list profile) :=
  do j <- of_opt file;
  match pt_children j with
  | [] => Exn
  | _ :: _ => store_load_json E j
  end.

(** [ProfileStorage::save] (profile-storage.cpp:57-68): the tree written to the file. *)
Definition store_save (E : env) (l : list profile) : ptree :=
  PT [] (map (fun p => ([], profile_to_json E p)) l).

(** [removeCaProfile] (profile-storage.cpp:70-74) *)
Definition store_remove (n : name) (l : list profile) : list profile :=
  filter (fun p => negb (name_eqb (p_prefix p) n)) l.

(** [addCaProfile] (profile-storage.cpp:76-86) *)
Fixpoint store_add (p : profile) (l : list profile) : list profile :=
  match l with
  | [] => [p]
  | q :: l' => if name_eqb (p_prefix q) (p_prefix p) then p :: l' else q :: store_add p l'
  end.
