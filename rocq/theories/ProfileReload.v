(** src/detail/profile-storage.cpp: [ProfileStorage::load] on a store that already has profiles. *)
From Verif Require Export ProfileStorage.
Local Open Scope N_scope.

(** The loop of [load(const JsonSection&)] (profile-storage.cpp:48-54): [l] is [m_caProfiles], whose
    contents stay when an item throws.  Left with the outcome. *)
Fixpoint push_items (E : env) (items : list (bytes * ptree)) (l : list profile) : list profile * res unit :=
  match items with
  | [] => (l, Ok tt)
  | (_, t) :: items' =>
      match profile_from_json E t with
      | Ok p => match p_cert p with
                | None => (l, Exn)
                | Some _ => push_items E items' (l ++ [p])
                end
      | Exn => (l, Exn)
      | UB => (l, UB)
      | Hang => (l, Hang)
      end
  end.
(** [load(const JsonSection&)] (profile-storage.cpp:43-55): [clear] comes before [get_child]. *)
Definition reload_json (E : env) (j : ptree) : list profile * res unit :=
  match pt_child (bs "ca-list") j with
  | None => ([], Exn)
  | Some t => push_items E (pt_children t) []
  end.
(** [load(fileName)] (profile-storage.cpp:27-41) *)
Definition reload (E : env) (file : option ptree) (l : list profile) : list profile * res unit :=
  match file with
  | None => (l, Exn)
  | Some j => match pt_children j with
              | [] => (l, Exn)
              | _ :: _ => reload_json E j
              end
  end.
