(** Vocabulary of C117: what a store holds after calls of all kinds. *)
From Verif Require Export ProfileReload Spec_Config.
Local Open Scope N_scope.

(** An item of "ca-list" that makes a profile. *)
Definition item_gives (E : env) (it : bytes * ptree) (p : profile) : Prop := profile_read E (snd it) p /\ p_cert p <> None.
(** One that does not. *)
Definition bad_item (E : env) (it : bytes * ptree) : Prop := forall p, ~ item_gives E it p.
(** A file that [load(fileName)] gives up before it touches the list. *)
Definition unreadable (file : option ptree) : Prop := file = None \/ exists d, file = Some (PT d []).

(** A call on a store; a caller that catches the exception of a failed load goes on with what is left. *)
Inductive call := CallAdd (p : profile) | CallRemove (n : name) | CallLoad (file : option ptree).
Definition call_do (E : env) (l : list profile) (c : call) : list profile :=
  match c with
  | CallAdd p => store_do l (SAdd p)
  | CallRemove n => store_do l (SRemove n)
  | CallLoad file => fst (reload E file l)
  end.
(** No file names one CA in two of its items. *)
Definition no_repeats (E : env) (c : call) : Prop :=
  match c with
  | CallLoad (Some j) => forall t a x b y c p q, first_child j (bs "ca-list") t -> pt_children t = a ++ x :: b ++ y :: c ->
      item_gives E x p -> item_gives E y q -> p_prefix p <> p_prefix q
  | _ => True
  end.
