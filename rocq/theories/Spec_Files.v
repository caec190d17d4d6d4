(** What the file of trust anchors lists. *)
From Verif Require Export Spec_JsonText Spec_Config Spec_Ca PossessionConfig.
Local Open Scope N_scope.

(** The certificates the entries of a list hold, in order; entries that hold none are passed over. *)
Inductive certificates_in (E : env) : list (bytes * ptree) -> list cert -> Prop :=
| ci_nil : certificates_in E [] []
| ci_some : forall k t s c l cs, text t (bs "certificate") s -> io_load E s = Some c -> certificates_in E l cs -> certificates_in E ((k, t) :: l) (c :: cs)
| ci_none : forall k t s l cs, text t (bs "certificate") s -> io_load E s = None -> certificates_in E l cs -> certificates_in E ((k, t) :: l) cs.
(** The file's text is JSON whose "anchor-list" has an entry with this certificate. *)
Definition lists_anchor (E : env) (file : bytes) (c : cert) : Prop :=
  exists j t k e s, read_json file = Some j /\ first_child j (bs "anchor-list") t /\ In (k, e) (pt_children t) /\ text e (bs "certificate") s /\ io_load E s = Some c.
