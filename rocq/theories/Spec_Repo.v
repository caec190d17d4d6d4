(** Vocabulary for the statements about a server with a repo. *)
From Verif Require Export Spec_Process Repo.
Local Open Scope N_scope.

(** What the repo holds after the events [tr], if its connections succeeded as [ups] says, event by event. *)
Definition in_repo {S} (tr : list (sstep S)) (ups : list bool) (o : out) : Prop := In o (repo_contents (combine (map p_outs tr) ups)).
(** The packet with the certificate leaves the server: to the repo, or to the network. *)
Definition handed_out (os : list out) (c : cert) : Prop := In (ORepoCert c) os \/ In (OServed (SCert c)) os.
