(** C117: the requester's profile list after loads that fail or repeat a CA.  Vocabulary in Spec_Reload.v and Spec_Config.v. *)
From Verif Require Import ReloadWitness.
Local Open Scope N_scope.

(** A load that succeeds replaces the list by exactly the profiles of the file; *)
Theorem C117_loaded : forall E file l l', reload E file l = (l', Ok tt) <->
  exists j t, file = Some j /\ first_child j (bs "ca-list") t /\ Forall2 (item_gives E) (pt_children t) l'.
Proof. exact reload_ok. Qed.
Print Assumptions C117_loaded.
(** one that fails throws, *)
Theorem C117_outcomes : forall E file l, snd (reload E file l) = Ok tt \/ snd (reload E file l) = Exn.
Proof. exact reload_calm. Qed.
Print Assumptions C117_outcomes.
Example C117_loaded_case : reload toy (rl_file [k_plain]) [rl_a] = ([k_plain_profile], Ok tt).
Proof. exact rl_loads. Qed.
(** but does not leave the list as it was: the known profiles can be lost, *)
Theorem C117_kept_refuted : exists file l, l <> [] /\ reload toy file l = ([], Exn).
Proof. exact kept_refuted. Qed.
Print Assumptions C117_kept_refuted.
(** and profiles of the rejected file can be in the list. *)
Theorem C117_mixed_refuted : exists file l p, snd (reload toy file l) = Exn /\ In p (fst (reload toy file l)) /\ ~ In p l.
Proof. exact kept_mixed. Qed.
Print Assumptions C117_mixed_refuted.
(** What is left: the old list if the file cannot be read or has no members, nothing if it has no "ca-list", and the profiles in front of
    the first bad item otherwise. *)
Theorem C117_failed_partial : forall E file l l', reload E file l = (l', Exn) <->
  unreadable file /\ l' = l \/
  (~ unreadable file /\ exists j, file = Some j /\
    (no_child j (bs "ca-list") /\ l' = [] \/
     exists t a it b, first_child j (bs "ca-list") t /\ pt_children t = a ++ it :: b /\ Forall2 (item_gives E) a l' /\ bad_item E it)).
Proof. exact reload_exn. Qed.
Print Assumptions C117_failed_partial.
Example C117_failed_case : reload toy (rl_file [k_plain; rl_bare; k_plain]) [rl_a] = ([k_plain_profile], Exn) /\
  reload toy (Some rl_bare) [rl_a] = ([], Exn) /\ reload toy None [rl_a] = ([rl_a], Exn) /\ reload toy (Some (k_obj [])) [rl_a] = ([rl_a], Exn).
Proof. exact rl_fails. Qed.

(** A file can name a CA twice; a profile added later replaces only one of the two, and the old trust anchor stays. *)
Theorem C117_one_refuted : exists file p old, let l := fold_left (call_do toy) [CallLoad file; CallAdd p] [] in
  reload toy file [] = ([old; old], Ok tt) /\ l = [p; old] /\ p_prefix old = p_prefix p /\ p_cert old <> p_cert p.
Proof. exact two_profiles. Qed.
Print Assumptions C117_one_refuted.
(** If no file names a CA twice, then there is one profile per CA after all calls, of failed loads, too, *)
Theorem C117_one_partial : forall E calls, Forall (no_repeats E) calls -> NoDup (map p_prefix (fold_left (call_do E) calls [])).
Proof. exact one_profile. Qed.
Print Assumptions C117_one_partial.
(** and an added profile takes the place of the one for its CA. *)
Theorem C117_added_partial : forall E calls p q, Forall (no_repeats E) calls ->
  (In q (fold_left (call_do E) (calls ++ [CallAdd p]) []) <-> q = p \/ In q (fold_left (call_do E) calls []) /\ p_prefix q <> p_prefix p).
Proof. exact added_alone. Qed.
Print Assumptions C117_added_partial.
(** Removing a CA removes all of its profiles, whatever the list. *)
Theorem C117_removed : forall E l n q, In q (call_do E l (CallRemove n)) <-> In q l /\ p_prefix q <> n.
Proof. exact removed_all. Qed.
Print Assumptions C117_removed.
Example C117_one_case : let calls := [CallAdd rl_a; CallLoad (rl_file [k_plain]); CallAdd rl_a; CallLoad None; CallRemove k_prefix; CallLoad (rl_file [rl_item (bs "old"); rl_bare]); CallAdd rl_a] in
  Forall (no_repeats toy) calls /\ fold_left (call_do toy) calls [] = [rl_profile (bs "old"); rl_a].
Proof. exact rl_calls. Qed.
