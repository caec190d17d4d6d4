(** C106: the error replies of the CA. *)
From Verif Require Import RefusedFacts RefusedWitness.
Local Open Scope N_scope.

(** ** C106: an error reply names the first check that failed *)
(** A NEW or REVOKE Interest is answered with an error, and changes nothing, exactly for the reasons listed under [refused]; code and text
    are those of the reason. *)
Theorem C106_refused : forall E g S (ops : store_ops S) s i rt x code text, ca_at E g ops s -> suffix_limit_sane g -> rt = RT_NEW \/ rt = RT_REVOKE ->
  addressed g (verb_of rt) (i_name x) ->
  (exists d, step E g ops s (EvInterest i x) = Some (s, [EPut d]) /\ told_error E g x code text d) <->
  refused E g i rt (ca_idkey s) (fun id => pending ops s id <> None) x code text.
Proof. exact @refused_iff. Qed.
Print Assumptions C106_refused.
Example C106_case : ca_at toy x_cfg (db_ops toy) (fst x_ca1) /\ suffix_limit_sane x_cfg /\ addressed x_cfg VNew (i_name x_new_interest) /\
  refused toy x_cfg (x_inputs x_now 1) RT_NEW (ca_idkey (fst x_ca1)) (fun id => pending (db_ops toy) (fst x_ca1) id <> None) x_new_interest
    4 (bs "Duplicate Request ID: The same request has been seen before.").
Proof. exact (conj x_at1 (conj x_sane (conj r_new r_taken))). Qed.
Example C106_name_case : addressed x_cfg VNew (i_name z_far) /\ exists d, step toy x_cfg (db_ops toy) x_ca0 (EvInterest (x_inputs x_now 1) z_far) = Some (x_ca0, [EPut d]) /\
  told_error toy x_cfg z_far 5 (bs "An invalid certificate name is being requested.") d.
Proof. exact r_far. Qed.
(** Every NEW or REVOKE Interest is admissible under a free ID, refused for one reason only, or one of those that bring the CA down. *)
Theorem C106_decided : forall E g S (ops : store_ops S) s i rt x, ca_at E g ops s -> suffix_limit_sane g -> rt = RT_NEW \/ rt = RT_REVOKE ->
  let idkey := ca_idkey s in let taken := fun id => pending ops s id <> None in
  ((exists peer c, admissible E g i rt (id_for E idkey (c_name c)) x peer c /\ pending ops s (id_for E idkey (c_name c)) = None) \/
   (exists code text, refused E g i rt idkey taken x code text) \/ new_upsets E g i rt idkey x) /\
  (forall code text, refused E g i rt idkey taken x code text ->
     (forall peer c, admissible E g i rt (id_for E idkey (c_name c)) x peer c -> pending ops s (id_for E idkey (c_name c)) <> None) /\
     ~ new_upsets E g i rt idkey x /\ (forall code' text', refused E g i rt idkey taken x code' text' -> code' = code /\ text' = text)).
Proof. exact @decided. Qed.
Print Assumptions C106_decided.
(** A CHALLENGE Interest is answered with an error, and changes nothing, exactly when it names no pending request or is not signed with the
    key of the request it names. *)
Theorem C106_turned_away : forall E g S (ops : store_ops S) s i x code text, ca_at E g ops s -> addressed g VChallenge (i_name x) ->
  (exists d, step E g ops s (EvInterest i x) = Some (s, [EPut d]) /\ told_error E g x code text d) <-> turned_away E g ops s x code text.
Proof. exact @turned_iff. Qed.
Print Assumptions C106_turned_away.
Example C106_turned_case : ca_at toy w_cfg mem_ops (fst w_ca1) /\ addressed w_cfg VChallenge (i_name u_forged) /\
  turned_away toy w_cfg mem_ops (fst w_ca1) u_forged 3 (bs "Invalid Signature in the Interest packet.").
Proof. exact (conj w_at1 (conj r_challenge r_forged)). Qed.
