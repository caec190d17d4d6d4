(** C116: how many requests a CA keeps. *)
From Verif Require Import GrowthWitness.
Local Open Scope N_scope.

(** ** C116: strangers cannot fill the CA's storage *)
(** They can: whatever requests are allowed and have IDs of their own, all of them are pending after one NEW Interest each; no challenge, address or
    credential was needed, and what was pending still is.  (Nothing removes them again: C86_stays_refuted.) *)
Theorem C116_refuted : forall E g S (ops : store_ops S) l s, ca_at E g ops s -> suffix_limit_sane g -> Forall (allowed E g s) l -> NoDup (map (ask_id E s) l) ->
  (forall a, In a l -> pending ops s (ask_id E s a) = None) ->
  exists tr s', steps E g ops s tr s' /\ map h_ev tr = map (fun a => EvInterest (as_inputs a) (as_interest a)) l /\
    (forall a, In a l -> exists r, pending ops s' (ask_id E s a) = Some r /\ rq_cert r = as_cert a) /\ (forall id r, pending ops s id = Some r -> pending ops s' id = Some r).
Proof. exact all_kept. Qed.
Print Assumptions C116_refuted.
(** Two requests for one key and key name; they differ in the version that genNewInterest takes from the clock. *)
Example C116_case : ca_at toy x_cfg (db_ops toy) x_ca0 /\ suffix_limit_sane x_cfg /\ Forall (allowed toy x_cfg x_ca0) [gr_1; gr_2] /\ NoDup (map (ask_id toy x_ca0) [gr_1; gr_2]) /\
  (forall a, In a [gr_1; gr_2] -> pending (db_ops toy) x_ca0 (ask_id toy x_ca0 a) = None) /\ public_key (as_cert gr_1) = public_key (as_cert gr_2) /\ key_name_of (c_name (as_cert gr_1)) = key_name_of (c_name (as_cert gr_2)).
Proof.
  split; [exact x_at0|]. split; [exact x_sane|]. split; [constructor; [exact gr_allowed1|constructor; [exact gr_allowed2|constructor]]|]. split; [exact gr_ids|].
  split; [intros a _; reflexivity|]. split; vm_compute; reflexivity.
Qed.
(** Even the same Interest again makes one more, once after every restart: the new process has a new key for the IDs. *)
Theorem C116_again_refuted : forall E g S (ops : store_ops S) s a key r, ca_at E g ops s -> durable E S ops -> suffix_limit_sane g -> pending ops s (ask_id E s a) = Some r -> let s1 := restart ops key s in
  allowed E g s1 a -> ask_id E s1 a <> ask_id E s a -> pending ops s1 (ask_id E s1 a) = None ->
  exists s2 es r', step E g ops s1 (EvInterest (as_inputs a) (as_interest a)) = Some (s2, es) /\ pending ops s2 (ask_id E s a) = Some r /\
    pending ops s2 (ask_id E s1 a) = Some r' /\ rq_cert r' = as_cert a.
Proof. exact again. Qed.
Print Assumptions C116_again_refuted.
Example C116_again_case : ca_at toy x_cfg (db_ops toy) (fst x_ca1) /\ durable toy db (db_ops toy) /\ pending (db_ops toy) (fst x_ca1) (ask_id toy (fst x_ca1) gr_1) <> None /\
  gr_again = restart (db_ops toy) (bs "another key") (fst x_ca1) /\ allowed toy x_cfg gr_again gr_1 /\ ask_id toy gr_again gr_1 <> ask_id toy (fst x_ca1) gr_1 /\ pending (db_ops toy) gr_again (ask_id toy gr_again gr_1) = None.
Proof.
  split; [exact x_at1|]. split; [constructor|]. split; [vm_compute; discriminate|]. split; [vm_compute; reflexivity|]. split; [exact gr_allowed3|]. split; [vm_compute; discriminate|]. vm_compute. reflexivity.
Qed.
(** But the CA never keeps more than it accepted. *)
Theorem C116_bound_partial : forall E g S (ops : store_ops S) tr s ids, ca_history E g ops tr s -> NoDup ids -> (forall id, In id ids -> pending ops s id <> None) -> (length ids <= length (admissions tr))%nat.
Proof. exact kept_bound. Qed.
Print Assumptions C116_bound_partial.
Example C116_bound_case : ca_history toy x_cfg (db_ops toy) [x_e1; x_e2; x_e3] (fst x_ca3) /\ NoDup [z_id] /\ pending (db_ops toy) (fst x_ca3) z_id <> None /\ admissions [x_e1; x_e2; x_e3] = [z_id].
Proof. split; [exact x_h3|]. split; [constructor; [intros []|constructor]|]. split; [vm_compute; discriminate|]. vm_compute. reflexivity. Qed.
