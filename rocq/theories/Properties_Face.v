(** C113: the limit on packets and the server. *)
From Verif Require Import FaceFacts FaceWitness.
Local Open Scope N_scope.

(** ** C113: nobody can end the server with a packet *)
(** Not so: whatever its configuration and state, some unsigned Interest within the limit, from anyone, ends the server, which does not answer it. *)
Theorem C113_refuted : forall E g S (ops : store_ops S) repo tr ca d cache i, face_history E g ops repo tr (Running ca d cache) -> blen (enc_tlvs (p_prefix (cfp g))) <= 8000 ->
  exists x os, interest_size x <= packet_limit /\ i_sig x = None /\ fstep E g ops repo (Running ca d cache) (PvInterest i x) = Some (Down (ca_store ca), os) /\ module_packets os = [].
Proof. exact anyone_ends. Qed.
Print Assumptions C113_refuted.
(** An Interest whose name leaves room for what the CA has to say is treated as if there were no limit; it ends the server only if it
    is one of those of C105. *)
Theorem C113_short_partial : forall E g S (ops : store_ops S) repo tr ca d cache i x L K p os, aes_laws E -> hash_laws E -> (forall k, p_maxsuffix (cfp g) = Some k -> k < 2 ^ 64) ->
  face_history E g ops repo tr (Running ca d cache) -> short_names g ops ca -> suffix_limit_sane g -> (addressed g VProbe (i_name x) -> probe_room E g i x L) ->
  room_needed E g (asked_for ops ca) L -> (forall m, blen (o_sign E (cf_sk g) m) <= K) ->
  blen (name_wire (i_name x)) + 2 * L + blen (name_wire (cf_keyloc g)) + K + 800 <= packet_limit -> data_fits g d -> Forall (cert_fits E) cache ->
  pstep E g ops repo (Running ca d cache) (PvInterest i x) = Some (p, os) -> Forall (fun d => fits (d_content d)) (module_packets os) ->
  fstep E g ops repo (Running ca d cache) (PvInterest i x) = Some (p, os) /\ (~ throws E g ops ca i x -> exists ca' cache', p = Running ca' d cache').
Proof. exact short_served. Qed.
Print Assumptions C113_short_partial.
(** What holds of every life of a server holds of those that end this way: it could as well be stopped there, and only packets to the network are missing. *)
Theorem C113_life : forall E g S (ops : store_ops S) repo tr p, face_history E g ops repo tr p -> exists tr', server_history E g ops repo tr' p /\ same_life tr tr'.
Proof. exact face_life. Qed.
Print Assumptions C113_life.
(** Started, a NEW Interest answered; then the start of the pin challenge. *)
Example C113_case : face_history toy h_cfg (db_ops toy) false fa_tr (Running fa_ca o_d []) /\ (forall k, p_maxsuffix (cfp h_cfg) = Some k -> k < 2 ^ 64) /\ short_names h_cfg (db_ops toy) fa_ca /\ suffix_limit_sane h_cfg /\
  (addressed h_cfg VProbe (i_name (the_interest x_chal1)) -> probe_room toy h_cfg (x_inputs (x_now + sec 10) 2) (the_interest x_chal1) 200) /\ room_needed toy h_cfg (asked_for (db_ops toy) fa_ca) 200 /\ (forall m, blen (o_sign toy (cf_sk h_cfg) m) <= 32) /\
  blen (name_wire (i_name (the_interest x_chal1))) + 2 * 200 + blen (name_wire (cf_keyloc h_cfg)) + 32 + 800 <= packet_limit /\ data_fits h_cfg o_d /\
  (exists p os, pstep toy h_cfg (db_ops toy) false (Running fa_ca o_d []) o_v2 = Some (p, os) /\ Forall (fun d => fits (d_content d)) (module_packets os)) /\ blen (enc_tlvs (p_prefix (cfp h_cfg))) <= 8000.
Proof. exact fa_case. Qed.
