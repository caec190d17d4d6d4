(** Concrete cases for C123. *)
From Verif Require Export RolloverFacts ReconfigWitness.
Local Open Scope N_scope.

(** The CA of the other examples publishes its profile and is then given a certificate with another period for the same key, *)
Definition ro_cert : cert := Eval vm_compute in x_self x_ca_sk (x_prefix ++ [c_KEY; gc (bs "first")]) 0 2000000000.
Definition ro_same : ca_cfg := with_key ro_cert x_ca_sk (cf_keyloc x_cfg) x_cfg.
(** or another key. *)
Definition ro_other : ca_cfg := with_key rc_cert rc_sk (x_prefix ++ [c_KEY; gc (bs "second")]) x_cfg.
Definition ro_e : hstep db := HStep x_ca0 (EvProfile (x_inputs x_now 1)) (snd rc_p1) (fst rc_p1).
Lemma ro_step : step toy x_cfg (db_ops toy) x_ca0 (EvProfile (x_inputs x_now 1)) = Some (fst rc_p1, snd rc_p1).
Proof. vm_compute. reflexivity. Qed.
Lemma ro_hist : forall c sk kl, reconfigured toy (db_ops toy) [(x_cfg, ro_e)] (with_key c sk kl x_cfg) (fst rc_p1).
Proof.
  intros c sk kl. constructor; [meets|meets|constructor|]. exists x_cfg, (bs "id key"). apply (csteps_event toy (db_ops toy) x_cfg x_ca0 _ _ (fst rc_p1)); [exact ro_step|].
  apply (csteps_key _ _ _ c sk kl). constructor.
Qed.
Definition ro_d : data := Eval vm_compute in match ca_prof (fst rc_p1) with Some d => d | None => Data [] [] 0 None [] end.
Lemma ro_prof : ca_prof (fst rc_p1) = Some ro_d.
Proof. reflexivity. Qed.
Lemma ro_one : one_key_since_start toy [(x_cfg, ro_e)] ro_same.
Proof.
  intros [|h a] g1 st b Q _; cbn [app] in Q; [|destruct a; discriminate Q]. injection Q as <- _ _. split; reflexivity.
Qed.
Lemma ro_cert_fits : Forall (fun e => cert_fits toy (fst e)) [(x_cfg, ro_e)].
Proof.
  constructor; [|constructor]. cbn [fst]. split; [intros k Q; vm_compute in Q; injection Q as <-; vm_compute; reflexivity|]. split; [meets|]. split; [vm_compute; reflexivity|meets].
Qed.

(** A requester takes the profile and asks the CA with the other key. *)
Definition ro_p : profile := Eval vm_compute in match on_profile toy ro_d with Ok p => p | _ => x_profile end.
Definition ro_req : rstate := request_init ro_p RT_NEW (bs "alice ephemeral") (repeat x00 8).
Definition ro_new := Eval vm_compute in gen_new toy ro_req (x_rin x_now 1) x_keyname x_sk x_now (x_now + sec 3600).
Definition ro_x : interest := Eval vm_compute in match fst ro_new with Ok (Some x) => x | _ => Interest [] None None end.
Definition ro_ca1 : ca_state db * list eff := Eval vm_compute in match step toy ro_other (db_ops toy) (fst rc_p1) (EvInterest (x_inputs x_now 1) ro_x) with Some r => r | None => (fst rc_p1, []) end.
Lemma ro_stale : exists tr g s d p c s0 x s1 i s2 es m rj id r, reconfigured toy (db_ops toy) tr g s /\ public_key (cf_cert g) = o_pub toy (cf_sk g) /\
  ca_prof s = Some d /\ on_profile toy d = Ok p /\ p_cert p = Some c /\ public_key c <> o_pub toy (cf_sk g) /\
  s0 = request_init p RT_NEW (bs "alice ephemeral") (repeat x00 8) /\ gen_new toy s0 (x_rin x_now 1) x_keyname x_sk x_now (x_now + sec 3600) = (Ok (Some x), s1) /\
  step toy g (db_ops toy) s (EvInterest i x) = Some (s2, es) /\ puts es = [m] /\ pending (db_ops toy) s id = None /\ pending (db_ops toy) s2 id = Some r /\ rq_cert r = x_creq /\
  fst (on_new_response toy s1 rj m) = Exn.
Proof.
  exists [(x_cfg, ro_e)], ro_other, (fst rc_p1), ro_d, ro_p, x_ca_cert, ro_req, ro_x, (snd ro_new), (x_inputs x_now 1), (fst ro_ca1), (snd ro_ca1), (the_put (snd ro_ca1)), (x_rin x_now 2), (id_for toy (ca_idkey (fst rc_p1)) (c_name x_creq)).
  eexists. split; [apply ro_hist|]. split; [vm_compute; reflexivity|]. split; [exact ro_prof|]. split; [vm_compute; reflexivity|]. split; [vm_compute; reflexivity|]. split; [vm_compute; discriminate|].
  split; [reflexivity|]. split; [vm_compute; reflexivity|]. split; [vm_compute; reflexivity|]. split; [vm_compute; reflexivity|]. split; [vm_compute; reflexivity|]. split; [vm_compute; reflexivity|]. split; [vm_compute; reflexivity|].
  vm_compute. reflexivity.
Qed.
