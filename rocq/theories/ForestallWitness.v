(** Concrete cases for C128. *)
From Verif Require Import CaFacts CaProps TraceFacts RequesterFacts.
From Verif Require Export ForestallFacts SessionWitness.
Local Open Scope N_scope.

(** Mallory asks for alice's certificate name with a key of their own, before alice's NEW Interest arrives. *)
Definition fo_sk : bytes := bs "mallory signing key".
Definition fo_req0 : rstate := request_init x_profile RT_NEW (bs "mallory ephemeral") (repeat x00 8).
Definition fo_creq : cert := Eval vm_compute in cert_request toy fo_sk (x_rin x_now 1) x_keyname x_now (x_now + sec 3600).
Lemma fo_applies : applies toy x_cfg fo_req0 (x_rin x_now 1) (x_inputs x_now 1) x_keyname fo_sk x_now (x_now + sec 3600).
Proof.
  constructor.
  - exists x_profile, (bs "mallory ephemeral"), (repeat x00 8). split; reflexivity.
  - reflexivity.
  - exists x_ca_cert. split; [reflexivity|vm_compute; reflexivity].
  - exists [gc (bs "alice")], (gc (bs "k1")). split; [reflexivity|]. split; [discriminate|]. intros k K. vm_compute in K. injection K as <-. vm_compute. discriminate.
  - eexists _, _. split; [vm_compute; reflexivity|]. meets.
  - eexists _, _. split; [reflexivity|]. unfold period_policy. meets.
  - meets.
Qed.
Definition fo_x : interest := Eval vm_compute in match fst (gen_new toy fo_req0 (x_rin x_now 1) x_keyname fo_sk x_now (x_now + sec 3600)) with Ok (Some i) => i | _ => x_new_interest end.
Definition fo_req1 : rstate := Eval vm_compute in snd (gen_new toy fo_req0 (x_rin x_now 1) x_keyname fo_sk x_now (x_now + sec 3600)).
Lemma fo_asks : asks_new toy fo_req0 (x_rin x_now 1) x_keyname fo_sk x_now (x_now + sec 3600) fo_x fo_req1.
Proof. vm_compute. reflexivity. Qed.
Definition fo_ca1 := Eval vm_compute in x_go x_ca0 (x_inputs x_now 1) fo_x.
Lemma fo_step1 : step toy x_cfg (db_ops toy) x_ca0 (EvInterest (x_inputs x_now 1) fo_x) = Some fo_ca1.
Proof. vm_compute. reflexivity. Qed.
Definition fo_e1 := HStep x_ca0 (EvInterest (x_inputs x_now 1) fo_x) (snd fo_ca1) (fst fo_ca1).
Lemma fo_h1 : ca_history toy x_cfg (db_ops toy) [fo_e1] (fst fo_ca1).
Proof. exact (history_more _ _ _ _ [] _ _ _ _ x_h0 (some_pair _ _ _ _ fo_step1)). Qed.
Lemma fo_at1 : ca_at toy x_cfg (db_ops toy) (fst fo_ca1).
Proof. exact (history_at _ _ _ _ _ _ fo_h1). Qed.
Lemma fo_quiet : Forall (fun st => ~ restarts (h_ev st)) [fo_e1].
Proof. constructor; [intros []|constructor]. Qed.
(** Alice's own Interest for the same name is refused. *)
Lemma fo_step2 : step toy x_cfg (db_ops toy) (fst fo_ca1) (EvInterest (x_inputs x_now 1) x_new_interest) = Some (fst fo_ca1, snd (x_go (fst fo_ca1) (x_inputs x_now 1) x_new_interest)).
Proof. vm_compute. reflexivity. Qed.
Lemma fo_not_signed : ~ signed_by toy x_new_interest (o_pub toy fo_sk).
Proof. intros (sg & Q & V). vm_compute in Q. injection Q as <-. vm_compute in V. discriminate. Qed.
Lemma fo_undisturbed : undisturbed toy x_cfg (db_ops toy) SessionWitness.v_id (o_pub toy fo_sk) (fst fo_ca1) (fst fo_ca1).
Proof.
  eexists. split; [eapply steps_cons; [exact fo_step2|constructor]|]. constructor; [|constructor]. split; [intros []|].
  intros i x [H|(n & key & H)]; [|discriminate H]. cbn [h_ev] in H. injection H as _ <-. intros _. exact fo_not_signed.
Qed.
(** Alice tries again a moment later; genNewInterest takes another version from the clock. *)
Lemma fo_again : applies toy x_cfg x_req0 (x_rin x_now 2) (x_inputs x_now 1) x_keyname x_sk x_now (x_now + sec 3600).
Proof.
  constructor.
  - exists x_profile, (bs "alice ephemeral"), (repeat x00 8). split; reflexivity.
  - reflexivity.
  - exists x_ca_cert. split; [reflexivity|vm_compute; reflexivity].
  - exists [gc (bs "alice")], (gc (bs "k1")). split; [reflexivity|]. split; [discriminate|]. intros k K. vm_compute in K. injection K as <-. vm_compute. discriminate.
  - eexists _, _. split; [vm_compute; reflexivity|]. meets.
  - eexists _, _. split; [reflexivity|]. unfold period_policy. meets.
  - meets.
Qed.
Lemma fo_held : pending (db_ops toy) (fst fo_ca1) (id_for toy (ca_idkey (fst fo_ca1)) (c_name (cert_request toy x_sk (x_rin x_now 1) x_keyname x_now (x_now + sec 3600)))) <> None.
Proof. vm_compute. discriminate. Qed.
Lemma fo_free : pending (db_ops toy) (fst fo_ca1) (id_for toy (ca_idkey (fst fo_ca1)) (c_name (cert_request toy x_sk (x_rin x_now 2) x_keyname x_now (x_now + sec 3600)))) = None.
Proof. vm_compute. reflexivity. Qed.
Lemma fo_unheard : ~ heard_of toy (ca_idkey (fst fo_ca1)) (id_for toy (ca_idkey (fst fo_ca1)) (c_name (cert_request toy x_sk (x_rin x_now 2) x_keyname x_now (x_now + sec 3600)))) [fo_e1].
Proof.
  intros (st & i & x & rt & peer & c & [<-|[]] & [H|(n & key & H)] & C & ID); [|discriminate H]. cbn [fo_e1 h_ev] in H. injection H as _ <-.
  assert (RT : rt = RT_NEW \/ rt = RT_REVOKE) by (destruct C as (cty & [[Q _]|[Q _]] & _); auto).
  apply carries_decode in C; [|exact RT]. destruct RT as [-> | ->]; vm_compute in C; [|discriminate C]. injection C as _ <-. vm_compute in ID. discriminate ID.
Qed.
(** And the name mallory did ask for was heard of. *)
Lemma fo_heard : heard_of toy (ca_idkey (fst fo_ca1)) SessionWitness.v_id [fo_e1].
Proof.
  exists fo_e1, (x_inputs x_now 1), fo_x, RT_NEW. exists (o_ecdh_pub toy (bs "mallory ephemeral")), fo_creq. split; [left; reflexivity|]. split; [left; reflexivity|].
  split; [apply carries_decode; [auto|]; vm_compute; reflexivity|]. vm_compute. reflexivity.
Qed.
(** Alice's two Interests. *)
Definition fo_y2 : interest := Eval vm_compute in match fst (gen_new toy x_req0 (x_rin x_now 2) x_keyname x_sk x_now (x_now + sec 3600)) with Ok (Some i) => i | _ => x_new_interest end.
Lemma fo_asks1 : asks_new toy x_req0 (x_rin x_now 1) x_keyname x_sk x_now (x_now + sec 3600) x_new_interest x_req1.
Proof. vm_compute. reflexivity. Qed.
Lemma fo_asks2 : asks_new toy x_req0 (x_rin x_now 2) x_keyname x_sk x_now (x_now + sec 3600) fo_y2 x_req1.
Proof. vm_compute. reflexivity. Qed.
