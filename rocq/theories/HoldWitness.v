(** Concrete cases for C126. *)
From Verif Require Import CaProps TraceFacts RequesterFacts.
From Verif Require Export HoldFacts RevokeWitness ReconfigRevokeWitness.
Local Open Scope N_scope.

(** A stranger asks for the revocation of the certificate, then the CA makes a new profile packet. *)
Definition ho_x : interest := Eval vm_compute in strangers_revoke toy w_cfg (bs "mallory ephemeral") w_cert.
Definition ho_ca1 := Eval vm_compute in w_go v_ca0 (x_inputs (x_now + sec 40) 5) ho_x.
Definition ho_ca2 : ca_state mem * list eff := Eval vm_compute in match step toy w_cfg mem_ops (fst ho_ca1) (EvProfile (x_inputs (x_now + sec 50) 6)) with Some r => r | None => (v_ca0, []) end.
Lemma ho_step1 : step toy w_cfg mem_ops v_ca0 (EvInterest (x_inputs (x_now + sec 40) 5) ho_x) = Some ho_ca1.
Proof. vm_compute. reflexivity. Qed.
Lemma ho_step2 : step toy w_cfg mem_ops (fst ho_ca1) (EvProfile (x_inputs (x_now + sec 50) 6)) = Some ho_ca2.
Proof. vm_compute. reflexivity. Qed.
Lemma ho_undisturbed : undisturbed toy w_cfg mem_ops rv_id (public_key w_cert) (fst ho_ca1) (fst ho_ca2).
Proof.
  eexists. split; [eapply steps_cons; [rewrite ho_step2; apply f_equal, surjective_pairing|constructor]|]. constructor; [|constructor]. split; [intros []|].
  intros i x [H|(n & key & H)]; discriminate H.
Qed.
Lemma ho_pending : exists r, pending mem_ops (fst ho_ca2) rv_id = Some r /\ public_key (rq_cert r) = o_pub toy x_sk /\ rq_cert r = w_cert.
Proof. eexists. split; [vm_compute; reflexivity|]. split; vm_compute; reflexivity. Qed.
Lemma ho_at2 : ca_at toy w_cfg mem_ops (fst ho_ca2).
Proof.
  eapply ca_at_step; [eapply ca_at_step; [exact v_at0|rewrite ho_step1; apply f_equal, surjective_pairing]|rewrite ho_step2; apply f_equal, surjective_pairing].
Qed.
Lemma ho_later : revocable toy w_cfg (x_inputs (x_now + sec 60) 7) w_cert.
Proof. destruct rv_revocable as [A B C D]. constructor; [exact A|exact B| |exact D]. eexists _, _. split; [vm_compute; reflexivity|]. meets. Qed.

(** A CA with a database, in which a stranger's request is pending, and its restart. *)
Definition hd_ca0 : ca_state db := Eval vm_compute in ca_init (db_ops toy) (bs "id key").
Definition hd_x : interest := Eval vm_compute in strangers_revoke toy rk_cfg (bs "mallory ephemeral") rc_issued.
Definition hd_ca1 : ca_state db * list eff := Eval vm_compute in match step toy rk_cfg (db_ops toy) hd_ca0 (EvInterest rk_i hd_x) with Some r => r | None => (hd_ca0, []) end.
Lemma hd_step : step toy rk_cfg (db_ops toy) hd_ca0 (EvInterest rk_i hd_x) = Some hd_ca1.
Proof. vm_compute. reflexivity. Qed.
Lemma hd_held : pending (db_ops toy) (fst hd_ca1) (id_for toy (ca_idkey (fst hd_ca1)) (c_name rc_issued)) <> None.
Proof. vm_compute. discriminate. Qed.
Lemma hd_free : pending (db_ops toy) (fst hd_ca1) (id_for toy (bs "fourth id key") (c_name rc_issued)) = None.
Proof. vm_compute. reflexivity. Qed.
Lemma hd_at : ca_at toy rk_cfg (db_ops toy) (fst hd_ca1).
Proof.
  eapply ca_at_step; [|rewrite hd_step; apply f_equal, surjective_pairing]. constructor; [meets|meets|constructor|].
  exists (bs "id key"), [], []. vm_compute. reflexivity.
Qed.

(** A stranger applies for a certificate under the very name of the certificate, with a key of their own. *)
Definition hs_sk : bytes := bs "mallory key".
Definition hs_cert : cert := Eval vm_compute in
  let v := Some (mk_validity (x_now + sec 40) (x_now + sec 100)) in let kl := c_name w_cert in
  Cert (c_name w_cert) true (Some (o_pub toy hs_sk)) v (Some kl) [] (o_sign toy hs_sk (MCert (c_name w_cert) true (Some (o_pub toy hs_sk)) v (Some kl) [])).
Definition hs_peer : bytes := Eval vm_compute in o_ecdh_pub toy (bs "mallory ephemeral").
Definition hs_x : interest := Eval vm_compute in signed_interest toy hs_sk (p_prefix (cfp w_cfg) ++ [gc (bs "CA"); gc (bs "NEW")]) (req_encode toy RT_NEW hs_peer hs_cert).
Lemma hs_addressed : addressed w_cfg VNew (i_name hs_x).
Proof. eexists. vm_compute. reflexivity. Qed.
Lemma hs_admissible : admissible toy w_cfg (x_inputs (x_now + sec 40) 5) RT_NEW rv_id hs_x hs_peer hs_cert.
Proof.
  pose proof rv_revocable as [NP _ WI _]. constructor; [exact WI| | | |exact NP| |].
  - apply carries_decode; [auto|]. vm_compute. reflexivity.
  - meets.
  - meets.
  - left. split; [reflexivity|]. split; [eexists _, _; split; [vm_compute; reflexivity|]; unfold period_policy; meets|].
    split; [vm_compute; reflexivity|]. eexists. split; vm_compute; reflexivity.
  - unfold key_derivable. meets.
Qed.
Definition hs_ca1 := Eval vm_compute in w_go v_ca0 (x_inputs (x_now + sec 40) 5) hs_x.
Lemma hs_step : step toy w_cfg mem_ops v_ca0 (EvInterest (x_inputs (x_now + sec 40) 5) hs_x) = Some hs_ca1.
Proof. vm_compute. reflexivity. Qed.
Definition hs_y : interest := Eval vm_compute in empty_challenge toy w_cfg rv_id x_sk.
Lemma hs_names : names_request w_cfg rv_id hs_y.
Proof. eexists _, _. split; vm_compute; reflexivity. Qed.
Lemma hs_refused : step toy w_cfg mem_ops (fst hs_ca1) (EvInterest (x_inputs (x_now + sec 50) 6) hs_y) = Some (fst hs_ca1, snd (w_go (fst hs_ca1) (x_inputs (x_now + sec 50) 6) hs_y)).
Proof. vm_compute. reflexivity. Qed.
Lemma hs_not_signed : ~ signed_by toy hs_y (public_key hs_cert).
Proof. intros (sg & Q & V). vm_compute in Q. injection Q as <-. vm_compute in V. discriminate. Qed.
(** The certificate's holder tries to clear the request away. *)
Lemma hs_undisturbed : undisturbed toy w_cfg mem_ops rv_id (public_key hs_cert) (fst hs_ca1) (fst hs_ca1).
Proof.
  eexists. split; [eapply steps_cons; [exact hs_refused|constructor]|]. constructor; [|constructor]. split; [intros []|].
  intros i x [H|(n & key & H)]; [|discriminate H]. cbn [h_ev] in H. injection H as _ <-. intros _. exact hs_not_signed.
Qed.
