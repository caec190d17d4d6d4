(** Concrete values used by the examples beside the theorems, all in the environment [toy] of ToyEnv.v.
    Most are stored in normal form ([Eval vm_compute]). *)
From Verif Require Export ToyEnv ToyEnvFacts CaTrace Requester Spec_Crypto.
Local Open Scope N_scope.

Definition x_prefix : name := [gc (bs "ndn"); gc (bs "site")].
Definition x_ca_sk : bytes := bs "ca signing key".
Definition x_keyloc : name := x_prefix ++ [c_KEY; gc (bs "k0")].
(** A self-signed certificate of [sk]. *)
Definition x_self (sk : bytes) (keyName : name) (nb na : Z) : cert :=
  let n := keyName ++ [gc (bs "self"); version_comp 1] in
  let v := Some (sec nb, sec na) in
  Cert n true (Some (o_pub toy sk)) v (Some keyName) []
       (o_sign toy sk (MCert n true (Some (o_pub toy sk)) v (Some keyName) [])).
Definition x_ca_cert : cert := Eval vm_compute in x_self x_ca_sk x_keyloc 0 1000000000.

Definition x_profile : profile :=
  Profile x_prefix [gc (bs "edge")] (bs "Example CA") [bs "email"; bs "name"] 864000 (Some 2)
          [CH_PIN; CH_EMAIL; CH_POSSESSION] (Some x_ca_cert).

(** A trust anchor of the possession challenge and a credential it signed. *)
Definition x_anchor_sk : bytes := bs "anchor".
Definition x_anchor_key : name := [gc (bs "org"); c_KEY; gc (bs "a")].
Definition x_anchor : cert := Eval vm_compute in x_self x_anchor_sk x_anchor_key 0 1000000000.
Definition x_cred_sk : bytes := bs "credential key".
Definition x_cred : cert := Eval vm_compute in
  let n := [gc (bs "org"); gc (bs "bob"); c_KEY; gc (bs "b"); gc (bs "org"); version_comp 3] in
  let v := Some (sec 0, sec 1000000) in
  Cert n true (Some (o_pub toy x_cred_sk)) v (Some x_anchor_key) []
       (o_sign toy x_anchor_sk (MCert n true (Some (o_pub toy x_cred_sk)) v (Some x_anchor_key) [])).

Definition x_cfg : ca_cfg :=
  CaCfg (Config x_profile [] [Assign AParam [bs "name"]]) (ChalCfg (bs "send.sh") (Ok [x_anchor])) x_ca_cert x_ca_sk x_keyloc.

Definition x_now : Z := sec 5000.
Definition x_inputs (now : Z) (n : N) : inputs :=
  Inputs now now (bs "ca ephemeral") (1000 + n) (77 + n) [4294967295; 12345678 + n] (900 + n) (50 + n) 60 true [4242].
Definition x_rin (now : Z) (n : N) : rinputs := RInputs now n (7000 + n) x_keyloc (repeat x00 32).

(** The requester. *)
Definition x_sk : bytes := bs "alice signing key".
Definition x_id : name := x_prefix ++ [gc (bs "alice")].
Definition x_keyname : name := x_id ++ [c_KEY; gc (bs "k1")].
Definition x_req0 : rstate := request_init x_profile RT_NEW (bs "alice ephemeral") (repeat x00 8).
Definition x_new : res (option interest) * rstate := Eval vm_compute in
  gen_new toy x_req0 (x_rin x_now 1) x_keyname x_sk x_now (x_now + sec 3600).
Definition x_new_interest : interest := Eval vm_compute in
  match fst x_new with Ok (Some i) => i | _ => Interest [] None None end.
Definition x_req1 : rstate := Eval vm_compute in snd x_new.

Definition the_put (es : list eff) : data :=
  match flat_map (fun e => match e with EPut d => [d] | _ => [] end) es with
  | d :: _ => d
  | [] => Data [] [] 0 None []
  end.
Definition ok_state {A} (x : res A * rstate) (d : rstate) : rstate := match x with (Ok _, s) => s | _ => d end.
Definition the_interest (x : res interest * rstate) : interest :=
  match fst x with Ok i => i | _ => Interest [] None None end.

(** A CA with the SQLite storage handling the NEW Interest, then the pin challenge with one wrong code. *)
Definition x_ca0 : ca_state db := Eval vm_compute in ca_init (db_ops toy) (bs "id key").
Definition x_go (s : ca_state db) (i : inputs) (x : interest) : ca_state db * list eff :=
  match step toy x_cfg (db_ops toy) s (EvInterest i x) with
  | Some r => r
  | None => (s, [])
  end.
Definition x_ca1 := Eval vm_compute in x_go x_ca0 (x_inputs x_now 1) x_new_interest.
Definition x_req2 : rstate := Eval vm_compute in ok_state (on_new_response toy x_req1 (x_rin x_now 2) (the_put (snd x_ca1))) x_req1.
Definition x_sel : rstate := Eval vm_compute in snd (select_challenge x_req2 CH_PIN).
Definition x_chal1 := Eval vm_compute in gen_challenge toy x_sel (x_rin x_now 3) [].
Definition x_ca2 := Eval vm_compute in x_go (fst x_ca1) (x_inputs (x_now + sec 10) 2) (the_interest x_chal1).
Definition x_req3 : rstate := Eval vm_compute in ok_state (on_challenge_response toy (snd x_chal1) (x_rin x_now 4) (the_put (snd x_ca2))) x_req1.
Definition x_chal2 := Eval vm_compute in gen_challenge toy x_req3 (x_rin x_now 5) [(K_CODE, bs "000000")].
Definition x_ca3 := Eval vm_compute in x_go (fst x_ca2) (x_inputs (x_now + sec 20) 3) (the_interest x_chal2).
Definition x_req4 : rstate := Eval vm_compute in ok_state (on_challenge_response toy (snd x_chal2) (x_rin x_now 6) (the_put (snd x_ca3))) x_req1.
Definition x_code : bytes := code_of_word 12345680.
Definition x_chal3 := Eval vm_compute in gen_challenge toy x_req4 (x_rin x_now 7) [(K_CODE, x_code)].
Definition x_ca4 := Eval vm_compute in x_go (fst x_ca3) (x_inputs (x_now + sec 30) 4) (the_interest x_chal3).
Definition x_req5 : rstate := Eval vm_compute in ok_state (on_challenge_response toy (snd x_chal3) (x_rin x_now 8) (the_put (snd x_ca4))) x_req1.

(** ** A tactic for the hypotheses of examples *)
Lemma fits_b : forall b, (blen b <? 2 ^ 64) = true -> fits b.
Proof. intros b H. apply N.ltb_lt. exact H. Qed.
Lemma name_fits_b : forall n, wf_nameb n && (blen (name_wire n) <? 2 ^ 64) = true -> name_fits n.
Proof. intros n H. apply andb_prop in H as [H1 H2]. split; [apply wf_nameb_iff; exact H1|apply fits_b; exact H2]. Qed.
Lemma wf_tlv_b : forall t, wf_compb t = true -> wf_tlv t.
Proof. intros t H. assert (wf_name [t]) as W by (apply wf_nameb_iff; cbn; rewrite H; reflexivity). inversion W. assumption. Qed.
Ltac meets1 :=
  match goal with
  | |- env_laws toy => exact toy_laws
  | |- aes_laws toy => exact (laws_aes _ toy_laws)
  | |- ecdh_laws toy => exact (laws_ecdh _ toy_laws)
  | |- hash_laws toy => exact (laws_hash _ toy_laws)
  | |- sig_laws toy => exact (laws_sig _ toy_laws)
  | |- codec_laws toy => exact (laws_codec _ toy_laws)
  | |- let _ := _ in _ => cbv zeta
  | |- _ /\ _ => split
  | |- Forall _ _ => constructor
  | |- name_fits _ => apply name_fits_b; vm_compute; reflexivity
  | |- fits _ => apply fits_b; vm_compute; reflexivity
  | |- wf_cert _ => apply wf_certb_iff; vm_compute; reflexivity
  | |- wf_name _ => apply wf_nameb_iff; vm_compute; reflexivity
  | |- wf_tlv _ => apply wf_tlv_b; vm_compute; reflexivity
  | |- _ = _ => vm_compute; reflexivity
  | |- (_ < _)%N => vm_compute; reflexivity
  | |- (_ < _)%Z => vm_compute; reflexivity
  | |- (_ <= _)%N => vm_compute; discriminate
  | |- (_ <= _)%Z => vm_compute; discriminate
  | |- _ <> _ => vm_compute; discriminate
  | |- forall _, _ => intros
  end.
Ltac meets := repeat meets1.
