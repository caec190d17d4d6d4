(** Interests that bring a CA down. *)
From Verif Require Export CrashFacts VerdictWitness FilesFacts FilesWitness GuessWitness.
Local Open Scope N_scope.

(** A CHALLENGE Interest without a code while a code is expected. *)
Definition k_params : list tlv := [Tlv T_SelectedChallenge (bs "pin")].
Definition k_chal := Eval vm_compute in z_chal (snd n_chal1) k_params.
Definition k_r2 : request := Eval vm_compute in pending_of (fst n_ca2) z_id.
Definition k_cs2 : cstate := Eval vm_compute in match rq_cs k_r2 with Some c => c | None => CState [] 0 0 0 [] end.
Definition k_i : inputs := x_inputs (x_now + sec 20) 3.
Lemma k_at2 : ca_at toy w_cfg mem_ops (fst n_ca2).
Proof. exact (ca_at_step _ _ _ _ _ _ _ _ w_at1 (some_pair _ _ _ _ n_step2)). Qed.
Lemma mem_in : forall m id r, mem_get m id = Some r -> In r (map snd m).
Proof. intros m id r H. unfold mem_get in H. induction m as [|[k v] m IH]; cbn in *; [discriminate|]. destruct (bytes_eqb id k); cbn in *; [left; congruence|right; auto]. Qed.
Lemma k_short : forall s, forallb (fun r => blen (name_wire (c_name (rq_cert r))) <? 2 ^ 31) (map snd (ca_store s)) = true -> short_names w_cfg mem_ops s.
Proof. intros s F. split; [vm_compute; reflexivity|]. intros id r P. rewrite forallb_forall in F. apply N.ltb_lt. exact (F r (mem_in _ _ _ P)). Qed.
Ltac short_tac := apply k_short; vm_compute; reflexivity.
Lemma k_contains : contains toy k_r2 (fst k_chal) k_params.
Proof. exists (enc_tlvs k_params). split; [apply unsealed_iff; eexists; vm_compute; reflexivity|]. split; [discriminate|vm_compute; reflexivity]. Qed.
Lemma k_throws : throws toy w_cfg mem_ops (fst n_ca2) k_i (fst k_chal).
Proof.
  apply (thr_challenge _ _ _ _ _ _ z_id k_r2); [names_tac|reflexivity|signed_tac|]. apply (up_challenge _ _ _ _ _ k_params (bs "pin")); [exact k_contains|selects_tac|].
  apply (throw_no_code _ _ _ _ _ _ 3600 k_cs2); [constructor|discriminate|reflexivity|left; reflexivity|reflexivity].
Qed.

(** A short request ID, without signature. *)
Definition k_id : interest := Interest (x_prefix ++ [r_CA; gc (bs "CHALLENGE"); gc (bs "123")]) None None.
Lemma k_corrupts : corrupts w_cfg k_id.
Proof. apply (cor_id _ _ 8 (bs "123") []); [reflexivity|discriminate]. Qed.

(** A PIN is asked for and the generator yields unusable words only. *)
Definition k_r1 : request := Eval vm_compute in pending_of (fst w_ca1) z_id.
Lemma k_stalls : stalls toy w_cfg mem_ops (fst w_ca1) (with_words [4294967295; 4294000000] k_i) (fst n_chal1).
Proof.
  apply (stall _ _ _ _ _ _ z_id k_r1 k_params (bs "pin")); [names_tac|reflexivity|signed_tac| |selects_tac|reflexivity|left; reflexivity|].
  - exists (enc_tlvs k_params). split; [apply unsealed_iff; eexists; vm_compute; reflexivity|]. split; [discriminate|vm_compute; reflexivity].
  - cbn [with_words in_words]. intros w [<-|[<-|[]]]; vm_compute; discriminate.
Qed.
Lemma k_anchors : cc_anchors (cf_chal w_cfg) = possession_anchors toy (read_json f_file).
Proof. rewrite f_anchors. reflexivity. Qed.
Lemma anchors_tame : forall E (g : ca_cfg) file, cc_anchors (cf_chal g) = possession_anchors E file -> cc_anchors (cf_chal g) <> UB /\ cc_anchors (cf_chal g) <> Hang.
Proof. intros E g [j|] ->; [|split; discriminate]. unfold possession_anchors. cbn [of_opt bind]. destruct (pt_children j); [split; discriminate|]. destruct (pt_child (bs "anchor-list") j); split; discriminate. Qed.
Lemma faults_read : forall E g S (ops : store_ops S) s i x file, ca_at E g ops s -> cc_anchors (cf_chal g) = possession_anchors E file ->
  snd (on_interest E g ops s i x) = UB <-> corrupts g x.
Proof. intros E g S ops s i x file A AN. apply faults_iff; [exact A|]. exact (proj1 (anchors_tame E g file AN)). Qed.
Lemma hangs_read : forall E g S (ops : store_ops S) s i x file, ca_at E g ops s -> short_names g ops s -> cc_anchors (cf_chal g) = possession_anchors E file ->
  snd (on_interest E g ops s i x) = Hang <-> stalls E g ops s i x.
Proof. intros E g S ops s i x file A SN AN. apply hangs_iff; [exact A|exact SN|]. exact (proj2 (anchors_tame E g file AN)). Qed.
Lemma served : forall E g S (ops : store_ops S) s i x file, ca_at E g ops s -> short_names g ops s -> suffix_limit_sane g -> cc_anchors (cf_chal g) = possession_anchors E file ->
  snd (on_interest E g ops s i x) = Ok tt <-> ~ throws E g ops s i x /\ ~ corrupts g x /\ ~ stalls E g ops s i x.
Proof.
  intros E g S ops s i x file A SN SANE AN. rewrite <- (throws_iff s i x A SN SANE), <- (faults_read E g S ops s i x file A AN), <- (hangs_read E g S ops s i x file A SN AN).
  destruct (snd (on_interest E g ops s i x)) as [[]| | |]; split; intros H; try reflexivity; try discriminate; [repeat split; discriminate|..]; destruct H as (H1 & H2 & H3); contradiction.
Qed.
Lemma k_case : ca_at toy w_cfg mem_ops (fst n_ca2) /\ short_names w_cfg mem_ops (fst n_ca2) /\ suffix_limit_sane w_cfg /\ throws toy w_cfg mem_ops (fst n_ca2) k_i (fst k_chal) /\
  snd (on_interest toy w_cfg mem_ops (fst n_ca2) (x_inputs (x_now + sec 3500) 3) (fst n_chal2)) = Ok tt.
Proof. split; [exact k_at2|]. split; [short_tac|]. split; [exact v_sane|]. split; [exact k_throws|]. vm_compute. reflexivity. Qed.
Lemma k_stall_case : ca_at toy w_cfg mem_ops (fst w_ca1) /\ short_names w_cfg mem_ops (fst w_ca1) /\ cc_anchors (cf_chal w_cfg) = possession_anchors toy (read_json f_file) /\
  stalls toy w_cfg mem_ops (fst w_ca1) (with_words [4294967295; 4294000000] k_i) (fst n_chal1).
Proof. split; [exact w_at1|]. split; [short_tac|]. split; [exact k_anchors|exact k_stalls]. Qed.
