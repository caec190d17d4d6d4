(** Concrete cases for C118. *)
From Verif Require Export KeychainFacts RequesterWitness.
Local Open Scope N_scope.

Definition kc_pib : pib := [Ident (x_prefix ++ [gc (bs "alice")]) [(x_keyname, x_sk); (x_prefix ++ [gc (bs "alice"); gc (bs "KEY"); gc (bs "k2")], bs "other key")] (Some x_keyname)].
Definition kc_other : name := x_prefix ++ [gc (bs "bob"); gc (bs "KEY"); gc (bs "k1")].
Lemma kc_sound : keychain_sound kc_pib.
Proof.
  split; [constructor; [intros []|constructor]|]. constructor; [|constructor]. cbn [map fst id_keys]. constructor; [intros [H|[]]; revert H; vm_compute; discriminate|]. constructor; [intros []|constructor].
Qed.
Lemma kc_in : in_keychain kc_pib x_keyname x_sk.
Proof. exists (hd (Ident [] [] None) kc_pib), (gc (bs "k1")). split; [left; reflexivity|]. split; [reflexivity|left; reflexivity]. Qed.
Lemma kc_not : forall sk, ~ in_keychain kc_pib kc_other sk.
Proof. intros sk (i & kid & [<- |[]] & _ & [H|[H|[]]]); revert H; vm_compute; discriminate. Qed.
Definition kc_failed : rq_call := QNew (x_rin x_now 1) kc_other x_now (x_now + sec 3600).
Definition kc_new : rq_call := QNew (x_rin x_now 1) x_keyname x_now (x_now + sec 3600).
Definition kc_calls : list rq_call := [kc_failed; kc_new; QReply (x_rin x_now 2) (the_put (snd x_ca1)); kc_failed; QSelect CH_PIN].
Fixpoint calls (s : rstate) (l : list rq_call) : list (rq_call * rq_out) * rstate :=
  match l with
  | [] => ([], s)
  | c :: l' => let (o, s1) := call_req toy kc_pib s c in let (r, s2) := calls s1 l' in ((c, o) :: r, s2)
  end.
Lemma calls_performs : forall l s, performs toy kc_pib s (fst (calls s l)) (snd (calls s l)).
Proof.
  induction l as [|c l IH]; intros s; [constructor|]. cbn [calls]. destruct (call_req toy kc_pib s c) as [o s1] eqn:C. specialize (IH s1). destruct (calls s1 l) as [r s2]. cbn [fst snd] in IH |- *. econstructor; eassumption.
Qed.
Definition kc_run := Eval vm_compute in calls x_req0 kc_calls.
Lemma kc_run_eq : calls x_req0 kc_calls = kc_run.
Proof. vm_compute. reflexivity. Qed.
(** Two calls for a key that is not there, among those that succeed. *)
Lemma kc_challenges : exists l s x s', performs toy kc_pib x_req0 l s /\ call_req toy kc_pib s (QChallenge (x_rin x_now 3) []) = (OChallenge (Ok x), s') /\ In (kc_failed, ONew Exn) l /\ length l = 5%nat.
Proof.
  exists (fst kc_run), (snd kc_run), (the_interest x_chal1), (snd (call_req toy kc_pib (snd kc_run) (QChallenge (x_rin x_now 3) []))). split; [rewrite <- kc_run_eq; apply calls_performs|]. split; [vm_compute; reflexivity|]. split; [left; reflexivity|reflexivity].
Qed.
Lemma kc_fails : call_req toy kc_pib x_req0 kc_failed = (ONew Exn, upd_identity (x_prefix ++ [gc (bs "bob")]) x_req0) /\ ~ makes_new (kc_failed, ONew Exn).
Proof. split; [vm_compute; reflexivity|intros (x & H); discriminate]. Qed.
Lemma kc_makes : exists x s', gen_new_from toy kc_pib x_req0 (x_rin x_now 1) x_keyname x_now (x_now + sec 3600) = (Ok (Some x), s').
Proof. exists x_new_interest, x_req1. vm_compute. reflexivity. Qed.
Lemma kc_under : key_under (p_prefix (rs_profile x_req0)) kc_other.
Proof. split; [exists [gc (bs "bob"); gc (bs "KEY"); gc (bs "k1")]; reflexivity|]. exists (x_prefix ++ [gc (bs "bob")]), (gc (bs "k1")). reflexivity. Qed.
