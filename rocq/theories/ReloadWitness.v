From Verif Require Export ReloadFacts ConfigWitness.
Local Open Scope N_scope.

Definition rl_file (l : list ptree) : option ptree := Some (k_obj [(bs "ca-list", k_arr l)]).
(** Two items for one CA. *)
Definition rl_item (info : bytes) : ptree := k_obj [(bs "ca-prefix", k_str (bs "/example/ca")); (bs "ca-info", k_str info); (bs "certificate", k_str k_cert)].
Definition rl_profile (info : bytes) : profile := Profile k_prefix (k_prefix ++ [gc (bs "CA")]) info [] 86400 None [] (Some x_ca_cert).
(** A profile with a new certificate. *)
Definition rl_new : profile := Profile k_prefix (k_prefix ++ [gc (bs "CA")]) [] [] 86400 None [] (Some (x_self (bs "new key") x_keyloc 0 1000000000)).
(** An item without certificate. *)
Definition rl_bare : ptree := k_obj [(bs "ca-prefix", k_str (bs "/b"))].
Definition rl_a : profile := k_p (bs "a") (bs "1").

Lemma rl_loads : reload toy (rl_file [k_plain]) [rl_a] = ([k_plain_profile], Ok tt).
Proof. vm_compute. reflexivity. Qed.
Lemma rl_fails : reload toy (rl_file [k_plain; rl_bare; k_plain]) [rl_a] = ([k_plain_profile], Exn) /\
  reload toy (Some rl_bare) [rl_a] = ([], Exn) /\ reload toy None [rl_a] = ([rl_a], Exn) /\ reload toy (Some (k_obj [])) [rl_a] = ([rl_a], Exn).
Proof. vm_compute. auto. Qed.
Lemma kept_refuted : exists file l, l <> [] /\ reload toy file l = ([], Exn).
Proof. exists (Some rl_bare), [rl_a]. split; [discriminate|apply rl_fails]. Qed.
Lemma kept_mixed : exists file l p, snd (reload toy file l) = Exn /\ In p (fst (reload toy file l)) /\ ~ In p l.
Proof.
  exists (rl_file [k_plain; rl_bare; k_plain]), [rl_a], k_plain_profile. rewrite (proj1 rl_fails). split; [reflexivity|]. split; [left; reflexivity|].
  intros [Q|[]]. discriminate.
Qed.
Lemma two_profiles : exists file p old, let l := fold_left (call_do toy) [CallLoad file; CallAdd p] [] in
  reload toy file [] = ([old; old], Ok tt) /\ l = [p; old] /\ p_prefix old = p_prefix p /\ p_cert old <> p_cert p.
Proof.
  exists (rl_file [rl_item (bs "old"); rl_item (bs "old")]), rl_new, (rl_profile (bs "old")). cbv zeta.
  split; [vm_compute; reflexivity|]. split; [vm_compute; reflexivity|]. split; [reflexivity|discriminate].
Qed.
Lemma rl_calls : let calls := [CallAdd rl_a; CallLoad (rl_file [k_plain]); CallAdd rl_a; CallLoad None; CallRemove k_prefix; CallLoad (rl_file [rl_item (bs "old"); rl_bare]); CallAdd rl_a] in
  Forall (no_repeats toy) calls /\ fold_left (call_do toy) calls [] = [rl_profile (bs "old"); rl_a].
Proof.
  cbv zeta. split; [|vm_compute; reflexivity]. repeat first [apply Forall_nil | apply Forall_cons]; try exact I.
  - intros t a x b y c p q (a1 & b1 & Q & _) R. destruct a1 as [|z a1]; [|destruct a1; discriminate]. injection Q as <- <-. cbn in R.
    destruct a as [|? [|? ?]]; try discriminate. destruct b; discriminate.
  - intros t a x b y c p q (a1 & b1 & Q & _) R. destruct a1 as [|z a1]; [|destruct a1; discriminate]. injection Q as <- <-. cbn [pt_children k_arr map] in R.
    destruct a as [|? [|? [|? ?]]]; try discriminate; [|destruct b; discriminate]. destruct b as [|? [|? ?]]; try discriminate. injection R as <- <- <-.
    intros GX GY _. apply gives_iff in GY as [GY C]. cbn [snd] in GY. vm_compute in GY. injection GY as <-. apply C. reflexivity.
Qed.
