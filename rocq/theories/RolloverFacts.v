(** Proofs of C123. *)
From Verif Require Import RequesterFacts.
From Verif Require Export Spec_Rollover ReconfigFacts.
Local Open Scope N_scope.

Lemma learned : forall E S (ops : store_ops S) tr g s d, env_laws E -> reconfigured E ops tr g s -> ca_prof s = Some d -> one_key_since_start E tr g ->
  fits (p_info (cfp g)) -> Forall fits (p_probe_keys (cfp g)) -> (- 2 ^ 63 <= p_maxvalid (cfp g) < 2 ^ 63)%Z -> Forall (fun e => cert_fits E (fst e)) tr ->
  exists p c, on_profile E d = Ok p /\ p_prefix p = p_prefix (cfp g) /\ p_maxvalid p = p_maxvalid (cfp g) /\ p_cert p = Some c /\ public_key c = o_pub E (cf_sk g) /\
    (forall m, data_signed_by E m (cf_sk g) -> verify_data E m c = true).
Proof.
  intros E S ops tr g s d L H D OK K1 K2 K4 CF. destruct (profile_c E S ops tr g s d H D) as (a & g1 & st & b & T & F & C & _ & _ & R).
  destruct (OK a g1 st b T F) as [PK PG]. rewrite T in CF. apply Forall_app in CF as [_ CF]. pose proof (Forall_inv CF) as (K3 & K5 & K6 & K7). cbn [fst] in *.
  destruct (R (laws_sig E L) PK K1 K2 K3 K4 K5 K6 K7) as (p & X1 & X2 & X3 & X4 & _). exists p, (cf_cert g1).
  split; [exact X1|]. split; [exact X2|]. split; [exact X4|]. split; [exact X3|]. split; [congruence|].
  intros m SG. unfold verify_data. rewrite PK, PG, SG. apply (l_sign_verify E (laws_sig E L)).
Qed.

(** A profile that is there stays the same until the CA is started again. *)
Lemma profile_stays : forall E S (ops : store_ops S) g s tr g2 s2 d, csteps E ops g s tr g2 s2 -> ca_prof s = Some d -> Forall (fun e => ~ restarts (h_ev (snd e))) tr -> ca_prof s2 = Some d.
Proof.
  intros E S ops g s tr g2 s2 d H. induction H as [g s|g s ev es s1 tr g2 s2 ST _ IH|g g1 s key tr g2 s2 Q _ IH|g a s tr g2 s2 _ IH|g c sk kl s tr g2 s2 _ IH]; intros D F; auto.
  - inversion F as [|? ? F1 F2]; subst. cbn [snd h_ev] in F1. apply IH; [|exact F2]. destruct ev as [i x|i x n key|key|i]; cbn [restarts] in F1; try tauto; cbn [step] in ST.
    + destruct (on_interest E g ops s i x) as [es0 o] eqn:O. assert (Q : s1 = apply_effs ops es0 s) by (destruct o; try discriminate; injection ST as <- <-; reflexivity). subst s1. apply effs_keep; [exact D|]. eapply interest_keeps; eassumption.
    + rewrite D in ST. cbn in ST. injection ST as <- <-. exact D.
  - inversion F as [|? ? F1 F2]; subst. exfalso. apply F1. exact I.
Qed.
