(** C118: a requester asks for and signs with keys it holds.  Vocabulary in Spec_Keychain.v; C58 says what is in the Interests. *)
From Verif Require Import KeychainWitness.
Local Open Scope N_scope.

(** A NEW Interest is for a key of the key chain under the CA's prefix and is signed with it; it is the one C58 is about. *)
Theorem C118_new : forall E p s ri kn nb na x s', sig_laws E -> gen_new_from E p s ri kn nb na = (Ok (Some x), s') ->
  exists sk, in_keychain p kn sk /\ key_under (p_prefix (rs_profile s)) kn /\ signed_by E x (o_pub E sk) /\ gen_new E s ri kn sk nb na = (Ok (Some x), s').
Proof. exact new_from. Qed.
Print Assumptions C118_new.
Example C118_new_case : exists x s', gen_new_from toy kc_pib x_req0 (x_rin x_now 1) x_keyname x_now (x_now + sec 3600) = (Ok (Some x), s').
Proof. exact kc_makes. Qed.
(** There is one for each such key, *)
Theorem C118_present : forall E p s ri kn sk nb na, keychain_sound p -> in_keychain p kn sk -> begins (p_prefix (rs_profile s)) kn ->
  gen_new_from E p s ri kn nb na = gen_new E s ri kn sk nb na.
Proof. exact present_key. Qed.
Print Assumptions C118_present.
Example C118_present_case : keychain_sound kc_pib /\ in_keychain kc_pib x_keyname x_sk /\ key_under (p_prefix (rs_profile x_req0)) x_keyname.
Proof. exact (conj kc_sound (conj kc_in y_key)). Qed.
(** and none for any other. *)
Theorem C118_missing : forall E p s ri kn nb na, (forall sk, ~ in_keychain p kn sk) ->
  exists o n, (o = Ok None \/ o = Exn) /\ gen_new_from E p s ri kn nb na = (o, upd_identity n s).
Proof. exact missing_key. Qed.
Print Assumptions C118_missing.
Example C118_missing_case : (forall sk, ~ in_keychain kc_pib kc_other sk) /\ key_under (p_prefix (rs_profile x_req0)) kc_other.
Proof. exact (conj kc_not kc_under). Qed.
(** After a call that makes none, all further calls return what they would have returned without it. *)
Theorem C118_failed : forall E p s ri kn nb na o s1, call_req E p s (QNew ri kn nb na) = (o, s1) -> ~ makes_new (QNew ri kn nb na, o) ->
  forall l, (exists s2, performs E p s1 l s2) <-> exists s2, performs E p s l s2.
Proof. exact failed_new. Qed.
Print Assumptions C118_failed.
Example C118_failed_case : call_req toy kc_pib x_req0 kc_failed = (ONew Exn, upd_identity (x_prefix ++ [gc (bs "bob")]) x_req0) /\ ~ makes_new (kc_failed, ONew Exn).
Proof. exact kc_fails. Qed.
(** Whatever has been called on a request, its CHALLENGE Interests are signed with the key of its last NEW Interest. *)
Theorem C118_signs : forall E p pr rt ecdh id0 l s ri m x s', sig_laws E -> performs E p (request_init pr rt ecdh id0) l s -> call_req E p s (QChallenge ri m) = (OChallenge (Ok x), s') ->
  exists a ri0 kn nb na x0 b sk, l = a ++ (QNew ri0 kn nb na, ONew (Ok (Some x0))) :: b /\ Forall (fun e => ~ makes_new e) b /\
    in_keychain p kn sk /\ signed_by E x0 (o_pub E sk) /\ signed_by E x (o_pub E sk).
Proof. exact challenge_key. Qed.
Print Assumptions C118_signs.
Example C118_signs_case : exists l s x s', performs toy kc_pib x_req0 l s /\ call_req toy kc_pib s (QChallenge (x_rin x_now 3) []) = (OChallenge (Ok x), s') /\ In (kc_failed, ONew Exn) l /\ length l = 5%nat.
Proof. exact kc_challenges. Qed.
