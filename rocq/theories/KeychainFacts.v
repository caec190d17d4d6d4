From Verif Require Import NameFacts RequesterFacts ClientFacts ClientSessionFacts.
From Verif Require Export Spec_Keychain.
Local Open Scope N_scope.

Lemma get_in : forall n p i, pib_get n p = Some i -> In i p /\ id_name i = n.
Proof.
  intros n p i. induction p as [|j p IH]; cbn [pib_get]; intros H; [discriminate|]. destruct (name_eqb (id_name j) n) eqn:B.
  - injection H as <-. apply name_eqb_eq in B. split; [left; reflexivity|exact B].
  - apply IH in H as [H1 H2]. split; [right; exact H1|exact H2].
Qed.
Lemma get_unique : forall p i, NoDup (map id_name p) -> In i p -> pib_get (id_name i) p = Some i.
Proof.
  intros p i. induction p as [|j p IH]; intros ND IN; [destruct IN|]. inversion ND as [|? ? NI ND']; subst. cbn [pib_get]. destruct (name_eqb (id_name j) (id_name i)) eqn:B.
  - apply name_eqb_eq in B. destruct IN as [->|IN]; [reflexivity|]. exfalso. apply NI. rewrite B. apply in_map, IN.
  - destruct IN as [->|IN]; [|apply IH; assumption]. assert (Q : name_eqb (id_name i) (id_name i) = true) by (apply name_eqb_eq; reflexivity). congruence.
Qed.
Lemma under_split : forall prefix identity kid, begins prefix (identity ++ [gc (bs "KEY"); kid]) -> key_under prefix (identity ++ [gc (bs "KEY"); kid]).
Proof. intros prefix identity kid H. split; [exact H|]. exists identity, kid. reflexivity. Qed.
(** The cases. *)
Lemma from_cases : forall E p s ri kn nb na,
  (exists sk, in_keychain p kn sk /\ key_under (p_prefix (rs_profile s)) kn /\ gen_new_from E p s ri kn nb na = gen_new E s ri kn sk nb na) \/
  (exists o n, (o = Ok None \/ o = Exn) /\ gen_new_from E p s ri kn nb na = (o, upd_identity n s)).
Proof.
  intros E p s ri kn nb na. assert (SS : upd_identity (rs_identity s) s = s) by (destruct s; reflexivity). unfold gen_new_from.
  destruct (is_prefix (p_prefix (rs_profile s)) kn) eqn:P; cbn [negb]; [|right; exists (Ok None), (rs_identity s); rewrite SS; auto].
  destruct kn as [|a l]; [right; exists (Ok None), (rs_identity s); rewrite SS; auto|]. remember (a :: l) as kn eqn:KN. clear KN.
  destruct (get_neg 2 kn) as [k|] eqn:G; [|right; exists Exn, (rs_identity s); rewrite SS; auto]. destruct (comp_eqb k c_KEY) eqn:K; [|right; exists Exn, (rs_identity s); rewrite SS; auto].
  apply comp_eqb_eq in K. subst k. destruct (pib_get (prefix_neg 2 kn) p) as [i|] eqn:I; [|right; eauto]. destruct (find_key kn i) as [[kn' sk]|] eqn:F; [|right; eauto].
  left. exists sk. assert (U : key_under (p_prefix (rs_profile s)) kn) by (apply key_under_iff; auto). split; [|split; [exact U|reflexivity]].
  destruct U as (_ & identity & kid & Q). apply get_in in I as [I1 I2]. assert (Q2 : prefix_neg 2 kn = identity).
  { rewrite Q. exact (prefix_neg_app identity [gc (bs "KEY"); kid]). }
  exists i, kid. split; [exact I1|]. rewrite I2, Q2. split; [exact Q|]. apply find_some in F as [F1 F2]. cbn [fst] in F2. apply name_eqb_eq in F2. rewrite <- F2 at 1. exact F1.
Qed.

Lemma missing_key : forall E p s ri kn nb na, (forall sk, ~ in_keychain p kn sk) ->
  exists o n, (o = Ok None \/ o = Exn) /\ gen_new_from E p s ri kn nb na = (o, upd_identity n s).
Proof. intros E p s ri kn nb na N. destruct (from_cases E p s ri kn nb na) as [(sk & I & _)|H]; [destruct (N sk I)|exact H]. Qed.
Lemma present_key : forall E p s ri kn sk nb na, keychain_sound p -> in_keychain p kn sk -> begins (p_prefix (rs_profile s)) kn ->
  gen_new_from E p s ri kn nb na = gen_new E s ri kn sk nb na.
Proof.
  intros E p s ri kn sk nb na [U1 U2] (i & kid & IN & Q & K) B. assert (KU : key_under (p_prefix (rs_profile s)) kn) by (rewrite Q in B |- *; apply under_split, B).
  apply key_under_iff in KU as [P G]. unfold gen_new_from. rewrite P, G. cbn [negb]. rewrite comp_eqb_refl. assert (PN : prefix_neg 2 kn = id_name i) by (rewrite Q; exact (prefix_neg_app (id_name i) [gc (bs "KEY"); kid])).
  rewrite PN, (get_unique p i U1 IN). rewrite Forall_forall in U2. rewrite (find_key_in kn sk i (U2 i IN) K). destruct kn as [|a l]; [destruct (id_name i); discriminate|reflexivity].
Qed.
Lemma new_held : forall E p s ri kn nb na x s', sig_laws E -> gen_new_from E p s ri kn nb na = (Ok (Some x), s') ->
  exists sk, in_keychain p kn sk /\ signed_by E x (o_pub E sk) /\ rs_keypair s' = Some (kn, sk).
Proof.
  intros E p s ri kn nb na x s' SL H. destruct (from_cases E p s ri kn nb na) as [(sk & I & U & Q)|(o & n & O & Q)].
  - exists sk. split; [exact I|]. rewrite Q in H. pose proof U as (_ & identity & kid & KN). rewrite (gen_new_eq E s ri kn sk nb na identity kid U KN) in H. injection H as <- <-. split; [apply signed_signed, SL|reflexivity].
  - rewrite Q in H. destruct O as [-> | ->]; discriminate.
Qed.

(** ** The key of a request *)
Lemma chal_loop_pair : forall now all l nonce ns s, rs_keypair (snd (chal_loop now all l nonce ns s)) = rs_keypair s.
Proof.
  intros now all l. induction l as [|t l IH]; intros nonce ns s; [reflexivity|]. cbn [chal_loop].
  repeat match goal with |- context [if ?b then _ else _] => destruct b | |- context [match ?x with Some _ => _ | None => _ end] => destruct x | |- context [match time_plus_secs ?a ?b with _ => _ end] => destruct (time_plus_secs a b) end;
  try reflexivity; rewrite IH; reflexivity.
Qed.
Lemma call_pair : forall E p s c o s', call_req E p s c = (o, s') -> (exists x, o = ONew (Ok (Some x))) \/ rs_keypair s' = rs_keypair s.
Proof.
  intros E p s c o s' H. destruct c as [ri kn nb na|c|ri d|t|ri m|ri d|]; cbn [call_req] in H.
  - destruct (from_cases E p s ri kn nb na) as [(sk & I & U & Q)|(o0 & n & O & Q)]; rewrite Q in H.
    + pose proof U as (_ & identity & kid & KN). rewrite (gen_new_eq E s ri kn sk nb na identity kid U KN) in H. injection H as <- <-. left. eauto.
    + injection H as <- <-. right. reflexivity.
  - injection H as <- <-. right. reflexivity.
  - right. destruct (on_new_response E s ri d) as [o0 s0] eqn:N. injection H as <- <-. apply new_kept in N as [F A]. destruct o0; [rewrite (A _ eq_refl); reflexivity|..]; (assert (X : same_but_id s s0) by (apply F; intros ? ?; discriminate); unfold same_but_id in X; rewrite X; reflexivity).
  - right. unfold select_challenge in H. destruct (requested_params _ _ _); injection H as <- <-; reflexivity.
  - right. destruct (gen_challenge E s ri m) as [o0 s0] eqn:G. injection H as <- <-. unfold gen_challenge in G. destruct (rs_ctype s) as [|b0 l0]; [injection G as _ <-; reflexivity|].
    destruct (gen_challenge_tlv _ _ _ _) as [[els| | |]|]; try (injection G as _ <-; reflexivity). destruct (encode_aes _ _ _ _ _ _) as [[w| | |] iv]; try (injection G as _ <-; reflexivity).
    destruct (rs_keypair s) as [[kn sk]|] eqn:KP; injection G as _ <-; cbn; exact KP.
  - right. destruct (on_challenge_response E s ri d) as [o0 s0] eqn:G. injection H as <- <-. apply challenge_kept in G. unfold same_session in G. apply G.
  - injection H as <- <-. right. reflexivity.
Qed.
Lemma last_new : forall E p s0 l s, performs E p s0 l s -> rs_keypair s0 = None -> forall kn sk, rs_keypair s = Some (kn, sk) ->
  exists a c o b s1 s2, l = a ++ (c, o) :: b /\ performs E p s0 a s1 /\ call_req E p s1 c = (o, s2) /\ makes_new (c, o) /\ rs_keypair s2 = Some (kn, sk) /\ Forall (fun e => ~ makes_new e) b.
Proof.
  intros E p s0 l s H. induction H as [s|s c o s1 l s2 C H IH]; intros N kn sk K; [congruence|].
  assert (G : forall s l s', performs E p s l s' -> rs_keypair s' = Some (kn, sk) ->
    (Forall (fun e => ~ makes_new e) l /\ rs_keypair s = Some (kn, sk)) \/
    exists a c o b s1 s2, l = a ++ (c, o) :: b /\ performs E p s a s1 /\ call_req E p s1 c = (o, s2) /\ makes_new (c, o) /\ rs_keypair s2 = Some (kn, sk) /\ Forall (fun e => ~ makes_new e) b).
  { clear. intros s l s' H. induction H as [s|s c o s1 l s2 C H IH]; intros K; [left; split; [constructor|exact K]|]. destruct (IH K) as [[F K1]|(a & c0 & o0 & b & s3 & s4 & -> & P & X)].
    - destruct (call_pair E p s c o s1 C) as [(x & ->)|Q].
      + right. exists [], c, (ONew (Ok (Some x))), l, s, s1. split; [reflexivity|]. split; [constructor|]. split; [exact C|]. split; [exists x; reflexivity|]. split; [exact K1|exact F].
      + destruct o as [[[x|]| | |]|?|?|?|?|?|?]; try (left; split; [constructor; [intros (y & Y); discriminate|exact F]|congruence]).
        right. exists [], c, (ONew (Ok (Some x))), l, s, s1. split; [reflexivity|]. split; [constructor|]. split; [exact C|]. split; [exists x; reflexivity|]. split; [exact K1|exact F].
    - right. exists ((c, o) :: a), c0, o0, b, s3, s4. split; [reflexivity|]. split; [econstructor; eassumption|exact X]. }
  destruct (G s ((c, o) :: l) s2) as [[_ Q]|Q]; [econstructor; eassumption|exact K|congruence|exact Q].
Qed.
Lemma challenge_key : forall E p pr rt ecdh id0 l s ri m x s', sig_laws E -> performs E p (request_init pr rt ecdh id0) l s -> call_req E p s (QChallenge ri m) = (OChallenge (Ok x), s') ->
  exists a ri0 kn nb na x0 b sk, l = a ++ (QNew ri0 kn nb na, ONew (Ok (Some x0))) :: b /\ Forall (fun e => ~ makes_new e) b /\
    in_keychain p kn sk /\ signed_by E x0 (o_pub E sk) /\ signed_by E x (o_pub E sk).
Proof.
  intros E p pr rt ecdh id0 l s ri m x s' SL H C. cbn [call_req] in C. destruct (gen_challenge E s ri m) as [o1 s1] eqn:G. injection C as -> <-.
  assert (K : exists kn sk, rs_keypair s = Some (kn, sk) /\ signed_by E x (o_pub E sk)).
  { unfold gen_challenge in G. destruct (rs_ctype s) as [|b0 l0]; [discriminate|]. destruct (gen_challenge_tlv _ _ _ _) as [[els| | |]|]; try discriminate.
    destruct (encode_aes _ _ _ _ _ _) as [[w| | |] iv]; try discriminate. destruct (rs_keypair s) as [[kn sk]|]; [|discriminate]. injection G as <- _. exists kn, sk. split; [reflexivity|apply signed_signed, SL]. }
  destruct K as (kn & sk & K & S). destruct (last_new E p _ l s H eq_refl kn sk K) as (a & c & o & b & s2 & s3 & -> & _ & C & (x0 & O) & K2 & F). cbn [snd] in O. subst o.
  destruct c as [ri0 kn0 nb na|c|ri0 d|t|ri0 m0|ri0 d|]; cbn [call_req] in C.
  - destruct (gen_new_from E p s2 ri0 kn0 nb na) as [o3 s4] eqn:N. injection C as -> ->. destruct (new_held E p s2 ri0 kn0 nb na x0 s3 SL N) as (sk0 & I & S0 & K3). assert (Q : (kn0, sk0) = (kn, sk)) by congruence. injection Q as -> ->.
    exists a, ri0, kn, nb, na, x0, b, sk. auto.
  - discriminate.
  - destruct (on_new_response E s2 ri0 d). discriminate.
  - destruct (select_challenge s2 t). discriminate.
  - destruct (gen_challenge E s2 ri0 m0). discriminate.
  - destruct (on_challenge_response E s2 ri0 d). discriminate.
  - discriminate.
Qed.

(** ** The name of the identity is never read *)
Lemma chal_loop_blind : forall n now all l nonce ns s, chal_loop now all l nonce ns (upd_identity n s) = (fst (chal_loop now all l nonce ns s), upd_identity n (snd (chal_loop now all l nonce ns s))).
Proof.
  intros n now all l. induction l as [|t l IH]; intros nonce ns s; [reflexivity|]. cbn [chal_loop].
  repeat match goal with |- context [if ?b then _ else _] => destruct b | |- context [match ?x with Some _ => _ | None => _ end] => destruct x | |- context [match time_plus_secs ?a ?b with _ => _ end] => destruct (time_plus_secs a b) end;
  try reflexivity;
  try match goal with |- chal_loop _ _ _ ?nn ?k (?u (upd_identity _ _)) = _ => change (u (upd_identity n s)) with (upd_identity n (u s)) end; apply IH.
Qed.
Lemma call_blind : forall E p n s c, exists n', call_req E p (upd_identity n s) c = (fst (call_req E p s c), upd_identity n' (snd (call_req E p s c))).
Proof.
  intros E p n s c. destruct c as [ri kn nb na|c|ri d|t|ri m|ri d|]; cbn [call_req].
  - destruct (from_cases E p s ri kn nb na) as [(sk & I & U & Q)|(o & n1 & O & Q)]. 
    + pose proof U as (_ & identity & kid & KN). unfold gen_new_from. unfold gen_new_from in Q. cbn [rs_profile upd_identity]. change (rs_profile (upd_identity n s)) with (rs_profile s).
      apply key_under_iff in U as [P G]. rewrite P, G in Q |- *. cbn [negb] in Q |- *. rewrite comp_eqb_refl in Q |- *. destruct kn as [|a l]; [destruct identity; discriminate|]. remember (a :: l) as kn eqn:KQ.
      assert (U' : key_under (p_prefix (rs_profile s)) kn) by (apply key_under_iff; auto). rewrite (gen_new_eq E s ri kn sk nb na identity kid U' KN) in Q.
      destruct (pib_get _ p) as [i|]; [|discriminate]. destruct (find_key kn i) as [[k2 sk2]|]; [|discriminate]. rewrite (gen_new_eq E s ri kn sk2 nb na identity kid U' KN) in Q |- *.
      rewrite (gen_new_eq E (upd_identity n s) ri kn sk2 nb na identity kid U' KN). exists identity. reflexivity.
    + unfold gen_new_from. change (rs_profile (upd_identity n s)) with (rs_profile s).
      destruct (is_prefix (p_prefix (rs_profile s)) kn) eqn:P; cbn [negb]; [|exists n; reflexivity]. destruct kn as [|a l]; [exists n; reflexivity|]. remember (a :: l) as kn eqn:KQ.
      destruct (get_neg 2 kn) as [k|] eqn:G; [|exists n; reflexivity]. destruct (comp_eqb k c_KEY) eqn:K; [|exists n; reflexivity]. apply comp_eqb_eq in K. subst k.
      destruct (pib_get (prefix_neg 2 kn) p) as [i|]; [|exists (prefix_neg 2 kn); reflexivity]. destruct (find_key kn i) as [[k2 sk2]|]; [|exists (prefix_neg 2 kn); reflexivity].
      assert (U : key_under (p_prefix (rs_profile s)) kn) by (apply key_under_iff; auto). pose proof U as (_ & identity & kid & KN).
      rewrite (gen_new_eq E s ri kn sk2 nb na identity kid U KN), (gen_new_eq E (upd_identity n s) ri kn sk2 nb na identity kid U KN). exists identity. reflexivity.
  - exists n. reflexivity.
  - exists n. unfold on_new_response. change (rs_profile (upd_identity n s)) with (rs_profile s). change (rs_id (upd_identity n s)) with (rs_id s). change (rs_ecdh (upd_identity n s)) with (rs_ecdh s).
    destruct (check_reply E (rs_profile s) d); try reflexivity. destruct (reply_decode _ _ _) as [[[]| | |] r]; try reflexivity. destruct (bind _ _); reflexivity.
  - exists n. unfold select_challenge. change (rs_status (upd_identity n s)) with (rs_status s). change (rs_cstatus (upd_identity n s)) with (rs_cstatus s). destruct (requested_params _ _ _); reflexivity.
  - exists n. unfold gen_challenge. change (rs_status (upd_identity n s)) with (rs_status s). change (rs_cstatus (upd_identity n s)) with (rs_cstatus s). change (rs_ctype (upd_identity n s)) with (rs_ctype s).
    change (rs_key (upd_identity n s)) with (rs_key s). change (rs_id (upd_identity n s)) with (rs_id s). change (rs_eiv (upd_identity n s)) with (rs_eiv s). change (rs_keypair (upd_identity n s)) with (rs_keypair s).
    change (rs_profile (upd_identity n s)) with (rs_profile s).
    destruct (rs_ctype s) as [|b0 l0]; [reflexivity|]. destruct (gen_challenge_tlv _ _ _ _) as [[els| | |]|]; try reflexivity. destruct (encode_aes _ _ _ _ _ _) as [[w| | |] iv]; try reflexivity. destruct (rs_keypair s) as [[kn sk]|]; reflexivity.
  - exists n. unfold on_challenge_response, chal_decode. change (rs_profile (upd_identity n s)) with (rs_profile s). change (rs_id (upd_identity n s)) with (rs_id s). change (rs_key (upd_identity n s)) with (rs_key s).
    change (rs_eiv (upd_identity n s)) with (rs_eiv s). change (rs_div (upd_identity n s)) with (rs_div s).
    destruct (check_reply E (rs_profile s) d); try reflexivity. destruct (decode_aes _ _ _ _ _ _) as [[w| | |] iv]; try reflexivity. destruct (parse w) as [els|]; [|reflexivity].
    change (upd_div iv (upd_identity n s)) with (upd_identity n (upd_div iv s)). rewrite chal_loop_blind. destruct (chal_loop (ri_now ri) els els false 0 (upd_div iv s)) as [[k| | |] s2]; reflexivity.
  - exists n. reflexivity.
Qed.
Lemma performs_blind : forall E p s l s', performs E p s l s' -> forall n, exists n', performs E p (upd_identity n s) l (upd_identity n' s').
Proof.
  intros E p s l s' H. induction H as [s|s c o s1 l s2 C H IH]; intros n; [exists n; constructor|]. destruct (call_blind E p n s c) as (n1 & Q). rewrite C in Q. cbn [fst snd] in Q.
  destruct (IH n1) as (n2 & P). exists n2. econstructor; eassumption.
Qed.
(** A call that makes no NEW Interest might as well not have been made. *)
Lemma failed_new : forall E p s ri kn nb na o s1, call_req E p s (QNew ri kn nb na) = (o, s1) -> ~ makes_new (QNew ri kn nb na, o) ->
  forall l, (exists s2, performs E p s1 l s2) <-> exists s2, performs E p s l s2.
Proof.
  intros E p s ri kn nb na o s1 C N l. cbn [call_req] in C. destruct (from_cases E p s ri kn nb na) as [(sk & I & U & Q)|(o1 & n & O & Q)]; rewrite Q in C.
  - exfalso. pose proof U as (_ & identity & kid & KN). rewrite (gen_new_eq E s ri kn sk nb na identity kid U KN) in C. injection C as <- _. apply N. eexists. reflexivity.
  - injection C as <- <-. split; intros (s2 & H).
    + apply (performs_blind _ _ _ _ _) with (n := rs_identity s) in H as (n' & H). replace (upd_identity (rs_identity s) (upd_identity n s)) with s in H by (destruct s; reflexivity). eauto.
    + apply (performs_blind _ _ _ _ _) with (n := n) in H as (n' & H). eauto.
Qed.
Lemma new_from : forall E p s ri kn nb na x s', sig_laws E -> gen_new_from E p s ri kn nb na = (Ok (Some x), s') ->
  exists sk, in_keychain p kn sk /\ key_under (p_prefix (rs_profile s)) kn /\ signed_by E x (o_pub E sk) /\ gen_new E s ri kn sk nb na = (Ok (Some x), s').
Proof.
  intros E p s ri kn nb na x s' SL H. destruct (from_cases E p s ri kn nb na) as [(sk & I & U & Q)|(o & n & O & Q)].
  - exists sk. split; [exact I|]. split; [exact U|]. split; [|rewrite <- Q; exact H]. rewrite Q in H. pose proof U as (_ & identity & kid & KN). rewrite (gen_new_eq E s ri kn sk nb na identity kid U KN) in H. injection H as <- _. apply signed_signed, SL.
  - rewrite Q in H. destruct O as [-> | ->]; discriminate.
Qed.
