(** What the client's packets tell about the codes and proofs the user types. *)
From Verif Require Export Spec_Typed ClientFacts.
From Verif Require Import TlvFacts CryptoFacts RequesterFacts NameFacts.
From Coq Require Import Lia.
Local Open Scope N_scope.

Lemma run_det : forall E file pb h c nx, client_run E file pb h c nx -> forall c' nx', client_run E file pb h c' nx' -> c = c' /\ nx = nx'.
Proof.
  intros E file pb h c nx R. induction R as [ci c nx Q|h c i w ci ev c' nx R IH M Q|h c ci c' nx R IH Q]; intros c2 nx2 R2; inversion R2; subst.
  - rewrite Q in *. split; congruence.
  - match goal with X : client_run _ _ _ h _ _ |- _ => destruct (IH _ _ X) as [<- W] end. injection W as <- <-. split; congruence.
  - match goal with X : client_run _ _ _ h _ _ |- _ => destruct (IH _ _ X) as [<- W] end. discriminate W.
  - match goal with X : client_run _ _ _ h _ _ |- _ => destruct (IH _ _ X) as [<- W] end. discriminate W.
  - match goal with X : client_run _ _ _ h _ _ |- _ => destruct (IH _ _ X) as [<- _] end. split; congruence.
Qed.

(** ** Lengths *)
Definition shaped (t t' : tlv) : Prop := t_type t = t_type t' /\ length (t_val t) = length (t_val t').
Lemma shaped_enc : forall t t', shaped t t' -> length (enc_tlv t) = length (enc_tlv t').
Proof. intros [ty v] [ty' v'] [T L]. cbn [t_type t_val] in *. subst ty'. unfold enc_tlv, blen. cbn [t_type t_val]. rewrite L, !app_length. lia. Qed.
Lemma shaped_encs : forall l l', Forall2 shaped l l' -> length (enc_tlvs l) = length (enc_tlvs l').
Proof.
  intros l l' F. unfold enc_tlvs. induction F as [|t t' l l' S F IH]; [reflexivity|]. cbn [flat_map map concat]. rewrite !app_length. rewrite (shaped_enc _ _ S). f_equal. exact IH.
Qed.
Definition kin (p p' : bytes * bytes) : Prop := fst p = fst p' /\ length (snd p) = length (snd p').
Lemma capture_kin : forall m ls ls', Forall2 same_length ls ls' -> Forall2 kin (fst (capture m ls)) (fst (capture m ls')).
Proof.
  induction m as [|[k v] m IH]; intros ls ls' F; cbn [capture]; [constructor|]. destruct F as [|l l' ls ls' L F]; cbn [next_line].
  - specialize (IH [] [] (Forall2_nil _)). destruct (capture m []) as [r r2]. cbn [fst] in *. constructor; [split; reflexivity|exact IH].
  - specialize (IH ls ls' F). destruct (capture m ls) as [r r2]. destruct (capture m ls') as [q q2]. cbn [fst] in *. constructor; [split; [reflexivity|exact L]|exact IH].
Qed.

(** ** The parameters *)
Inductive els_alike : option (res (list tlv)) -> option (res (list tlv)) -> Prop :=
| ea_ok : forall l l', Forall2 shaped l l' -> els_alike (Some (Ok l)) (Some (Ok l'))
| ea_other : forall o, els_alike o o.
Lemma one_param_alike : forall ty key p p', Forall2 kin p p' -> els_alike (Some (one_param ty key p)) (Some (one_param ty key p')).
Proof.
  intros ty key p p' F. unfold one_param. destruct F as [|[k v] [k' v'] p p' [K L] F]; [apply ea_other|]. cbn [fst snd] in K, L. subst k'. destruct F; [|apply ea_other].
  destruct (bytes_eqb k key); [|apply ea_other]. apply ea_ok. repeat constructor. exact L.
Qed.
Lemma gen_tlv_alike : forall ty cst p p', Forall2 kin p p' -> els_alike (gen_challenge_tlv ty 1 cst p) (gen_challenge_tlv ty 1 cst p').
Proof.
  intros ty cst p p' F. unfold gen_challenge_tlv. change (1 =? ST_BEFORE) with false. change (1 =? ST_CHALLENGE) with true. cbv iota. cbn [andb].
  destruct (bytes_eqb ty CH_PIN); [destruct (_ || _); [apply one_param_alike, F|apply ea_other]|]. destruct (bytes_eqb ty CH_EMAIL); [destruct (_ || _); [apply one_param_alike, F|apply ea_other]|].
  destruct (bytes_eqb ty CH_POSSESSION); [|apply ea_other]. destruct (bytes_eqb cst NEED_PROOF); [|apply ea_other].
  destruct F as [|[k v] [k' v'] p p' [K L] F]; [apply ea_other|]. cbn [fst snd] in K, L. subst k'. destruct F; [|apply ea_other].
  destruct (bytes_eqb k K_PROOF); [|apply ea_other]. apply ea_ok. repeat constructor. exact L.
Qed.
Lemma aes_alike : forall E key pt pt' ad iv rnd, length pt = length pt' -> exists iv2,
  (exists iv1 ct tag ct' tag', o_aes_enc E key (firstn 12 iv1) ad pt = (ct, tag) /\ o_aes_enc E key (firstn 12 iv1) ad pt' = (ct', tag') /\
    encode_aes E key pt ad iv rnd = (Ok (enc_tlvs [Tlv T_InitializationVector iv1; Tlv T_AuthenticationTag tag; Tlv T_EncryptedPayload ct]), iv2) /\
    encode_aes E key pt' ad iv rnd = (Ok (enc_tlvs [Tlv T_InitializationVector iv1; Tlv T_AuthenticationTag tag'; Tlv T_EncryptedPayload ct']), iv2)) \/
  (exists o, (forall b, o <> Ok b) /\ encode_aes E key pt ad iv rnd = (o, iv2) /\ encode_aes E key pt' ad iv rnd = (o, iv2)).
Proof.
  intros E key pt pt' ad iv rnd L. unfold encode_aes. set (iv1 := initial_iv iv rnd). destruct (blen iv1 <? 12); [exists iv1; right; exists UB; repeat split; discriminate|].
  replace (blen pt') with (blen pt) by (unfold blen; rewrite L; reflexivity). destruct (o_aes_enc E key (firstn 12 iv1) ad pt) as [ct tag] eqn:A. destruct (o_aes_enc E key (firstn 12 iv1) ad pt') as [ct' tag'] eqn:A'.
  destruct (update_iv iv1 (blen pt)) as [iv2| | |].
  - exists iv2. left. exists iv1, ct, tag, ct', tag'. auto.
  - exists iv1. right. exists Exn. repeat split; discriminate.
  - exists iv1. right. exists UB. repeat split; discriminate.
  - exists iv1. right. exists Hang. repeat split; discriminate.
Qed.
Lemma alike_refl : forall E x, alike E x x.
Proof. intros. left. reflexivity. Qed.
Lemma gen_challenge_alike : forall E s ri p p', rs_status s = 1 -> Forall2 kin p p' ->
  snd (gen_challenge E s ri p) = snd (gen_challenge E s ri p') /\
  ((exists x x', fst (gen_challenge E s ri p) = Ok x /\ fst (gen_challenge E s ri p') = Ok x' /\ alike E x x') \/
   (fst (gen_challenge E s ri p) = fst (gen_challenge E s ri p') /\ forall x, fst (gen_challenge E s ri p) <> Ok x)).
Proof.
  intros E s ri p p' ST F. unfold gen_challenge. destruct (rs_ctype s) as [|b0 ct] eqn:CT; [split; [reflexivity|right; split; [reflexivity|discriminate]]|]. rewrite <- CT. rewrite ST.
  destruct (gen_tlv_alike (rs_ctype s) (rs_cstatus s) p p' F) as [l l' FL|o].
  - destruct (aes_alike E (rs_key s) _ _ (rs_id s) (rs_eiv s) (be_enc 8 (ri_iv ri)) (shaped_encs _ _ FL)) as (iv2 & [(iv1 & c1 & t1 & c2 & t2 & A & A' & Q & Q')|(o & NO & Q & Q')]); rewrite Q, Q'.
    + destruct (rs_keypair s) as [[kn sk]|]; [|split; [reflexivity|right; split; [reflexivity|discriminate]]]. split; [reflexivity|]. left. eexists. eexists. split; [reflexivity|]. split; [reflexivity|].
      right. exists s, sk, iv1, (enc_tlvs l), (enc_tlvs l'). split; [exact (shaped_encs _ _ FL)|]. split; [exists c1, t1|exists c2, t2]; eexists; eexists; (split; [eassumption|]); (split; [reflexivity|]); (split; [reflexivity|]); (split; [reflexivity|]); split; reflexivity.
    + destruct o as [b| | |]; [destruct (NO b eq_refl)| | |]; (split; [reflexivity|]); right; (split; [reflexivity|discriminate]).
  - destruct o as [[l| | |]|]; try (split; [reflexivity|right; split; [reflexivity|discriminate]]). destruct (encode_aes _ _ _ _ _ _) as [[b| | |] iv2]; try (split; [reflexivity|right; split; [reflexivity|discriminate]]).
    destruct (rs_keypair s) as [[kn sk]|]; [|split; [reflexivity|right; split; [reflexivity|discriminate]]]. split; [reflexivity|]. left. eexists. eexists. split; [reflexivity|]. split; [reflexivity|apply alike_refl].
Qed.
Lemma gen_challenge_status : forall E s ri p, rs_status (snd (gen_challenge E s ri p)) = rs_status s.
Proof.
  intros E s ri p. unfold gen_challenge. destruct (rs_ctype s); [reflexivity|]. destruct (gen_challenge_tlv _ _ _ _) as [[els| | |]|]; try reflexivity. destruct (encode_aes _ _ _ _ _ _) as [[x| | |] iv]; try reflexivity.
  destruct (rs_keypair s) as [[? ?]|]; reflexivity.
Qed.
Lemma run_challenge_status : forall E c s ci ls ty c' nx, run_challenge E c s ci ls ty = (c', nx) -> exists s', cl_req c' = Some s' /\ rs_status s' = rs_status s.
Proof.
  intros E c s ci ls ty c' nx H. unfold run_challenge, select_challenge in H. destruct (requested_params _ _ _) as [r|]; [|injection H as <- <-; exists s; split; reflexivity].
  assert (G : forall ps, (match gen_challenge E (upd_ctype ty s) (ci_ri ci) ps with (Ok i, s2) => (up_req (Some s2) c, NWait i WChallenge) | (o, s2) => falls (up_req (Some s2) c) o end) = (c', nx) -> exists s', cl_req c' = Some s' /\ rs_status s' = rs_status s).
  { intros ps Q. pose proof (gen_challenge_status E (upd_ctype ty s) (ci_ri ci) ps) as ST. destruct (gen_challenge _ _ _ _) as [o s2]. cbn [snd] in ST. destruct o; injection Q as <- <-; exists s2; split; try reflexivity; exact ST. }
  destruct r as [req| | |]; try (injection H as <- <-; eexists; split; reflexivity).
  destruct req as [|p0 req]; [exact (G _ H)|]. destruct (_ && _); [|exact (G _ H)].
  destruct (mm_find _ _); [|injection H as <- <-; eexists; split; reflexivity]. destruct (match cl_probe c with Some m => _ | None => _ end); [exact (G _ H)|injection H as <- <-; eexists; split; reflexivity].
Qed.
Lemma next_alike_refl : forall E nx, next_alike E nx nx.
Proof. intros E nx. destruct nx; try (apply na_same; discriminate). apply na_wait, alike_refl. Qed.
Lemma run_challenge_alike : forall E c s ci ls ls' ty, rs_status s = 1 -> Forall2 same_length ls ls' ->
  fst (run_challenge E c s ci ls ty) = fst (run_challenge E c s (with_lines ls' ci) ls' ty) /\
  next_alike E (snd (run_challenge E c s ci ls ty)) (snd (run_challenge E c s (with_lines ls' ci) ls' ty)).
Proof.
  intros E c s ci ls ls' ty ST F. unfold run_challenge, select_challenge. destruct (requested_params _ _ _) as [r|]; [|split; [reflexivity|apply next_alike_refl]].
  destruct r as [req| | |]; try (split; [reflexivity|apply next_alike_refl]). change (ci_ri (with_lines ls' ci)) with (ci_ri ci). set (s1 := upd_ctype ty s). assert (ST1 : rs_status s1 = 1) by exact ST.
  assert (G : forall ps ps', Forall2 kin ps ps' ->
    fst (match gen_challenge E s1 (ci_ri ci) ps with (Ok i, s2) => (up_req (Some s2) c, NWait i WChallenge) | (o, s2) => falls (up_req (Some s2) c) o end) =
    fst (match gen_challenge E s1 (ci_ri ci) ps' with (Ok i, s2) => (up_req (Some s2) c, NWait i WChallenge) | (o, s2) => falls (up_req (Some s2) c) o end) /\
    next_alike E (snd (match gen_challenge E s1 (ci_ri ci) ps with (Ok i, s2) => (up_req (Some s2) c, NWait i WChallenge) | (o, s2) => falls (up_req (Some s2) c) o end))
      (snd (match gen_challenge E s1 (ci_ri ci) ps' with (Ok i, s2) => (up_req (Some s2) c, NWait i WChallenge) | (o, s2) => falls (up_req (Some s2) c) o end))).
  { intros ps ps' K. destruct (gen_challenge_alike E s1 (ci_ri ci) ps ps' ST1 K) as [Q A]. destruct (gen_challenge E s1 (ci_ri ci) ps) as [o s2]. destruct (gen_challenge E s1 (ci_ri ci) ps') as [o' s2']. cbn [fst snd] in Q, A. subst s2'.
    destruct A as [(x & x' & -> & -> & A)|[<- NO]]; [split; [reflexivity|apply na_wait, A]|]. destruct o as [i| | |]; [destruct (NO i eq_refl)| | |]; (split; [reflexivity|apply next_alike_refl]). }
  rewrite ST1. change (1 =? ST_BEFORE) with false. cbn [andb]. destruct req as [|p0 req]; apply G; [constructor|apply capture_kin, F].
Qed.

(** ** Steps and runs *)
Lemma response_alike : forall E c s ri d d', cl_req c = Some s -> same_reply E c d d' -> on_challenge_response E s ri d = on_challenge_response E s ri d'.
Proof.
  intros E c s ri d d' RQ [C V]. unfold on_challenge_response, check_reply, process_if_error. rewrite C. destruct (p_cert (rs_profile s)) as [k|] eqn:PC; [|reflexivity]. specialize (V s k RQ PC). unfold data_verifies in V.
  unfold verify_data. destruct (o_verify E (public_key k) (data_msg d) (d_sig d)), (o_verify E (public_key k) (data_msg d') (d_sig d')); try reflexivity; destruct V as [V1 V2]; [specialize (V1 eq_refl)|specialize (V2 eq_refl)]; discriminate.
Qed.
Lemma challenge_alike : forall E c ci d d' ls', same_reply E c d d' ->
  ls' = ci_lines ci \/ (asks_secret (fst (challenge_cb E c ci d)) /\ Forall2 same_length (ci_lines ci) ls') ->
  fst (challenge_cb E c ci d) = fst (challenge_cb E c (with_lines ls' ci) d') /\ next_alike E (snd (challenge_cb E c ci d)) (snd (challenge_cb E c (with_lines ls' ci) d')).
Proof.
  intros E c ci d d' ls' SR L. unfold challenge_cb in *. change (ci_ri (with_lines ls' ci)) with (ci_ri ci). destruct (cl_req c) as [s|] eqn:RQ; [|split; [reflexivity|apply next_alike_refl]].
  rewrite <- (response_alike E c s (ci_ri ci) d d' RQ SR). destruct (on_challenge_response E s (ci_ri ci) d) as [[u| | |] s1]; try (split; [reflexivity|apply next_alike_refl]).
  destruct (rs_status s1 =? ST_SUCCESS); [split; [reflexivity|apply next_alike_refl]|]. change (ci_lines (with_lines ls' ci)) with ls'. destruct L as [-> |[A F]].
  - destruct ci. split; [reflexivity|apply next_alike_refl].
  - apply run_challenge_alike; [|exact F]. destruct (run_challenge E _ s1 ci (ci_lines ci) (rs_ctype s1)) as [c' nx] eqn:Q. destruct (run_challenge_status _ _ _ _ _ _ _ _ Q) as (s' & R & ST). destruct A as (s2 & R2 & ST2).
    cbn [fst] in R2. rewrite R in R2. injection R2 as ->. rewrite <- ST. exact ST2.
Qed.

Theorem typed_unseen : forall E file pb h h', same_but_typed E file pb h h' -> forall c nx c' nx', client_run E file pb h c nx -> client_run E file pb h' c' nx' -> c = c' /\ next_alike E nx nx'.
Proof.
  intros E file pb h h' S. induction S as [ci|h h' ci ev S IH|h h' ci d d' c0 x S IH R0 SR|h h' ci d d' c0 x ls' cm nm S IH R0 SR RM AS F]; intros c nx c' nx' R R'.
  - destruct (run_det _ _ _ _ _ _ R _ _ R') as [<- <-]. split; [reflexivity|apply next_alike_refl].
  - inversion R as [|? c1 i w ? ? ? ? R1 M1 Q1|? c1 ? ? ? R1 Q1]; subst; inversion R' as [|? c2 i2 w2 ? ? ? ? R2 M2 Q2|? c2 ? ? ? R2 Q2]; subst.
    + destruct (IH _ _ _ _ R1 R2) as [<- N]. assert (w = w2) as <- by (inversion N; subst; congruence). rewrite Q1 in Q2. injection Q2 as <- <-. split; [reflexivity|apply next_alike_refl].
    + destruct (IH _ _ _ _ R1 R2) as [_ N]. inversion N.
    + destruct (IH _ _ _ _ R1 R2) as [_ N]. inversion N.
    + destruct (IH _ _ _ _ R1 R2) as [<- _]. rewrite Q1 in Q2. injection Q2 as <- <-. split; [reflexivity|apply next_alike_refl].
  - inversion R as [|? c1 i w ? ? ? ? R1 M1 Q1|]; subst. inversion R' as [|? c2 i2 w2 ? ? ? ? R2 M2 Q2|]; subst. destruct (run_det _ _ _ _ _ _ R0 _ _ R1) as [<- W]. injection W as <- <-.
    destruct (IH _ _ _ _ R1 R2) as [<- N]. assert (w2 = WChallenge) as -> by (inversion N; subst; congruence). cbn [client_step] in Q1, Q2.
    destruct (challenge_alike E c0 ci d d' (ci_lines ci) SR (or_introl eq_refl)) as [A B]. replace (with_lines (ci_lines ci) ci) with ci in A, B by (destruct ci; reflexivity). rewrite Q1, Q2 in A, B. split; [exact A|exact B].
  - inversion R as [|? c1 i w ? ? ? ? R1 M1 Q1|]; subst. inversion R' as [|? c2 i2 w2 ? ? ? ? R2 M2 Q2|]; subst. destruct (run_det _ _ _ _ _ _ R0 _ _ R1) as [<- W]. injection W as <- <-.
    destruct (run_det _ _ _ _ _ _ RM _ _ R) as [-> ->].
    destruct (IH _ _ _ _ R1 R2) as [<- N]. assert (w2 = WChallenge) as -> by (inversion N; subst; congruence). cbn [client_step] in Q1, Q2.
    destruct (challenge_alike E c0 ci d d' ls' SR) as [A B]; [right; rewrite Q1; split; [exact AS|exact F]|]. rewrite Q1, Q2 in A, B. split; [exact A|exact B].
Qed.

Lemma alike_seen : forall E x x', aes_laws E -> alike E x x' -> same_to_see x x'.
Proof.
  intros E x x' AL [<- |(s & sk & iv & pt & pt' & L & (ct & tag & n & ps & A & -> & -> & N & P & G) & (ct' & tag' & n' & ps' & A' & -> & -> & N' & P' & G'))]; [split; [reflexivity|split; [reflexivity|reflexivity]]|].
  unfold same_to_see. rewrite N, N', !removelast_last, G, G'. split; [reflexivity|]. split; [|split; discriminate]. unfold params_of. rewrite P, P'.
  destruct (l_aes_len E AL _ _ _ _ _ _ A) as [L1 T1]. destruct (l_aes_len E AL _ _ _ _ _ _ A') as [L2 T2].
  apply shaped_encs. repeat constructor; cbn [t_val t_type]; congruence.
Qed.
(** In one theorem. *)
Theorem typed_not_seen : forall E file pb h h' c nx c' nx', aes_laws E -> same_but_typed E file pb h h' -> client_run E file pb h c nx -> client_run E file pb h' c' nx' ->
  c = c' /\ next_alike E nx nx' /\ forall x w, nx = NWait x w -> exists x', nx' = NWait x' w /\ same_to_see x x'.
Proof.
  intros E file pb h h' c nx c' nx' AL S R R'. destruct (typed_unseen E file pb h h' S _ _ _ _ R R') as [-> N]. split; [reflexivity|]. split; [exact N|].
  intros x w ->. inversion N as [? NW|? x' ? A]; subst; [destruct (NW _ _ eq_refl)|]. exists x'. split; [reflexivity|exact (alike_seen E x x' AL A)].
Qed.
