(** Proofs about the command line client. *)
From Coq Require Export Permutation.
From Verif Require Import CryptoFacts ChalProps RequestFacts RequesterFacts ConfigFacts SessionFacts.
From Verif Require Export Spec_Client.
Local Open Scope N_scope.

(** ** Where the CA comes from *)
Section Rooted.
  Context (E : env) (file : option ptree) (pb : pib) (LC : codec_laws E).

  (** A full name some rooted CA redirected to. *)
  Definition offered (h : history) (full : name) : Prop :=
    exists q cq d names redirects, rooted E file h q /\ p_cert q = Some cq /\ received h d /\ data_verifies E d cq /\
      probe_decode (d_content d) = Ok (names, redirects) /\ In full redirects.
  Definition listed (t : option cert) : Prop :=
    t = None \/ exists known q c, store_load E file = Ok known /\ In q known /\ p_cert q = Some c /\ t = Some c.
  Definition target (h : history) (c : client) (full : name) : Prop :=
    (full = [] /\ listed (cl_trusted c)) \/ (full <> [] /\ offered h full).
  Definition trusts (h : history) (c : client) (nx : cnext) : Prop :=
    (forall s, cl_req c = Some s -> rooted E file h (rs_profile s) /\ p_cert (rs_profile s) <> None) /\
    match nx with
    | NWait _ (WMeta full) | NWait _ (WInfo full) => target h c full
    | NWait _ (WProbe p) => rooted E file h p /\ p_cert p <> None
    | NWait _ (WNew | WChallenge | WCert) => cl_req c <> None
    | _ => True
    end.
  Lemma received_more : forall e h d, received h d -> received (e :: h) d.
  Proof. intros e h d (ci & H). exists ci. right. exact H. Qed.
  Lemma rooted_more : forall e h p, rooted E file h p -> rooted E file (e :: h) p.
  Proof.
    intros e h p H. induction H as [p d known q c A B C D F G|p ci d l ls A B C D|p c q cq d names redirects A IH B C D F G H].
    - eapply root_listed; eauto using received_more.
    - eapply root_confirmed; [right; exact A|eassumption|eassumption|eassumption].
    - eapply root_redirected; eauto using received_more.
  Qed.
  Lemma offered_more : forall e h n, offered h n -> offered (e :: h) n.
  Proof. intros e h n (q & cq & d & names & redirects & A & B & C & D & F & G). exists q, cq, d, names, redirects. auto 10 using rooted_more, received_more. Qed.
  Lemma target_more : forall e h c n, target h c n -> target (e :: h) c n.
  Proof. intros e h c n [A|[A B]]; [left; exact A|right; auto using offered_more]. Qed.
  Lemma trusts_more : forall e h c nx, trusts h c nx -> trusts (e :: h) c nx.
  Proof.
    intros e h c nx [A B]. split; [intros s Q; destruct (A s Q); auto using rooted_more|]. destruct nx as [i []| | | | | |]; auto using target_more. destruct B. auto using rooted_more.
  Qed.
  (** The parts of a step that only look at the request. *)
  Definition same_side (c c' : client) : Prop := cl_trusted c' = cl_trusted c.
  Lemma falls_ok : forall A h c (o : res A), (forall s, cl_req c = Some s -> rooted E file h (rs_profile s) /\ p_cert (rs_profile s) <> None) -> trusts h (fst (falls c o)) (snd (falls c o)).
  Proof. intros A h c o H. split; [exact H|]. destruct o; exact I. Qed.
  Lemma select_profile : forall s ctype o s1, select_challenge s ctype = (o, s1) -> rs_profile s1 = rs_profile s.
  Proof. intros s ctype o s1. unfold select_challenge. destruct (requested_params _ _ _); intros Q; injection Q as <- <-; reflexivity. Qed.
  Lemma gen_challenge_profile : forall s ri m o s1, gen_challenge E s ri m = (o, s1) -> rs_profile s1 = rs_profile s.
  Proof.
    intros s ri m o s1. unfold gen_challenge. destruct (rs_ctype s); [intros Q; injection Q as <- <-; reflexivity|]. destruct (gen_challenge_tlv _ _ _ _) as [[]|]; try (intros Q; injection Q as <- <-; reflexivity).
    destruct (encode_aes _ _ _ _ _ _) as [[] iv]; try (intros Q; injection Q as <- <-; reflexivity). destruct (rs_keypair s) as [[]|]; intros Q; injection Q as <- <-; reflexivity.
  Qed.
  Lemma run_challenge_ok : forall h c s ci ls ctype c' nx, rooted E file h (rs_profile s) /\ p_cert (rs_profile s) <> None -> run_challenge E c s ci ls ctype = (c', nx) -> trusts h c' nx.
  Proof.
    intros h c s ci ls ctype c' nx R. unfold run_challenge. destruct (select_challenge s ctype) as [o s1] eqn:SC. pose proof (select_profile _ _ _ _ SC) as P1.
    assert (R1 : forall s0, Some s1 = Some s0 -> rooted E file h (rs_profile s0) /\ p_cert (rs_profile s0) <> None) by (intros s0 Q; injection Q as <-; rewrite P1; exact R).
    assert (FALL : forall A (o0 : res A), falls (up_req (Some s1) c) o0 = (c', nx) -> trusts h c' nx).
    { intros A o0 Q. pose proof (falls_ok A h (up_req (Some s1) c) o0 R1) as T. rewrite Q in T. exact T. }
    destruct o as [req| | |]; try (apply FALL).
    - match goal with |- match ?p with _ => _ end = _ -> _ => destruct p as [ps| | |] end; try (apply FALL).
      destruct (gen_challenge E s1 (ci_ri ci) ps) as [o2 s2] eqn:GC. pose proof (gen_challenge_profile _ _ _ _ _ GC) as P2.
      assert (R2 : forall s0, Some s2 = Some s0 -> rooted E file h (rs_profile s0) /\ p_cert (rs_profile s0) <> None) by (intros s0 Q; injection Q as <-; rewrite P2, P1; exact R).
      destruct o2; intros Q; injection Q as <- <-; (split; [exact R2|]); cbn; try exact I; discriminate.
    - intros Q. injection Q as <- <-. split; [exact R1|exact I].
  Qed.
  Lemma gen_new_profile : forall s ri kn sk nb na o s1, gen_new E s ri kn sk nb na = (o, s1) -> rs_profile s1 = rs_profile s.
  Proof.
    intros s ri kn sk nb na o s1. unfold gen_new. destruct (negb _); [intros Q; injection Q as <- <-; reflexivity|]. destruct kn; [intros Q; injection Q as <- <-; reflexivity|].
    destruct (get_neg 2 _) as [k|]; [|intros Q; injection Q as <- <-; reflexivity]. destruct (comp_eqb k c_KEY); intros Q; injection Q as <- <-; reflexivity.
  Qed.
  Lemma run_new_ok : forall h c ci ls p idn c' nx, (forall s, cl_req c = Some s -> rooted E file h (rs_profile s) /\ p_cert (rs_profile s) <> None) -> rooted E file h p /\ p_cert p <> None ->
    run_new E c ci ls p idn = (c', nx) -> trusts h c' nx.
  Proof.
    intros h c ci ls p idn c' nx RC R. unfold run_new. destruct (capture_validity 3 ls) as [[hours|] ls1]; [|intros Q; injection Q as <- <-; split; [exact RC|exact I]]. cbv zeta.
    set (s := request_init p RT_NEW (ci_ecdh ci) (ci_id0 ci)). set (c1 := up_req (Some s) c).
    set (k1 := (idn ++ [c_KEY; fst (ci_key1 ci)], snd (ci_key1 ci))). set (k2 := (idn ++ [c_KEY; fst (ci_key2 ci)], snd (ci_key2 ci))).
    destruct (match pib_get idn (cl_pib c1) with Some i => (c1, i) | None => (up_newid idn (up_pib (cl_pib c1 ++ [Ident idn [k1] (Some (fst k1))]) c1), Ident idn [k1] (Some (fst k1))) end) as [c2 i] eqn:Q2.
    assert (R2 : cl_req c2 = Some s) by (destruct (pib_get idn (cl_pib c1)); injection Q2 as <- <-; reflexivity).
    destruct (match id_default i with Some _ => (c2, i) | None => (up_newkey (fst k1) (up_pib (pib_set (add_key k1 i) (cl_pib c2)) c2), add_key k1 i) end) as [c3 i2] eqn:Q3.
    assert (R3 : cl_req c3 = Some s) by (destruct (id_default i); injection Q3 as <- <-; exact R2).
    destruct (match cl_newid c3 with [] => capture_key c3 i2 k2 ls1 | _ :: _ => (match id_default i2 with Some d => find_key d i2 | None => None end, c3) end) as [ok c4] eqn:Q4.
    assert (R4 : cl_req c4 = Some s).
    { destruct (cl_newid c3); [|injection Q4 as _ <-; exact R3]. unfold capture_key in Q4. destruct (next_line ls1) as [l ls2]. destruct (bytes_eqb _ _); [injection Q4 as _ <-; exact R3|].
      destruct (stoul l); [destruct (_ <=? _)|]; injection Q4 as _ <-; exact R3. }
    assert (RR : forall s0 x, rs_profile s0 = p -> cl_req x = Some s0 -> forall s', cl_req x = Some s' -> rooted E file h (rs_profile s') /\ p_cert (rs_profile s') <> None).
    { intros s0 x P0 X s' X'. rewrite X in X'. injection X' as <-. rewrite P0. exact R. }
    destruct ok as [[kn sk]|]; [|intros Q; injection Q as <- <-; split; [exact (RR s c4 eq_refl R4)|exact I]].
    destruct (i64_fits _ && i64_fits _); [|intros Q; injection Q as <- <-; split; [exact (RR s c4 eq_refl R4)|exact I]].
    destruct (gen_new E s (ci_ri ci) kn sk (ci_now ci) _) as [o s1] eqn:GN. pose proof (gen_new_profile _ _ _ _ _ _ _ _ GN) as P1.
    assert (R5 : forall s0, Some s1 = Some s0 -> rooted E file h (rs_profile s0) /\ p_cert (rs_profile s0) <> None) by (intros s0 Q; injection Q as <-; rewrite P1; exact R).
    destruct o as [[x|]| | |]; intros Q; injection Q as <- <-; (split; [exact R5|]); cbn; try exact I; discriminate.
  Qed.
  Lemma discover_ok : forall h c ca full c' nx, (forall s, cl_req c = Some s -> rooted E file h (rs_profile s) /\ p_cert (rs_profile s) <> None) -> target h c full ->
    discover c ca full = (c', nx) -> trusts h c' nx.
  Proof.
    intros h c ca full c' nx RC T. unfold discover. destruct (gen_discovery ca) as [i| | |]; intros Q; injection Q as <- <-; (split; [exact RC|]); cbn; try exact I. exact T.
  Qed.
  Lemma run_probe_ok : forall h c ls p c' nx, (forall s, cl_req c = Some s -> rooted E file h (rs_profile s) /\ p_cert (rs_profile s) <> None) -> rooted E file h p /\ p_cert p <> None ->
    run_probe E c ls p = (c', nx) -> trusts h c' nx.
  Proof. intros h c ls p c' nx RC R. unfold run_probe. intros Q. injection Q as <- <-. split; [exact RC|exact R]. Qed.
  Lemma start_ok : forall ci c nx, client_start E file pb ci = (c, nx) -> trusts [(ci, None)] c nx.
  Proof.
    intros ci c nx. unfold client_start. assert (N0 : forall x, cl_req x = None -> forall s, cl_req x = Some s -> rooted E file [(ci, None)] (rs_profile s) /\ p_cert (rs_profile s) <> None) by (intros x Q s Q'; congruence).
    destruct (store_load E file) as [known| | |] eqn:SL; try (intros Q; injection Q as <- <-; split; [apply N0; reflexivity|exact I]).
    destruct (next_line (ci_lines ci)) as [l ls]. destruct (bytes_eqb (to_lower l) (bs "none")).
    - destruct (o_of_uri E _); [|intros Q; injection Q as <- <-; split; [apply N0; reflexivity|exact I]]. apply discover_ok; [apply N0; reflexivity|]. left. split; [reflexivity|]. left. reflexivity.
    - destruct (stoul l) as [v|]; [|intros Q; injection Q as <- <-; split; [apply N0; reflexivity|exact I]]. destruct (_ <=? v); [intros Q; injection Q as <- <-; split; [apply N0; reflexivity|exact I]|].
      destruct (nth_error known (N.to_nat v)) as [q|] eqn:NE; [|intros Q; injection Q as <- <-; split; [apply N0; reflexivity|exact I]].
      apply discover_ok; [apply N0; reflexivity|]. left. split; [reflexivity|]. cbn [cl_trusted up_trusted]. destruct (p_cert q) as [c0|] eqn:PC; [|left; reflexivity]. right. exists known, q, c0. split; [exact SL|]. split; [exact (nth_error_In _ _ NE)|]. auto.
  Qed.
  Lemma next_yes : forall ls l ls', next_line ls = (l, ls') -> bytes_eqb (to_lower l) (bs "yes") = true -> ls = l :: ls' /\ lower_of l (bs "yes").
  Proof.
    intros ls l ls' N Y. apply bytes_eqb_eq in Y. split; [|apply lower_iff, Y]. destruct ls as [|a ls]; cbn in N; injection N as <- <-; [discriminate Y|reflexivity].
  Qed.
  Lemma info_ok : forall h c ci full d c' nx, trusts ((ci, Some (CData d)) :: h) c (NWait (Interest [] None None) (WInfo full)) -> info_cb E c ci full d = (c', nx) -> trusts ((ci, Some (CData d)) :: h) c' nx.
  Proof.
    intros h c ci full d c' nx [RC T]. set (h' := (ci, Some (CData d)) :: h) in *. unfold info_cb.
    assert (RD : received h' d) by (exists ci; left; reflexivity).
    destruct (match full with [] => match cl_trusted c with Some t => if verify_data E d t then on_profile E d else Exn | None => on_profile E d end | _ :: _ => on_profile_redirected E d full end) as [p| | |] eqn:O;
      try (intros Q; injection Q as <- <-; split; [exact RC|exact I]).
    assert (OP : on_profile E d = Ok p /\ (full = [] -> forall t, cl_trusted c = Some t -> data_verifies E d t) /\ (full <> [] -> exists c0, p_cert p = Some c0 /\ full_name E c0 = full)).
    { destruct full as [|f0 full].
      - split; [|split; [|intros Q; contradiction]].
        + destruct (cl_trusted c); [destruct (verify_data E d c0); [exact O|discriminate]|exact O].
        + intros _ t QT. rewrite QT in O. destruct (verify_data E d t) eqn:V; [exact V|discriminate].
      - destruct (profile_redirected E d _ p LC O) as (A & c0 & B & _ & _ & C). split; [exact A|]. split; [intros Q; discriminate|]. intros _. eauto. }
    destruct OP as (OP & OL & OR). destruct (profile_accepted E d p OP) as (SH & c0 & PC & _ & _).
    assert (PN : p_cert p <> None) by congruence.
    destruct (cl_trusted c) as [t|] eqn:TR.
    - apply run_probe_ok; [exact RC|]. split; [|exact PN]. cbn in T. destruct T as [[-> [L|L]]|[NE OF]]; [congruence| |].
      + destruct L as (known & q & c1 & L1 & L2 & L3 & L4). injection (eq_trans (eq_sym TR) L4) as ->. eapply root_listed; eauto.
      + destruct (OR NE) as (c1 & PC1 & FN). destruct OF as (q & cq & d1 & names & redirects & A & B & C & D & F & G). rewrite <- FN in G. exact (root_redirected E file _ p c1 q cq d1 names redirects A B C D F PC1 G).
    - destruct (next_line (ci_lines ci)) as [l ls] eqn:NL. destruct (bytes_eqb (to_lower l) (bs "yes")) eqn:Y; [|intros Q; injection Q as <- <-; split; [exact RC|exact I]].
      destruct (next_yes _ _ _ NL Y) as [LL LY]. apply run_probe_ok; [exact RC|]. split; [|exact PN]. eapply root_confirmed; [left; reflexivity|exact LL|exact LY|exact SH].
  Qed.
  Lemma check_verified : forall p d u c, check_reply E p d = Ok u -> p_cert p = Some c -> data_verifies E d c.
  Proof. intros p d u c H PC. unfold check_reply in H. rewrite PC in H. destruct (verify_data E d c) eqn:V; [exact V|discriminate]. Qed.
  Lemma probe_ok : forall h c ci p d c' nx, trusts ((ci, Some (CData d)) :: h) c (NWait (Interest [] None None) (WProbe p)) -> probe_cb E c ci p d = (c', nx) -> trusts ((ci, Some (CData d)) :: h) c' nx.
  Proof.
    intros h c ci p d c' nx [RC (RP & PN)]. set (h' := (ci, Some (CData d)) :: h) in *. unfold probe_cb.
    assert (BAD : forall n, (c, n) = (c', nx) -> (forall i w, n <> NWait i w) -> trusts h' c' nx) by (intros n Q NW; injection Q as <- <-; split; [exact RC|]; destruct n; try exact I; destruct (NW i w eq_refl)).
    destruct (on_probe_response E d p) as [[names redirects]| | |] eqn:OP; try (intros Q; apply (BAD _ Q); intros; discriminate).
    destruct (p_cert p) as [cp|] eqn:PC; [|contradiction].
    assert (V : data_verifies E d cp /\ probe_decode (d_content d) = Ok (names, redirects)).
    { unfold on_probe_response in OP. destruct (check_reply E p d) as [u| | |] eqn:CR; try discriminate. split; [exact (check_verified p d u cp CR PC)|exact OP]. }
    destruct V as [V PD]. assert (RD : received h' d) by (exists ci; left; reflexivity).
    assert (RED : forall f, In f redirects -> redirect_to c f = (c', nx) -> trusts h' c' nx).
    { intros f IN. unfold redirect_to. destruct (ca_of_full f) as [ca| | |] eqn:CF; try (intros Q; apply (BAD _ Q); intros; discriminate).
      apply discover_ok; [exact RC|]. right. split; [intros ->; discriminate CF|]. exists p, cp, d, names, redirects. auto 10. }
    destruct redirects as [|f [|f2 rest]].
    - destruct names as [|[n z] [|n2 names]]; [intros Q; apply (BAD _ Q); intros; discriminate|apply run_new_ok; [exact RC|split; [exact RP|congruence]]|].
      destruct (capture_one _ _) as [[k|] ls]; [|intros Q; apply (BAD _ Q); intros; discriminate]. destruct (nth_error _ k) as [[n' z']|]; [|intros Q; apply (BAD _ Q); intros; discriminate].
      apply run_new_ok; [exact RC|split; [exact RP|congruence]].
    - apply RED. left. reflexivity.
    - destruct (all_cas _); try (intros Q; apply (BAD _ Q); intros; discriminate). destruct (capture_one _ _) as [[k|] ls]; [|intros Q; apply (BAD _ Q); intros; discriminate].
      destruct (nth_error _ k) as [f'|] eqn:NE; [|intros Q; apply (BAD _ Q); intros; discriminate]. apply RED. exact (nth_error_In _ _ NE).
  Qed.
  Lemma new_profile : forall s ri d o s1, on_new_response E s ri d = (o, s1) -> rs_profile s1 = rs_profile s.
  Proof.
    intros s ri d o s1. unfold on_new_response. destruct (check_reply _ _ _); try (intros Q; injection Q as <- <-; reflexivity). destruct (reply_decode _ _ _) as [[] r]; try (intros Q; injection Q as <- <-; reflexivity).
    match goal with |- match ?m with _ => _ end = _ -> _ => destruct m end; intros Q; injection Q as <- <-; reflexivity.
  Qed.
  Lemma new_ok : forall h c ci d c' nx, trusts h c (NWait (Interest [] None None) WNew) -> new_cb E c ci d = (c', nx) -> trusts h c' nx.
  Proof.
    intros h c ci d c' nx [RC NN]. unfold new_cb. cbn in NN. destruct (cl_req c) as [s|] eqn:RQ; [|contradiction]. pose proof (RC s eq_refl) as R.
    destruct (on_new_response E s (ci_ri ci) d) as [o s1] eqn:ON. pose proof (new_profile _ _ _ _ _ ON) as P1.
    assert (R1 : forall s0, Some s1 = Some s0 -> rooted E file h (rs_profile s0) /\ p_cert (rs_profile s0) <> None) by (intros s0 Q; injection Q as <-; rewrite P1; exact R).
    assert (R2 : rooted E file h (rs_profile s1) /\ p_cert (rs_profile s1) <> None) by (rewrite P1; exact R).
    assert (BAD : forall n, (up_req (Some s1) c, n) = (c', nx) -> (forall i w, n <> NWait i w) -> trusts h c' nx) by (intros n Q NW; injection Q as <- <-; split; [exact R1|]; destruct n; try exact I; destruct (NW i w eq_refl)).
    destruct o as [chals| | |]; try (intros Q; apply (BAD _ Q); intros; discriminate).
    destruct chals as [|c0 chals]; [intros Q; apply (BAD _ Q); intros; discriminate|]. destruct (existsb _ _); [apply run_challenge_ok; exact R2|].
    destruct (capture_index _ _ _) as [[k|] ls]; [|intros Q; apply (BAD _ Q); intros; discriminate]. destruct (nth_error _ k); [|intros Q; apply (BAD _ Q); intros; discriminate]. apply run_challenge_ok; exact R2.
  Qed.
  Lemma challenge_profile : forall s ri d o s1, on_challenge_response E s ri d = (o, s1) -> rs_profile s1 = rs_profile s.
  Proof. intros s ri d o s1 H. pose proof (challenge_kept E s ri d o s1 H) as K. exact (proj1 K). Qed.
  Lemma challenge_ok : forall h c ci d c' nx, trusts h c (NWait (Interest [] None None) WChallenge) -> challenge_cb E c ci d = (c', nx) -> trusts h c' nx.
  Proof.
    intros h c ci d c' nx [RC NN]. unfold challenge_cb. cbn in NN. destruct (cl_req c) as [s|] eqn:RQ; [|contradiction]. pose proof (RC s eq_refl) as R.
    destruct (on_challenge_response E s (ci_ri ci) d) as [o s1] eqn:ON. pose proof (challenge_profile _ _ _ _ _ ON) as P1.
    assert (R1 : forall s0, Some s1 = Some s0 -> rooted E file h (rs_profile s0) /\ p_cert (rs_profile s0) <> None) by (intros s0 Q; injection Q as <-; rewrite P1; exact R).
    assert (R2 : rooted E file h (rs_profile s1) /\ p_cert (rs_profile s1) <> None) by (rewrite P1; exact R).
    destruct o as [u| | |]; try (intros Q; injection Q as <- <-; split; [exact R1|exact I]).
    destruct (_ =? _); [|apply run_challenge_ok; exact R2]. intros Q. injection Q as <- <-. split; [exact R1|]. cbn. discriminate.
  Qed.
  Lemma cert_ok' : forall h c d c' nx, (forall s, cl_req c = Some s -> rooted E file h (rs_profile s) /\ p_cert (rs_profile s) <> None) -> cert_cb E c d = (c', nx) -> trusts h c' nx.
  Proof.
    intros h c d c' nx R. unfold cert_cb. destruct (on_cert_fetch d) as [item| | |]; try (intros Q; injection Q as <- <-; split; [exact R|exact I]).
    destruct (pib_get _ _) as [i|]; [|intros Q; injection Q as <- <-; split; [exact R|exact I]]. destruct (find_key _ _) as [[kn sk]|]; [|intros Q; injection Q as <- <-; split; [exact R|exact I]].
    destruct (bytes_eqb _ _); intros Q; injection Q as <- <-; (split; [exact R|exact I]).
  Qed.
  Lemma signal_ok : forall h c c' nx, (forall s, cl_req c = Some s -> rooted E file h (rs_profile s) /\ p_cert (rs_profile s) <> None) -> handle_signal c = (c', nx) -> trusts h c' nx.
  Proof.
    intros h c c' nx R. unfold handle_signal. destruct (cl_req c) as [s|] eqn:RQ; [|intros Q; injection Q as <- <-; split; [rewrite RQ; exact R|exact I]].
    assert (RU : forall pb', (forall s0, cl_req (up_pib pb' c) = Some s0 -> rooted E file h (rs_profile s0) /\ p_cert (rs_profile s0) <> None)) by (intros pb'; cbn; rewrite RQ; exact R).
    rewrite <- RQ in R.
    destruct (cl_newid c); [destruct (cl_newkey c)|].
    - intros Q; injection Q as <- <-; split; [exact R|exact I].
    - destruct (pib_get _ _); intros Q; injection Q as <- <-; (split; [first [apply RU|exact R]|exact I]).
    - destruct (pib_get _ _); intros Q; injection Q as <- <-; (split; [first [apply RU|exact R]|exact I]).
  Qed.
  Lemma run_trusts : forall h c nx, client_run E file pb h c nx -> trusts h c nx.
  Proof.
    intros h c nx H. induction H as [ci c nx S|h c i w ci ev c' nx H IH M S|h c ci c' nx H IH S].
    - exact (start_ok ci c nx S).
    - apply (trusts_more (ci, Some ev)) in IH. destruct IH as [RC W].
      destruct ev as [d|d| | |], w as [full|full|p| | |]; cbn in M; try contradiction; cbn [client_step] in S;
        try (injection S as <- <-; split; [exact RC|exact I]); try exact (signal_ok _ _ _ _ RC S).
      + unfold meta_cb in S. destruct (gen_profile_interest d); injection S as <- <-; (split; [exact RC|]); try exact I. exact W.
      + eapply info_ok; [|exact S]. split; [exact RC|exact W].
      + eapply probe_ok; [|exact S]. split; [exact RC|exact W].
      + eapply new_ok; [|exact S]. split; [exact RC|exact W].
      + eapply challenge_ok; [|exact S]. split; [exact RC|exact W].
      + eapply cert_ok'; [exact RC|exact S].
    - apply (trusts_more (ci, Some CSignal)) in IH. destruct IH as [RC _]. eapply signal_ok; [exact RC|exact S].
  Qed.
  Theorem client_rooted : forall h c nx, client_run E file pb h c nx ->
    (forall i p, nx = NWait i (WProbe p) -> rooted E file h p) /\ (forall s, cl_req c = Some s -> rooted E file h (rs_profile s)).
  Proof.
    intros h c nx H. destruct (run_trusts h c nx H) as [A B]. split; [intros i p ->; exact (proj1 B)|]. intros s Q. exact (proj1 (A s Q)).
  Qed.
  (** Who must have signed the reply that is awaited. *)
  Theorem client_bad_reply : forall h c i w ci d q k, client_run E file pb h c (NWait i w) ->
    (w = WProbe q \/ ((w = WNew \/ w = WChallenge) /\ exists s, cl_req c = Some s /\ rs_profile s = q)) ->
    p_cert q = Some k -> bad_reply E k d -> client_step E c w ci (CData d) = (c, NExit 1).
  Proof.
    intros h c i w ci d q k H W PC B. assert (U : forall s, cl_req c = Some s -> up_req (Some s) c = c) by (intros s Q; destruct c; cbn in Q; subst; reflexivity).
    destruct W as [->|[W (s & RQ & RP)]].
    - cbn [client_step]. unfold probe_cb. destruct (bad_rejected E (request_init q RT_NEW [] []) (ci_ri ci) d k PC B) as (_ & _ & A). cbn [rs_profile request_init] in A. rewrite A. reflexivity.
    - subst q. destruct (bad_rejected E s (ci_ri ci) d k PC B) as (A1 & A2 & _). destruct W as [-> | ->]; cbn [client_step]; unfold new_cb, challenge_cb; rewrite RQ; [rewrite A1|rewrite A2]; unfold exits; rewrite (U s RQ); reflexivity.
  Qed.
End Rooted.

(** ** What the steps do *)
Lemma aes_iv : forall E key block ad dv ev, iv_sound dv -> iv_sound ev -> iv_sound (snd (decode_aes E key block ad dv ev)).
Proof.
  intros E key block ad dv ev D V. rewrite decode_aes_eq. destruct (dec_view block) as [[[iv tag] ct]|] eqn:DV; [|exact D].
  apply dec_view_iv in DV as (I & _).
  repeat match goal with |- context [if ?b then _ else _] => destruct b; [exact D || (right; exact I)|] end.
  destruct (o_aes_dec E key iv ad ct tag) as [pt|]; [|right; exact I]. destruct (negb _); [right; exact I|].
  destruct (update_iv iv (blen pt)) as [iv2| | |] eqn:U; try (right; exact I). right. exact (proj1 (update_iv_spec iv _ iv2 I U)).
Qed.
Definition ivs (s : rstate) : Prop := iv_sound (rs_eiv s) /\ iv_sound (rs_div s).

(** The loop over the decrypted elements. *)
Lemma chal_loop_ub : forall now all l nonce ns s o s', chal_loop now all l nonce ns s = (o, s') ->
  rs_eiv s' = rs_eiv s /\ rs_div s' = rs_div s /\ o <> Hang /\
  (o = UB -> exists t n, In t l /\ t_type t = T_RemainingTime /\ nni_dec (t_val t) = Some n /\ ~ adds_up now (sec (to_i64 n))).
Proof.
  intros now all. induction l as [|t l IH]; intros nonce ns s o s' H; cbn [chal_loop] in H.
  - injection H as <- <-. repeat split; discriminate.
  - assert (GO : forall b m x, rs_eiv x = rs_eiv s -> rs_div x = rs_div s -> chal_loop now all l b m x = (o, s') ->
        rs_eiv s' = rs_eiv s /\ rs_div s' = rs_div s /\ o <> Hang /\
        (o = UB -> exists t0 n, In t0 (t :: l) /\ t_type t0 = T_RemainingTime /\ nni_dec (t_val t0) = Some n /\ ~ adds_up now (sec (to_i64 n)))).
    { intros b m x X1 X2 Q. destruct (IH b m x o s' Q) as (A & B & C & D). rewrite A, B. split; [exact X1|]. split; [exact X2|]. split; [exact C|].
      intros U. destruct (D U) as (t0 & n & I0 & R). exists t0, n. split; [right; exact I0|exact R]. }
    assert (STOP : (Exn, s) = (o, s') -> rs_eiv s' = rs_eiv s /\ rs_div s' = rs_div s /\ o <> Hang /\
        (o = UB -> exists t0 n, In t0 (t :: l) /\ t_type t0 = T_RemainingTime /\ nni_dec (t_val t0) = Some n /\ ~ adds_up now (sec (to_i64 n)))).
    { intros Q. injection Q as <- <-. repeat split; discriminate. }
    destruct nonce.
    { destruct (_ =? _); [destruct (_ =? 16)|]; try exact (STOP H). (refine (GO _ _ _ _ _ H); reflexivity). }
    destruct (t_type t =? T_Status). { destruct (get T_Status all); [destruct (status_from t0)|]; try exact (STOP H). (refine (GO _ _ _ _ _ H); reflexivity). }
    destruct (t_type t =? T_ChallengeStatus). { (refine (GO _ _ _ _ _ H); reflexivity). }
    destruct (t_type t =? T_RemainingTries). { destruct (nni_dec _); [|exact (STOP H)]. (refine (GO _ _ _ _ _ H); reflexivity). }
    destruct (t_type t =? T_RemainingTime) eqn:RT.
    { destruct (nni_dec (t_val t)) as [n|] eqn:ND; [|exact (STOP H)]. unfold time_plus_secs in H. cbv zeta in H.
      destruct ((- 2 ^ 63 <=? sec (to_i64 n)) && (sec (to_i64 n) <? 2 ^ 63) && (- 2 ^ 63 <=? now + sec (to_i64 n)) && (now + sec (to_i64 n) <? 2 ^ 63))%Z eqn:F; [(refine (GO _ _ _ _ _ H); reflexivity)|].
      injection H as <- <-. repeat split; try discriminate. intros _. exists t, n. split; [left; reflexivity|]. split; [apply N.eqb_eq, RT|]. split; [exact ND|].
      intros [[A B] [C D]]. apply Bool.andb_false_iff in F as [F|F]; [apply Bool.andb_false_iff in F as [F|F]; [apply Bool.andb_false_iff in F as [F|F]|]|];
        [apply Z.leb_gt in F|apply Z.ltb_ge in F|apply Z.leb_gt in F|apply Z.ltb_ge in F]; lia. }
    destruct (t_type t =? T_IssuedCertName). { destruct (block_from_value _) as [b|]; [destruct (name_decode b)|]; try exact (STOP H). (refine (GO _ _ _ _ _ H); reflexivity). }
    destruct (t_type t =? T_ForwardingHint). { destruct (block_from_value _) as [b|]; [destruct (name_decode b)|]; try exact (STOP H). (refine (GO _ _ _ _ _ H); reflexivity). }
    destruct (t_type t =? T_ParameterKey). { destruct (bytes_eqb _ _); [|exact (STOP H)]. (refine (GO _ _ _ _ _ H); reflexivity). }
    destruct (is_critical _); [exact (STOP H)|]. (refine (GO _ _ _ _ _ H); reflexivity).
Qed.
Lemma get_in : forall ty l f, get ty l = Some f -> In f l /\ t_type f = ty.
Proof.
  intros ty l f. induction l as [|t l IH]; cbn [get]; [discriminate|]. destruct (t_type t =? ty) eqn:T; [intros Q; injection Q as <-; split; [left; reflexivity|apply N.eqb_eq; exact T]|]. intros H. destruct (IH H). split; [right; assumption|assumption].
Qed.
Lemma chal_loop_status : forall now all l nonce ns s k s', chal_loop now all l nonce ns s = (Ok k, s') ->
  (k = ns /\ rs_status s' = rs_status s) \/ exists t, In t all /\ t_type t = T_Status /\ nni_dec (t_val t) = Some (rs_status s').
Proof.
  intros now all. induction l as [|t l IH]; intros nonce ns s k s' H; cbn [chal_loop] in H.
  - injection H as <- <-. left. auto.
  - assert (GO : forall b x, rs_status x = rs_status s -> chal_loop now all l b ns x = (Ok k, s') ->
       (k = ns /\ rs_status s' = rs_status s) \/ exists t, In t all /\ t_type t = T_Status /\ nni_dec (t_val t) = Some (rs_status s')).
    { intros b x X Q. destruct (IH b ns x k s' Q) as [[A B]|R]; [left; rewrite B; auto|right; exact R]. }
    destruct nonce.
    { destruct (_ =? _); [destruct (_ =? 16)|]; try discriminate. refine (GO _ _ _ H). reflexivity. }
    destruct (t_type t =? T_Status).
    { destruct (get T_Status all) as [f|] eqn:G; [destruct (status_from f) as [v|] eqn:SF|]; try discriminate. destruct (IH _ _ _ _ _ H) as [[A B]|R]; [|right; exact R].
      right. exists f. destruct (get_in _ _ _ G) as [G1 G2]. split; [exact G1|]. split; [exact G2|]. rewrite B. cbn [rs_status upd_status]. unfold status_from in SF. destruct (nni_dec (t_val f)) as [n|]; [|discriminate]. destruct (_ <? _); [discriminate|]. congruence. }
    destruct (t_type t =? T_ChallengeStatus). { refine (GO _ _ _ H). reflexivity. }
    destruct (t_type t =? T_RemainingTries). { destruct (nni_dec _); [|discriminate]. refine (GO _ _ _ H). reflexivity. }
    destruct (t_type t =? T_RemainingTime). { destruct (nni_dec _); [|discriminate]. destruct (time_plus_secs _ _); try discriminate. refine (GO _ _ _ H). reflexivity. }
    destruct (t_type t =? T_IssuedCertName). { destruct (block_from_value _) as [b|]; [destruct (name_decode b)|]; try discriminate. refine (GO _ _ _ H). reflexivity. }
    destruct (t_type t =? T_ForwardingHint). { destruct (block_from_value _) as [b|]; [destruct (name_decode b)|]; try discriminate. refine (GO _ _ _ H). reflexivity. }
    destruct (t_type t =? T_ParameterKey). { destruct (bytes_eqb _ _); [|discriminate]. refine (GO _ _ _ H). reflexivity. }
    destruct (is_critical _); [discriminate|]. refine (GO _ _ _ H). reflexivity.
Qed.
(** The reply to a CHALLENGE Interest. *)
Lemma challenge_told : forall E h s ri d u s', received h d -> on_challenge_response E s ri d = (Ok u, s') -> rs_status s' = ST_SUCCESS -> told_success E h s'.
Proof.
  intros E h s ri d u s' RD H SU. pose proof (challenge_kept E s ri d _ s' H) as K. assert (K1 : rs_profile s' = rs_profile s /\ rs_key s' = rs_key s /\ rs_id s' = rs_id s) by (repeat split; apply K).
  destruct K1 as (K1 & K2 & K3). unfold told_success. rewrite K1, K2, K3. clear K K1 K2 K3.
  unfold on_challenge_response, check_reply in H. destruct (p_cert (rs_profile s)) as [k|]; [|discriminate].
  destruct (verify_data E d k) eqn:V; [|discriminate]. destruct (process_if_error d); try discriminate.
  unfold chal_decode in H. rewrite decode_aes_eq in H. destruct (dec_view (d_content d)) as [[[iv tag] ct]|]; [|discriminate].
  repeat match type of H with context [if ?b then (_, _) else _] => destruct b; [discriminate|] end.
  destruct (o_aes_dec E (rs_key s) iv (rs_id s) ct tag) as [pt|] eqn:DEC; [|discriminate]. destruct (negb _); [discriminate|]. destruct (update_iv iv _); try discriminate.
  destruct (parse pt) as [els|] eqn:PP; [|discriminate]. destruct (chal_loop _ els els false 0 _) as [[ns| | |] s2] eqn:L; try discriminate. destruct (Nat.eqb ns 1) eqn:N1; [|discriminate]. injection H as _ <-.
  destruct (chal_loop_status _ _ _ _ _ _ _ _ L) as [[-> _]|(t & T1 & T2 & T3)]; [discriminate N1|]. exists d, k, iv, ct, tag, pt, els, t. rewrite SU in T3. auto 12.
Qed.
Lemma challenge_reply : forall E s ri d k o s', p_cert (rs_profile s) = Some k -> ivs s -> on_challenge_response E s ri d = (o, s') ->
  ivs s' /\ rs_ctype s' = rs_ctype s /\ o <> Hang /\
  (o = UB -> data_verifies E d k /\ exists iv ct tag pt els t n, o_aes_dec E (rs_key s) iv (rs_id s) ct tag = Some pt /\ parse pt = Some els /\ In t els /\
     t_type t = T_RemainingTime /\ nni_dec (t_val t) = Some n /\ ~ adds_up (ri_now ri) (sec (to_i64 n))).
Proof.
  intros E s ri d k o s' PC [IE ID] H. pose proof (challenge_kept E s ri d o s' H) as K. assert (CT : rs_ctype s' = rs_ctype s) by apply K.
  unfold on_challenge_response, check_reply in H. rewrite PC in H.
  destruct (verify_data E d k) eqn:V; [|injection H as <- <-; repeat split; try assumption; discriminate].
  unfold process_if_error in H. destruct (_ =? NO_ERROR); [|injection H as <- <-; repeat split; try assumption; discriminate].
  unfold chal_decode in H. destruct (decode_aes_safe E (rs_key s) (d_content d) (rs_id s) (rs_div s) (rs_eiv s) ID IE) as [A B].
  pose proof (aes_iv E (rs_key s) (d_content d) (rs_id s) (rs_div s) (rs_eiv s) ID IE) as IV.
  rewrite decode_aes_eq in H, A, B, IV.
  destruct (decode_aes E (rs_key s) (d_content d) (rs_id s) (rs_div s) (rs_eiv s)) as [r iv] eqn:DA. rewrite decode_aes_eq in DA. rewrite DA in H, A, B, IV. cbn [fst snd] in A, B, IV.
  destruct r as [pt| | |]; try contradiction; [|injection H as <- <-; repeat split; try assumption; discriminate].
  destruct (parse pt) as [els|] eqn:P; [|injection H as <- <-; repeat split; try assumption; discriminate].
  destruct (chal_loop (ri_now ri) els els false 0 (upd_div iv s)) as [r2 s2] eqn:L. destruct (chal_loop_ub _ _ _ _ _ _ _ _ L) as (L1 & L2 & L3 & L4). cbn [rs_eiv rs_div upd_div] in L1, L2.
  assert (IV2 : ivs s2) by (split; [rewrite L1; exact IE|rewrite L2; exact IV]).
  destruct r2 as [ns| | |].
  - injection H as <- <-. split; [exact IV2|]. split; [exact CT|]. destruct (Nat.eqb ns 1); split; discriminate.
  - injection H as <- <-. split; [exact IV2|]. split; [exact CT|]. split; discriminate.
  - injection H as <- <-. split; [exact IV2|]. split; [exact CT|]. split; [discriminate|]. intros _. split; [exact V|]. destruct (L4 eq_refl) as (t & n & R).
    destruct (dec_view (d_content d)) as [[[iv0 tag] ct]|]; [|discriminate DA].
    exists iv0, ct, tag, pt, els, t, n. split; [|split; [exact P|exact R]].
    repeat match type of DA with (if ?b then _ else _) = _ => destruct b; [discriminate|] end.
    destruct (o_aes_dec E (rs_key s) iv0 (rs_id s) ct tag) as [pt'|]; [|discriminate]. destruct (negb _); [discriminate|]. destruct (update_iv iv0 _); try discriminate. injection DA as <- _. reflexivity.
  - contradiction.
Qed.
(** The reply to a NEW Interest. *)
Lemma reply_loop_offers : forall l r ec sc ic o r', reply_loop l r ec sc ic = (Ok o, r') -> forall x, In x (rp_challenges r') -> In x (rp_challenges r) \/ In (Tlv T_Challenge x) l.
Proof.
  induction l as [|[ty v] l IH]; intros r ec sc ic o r' H x X; cbn [reply_loop t_type t_val] in H.
  - injection H as _ <-. left. exact X.
  - assert (GO : forall r0 a b c, rp_challenges r0 = rp_challenges r -> reply_loop l r0 a b c = (Ok o, r') -> In x (rp_challenges r) \/ In (Tlv T_Challenge x) (Tlv ty v :: l)).
    { intros r0 a b c Q L. destruct (IH _ _ _ _ _ _ L x X) as [I0|I0]; [left; rewrite <- Q; exact I0|right; right; exact I0]. }
    destruct (ty =? T_Challenge) eqn:T.
    + apply N.eqb_eq in T. subst ty. destruct (IH _ _ _ _ _ _ H x X) as [I0|I0]; [|right; right; exact I0]. cbn [rp_challenges] in I0. apply in_app_or in I0 as [I0|[<-|[]]]; [left; exact I0|right; left; reflexivity].
    + destruct (ty =? T_EcdhPub); [refine (GO _ _ _ _ _ H); reflexivity|]. destruct (ty =? T_Salt); [destruct (memcpy_into _ _); try discriminate; refine (GO _ _ _ _ _ H); reflexivity|].
      destruct (ty =? T_RequestId); [destruct (memcpy_into _ _); try discriminate; refine (GO _ _ _ _ _ H); reflexivity|]. destruct (is_critical ty); [discriminate|]. refine (GO _ _ _ _ _ H); reflexivity.
Qed.
Lemma reply_loop_no_hang : forall l r ec sc ic, fst (reply_loop l r ec sc ic) <> Hang.
Proof.
  induction l as [|[ty v] l IH]; intros r ec sc ic; cbn [reply_loop t_type t_val]; [discriminate|].
  destruct (ty =? T_Challenge); [apply IH|]. destruct (ty =? T_EcdhPub); [apply IH|]. destruct (ty =? T_Salt); [destruct (memcpy_into _ _); try discriminate; apply IH|].
  destruct (ty =? T_RequestId); [destruct (memcpy_into _ _); try discriminate; apply IH|]. destruct (is_critical ty); [discriminate|apply IH].
Qed.
Lemma new_reply : forall E s ri d k o s', p_cert (rs_profile s) = Some k -> on_new_response E s ri d = (o, s') ->
  rs_status s' = rs_status s /\ rs_cstatus s' = rs_cstatus s /\ rs_eiv s' = rs_eiv s /\ rs_div s' = rs_div s /\ rs_keypair s' = rs_keypair s /\ o <> Hang /\
  (o = UB -> data_verifies E d k /\ exists before t rest, parse (d_content d) = Some (before ++ t :: rest) /\ too_long (ri_salt0 ri) (rs_id s) t) /\
  (forall chals, o = Ok chals -> data_verifies E d k /\ exists els, parse (d_content d) = Some els /\ forall x, In x chals -> In (Tlv T_Challenge x) els).
Proof.
  intros E s ri d k o s' PC H. unfold on_new_response, check_reply in H. rewrite PC in H.
  destruct (verify_data E d k) eqn:V; [|injection H as <- <-; repeat split; discriminate].
  unfold process_if_error in H. destruct (_ =? NO_ERROR); [|injection H as <- <-; repeat split; discriminate].
  destruct (reply_decode (ri_salt0 ri) (rs_id s) (d_content d)) as [r rep] eqn:RD. pose proof (reply_decode_ub_iff (ri_salt0 ri) (rs_id s) (d_content d)) as UI. rewrite RD in UI. cbn [fst] in UI.
  assert (NH : r <> Hang /\ (forall u, r = Ok u -> exists els, parse (d_content d) = Some els /\ forall x, In x (rp_challenges rep) -> In (Tlv T_Challenge x) els)).
  { unfold reply_decode in RD. destruct (parse (d_content d)) as [els|]; [|injection RD as <- <-; split; [|intros u Q]; discriminate].
    pose proof (reply_loop_no_hang els (Reply [] (ri_salt0 ri) (rs_id s) []) 0 0 0) as NH. destruct (reply_loop els _ 0 0 0) as [[[[a b] e]| | |] r0] eqn:L; cbn [fst] in NH; try (injection RD as <- <-; split; [congruence|intros u Q; discriminate]).
    injection RD as <- <-. split; [destruct (_ || _); discriminate|]. intros u _. exists els. split; [reflexivity|]. intros x X. destruct (reply_loop_offers _ _ _ _ _ _ _ L x X) as [[]|I0]; exact I0. }
  destruct NH as [NH NO]. destruct r as [u| | |]; [|injection H as <- <-; repeat split; discriminate| |contradiction].
  - destruct (do secret <- derive_secret E (rs_ecdh s) (rp_ecdh rep); hkdf E secret (rp_salt rep) (rp_id rep)) as [key| | |] eqn:KD.
    + injection H as <- <-. do 5 (split; [reflexivity|]). split; [discriminate|]. split; [discriminate|]. intros chals Q. injection Q as <-. split; [exact V|]. exact (NO u eq_refl).
    + injection H as <- <-. repeat split; discriminate.
    + exfalso. unfold derive_secret in KD. destruct (o_ecdh E _ _) as [rc z]. destruct (rc =? 0)%Z; cbn [bind] in KD; [discriminate|]. unfold hkdf in KD. destruct (o_hkdf E _ _ _) as [rc2 z2]. destruct (rc2 =? 0)%Z; discriminate.
    + exfalso. unfold derive_secret in KD. destruct (o_ecdh E _ _) as [rc z]. destruct (rc =? 0)%Z; cbn [bind] in KD; [discriminate|]. unfold hkdf in KD. destruct (o_hkdf E _ _ _) as [rc2 z2]. destruct (rc2 =? 0)%Z; discriminate.
  - injection H as <- <-. do 5 (split; [reflexivity|]). split; [discriminate|]. split; [|discriminate]. intros _. split; [exact V|]. destruct (proj1 UI eq_refl) as (a & t & b & P & _ & _ & T). exists a, t, b. auto.
Qed.

(** ** [runChallenge] *)
Definition first_email (c : client) : option bytes := match cl_probe c with Some m => mm_find (bs "email") m | None => None end.
Lemma requested_safe : forall ty st cst r, requested_params ty st cst = Some r -> r <> UB /\ r <> Hang.
Proof.
  intros ty st cst r. unfold requested_params. repeat match goal with |- context [if ?b then _ else _] => destruct b end; intros Q; try discriminate Q; injection Q as <-; split; discriminate.
Qed.
Lemma gen_challenge_shape : forall E s ri m o s', iv_sound (rs_eiv s) -> gen_challenge E s ri m = (o, s') ->
  o <> UB /\ o <> Hang /\ iv_sound (rs_eiv s') /\ s' = upd_eiv (rs_eiv s') s /\
  (forall x, o = Ok x -> exists els iv kn sk, gen_challenge_tlv (rs_ctype s) (rs_status s) (rs_cstatus s) m = Some (Ok els) /\ iv12 iv /\ rs_keypair s = Some (kn, sk) /\
     x = signed_interest E sk (p_prefix (rs_profile s) ++ [r_CA; gc (bs "CHALLENGE"); gc (rs_id s)]) (sealed E (rs_key s) iv (rs_id s) (enc_tlvs els))).
Proof.
  intros E s ri m o s' IV H. assert (SELF : s = upd_eiv (rs_eiv s) s) by (destruct s; reflexivity). unfold gen_challenge in H.
  destruct (rs_ctype s) as [|b0 ct] eqn:CT; [injection H as <- <-; repeat split; try discriminate; try exact IV; exact SELF|].
  rewrite <- CT in *. destruct (gen_tlv_safe (rs_ctype s) (rs_status s) (rs_cstatus s) m) as [A B].
  destruct (gen_challenge_tlv (rs_ctype s) (rs_status s) (rs_cstatus s) m) as [[els| | |]|] eqn:G; try congruence; try (injection H as <- <-; repeat split; try discriminate; try exact IV; exact SELF).
  assert (L8 : length (be_enc 8 (ri_iv ri)) = 8%nat) by apply be_enc_length.
  pose proof (iv12_initial (rs_eiv s) (be_enc 8 (ri_iv ri)) IV L8) as I12.
  destruct (encode_aes_spec E (rs_key s) (enc_tlvs els) (rs_id s) (rs_eiv s) (be_enc 8 (ri_iv ri)) IV L8) as [(iv2 & U & Q)|[U Q]]; rewrite Q in H.
  - assert (I2 : iv12 iv2) by exact (proj1 (update_iv_spec _ _ _ I12 U)).
    destruct (rs_keypair s) as [[kn sk]|] eqn:KP; injection H as <- <-; (split; [discriminate|]); (split; [discriminate|]); (split; [right; exact I2|]); (split; [reflexivity|]); [|intros x X; discriminate].
    intros x X. injection X as <-. exists els, (initial_iv (rs_eiv s) (be_enc 8 (ri_iv ri))), kn, sk. auto.
  - injection H as <- <-. split; [discriminate|]. split; [discriminate|]. split; [right; exact I12|]. split; [reflexivity|]. intros x X. discriminate.
Qed.
(** The parameters that are sent. *)
Definition asked_params (c : client) (s : rstate) (ls : list bytes) (ctype : bytes) (ps : mmap) : Prop :=
  exists req, requested_params ctype (rs_status s) (rs_cstatus s) = Some (Ok req) /\
    ((rs_status s = ST_BEFORE /\ ctype = bs "email" /\ exists v, first_email c = Some v /\ ps = [(bs "email", v)]) \/
     (~ (rs_status s = ST_BEFORE /\ ctype = bs "email") /\ ps = fst (capture req ls))).
Lemma run_challenge_shape : forall E c s ci ls ctype c' nx, ivs s -> run_challenge E c s ci ls ctype = (c', nx) ->
  exists s', c' = up_req (Some s') c /\ ivs s' /\
  match nx with
  | NWait x w => w = WChallenge /\ rs_ctype s' = ctype /\ rs_status s' = rs_status s /\ exists ps els iv kn sk, asked_params c s ls ctype ps /\
      gen_challenge_tlv ctype (rs_status s) (rs_cstatus s) ps = Some (Ok els) /\ iv12 iv /\ rs_keypair s = Some (kn, sk) /\
      x = signed_interest E sk (p_prefix (rs_profile s) ++ [r_CA; gc (bs "CHALLENGE"); gc (rs_id s)]) (sealed E (rs_key s) iv (rs_id s) (enc_tlvs els))
  | NExit n => n = 1
  | NAbort => True
  | NUB => rs_status s = ST_BEFORE /\ ctype = bs "email" /\ first_email c = None
  | _ => False
  end.
Proof.
  intros E c s ci ls ctype c' nx [IE ID] H. unfold run_challenge, select_challenge in H. destruct (requested_params ctype (rs_status s) (rs_cstatus s)) as [r|] eqn:RP.
  2:{ injection H as <- <-. exists s. split; [reflexivity|]. split; [split; assumption|reflexivity]. }
  destruct (requested_safe _ _ _ _ RP) as [RU RH]. set (s1 := upd_ctype ctype s) in *. assert (IV1 : ivs s1) by (split; assumption).
  destruct r as [req| | |]; try contradiction; [|injection H as <- <-; exists s1; split; [reflexivity|]; split; [exact IV1|reflexivity]].
  assert (GEN : forall ps, asked_params c s ls ctype ps -> match gen_challenge E s1 (ci_ri ci) ps with (Ok i, s2) => (up_req (Some s2) c, NWait i WChallenge) | (o, s2) => falls (up_req (Some s2) c) o end = (c', nx) ->
    exists s', c' = up_req (Some s') c /\ ivs s' /\
    match nx with
    | NWait x w => w = WChallenge /\ rs_ctype s' = ctype /\ rs_status s' = rs_status s /\ exists ps els iv kn sk, asked_params c s ls ctype ps /\
        gen_challenge_tlv ctype (rs_status s) (rs_cstatus s) ps = Some (Ok els) /\ iv12 iv /\ rs_keypair s = Some (kn, sk) /\
        x = signed_interest E sk (p_prefix (rs_profile s) ++ [r_CA; gc (bs "CHALLENGE"); gc (rs_id s)]) (sealed E (rs_key s) iv (rs_id s) (enc_tlvs els))
    | NExit n => n = 1
    | NAbort => True
    | NUB => rs_status s = ST_BEFORE /\ ctype = bs "email" /\ first_email c = None
    | _ => False
    end).
  { intros ps AP Q. destruct (gen_challenge E s1 (ci_ri ci) ps) as [o s2] eqn:G. destruct (gen_challenge_shape E s1 (ci_ri ci) ps o s2 IE G) as (A & B & C & D & F).
    assert (IV2 : ivs s2) by (split; [exact C|rewrite D; exact ID]).
    destruct o as [x| | |]; try contradiction; injection Q as <- <-; exists s2; (split; [reflexivity|]); (split; [exact IV2|]); [|exact I].
    split; [reflexivity|]. rewrite D. split; [reflexivity|]. split; [reflexivity|]. destruct (F x eq_refl) as (els & iv & kn & sk & F1 & F2 & F3 & F4). exists ps, els, iv, kn, sk. auto. }
  destruct req as [|p0 req].
  - apply (GEN [] ); [|exact H]. exists []. split; [exact RP|]. right. split; [|reflexivity]. intros [Q1 ->]. unfold requested_params in RP. cbn in RP. rewrite Q1 in RP. destruct (rs_cstatus s); discriminate RP.
  - change (rs_status s1) with (rs_status s) in H. destruct ((rs_status s =? ST_BEFORE) && bytes_eqb ctype K_EMAIL) eqn:EB.
    + apply andb_prop in EB as [E1 E2]. apply N.eqb_eq in E1. apply bytes_eqb_eq in E2. subst ctype.
      assert (RQ : p0 :: req = [(bs "email", prompt_email)]).
      { unfold requested_params in RP. cbn in RP. rewrite E1 in RP. destruct (rs_cstatus s); cbn in RP; [|discriminate RP]. injection RP as <- <-. reflexivity. }
      rewrite RQ in *. change (mm_find K_EMAIL [(bs "email", prompt_email)]) with (Some prompt_email) in H. fold (first_email c) in H.
      change (match cl_probe c with Some m => mm_find K_EMAIL m | None => None end) with (first_email c) in H.
      destruct (first_email c) as [v|] eqn:FE.
      * apply (GEN [(bs "email", v)]); [|exact H]. exists [(bs "email", prompt_email)]. split; [exact RP|]. left. split; [exact E1|]. split; [reflexivity|]. exists v. auto.
      * injection H as <- <-. exists s1. split; [reflexivity|]. split; [exact IV1|]. auto.
    + apply (GEN (fst (capture (p0 :: req) ls))); [|exact H]. exists (p0 :: req). split; [exact RP|]. right. split; [|reflexivity]. intros [Q1 Q2]. rewrite Q1, Q2 in EB. discriminate EB.
Qed.

(** ** [runNew] *)
Lemma next_in : forall ls l ls' v, next_line ls = (l, ls') -> stoul l = Some v -> In l ls.
Proof. intros [|a ls] l ls' v H S; cbn in H; injection H as <- <-; [discriminate S|left; reflexivity]. Qed.
Lemma next_rest : forall ls l ls' x, next_line ls = (l, ls') -> In x ls' -> In x ls.
Proof. intros [|a ls] l ls' x H X; cbn in H; injection H as <- <-; [exact X|right; exact X]. Qed.
Lemma validity_line : forall n ls h ls', capture_validity n ls = (Some h, ls') -> exists l v, In l ls /\ stoul l = Some v /\ h = to_i32 v.
Proof.
  induction n as [|n IH]; intros ls h ls' H; cbn [capture_validity] in H; [discriminate|]. destruct (next_line ls) as [l r] eqn:NL. destruct (stoul l) as [v|] eqn:S.
  - injection H as <- <-. exists l, v. split; [exact (next_in _ _ _ _ NL S)|auto].
  - destruct (IH _ _ _ H) as (l0 & v & I0 & R). exists l0, v. split; [exact (next_rest _ _ _ _ NL I0)|exact R].
Qed.
Lemma index_rest : forall n k ls o ls' x, capture_index n k ls = (o, ls') -> In x ls' -> In x ls.
Proof.
  induction n as [|n IH]; intros k ls o ls' x H X; cbn [capture_index] in H; [injection H as <- <-; exact X|]. destruct (next_line ls) as [l r] eqn:NL.
  destruct (stoul l); [destruct (_ <? _)|]; try (apply (next_rest _ _ _ _ NL); exact (IH _ _ _ _ _ H X)). injection H as <- <-. exact (next_rest _ _ _ _ NL X).
Qed.
Lemma index_bound : forall n k ls j ls', capture_index n k ls = (Some j, ls') -> (j < k)%nat.
Proof.
  induction n as [|n IH]; intros k ls j ls' H; cbn [capture_index] in H; [discriminate|]. destruct (next_line ls) as [l r]. destruct (stoul l) as [v|]; [destruct (v <? N.of_nat k) eqn:B|]; try exact (IH _ _ _ _ H).
  injection H as <- <-. apply N.ltb_lt in B. lia.
Qed.
(** What happens to the key chain; the last two are [newlyCreatedIdentityName] and [newlyCreatedKeyName]. *)
Inductive chain_step (p : pib) (idn : name) (k1 k2 : name * bytes) : pib -> name -> name -> Prop :=
| ch_identity : pib_get idn p = None -> chain_step p idn k1 k2 (p ++ [Ident idn [k1] (Some (fst k1))]) idn []
| ch_nothing : forall i, pib_get idn p = Some i -> id_default i <> None -> chain_step p idn k1 k2 p [] []
| ch_key : forall i, pib_get idn p = Some i -> id_default i <> None -> chain_step p idn k1 k2 (pib_set (add_key k2 i) p) [] (fst k2)
| ch_default : forall i p' nk, pib_get idn p = Some i -> id_default i = None -> chain_step p idn k1 k2 p' [] nk.
Definition k1_of (ci : cinputs) (idn : name) : name * bytes := (idn ++ [c_KEY; fst (ci_key1 ci)], snd (ci_key1 ci)).
Definition k2_of (ci : cinputs) (idn : name) : name * bytes := (idn ++ [c_KEY; fst (ci_key2 ci)], snd (ci_key2 ci)).
Lemma gen_new_shape : forall E s ri kn sk nb na o s', gen_new E s ri kn sk nb na = (o, s') ->
  o <> UB /\ o <> Hang /\ (s' = s \/ s' = upd_keypair (Some (kn, sk)) (upd_identity (prefix_neg 2 kn) s)).
Proof.
  intros E s ri kn sk nb na o s'. unfold gen_new. destruct (negb _); [intros Q; injection Q as <- <-; split; [discriminate|split; [discriminate|auto]]|]. destruct kn; [intros Q; injection Q as <- <-; split; [discriminate|split; [discriminate|auto]]|].
  destruct (get_neg 2 _) as [k|]; [destruct (comp_eqb k c_KEY)|]; intros Q; injection Q as <- <-; (split; [discriminate|split; [discriminate|auto]]).
Qed.
Lemma run_new_shape : forall E c ci ls p idn c' nx, idn <> [] -> cl_newid c = [] -> cl_newkey c = [] -> run_new E c ci ls p idn = (c', nx) ->
  (c' = c /\ nx = NExit 1) \/
  (cl_trusted c' = cl_trusted c /\ cl_probe c' = cl_probe c /\ cl_installed c' = cl_installed c /\
   chain_step (cl_pib c) idn (k1_of ci idn) (k2_of ci idn) (cl_pib c') (cl_newid c') (cl_newkey c') /\
   (exists s, cl_req c' = Some s /\ rs_profile s = p /\ rs_status s = ST_BEFORE /\ rs_cstatus s = [] /\ rs_ctype s = [] /\ rs_eiv s = [] /\ rs_div s = []) /\
   match nx with
   | NWait _ w => w = WNew
   | NExit n => n = 1
   | NIdle | NAbort => True
   | NUB => exists l v, In l ls /\ stoul l = Some v /\ ~ adds_up (ci_now ci) (sec (to_i32 v * 3600))
   | _ => False
   end).
Proof.
  intros E c ci ls p idn c' nx NE NI NK. unfold run_new. destruct (capture_validity 3 ls) as [[hours|] ls1] eqn:CV; [|intros Q; injection Q as <- <-; left; auto]. cbv zeta. right.
  revert H. set (s := request_init p RT_NEW (ci_ecdh ci) (ci_id0 ci)). set (c1 := up_req (Some s) c). fold (k1_of ci idn) (k2_of ci idn). set (k1 := k1_of ci idn). set (k2 := k2_of ci idn).
  assert (REQ : forall s0, s0 = s \/ (exists kn sk, s0 = upd_keypair (Some (kn, sk)) (upd_identity (prefix_neg 2 kn) s)) -> rs_profile s0 = p /\ rs_status s0 = ST_BEFORE /\ rs_cstatus s0 = [] /\ rs_ctype s0 = [] /\ rs_eiv s0 = [] /\ rs_div s0 = []).
  { intros s0 [->|(kn & sk & ->)]; repeat split. }
  (* the state before the Interest is made *)
  assert (LAST : forall c4 kn sk, cl_trusted c4 = cl_trusted c -> cl_probe c4 = cl_probe c -> cl_installed c4 = cl_installed c -> cl_req c4 = Some s ->
     chain_step (cl_pib c) idn k1 k2 (cl_pib c4) (cl_newid c4) (cl_newkey c4) ->
     (let na := (ci_now ci + sec (hours * 3600))%Z in
      if i64_fits (sec (hours * 3600)) && i64_fits na then
        match gen_new E s (ci_ri ci) kn sk (ci_now ci) na with
        | (Ok (Some x), s1) => (up_req (Some s1) c4, NWait x WNew)
        | (Ok None, s1) => (up_req (Some s1) c4, NIdle)
        | (o, s1) => falls (up_req (Some s1) c4) o
        end
      else (c4, NUB)) = (c', nx) ->
     cl_trusted c' = cl_trusted c /\ cl_probe c' = cl_probe c /\ cl_installed c' = cl_installed c /\ chain_step (cl_pib c) idn k1 k2 (cl_pib c') (cl_newid c') (cl_newkey c') /\
     (exists s0, cl_req c' = Some s0 /\ rs_profile s0 = p /\ rs_status s0 = ST_BEFORE /\ rs_cstatus s0 = [] /\ rs_ctype s0 = [] /\ rs_eiv s0 = [] /\ rs_div s0 = []) /\
     match nx with
     | NWait _ w => w = WNew
     | NExit n => n = 1
     | NIdle | NAbort => True
     | NUB => exists l v, In l ls /\ stoul l = Some v /\ ~ adds_up (ci_now ci) (sec (to_i32 v * 3600))
     | _ => False
     end).
  { intros c4 kn sk T1 T2 T3 T4 CH. cbv zeta. destruct (i64_fits (sec (hours * 3600)) && i64_fits (ci_now ci + sec (hours * 3600))) eqn:F.
    - destruct (gen_new E s (ci_ri ci) kn sk (ci_now ci) _) as [o s1] eqn:G. destruct (gen_new_shape _ _ _ _ _ _ _ _ _ G) as (A & B & D).
      assert (D' : s1 = s \/ (exists kn sk, s1 = upd_keypair (Some (kn, sk)) (upd_identity (prefix_neg 2 kn) s))) by (destruct D; eauto).
      destruct o as [[x|]| | |]; try contradiction; intros Q; injection Q as <- <-; (do 4 (split; [assumption|])); (split; [exists s1; split; [reflexivity|exact (REQ s1 D')]|]); auto.
    - intros Q. injection Q as <- <-. do 4 (split; [assumption|]). split; [exists s; split; [exact T4|exact (REQ s (or_introl eq_refl))]|].
      destruct (validity_line _ _ _ _ CV) as (l & v & I0 & S & ->). exists l, v. split; [exact I0|]. split; [exact S|]. intros [[A B] [C D]]. unfold i64_fits in F.
      apply Bool.andb_false_iff in F as [F|F]; apply Bool.andb_false_iff in F as [F|F]; [apply Z.leb_gt in F|apply Z.ltb_ge in F|apply Z.leb_gt in F|apply Z.ltb_ge in F]; lia. }
  assert (STOP : forall c4, cl_trusted c4 = cl_trusted c -> cl_probe c4 = cl_probe c -> cl_installed c4 = cl_installed c -> cl_req c4 = Some s ->
     chain_step (cl_pib c) idn k1 k2 (cl_pib c4) (cl_newid c4) (cl_newkey c4) -> exits c4 1 = (c', nx) ->
     cl_trusted c' = cl_trusted c /\ cl_probe c' = cl_probe c /\ cl_installed c' = cl_installed c /\ chain_step (cl_pib c) idn k1 k2 (cl_pib c') (cl_newid c') (cl_newkey c') /\
     (exists s0, cl_req c' = Some s0 /\ rs_profile s0 = p /\ rs_status s0 = ST_BEFORE /\ rs_cstatus s0 = [] /\ rs_ctype s0 = [] /\ rs_eiv s0 = [] /\ rs_div s0 = []) /\
     match nx with
     | NWait _ w => w = WNew
     | NExit n => n = 1
     | NIdle | NAbort => True
     | NUB => exists l v, In l ls /\ stoul l = Some v /\ ~ adds_up (ci_now ci) (sec (to_i32 v * 3600))
     | _ => False
     end).
  { intros c4 T1 T2 T3 T4 CH Q. injection Q as <- <-. do 4 (split; [assumption|]). split; [exists s; split; [exact T4|exact (REQ s (or_introl eq_refl))]|reflexivity]. }
  change (cl_pib c1) with (cl_pib c). destruct (pib_get idn (cl_pib c)) as [i|] eqn:PG.
  - destruct (id_default i) as [dk|] eqn:DF.
    + change (cl_newid c1) with (cl_newid c). rewrite NI. unfold capture_key. destruct (next_line ls1) as [l ls2]. destruct (bytes_eqb (to_lower l) (bs "new")).
      * apply LAST; try reflexivity. cbn. rewrite NI. eapply ch_key; [exact PG|congruence].
      * assert (CH : chain_step (cl_pib c) idn k1 k2 (cl_pib c1) (cl_newid c1) (cl_newkey c1)) by (cbn; rewrite NI, NK; eapply ch_nothing; [exact PG|congruence]).
        destruct (stoul l) as [v|]; [|apply STOP; try reflexivity; exact CH]. destruct (_ <=? v); [apply STOP; try reflexivity; exact CH|].
        destruct (nth_error _ _) as [[kn sk]|]; [|apply STOP; try reflexivity; exact CH]. apply LAST; try reflexivity. exact CH.
    + cbn [cl_newid up_newkey up_pib c1 up_req]. rewrite NI. unfold capture_key. destruct (next_line ls1) as [l ls2]. destruct (bytes_eqb (to_lower l) (bs "new")).
      * apply LAST; try reflexivity. cbn. rewrite NI. eapply ch_default; [exact PG|exact DF].
      * destruct (stoul l) as [v|]; [|apply STOP; try reflexivity; cbn; rewrite NI; eapply ch_default; [exact PG|exact DF]].
        destruct (_ <=? v); [apply STOP; try reflexivity; cbn; rewrite NI; eapply ch_default; [exact PG|exact DF]|].
        destruct (nth_error _ _) as [[kn sk]|]; [|apply STOP; try reflexivity; cbn; rewrite NI; eapply ch_default; [exact PG|exact DF]].
        apply LAST; try reflexivity. cbn; rewrite NI; eapply ch_default; [exact PG|exact DF].
  - cbn [id_default]. cbn [cl_newid up_newid]. destruct idn as [|a idn]; [contradiction|]. cbn [id_default find_key id_keys find fst]. rewrite name_eqb_refl. unfold k1 at 1, k1_of at 1.
    apply LAST; try reflexivity. cbn. rewrite NK. apply ch_identity. exact PG.
Qed.

(** ** Outcomes other than values and exceptions *)
Definition calm {A} (o : res A) : Prop := o <> UB /\ o <> Hang.
Lemma calm_ok : forall A (a : A), calm (Ok a).
Proof. split; discriminate. Qed.
Lemma calm_exn : forall A, calm (@Exn A).
Proof. split; discriminate. Qed.
Lemma calm_bind : forall A B (o : res A) (f : A -> res B), calm o -> (forall a, calm (f a)) -> calm (do x <- o; f x).
Proof. intros A B o f [H1 H2] F. destruct o; cbn [bind]; try contradiction; [apply F|apply calm_exn]. Qed.
Lemma calm_opt : forall A (o : option A), calm (of_opt o).
Proof. intros A []; [apply calm_ok|apply calm_exn]. Qed.
Lemma calm_store : forall E file, calm (store_load E file).
Proof.
  intros E file. unfold store_load, store_load_json. apply calm_bind; [apply calm_opt|]. intros j. destruct (pt_children j); [apply calm_exn|].
  destruct (pt_child _ j) as [t|]; [|apply calm_exn]. generalize (pt_children t). intros ll. induction ll as [|[k x] ll IH]; [apply calm_ok|]. cbn [load_items].
  apply calm_bind; [|intros q; destruct (p_cert q); [apply calm_bind; [exact IH|intros; apply calm_ok]|apply calm_exn]].
  unfold profile_from_json. apply calm_bind; [apply calm_opt|]. intros [|a pre]; [apply calm_exn|]. apply calm_bind; [apply calm_opt|]. intros fwd.
  apply calm_bind; [|intros keys; apply calm_bind; [|intros; apply calm_ok]].
  - destruct (pt_child K_PROBE_PARAMETERS x) as [t0|]; [|apply calm_ok]. generalize (pt_children t0). intros l0. induction l0 as [|[k0 y] l0 IH0]; [apply calm_ok|]. cbn [probe_keys_of].
    destruct (to_lower _); [apply calm_exn|]. apply calm_bind; [exact IH0|intros; apply calm_ok].
  - destruct (pt_child K_CHALLENGES x) as [t0|]; [|apply calm_ok]. generalize (pt_children t0). intros l0. induction l0 as [|[k0 y] l0 IH0]; [apply calm_ok|]. cbn [challenges_of].
    destruct (to_lower _); [apply calm_exn|]. destruct (supported _); [|apply calm_exn]. apply calm_bind; [exact IH0|intros; apply calm_ok].
Qed.
Lemma calm_discovery : forall n, calm (gen_discovery n).
Proof. intros n. unfold gen_discovery. apply calm_bind; [apply calm_opt|]. intros c. apply calm_ok. Qed.
Lemma calm_meta : forall d, calm (gen_profile_interest d).
Proof.
  intros d. unfold gen_profile_interest. apply calm_bind; [|intros; apply calm_ok]. unfold metadata_decode.
  repeat match goal with |- calm (match ?x with Some _ => _ | None => _ end) => destruct x; try apply calm_exn end.
  destruct (_ && _ && _); [|apply calm_exn]. apply calm_bind; [apply calm_opt|]. intros b. apply calm_bind; [apply calm_opt|]. intros n. destruct (get_neg 1 n) as [k|]; [destruct (is_version k)|]; split; discriminate.
Qed.
Lemma calm_ca : forall f, calm (ca_of_full f).
Proof. intros f. unfold ca_of_full. destruct (valid_cert_name _); split; discriminate. Qed.
Lemma calm_cas : forall l, calm (all_cas l).
Proof. induction l as [|f l IH]; [apply calm_ok|]. cbn [all_cas]. apply calm_bind; [apply calm_ca|]. intros _. exact IH. Qed.
Lemma calm_probe : forall b, calm (probe_decode b).
Proof.
  intros b. unfold probe_decode. apply calm_bind; [apply calm_opt|]. intros els. generalize (@nil (name * Z), @nil name). induction els as [|t l IH]; intros st; cbn [probe_loop]; [apply calm_ok|].
  destruct (t_type t =? T_ProbeResponse).
  - apply calm_bind; [apply calm_opt|]. intros e. apply calm_bind.
    + generalize (@nil comp, 0%Z). induction e as [|x e IHe]; intros s0; cbn [probe_item_loop]; [apply calm_ok|]. destruct (_ =? _); [destruct s0 as [[|a0 n0] z0]; cbn [fst snd]; [|apply calm_exn]; apply calm_bind; [apply calm_opt|intros; apply IHe]|].
      destruct (_ =? _); [apply calm_bind; [apply calm_opt|intros; apply IHe]|]. destruct (is_critical _); [apply calm_exn|apply IHe].
    + intros [[|] z]; cbn [fst]; [apply calm_exn|apply IH].
  - destruct (_ =? _); [apply calm_bind; [apply calm_opt|]; intros blk; apply calm_bind; [apply calm_opt|intros; apply IH]|]. destruct (is_critical _); [apply calm_exn|apply IH].
Qed.
(** A PROBE reply offers no empty name. *)
Lemma probe_names : forall b names redirects n z, probe_decode b = Ok (names, redirects) -> In (n, z) names -> n <> [].
Proof.
  intros b names redirects n z H I0. unfold probe_decode in H. destruct (parse b) as [els|]; cbn [of_opt bind] in H; [|discriminate].
  assert (G : forall els st, (forall n z, In (n, z) (fst st) -> n <> []) -> probe_loop els st = Ok (names, redirects) -> n <> []).
  { clear H. induction els0 as [|t l IH]; intros st S H; cbn [probe_loop] in H.
    - injection H as ->. exact (S n z I0).
    - destruct (t_type t =? T_ProbeResponse).
      + destruct (parse (t_val t)) as [e|]; cbn [of_opt bind] in H; [|discriminate]. destruct (probe_item_loop e ([], 0%Z)) as [[[|a m] y]| | |]; cbn [bind fst] in H; try discriminate.
        apply (IH _) in H; [exact H|]. cbn [fst]. intros n0 z0 I1. apply in_app_or in I1 as [I1|[I1|[]]]; [exact (S n0 z0 I1)|]. injection I1 as <- _. discriminate.
      + destruct (_ =? _).
        * destruct (block_from_value _) as [bl|]; cbn [of_opt bind] in H; [|discriminate]. destruct (name_decode bl); cbn [of_opt bind] in H; [|discriminate]. apply (IH _) in H; [exact H|exact S].
        * destruct (is_critical _); [discriminate|]. apply (IH _) in H; [exact H|exact S]. }
  apply (G els ([], [])); [intros ? ? []|exact H].
Qed.

(** ** The invariant *)
Section Invariant.
  Context (E : env) (file : option ptree) (pb : pib).

  Definition untouched (c : client) : Prop := cl_req c = None /\ cl_pib c = pb /\ cl_newid c = [] /\ cl_newkey c = [] /\ cl_installed c = [].
  Definition engaged (h : history) (c : client) (s : rstate) : Prop :=
    cl_req c = Some s /\ ivs s /\ p_cert (rs_profile s) <> None /\ cl_probe c <> None /\ cl_installed c = [] /\
    exists ci ev idn, In (ci, ev) h /\ idn <> [] /\ chain_step pb idn (k1_of ci idn) (k2_of ci idn) (cl_pib c) (cl_newid c) (cl_newkey c).
  Definition installs (h : history) (c : client) (k : cert) : Prop :=
    exists s i sk, cl_req c = Some s /\ rs_status s = ST_SUCCESS /\ told_success E h s /\ cert_ok k = true /\ (c_name k = rs_issued s \/ full_name E k = rs_issued s) /\
      pib_get (identity_of (c_name k)) (cl_pib c) = Some i /\ find_key (key_name_of (c_name k)) i = Some (key_name_of (c_name k), sk) /\ public_key k = o_pub E sk.
  Definition phase (h : history) (c : client) (nx : cnext) : Prop :=
    match nx with
    | NWait _ (WMeta full) | NWait _ (WInfo full) => untouched c /\ (cl_probe c = None <-> full = [])
    | NWait i (WProbe p) => untouched c /\ p_cert p <> None /\ exists m, cl_probe c = Some m /\ i = gen_probe E p m
    | NWait _ WNew => exists s, engaged h c s /\ rs_status s = ST_BEFORE /\ rs_cstatus s = [] /\ rs_ctype s = []
    | NWait _ WChallenge => exists s, engaged h c s /\ (rs_ctype s = bs "email" -> first_email c <> None)
    | NWait i WCert => exists s, engaged h c s /\ rs_status s = ST_SUCCESS /\ i_name i = rs_issued s /\ told_success E h s
    | NIdle => untouched c \/ exists s, engaged h c s
    | NDone => exists k, cl_installed c = [k] /\ installs h c k
    | NExit _ | NAbort | NUB => cl_installed c = []
    | NHang => False
    end.
  Lemma engaged_more : forall e h c s, engaged h c s -> engaged (e :: h) c s.
  Proof. intros e h c s (A & B & C & D & F & ci & ev & idn & I0 & R). do 5 (split; [assumption|]). exists ci, ev, idn. split; [right; exact I0|exact R]. Qed.
  Lemma told_more : forall e h s, told_success E h s -> told_success E (e :: h) s.
  Proof. intros e h s (d & k & iv & ct & tag & pt & els & t & A & B). exists d, k, iv, ct, tag, pt, els, t. split; [apply received_more; exact A|exact B]. Qed.
  Lemma phase_more : forall e h c nx, phase h c nx -> phase (e :: h) c nx.
  Proof.
    intros e h c nx. destruct nx as [i []| | | | | |]; cbn; try (intros H; exact H);
      try (intros (s & A & B); exists s; split; [apply engaged_more; exact A|exact B]).
    - intros (s & A & B & C & D). exists s. split; [apply engaged_more; exact A|]. split; [exact B|]. split; [exact C|exact (told_more _ _ _ D)].
    - intros [H|(s & H)]; [left; exact H|right; exists s; apply engaged_more; exact H].
    - intros (k & A & s & i & sk & B1 & B2 & B3 & B). exists k. split; [exact A|]. exists s, i, sk. split; [exact B1|]. split; [exact B2|]. split; [exact (told_more _ _ _ B3)|exact B].
  Qed.
  Lemma start_phase : forall ci c nx, client_start E file pb ci = (c, nx) -> phase [(ci, None)] c nx /\ nx <> NUB.
  Proof.
    intros ci c nx. unfold client_start. destruct (calm_store E file) as [A B].
    destruct (store_load E file) as [known| | |] eqn:SL; try contradiction; [|intros Q; injection Q as <- <-; split; [reflexivity|discriminate]].
    destruct (next_line (ci_lines ci)) as [l ls].
    assert (D : forall c0 n, untouched c0 -> cl_probe c0 = None -> discover c0 n [] = (c, nx) -> phase [(ci, None)] c nx /\ nx <> NUB).
    { intros c0 n U P. unfold discover. destruct (calm_discovery n) as [C1 C2]. destruct (gen_discovery n); try contradiction; intros Q; injection Q as <- <-; (split; [|discriminate]); cbn; [split; [exact U|split; auto]|apply U]. }
    destruct (bytes_eqb (to_lower l) (bs "none")).
    - destruct (o_of_uri E _); [|intros Q; injection Q as <- <-; split; [reflexivity|discriminate]]. apply D; repeat split.
    - destruct (stoul l) as [v|]; [|intros Q; injection Q as <- <-; split; [reflexivity|discriminate]]. destruct (_ <=? v); [intros Q; injection Q as <- <-; split; [reflexivity|discriminate]|].
      destruct (nth_error known _); [|intros Q; injection Q as <- <-; split; [reflexivity|discriminate]]. apply D; repeat split.
  Qed.
  Lemma on_profile_cert : forall d p, on_profile E d = Ok p -> p_cert p <> None /\ shows E d p.
  Proof.
    intros d p H. unfold on_profile in H. destruct (info_decode E (d_content d)) as [q| | |] eqn:I; cbn [bind] in H; try discriminate. destruct (p_cert q) as [k|] eqn:PC; [|discriminate]. destruct (verify_data E d k); [|discriminate].
    injection H as <-. split; [congruence|exact I].
  Qed.
  Lemma info_outcome : forall c full d (o := match full with [] => match cl_trusted c with Some t => if verify_data E d t then on_profile E d else Exn | None => on_profile E d end | _ :: _ => on_profile_redirected E d full end),
    o <> Hang /\ (forall p, o = Ok p -> p_cert p <> None) /\ (o = UB -> exists p, shows E d p /\ p_cert p = None /\ (full = [] -> forall t, cl_trusted c = Some t -> data_verifies E d t)).
  Proof.
    intros c full d o. subst o. destruct (info_safe E (d_content d)) as [A B].
    assert (OP : on_profile E d <> Hang /\ (forall p, on_profile E d = Ok p -> p_cert p <> None) /\ (on_profile E d = UB -> exists p, shows E d p /\ p_cert p = None)).
    { split; [|split].
      - exact (proj1 (profile_outcomes E d)).
      - intros p H. exact (proj1 (on_profile_cert d p H)).
      - unfold on_profile. destruct (info_decode E (d_content d)) as [q| | |] eqn:I; cbn [bind]; try discriminate; try contradiction. destruct (p_cert q) as [k|] eqn:PC; [destruct (verify_data E d k); discriminate|]. intros _. exists q. auto. }
    destruct OP as (O1 & O2 & O3). destruct full as [|f full].
    - destruct (cl_trusted c) as [t|]; [destruct (verify_data E d t) eqn:V|].
      + split; [exact O1|]. split; [exact O2|]. intros U. destruct (O3 U) as (p & P1 & P2). exists p. split; [exact P1|]. split; [exact P2|]. intros _ t0 Q. injection Q as <-. exact V.
      + split; [discriminate|]. split; intros; discriminate.
      + split; [exact O1|]. split; [exact O2|]. intros U. destruct (O3 U) as (p & P1 & P2). exists p. split; [exact P1|]. split; [exact P2|]. intros _ t0 Q. discriminate.
    - unfold on_profile_redirected. destruct (info_decode E (d_content d)) as [q| | |] eqn:I; cbn [bind]; try contradiction; [|split; [discriminate|split; intros; discriminate]].
      destruct (p_cert q) as [k|] eqn:PC.
      + destruct (cert_decode E (cert_tlv E k)) as [k'|]; cbn [of_opt bind]; [|split; [discriminate|split; intros; discriminate]]. destruct (name_eqb _ _); [|split; [discriminate|split; intros; discriminate]].
        split; [exact O1|]. split; [exact O2|]. intros U. destruct (O3 U) as (p & P1 & P2). exists p. split; [exact P1|]. split; [exact P2|]. intros Q. discriminate.
      + split; [discriminate|]. split; [intros; discriminate|]. intros _. exists q. split; [exact I|]. split; [exact PC|]. intros Q. discriminate.
  Qed.
  Lemma info_phase : forall h c ci full d c' nx, untouched c -> info_cb E c ci full d = (c', nx) -> phase h c' nx /\ (nx = NUB -> misuse E c ci d (WInfo full)).
  Proof.
    intros h c ci full d c' nx U. unfold info_cb. destruct (info_outcome c full d) as (A & B & C).
    match goal with |- match ?x with _ => _ end = _ -> _ => destruct x as [p| | |] eqn:O end; try contradiction.
    - specialize (B p eq_refl). assert (P : forall c0 ls, untouched c0 -> run_probe E c0 ls p = (c', nx) -> phase h c' nx /\ (nx = NUB -> misuse E c ci d (WInfo full))).
      { intros c0 ls U0. unfold run_probe. intros Q. injection Q as <- <-. split; [|discriminate]. split; [exact U0|]. split; [exact B|]. eexists. split; reflexivity. }
      destruct (cl_trusted c); [apply P; exact U|]. destruct (next_line (ci_lines ci)) as [l ls]. destruct (bytes_eqb _ _); [apply P; exact U|]. intros Q. injection Q as <- <-. split; [apply U|discriminate].
    - intros Q. injection Q as <- <-. split; [left; exact U|discriminate].
    - intros Q. injection Q as <- <-. split; [apply U|]. intros _. destruct (C eq_refl) as (p & P1 & P2 & P3). exact (mu_profile E c ci d full p P1 P2 P3).
  Qed.
  Lemma engage : forall h c ci ls p idn c' nx k d, untouched c -> cl_probe c <> None -> p_cert p = Some k -> data_verifies E d k -> idn <> [] -> In (ci, Some (CData d)) h ->
    (forall l, In l ls -> In l (ci_lines ci)) -> run_new E c ci ls p idn = (c', nx) -> phase h c' nx /\ (nx = NUB -> misuse E c ci d (WProbe p)).
  Proof.
    intros h c ci ls p idn c' nx k d (U1 & U2 & U3 & U4 & U5) PN PC V NE IN LS H.
    destruct (run_new_shape E c ci ls p idn c' nx NE U3 U4 H) as [[-> ->]|(A1 & A2 & A3 & A4 & (s & S1 & S2 & S3 & S4 & S5 & S6 & S7) & A6)]; [split; [exact U5|discriminate]|].
    rewrite U5 in A3. assert (EG : engaged h c' s).
    { split; [exact S1|]. split; [split; [left; exact S6|left; exact S7]|]. split; [rewrite S2; congruence|]. split; [rewrite A2; exact PN|]. split; [exact A3|]. exists ci, (Some (CData d)), idn. split; [exact IN|]. split; [exact NE|]. rewrite <- U2. exact A4. }
    destruct nx; try contradiction.
    - subst w. split; [|discriminate]. exists s. auto.
    - split; [right; exists s; exact EG|discriminate].
    - split; [exact A3|discriminate].
    - split; [exact A3|discriminate].
    - split; [exact A3|]. intros _. destruct A6 as (l & v & I0 & SV & NA). eapply mu_hours; eauto.
  Qed.
  Lemma probe_phase : forall h c ci p d c' nx, untouched c -> cl_probe c <> None -> p_cert p <> None -> In (ci, Some (CData d)) h -> probe_cb E c ci p d = (c', nx) -> phase h c' nx /\ (nx = NUB -> misuse E c ci d (WProbe p)).
  Proof.
    intros h c ci p d c' nx U PN PC IN. unfold probe_cb. destruct (p_cert p) as [k|] eqn:PK; [|contradiction].
    assert (IU : cl_installed c = []) by apply U.
    assert (OUT : calm (on_probe_response E d p) /\ (forall names redirects, on_probe_response E d p = Ok (names, redirects) -> data_verifies E d k /\ probe_decode (d_content d) = Ok (names, redirects))).
    { unfold on_probe_response, check_reply. rewrite PK. destruct (verify_data E d k) eqn:V; cbn [bind]; [|split; [apply calm_exn|intros; discriminate]]. unfold process_if_error. destruct (_ =? NO_ERROR); cbn [bind]; [|split; [apply calm_exn|intros; discriminate]].
      split; [apply calm_probe|]. intros names redirects Q. split; [exact V|exact Q]. }
    destruct OUT as [[O1 O2] O3]. destruct (on_probe_response E d p) as [[names redirects]| | |]; try contradiction; [|intros Q; injection Q as <- <-; split; [exact IU|discriminate]].
    destruct (O3 names redirects eq_refl) as [V PD].
    assert (RED : forall f, redirect_to c f = (c', nx) -> phase h c' nx /\ (nx = NUB -> misuse E c ci d (WProbe p))).
    { intros f. unfold redirect_to. destruct (calm_ca f) as [C1 C2]. destruct (ca_of_full f) as [ca| | |] eqn:CF; try contradiction; [|intros Q; injection Q as <- <-; split; [exact IU|discriminate]].
      unfold discover. destruct (calm_discovery ca) as [D1 D2]. destruct (gen_discovery ca); try contradiction; intros Q; injection Q as <- <-; (split; [|discriminate]); [|exact IU].
      split; [exact U|]. split; [intros Q; congruence|]. intros ->. discriminate CF. }
    destruct redirects as [|f [|f2 rest]].
    - destruct names as [|[n z] [|n2 names]].
      + intros Q. injection Q as <- <-. split; [exact IU|discriminate].
      + assert (NE : n <> []) by (apply (probe_names _ _ _ n z PD); left; reflexivity). apply (engage h c ci (ci_lines ci) p n c' nx k d); auto.
      + unfold capture_one. destruct (capture_index _ _ _) as [[j|] ls] eqn:CI; [|intros Q; injection Q as <- <-; split; [exact IU|discriminate]].
        pose proof (index_bound _ _ _ _ _ CI) as LT. destruct (nth_error _ j) as [[n' z']|] eqn:NT; [|apply nth_error_None in NT; lia].
        assert (NE : n' <> []) by (apply (probe_names _ _ _ n' z' PD); exact (nth_error_In _ _ NT)). apply (engage h c ci ls p n' c' nx k d); auto. intros l IL. exact (index_rest _ _ _ _ _ _ CI IL).
    - apply RED.
    - destruct (calm_cas (f :: f2 :: rest)) as [C1 C2]. destruct (all_cas _); try contradiction; [|intros Q; injection Q as <- <-; split; [exact IU|discriminate]].
      unfold capture_one. destruct (capture_index _ _ _) as [[j|] ls] eqn:CI; [|intros Q; injection Q as <- <-; split; [exact IU|discriminate]]. pose proof (index_bound _ _ _ _ _ CI) as LT.
      destruct (nth_error _ j) as [f'|] eqn:NT; [|apply nth_error_None in NT; lia]. apply RED.
  Qed.
  (** Steps that only change the request. *)
  Lemma engaged_req : forall h c s s', engaged h c s -> ivs s' -> rs_profile s' = rs_profile s -> engaged h (up_req (Some s') c) s'.
  Proof. intros h c s s' (A & B & C & D & F & G) IV P. split; [reflexivity|]. split; [exact IV|]. rewrite P. auto. Qed.
  Lemma challenge_run_phase : forall h c s s1 ci ls ctype c' nx, engaged h c s -> ivs s1 -> rs_profile s1 = rs_profile s -> (ctype = bs "email" -> rs_status s1 <> ST_BEFORE -> first_email c <> None) ->
    run_challenge E (up_req (Some s1) c) s1 ci ls ctype = (c', nx) -> phase h c' nx /\ (nx = NUB -> rs_status s1 = ST_BEFORE /\ ctype = bs "email" /\ first_email c = None).
  Proof.
    intros h c s s1 ci ls ctype c' nx EG IV P EM H. pose proof (run_challenge_shape E (up_req (Some s1) c) s1 ci ls ctype c' nx IV H) as SH.
    assert (P1 : rs_profile s1 = rs_profile s) by exact P. destruct SH as (s' & -> & IV' & SH).
    assert (IN : cl_installed (up_req (Some s') (up_req (Some s1) c)) = []) by apply EG.
    destruct nx; try contradiction; try (split; [exact IN|discriminate]).
    - destruct SH as (-> & CT & _ & ps & els & iv & kn & sk & AP & _). split; [|discriminate]. exists s'.
      assert (P' : rs_profile s' = rs_profile s).
      { unfold run_challenge in H. destruct (select_challenge s1 ctype) as [o s2] eqn:SC. pose proof (select_profile _ _ _ _ SC) as Q1. destruct o; try discriminate.
        match type of H with match ?x with _ => _ end = _ => destruct x; try discriminate end. destruct (gen_challenge E s2 (ci_ri ci) a0) as [o3 s3] eqn:GC. pose proof (gen_challenge_profile _ _ _ _ _ _ GC) as Q2. destruct o3; try discriminate.
        injection H as Q3 _. subst s3. congruence. }
      split; [change (up_req (Some s') (up_req (Some s1) c)) with (up_req (Some s') c); exact (engaged_req h c s s' EG IV' P')|].
      intros Q. rewrite CT in Q. destruct AP as (req & _ & [(_ & _ & v & F & _)|[NB _]]); [change (first_email (up_req (Some s1) c)) with (first_email c) in F; change (first_email c <> None); congruence|].
      destruct (N.eq_dec (rs_status s1) ST_BEFORE) as [Q1|Q1]; [destruct NB; auto|]. exact (EM Q Q1).
    - split; [exact IN|]. intros _. exact SH.
  Qed.
  Lemma find_none_keys : forall k m, mm_find k m = None -> ~ In k (map fst m).
  Proof.
    intros k m. induction m as [|[a v] m IH]; cbn [mm_find map fst]; [intros _ []|]. intros H [Q|Q]; [subst a; rewrite bytes_eqb_refl in H; discriminate|]. destruct (bytes_eqb k a); [discriminate|exact (IH H Q)].
  Qed.
  Lemma new_phase : forall h c ci d s c' nx, engaged h c s -> rs_status s = ST_BEFORE -> new_cb E c ci d = (c', nx) -> phase h c' nx /\ (nx = NUB -> misuse E c ci d WNew).
  Proof.
    intros h c ci d s c' nx EG SB. pose proof EG as (RQ & IV & PC & _ & IN & _). unfold new_cb. rewrite RQ. destruct (p_cert (rs_profile s)) as [k|] eqn:PK; [|contradiction].
    destruct (on_new_response E s (ci_ri ci) d) as [o s1] eqn:ON. pose proof (new_profile E s _ d o s1 ON) as P1.
    destruct (new_reply E s (ci_ri ci) d k o s1 PK ON) as (R1 & R2 & R3 & R4 & _ & R5 & R6 & R7).
    assert (IV1 : ivs s1) by (split; [rewrite R3; apply IV|rewrite R4; apply IV]).
    destruct o as [chals| | |]; [|intros Q; injection Q as <- <-; split; [exact IN|discriminate]| |contradiction].
    - destruct (R7 chals eq_refl) as (V & els & PE & OFF). destruct chals as [|c0 chals]; [intros Q; injection Q as <- <-; split; [exact IN|discriminate]|].
      assert (EM : rs_status s1 <> ST_BEFORE -> first_email c <> None) by (intros Q; congruence).
      destruct (existsb (bytes_eqb K_EMAIL) (c0 :: chals)) eqn:EX.
      + intros H. destruct (challenge_run_phase h c s s1 ci (ci_lines ci) K_EMAIL c' nx EG IV1 P1 (fun _ => EM) H) as [A B]. split; [exact A|]. intros Q. destruct (B Q) as (_ & _ & FE).
        apply existsb_exists in EX as (x & IX & QX). apply bytes_eqb_eq in QX. subst x. apply (mu_email E c ci d s k els RQ PK V PE (OFF _ IX)).
        intros m Q1. unfold first_email in FE. rewrite Q1 in FE. exact (find_none_keys _ _ FE).
      + destruct (capture_index _ _ _) as [[j|] ls] eqn:CI; [|intros Q; injection Q as <- <-; split; [exact IN|discriminate]]. pose proof (index_bound _ _ _ _ _ CI) as LT.
        destruct (nth_error (c0 :: chals) j) as [t|] eqn:NT; [|apply nth_error_None in NT; lia].
        assert (NEM : t <> bs "email").
        { intros ->. assert (existsb (bytes_eqb K_EMAIL) (c0 :: chals) = true); [|congruence]. apply existsb_exists. exists (bs "email"). split; [exact (nth_error_In _ _ NT)|apply bytes_eqb_refl]. }
        intros H. destruct (challenge_run_phase h c s s1 ci ls t c' nx EG IV1 P1 (fun _ => EM) H) as [A B]. split; [exact A|]. intros Q. destruct (B Q) as (_ & Q1 & _). contradiction.
    - intros Q. injection Q as <- <-. split; [exact IN|]. intros _. destruct (R6 eq_refl) as (V & before & t & rest & PE & TL). exact (mu_overlong E c ci d s k before t rest RQ PK V PE TL).
  Qed.
  Lemma challenge_phase : forall h c ci d s c' nx, engaged h c s -> received h d -> (rs_ctype s = bs "email" -> first_email c <> None) -> challenge_cb E c ci d = (c', nx) -> phase h c' nx /\ (nx = NUB -> misuse E c ci d WChallenge).
  Proof.
    intros h c ci d s c' nx EG RD EM. pose proof EG as (RQ & IV & PC & _ & IN & _). unfold challenge_cb. rewrite RQ. destruct (p_cert (rs_profile s)) as [k|] eqn:PK; [|contradiction].
    destruct (on_challenge_response E s (ci_ri ci) d) as [o s1] eqn:ON. pose proof (challenge_profile E s _ d o s1 ON) as P1.
    destruct (challenge_reply E s (ci_ri ci) d k o s1 PK IV ON) as (IV1 & CT & R1 & R2).
    destruct o as [u| | |]; [|intros Q; injection Q as <- <-; split; [exact IN|discriminate]| |contradiction].
    - destruct (rs_status s1 =? ST_SUCCESS) eqn:SU.
      + intros Q. injection Q as <- <-. split; [|discriminate]. apply N.eqb_eq in SU. exists s1. split; [exact (engaged_req h c s s1 EG IV1 P1)|]. split; [exact SU|]. split; [reflexivity|]. exact (challenge_told E h s _ d u s1 RD ON SU).
      + intros H. destruct (challenge_run_phase h c s s1 ci (ci_lines ci) (rs_ctype s1) c' nx EG IV1 P1) as [A B]; [intros Q _; rewrite CT in Q; exact (EM Q)|exact H|]. split; [exact A|].
        intros Q. destruct (B Q) as (_ & Q1 & Q2). rewrite CT in Q1. destruct (EM Q1 Q2).
    - intros Q. injection Q as <- <-. split; [exact IN|]. intros _. destruct (R2 eq_refl) as (V & iv & ct & tag & pt & els & t & n & D1 & D2 & D3 & D4 & D5 & D6). exact (mu_time E c ci d s k iv ct tag pt els t n RQ PK V D1 D2 D3 D4 D5 D6).
  Qed.
  Lemma find_key_name : forall n i k sk, find_key n i = Some (k, sk) -> k = n.
  Proof. intros n i k sk H. unfold find_key in H. apply find_some in H as [_ H]. cbn in H. apply name_eqb_eq. exact H. Qed.
  Lemma cert_phase : forall h c s i d c' nx, engaged h c s -> rs_status s = ST_SUCCESS -> told_success E h s -> i_name i = rs_issued s -> (c_name d = i_name i \/ full_name E d = i_name i) -> cert_cb E c d = (c', nx) -> phase h c' nx /\ nx <> NUB.
  Proof.
    intros h c s i d c' nx (RQ & _ & _ & _ & IN & _) SU TS IN0 M. unfold cert_cb, on_cert_fetch. destruct (cert_ok d) eqn:CO; [|intros Q; injection Q as <- <-; split; [exact IN|discriminate]].
    destruct (pib_get (identity_of (c_name d)) (cl_pib c)) as [j|] eqn:PG; [|intros Q; injection Q as <- <-; split; [exact IN|discriminate]].
    destruct (find_key (key_name_of (c_name d)) j) as [[kn sk]|] eqn:FK; [|intros Q; injection Q as <- <-; split; [exact IN|discriminate]].
    destruct (bytes_eqb (public_key d) (o_pub E sk)) eqn:PK; intros Q; injection Q as <- <-; [|split; [exact IN|discriminate]]. split; [|discriminate].
    exists d. cbn [cl_installed up_installed]. rewrite IN. split; [reflexivity|]. pose proof (find_key_name _ _ _ _ FK) as ->. exists s, j, sk. apply bytes_eqb_eq in PK. rewrite <- IN0. auto 12.
  Qed.
  Lemma signal_phase : forall h c c' nx, cl_installed c = [] -> handle_signal c = (c', nx) -> phase h c' nx /\ nx <> NUB.
  Proof.
    intros h c c' nx IN. unfold handle_signal. destruct (cl_req c); [|intros Q; injection Q as <- <-; split; [exact IN|discriminate]].
    destruct (cl_newid c); [destruct (cl_newkey c)|]; [intros Q; injection Q as <- <-; split; [exact IN|discriminate]|..]; destruct (pib_get _ _); intros Q; injection Q as <- <-; (split; [exact IN|discriminate]).
  Qed.
  Lemma run_phase : forall h c nx, client_run E file pb h c nx -> phase h c nx /\
    (nx = NUB -> exists ci d rest c0 i w, h = (ci, Some (CData d)) :: rest /\ client_run E file pb rest c0 (NWait i w) /\ misuse E c0 ci d w).
  Proof.
    intros h c nx H. induction H as [ci c nx S|h c i w ci ev c' nx H [IH _] M S|h c ci c' nx H [IH _] S].
    - destruct (start_phase ci c nx S) as [A B]. split; [exact A|]. intros Q. contradiction.
    - apply (phase_more (ci, Some ev)) in IH.
      assert (FIN : forall d, ev = CData d -> phase ((ci, Some ev) :: h) c' nx /\ (nx = NUB -> misuse E c ci d w) -> phase ((ci, Some ev) :: h) c' nx /\
        (nx = NUB -> exists ci0 d0 rest c0 i0 w0, (ci, Some ev) :: h = (ci0, Some (CData d0)) :: rest /\ client_run E file pb rest c0 (NWait i0 w0) /\ misuse E c0 ci0 d0 w0)).
      { intros d -> [A B]. split; [exact A|]. intros Q. exists ci, d, h, c, i, w. auto. }
      assert (EZ : phase ((ci, Some ev) :: h) c' nx /\ nx <> NUB -> phase ((ci, Some ev) :: h) c' nx /\
        (nx = NUB -> exists ci0 d0 rest c0 i0 w0, (ci, Some ev) :: h = (ci0, Some (CData d0)) :: rest /\ client_run E file pb rest c0 (NWait i0 w0) /\ misuse E c0 ci0 d0 w0)).
      { intros [A B]. split; [exact A|]. intros Q. contradiction. }
      assert (IN : cl_installed c = []).
      { destruct w; cbn in IH; [apply IH|apply IH|apply IH| | |]; destruct IH as (s & EG & _); apply EG. }
      destruct ev as [d|d| | |]; [|destruct w; try contradiction M; cbn in IH; destruct IH as (s & EG & SU & IN0 & TS); apply EZ; exact (cert_phase _ c s i d c' nx EG SU TS IN0 M S)|..].
      + apply (FIN d eq_refl). destruct w as [full|full|p| | |]; cbn in M; try contradiction; cbn [client_step] in S.
        * unfold meta_cb in S. destruct (calm_meta d) as [C1 C2]. destruct (gen_profile_interest d); try contradiction; injection S as <- <-; (split; [|discriminate]); [exact IH|exact IN].
        * exact (info_phase _ c ci full d c' nx (proj1 IH) S).
        * destruct IH as (U & PC & m & PM & _). apply (probe_phase _ c ci p d c' nx U); [congruence|exact PC|left; reflexivity|exact S].
        * destruct IH as (s & EG & SB & _). exact (new_phase _ c ci d s c' nx EG SB S).
        * destruct IH as (s & EG & EM). refine (challenge_phase _ c ci d s c' nx EG _ EM S). exists ci. left. reflexivity.
      + apply EZ. cbn [client_step] in S. injection S as <- <-. split; [exact IN|discriminate].
      + apply EZ. cbn [client_step] in S. injection S as <- <-. split; [|discriminate]. destruct w; cbn in IH |- *; [left; apply IH|left; apply IH|left; apply IH|..]; destruct IH as (s & EG & _); right; exists s; exact EG.
      + apply EZ. cbn [client_step] in S. exact (signal_phase _ c c' nx IN S).
    - assert (IN : cl_installed c = []) by (destruct IH as [U|(s & EG)]; [apply U|apply EG]). destruct (signal_phase ((ci, Some CSignal) :: h) c c' nx IN S) as [A B]. split; [exact A|]. intros Q. contradiction.
  Qed.
End Invariant.

(** ** Results *)
Theorem client_installed : forall E file pb h c nx k, client_run E file pb h c nx -> In k (cl_installed c) ->
  exists s i identity kid issuer version sk, cl_req c = Some s /\ told_success E h s /\ (c_name k = rs_issued s \/ full_name E k = rs_issued s) /\
    c_name k = identity ++ [gc (bs "KEY"); kid; issuer; version] /\ In i (cl_pib c) /\ id_name i = identity /\ In (identity ++ [gc (bs "KEY"); kid], sk) (id_keys i) /\ public_key k = o_pub E sk.
Proof.
  intros E file pb h c nx k H IN. destruct (run_phase E file pb h c nx H) as [P _].
  assert (D : nx = NDone \/ cl_installed c = []).
  { destruct nx as [i w| | | | | |]; cbn in P; auto.
    - right. destruct w; [apply P|apply P|apply P|..]; destruct P as (s & EG & _); apply EG.
    - right. destruct P as [U|(s & EG)]; [apply U|apply EG].
    - contradiction. }
  destruct D as [->|D]; [|rewrite D in IN; destruct IN]. destruct P as (k' & Q & s & i & sk & A1 & A2 & A3 & A4 & A5 & A6 & A7 & A8). rewrite Q in IN. destruct IN as [->|[]].
  unfold cert_ok in A4. apply andb_prop in A4 as [A4 _]. apply andb_prop in A4 as [A4 _]. destruct (valid_cert_name_shape _ A4) as (kid & iss & ver & SH).
  set (idn := identity_of (c_name k)) in *. assert (KN : key_name_of (c_name k) = idn ++ [c_KEY; kid]) by (rewrite SH; apply key_name_of_shape). rewrite KN in A7.
  exists s, i, idn, kid, iss, ver, sk. split; [exact A1|]. split; [exact A3|]. split; [exact A5|]. split; [exact SH|].
  assert (PI : forall p, pib_get idn p = Some i -> In i p /\ id_name i = idn).
  { induction p as [|j p IHp]; cbn [pib_get]; [discriminate|]. destruct (name_eqb (id_name j) idn) eqn:QN; [intros Q1; injection Q1 as <-; split; [left; reflexivity|apply name_eqb_eq; exact QN]|]. intros Q1. destruct (IHp Q1). split; [right; assumption|assumption]. }
  destruct (PI _ A6) as [P1 P2]. split; [exact P1|]. split; [exact P2|]. split; [|exact A8]. unfold find_key in A7. apply find_some in A7 as [A7 _]. exact A7.
Qed.
Theorem client_ub : forall E file pb h c, client_run E file pb h c NUB ->
  exists ci d rest c0 i w, h = (ci, Some (CData d)) :: rest /\ client_run E file pb rest c0 (NWait i w) /\ misuse E c0 ci d w.
Proof. intros E file pb h c H. exact (proj2 (run_phase E file pb h c NUB H) eq_refl). Qed.
Theorem client_no_hang : forall E file pb h c, ~ client_run E file pb h c NHang.
Proof. intros E file pb h c H. exact (proj1 (run_phase E file pb h c NHang H)). Qed.

(** The key chain after a signal. *)
Lemma pib_get_in : forall n p i, pib_get n p = Some i -> In i p /\ id_name i = n.
Proof.
  intros n p i. induction p as [|j p IHp]; cbn [pib_get]; [discriminate|]. destruct (name_eqb (id_name j) n) eqn:Q; [intros Q1; injection Q1 as <-; split; [left; reflexivity|apply name_eqb_eq; exact Q]|]. intros Q1. destruct (IHp Q1). split; [right; assumption|assumption].
Qed.
Lemma pib_get_app : forall n p i, pib_get n p = None -> id_name i = n -> pib_get n (p ++ [i]) = Some i.
Proof.
  intros n p i. induction p as [|j p IHp]; cbn [pib_get app]; intros H Q; [rewrite Q, name_eqb_refl; reflexivity|]. destruct (name_eqb (id_name j) n); [discriminate|]. exact (IHp H Q).
Qed.
Lemma pib_drop_app : forall n p i, pib_get n p = None -> id_name i = n -> pib_drop n (p ++ [i]) = p.
Proof.
  intros n p i. unfold pib_drop. induction p as [|j p IHp]; cbn [pib_get app filter]; intros H Q; [rewrite Q, name_eqb_refl; reflexivity|]. destruct (name_eqb (id_name j) n); [discriminate|]. cbn [negb]. f_equal. exact (IHp H Q).
Qed.
Lemma pib_get_set : forall n p i j, pib_get n p = Some i -> id_name j = n -> pib_get n (pib_set j p) = Some j /\ pib_set i (pib_set j p) = p.
Proof.
  intros n p i j. induction p as [|a p IHp]; cbn [pib_get pib_set]; intros H Q; [discriminate|]. rewrite Q. destruct (name_eqb (id_name a) n) eqn:QA.
  - injection H as ->. cbn [pib_get pib_set]. apply name_eqb_eq in QA. rewrite Q, QA, name_eqb_refl. auto.
  - destruct (IHp H Q) as [A B]. cbn [pib_get pib_set]. rewrite QA. destruct (pib_get_in _ _ _ H) as [_ QI]. rewrite QI, QA, B. auto.
Qed.
Lemma drop_added : forall k i d, id_default i = Some d -> In d (map fst (id_keys i)) -> ~ In (fst k) (map fst (id_keys i)) -> drop_key (fst k) (add_key k i) = i.
Proof.
  intros k [n keys df] d D IN NI. cbn in *. subst df. unfold drop_key, add_key. cbn [id_name id_keys id_default]. rewrite filter_app. cbn [filter]. rewrite name_eqb_refl. cbn [negb]. rewrite app_nil_r. f_equal.
  - clear IN. induction keys as [|a keys IH]; [reflexivity|]. cbn [filter map] in *. destruct (name_eqb (fst a) (fst k)) eqn:Q; [destruct NI; left; apply name_eqb_eq; exact Q|]. cbn [negb]. f_equal. apply IH. intros X. apply NI. right. exact X.
  - destruct (name_eqb d (fst k)) eqn:Q; [apply name_eqb_eq in Q; subst d; contradiction|reflexivity].
Qed.
Theorem client_cleanup : forall E file pb ci h c nx, client_run E file pb ((ci, Some CSignal) :: h) c nx -> pib_sound pb -> key_ids_new pb h -> cl_pib c = pb /\ nx = NExit 1.
Proof.
  intros E file pb ci h c nx H PS KN.
  assert (G : forall c0 c' n', (untouched pb c0 \/ exists s, engaged pb h c0 s) -> handle_signal c0 = (c', n') -> cl_pib c' = pb /\ n' = NExit 1).
  { intros c0 c' n' [(U1 & U2 & _)|(s & RQ & _ & _ & _ & _ & cj & ev & idn & IH & NE & CH)] S; unfold handle_signal in S.
    - rewrite U1 in S. injection S as <- <-. auto.
    - rewrite RQ in S. inversion CH as [PG Q1 Q2 Q3|i PG DF Q1 Q2 Q3|i PG DF Q1 Q2 Q3|i p' nk PG DF Q1 Q2 Q3].
      + rewrite <- Q2 in S. rewrite <- Q1 in S. rewrite <- Q2 in PG. set (i0 := Ident idn [k1_of cj idn] (Some (fst (k1_of cj idn)))) in *. assert (PG1 := pib_get_app idn pb i0 PG eq_refl). assert (PD := pib_drop_app idn pb i0 PG eq_refl). destruct idn as [|a idn]; [contradiction|]. change (Ident (a :: idn) _ _) with i0 in S. rewrite PG1, PD in S. injection S as <- <-. auto.
      + rewrite <- Q2, <- Q3 in S. injection S as <- <-. auto.
      + rewrite <- Q2, <- Q1 in S. destruct (pib_get_in _ _ _ PG) as [I1 I2]. destruct (pib_get_set idn pb i (add_key (k2_of cj idn) i) PG I2) as [A B].
        assert (PF : prefix_neg 2 (cl_newkey c0) = idn) by (rewrite <- Q3; exact (prefix_neg_app idn [c_KEY; fst (ci_key2 cj)])).
        rewrite PF, A in S. change (cl_newkey c0) with (cl_newkey c0) in S. rewrite <- Q3 in S. change (idn ++ [c_KEY; fst (ci_key2 cj)]) with (fst (k2_of cj idn)) in S. destruct (PS i I1) as (d & D1 & D2). rewrite (drop_added (k2_of cj idn) i d D1 D2) in S; [|cbn; rewrite <- I2; exact (KN cj ev i IH I1)]. rewrite B in S.
        destruct (fst (k2_of cj idn)) eqn:FK; [cbn in FK; destruct idn; discriminate|]. injection S as <- <-. auto.
      + destruct (pib_get_in _ _ _ PG) as [I1 I2]. destruct (PS i I1) as (d & D1 & _). congruence. }
  inversion H as [|h' c0 i w ci' ev c' nx' H0 M S|h' c0 ci' c' nx' H0 S]; subst.
  - apply (G c0 c nx); [|exact S]. pose proof (proj1 (run_phase E file pb h c0 _ H0)) as P. destruct w; cbn in P; [left; apply P|left; apply P|left; apply P|..]; destruct P as (s & EG & _); right; exists s; exact EG.
  - apply (G c0 c nx); [|exact S]. exact (proj1 (run_phase E file pb h c0 _ H0)).
Qed.

(** The parameters for the name assignment and the challenge. *)
Theorem client_probe : forall E file pb h c x p, client_run E file pb h c (NWait x (WProbe p)) -> exists m, cl_probe c = Some m /\ probes p m x.
Proof.
  intros E file pb h c x p H. destruct (run_phase E file pb h c _ H) as [(_ & _ & m & A & ->) _]. exists m. split; [exact A|]. split; [|reflexivity]. exact (sent_unsigned E (p_prefix p) [gc (bs "PROBE")] _).
Qed.
Lemma challenge_probe : forall E c s ci ls ty c' nx, run_challenge E c s ci ls ty = (c', nx) -> cl_probe c' = cl_probe c.
Proof.
  intros E c s ci ls ty c' nx. unfold run_challenge. destruct (select_challenge s ty) as [[req| | |] s1]; try (intros Q; injection Q as <- <-; reflexivity).
  match goal with |- match ?x with _ => _ end = _ -> _ => destruct x end; try (intros Q; injection Q as <- <-; reflexivity). destruct (gen_challenge E s1 (ci_ri ci) _) as [[] s2]; intros Q; injection Q as <- <-; reflexivity.
Qed.
Lemma new_probe : forall E c ci ls p idn c' nx, run_new E c ci ls p idn = (c', nx) -> cl_probe c' = cl_probe c.
Proof.
  intros E c ci ls p idn c' nx. unfold run_new. destruct (capture_validity 3 ls) as [[hours|] ls1]; [|intros Q; injection Q as <- <-; reflexivity]. cbv zeta.
  match goal with |- (let (_, _) := ?x in _) = _ -> _ => destruct x as [c2 i] eqn:Q2 end. assert (R2 : cl_probe c2 = cl_probe c) by (destruct (pib_get _ _) in Q2; injection Q2 as <- <-; reflexivity).
  match goal with |- (let (_, _) := ?x in _) = _ -> _ => destruct x as [c3 i2] eqn:Q3 end. assert (R3 : cl_probe c3 = cl_probe c) by (destruct (id_default i); injection Q3 as <- <-; exact R2).
  match goal with |- (let (_, _) := ?x in _) = _ -> _ => destruct x as [ok c4] eqn:Q4 end.
  assert (R4 : cl_probe c4 = cl_probe c).
  { destruct (cl_newid c3); [|injection Q4 as _ <-; exact R3]. unfold capture_key in Q4. destruct (next_line ls1) as [l ls2]. destruct (bytes_eqb _ _); [injection Q4 as _ <-; exact R3|].
    destruct (stoul l); [destruct (_ <=? _)|]; injection Q4 as _ <-; exact R3. }
  destruct ok as [[kn sk]|]; [|intros Q; injection Q as <- <-; exact R4]. destruct (_ && _); [|intros Q; injection Q as <- <-; exact R4].
  destruct (gen_new E _ (ci_ri ci) kn sk (ci_now ci) _) as [[[x|]| | |] s1]; intros Q; injection Q as <- <-; exact R4.
Qed.
Theorem client_probe_kept : forall E c w ci ev c' nx m, cl_probe c = Some m -> client_step E c w ci ev = (c', nx) -> cl_probe c' = Some m.
Proof.
  intros E c w ci ev c' nx m PM. rewrite <- PM. destruct ev as [d|d| | |]; cbn [client_step].
  - destruct w as [full|full|p| | |].
    + unfold meta_cb. destruct (gen_profile_interest d); intros Q; injection Q as <- <-; reflexivity.
    + unfold info_cb. match goal with |- match ?x with _ => _ end = _ -> _ => destruct x as [p| | |] end; try (intros Q; injection Q as <- <-; reflexivity).
      unfold run_probe. cbn [cl_probe up_trusted]. rewrite PM. destruct (cl_trusted c); [intros Q; injection Q as <- <-; reflexivity|]. destruct (next_line (ci_lines ci)). destruct (bytes_eqb _ _); intros Q; injection Q as <- <-; [reflexivity|exact PM].
    + unfold probe_cb. destruct (on_probe_response E d p) as [[names redirects]| | |]; try (intros Q; injection Q as <- <-; reflexivity).
      assert (RED : forall f, redirect_to c f = (c', nx) -> cl_probe c' = cl_probe c) by (intros f; unfold redirect_to, discover; destruct (ca_of_full f); try (intros Q; injection Q as <- <-; reflexivity); destruct (gen_discovery _); intros Q; injection Q as <- <-; reflexivity).
      destruct redirects as [|f [|f2 rest]]; [|apply RED|].
      * destruct names as [|[n z] [|n2 names]]; [intros Q; injection Q as <- <-; reflexivity|apply new_probe|]. destruct (capture_one _ _) as [[k|] ls]; [|intros Q; injection Q as <- <-; reflexivity].
        destruct (nth_error _ k) as [[n' z']|]; [apply new_probe|intros Q; injection Q as <- <-; reflexivity].
      * destruct (all_cas _); try (intros Q; injection Q as <- <-; reflexivity). destruct (capture_one _ _) as [[k|] ls]; [|intros Q; injection Q as <- <-; reflexivity]. destruct (nth_error _ k); [apply RED|intros Q; injection Q as <- <-; reflexivity].
    + unfold new_cb. destruct (cl_req c) as [s|]; [|intros Q; injection Q as <- <-; reflexivity]. destruct (on_new_response E s (ci_ri ci) d) as [[chals| | |] s1]; try (intros Q; injection Q as <- <-; reflexivity).
      destruct chals as [|c0 chals]; [intros Q; injection Q as <- <-; reflexivity|]. destruct (existsb _ _); [exact (challenge_probe E _ s1 ci _ _ c' nx)|]. destruct (capture_index _ _ _) as [[k|] ls]; [|intros Q; injection Q as <- <-; reflexivity].
      destruct (nth_error _ k); [exact (challenge_probe E _ s1 ci _ _ c' nx)|intros Q; injection Q as <- <-; reflexivity].
    + unfold challenge_cb. destruct (cl_req c) as [s|]; [|intros Q; injection Q as <- <-; reflexivity]. destruct (on_challenge_response E s (ci_ri ci) d) as [[u| | |] s1]; try (intros Q; injection Q as <- <-; reflexivity).
      destruct (_ =? _); [intros Q; injection Q as <- <-; reflexivity|exact (challenge_probe E _ s1 ci _ _ c' nx)].
    + intros Q; injection Q as <- <-; reflexivity.
  - destruct w; try (intros Q; injection Q as <- <-; reflexivity). unfold cert_cb. destruct (on_cert_fetch d); try (intros Q; injection Q as <- <-; reflexivity). destruct (pib_get _ _); [|intros Q; injection Q as <- <-; reflexivity].
    destruct (find_key _ _) as [[]|]; [|intros Q; injection Q as <- <-; reflexivity]. destruct (bytes_eqb _ _); intros Q; injection Q as <- <-; reflexivity.
  - intros Q; injection Q as <- <-; reflexivity.
  - intros Q; injection Q as <- <-; reflexivity.
  - unfold handle_signal. destruct (cl_req c); [|intros Q; injection Q as <- <-; reflexivity]. destruct (cl_newid c); [destruct (cl_newkey c)|]; [intros Q; injection Q as <- <-; reflexivity|..]; destruct (pib_get _ _); intros Q; injection Q as <- <-; reflexivity.
Qed.
Lemma find_email : forall m v, mm_find (bs "email") m = Some v -> email_of m v.
Proof.
  induction m as [|[k a] m IH]; intros v; cbn [mm_find]; [discriminate|]. destruct (bytes_eqb (bs "email") k) eqn:Q.
  - intros H. injection H as <-. apply bytes_eqb_eq in Q. subst k. exists [], m. split; [reflexivity|]. intros [].
  - intros H. destruct (IH v H) as (x & y & -> & N). exists ((k, a) :: x), y. split; [reflexivity|]. intros [X|X]; [cbn in X; subst k; rewrite bytes_eqb_refl in Q; discriminate|contradiction].
Qed.
(** The first challenge Interest, when the CA offers "email". *)
Theorem client_email : forall E file pb h c i ci d c' x s, client_run E file pb h c (NWait i WNew) -> client_step E c WNew ci (CData d) = (c', NWait x WChallenge) ->
  cl_req c' = Some s -> rs_ctype s = bs "email" ->
  exists m v, cl_probe c = Some m /\ email_of m v /\
    sends_sealed E s x [Tlv T_SelectedChallenge (bs "email"); Tlv T_ParameterKey (bs "email"); Tlv T_ParameterValue v].
Proof.
  intros E file pb h c i ci d c' x s H S RQ' CT. destruct (run_phase E file pb h c _ H) as [(s0 & EG & SB & CB & _) _]. pose proof EG as (RQ & IV & PC & _). cbn [client_step] in S. unfold new_cb in S. rewrite RQ in S.
  destruct (p_cert (rs_profile s0)) as [k|] eqn:PK; [|contradiction].
  destruct (on_new_response E s0 (ci_ri ci) d) as [o s1] eqn:ON. destruct (new_reply E s0 (ci_ri ci) d k o s1 PK ON) as (R1 & R2 & R3 & R4 & _).
  assert (IV1 : ivs s1) by (split; [rewrite R3; apply IV|rewrite R4; apply IV]).
  assert (RUN : forall ls ty, run_challenge E (up_req (Some s1) c) s1 ci ls ty = (c', NWait x WChallenge) -> exists m v, cl_probe c = Some m /\ email_of m v /\
    sends_sealed E s x [Tlv T_SelectedChallenge (bs "email"); Tlv T_ParameterKey (bs "email"); Tlv T_ParameterValue v]).
  { intros ls ty Q. pose proof Q as Q'. apply (run_challenge_shape E _ s1 ci ls ty c' _ IV1) in Q as (s' & -> & _ & _ & C1 & C2 & ps & els & iv & kn & sk & AP & G & I12 & KP & X).
    cbn in RQ'. injection RQ' as <-. rewrite CT in C1. subst ty. unfold asked_params in AP. rewrite R1, SB in AP, G.
    assert (SAME : rs_profile s' = rs_profile s1 /\ rs_key s' = rs_key s1 /\ rs_id s' = rs_id s1).
    { unfold run_challenge, select_challenge in Q'. destruct (requested_params (bs "email") (rs_status s1) (rs_cstatus s1)) as [[req| | |]|]; try discriminate.
      match type of Q' with match ?y with _ => _ end = _ => destruct y as [ps'| | |]; try discriminate end. destruct (gen_challenge E (upd_ctype (bs "email") s1) (ci_ri ci) ps') as [o3 s3] eqn:GC. destruct (gen_challenge_shape E (upd_ctype (bs "email") s1) (ci_ri ci) ps' o3 s3 (proj1 IV1) GC) as (_ & _ & _ & SQ & _).
      destruct o3; try discriminate. injection Q' as Q3 _. subst s3. rewrite SQ. auto. }
    destruct SAME as (S1 & S2 & S3). destruct AP as (req & _ & [(_ & _ & v & F & ->)|[NB _]]); [|destruct NB; auto].
    unfold first_email in F. cbn [cl_probe up_req] in F. destruct (cl_probe c) as [m|]; [|discriminate]. exists m, v. split; [reflexivity|]. split; [exact (find_email m v F)|].
    assert (EL : els = [Tlv T_SelectedChallenge (bs "email"); Tlv T_ParameterKey (bs "email"); Tlv T_ParameterValue v]) by (cbn in G; injection G as <-; reflexivity).
    unfold sends_sealed. rewrite S1, S2, S3. rewrite X. rewrite <- EL. split; [exact (sent_signed E sk _ [gc (bs "CHALLENGE"); gc (rs_id s1)] _)|].
    destruct (o_aes_enc E (rs_key s1) iv (rs_id s1) (enc_tlvs els)) as [ct tag] eqn:EN. exists iv, ct, tag. split; [exact I12|]. split; [exact EN|]. unfold sealed. rewrite EN. reflexivity. }
  destruct o as [chals| | |]; try discriminate. destruct chals as [|c0 chals]; [discriminate|]. destruct (existsb _ _); [exact (RUN _ _ S)|]. destruct (capture_index _ _ _) as [[j|] ls]; [|discriminate]. destruct (nth_error _ j); [|discriminate]. exact (RUN _ _ S).
Qed.
(** The parameters the client asks its user for. *)
Lemma insert_keys : forall k v m, Permutation (map fst (mm_insert k v m)) (k :: map fst m).
Proof.
  intros k v m. induction m as [|[a b] m IH]; cbn [mm_insert map fst]; [apply Permutation_refl|]. destruct (bytes_ltb k a); [apply Permutation_refl|]. cbn [map fst].
  eapply Permutation_trans; [apply perm_skip; exact IH|]. apply perm_swap.
Qed.
Lemma of_keys : forall l, Permutation (map fst (mm_of l)) (map fst l).
Proof.
  intros l. unfold mm_of. assert (G : forall l m, Permutation (map fst (fold_left (fun m kv => mm_insert (fst kv) (snd kv) m) l m)) (map fst m ++ map fst l)).
  { clear l. induction l as [|[k v] l IH]; intros m; cbn [fold_left map fst snd]; [rewrite app_nil_r; apply Permutation_refl|]. eapply Permutation_trans; [apply IH|].
    eapply Permutation_trans; [apply Permutation_app_tail; apply insert_keys|]. apply Permutation_middle. }
  exact (G l []).
Qed.
Lemma capture_keys : forall m ls, map fst (fst (capture m ls)) = map fst m.
Proof. induction m as [|[k v] m IH]; intros ls; cbn [capture]; [reflexivity|]. destruct (next_line ls) as [l ls1]. specialize (IH ls1). destruct (capture m ls1) as [r ls2]. cbn in *. f_equal. exact IH. Qed.
Lemma capture_lines : forall m ls k v, In (k, v) (fst (capture m ls)) -> v = [] \/ In v ls.
Proof.
  induction m as [|[k0 v0] m IH]; intros ls k v; cbn [capture]; [intros []|]. destruct (next_line ls) as [l ls1] eqn:NL. specialize (IH ls1). destruct (capture m ls1) as [r ls2]. cbn [fst] in *. intros [Q|Q].
  - injection Q as <- <-. destruct ls; cbn in NL; injection NL as <- <-; [left; reflexivity|right; left; reflexivity].
  - destruct (IH k v Q) as [X|X]; [left; exact X|right; exact (next_rest _ _ _ _ NL X)].
Qed.
Lemma lower_first_keys : forall k m, map fst (lower_first k m) = map fst m.
Proof. intros k m. induction m as [|[a v] m IH]; cbn [lower_first map fst]; [reflexivity|]. destruct (bytes_eqb k a); cbn [map fst]; [reflexivity|]. f_equal. exact IH. Qed.
Lemma lower_first_email : forall m v, email_of (lower_first K_EMAIL m) v -> exists l, In (bs "email", l) m /\ v = to_lower l.
Proof.
  intros m v (a & b & Q & N). revert a Q N. induction m as [|[k w] m IH]; intros a Q N; cbn [lower_first] in Q; [destruct a; discriminate|]. destruct (bytes_eqb K_EMAIL k) eqn:QK.
  - apply bytes_eqb_eq in QK. subst k. destruct a as [|x a]; cbn in Q; injection Q as Q1 Q2; [exists w; split; [left; reflexivity|symmetry; exact Q1]|]. destruct N. left. rewrite <- Q1. reflexivity.
  - destruct a as [|x a]; cbn in Q; injection Q as Q1 Q2; [subst k; rewrite bytes_eqb_refl in QK; discriminate|]. destruct (IH a Q2) as (l & I0 & R); [intros X; apply N; right; exact X|]. exists l. split; [right; exact I0|exact R].
Qed.
Theorem client_first_probe : forall E file pb h c i ci d c' x p, client_run E file pb h c (NWait i (WInfo [])) -> client_step E c (WInfo []) ci (CData d) = (c', NWait x (WProbe p)) ->
  exists m, cl_probe c' = Some m /\ probes p m x /\ Permutation (map fst m) (p_probe_keys p) /\
    forall v, email_of m v -> exists l, (l = [] \/ In l (ci_lines ci)) /\ lower_of l v.
Proof.
  intros E file pb h c i ci d c' x p H S. destruct (run_phase E file pb h c _ H) as [(_ & PN) _]. assert (PN' : cl_probe c = None) by (apply PN; reflexivity). cbn [client_step] in S. unfold info_cb in S.
  assert (G : forall c0 ls q, cl_probe c0 = None -> (forall l, In l ls -> In l (ci_lines ci)) -> run_probe E c0 ls q = (c', NWait x (WProbe p)) ->
    exists m, cl_probe c' = Some m /\ probes p m x /\ Permutation (map fst m) (p_probe_keys p) /\ forall v, email_of m v -> exists l, (l = [] \/ In l (ci_lines ci)) /\ lower_of l v).
  { intros c0 ls q C0 LS Q. unfold run_probe in Q. rewrite C0 in Q. injection Q as <- <- <-. eexists. split; [reflexivity|]. split; [split; [exact (sent_unsigned E (p_prefix q) [gc (bs "PROBE")] _)|reflexivity]|]. split.
    - rewrite lower_first_keys. unfold capture_list. rewrite capture_keys. eapply Permutation_trans; [apply of_keys|]. rewrite map_map. cbn [fst]. rewrite map_id. apply Permutation_refl.
    - intros v EM. apply lower_first_email in EM as (l & I0 & ->). exists l. unfold capture_list in I0. apply capture_lines in I0. split; [destruct I0; auto|]. apply lower_iff. reflexivity. }
  match type of S with match ?y with _ => _ end = _ => destruct y as [q| | |]; try discriminate end. destruct (cl_trusted c); [exact (G c (ci_lines ci) q PN' (fun l X => X) S)|].
  destruct (next_line (ci_lines ci)) as [l ls] eqn:NL. destruct (bytes_eqb _ _); [|discriminate]. apply (G (up_trusted (p_cert q) c) ls q PN'); [|exact S]. intros l0 X. exact (next_rest _ _ _ _ NL X).
Qed.
