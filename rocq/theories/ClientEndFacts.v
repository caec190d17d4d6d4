(** How the client reads numbers and how it ends. *)
From Verif Require Export ClientFacts Spec_ClientEnd.
From Verif Require Import ConfigFacts NameFacts RequesterFacts.
From Coq Require Import Lia.
Local Open Scope N_scope.

(** ** Numbers *)
Lemma space_iff : forall b, is_space b = true <-> blank b.
Proof.
  intros b. unfold is_space, blank. cbn [In]. rewrite Bool.orb_true_iff, Bool.andb_true_iff, N.eqb_eq, !N.leb_le. lia.
Qed.
Lemma digit_some : forall b d, digit_of b = Some d <-> Byte.to_N b = 48 + d /\ d < 10.
Proof.
  intros b d. unfold digit_of. destruct ((48 <=? Byte.to_N b) && (Byte.to_N b <=? 57)) eqn:B.
  - apply Bool.andb_true_iff in B as [B1 B2]. apply N.leb_le in B1, B2. split; [intros Q; injection Q as <-; lia|intros [Q _]; f_equal; lia].
  - apply Bool.andb_false_iff in B. split; [discriminate|]. intros [Q L]. destruct B as [B|B]; apply N.leb_gt in B; lia.
Qed.
Lemma digit_none : forall b, digit_of b = None <-> ~ 48 <= Byte.to_N b <= 57.
Proof.
  intros b. unfold digit_of. destruct ((48 <=? Byte.to_N b) && (Byte.to_N b <=? 57)) eqn:B.
  - apply Bool.andb_true_iff in B as [B1 B2]. apply N.leb_le in B1, B2. split; [discriminate|lia].
  - apply Bool.andb_false_iff in B. split; [intros _|reflexivity]. destruct B as [B|B]; apply N.leb_gt in B; lia.
Qed.
(** What the digits read so far and the rest add up to. *)
Lemma read_more : forall s ds n, (ds = [] /\ n = 0) \/ decimal ds n ->
  exists ds' tail m, ds ++ s = ds' ++ tail /\ no_digit_first tail /\ read_digits n s = m /\ ((ds' = [] /\ m = 0) \/ decimal ds' m) /\
    (ds' = [] -> ds = []) /\ (forall b s', s = b :: s' -> digit_of b <> None -> decimal ds' m).
Proof.
  induction s as [|b s IH]; intros ds n H.
  - exists ds, [], n. cbn. repeat split; try assumption. + intros Q. exact Q. + intros ? ? Q. discriminate.
  - cbn [read_digits]. destruct (digit_of b) as [d|] eqn:D.
    + apply digit_some in D as [D1 D2]. assert (DD : decimal (ds ++ [b]) (10 * n + d)).
      { destruct H as [[-> ->]|H]; [apply (dec_one b d D1 D2)|exact (dec_more _ _ _ _ H D1 D2)]. }
      destruct (IH (ds ++ [b]) (10 * n + d) (or_intror DD)) as (ds' & tail & m & A & B & C & F & G & _). exists ds', tail, m.
      rewrite <- app_assoc in A. cbn in A. split; [exact A|]. split; [exact B|]. split; [exact C|]. split; [exact F|].
      assert (NE : ds' <> []) by (intros Q; specialize (G Q); destruct ds; discriminate). split; [intros Q; contradiction|]. intros _ _ _ _. destruct F as [[Q _]|F]; [contradiction|exact F].
    + exists ds, (b :: s), n. apply digit_none in D as D'. cbn. repeat split; try assumption. * intros Q. exact Q. * intros b0 s' Q N0. injection Q as <- <-. contradiction.
Qed.
Lemma decimal_digits : forall ds n, decimal ds n -> forall tail, no_digit_first tail -> read_digits 0 (ds ++ tail) = n.
Proof.
  intros ds n H. assert (G : forall tail acc, read_digits acc (ds ++ tail) = read_digits (acc * 10 ^ N.of_nat (length ds) + n) tail).
  { induction H as [c d A B|s n c d H IH A B]; intros tail acc.
    - cbn [app read_digits]. rewrite (proj2 (digit_some c d) (conj A B)). f_equal. cbn [length]. change (10 ^ N.of_nat 1) with 10. lia.
    - rewrite <- app_assoc. cbn [app]. rewrite IH. cbn [read_digits]. rewrite (proj2 (digit_some c d) (conj A B)). f_equal.
      rewrite app_length. cbn [length]. replace (N.of_nat (length s + 1)) with (N.succ (N.of_nat (length s))) by lia. rewrite N.pow_succ_r'. lia. }
  intros tail T. rewrite G. cbn [N.mul N.add]. destruct tail as [|b tail]; [reflexivity|]. cbn [read_digits]. cbn in T. apply digit_none in T. rewrite T. reflexivity.
Qed.
Lemma decimal_starts : forall ds n, decimal ds n -> exists b r, ds = b :: r /\ 48 <= Byte.to_N b <= 57.
Proof.
  intros ds n H. induction H as [c d A B|s n c d H (b & r & -> & L) A B]; [exists c, []|exists b, (r ++ [c])]; (split; [reflexivity|lia]).
Qed.
Lemma read_number_iff : forall s v, read_number s = Some v <-> exists ds tail, s = ds ++ tail /\ decimal ds v /\ v < 2 ^ 64 /\ no_digit_first tail.
Proof.
  intros s v. split.
  - unfold read_number. destruct s as [|b s]; [discriminate|]. destruct (digit_of b) as [d|] eqn:D; [|discriminate]. cbv zeta. destruct (_ <? 2 ^ 64) eqn:L; [|discriminate]. intros Q. injection Q as <-. apply N.ltb_lt in L.
    destruct (read_more (b :: s) [] 0 (or_introl (conj eq_refl eq_refl))) as (ds & tail & m & A & B & C & _ & _ & F). subst m. exists ds, tail. split; [exact A|]. split; [|split; [exact L|exact B]]. apply (F b s eq_refl). congruence.
  - intros (ds & tail & -> & D & L & T). pose proof (decimal_digits ds v D tail T) as R. destruct (decimal_starts ds v D) as (b & r & -> & B). cbn [app] in *. unfold read_number.
    destruct (digit_of b) eqn:G; [|apply digit_none in G; contradiction]. cbv zeta. rewrite R. apply N.ltb_lt in L. rewrite L. reflexivity.
Qed.
Lemma skip_spec : forall s, exists ws, s = ws ++ skip_space s /\ Forall blank ws /\ match skip_space s with [] => True | b :: _ => ~ blank b end.
Proof.
  induction s as [|b s (ws & A & B & C)]; [exists []; cbn; repeat split; constructor|]. cbn [skip_space]. destruct (is_space b) eqn:S.
  - exists (b :: ws). split; [cbn; congruence|]. split; [constructor; [apply space_iff, S|exact B]|exact C].
  - exists []. split; [reflexivity|]. split; [constructor|]. intros H. apply space_iff in H. congruence.
Qed.
Lemma skip_past : forall ws b s, Forall blank ws -> ~ blank b -> skip_space (ws ++ b :: s) = b :: s.
Proof.
  intros ws b s H N. induction H as [|a ws A _ IH].
  - cbn. destruct (is_space b) eqn:S; [apply space_iff in S; contradiction|reflexivity].
  - cbn [app skip_space]. apply space_iff in A. rewrite A. exact IH.
Qed.
Lemma not_blank : forall b, 48 <= Byte.to_N b <= 57 \/ Byte.to_N b = 43 \/ Byte.to_N b = 45 -> ~ blank b.
Proof. intros b H B. unfold blank in B. cbn [In] in B. lia. Qed.
Lemma negated : forall n, n < 2 ^ 64 -> (if n =? 0 then 0 else 2 ^ 64 - n) = (2 ^ 64 - n) mod 2 ^ 64.
Proof.
  intros n L. destruct (n =? 0) eqn:Z.
  - apply N.eqb_eq in Z. subst n. reflexivity.
  - apply N.eqb_neq in Z. rewrite N.mod_small; [reflexivity|]. change (2 ^ 64) with 18446744073709551616 in *. lia.
Qed.
Lemma byte_of : forall b c, Byte.to_N b = Byte.to_N c -> b = c.
Proof. intros b c H. pose proof (Byte.of_to_N b) as A. rewrite H, Byte.of_to_N in A. congruence. Qed.
Theorem number_read : forall l v, stoul l = Some v <-> number_line l v.
Proof.
  intros l v. split.
  - unfold stoul. destruct (skip_spec l) as (ws & A & B & _). destruct (skip_space l) as [|b s]; [discriminate|]. destruct (Byte.to_N b =? 43) eqn:P; [|destruct (Byte.to_N b =? 45) eqn:M].
    + apply N.eqb_eq in P. assert (b = "+"%byte) as -> by (apply byte_of; exact P). intros R. apply read_number_iff in R as (ds & tail & -> & D & L & T). rewrite A. exact (nl_plus ws ["+"%byte] ds tail v B (or_intror eq_refl) D L T).
    + apply N.eqb_eq in M. assert (b = "-"%byte) as -> by (apply byte_of; exact M). destruct (read_number s) as [n|] eqn:R; [|discriminate]. apply read_number_iff in R as (ds & tail & -> & D & L & T). intros Q. injection Q as <-. rewrite (negated n L), A.
      exact (nl_minus ws ds tail n B D L T).
    + intros R. apply read_number_iff in R as (ds & tail & Q & D & L & T). rewrite A, Q. exact (nl_plus ws [] ds tail v B (or_introl eq_refl) D L T).
  - intros H. destruct H as [ws sign ds tail n B S D L T|ws ds tail n B D L T].
    + assert (R : read_number (ds ++ tail) = Some n) by (apply read_number_iff; exists ds, tail; auto). unfold stoul. destruct S as [-> | ->].
      * destruct (decimal_starts ds n D) as (b & r & -> & BB). cbn [app] in *. rewrite (skip_past ws b (r ++ tail) B (not_blank b (or_introl BB))).
        destruct (N.eqb_spec (Byte.to_N b) 43); [lia|]. destruct (N.eqb_spec (Byte.to_N b) 45); [lia|]. exact R.
      * cbn [app]. rewrite (skip_past ws _ _ B); [|apply not_blank; right; left; reflexivity]. exact R.
    + assert (R : read_number (ds ++ tail) = Some n) by (apply read_number_iff; exists ds, tail; auto). unfold stoul. rewrite (skip_past ws _ _ B); [|apply not_blank; right; right; reflexivity].
      change (Byte.to_N "-"%byte) with 45. cbn [N.eqb Pos.eqb]. rewrite R, (negated n L). reflexivity.
Qed.

(** ** Codes *)
Section Ends.
  Context (E : env) (file : option ptree) (pb : pib).

  Lemma falls_exit : forall A (c : client) (o : res A) c' n, falls c o <> (c', NExit n).
  Proof. intros A c o c' n. unfold falls. destruct o; discriminate. Qed.
  Lemma challenge_code : forall c s ci ls t c' n, run_challenge E c s ci ls t = (c', NExit n) -> n = 1.
  Proof.
    intros c s ci ls t c' n. unfold run_challenge. destruct (select_challenge s t) as [[req| | |] s1]; [|intros Q; injection Q as _ <-; reflexivity|intros Q; destruct (falls_exit _ _ _ _ _ Q)..].
    cbv zeta. match goal with |- match ?x with _ => _ end = _ -> _ => destruct x as [ps| | |] end; [|intros Q; destruct (falls_exit _ _ _ _ _ Q)..].
    destruct (gen_challenge E s1 (ci_ri ci) ps) as [[i| | |] s2]; [discriminate|intros Q; destruct (falls_exit _ _ _ _ _ Q)..].
  Qed.
  Lemma new_code : forall c ci ls p idn c' n, run_new E c ci ls p idn = (c', NExit n) -> n = 1.
  Proof.
    intros c ci ls p idn c' n. unfold run_new. destruct (capture_validity 3 ls) as [[hours|] ls1]; [|intros Q; injection Q as _ <-; reflexivity]. cbv zeta.
    destruct (match pib_get _ _ with Some i => _ | None => _ end) as [c2 i]. destruct (match id_default i with Some _ => _ | None => _ end) as [c3 i2].
    destruct (match cl_newid c3 with [] => _ | _ :: _ => _ end) as [[[kn sk]|] c4]; [|intros Q; injection Q as _ <-; reflexivity].
    destruct (i64_fits _ && i64_fits _); [|discriminate]. destruct (gen_new _ _ _ _ _ _ _) as [[[x|]| | |] s1]; try discriminate; intros Q; destruct (falls_exit _ _ _ _ _ Q).
  Qed.
  Lemma redirect_code : forall c f c' n, redirect_to c f <> (c', NExit n).
  Proof.
    intros c f c' n. unfold redirect_to, discover. destruct (ca_of_full f) as [ca| | |]; [destruct (gen_discovery ca); [discriminate|apply falls_exit..]|apply falls_exit..].
  Qed.
  Lemma step_code : forall c w ci ev c' n, client_step E c w ci ev = (c', NExit n) -> n = 1 \/
    n = 0 /\ c' = c /\ exists full d p, w = WInfo full /\ ev = CData d /\ shows E d p /\ cl_trusted c = None /\ ~ confirms ci (bs "yes").
  Proof.
    intros c w ci ev c' n. destruct ev as [d|d| | |].
    2: { left. revert H. destruct w; cbn [client_step]; try discriminate. unfold cert_cb. destruct (on_cert_fetch d) as [item| | |]; [|intros Q; destruct (falls_exit _ _ _ _ _ Q)..].
         destruct (pib_get _ _) as [i|]; [|discriminate]. destruct (find_key _ i) as [[kn sk]|]; [|discriminate]. destruct (bytes_eqb _ _); discriminate. }
    2: { left. cbn in H. injection H as _ <-. reflexivity. }
    2: { discriminate. }
    2: { left. revert H. cbn [client_step]. unfold handle_signal. destruct (cl_req c); [|intros Q; injection Q as _ <-; reflexivity].
         destruct (cl_newid c); [destruct (cl_newkey c)|]; [intros Q; injection Q as _ <-; reflexivity|..]; destruct (pib_get _ _); try discriminate; intros Q; injection Q as _ <-; reflexivity. }
    destruct w as [full|full|p| | |]; cbn [client_step]; intros H.
    - left. revert H. unfold meta_cb. destruct (gen_profile_interest d); [discriminate|intros Q; destruct (falls_exit _ _ _ _ _ Q)..].
    - revert H. unfold info_cb. destruct (match full with [] => _ | _ :: _ => _ end) as [p| | |] eqn:O; [|discriminate|intros Q; destruct (falls_exit _ _ _ _ _ Q)..].
      destruct (cl_trusted c) as [t|] eqn:TR; [discriminate|]. destruct (next_line (ci_lines ci)) as [l ls] eqn:NL. destruct (bytes_eqb (to_lower l) (bs "yes")) eqn:Y; [discriminate|]. intros Q. injection Q as <- <-. right.
      split; [reflexivity|]. split; [reflexivity|]. exists full, d, p. split; [reflexivity|]. split; [reflexivity|]. split.
      + assert (OP : on_profile E d = Ok p \/ exists f, on_profile_redirected E d f = Ok p) by (destruct full; [left; exact O|right; eexists; exact O]). unfold shows.
        destruct OP as [OP|(f & OP)]; [unfold on_profile in OP|unfold on_profile_redirected in OP; destruct (info_decode E (d_content d)) as [q| | |] eqn:I; cbn [bind] in OP; try discriminate; destruct (p_cert q); [|discriminate]; destruct (of_opt _); cbn [bind] in OP; try discriminate; destruct (name_eqb _ _); [|discriminate]; unfold on_profile in OP; rewrite I in OP; cbn [bind] in OP; destruct (p_cert q); [|discriminate]; destruct (verify_data E d _); [|discriminate]; injection OP as <-; reflexivity].
        destruct (info_decode E (d_content d)) as [q| | |]; cbn [bind] in OP; try discriminate. destruct (p_cert q); [|discriminate]. destruct (verify_data E d _); [|discriminate]. injection OP as <-. reflexivity.
      + split; [reflexivity|]. intros (l0 & ls0 & QL & LO). rewrite QL in NL. cbn in NL. injection NL as <- <-. apply lower_iff in LO. rewrite LO, bytes_eqb_refl in Y. discriminate.
    - left. revert H. unfold probe_cb. destruct (on_probe_response E d p) as [[names redirects]| | |]; [|intros Q; injection Q as _ <-; reflexivity|intros Q; destruct (falls_exit _ _ _ _ _ Q)..].
      destruct redirects as [|f [|f' r]].
      + destruct names as [|[n0 z0] [|x r]]; [intros Q; injection Q as _ <-; reflexivity|apply new_code|]. destruct (capture_one _ _) as [[k|] ls]; [|intros Q; injection Q as _ <-; reflexivity].
        destruct (nth_error _ k) as [[n1 z1]|]; [apply new_code|discriminate].
      + intros Q. destruct (redirect_code _ _ _ _ Q).
      + destruct (all_cas _); [|intros Q; destruct (falls_exit _ _ _ _ _ Q)..]. destruct (capture_one _ _) as [[k|] ls]; [|intros Q; injection Q as _ <-; reflexivity]. destruct (nth_error _ k); [intros Q; destruct (redirect_code _ _ _ _ Q)|discriminate].
    - left. revert H. unfold new_cb. destruct (cl_req c) as [s|]; [|discriminate]. destruct (on_new_response E s (ci_ri ci) d) as [[chals| | |] s1]; [|intros Q; injection Q as _ <-; reflexivity|intros Q; destruct (falls_exit _ _ _ _ _ Q)..].
      cbv zeta. destruct chals as [|c0 chals]; [intros Q; injection Q as _ <-; reflexivity|]. destruct (existsb _ _); [apply challenge_code|]. destruct (capture_index 3 _ _) as [[k|] ls]; [|intros Q; injection Q as _ <-; reflexivity].
      destruct (nth_error _ k); [apply challenge_code|discriminate].
    - left. revert H. unfold challenge_cb. destruct (cl_req c) as [s|]; [|discriminate]. destruct (on_challenge_response E s (ci_ri ci) d) as [[u| | |] s1]; [|intros Q; injection Q as _ <-; reflexivity|intros Q; destruct (falls_exit _ _ _ _ _ Q)..].
      cbv zeta. destruct (_ =? _); [discriminate|apply challenge_code].
    - discriminate.
  Qed.
  Lemma start_code : forall ci c n, client_start E file pb ci = (c, NExit n) -> n = 1.
  Proof.
    intros ci c n. unfold client_start. cbv zeta. destruct (store_load E file) as [known| | |]; [|intros Q; injection Q as _ <-; reflexivity|intros Q; destruct (falls_exit _ _ _ _ _ Q)..].
    assert (DIS : forall c0 ca full, discover c0 ca full <> (c, NExit n)) by (intros c0 ca full; unfold discover; destruct (gen_discovery ca); [discriminate|apply falls_exit..]).
    destruct (next_line (ci_lines ci)) as [l ls]. destruct (bytes_eqb _ _).
    - destruct (o_of_uri E _); [intros Q; destruct (DIS _ _ _ Q)|intros Q; injection Q as _ <-; reflexivity].
    - destruct (stoul l) as [v|]; [|intros Q; injection Q as _ <-; reflexivity]. destruct (_ <=? v); [intros Q; injection Q as _ <-; reflexivity|]. destruct (nth_error _ _); [intros Q; destruct (DIS _ _ _ Q)|intros Q; injection Q as _ <-; reflexivity].
  Qed.
  Lemma signal_code : forall c c' nx, handle_signal c = (c', nx) -> nx = NExit 1 \/ nx = NAbort.
  Proof.
    intros c c' nx. unfold handle_signal. destruct (cl_req c); [|intros Q; injection Q as _ <-; left; reflexivity].
    destruct (cl_newid c); [destruct (cl_newkey c)|]; [intros Q; injection Q as _ <-; left; reflexivity|..]; destruct (pib_get _ _); intros Q; injection Q as _ <-; [left|right|left|right]; reflexivity.
  Qed.
  Theorem client_exit : forall h c n, client_run E file pb h c (NExit n) -> n = 1 \/
    n = 0 /\ exists ci d rest i full p, h = (ci, Some (CData d)) :: rest /\ client_run E file pb rest c (NWait i (WInfo full)) /\ shows E d p /\ cl_trusted c = None /\ ~ confirms ci (bs "yes").
  Proof.
    intros h c n H. inversion H as [ci c0 nx S|h0 c0 i w ci ev c1 nx R M S|h0 c0 ci c1 nx R S]; subst.
    - left. exact (start_code _ _ _ S).
    - destruct (step_code _ _ _ _ _ _ S) as [->|(-> & -> & full & d & p & -> & -> & A & B & C)]; [left; reflexivity|]. right. split; [reflexivity|]. exists ci, d, h0, i, full, p. auto.
    - left. destruct (signal_code _ _ _ S) as [Q|Q]; [injection Q as ->; reflexivity|discriminate].
  Qed.

  (** ** Success *)
  Theorem client_done : forall h c, client_run E file pb h c NDone ->
    exists ci k rest i c0, h = (ci, Some (CCert k)) :: rest /\ client_run E file pb rest c0 (NWait i WCert) /\ cl_installed c0 = [] /\ cl_installed c = [k].
  Proof.
    intros h c H. inversion H as [ci c0 nx S|h0 c0 i w ci ev c1 nx R M S|h0 c0 ci c1 nx R S]; subst.
    - exfalso. revert S. unfold client_start. cbv zeta. assert (DIS : forall c0 ca full, discover c0 ca full <> (c, NDone)) by (intros c0 ca full; unfold discover; destruct (gen_discovery ca); discriminate).
      destruct (store_load E file) as [known| | |]; try discriminate. destruct (next_line (ci_lines ci)) as [l ls]. destruct (bytes_eqb _ _).
      + destruct (o_of_uri E _); [apply DIS|discriminate].
      + destruct (stoul l) as [v|]; [|discriminate]. destruct (_ <=? v); [discriminate|]. destruct (nth_error _ _); [apply DIS|discriminate].
    - destruct (run_phase E file pb _ _ _ R) as [PH _]. destruct (run_phase E file pb _ _ _ H) as [(k & K & _) _].
      assert (CH : forall c s ci ls t c', run_challenge E c s ci ls t <> (c', NDone)).
      { clear. intros c s ci ls t c'. unfold run_challenge. destruct (select_challenge s t) as [[req| | |] s1]; try discriminate. cbv zeta. match goal with |- match ?x with _ => _ end <> _ => destruct x as [ps| | |] end; try discriminate.
        destruct (gen_challenge E s1 (ci_ri ci) ps) as [[j| | |] s2]; discriminate. }
      assert (NW : forall c ci ls p idn c', run_new E c ci ls p idn <> (c', NDone)).
      { clear. intros c ci ls p idn c'. unfold run_new. destruct (capture_validity 3 ls) as [[hours|] ls1]; [|discriminate]. cbv zeta.
        destruct (match pib_get _ _ with Some i => _ | None => _ end) as [c2 i]. destruct (match id_default i with Some _ => _ | None => _ end) as [c3 i2].
        destruct (match cl_newid c3 with [] => _ | _ :: _ => _ end) as [[[kn sk]|] c4]; [|discriminate]. destruct (i64_fits _ && i64_fits _); [|discriminate]. destruct (gen_new _ _ _ _ _ _ _) as [[[x|]| | |] s1]; discriminate. }
      assert (RD : forall c f c', redirect_to c f <> (c', NDone)).
      { clear. intros c f c'. unfold redirect_to, discover. destruct (ca_of_full f) as [ca| | |]; try discriminate. destruct (gen_discovery ca); discriminate. }
      destruct ev as [d|d| | |]; try discriminate S.
      + exfalso. destruct w as [full|full|p| | |]; cbn [client_step] in S.
        * unfold meta_cb in S. destruct (gen_profile_interest d); discriminate.
        * unfold info_cb in S. destruct (match full with [] => _ | _ :: _ => _ end) as [p| | |]; try discriminate. destruct (cl_trusted c0); [discriminate|]. destruct (next_line _) as [l ls]. destruct (bytes_eqb _ _); discriminate.
        * unfold probe_cb in S. destruct (on_probe_response E d p) as [[names redirects]| | |]; try discriminate. destruct redirects as [|f [|f' r]].
          -- destruct names as [|[n0 z0] [|x r]]; [discriminate|exact (NW _ _ _ _ _ _ S)|]. destruct (capture_one _ _) as [[k0|] ls]; [|discriminate]. destruct (nth_error _ k0) as [[n1 z1]|]; [exact (NW _ _ _ _ _ _ S)|discriminate].
          -- exact (RD _ _ _ S).
          -- destruct (all_cas _); try discriminate. destruct (capture_one _ _) as [[k0|] ls]; [|discriminate]. destruct (nth_error _ k0); [exact (RD _ _ _ S)|discriminate].
        * unfold new_cb in S. destruct (cl_req c0) as [s|]; [|discriminate]. destruct (on_new_response E s (ci_ri ci) d) as [[chals| | |] s1]; try discriminate. cbv zeta in S. destruct chals as [|x chals]; [discriminate|].
          destruct (existsb _ _); [exact (CH _ _ _ _ _ _ S)|]. destruct (capture_index 3 _ _) as [[k0|] ls]; [|discriminate]. destruct (nth_error _ k0); [exact (CH _ _ _ _ _ _ S)|discriminate].
        * unfold challenge_cb in S. destruct (cl_req c0) as [s|]; [|discriminate]. destruct (on_challenge_response E s (ci_ri ci) d) as [[u| | |] s1]; try discriminate. cbv zeta in S. destruct (_ =? _); [discriminate|exact (CH _ _ _ _ _ _ S)].
        * discriminate.
      + destruct w; try contradiction M. cbn [client_step] in S. destruct PH as (s & (_ & _ & _ & _ & IN & _) & _).
        assert (QK : k = d).
        { unfold cert_cb, on_cert_fetch in S. destruct (cert_ok d); [|discriminate]. destruct (pib_get _ _) as [j|]; [|discriminate]. destruct (find_key _ j) as [[kn sk]|]; [|discriminate]. destruct (bytes_eqb _ _); [|discriminate].
          injection S as <-. cbn [cl_installed up_installed] in K. rewrite IN in K. injection K as ->. reflexivity. }
        subst d. exists ci, k, h0, i, c0. auto.
      + cbn [client_step] in S. destruct (signal_code _ _ _ S); discriminate.
    - destruct (signal_code _ _ _ S); discriminate.
  Qed.
  Theorem client_not_before : forall h c nx, client_run E file pb h c nx -> nx <> NDone -> cl_installed c = [].
  Proof.
    intros h c nx H N. destruct (run_phase E file pb _ _ _ H) as [PH _]. destruct nx as [i []| | | | | |]; cbn in PH; try exact PH; try contradiction.
    - apply PH.
    - apply PH.
    - apply PH.
    - destruct PH as (s & EG & _). apply EG.
    - destruct PH as (s & EG & _). apply EG.
    - destruct PH as (s & EG & _). apply EG.
    - destruct PH as [U|(s & EG)]; [apply U|apply EG].
  Qed.
End Ends.

(** ** Nothing to wait for *)
Section Stranded.
  Context (E : env) (file : option ptree) (pb : pib).

  Lemma challenge_waits : forall c s ci ls t c', run_challenge E c s ci ls t <> (c', NIdle).
  Proof.
    intros c s ci ls t c'. unfold run_challenge. destruct (select_challenge s t) as [[req| | |] s1]; try discriminate. cbv zeta. match goal with |- match ?x with _ => _ end <> _ => destruct x as [ps| | |] end; try discriminate.
    destruct (gen_challenge E s1 (ci_ri ci) ps) as [[j| | |] s2]; discriminate.
  Qed.
  Lemma redirect_waits : forall c f c', redirect_to c f <> (c', NIdle).
  Proof. intros c f c'. unfold redirect_to, discover. destruct (ca_of_full f) as [ca| | |]; try discriminate. destruct (gen_discovery ca); discriminate. Qed.
  Lemma gen_new_none : forall s ri kn sk nb na s', gen_new E s ri kn sk nb na = (Ok None, s') -> kn = [] \/ is_prefix (p_prefix (rs_profile s)) kn = false.
  Proof.
    intros s ri kn sk nb na s'. unfold gen_new. destruct (is_prefix _ _); [|auto]. cbn [negb]. destruct kn as [|a kn]; [auto|]. destruct (get_neg 2 _) as [k|]; [|discriminate]. destruct (comp_eqb k c_KEY); discriminate.
  Qed.
  Lemma new_strands : forall c ci ls p idn c', pib_named (cl_pib c) -> cl_newid c = [] -> idn <> [] -> run_new E c ci ls p idn = (c', NIdle) -> forall suffix, idn <> p_prefix p ++ suffix.
  Proof.
    intros c ci ls p idn c' PN NI NE. unfold run_new. destruct (capture_validity 3 ls) as [[hours|] ls1]; [|discriminate]. cbv zeta. set (s := request_init p RT_NEW (ci_ecdh ci) (ci_id0 ci)).
    set (k1 := (idn ++ [c_KEY; fst (ci_key1 ci)], snd (ci_key1 ci))). set (k2 := (idn ++ [c_KEY; fst (ci_key2 ci)], snd (ci_key2 ci))). change (cl_pib (up_req (Some s) c)) with (cl_pib c).
    assert (LAST : forall c4 kn sk, (exists kid, kn = idn ++ [c_KEY; kid]) -> (let na := (ci_now ci + sec (hours * 3600))%Z in
      if i64_fits (sec (hours * 3600)) && i64_fits na then
        match gen_new E s (ci_ri ci) kn sk (ci_now ci) na with
        | (Ok (Some x), s1) => (up_req (Some s1) c4, NWait x WNew)
        | (Ok None, s1) => (up_req (Some s1) c4, NIdle)
        | (o, s1) => falls (up_req (Some s1) c4) o
        end
      else (c4, NUB)) = (c', NIdle) -> forall suffix, idn <> p_prefix p ++ suffix).
    { intros c4 kn sk (kid & ->). cbv zeta. destruct (i64_fits _ && i64_fits _); [|discriminate]. destruct (gen_new _ _ _ _ _ _ _) as [[[x|]| | |] s1] eqn:G; try discriminate. intros _ suffix Q.
      destruct (gen_new_none _ _ _ _ _ _ _ G) as [K|K]; [destruct idn; discriminate|]. change (p_prefix (rs_profile s)) with (p_prefix p) in K. rewrite Q, <- app_assoc, is_prefix_app in K. discriminate. }
    destruct (pib_get idn (cl_pib c)) as [i|] eqn:PG.
    - destruct (pib_get_in _ _ _ PG) as [I1 I2].
      assert (KEY : forall c3 i2, cl_newid c3 = [] -> (forall kn sk, In (kn, sk) (id_keys i2) -> exists kid, kn = idn ++ [c_KEY; kid]) -> forall r c4,
        match cl_newid c3 with [] => capture_key c3 i2 k2 ls1 | _ :: _ => (match id_default i2 with Some d => find_key d i2 | None => None end, c3) end = (r, c4) -> forall kn sk, r = Some (kn, sk) -> exists kid, kn = idn ++ [c_KEY; kid]).
      { intros c3 i2 N3 KS r c4. rewrite N3. unfold capture_key. destruct (next_line ls1) as [l ls2]. destruct (bytes_eqb _ _); [intros Q; injection Q as <- _; intros kn sk Q; injection Q as <- _; eauto|].
        destruct (stoul l) as [v|]; [|intros Q; injection Q as <- _; discriminate]. destruct (_ <=? v); intros Q; injection Q as <- _; [discriminate|]. intros kn sk NT. exact (KS kn sk (nth_error_In _ _ NT)). }
      assert (KI : forall kn sk, In (kn, sk) (id_keys i) -> exists kid, kn = idn ++ [c_KEY; kid]) by (intros kn sk IK; rewrite <- I2; exact (PN i kn sk I1 IK)).
      destruct (id_default i).
      + destruct (match cl_newid _ with [] => _ | _ :: _ => _ end) as [r c4] eqn:R. destruct r as [[kn sk]|]; [|discriminate]. apply LAST. exact (KEY (up_req (Some s) c) i NI KI _ _ R kn sk eq_refl).
      + destruct (match cl_newid _ with [] => _ | _ :: _ => _ end) as [r c4] eqn:R. destruct r as [[kn sk]|]; [|discriminate]. apply LAST. refine (KEY _ _ _ _ _ _ R kn sk eq_refl); [exact NI|].
        intros kn0 sk0 IK. cbn [add_key id_keys] in IK. apply in_app_or in IK as [IK|[IK|[]]]; [exact (KI kn0 sk0 IK)|]. injection IK as <- _. eauto.
    - cbn [id_default cl_newid up_newid]. destruct idn as [|a idn]; [contradiction|]. unfold find_key. cbn [id_keys find fst snd k1]. fold k1. rewrite name_eqb_refl. apply LAST. eauto.
  Qed.
  Lemma info_strands : codec_laws E -> forall c ci full d c', info_cb E c ci full d = (c', NIdle) -> ~ acceptable_profile E (cl_trusted c) full d.
  Proof.
    intros L c ci full d c' H (p & k & SH & PC & V & T & F).
    assert (OP : on_profile E d = Ok p) by (unfold on_profile; unfold shows in SH; rewrite SH; cbn [bind]; rewrite PC; change (data_verifies E d k) with (verify_data E d k = true) in V; rewrite V; reflexivity).
    assert (O : match full with [] => match cl_trusted c with Some t => if verify_data E d t then on_profile E d else Exn | None => on_profile E d end | _ :: _ => on_profile_redirected E d full end = Ok p).
    { destruct full as [|f full].
      - destruct (cl_trusted c) as [t|]; [|exact OP]. specialize (T eq_refl t eq_refl). change (data_verifies E d t) with (verify_data E d t = true) in T. rewrite T. exact OP.
      - unfold on_profile_redirected. unfold shows in SH. rewrite SH. cbn [bind]. rewrite PC, (carried_again _ _ _ L (info_carries _ _ _ _ SH PC)). cbn [of_opt bind]. rewrite F by discriminate. rewrite name_eqb_refl. exact OP. }
    unfold info_cb in H. rewrite O in H. destruct (cl_trusted c); [discriminate|]. destruct (next_line _) as [l ls]. destruct (bytes_eqb _ _); discriminate.
  Qed.
  Theorem client_stranded : codec_laws E -> pib_named pb -> forall h c, client_run E file pb h c NIdle ->
    exists ci ev rest c0 i w, h = (ci, Some ev) :: rest /\ client_run E file pb rest c0 (NWait i w) /\ strands E c0 w ev.
  Proof.
    intros L PN h c H. inversion H as [ci c0 nx S|h0 c0 i w ci ev c1 nx R M S|h0 c0 ci c1 nx R S]; subst.
    - exfalso. revert S. unfold client_start. cbv zeta. assert (DIS : forall c0 ca full, discover c0 ca full <> (c, NIdle)) by (intros c0 ca full; unfold discover; destruct (gen_discovery ca); discriminate).
      destruct (store_load E file) as [known| | |]; try discriminate. destruct (next_line (ci_lines ci)) as [l ls]. destruct (bytes_eqb _ _).
      + destruct (o_of_uri E _); [apply DIS|discriminate].
      + destruct (stoul l) as [v|]; [|discriminate]. destruct (_ <=? v); [discriminate|]. destruct (nth_error _ _); [apply DIS|discriminate].
    - exists ci, ev, h0, c0, i, w. split; [reflexivity|]. split; [exact R|]. destruct (run_phase E file pb _ _ _ R) as [PH _].
      destruct ev as [d|d| | |]; [|exfalso| |apply st_timeout|].
      + destruct w as [full|full|p| | |]; cbn [client_step] in S.
        * exfalso. unfold meta_cb in S. destruct (gen_profile_interest d); discriminate.
        * apply st_profile. exact (info_strands L _ _ _ _ _ S).
        * cbn in PH. destruct PH as ((_ & PB & NI & _) & PC & _). destruct (p_cert p) as [k|] eqn:PK; [|contradiction]. unfold probe_cb in S.
          destruct (on_probe_response E d p) as [[names redirects]| | |] eqn:O; try discriminate.
          assert (OUT : data_verifies E d k /\ probe_decode (d_content d) = Ok (names, redirects)).
          { unfold on_probe_response, check_reply in O. rewrite PK in O. destruct (verify_data E d k) eqn:V; cbn [bind] in O; [|discriminate]. unfold process_if_error in O. destruct (_ =? NO_ERROR); cbn [bind] in O; [|discriminate]. split; [exact V|exact O]. }
          destruct OUT as [V PD]. rewrite <- PB in PN. pose proof (fun n z => probe_names (d_content d) names redirects n z PD) as NN.
          destruct redirects as [|f [|f' r]].
          -- destruct names as [|[n0 z0] [|x r]]; [discriminate| |].
             ++ apply (st_name E c0 p k d [(n0, z0)] n0 PK V PD (or_introl eq_refl)). refine (new_strands _ _ _ _ _ _ PN NI _ S). exact (NN n0 z0 (or_introl eq_refl)).
             ++ destruct (capture_one _ _) as [[k0|] ls]; [|discriminate]. destruct (nth_error ((n0, z0) :: x :: r) k0) as [[n1 z1]|] eqn:NT; [|discriminate]. apply nth_error_In in NT.
                apply (st_name E c0 p k d _ n1 PK V PD (in_map fst _ _ NT)). refine (new_strands _ _ _ _ _ _ PN NI _ S). exact (NN n1 z1 NT).
          -- destruct (redirect_waits _ _ _ S).
          -- exfalso. destruct (all_cas _); try discriminate. destruct (capture_one _ _) as [[k0|] ls]; [|discriminate]. destruct (nth_error _ k0); [exact (redirect_waits _ _ _ S)|discriminate].
        * exfalso. unfold new_cb in S. destruct (cl_req c0) as [s|]; [|discriminate]. destruct (on_new_response E s (ci_ri ci) d) as [[chals| | |] s1]; try discriminate. cbv zeta in S. destruct chals as [|x chals]; [discriminate|].
          destruct (existsb _ _); [exact (challenge_waits _ _ _ _ _ _ S)|]. destruct (capture_index 3 _ _) as [[k0|] ls]; [|discriminate]. destruct (nth_error _ k0); [exact (challenge_waits _ _ _ _ _ _ S)|discriminate].
        * exfalso. unfold challenge_cb in S. destruct (cl_req c0) as [s|]; [|discriminate]. destruct (on_challenge_response E s (ci_ri ci) d) as [[u| | |] s1]; try discriminate. cbv zeta in S. destruct (_ =? _); [discriminate|exact (challenge_waits _ _ _ _ _ _ S)].
        * discriminate.
      + destruct w; cbn [client_step] in S; try discriminate. unfold cert_cb, on_cert_fetch in S. destruct (cert_ok d); [|discriminate]. destruct (pib_get _ _) as [j|]; [|discriminate]. destruct (find_key _ j) as [[kn sk]|]; [|discriminate]. destruct (bytes_eqb _ _); discriminate.
      + discriminate.
      + exfalso. cbn [client_step] in S. destruct (signal_code _ _ _ S); discriminate.
    - destruct (signal_code _ _ _ S); discriminate.
  Qed.
End Stranded.
