(** Proofs about a CA that is started again with other configurations.

    The first part repeats lemmas of TraceFacts, TraceProps and TraceCounts for an invariant that does not depend on the
    configuration but for its prefix. *)
From Coq Require Import Lia.
From Verif Require Import RequesterFacts ClientSessionFacts.
From Verif Require Export Spec_Reconfig OutcomeFacts.
Local Open Scope N_scope.

Definition under (p : name) (n : name) : Prop := exists suffix kid issuer version, n = p ++ suffix ++ [gc (bs "KEY"); kid; issuer; version] /\ suffix <> [].
Lemma policy_under : forall g n, name_policy g n -> under (p_prefix (cfp g)) n.
Proof. intros g n (a & b & c & d & Q & NE & _). exists a, b, c, d. auto. Qed.
Definition good_r (p : name) (r : request) : Prop :=
  live r /\ rq_prefix r = p /\ (rq_type r = RT_NEW \/ rq_type r = RT_REVOKE) /\ under p (c_name (rq_cert r)).

Section Reconf.
  Context (E : env) (g : ca_cfg) {S : Type} (ops : store_ops S) (inv : S -> Prop) (nrm : request -> request)
          (SL : store_laws E ops inv nrm) (LC : codec_laws E) (NF : name_fits (p_prefix (cfp g))).

  Notation get_r := (ca_get ops).
  Definition ca_inv_r (s : ca_state S) : Prop := inv (ca_store s) /\ forall id r, get_r s id = Some r -> good_r (p_prefix (cfp g)) r.

  Lemma nrm_good_r : forall r, good_r (p_prefix (cfp g)) r -> good_r (p_prefix (cfp g)) (nrm r).
  Proof using SL.
    intros r (A & B & C & D). destruct (sl_nrm E ops inv nrm SL r) as [->| ->]; [split; auto|].
    split; [apply live_nrm, A|]. auto.
  Qed.
  Lemma silent_inv_r : forall es s, Forall silent es -> ca_inv_r s -> ca_inv_r (apply_effs ops es s).
  Proof. intros es s H [I G]. split; [rewrite (silent_store ops es s H); exact I|]. intros id r Q. rewrite (silent_get ops es s id H) in Q. exact (G id r Q). Qed.
  Lemma delete_inv_r : forall s id, ca_inv_r s -> ca_inv_r (apply_eff ops (EDelete id) s).
  Proof using SL.
    intros s id [I G]. split; [apply (sl_delete E ops inv nrm SL (ca_store s) id I)|]. intros id' r H. rewrite (delete_get E ops inv nrm SL) in H by exact I.
    destruct (bytes_eqb id' id); [discriminate|]. apply (G id' r H).
  Qed.

  (** A CHALLENGE Interest for a stored request. *)
  Lemma chal_step_state_r : forall i x r es m s, ca_inv_r s -> get_r s (rq_id r) = Some r ->
    chal_step E g nrm i x r es m ->
    ca_inv_r (apply_effs ops es s) /\ get_r (apply_effs ops es s) (rq_id r) = m /\
    (forall id, id <> rq_id r -> get_r (apply_effs ops es s) id = get_r s id) /\
    (forall id, id <> rq_id r -> Forall (fun e => ~ concerns id e) es).
  Proof using SL LC NF.
    intros i x r es m s [I G] GR H.
    assert (SIL : forall es, Forall silent es -> ca_inv_r (apply_effs ops es s) /\ get_r (apply_effs ops es s) (rq_id r) = Some r /\
       (forall id, id <> rq_id r -> get_r (apply_effs ops es s) id = get_r s id)).
    { intros es' A. split; [apply silent_inv_r; [exact A|split; assumption]|]. rewrite (silent_get ops es' s _ A). split; [exact GR|].
      intros id _. apply (silent_get ops), A. }
    assert (DEL : forall pre tail, Forall silent pre -> Forall silent tail ->
       ca_inv_r (apply_effs ops (pre ++ EDelete (rq_id r) :: tail) s) /\ get_r (apply_effs ops (pre ++ EDelete (rq_id r) :: tail) s) (rq_id r) = None /\
       (forall id, id <> rq_id r -> get_r (apply_effs ops (pre ++ EDelete (rq_id r) :: tail) s) id = get_r s id)).
    { intros pre tail P T. rewrite (apply_app ops). change (apply_effs ops (EDelete (rq_id r) :: tail) (apply_effs ops pre s)) with
        (apply_effs ops tail (apply_eff ops (EDelete (rq_id r)) (apply_effs ops pre s))).
      pose proof (silent_inv_r pre s P (conj I G)) as IP. split; [apply (silent_inv_r tail _ T), delete_inv_r, IP|].
      rewrite !(silent_get ops tail _ _ T). split.
      - rewrite (delete_get E ops inv nrm SL _ _ _ (proj1 IP)), bytes_eqb_refl. reflexivity.
      - intros id N. rewrite (silent_get ops tail _ _ T), (delete_get E ops inv nrm SL _ _ _ (proj1 IP)). apply bytes_eqb_neq in N. rewrite N. apply (silent_get ops), P. }
    assert (TAILS : forall tail d r3, cut tail [EPut d; ECallback r3] -> Forall silent tail).
    { intros tail d r3 C. apply (cut_silent _ _ C). repeat constructor. }
    assert (TAILC : forall tail d r3 id, cut tail [EPut d; ECallback r3] -> rq_id r3 <> id -> Forall (fun e => ~ concerns id e) tail).
    { intros tail d r3 id [rest C] N. assert (Q : Forall (fun e => ~ concerns id e) [EPut d; ECallback r3]) by (repeat constructor; cbn; auto).
      rewrite C in Q. apply Forall_app in Q. apply Q. }
    assert (EMC : forall es id, Forall is_email es -> Forall (fun e => ~ concerns id e) es).
    { intros es' id A. eapply Forall_impl; [|exact A]. intros [] B; cbn in *; auto. }
    destruct H as [es A|info FI N|code info tail SG K C|params ty dv cs em payload r3 tail SG OP KT M CE C|params ty dv cs c PF TY IC|params ty dv cs c tail PF TY IC T|params ty dv cs tail PF TY T].
    - destruct (SIL es (emails_silent es A)) as (X & Y & Z). auto 10.
    - destruct (SIL [EPut (error_data E g (i_name x) BAD_SIGNATURE info)] ltac:(repeat constructor)) as (X & Y & Z).
      repeat (split; [assumption|]). intros id N'. repeat constructor. cbn. auto.
    - assert (ST : Forall silent tail) by (apply (cut_silent _ _ C); repeat constructor).
      destruct (DEL [] tail (Forall_nil _) ST) as (X & Y & Z). repeat (split; [assumption|]). intros id N'. constructor; [cbn; auto|].
      destruct C as [rest C]. assert (Q : Forall (fun e => ~ concerns id e) [EPut (error_data E g (i_name x) code info)]) by (repeat constructor; cbn; auto).
      rewrite C in Q. apply Forall_app in Q. apply Q.
    - destruct (G (rq_id r) r GR) as (LV & PR & RT & NP).
      destruct (moved_live E g i x r params ty dv cs em payload r3 LV OP KT M CE) as (iv2 & R3 & V1 & V2 & T3 & LV3).
      destruct (sl_get E ops inv nrm SL _ _ _ I GR) as (_ & (S1 & S2 & S3 & S4 & S5 & S6 & S7) & _).
      assert (SR : storable E r3).
      { rewrite R3. unfold storable. cbn [set_eiv moved set_cs set_ctype set_status set_div rq_prefix rq_cert rq_type rq_status rq_ctype rq_cs].
        split; [exact S1|]. split; [exact S2|]. split; [exact S3|]. split; [exact S4|]. split; [exact S5|]. split; [discriminate|].
        assert (TX : cs_tries cs < 2 ^ 31 /\ secret_texts (cs_secrets cs)) by (split; [lia|exact (moves_texts E (cf_chal g) i params r dv ty cs em S7 M)]).
        destruct KT as [->|[->| ->]]; exact TX. }
      assert (SF : same_fixed r r3) by (rewrite R3; repeat split).
      assert (ID3 : rq_id r3 = rq_id r) by (rewrite R3; reflexivity).
      rewrite (apply_app ops). set (s1 := apply_effs ops (email_effs em) s).
      assert (S1E : ca_store s1 = ca_store s) by (apply (silent_store ops), emails_silent, emails).
      assert (GR1 : s_get ops (ca_store s1) (rq_id r3) = Some r) by (rewrite S1E, ID3; exact GR).
      assert (I1 : inv (ca_store s1)) by (rewrite S1E; exact I).
      destruct (sl_update E ops inv nrm SL (ca_store s1) r3 r I1 SR GR1 SF) as (st' & U & I' & GU).
      change (apply_effs ops (EUpdate r3 :: tail) s1) with (apply_effs ops tail (apply_eff ops (EUpdate r3) s1)).
      assert (AE : apply_eff ops (EUpdate r3) s1 = CaState st' (ca_idkey s1) (ca_prof s1)) by (cbn [apply_eff]; rewrite U; reflexivity).
      rewrite AE. pose proof (TAILS _ _ _ C) as ST. set (s2 := CaState st' (ca_idkey s1) (ca_prof s1)).
      assert (GS : forall id, get_r s2 id = s_get ops st' id) by reflexivity.
      rewrite (silent_get ops tail s2 _ ST). split; [apply (silent_inv_r tail s2 ST); split; [exact I'|]|].
      + intros id r' Q. rewrite GS, GU in Q. destruct (bytes_eqb id (rq_id r3)).
        * injection Q as <-. apply nrm_good_r. split; [exact LV3|]. rewrite R3. split; [exact PR|]. split; [exact RT|exact NP].
        * rewrite S1E in Q. exact (G id r' Q).
      + rewrite GS, GU, ID3, bytes_eqb_refl. split; [reflexivity|]. split.
        * intros id N. rewrite (silent_get ops tail s2 _ ST), GS, GU, ID3. apply bytes_eqb_neq in N. rewrite N, S1E. reflexivity.
        * intros id N. apply Forall_app. split; [apply EMC, emails|]. constructor; [cbn; rewrite ID3; auto|].
          apply (TAILC _ _ _ id C). rewrite ID3. auto.
    - destruct (SIL [EIssue c] ltac:(repeat constructor)) as (X & Y & Z). repeat (split; [assumption|]). intros id N'. repeat constructor. cbn. auto.
    - assert (ST : Forall silent tail) by (destruct T as [->|(payload & r3 & _ & C)]; [constructor|exact (TAILS _ _ _ C)]).
      destruct (DEL [EIssue c] tail ltac:(repeat constructor) ST) as (X & Y & Z). repeat (split; [assumption|]). intros id N'.
      constructor; [cbn; auto|]. constructor; [cbn; auto|]. destruct T as [->|(payload & r3 & CE & C)]; [constructor|].
      apply (TAILC _ _ _ id C). destruct (G (rq_id r) r GR) as (LV & _).
      apply chal_encode_ok in CE as (l & iv2 & _ & _ & -> & _); [cbn; auto|exact (live_eiv r LV)|apply rnd_iv_len].
    - assert (ST : Forall silent tail) by (destruct T as [->|(payload & r3 & _ & C)]; [constructor|exact (TAILS _ _ _ C)]).
      destruct (DEL [] tail (Forall_nil _) ST) as (X & Y & Z). repeat (split; [assumption|]). intros id N'.
      constructor; [cbn; auto|]. destruct T as [->|(payload & r3 & CE & C)]; [constructor|].
      apply (TAILC _ _ _ id C). destruct (G (rq_id r) r GR) as (LV & _).
      apply chal_encode_ok in CE as (l & iv2 & _ & _ & -> & _); [cbn; auto|exact (live_eiv r LV)|apply rnd_iv_len].
  Qed.

  Lemma interest_step_r : forall s ev i x es full o, ca_inv_r s -> ev_interest ev = Some (i, x) ->
    on_interest E g ops s i x = (full, o) -> o <> UB -> cut es full ->
    ca_inv_r (apply_effs ops es s) /\ forall id, mid E g nrm id ev es (get_r s id) (get_r (apply_effs ops es s) id).
  Proof using SL LC NF.
    intros s ev i x es full o INV EV H NU C.
    assert (QUIET : Forall silent es -> (forall id, ~ names_request g id x) -> (forall id, Forall (fun e => ~ concerns id e) es) ->
       ca_inv_r (apply_effs ops es s) /\ forall id, mid E g nrm id ev es (get_r s id) (get_r (apply_effs ops es s) id)).
    { intros A N F. unfold ca_inv_r, get_r. rewrite (silent_store ops es s A). split; [exact INV|]. intros id. apply M_other; [apply F|].
      intros i' x' Q. rewrite EV in Q. injection Q as <- <-. apply N. }
    assert (NOTCH : forall v, v <> VChallenge -> addressed g v (i_name x) -> forall id, ~ names_request g id x).
    { intros v NV A id Q. apply names_addressed in Q. apply NV. exact (addressed_unique g _ _ _ A Q). }
    assert (PUTS : forall d, cut es [EPut d] -> Forall silent es /\ forall id, Forall (fun e => ~ concerns id e) es).
    { intros d [rest Q]. split.
      - assert (K : Forall silent [EPut d]) by (repeat constructor). rewrite Q in K. apply Forall_app in K. apply K.
      - intros id. assert (K : Forall (fun e => ~ concerns id e) [EPut d]) by (repeat constructor; cbn; auto). rewrite Q in K. apply Forall_app in K. apply K. }
    assert (NEWCASE : forall rt, rt = RT_NEW /\ addressed g VNew (i_name x) \/ rt = RT_REVOKE /\ addressed g VRevoke (i_name x) ->
       (forall id, ~ names_request g id x) ->
       on_new E g (fun r => match s_add ops (ca_store s) r with Some _ => true | None => false end) (ca_idkey s) i rt x = (full, o) ->
       ca_inv_r (apply_effs ops es s) /\ forall id, mid E g nrm id ev es (get_r s id) (get_r (apply_effs ops es s) id)).
    { intros rt RT NN Q. apply on_new_cases in Q; [|tauto]. destruct Q as [(peer & c & AD & AO & -> & ->)|[(code & info & -> & -> & _ & _)|(-> & -> & _)]].
      - set (id0 := request_id_of E (ca_idkey s) (c_name c)) in *. set (r := created E g i rt id0 peer c) in *.
        apply cut_cons in C as [->|(tail & -> & C)]; [apply QUIET; auto|].
        destruct INV as [I G].
        destruct (s_get ops (ca_store s) (rq_id r)) as [r'|] eqn:GR.
        { rewrite (sl_dup E ops inv nrm SL (ca_store s) r I) in AO; [discriminate|congruence]. }
        destruct (carries_storable E rt x peer c LC (ad_params _ _ _ _ _ _ _ _ AD)) as (W1 & W2 & W3).
        assert (SR : storable E r).
        { unfold storable, r, created. cbn [rq_prefix rq_cert rq_type rq_status rq_ctype rq_cs].
          split; [exact NF|]. split; [exact W1|]. split; [exact W2|]. split; [exact W3|]. split; [destruct RT as [[-> _]|[-> _]]; discriminate|].
          split; [discriminate|exact Logic.I]. }
        destruct (sl_add E ops inv nrm SL (ca_store s) r I SR GR) as (st' & A & I' & GA).
        rewrite (nrm_created E ops inv nrm SL r eq_refl) in GA.
        change (apply_effs ops (EAdd r :: tail) s) with (apply_effs ops tail (apply_eff ops (EAdd r) s)).
        assert (AE : apply_eff ops (EAdd r) s = CaState st' (ca_idkey s) (ca_prof s)) by (cbn [apply_eff]; rewrite A; reflexivity).
        rewrite AE. assert (ST : Forall silent tail) by (apply (cut_silent _ _ C); repeat constructor).
        unfold ca_inv_r at 1. unfold get_r. rewrite (silent_store ops tail _ ST). cbn [ca_store]. split; [split; [exact I'|]|].
        + intros id r' Q. rewrite GA in Q. destruct (bytes_eqb id (rq_id r)); [|exact (G id r' Q)]. injection Q as <-.
          split; [left; repeat split|]. split; [reflexivity|]. split; [destruct RT as [[-> _]|[-> _]]; cbn; auto|]. exact (policy_under g _ (ad_name _ _ _ _ _ _ _ _ AD)).
        + intros id. rewrite GA. destruct (bytes_eqb id (rq_id r)) eqn:B.
          * apply bytes_eqb_eq in B. subst id. change (rq_id r) with id0 in *. rewrite GR.
            exact (M_add E g nrm id0 ev i x rt (ca_idkey s) peer c tail EV RT eq_refl AD C).
          * apply bytes_eqb_neq in B. apply M_other.
            -- constructor; [cbn; intros Z; apply B; symmetry; exact Z|]. destruct C as [rest C].
               assert (K : Forall (fun e => ~ concerns id e) [EPut (new_reply E g i x id0); ECallback r]).
               { constructor; [cbn; auto|]. constructor; [cbn; intros Z; apply B; symmetry; exact Z|constructor]. }
               rewrite C in K. apply Forall_app in K. apply K.
            -- intros i' x' Z. rewrite EV in Z. injection Z as <- <-. apply NN.
      - destruct (PUTS _ C). apply QUIET; auto.
      - apply cut_nil in C. subst es. apply QUIET; auto. }
    destruct (on_interest_cases E g S ops s i x) as [[NA Q]|(v & AD & Q)]; rewrite Q in H.
    - injection H as <- <-. apply cut_nil in C. subst es. apply QUIET; auto. intros id N. apply (NA VChallenge). eapply names_addressed, N.
    - destruct v; cbn [handle] in H.
      + assert (NN := NOTCH VInfo ltac:(discriminate) AD). unfold on_discovery, on_get_profile in H.
        destruct (profile_data E g (ca_prof s) (in_version i)) as [d| | |]; try (injection H as <- <-; apply cut_nil in C; subst es; apply QUIET; auto; fail).
        destruct (ca_prof s); injection H as <- <-.
        * cbn [app] in C. destruct (PUTS _ C). apply QUIET; auto.
        * destruct C as [rest C].
          match type of C with ?f = _ => assert (K : Forall silent f /\ forall id, Forall (fun e => ~ concerns id e) f) end.
          { split; [repeat constructor|intros id; repeat constructor; cbn; auto]. }
          rewrite C in K. destruct K as [K1 K2]. apply Forall_app in K1 as [K1 _]. apply QUIET; auto.
          intros id. specialize (K2 id). apply Forall_app in K2. apply K2.
      + assert (NN := NOTCH VProbe ltac:(discriminate) AD). unfold on_probe in H.
        match type of H with match ?b with _ => _ end = _ => destruct b as [[reds sufs]| | |] end;
          try (injection H as <- <-; apply cut_nil in C; subst es; apply QUIET; auto; fail).
        destruct reds, sufs; unfold put_error in H; injection H as <- <-; destruct (PUTS _ C); apply QUIET; auto.
      + apply (NEWCASE RT_NEW); auto. apply (NOTCH VNew); [discriminate|exact AD].
      + destruct (on_challenge_cases E g (s_get ops (ca_store s)) i x) as [(r & F & CO)|[(NF' & NUB & info & FI & Q')|(UB1 & Q')]].
        * rewrite H in CO. destruct F as (id & CI & GR). apply (challenge_id_names g x id AD) in CI.
          destruct INV as [I G]. destruct (sl_get E ops inv nrm SL _ _ _ I GR) as (ID & _). subst id.
          destruct (chal_out_step E g nrm i x r full o es CO C) as [m CS].
          destruct (chal_step_state_r i x r es m s (conj I G) GR CS) as (X & Y & Z & W).
          split; [exact X|]. intros id. destruct (bytes_eqb id (rq_id r)) eqn:B.
          -- apply bytes_eqb_eq in B. subst id. rewrite Y. change (get_r s (rq_id r)) with (s_get ops (ca_store s) (rq_id r)). rewrite GR.
             exact (M_chal E g nrm (rq_id r) ev i x r es m EV CI eq_refl CS).
          -- apply bytes_eqb_neq in B. rewrite (Z id B). apply M_other; [exact (W id B)|]. intros i' x' Q'. rewrite EV in Q'.
             injection Q' as <- <-. intros N. apply B. exact (names_unique g _ _ _ N CI).
        * rewrite Q' in H. injection H as <- <-. destruct (PUTS _ C) as [P1 P2]. unfold ca_inv_r, get_r. rewrite (silent_store ops es s P1).
          split; [exact INV|]. intros id. destruct (challenge_id g (i_name x)) as [id0| | |] eqn:CI; try contradiction.
          -- pose proof CI as CN. apply (challenge_id_names g x id0 AD) in CN. destruct (bytes_eqb id id0) eqn:B.
             ++ apply bytes_eqb_eq in B. subst id0. destruct (s_get ops (ca_store s) id) as [r|] eqn:GR.
                ** exfalso. apply (NF' r). exists id. auto.
                ** exact (M_absent E g nrm id ev i x es info (short_fits _ FI) EV CN C).
             ++ apply bytes_eqb_neq in B. apply M_other; [apply P2|]. intros i' x' Z. rewrite EV in Z. injection Z as <- <-.
                intros N. apply B. exact (names_unique g _ _ _ N CN).
          -- apply M_other; [apply P2|]. intros i' x' Z. rewrite EV in Z. injection Z as <- <-. intros N.
             apply (challenge_id_names g x id AD) in N. congruence.
          -- exfalso. unfold challenge_id in CI. destruct (nth_error (i_name x) _); [destruct (_ =? 8)|]; discriminate.
        * rewrite Q' in H. injection H as <- <-. contradiction.
      + apply (NEWCASE RT_REVOKE); auto. apply (NOTCH VRevoke); [discriminate|exact AD].
  Qed.

  Lemma restart_state_r : forall s key, ca_inv_r s -> ca_inv_r (restart ops key s) /\
    ((forall id, get_r (restart ops key s) id = get_r s id) \/ (forall id, get_r (restart ops key s) id = None)).
  Proof using SL.
    intros s key [I G]. destruct (sl_restart E ops inv nrm SL (ca_store s) I) as [I' [K|K]]; unfold ca_inv_r, get_r, restart; cbn [ca_store].
    - split; [split; [exact I'|intros id r; rewrite K; apply G]|]. left. exact K.
    - split; [split; [exact I'|intros id r; rewrite K; discriminate]|]. right. exact K.
  Qed.

  Lemma step_ok_r : forall s ev s' es, ca_inv_r s -> step E g ops s ev = Some (s', es) ->
    ca_inv_r s' /\ forall id, id_step E g nrm id ev es (get_r s id) (get_r s' id).
  Proof using SL LC NF.
    intros s ev s' es INV H. destruct ev as [i x|i x n key|key|i]; cbn [step] in H.
    - destruct (on_interest E g ops s i x) as [full o] eqn:O.
      assert (Q : o <> UB /\ (apply_effs ops full s, full) = (s', es)) by (destruct o; try discriminate; (split; [discriminate|]); injection H as <- <-; reflexivity).
      destruct Q as [NU Q]. injection Q as <- <-.
      destruct (interest_step_r s (EvInterest i x) i x full full o INV eq_refl O NU (cut_refl _)) as [A B].
      split; [exact A|]. intros id. eapply IS; [apply B|auto].
    - destruct (on_interest E g ops s i x) as [full o] eqn:O.
      assert (Q : o <> UB /\ (restart ops key (apply_effs ops (firstn n full) s), firstn n full) = (s', es)) by (destruct o; try discriminate; (split; [discriminate|]); injection H as <- <-; reflexivity).
      destruct Q as [NU Q]. injection Q as <- <-.
      assert (C : cut (firstn n full) full) by (exists (skipn n full); symmetry; apply firstn_skipn).
      destruct (interest_step_r s (EvCrash i x n key) i x _ full o INV eq_refl O NU C) as [A B].
      destruct (restart_state_r _ key A) as [A' K]. split; [exact A'|]. intros id. eapply IS; [apply B|].
      destruct K as [K|K]; rewrite K; [auto|right; cbn; auto].
    - injection H as <- <-. destruct (restart_state_r s key INV) as [A K]. split; [exact A|]. intros id. eapply IS; [apply M_other; [constructor|intros i x Q; discriminate]|].
      destruct K as [K|K]; rewrite K; [auto|right; cbn; auto].
    - assert (Q : Forall silent es /\ (forall id, Forall (fun e => ~ concerns id e) es) /\ s' = apply_effs ops es s).
      { destruct (on_get_profile E g (ca_prof s) i) as [es0 o] eqn:O. unfold on_get_profile in O.
        destruct (profile_data E g (ca_prof s) (in_version i)) as [d| | |]; injection O as <- <-; try discriminate; injection H as <- <-;
          try destruct (ca_prof s); (split; [repeat constructor|]); (split; [intros id; repeat constructor; cbn; auto|]); reflexivity. }
      destruct Q as (A & B & ->). unfold ca_inv_r, get_r. rewrite (silent_store ops es s A). split; [exact INV|]. intros id.
      eapply IS; [apply M_other; [apply B|intros i' x Q; discriminate]|auto].
  Qed.

  Lemma init_inv_r : forall key, ca_inv_r (ca_init ops key) /\ forall id, get_r (ca_init ops key) id = None.
  Proof using SL.
    intros key. unfold ca_inv_r, get_r, ca_init. cbn [ca_store]. split.
    - split; [apply (sl_empty_inv E ops inv nrm SL)|]. intros id r H. rewrite (sl_empty E ops inv nrm SL) in H. discriminate.
    - apply (sl_empty E ops inv nrm SL).
  Qed.
End Reconf.

(** ** States of a CA with any configurations of one prefix *)
Record k_at {S} (E : env) (g : ca_cfg) (ops : store_ops S) (s : ca_state S) : Prop := {
  k_codec : codec_laws E;
  k_prefix : name_fits (p_prefix (cfp g));
  k_inv : exists inv nrm, store_laws E ops inv nrm /\ ca_inv_r g ops inv s
}.
Lemma k_at_inv : forall E g S (ops : store_ops S) s, k_at E g ops s -> exists inv nrm, store_laws E ops inv nrm /\ ca_inv_r g ops inv s.
Proof. intros E g S ops s A. exact (k_inv _ _ _ _ A). Qed.
Lemma k_at_step : forall E g S (ops : store_ops S) s ev s' es, k_at E g ops s -> step E g ops s ev = Some (s', es) -> k_at E g ops s'.
Proof.
  intros E g S ops s ev s' es [LC NF (inv & nrm & SL & I)] H. constructor; [exact LC|exact NF|]. exists inv, nrm. split; [exact SL|].
  exact (proj1 (step_ok_r E g ops inv nrm SL LC NF s ev s' es I H)).
Qed.
Lemma k_at_other : forall E g g1 S (ops : store_ops S) s, p_prefix (cfp g1) = p_prefix (cfp g) -> k_at E g ops s -> k_at E g1 ops s.
Proof.
  intros E g g1 S ops s Q [LC NF (inv & nrm & SL & I)]. constructor; [exact LC|rewrite Q; exact NF|]. exists inv, nrm. split; [exact SL|].
  unfold ca_inv_r in *. rewrite Q. exact I.
Qed.
Lemma pending_good_r : forall E g S (ops : store_ops S) s id r, k_at E g ops s -> pending ops s id = Some r ->
  rq_id r = id /\ storable E r /\ good_r (p_prefix (cfp g)) r.
Proof.
  intros E g S ops s id r A H. destruct (k_at_inv E g S ops s A) as (inv & nrm & SL & I & G).
  destruct (sl_get E ops inv nrm SL _ _ _ I H) as (X & Y & _). split; [exact X|]. split; [exact Y|]. exact (G id r H).
Qed.
Lemma pending_live_r : forall E g S (ops : store_ops S) s id r, k_at E g ops s -> pending ops s id = Some r -> rq_id r = id /\ live r.
Proof. intros E g S ops s id r A P. destruct (pending_good_r E g S ops s id r A P) as (I & _ & (L & _)). auto. Qed.
Lemma at_id_step_r : forall S E g (ops : store_ops S) s ev s' es, k_at E g ops s -> step E g ops s ev = Some (s', es) ->
  exists nrm, nrm_ok nrm /\ forall id, id_step E g nrm id ev es (pending ops s id) (pending ops s' id).
Proof.
  intros S E g ops s ev s' es A ST. destruct (k_at_inv E g S ops s A) as (inv & nrm & SL & I). exists nrm. split; [exact (sl_nrm E ops inv nrm SL)|].
  exact (proj2 (step_ok_r E g ops inv nrm SL (k_codec _ _ _ _ A) (k_prefix _ _ _ _ A) s ev s' es I ST)).
Qed.
Lemma none_stays_r : forall E g S (ops : store_ops S) id s tr s', k_at E g ops s -> steps E g ops s tr s' -> pending ops s id = None -> no_add id tr -> pending ops s' id = None.
Proof.
  intros E g S ops id s tr s' A H. revert A. induction H as [|s ev es s1 tr s2 ST _ IH]; intros A P NA; [exact P|].
  inversion NA as [|? ? N1 N2]; subst. apply IH; [eapply k_at_step; eassumption| |exact N2].
  destruct (at_id_step_r S E g ops _ _ _ _ A ST) as (nrm & NO & IDS). destruct (IDS id) as [m1 M Z]. rewrite P in M.
  assert (m1 = None).
  { inversion M as [es0 m F NN|i0 x0 es0 info FI EV0 N0 C|i0 x0 rt idkey peer c tail EV0 RT ID0 ADM CT|]; try reflexivity.
    exfalso. apply N1. exists (created E g i0 rt id peer c). cbn [h_effs]. match goal with Q : _ :: _ = es |- _ => rewrite <- Q end. split; [left; reflexivity|reflexivity]. }
  subst m1. destruct Z as [Z|[_ Z]]; exact Z.
Qed.
Lemma chal_event_r : forall E g S (ops : store_ops S) s ev s' es e, k_at E g ops s -> step E g ops s ev = Some (s', es) -> In e es -> chal_eff e ->
  exists i x id r nrm m, ev_interest ev = Some (i, x) /\ names_request g id x /\ pending ops s id = Some r /\ rq_id r = id /\ live r /\ nrm_ok nrm /\
    chal_step E g nrm i x r es m /\ (pending ops s' id = m \/ restarts ev /\ pending ops s' id = None).
Proof.
  intros E g S ops s ev s' es e A ST IN CE.
  assert (X : exists i x id r, ev_interest ev = Some (i, x) /\ names_request g id x /\ pending ops s id = Some r).
  { destruct ev as [i x|i x n key|key|i]; cbn [step] in ST.
    - destruct (on_interest E g ops s i x) as [es' o] eqn:OI. assert (EQ : es' = es) by (destruct o; inversion ST; reflexivity). subst es'.
      destruct (only_challenge E g S ops s i x es o e OI IN CE) as (id & r & N & P). exists i, x, id, r. auto.
    - destruct (on_interest E g ops s i x) as [es' o] eqn:OI. assert (EQ : es = firstn n es') by (destruct o; inversion ST; reflexivity).
      assert (IN' : In e es') by (rewrite <- (firstn_skipn n es'); apply in_or_app; left; rewrite <- EQ; exact IN).
      destruct (only_challenge E g S ops s i x es' o e OI IN' CE) as (id & r & N & P). exists i, x, id, r. auto.
    - injection ST as <- <-. destruct IN.
    - destruct (on_get_profile E g (ca_prof s) i) as [es' o] eqn:O. unfold on_get_profile in O.
      assert (EQ : es' = es) by (destruct o; inversion ST; reflexivity). subst es'.
      destruct (profile_data E g (ca_prof s) (in_version i)); injection O as <- <-; try (destruct IN; fail).
      destruct (ca_prof s); cbn [app In] in IN; repeat (destruct IN as [<-|IN]; [destruct CE|]); destruct IN. }
  destruct X as (i & x & id & r & EV & N & P). destruct (pending_live_r E g S ops s id r A P) as [ID LV].
  destruct (at_id_step_r S E g ops _ _ _ _ A ST) as (nrm & NO & IDS). destruct (IDS id) as [m1 M Z]. rewrite P in M.
  inversion M as [es0 m F NN|i0 x0 es0 info FI EV0 N0 C|i0 x0 rt idkey peer c tail EV0 RT ID0 ADM CT|i0 x0 r0 es0 m EV0 N0 IDR CS].
  - destruct (NN i x EV N).
  - subst r0 es0 m. rewrite EV in EV0. injection EV0 as <- <-. exists i, x, id, r, nrm, m1. auto 12.
Qed.
Lemma pending_chal_step_r : forall E g S (ops : store_ops S) s ev s' es i x id r, k_at E g ops s -> step E g ops s ev = Some (s', es) ->
  ev_interest ev = Some (i, x) -> names_request g id x -> pending ops s id = Some r ->
  exists nrm m, nrm_ok nrm /\ rq_id r = id /\ live r /\ chal_step E g nrm i x r es m /\ (pending ops s' id = m \/ restarts ev /\ pending ops s' id = None).
Proof.
  intros E g S ops s ev s' es i x id r A ST EV N P. destruct (pending_live_r E g S ops s id r A P) as [ID LV].
  destruct (at_id_step_r S E g ops _ _ _ _ A ST) as (nrm & NO & IDS). destruct (IDS id) as [m1 M Z]. rewrite P in M.
  inversion M as [es0 m F NN|i0 x0 es0 info FI EV0 N0 C|i0 x0 rt idkey peer c tail EV0 RT ID0 ADM CT|i0 x0 r0 es0 m EV0 N0 IDR CS].
  - destruct (NN i x EV N).
  - subst r0 es0 m. rewrite EV in EV0. injection EV0 as <- <-. exists nrm, m1. auto 10.
Qed.
Lemma deleted_gone_r : forall E g S (ops : store_ops S) s ev s' es id, k_at E g ops s -> step E g ops s ev = Some (s', es) -> In (EDelete id) es -> pending ops s' id = None.
Proof.
  intros E g S ops s ev s' es id A ST IN. destruct (chal_event_r E g S ops _ _ _ _ _ A ST IN I) as (i & x & id' & r & nrm & m & EV & N & P & IDR & LV & NO & CS & Z).
  assert (X : id = id' /\ m = None).
  { assert (TT : forall tail d r3, cut tail [EPut d; ECallback r3] -> ~ In (EDelete id) tail).
    { intros tail d r3 C Q. apply (in_cut _ _ _ C) in Q. destruct Q as [Q|[Q|[]]]; discriminate. }
    inversion CS as [es1 F|info FI NS|code info tail SB PE C|params ty dv cs em payload r3 tail SB OP K MV CE C|params ty dv cs c0 PF RT IC|params ty dv cs c0 tail PF RT IC T|params ty dv cs tail PF RT T]; subst.
    - rewrite Forall_forall in F. destruct (F _ IN).
    - destruct IN as [Q|[]]; discriminate.
    - destruct IN as [Q|IN]; [injection Q; auto|]. apply (in_cut _ _ _ C) in IN. destruct IN as [Q|[]]; discriminate.
    - apply in_app_or in IN as [IN|[Q|IN]]; [|discriminate|destruct (TT _ _ _ C IN)]. pose proof (emails em) as F. rewrite Forall_forall in F. destruct (F _ IN).
    - destruct IN as [Q|[]]; discriminate.
    - destruct IN as [Q|[Q|IN]]; [discriminate|injection Q; auto|]. destruct T as [->|(p & r3 & _ & C)]; [destruct IN|destruct (TT _ _ _ C IN)].
    - destruct IN as [Q|IN]; [injection Q; auto|]. destruct T as [->|(p & r3 & _ & C)]; [destruct IN|destruct (TT _ _ _ C IN)]. }
  destruct X as [-> ->]. destruct Z as [Z|[_ Z]]; exact Z.
Qed.
Lemma names_step_r : forall E g S (ops : store_ops S) s ev s' es i x id, k_at E g ops s -> step E g ops s ev = Some (s', es) ->
  ev_interest ev = Some (i, x) -> names_request g id x -> pending ops s id = None -> (exists info, fits info /\ cut es [EPut (error_data E g (i_name x) INVALID_PARAMETER info)]) \/ exists r, In (EAdd r) es /\ rq_id r = id.
Proof.
  intros E g S ops s ev s' es i x id A ST EV N P. destruct (at_id_step_r S E g ops _ _ _ _ A ST) as (nrm & NO & IDS). destruct (IDS id) as [m1 M Z]. rewrite P in M.
  inversion M as [es0 m F NN|i0 x0 es0 info FI EV0 N0 C|i0 x0 rt idkey peer c tail EV0 RT ID0 ADM CT|i0 x0 r0 es0 m EV0 N0 IDR CS].
  - destruct (NN i x EV N).
  - left. exists info. rewrite EV in EV0. injection EV0 as -> ->. split; [exact FI|exact C].
  - right. exists (created E g i0 rt id peer c). subst. split; [left; reflexivity|reflexivity].
Qed.
Lemma reply_step_r : forall E g S (ops : store_ops S) st id iv, k_at E g ops (h_pre st) -> step E g ops (h_pre st) (h_ev st) = Some (h_post st, h_effs st) ->
  reply_iv g id st iv -> exists i r, pending ops (h_pre st) id = Some r /\ iv = initial_iv (rq_eiv r) (rnd_iv i) /\ live r /\
    iv_bound (iv_prefix iv) (iv_counter iv + 1) (pending ops (h_post st) id).
Proof.
  intros E g S ops st id iv A ST (i & x & d & HD & N & IN & W). apply ev_handles in HD.
  destruct (pending ops (h_pre st) id) as [r|] eqn:P.
  - destruct (pending_chal_step_r E g S ops _ _ _ _ _ _ _ _ A ST HD N P) as (nrm & m & NO & IDR & LV & CS & Z). exists i, r.
    destruct (chal_iv E g nrm i x r _ m d iv NO LV CS IN W) as [X Y]. split; [reflexivity|]. split; [exact X|]. split; [exact LV|].
    destruct Z as [Z|[_ Z]]; rewrite Z; [exact Y|left; reflexivity].
  - exfalso. destruct (names_step_r E g S ops _ _ _ _ _ _ _ A ST HD N P) as [(info & FI & C)|(r & IA & _)].
    + apply (in_cut _ _ _ C) in IN. destruct IN as [Q|[]]. injection Q as <-. rewrite error_no_iv in W by exact FI. discriminate.
    + (* a CHALLENGE Interest adds nothing *)
      destruct (at_id_step_r S E g ops _ _ _ _ A ST) as (nrm & NO & IDS). destruct (IDS (rq_id r)) as [m1 M Z].
      remember (pending ops (h_pre st) (rq_id r)) as m0 eqn:P0. remember (h_effs st) as es eqn:ES.
      inversion M as [es0 m F NN|i0 x0 es0 info FI EV0 N0 C|i0 x0 rt idkey peer c tail EV0 RT ID0 ADM CT|i0 x0 r0 es0 m EV0 N0 IDR CS].
      * rewrite Forall_forall in F. exact (F _ IA eq_refl).
      * apply (in_cut _ _ _ C) in IA. destruct IA as [Q|[]]. discriminate.
      * rewrite HD in EV0. injection EV0 as <- <-. apply names_addressed in N. destruct RT as [[_ AD]|[_ AD]]; pose proof (addressed_unique g _ _ _ AD N); discriminate.
      * exact (chal_no_add _ _ _ _ _ _ _ _ r CS IA).
Qed.
Lemma budget_step_r : forall E g S (ops : store_ops S) s ev s' es id, k_at E g ops s -> step E g ops s ev = Some (s', es) ->
  ~ adds id (HStep s ev es s') ->
  budget (pending ops s' id) <= budget (pending ops s id) /\
  (answered (HStep s ev es s') -> (exists given, compares E g ops id (HStep s ev es s') given) -> budget (pending ops s' id) + 1 <= budget (pending ops s id)).
Proof.
  intros E g S ops s ev s' es id A ST NA. destruct (pending ops s id) as [r|] eqn:P.
  - destruct (pending_live_r E g S ops s id r A P) as [ID LV].
    assert (B1 : forall cs, rq_cs r = Some cs -> 1 <= budget (Some r)).
    { intros cs C. cbn [budget]. rewrite C. destruct LV as [(_ & _ & Q & _)|(_ & _ & (cs0 & Q & B) & _)]; [congruence|]. assert (cs0 = cs) by congruence. subst. lia. }
    assert (CR : forall given, compares E g ops id (HStep s ev es s') given -> exists i x cs, ev_interest ev = Some (i, x) /\ names_request g id x /\ signed_by E x (public_key (rq_cert r)) /\ rq_cs r = Some cs).
    { intros given (i & params & ty & r0 & cs & P0 & C & (x & HD & N & SB & _) & _). cbn [h_pre] in P0. rewrite P in P0. injection P0 as <-.
      apply ev_handles in HD. exists i, x, cs. auto. }
    assert (GONE : pending ops s' id = None -> budget (pending ops s' id) <= budget (Some r) /\ (answered (HStep s ev es s') -> (exists given, compares E g ops id (HStep s ev es s') given) -> budget (pending ops s' id) + 1 <= budget (Some r))).
    { intros ->. split; [apply N.le_0_l|]. intros _ (given & Q). destruct (CR given Q) as (i & x & cs & _ & _ & _ & C). exact (B1 cs C). }
    destruct (at_id_step_r S E g ops _ _ _ _ A ST) as (nrm & NO & IDS). destruct (IDS id) as [m1 M Z]. rewrite P in M.
    destruct Z as [Z|[_ Z]]; [|exact (GONE Z)].
    inversion M as [es0 m F NN|i0 x0 es0 info FI EV0 N0 C|i0 x0 rt idkey peer c tail EV0 RT ID0 ADM CT|i0 x0 r0 es0 m EV0 N0 IDR CS].
    + assert (Y : pending ops s' id = Some r) by congruence. rewrite Y. split; [lia|]. intros _ (given & Q). destruct (CR given Q) as (i & x & cs & EV & N & _). destruct (NN i x EV N).
    + subst r0 es0 m.
      inversion CS as [es1 F|info FI NS|code info tail SB PE C0|params ty dv cs1 em payload r3 tail SB OP K MV CE C0|params ty dv cs1 c0 PF RT IC|params ty dv cs1 c0 tail PF RT IC T|params ty dv cs1 tail PF RT T]; subst es; match goal with Q : _ = m1 |- _ => rewrite <- Q in Z end; try exact (GONE Z); rewrite Z.
      * split; [lia|]. intros AN _. destruct AN. cbn [h_effs]. clear -F. induction F as [|e l Q _ IH]; [reflexivity|]. destruct e; try (destruct Q; fail). exact IH.
      * split; [lia|]. intros _ (given & Q). destruct (CR given Q) as (i & x & cs & EV & N & SB & _). rewrite EV in EV0. injection EV0 as -> ->. contradiction.
      * destruct (moved_live E g i0 x0 r params ty dv cs1 em payload r3 LV OP K MV CE) as (iv2 & -> & _).
        assert (X : budget (Some (nrm (set_eiv iv2 (moved dv ty cs1 r)))) = cs_tries cs1).
        { cbn [budget]. destruct (NO (set_eiv iv2 (moved dv ty cs1 r))) as [Q|Q]; rewrite Q; reflexivity. }
        rewrite X. destruct MV as [[BF SS]|(BF & _ & cs0 & C1 & (given & code & life & _ & _ & _ & _ & TT & ->))].
        -- destruct (live_before r LV BF) as (Q & _). cbn [budget]. rewrite Q. split; [destruct SS; cbn [cs_tries]; lia|].
           intros _ (given & QQ). destruct (CR given QQ) as (? & ? & ? & _ & _ & _ & CC). congruence.
        -- cbn [set_div rq_cs] in C1. cbn [budget cs_tries]. rewrite C1. split; intros; lia.
      * split; [lia|]. intros AN _. destruct AN. reflexivity.
  - rewrite (none_stays_r E g S ops id s [HStep s ev es s'] s' A); [|econstructor; [exact ST|constructor]|exact P|constructor; [exact NA|constructor]].
    split; [cbn; lia|]. intros _ (given & i & params & ty & r0 & cs & P0 & _). cbn [h_pre] in P0. congruence.
Qed.
Lemma budget_3_r : forall E g S (ops : store_ops S) s id, k_at E g ops s -> budget (pending ops s id) <= 3.
Proof.
  intros E g S ops s id A. destruct (pending ops s id) as [r|] eqn:P; [|cbn; lia]. destruct (pending_live_r E g S ops s id r A P) as [_ LV]. cbn [budget].
  destruct LV as [(_ & _ & Q & _)|(_ & _ & (cs & Q & B) & _)]; rewrite Q; lia.
Qed.
Lemma iv_bound_step_r : forall E g S (ops : store_ops S) s ev s' es id p c, k_at E g ops s -> step E g ops s ev = Some (s', es) ->
  ~ adds id (HStep s ev es s') -> iv_bound p c (pending ops s id) -> iv_bound p c (pending ops s' id).
Proof.
  intros E g S ops s ev s' es id p c A ST NA [N|(r & P & I1 & I2 & I3)].
  - left. apply (none_stays_r E g S ops id s [HStep s ev es s'] s' A); [econstructor; [exact ST|constructor]|exact N|constructor; [exact NA|constructor]].
  - destruct (pending_live_r E g S ops s id r A P) as [ID LV]. destruct (at_id_step_r S E g ops _ _ _ _ A ST) as (nrm & NO & IDS). destruct (IDS id) as [m1 M Z]. rewrite P in M.
    destruct Z as [Z|[_ Z]]; [|left; exact Z]. rewrite Z.
    inversion M as [es0 m F NN|i0 x0 es0 info FI EV0 N0 C|i0 x0 rt idkey peer c0 tail EV0 RT ID0 ADM CT|i0 x0 r0 es0 m EV0 N0 IDR CS].
    + right. exists r. auto.
    + subst r0 es0 m.
      inversion CS as [es1 F|info FI NS|code info tail SB PE C|params ty dv cs em payload r3 tail SB OP K MV CE C|params ty dv cs c1 PF RT IC|params ty dv cs c1 tail PF RT IC T|params ty dv cs tail PF RT T]; try (left; congruence); try (right; exists r; auto; fail).
      destruct (moved_reply E (cf_chal g) i0 x0 r params ty dv cs em payload r3 LV OP MV CE) as (nonce & iv2 & _ & _ & -> & J1 & J2 & PF & CT).
      rewrite (initial_ne _ _ I1) in *. right. eexists. split; [reflexivity|].
      destruct (nrm_fixed nrm (set_eiv iv2 (moved dv ty cs r)) NO) as (_ & _ & _ & _ & _ & -> & _). cbn [set_eiv rq_eiv].
      split; [exact J2|]. split; [congruence|lia].
Qed.

(** ** Histories *)
Lemma csteps_prefix : forall S E (ops : store_ops S) g s tr g2 s2, csteps E ops g s tr g2 s2 -> p_prefix (cfp g2) = p_prefix (cfp g).
Proof. intros S E ops g s tr g2 s2 H. induction H as [| | |g a s tr g2 s2 _ IH|g c sk kl s tr g2 s2 _ IH]; [reflexivity|congruence|congruence|exact IH|exact IH]. Qed.
Lemma csteps_at : forall S E (ops : store_ops S) g s tr g2 s2, k_at E g ops s -> csteps E ops g s tr g2 s2 -> k_at E g2 ops s2.
Proof.
  intros S E ops g s tr g2 s2 A H. revert A. induction H as [g s|g s ev es s1 tr g2 s2 ST _ IH|g g1 s key tr g2 s2 Q _ IH|g a s tr g2 s2 _ IH|g c sk kl s tr g2 s2 _ IH]; intros A; [exact A|..]; apply IH.
  - eapply k_at_step; eassumption.
  - apply (k_at_step E g1 S ops s (EvRestart key) _ []); [apply (k_at_other E g g1 S ops s Q A)|reflexivity].
  - exact (k_at_other E g (with_anchors a g) S ops s eq_refl A).
  - exact (k_at_other E g (with_key c sk kl g) S ops s eq_refl A).
Qed.
Lemma csteps_cons : forall S E (ops : store_ops S) g s l g2 s2, csteps E ops g s l g2 s2 -> forall g1 st tr, l = (g1, st) :: tr ->
  h_pre st = s /\ step E g1 ops s (h_ev st) = Some (h_post st, h_effs st) /\ p_prefix (cfp g1) = p_prefix (cfp g) /\ csteps E ops g1 (h_post st) tr g2 s2.
Proof.
  intros S E ops g s l g2 s2 H. induction H as [g s|g s ev es s1 tr g2 s2 ST H2 _|g g1 s key tr g2 s2 Q H2 _|g a s tr g2 s2 _ IH|g c sk kl s tr g2 s2 _ IH]; intros gx st tx L; [discriminate L|..].
  - injection L as <- <- <-. cbn [h_pre h_ev h_post h_effs]. auto.
  - injection L as <- <- <-. cbn [h_pre h_ev h_post h_effs]. split; [reflexivity|]. split; [reflexivity|]. split; [exact Q|exact H2].
  - exact (IH gx st tx L).
  - exact (IH gx st tx L).
Qed.
Lemma csteps_nil_inv : forall S E (ops : store_ops S) g s l g2 s2, csteps E ops g s l g2 s2 -> l = [] -> s2 = s.
Proof. intros S E ops g s l g2 s2 H. induction H; intros L; [reflexivity|discriminate L|discriminate L|auto|auto]. Qed.
Lemma csteps_mid : forall S E (ops : store_ops S) g s l g2 s2, csteps E ops g s l g2 s2 -> forall a g1 st b, l = a ++ (g1, st) :: b ->
  exists g0, csteps E ops g s a g0 (h_pre st) /\ step E g1 ops (h_pre st) (h_ev st) = Some (h_post st, h_effs st) /\ p_prefix (cfp g1) = p_prefix (cfp g0) /\
    csteps E ops g1 (h_post st) b g2 s2.
Proof.
  intros S E ops g s l g2 s2 H. induction H as [g s|g s ev es s1 tr g2 s2 ST H2 IH|g g1 s key tr g2 s2 Q H2 IH|g x s tr g2 s2 _ IH|g c sk kl s tr g2 s2 _ IH]; intros a gx st b L.
  - destruct a; discriminate L.
  - destruct a as [|[ga sa] a]; cbn [app] in L.
    + injection L as <- <- <-. exists g. cbn [h_pre h_ev h_post h_effs]. split; [constructor|]. auto.
    + injection L as <- <- L. destruct (IH a gx st b L) as (g0 & A & R). exists g0. split; [apply csteps_event; [exact ST|exact A]|exact R].
  - destruct a as [|[ga sa] a]; cbn [app] in L.
    + injection L as <- <- <-. exists g. cbn [h_pre h_ev h_post h_effs]. split; [constructor|]. split; [reflexivity|]. split; [exact Q|exact H2].
    + injection L as <- <- L. destruct (IH a gx st b L) as (g0 & A & R). exists g0. split; [apply csteps_change; [exact Q|exact A]|exact R].
  - destruct (IH a gx st b L) as (g0 & A & R). exists g0. split; [apply (csteps_file _ _ _ x); exact A|exact R].
  - destruct (IH a gx st b L) as (g0 & A & R). exists g0. split; [apply (csteps_key _ _ _ c sk kl); exact A|exact R].
Qed.
Lemma reconfigured_at : forall S E (ops : store_ops S) tr g s, reconfigured E ops tr g s -> exists g0 key, k_at E g0 ops (ca_init ops key) /\ csteps E ops g0 (ca_init ops key) tr g s /\
  (forall id, pending ops (ca_init ops key) id = None).
Proof.
  intros S E ops tr g s [LC NF B (g0 & key & H)]. exists g0, key. destruct (back_end_laws E S ops B LC) as (inv & nrm & SL).
  destruct (init_inv_r E g0 ops inv nrm SL key) as [I Z]. split; [constructor; [exact LC|rewrite <- (csteps_prefix _ _ _ _ _ _ _ _ H); exact NF|exists inv, nrm; split; [exact SL|exact I]]|].
  split; [exact H|exact Z].
Qed.
Lemma reconfigured_k : forall S E (ops : store_ops S) tr g s, reconfigured E ops tr g s -> k_at E g ops s.
Proof. intros S E ops tr g s H. destruct (reconfigured_at _ _ _ _ _ _ H) as (g0 & key & A & ST & _). exact (csteps_at _ _ _ _ _ _ _ _ A ST). Qed.
Lemma reconfigured_mid : forall S E (ops : store_ops S) a g1 st b g s, reconfigured E ops (a ++ (g1, st) :: b) g s ->
  (exists g0, reconfigured E ops a g0 (h_pre st)) /\ k_at E g1 ops (h_pre st) /\ step E g1 ops (h_pre st) (h_ev st) = Some (h_post st, h_effs st) /\
  k_at E g1 ops (h_post st) /\ csteps E ops g1 (h_post st) b g s.
Proof.
  intros S E ops a g1 st b g s H. destruct (reconfigured_at _ _ _ _ _ _ H) as (gi & key & A & ST & _).
  destruct (csteps_mid _ _ _ _ _ _ _ _ ST _ _ _ _ eq_refl) as (g0 & H1 & H2 & Q & H3). pose proof (csteps_at _ _ _ _ _ _ _ _ A H1) as A0.
  pose proof (k_at_other E g0 g1 S ops _ Q A0) as A1. split; [|split; [exact A1|split; [exact H2|split; [exact (k_at_step _ _ _ _ _ _ _ _ A1 H2)|exact H3]]]].
  exists g0. constructor; [exact (rc_codec _ _ _ _ _ H)|exact (k_prefix _ _ _ _ A0)|exact (rc_store _ _ _ _ _ H)|]. exists gi, key. exact H1.
Qed.
Lemma names_other : forall g g1 id x, p_prefix (cfp g1) = p_prefix (cfp g) -> names_request g id x -> names_request g1 id x.
Proof. intros g g1 id x Q (ty & rest & A & B). exists ty, rest. rewrite Q. auto. Qed.

Lemma none_step_r : forall E g S (ops : store_ops S) id st, k_at E g ops (h_pre st) -> step E g ops (h_pre st) (h_ev st) = Some (h_post st, h_effs st) ->
  pending ops (h_pre st) id = None -> ~ adds id st -> pending ops (h_post st) id = None.
Proof.
  intros E g S ops id [s ev es s1] A ST P NA. cbn [h_pre h_ev h_post h_effs] in *.
  apply (none_stays_r E g S ops id s [HStep s ev es s1] s1 A); [econstructor; [exact ST|constructor]|exact P|constructor; [exact NA|constructor]].
Qed.
Lemma none_stays_c : forall S E (ops : store_ops S) id tr g s g2 s2, k_at E g ops s -> csteps E ops g s tr g2 s2 -> pending ops s id = None -> no_add_in id tr -> pending ops s2 id = None.
Proof.
  intros S E ops id tr. induction tr as [|[g1 st] tr IH]; intros g s g2 s2 A H P NA; [rewrite (csteps_nil_inv _ _ _ _ _ _ _ _ H eq_refl); exact P|].
  destruct (csteps_cons _ _ _ _ _ _ _ _ H _ _ _ eq_refl) as (<- & ST & Q & H2). inversion NA as [|? ? N1 N2]; subst. pose proof (k_at_other E g g1 S ops _ Q A) as A1.
  apply (IH g1 (h_post st) g2 s2); [eapply k_at_step; eassumption|exact H2| |exact N2]. exact (none_step_r E g1 S ops id st A1 ST P N1).
Qed.

(** ** One certificate per request *)
Lemma one_certificate_c : forall E S (ops : store_ops S) a g1 st1 b g2 st2 c g s id i1 x1 i2 x2 c1 c2, reconfigured E ops (a ++ (g1, st1) :: b ++ (g2, st2) :: c) g s ->
  handles st1 i1 x1 -> names_request g1 id x1 -> In (EIssue c1) (h_effs st1) -> answered st1 -> no_add_in id b ->
  handles st2 i2 x2 -> names_request g2 id x2 -> ~ In (EIssue c2) (h_effs st2).
Proof.
  intros E S ops a g1 st1 b g2 st2 c g s id i1 x1 i2 x2 c1 c2 H H1 N1 I1 AN NA H2 N2 I2. apply reconfigured_mid in H as (_ & A & ST & A2 & SS).
  destruct (chal_event_r E g1 S ops _ _ _ _ _ A ST I1 I) as (i & x & id' & r & nrm & m & EV & N & P & IDR & LV & NO & CS & Z).
  apply ev_handles in EV. destruct (handles_same _ _ _ _ _ _ H1 EV) as [<- <-]. pose proof (names_same _ _ _ _ N1 N) as <-.
  destruct (step_issue _ _ _ _ _ _ _ _ _ CS I1) as (params & ty & dv & cs & PF & RT & IC & [[Q _]|[(tail & Q) ->]]).
  { apply AN. rewrite Q. reflexivity. }
  assert (PN : pending ops (h_post st1) id = None) by (destruct Z as [Z|[_ Z]]; exact Z).
  destruct (csteps_mid _ _ _ _ _ _ _ _ SS _ _ _ _ eq_refl) as (g3 & S1 & S2 & Q2 & _). pose proof (csteps_at _ _ _ _ _ _ _ _ A2 S1) as A3.
  destruct (chal_event_r E g2 S ops _ _ _ _ _ (k_at_other E g3 g2 S ops _ Q2 A3) S2 I2 I) as (i' & x' & id2 & r2 & nrm2 & m2 & EV2 & N' & P2 & _).
  apply ev_handles in EV2. destruct (handles_same _ _ _ _ _ _ H2 EV2) as [<- <-]. pose proof (names_same _ _ _ _ N2 N') as <-.
  rewrite (none_stays_c S E ops id b _ _ _ _ A2 S1 PN NA) in P2. discriminate.
Qed.

(** ** Three guesses per secret *)
Lemma few_comparisons_c : forall E S (ops : store_ops S) id tr g s g2 s2 n, k_at E g ops s -> csteps E ops g s tr g2 s2 -> no_add_in id tr ->
  tally (fun gs => answered (snd gs) /\ exists given, compares E (fst gs) ops id (snd gs) given) tr n -> N.of_nat n + budget (pending ops s2 id) <= budget (pending ops s id).
Proof.
  intros E S ops id tr. induction tr as [|[g1 st] tr IH]; intros g s g2 s2 n A H NA C.
  - rewrite (csteps_nil_inv _ _ _ _ _ _ _ _ H eq_refl). inversion C; subst. lia.
  - destruct (csteps_cons _ _ _ _ _ _ _ _ H _ _ _ eq_refl) as (<- & ST & Q & H2). inversion NA as [|? ? N1 N2]; subst. pose proof (k_at_other E g g1 S ops _ Q A) as A1. cbn [snd] in N1.
    pose proof (k_at_step E g1 S ops _ _ _ _ A1 ST) as A2. destruct st as [s0 ev es s1]. cbn [h_pre h_ev h_post h_effs] in *.
    destruct (budget_step_r E g1 S ops _ _ _ _ id A1 ST N1) as [B1 B2].
    inversion C as [|? ? k [AN CP] C2|? ? k _ C2]; subst.
    + specialize (IH _ _ _ _ k A2 H2 N2 C2). cbn [fst snd] in *. specialize (B2 AN CP). lia.
    + specialize (IH _ _ _ _ n A2 H2 N2 C2). lia.
Qed.
Lemma at_most_three_c : forall E S (ops : store_ops S) tr0 g s tr g2 s2 id n, reconfigured E ops tr0 g s -> csteps E ops g s tr g2 s2 -> no_add_in id tr ->
  tally (fun gs => answered (snd gs) /\ exists given, compares E (fst gs) ops id (snd gs) given) tr n -> (n <= 3)%nat.
Proof.
  intros E S ops tr0 g s tr g2 s2 id n H ST NA T. pose proof (reconfigured_k _ _ _ _ _ _ H) as A.
  pose proof (few_comparisons_c E S ops id tr g s g2 s2 n A ST NA T). pose proof (budget_3_r E g S ops s id A). lia.
Qed.

(** ** Initialization vectors *)
Lemma iv_bound_csteps : forall E S (ops : store_ops S) id p c tr g s g2 s2, k_at E g ops s -> csteps E ops g s tr g2 s2 -> no_add_in id tr ->
  iv_bound p c (pending ops s id) -> iv_bound p c (pending ops s2 id).
Proof.
  intros E S ops id p c tr. induction tr as [|[g1 st] tr IH]; intros g s g2 s2 A H NA B; [rewrite (csteps_nil_inv _ _ _ _ _ _ _ _ H eq_refl); exact B|].
  destruct (csteps_cons _ _ _ _ _ _ _ _ H _ _ _ eq_refl) as (<- & ST & Q & H2). inversion NA as [|? ? N1 N2]; subst. pose proof (k_at_other E g g1 S ops _ Q A) as A1. cbn [snd] in N1.
  apply (IH g1 (h_post st) g2 s2); [eapply k_at_step; eassumption|exact H2|exact N2|]. destruct st as [s0 ev es s1]. cbn [h_pre h_ev h_post h_effs] in *.
  exact (iv_bound_step_r E g1 S ops s0 ev s1 es id p c A1 ST N1 B).
Qed.
Lemma distinct_ivs_c : forall E S (ops : store_ops S) a g1 st1 b g2 st2 c g s id iv1 iv2, reconfigured E ops (a ++ (g1, st1) :: b ++ (g2, st2) :: c) g s ->
  no_add_in id b -> reply_iv g1 id st1 iv1 -> reply_iv g2 id st2 iv2 -> iv_prefix iv1 = iv_prefix iv2 /\ iv_counter iv1 < iv_counter iv2.
Proof.
  intros E S ops a g1 st1 b g2 st2 c g s id iv1 iv2 H NA R1 R2. apply reconfigured_mid in H as (_ & A & ST & A2 & SS).
  destruct (reply_step_r E g1 S ops st1 id iv1 A ST R1) as (i1 & r1 & P1 & _ & _ & B1).
  destruct (csteps_mid _ _ _ _ _ _ _ _ SS _ _ _ _ eq_refl) as (g3 & S1 & S2 & Q2 & _). pose proof (csteps_at _ _ _ _ _ _ _ _ A2 S1) as A3.
  destruct (reply_step_r E g2 S ops st2 id iv2 (k_at_other E g3 g2 S ops _ Q2 A3) S2 R2) as (i2 & r2 & P2 & X2 & _ & _).
  destruct (iv_bound_csteps E S ops id _ _ b _ _ _ _ A2 S1 NA B1) as [Q|(r & Q & I1 & I2 & I3)]; [congruence|].
  rewrite P2 in Q. injection Q as <-. rewrite (initial_ne _ _ I1) in X2. subst iv2. split; [auto|lia].
Qed.

(** ** Where a pending request comes from *)
Definition origin_c {S} (E : env) (id : bytes) (tr : list (ca_cfg * hstep S)) (r : request) : Prop :=
  exists a1 g0 st a2, tr = a1 ++ (g0, st) :: a2 /\ accepts E g0 id (rq_type r) st (rq_key r) (rq_cert r) /\ no_add_in id a2 /\
    forall cs, rq_cs r = Some cs -> exists b1 g1 st1 b2 i params ty cs0, a2 = b1 ++ (g1, st1) :: b2 /\
      started E g1 id (rq_key r) (rq_cert r) st1 i params ty cs0 /\ cs_secrets cs = cs_secrets cs0 /\
      (cs_status cs = cs_status cs0 \/ cs_status cs0 = bs "need-code" /\ cs_status cs = bs "wrong-code").
Lemma origin_more_c : forall S E id (tr : list (ca_cfg * hstep S)) gs r, origin_c E id tr r -> ~ adds id (snd gs) -> origin_c E id (tr ++ [gs]) r.
Proof.
  intros S E id tr gs r (a1 & g0 & st0 & a2 & -> & AC & NA & CS) N. exists a1, g0, st0, (a2 ++ [gs]). split; [rewrite <- app_assoc; reflexivity|].
  split; [exact AC|]. split; [apply Forall_app; split; [exact NA|constructor; [exact N|constructor]]|].
  intros cs C. destruct (CS cs C) as (b1 & g1 & st1 & b2 & i & params & ty & cs0 & -> & A). exists b1, g1, st1, (b2 ++ [gs]), i, params, ty, cs0.
  split; [rewrite <- app_assoc; reflexivity|exact A].
Qed.
Lemma has_origin_c : forall S E (ops : store_ops S) tr g s id r, reconfigured E ops tr g s -> pending ops s id = Some r -> origin_c E id tr r.
Proof.
  intros S E ops tr. induction tr as [|[g st] tr IH] using rev_ind; intros g' s id r H P.
  - destruct (reconfigured_at _ _ _ _ _ _ H) as (g0 & key & _ & ST & Z). rewrite (csteps_nil_inv _ _ _ _ _ _ _ _ ST eq_refl), Z in P. discriminate.
  - apply reconfigured_mid in H as ((g0 & H) & A & ST & A2 & SS). pose proof (csteps_nil_inv _ _ _ _ _ _ _ _ SS eq_refl) as ->. clear SS.
    destruct (at_id_step_r S E g ops _ _ _ _ A ST) as (nrm & NO & IDS). destruct (IDS id) as [m1 M Z]. rewrite P in Z.
    destruct Z as [Z|[_ Z]]; [|discriminate]. subst m1.
    remember (pending ops (h_pre st) id) as m0 eqn:P0. symmetry in P0. remember (h_effs st) as es eqn:ES.
    inversion M as [es0 m F NN|i x es0 info FI EV N C|i x rt idkey peer c tail EV RT ID ADM CT|i x r0 es0 m EV N IDR CS].
    + assert (NA : ~ adds id st). { intros (r' & IN & ID). rewrite Forall_forall in F. rewrite <- ES in IN. exact (F _ IN ID). }
      apply origin_more_c; [|exact NA]. apply (IH _ _ _ _ H). congruence.
    + exists tr, g, st, []. split; [reflexivity|]. split; [|split; [constructor|intros cs Q; discriminate]].
      cbn [created rq_type rq_key rq_cert]. exists i, x, peer. split; [apply ev_handles; exact EV|].
      split; [destruct RT as [[-> AD]|[-> AD]]; exact AD|]. split; [exact ADM|]. split; [reflexivity|].
      rewrite <- ES. match goal with Q : _ :: _ = es |- _ => rewrite <- Q end. left. reflexivity.
    + assert (NA : ~ adds id st) by (intros (r' & IN & _); rewrite <- ES in IN; exact (chal_no_add _ _ _ _ _ _ _ _ r' CS IN)).
      assert (P1 : pending ops (h_pre st) id = Some r0) by congruence.
      specialize (IH _ _ _ _ H P1). destruct (pending_live_r E g S ops _ _ _ A P1) as [_ LV].
      match goal with Q : es0 = es |- _ => clear Q end.
      inversion CS as [es1 F|info FI NS|code info tail SB PE C|params ty dv cs em payload r3 tail SB OP K MV CE C|params ty dv cs c PF RT IC|params ty dv cs c tail PF RT IC T|params ty dv cs tail PF RT T];
        try discriminate; try (apply origin_more_c; [congruence|exact NA]; fail).
      destruct (moved_live E g i x r0 params ty dv cs em payload r3 LV OP K MV CE) as (iv2 & -> & _ & _ & _ & _).
      destruct (nrm_fixed nrm (set_eiv iv2 (moved dv ty cs r0)) NO) as (_ & F2 & F3 & F4 & _). cbn [moved set_eiv set_cs set_ctype set_status set_div rq_key rq_cert rq_type] in F2, F3, F4.
      destruct IH as (a1 & ga & st0 & a2 & -> & AC & NA2 & CSO).
      exists a1, ga, st0, (a2 ++ [(g, st)]). split; [rewrite <- app_assoc; reflexivity|]. rewrite F2, F3, F4. split; [exact AC|].
      split; [apply Forall_app; split; [exact NA2|constructor; [exact NA|constructor]]|].
      intros cs' C'. apply nrm_cs in C' as (cs0 & C0 & S1 & S2 & S3 & S4); [|exact NO]. cbn in C0. injection C0 as <-. rewrite S1, S2.
      pose proof (opened_asks S E g id st i x r0 params ty dv (proj1 (ev_handles S st i x) EV) N IDR SB OP) as AK.
      destruct MV as [[SB0 STT]|(NB & _ & cs0 & C0 & RE)].
      * exists a2, g, st, [], i, params, ty, cs. split; [reflexivity|]. split; [split; [exact AK|eexists; exists em; split; [exact STT|]; split; [reflexivity|]]|].
        { split; [exact (proj1 (proj2 (proj2 (proj2 (pending_good_r E g S ops _ id r0 A P1)))))|]. intros cmd ->. rewrite <- ES. match goal with Q : _ = es |- _ => rewrite <- Q end. left. reflexivity. }
        split; [reflexivity|]. auto.
      * cbn [set_div rq_cs] in C0. destruct (CSO cs0 C0) as (b1 & gb & st1 & b2 & i1 & p1 & ty1 & cs1 & -> & STD & SE1 & SS1).
        exists b1, gb, st1, (b2 ++ [(g, st)]), i1, p1, ty1, cs1. split; [rewrite <- app_assoc; reflexivity|]. split; [exact STD|].
        destruct RE as (given & code & life & (lf & t & CL & W & _ & _ & LT) & _ & _ & _ & TR & ->). cbn [cs_secrets cs_status] in *. split; [exact SE1|].
        right. split; [|reflexivity]. destruct SS1 as [SS1|[SS1 _]]; [|exact SS1]. destruct STD as [_ (r1 & em1 & STT & _)].
        destruct W as [W|W]; [congruence|]. rewrite W in SS1. destruct STT; discriminate SS1.
Qed.

(** ** What is issued *)
Lemma issue_other : forall E g g0 v r c, name_policy g0 (c_name (rq_cert r)) -> issue_certificate E g v r = Ok c -> certifies E g (rq_cert r) c /\ name_policy g0 (c_name c).
Proof.
  intros E g g0 v r c (suffix & kid & issuer & version & Q & NE & LIM) H. unfold issue_certificate in H.
  destruct (c_validity (rq_cert r)) as [vv|] eqn:V; cbn [of_opt bind] in H; [|discriminate]. injection H as <-.
  assert (KN : key_name_of (c_name (rq_cert r)) = p_prefix (cfp g0) ++ suffix ++ [gc (bs "KEY"); kid]).
  { rewrite Q, !app_assoc. apply key_name_of_shape. }
  rewrite KN. split.
  - exists (p_prefix (cfp g0) ++ suffix ++ [gc (bs "KEY"); kid]), issuer, version, v. cbn [c_name c_content c_validity c_iskey c_keyloc c_sig cert_msg].
    split; [rewrite Q, <- !app_assoc; reflexivity|]. rewrite V. auto 10.
  - exists suffix, kid, (gc (bs "NDNCERT")), (version_comp v). cbn [c_name]. split; [rewrite <- !app_assoc; reflexivity|]. auto.
Qed.
Lemma issued_c : forall E S (ops : store_ops S) tr g st s c, reconfigured E ops (tr ++ [(g, st)]) g s -> In (EIssue c) (h_effs st) ->
  exists id key c0 a1 g0 new a2 g1 start a3 i0 x0 i1 params1 ty1 r cs em i params ty nb na,
    tr = a1 ++ (g0, new) :: a2 ++ (g1, start) :: a3 /\
    accepts E g0 id RT_NEW new key c0 /\ handles new i0 x0 /\ no_add_in id (a2 ++ (g1, start) :: a3) /\
    asks E g1 id key c0 start i1 params1 ty1 /\ starts E (cf_chal g1) i1 params1 r ty1 cs em /\ rq_cert r = c0 /\ (forall cmd, em = Some cmd -> In (EEmail cmd) (h_effs start)) /\
    asks E g id key c0 st i params ty /\ earned E (cf_chal g1) i1 params1 ty1 params ty /\
    certifies E g c0 c /\ name_policy g0 (c_name c) /\ c_validity c = Some (nb, na) /\ period_policy g0 (in_t2 i0) nb na.
Proof.
  intros E S ops tr g st s c H IN. pose proof (rc_codec _ _ _ _ _ H) as LC. apply reconfigured_mid in H as ((gp & H) & A & ST & _ & _).
  destruct (chal_event_r E g S ops _ _ _ _ _ A ST IN I) as (i & x & id & r & nrm & m & EV & N & P & IDR & LV & NO & CS & _).
  destruct (step_issue _ _ _ _ _ _ _ _ _ CS IN) as (params & ty & dv & cs & (SB & OP & K & NB & C & PA) & RT & IC & _).
  destruct (has_origin_c S E ops tr _ _ id r H P) as (a1 & g0 & new & a2 & -> & AC & NA & CSO).
  destruct (CSO cs C) as (b1 & g1 & st1 & b2 & i1 & p1 & ty1 & cs0 & -> & (AK & r1 & em & STT & RC1 & RP1 & EM) & SE & SS).
  assert (RN : rq_type r = RT_NEW). { destruct (pending_good_r E g S ops _ id r A P) as (_ & _ & (_ & _ & [Q|Q] & _)); [exact Q|]. destruct RT as [RT|RT]; [exact RT|]. rewrite Q in RT. discriminate. }
  rewrite RN in AC. pose proof AC as (i0 & x0 & peer & HD & _ & ADM & _).
  destruct (ad_cert _ _ _ _ _ _ _ _ ADM) as [(_ & (nb & na & V & PP) & _)|(Q & _)]; [|discriminate Q].
  destruct (issue_other E g g0 (in_version i) r c (ad_name _ _ _ _ _ _ _ _ ADM) IC) as [X Y].
  exists id, (rq_key r), (rq_cert r), a1, g0, new, b1, g1, st1, b2, i0, x0, i1, p1, ty1, r1, cs0, em, i, params, ty, nb, na.
  split; [reflexivity|]. split; [exact AC|]. split; [exact HD|]. split; [exact NA|]. split; [exact AK|]. split; [exact STT|]. split; [exact RC1|]. split; [exact EM|].
  split; [exact (opened_asks S E g id st i x r params ty dv (proj1 (ev_handles S st i x) EV) N IDR SB OP)|].
  split; [exact (passes_earned E _ i1 p1 r1 ty1 cs0 em i params cs ty LC STT SE SS PA)|].
  split; [exact X|]. split; [exact Y|]. split; [|exact PP]. destruct X as (? & ? & ? & ? & _ & _ & _ & Q & _). congruence.
Qed.

(** ** The published profile *)
Lemma effs_keep : forall S (ops : store_ops S) es s d, ca_prof s = Some d -> (forall d0, ~ In (EProfile d0) es) -> ca_prof (apply_effs ops es s) = Some d.
Proof.
  intros S ops es. unfold apply_effs. induction es as [|e es IH]; intros s d K P; [exact K|]. cbn [fold_left]. apply IH; [|intros d0 I0; apply (P d0); right; exact I0].
  destruct e; cbn [apply_eff]; try exact K; [destruct (s_add ops (ca_store s) r); exact K|destruct (s_update ops (ca_store s) r); exact K|]. exfalso. eapply P. left. reflexivity.
Qed.
Lemma interest_keeps : forall E g S (ops : store_ops S) s i x es o d, ca_prof s = Some d -> on_interest E g ops s i x = (es, o) -> forall d0, ~ In (EProfile d0) es.
Proof.
  intros E g S ops s i x es o d K H d0 I0. destruct (on_interest_cases E g S ops s i x) as [[_ O]|(v & AD & O)]; rewrite O in H; [injection H as <- <-; destruct I0|].
  destruct v; try (eapply handle_profile; [|exact H|exact I0]; discriminate). cbn [handle] in H. rewrite K in H.
  apply discovery_cases in H as [(es0 & d1 & G & _ & m & -> & _)|[-> _]]; [|destruct I0]. apply in_app_or in I0 as [I0|[I0|[]]]; [|discriminate]. injection G as <- _. destruct I0.
Qed.
Lemma step_keeps : forall E g S (ops : store_ops S) s ev s' es d, step E g ops s ev = Some (s', es) -> ca_prof s = Some d -> ca_prof s' = Some d \/ ca_prof s' = None.
Proof.
  intros E g S ops s ev s' es d H K. destruct ev as [i x|i x n key|key|i]; cbn [step] in H.
  - destruct (on_interest E g ops s i x) as [es0 o] eqn:O. assert (Q : s' = apply_effs ops es0 s) by (destruct o; try discriminate; injection H as <- <-; reflexivity). subst s'. left. apply effs_keep; [exact K|]. eapply interest_keeps; eassumption.
  - destruct (on_interest E g ops s i x) as [es0 o]. assert (Q : s' = restart ops key (apply_effs ops (firstn n es0) s)) by (destruct o; try discriminate; injection H as <- <-; reflexivity). subst s'. right. reflexivity.
  - injection H as <- <-. right. reflexivity.
  - rewrite K in H. cbn in H. injection H as <- <-. left. exact K.
Qed.
Lemma step_restarts : forall E g S (ops : store_ops S) s ev s' es, step E g ops s ev = Some (s', es) -> restarts ev -> ca_prof s' = None.
Proof.
  intros E g S ops s ev s' es H R. destruct ev as [i x|i x n key|key|i]; try contradiction; cbn [step] in H.
  - destruct (on_interest E g ops s i x) as [es0 o]. destruct o; try discriminate; injection H as <- <-; reflexivity.
  - injection H as <- <-. reflexivity.
Qed.
(** A profile that is kept was there before and no restart came since, or it was made by an event since the last restart. *)
Lemma profile_origin : forall S E (ops : store_ops S) g s tr g2 s2, csteps E ops g s tr g2 s2 -> forall d, ca_prof s2 = Some d ->
  Forall (fun e => ~ restarts (h_ev (snd e))) tr /\ ca_prof s = Some d /\ cf g2 = cf g \/
  exists a g1 st b, tr = a ++ (g1, st) :: b /\ Forall (fun e => ~ restarts (h_ev (snd e))) b /\ cf g2 = cf g1 /\ ca_prof (h_pre st) = None /\ ca_prof (h_post st) = Some d /\ step E g1 ops (h_pre st) (h_ev st) = Some (h_post st, h_effs st).
Proof.
  intros S E ops g s tr g2 s2 H. induction H as [g s|g s ev es s1 tr g2 s2 ST _ IH|g g1 s key tr g2 s2 Q _ IH|g a s tr g2 s2 _ IH|g c sk kl s tr g2 s2 _ IH]; intros d D.
  - left. split; [constructor|]. split; [exact D|reflexivity].
  - destruct (IH d D) as [(F & P & C)|(a & g1 & st & b & -> & R)]; [|right; exists ((g, HStep s ev es s1) :: a), g1, st, b; split; [reflexivity|exact R]].
    destruct (ca_prof s) as [d0|] eqn:PS.
    + destruct (step_keeps _ _ _ _ _ _ _ _ _ ST PS) as [Q|Q]; [|congruence]. left. split; [|split; [congruence|exact C]]. constructor; [|exact F]. cbn [snd h_ev]. intros RS.
      rewrite (step_restarts _ _ _ _ _ _ _ _ ST RS) in Q. discriminate.
    + right. exists [], g, (HStep s ev es s1), tr. cbn [app h_pre h_post h_ev h_effs]. auto 10.
  - destruct (IH d D) as [(F & P & C)|(a & gx & st & b & -> & R)]; [discriminate P|]. right. eexists (_ :: a), gx, st, b. split; [reflexivity|exact R].
  - exact (IH d D).
  - exact (IH d D).
Qed.
Lemma profile_c : forall E S (ops : store_ops S) tr g s d, reconfigured E ops tr g s -> ca_prof s = Some d ->
  exists a g1 st b, tr = a ++ (g1, st) :: b /\ Forall (fun e => ~ restarts (h_ev (snd e))) b /\ cf g1 = cf g /\ (exists v, d_name d = profile_name g v) /\ data_signed_by E d (cf_sk g1) /\ (sig_laws E -> public_key (cf_cert g1) = o_pub E (cf_sk g1) -> fits (p_info (cfp g)) -> Forall fits (p_probe_keys (cfp g)) ->
   (forall k, c_keyloc (cf_cert g1) = Some k -> fits (bs "Issued by " ++ o_to_uri E k)) ->
   (- 2 ^ 63 <= p_maxvalid (cfp g) < 2 ^ 63)%Z -> wf_cert (cf_cert g1) -> cert_ok (cf_cert g1) = true -> fits (enc_tlv (cert_tlv E (cf_cert g1))) ->
   exists p, on_profile E d = Ok p /\ p_prefix p = p_prefix (cfp g) /\ p_cert p = Some (cf_cert g1) /\ p_maxvalid p = p_maxvalid (cfp g) /\ p_probe_keys p = p_probe_keys (cfp g)).
Proof.
  intros E S ops tr g s d H D. pose proof (rc_codec _ _ _ _ _ H) as LC. pose proof (rc_prefix _ _ _ _ _ H) as NF. destruct (rc_steps _ _ _ _ _ H) as (g0 & key & ST).
  destruct (profile_origin _ _ _ _ _ _ _ _ ST d D) as [(_ & Q & _)|(a & g1 & st & b & T & F & C & P & P1 & S1)]; [discriminate Q|].
  assert (K0 : prof_made E g1 (ca_prof (h_pre st))) by (rewrite P; intros d0 Q; discriminate Q).
  destruct (step_made _ _ _ _ _ _ _ _ S1 K0 d P1) as (v & Q). exists a, g1, st, b. split; [exact T|]. split; [exact F|]. split; [symmetry; exact C|].
  assert (CP : cfp g = cfp g1) by (unfold cfp; rewrite C; reflexivity). unfold profile_name. rewrite !CP in *. split; [|split].
  - unfold profile_data in Q. destruct (info_encode E (cfp g1) (cf_cert g1)); cbn [bind] in Q; try discriminate. injection Q as <-. exists v. reflexivity.
  - unfold profile_data in Q. destruct (info_encode E (cfp g1) (cf_cert g1)); cbn [bind] in Q; try discriminate. injection Q as <-. reflexivity.
  - intros SG PK K1 K2 K3 K4 K5 K6 K7. destruct (own_profile E g1 v d LC SG Q PK NF K1 K2 K3 K4 K5 K6 K7) as (p & X & _ & R). exists p. split; [exact X|exact R].
Qed.
