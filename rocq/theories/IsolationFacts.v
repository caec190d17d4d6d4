(** A request is treated as if the CA served nobody else. *)
From Verif Require Import TraceProps ChalProps SimFacts SecrecyFacts GuessFacts.
From Verif Require Export Spec_Isolation.
Local Open Scope N_scope.

Section Isolation.
  Context (E : env) (g : ca_cfg) {S : Type} (ops : store_ops S) (id0 : bytes).
  Definition agree (s s' : ca_state S) : Prop := ca_idkey s = ca_idkey s' /\ pending ops s id0 = pending ops s' id0.
  (** What [meant_for] says of an Interest, by the identity key. *)
  Definition about (k : bytes) (x : interest) : Prop :=
    names_request g id0 x \/
    exists rt peer c, (rt = RT_NEW /\ addressed g VNew (i_name x) \/ rt = RT_REVOKE /\ addressed g VRevoke (i_name x)) /\
      carries E rt x peer c /\ id0 = request_id_of E k (c_name c).
  Lemma about_dec : forall k x, about k x \/ ~ about k x.
  Proof.
    intros k x. assert (NEWDEC : forall rt v, (rt = RT_NEW /\ v = VNew \/ rt = RT_REVOKE /\ v = VRevoke) -> addressed g v (i_name x) -> about k x \/ ~ about k x).
    { intros rt v RV AV. assert (RT : rt = RT_NEW \/ rt = RT_REVOKE) by (destruct RV as [[-> _]|[-> _]]; auto).
      assert (U : forall rt' peer c, (rt' = RT_NEW /\ addressed g VNew (i_name x) \/ rt' = RT_REVOKE /\ addressed g VRevoke (i_name x)) -> carries E rt' x peer c -> req_decode E rt (params_of x) = Ok (peer, c)).
      { intros rt' peer c [[-> B]|[-> B]] C; pose proof (verb_same g _ _ _ AV B) as ->; (destruct RV as [[-> Q]|[-> Q]]; [|]; try discriminate Q); apply carries_decode; auto. }
      assert (NN : ~ names_request g id0 x) by (intros Q; pose proof (verb_same g _ _ _ (names_addressed g x id0 Q) AV) as <-; destruct RV as [[_ Q2]|[_ Q2]]; discriminate Q2).
      destruct (req_decode E rt (params_of x)) as [[peer c]| | |] eqn:D.
      - destruct (bytes_eqb (request_id_of E k (c_name c)) id0) eqn:B.
        + left. right. exists rt, peer, c. split; [destruct RV as [[-> ->]|[-> ->]]; auto|]. split; [apply carries_decode; assumption|]. apply bytes_eqb_eq in B. symmetry. exact B.
        + right. intros [Q|(rt' & peer' & c' & R' & C' & ID)]; [exact (NN Q)|]. pose proof (U rt' peer' c' R' C') as Z. injection Z as <- <-. rewrite <- ID, bytes_eqb_refl in B. discriminate.
      - right. intros [Q|(rt' & peer' & c' & R' & C' & ID)]; [exact (NN Q)|]. pose proof (U rt' peer' c' R' C'). discriminate.
      - right. intros [Q|(rt' & peer' & c' & R' & C' & ID)]; [exact (NN Q)|]. pose proof (U rt' peer' c' R' C'). discriminate.
      - right. intros [Q|(rt' & peer' & c' & R' & C' & ID)]; [exact (NN Q)|]. pose proof (U rt' peer' c' R' C'). discriminate. }
    assert (OTHER : forall v, v <> VNew -> v <> VRevoke -> addressed g v (i_name x) -> ~ names_request g id0 x -> ~ about k x).
    { intros v N1 N2 AV NN [Q|(rt & peer & c & [[_ B]|[_ B]] & _)]; [exact (NN Q)| |]; pose proof (verb_same g _ _ _ AV B); contradiction. }
    destruct (dispatch_cases g (i_name x)) as [D|(v & _ & AV)].
    - assert (NA : forall v, ~ addressed g v (i_name x)) by (intros v Q; apply dispatch_iff in Q; rewrite D in Q; destruct Q).
      right. intros [Q|(rt & peer & c & [[_ B]|[_ B]] & _)]; [exact (NA _ (names_addressed g x id0 Q))|exact (NA _ B)|exact (NA _ B)].
    - assert (NV : v <> VChallenge -> ~ names_request g id0 x) by (intros NC Q; pose proof (verb_same g _ _ _ (names_addressed g x id0 Q) AV); congruence).
      destruct v.
      + right. apply (OTHER VInfo); [discriminate|discriminate|exact AV|apply NV; discriminate].
      + right. apply (OTHER VProbe); [discriminate|discriminate|exact AV|apply NV; discriminate].
      + apply (NEWDEC RT_NEW VNew); auto.
      + destruct (challenge_id g (i_name x)) as [id| | |] eqn:CI; try (right; apply (OTHER VChallenge); [discriminate|discriminate|exact AV|]; intros Q; apply (challenge_id_names g x id0 AV) in Q; congruence).
        destruct (bytes_eqb id id0) eqn:B; [left; left; apply bytes_eqb_eq in B; subst; apply (challenge_id_names g x id0 AV), CI|].
        right. apply (OTHER VChallenge); [discriminate|discriminate|exact AV|]. intros Q; apply (challenge_id_names g x id0 AV) in Q. rewrite CI in Q. injection Q as ->. rewrite bytes_eqb_refl in B. discriminate.
      + apply (NEWDEC RT_REVOKE VRevoke); auto.
  Qed.
  Lemma new_ext : forall a1 a2 k i rt x, rt = RT_NEW \/ rt = RT_REVOKE -> (forall r peer c, carries E rt x peer c -> rq_id r = request_id_of E k (c_name c) -> a1 r = a2 r) -> on_new E g a1 k i rt x = on_new E g a2 k i rt x.
  Proof.
    intros a1 a2 k i rt x RT H. unfold on_new. destruct (cert_is_valid (in_t1 i) (cf_cert g)) as [[|]| | |]; try reflexivity. destruct (req_decode E rt (params_of x)) as [[peer c]| | |] eqn:D; try reflexivity.
    destruct peer as [|p0 peer]; [reflexivity|]. destruct (derive_secret _ _ _); try reflexivity. destruct (negb (name_allowed _ _)); [reflexivity|]. destruct (type_checks _ _ _ _ _ _) as [[[]|]| | |]; try reflexivity.
    cbv zeta. destruct (hkdf _ _ _ _); try reflexivity. rewrite (H _ (p0 :: peer) c); [reflexivity|apply carries_decode; assumption|reflexivity].
  Qed.
  Lemma new_shape : forall a k i rt x r, rt = RT_NEW \/ rt = RT_REVOKE -> In (EAdd r) (fst (on_new E g a k i rt x)) -> exists peer c, carries E rt x peer c /\ rq_id r = request_id_of E k (c_name c).
  Proof.
    intros a k i rt x r RT. unfold on_new. destruct (cert_is_valid (in_t1 i) (cf_cert g)) as [[|]| | |]; try (intros []; fail); [|intros [Q|[]]; discriminate Q].
    destruct (req_decode E rt (params_of x)) as [[peer c]| | |] eqn:D; try (intros []; fail); [|intros [Q|[]]; discriminate Q].
    destruct peer as [|p0 peer]; [intros [Q|[]]; discriminate Q|]. destruct (derive_secret _ _ _); try (intros []; fail); [|intros [Q|[]]; discriminate Q].
    destruct (negb (name_allowed _ _)); [intros [Q|[]]; discriminate Q|]. destruct (type_checks _ _ _ _ _ _) as [[[]|]| | |]; try (intros []; fail); [intros [Q|[]]; discriminate Q|].
    cbv zeta. destruct (hkdf _ _ _ _); try (intros []; fail). destruct (negb (a _)); [intros [Q|[]]; discriminate Q|].
    intros [Q|[Q|[Q|[]]]]; try discriminate Q. injection Q as <-. exists (p0 :: peer), c. split; [apply carries_decode; assumption|reflexivity].
  Qed.
  (** An Interest about the request gets the same treatment. *)
  Lemma same_out : forall s s' i x, ca_at E g ops s -> ca_at E g ops s' -> agree s s' -> about (ca_idkey s) x -> on_interest E g ops s' i x = on_interest E g ops s i x.
  Proof.
    intros s s' i x A A' (K & P) AB. destruct (ends E g ops s A) as (inv & nrm & SL & _ & AD & _).
    pose proof (ca_at_inv2 E g ops inv nrm s SL A) as [I _]. pose proof (ca_at_inv2 E g ops inv nrm s' SL A') as [I' _].
    destruct (on_interest_cases E g S ops s i x) as [[NA Q]|(v & AV & Q)].
    { destruct AB as [NR|(rt & peer & c & [[_ B]|[_ B]] & _)]; [destruct (NA _ (names_addressed g x id0 NR))|destruct (NA _ B)|destruct (NA _ B)]. }
    destruct (on_interest_cases E g S ops s' i x) as [[NA' _]|(v' & AV' & Q')]; [destruct (NA' _ AV)|]. pose proof (verb_same g _ _ _ AV AV') as <-. rewrite Q, Q'. clear Q Q'.
    assert (NEW : forall rt, rt = RT_NEW \/ rt = RT_REVOKE -> (forall peer c, carries E rt x peer c -> id0 = request_id_of E (ca_idkey s) (c_name c)) ->
      on_new E g (fun r => match s_add ops (ca_store s') r with Some _ => true | None => false end) (ca_idkey s) i rt x = on_new E g (fun r => match s_add ops (ca_store s) r with Some _ => true | None => false end) (ca_idkey s) i rt x).
    { intros rt RT U. apply new_ext; [exact RT|]. intros r peer c C ID. symmetry. apply (AD _ _ r I I'). rewrite ID, <- (U peer c C). unfold pending in P. rewrite P. destruct (s_get ops (ca_store s') id0); constructor. constructor. }
    assert (UQ : forall rt v, (rt = RT_NEW /\ v = VNew \/ rt = RT_REVOKE /\ v = VRevoke) -> addressed g v (i_name x) -> forall peer c, carries E rt x peer c -> id0 = request_id_of E (ca_idkey s) (c_name c)).
    { intros rt w RV AW peer c C. destruct AB as [NR|(rt' & peer' & c' & RB & C' & ID)].
      - pose proof (verb_same g _ _ _ (names_addressed g x id0 NR) AW) as <-. destruct RV as [[_ Z]|[_ Z]]; discriminate Z.
      - assert (rt' = rt) by (destruct RB as [[-> B]|[-> B]]; pose proof (verb_same g _ _ _ AW B) as ->; destruct RV as [[-> Z]|[-> Z]]; try discriminate Z; reflexivity). subst rt'.
        assert (RT : rt = RT_NEW \/ rt = RT_REVOKE) by (destruct RV as [[-> _]|[-> _]]; auto).
        apply carries_decode in C; [|exact RT]. apply carries_decode in C'; [|exact RT]. rewrite C in C'. injection C' as <- <-. exact ID. }
    unfold handle. rewrite <- K. destruct v.
    - destruct AB as [NR|(rt' & peer' & c' & [[_ B]|[_ B]] & _)]; [pose proof (verb_same g _ _ _ (names_addressed g x id0 NR) AV) as Z|pose proof (verb_same g _ _ _ B AV) as Z|pose proof (verb_same g _ _ _ B AV) as Z]; discriminate Z.
    - reflexivity.
    - apply NEW; [auto|]. apply (UQ RT_NEW VNew); auto.
    - apply chal_ext; [|exact AV]. intros id NR. destruct AB as [NR0|(rt' & peer' & c' & [[_ B]|[_ B]] & _)]; [|pose proof (verb_same g _ _ _ B AV) as Z; discriminate Z|pose proof (verb_same g _ _ _ B AV) as Z; discriminate Z].
      rewrite (names_same g id id0 x NR NR0). symmetry. exact P.
    - apply NEW; [auto|]. apply (UQ RT_REVOKE VRevoke); auto.
  Qed.
  (** An Interest about something else leaves the request as it is. *)
  Lemma left_alone : forall s i x n full o, ca_at E g ops s -> on_interest E g ops s i x = (full, o) -> o <> UB -> ~ about (ca_idkey s) x -> pending ops (apply_effs ops (firstn n full) s) id0 = pending ops s id0.
  Proof.
    intros s i x n full o A O U NB. destruct (ends E g ops s A) as (inv & nrm & SL & _ & _ & _). pose proof (ca_at_inv2 E g ops inv nrm s SL A) as I. pose proof A as [LC NF _ _].
    destruct (interest_step E g ops inv nrm SL LC NF s (EvInterest i x) i x (firstn n full) full o I eq_refl O U (cut_firstn n full)) as [_ M]. specialize (M id0).
    change (ca_get ops (apply_effs ops (firstn n full) s) id0 = ca_get ops s id0).
    inversion M as [es0 m F0 NN|j0 x0 es0 info FI EV0 N0 C|j0 x0 rt idkey peer c tail EV0 RT ID0 ADM CT|j0 x0 r0 es0 m EV0 N0 IDR CS]; try (injection EV0 as <- <-; destruct NB; left; exact N0); try congruence.
    exfalso. injection EV0 as <- <-. apply NB. right. assert (IN : In (EAdd (created E g i rt id0 peer c)) full).
    { rewrite <- (firstn_skipn n full). apply in_or_app. left. match goal with Q : _ :: _ = firstn n full |- _ => rewrite <- Q end. left. reflexivity. }
    destruct (on_interest_cases E g S ops s i x) as [[_ Q]|(v & AV & Q)]; rewrite O in Q; [injection Q as -> _; destruct IN|].
    destruct RT as [[-> B]|[-> B]]; pose proof (verb_same g _ _ _ AV B) as ->; cbn [handle] in Q.
    - rewrite (f_equal fst Q : full = _) in IN. apply new_shape in IN as (peer' & c' & C' & ID'); [|auto]. exists RT_NEW, peer', c'. auto.
    - rewrite (f_equal fst Q : full = _) in IN. apply new_shape in IN as (peer' & c' & C' & ID'); [|auto]. exists RT_REVOKE, peer', c'. auto.
  Qed.
  Lemma kept : forall s s' i x n full o, ca_at E g ops s -> ca_at E g ops s' -> agree s s' -> on_interest E g ops s i x = (full, o) -> on_interest E g ops s' i x = (full, o) -> o <> UB ->
    agree (apply_effs ops (firstn n full) s) (apply_effs ops (firstn n full) s').
  Proof.
    intros s s' i x n full o A A' (K & P) O O' U. destruct (ends E g ops s A) as (inv & nrm & SL & _ & _ & _).
    pose proof (ca_at_inv2 E g ops inv nrm s SL A) as I. pose proof (ca_at_inv2 E g ops inv nrm s' SL A') as I'. pose proof A as [LC NF _ _].
    destruct (interest_step E g ops inv nrm SL LC NF s (EvInterest i x) i x (firstn n full) full o I eq_refl O U (cut_firstn _ _)) as [_ M].
    destruct (interest_step E g ops inv nrm SL LC NF s' (EvInterest i x) i x (firstn n full) full o I' eq_refl O' U (cut_firstn _ _)) as [_ M'].
    split; [rewrite !idkey_effs; exact K|].
    change (ca_get ops (apply_effs ops (firstn n full) s) id0 = ca_get ops (apply_effs ops (firstn n full) s') id0).
    rewrite (mid_result _ _ _ _ _ _ _ _ (M id0) (fun r Q => proj1 (proj2 I id0 r Q))), (mid_result _ _ _ _ _ _ _ _ (M' id0) (fun r Q => proj1 (proj2 I' id0 r Q))).
    f_equal. exact P.
  Qed.
  Lemma restart_agree : forall s s' key, ca_at E g ops s -> pending ops s id0 = pending ops s' id0 -> agree (restart ops key s) (restart ops key s').
  Proof.
    intros s s' key A P. destruct (ends E g ops s A) as (_ & _ & _ & _ & _ & RS). split; [reflexivity|]. unfold pending, restart in *. cbn [ca_store]. destruct RS as [R|R]; rewrite !R; [exact P|reflexivity].
  Qed.
  Lemma iso_step : forall s s' ev es s1, ca_at E g ops s -> ca_at E g ops s' -> agree s s' -> step E g ops s ev = Some (s1, es) ->
    (meant_for E g id0 (HStep s ev es s1) /\ exists s1', step E g ops s' ev = Some (s1', es) /\ agree s1 s1') \/
    (~ meant_for E g id0 (HStep s ev es s1) /\ ((forall key, ~ starts_again key ev) /\ agree s1 s' \/ exists key, starts_again key ev /\ agree s1 (restart ops key s'))).
  Proof.
    intros s s' ev es s1 A A' AG ST.
    assert (MF : forall i x, ev_interest ev = Some (i, x) -> (about (ca_idkey s) x <-> meant_for E g id0 (HStep s ev es s1))).
    { intros i x EV. split.
      - intros AB. exists i, x. split; [apply ev_handles; exact EV|exact AB].
      - intros (i' & x' & HD & AB). apply ev_handles in HD. cbn [h_ev] in HD. rewrite EV in HD. injection HD as <- <-. exact AB. }
    assert (NF : (forall i x, ev_interest ev <> Some (i, x)) -> ~ meant_for E g id0 (HStep s ev es s1)).
    { intros N (i & x & HD & _). apply ev_handles in HD. exact (N _ _ HD). }
    destruct ev as [i x|i x n key|key|i].
    - cbn [step] in ST. destruct (about_dec (ca_idkey s) x) as [AB|NB].
      + left. split; [apply (MF i x eq_refl), AB|]. pose proof (same_out s s' i x A A' AG AB) as Q. cbn [step]. rewrite Q. destruct (on_interest E g ops s i x) as [full o] eqn:O.
        assert (W : o <> UB -> agree (apply_effs ops full s) (apply_effs ops full s')) by (intros U; pose proof (kept s s' i x (length full) full o A A' AG O Q U) as W; rewrite firstn_all in W; exact W).
        destruct o; try discriminate; injection ST as <- <-; eexists; (split; [reflexivity|apply W; discriminate]).
      + right. split; [rewrite <- (MF i x eq_refl); exact NB|]. left. split; [intros key [Q|(j & y & n & Q)]; discriminate Q|].
        destruct (on_interest E g ops s i x) as [full o] eqn:O. destruct AG as [K P].
        assert (W : o <> UB -> agree (apply_effs ops full s) s').
        { intros U. split; [rewrite idkey_effs; exact K|]. rewrite <- P. pose proof (left_alone s i x (length full) full o A O U NB) as W. rewrite firstn_all in W. exact W. }
        destruct o; try discriminate; injection ST as <- <-; apply W; discriminate.
    - cbn [step] in ST. destruct (about_dec (ca_idkey s) x) as [AB|NB].
      + left. split; [apply (MF i x eq_refl), AB|]. pose proof (same_out s s' i x A A' AG AB) as Q. cbn [step]. rewrite Q. destruct (on_interest E g ops s i x) as [full o] eqn:O.
        assert (W : o <> UB -> agree (restart ops key (apply_effs ops (firstn n full) s)) (restart ops key (apply_effs ops (firstn n full) s'))).
        { intros U. pose proof (kept s s' i x n full o A A' AG O Q U) as [_ W]. destruct (ends E g ops s A) as (_ & _ & _ & _ & _ & RS). split; [reflexivity|]. unfold pending, restart in *. cbn [ca_store]. destruct RS as [R|R]; rewrite !R; [exact W|reflexivity]. }
        destruct o; try discriminate; injection ST as <- <-; eexists; (split; [reflexivity|apply W; discriminate]).
      + right. split; [rewrite <- (MF i x eq_refl); exact NB|]. right. exists key. split; [right; eauto|].
        destruct (on_interest E g ops s i x) as [full o] eqn:O. destruct AG as [K P].
        assert (W : o <> UB -> agree (restart ops key (apply_effs ops (firstn n full) s)) (restart ops key s')).
        { intros U. pose proof (left_alone s i x n full o A O U NB) as W. rewrite P in W. destruct (ends E g ops s A) as (_ & _ & _ & _ & _ & RS). split; [reflexivity|]. unfold pending, restart in *. cbn [ca_store]. destruct RS as [R|R]; rewrite !R; [exact W|reflexivity]. }
        destruct o; try discriminate; injection ST as <- <-; apply W; discriminate.
    - right. split; [apply NF; intros; discriminate|]. right. exists key. split; [left; reflexivity|]. cbn [step] in ST. injection ST as <- <-. apply restart_agree; [exact A|apply AG].
    - right. split; [apply NF; intros; discriminate|]. left. split; [intros key [Q|(j & y & n & Q)]; discriminate Q|]. cbn [step] in ST. destruct (on_get_profile E g (ca_prof s) i) as [full o] eqn:O.
      assert (SI : Forall silent full) by (unfold on_get_profile in O; destruct (profile_data E g (ca_prof s) (in_version i)); injection O as <- <-; try destruct (ca_prof s); repeat constructor).
      assert (W : agree (apply_effs ops full s) s') by (destruct AG as [K P]; split; [rewrite idkey_effs; exact K|]; unfold pending in *; rewrite (silent_store ops full _ SI); exact P).
      destruct o; try discriminate; injection ST as <- <-; exact W.
  Qed.
  Lemma iso_steps : forall s tr s2, steps E g ops s tr s2 -> forall s', ca_at E g ops s -> ca_at E g ops s' -> agree s s' -> exists tr' s2', steps E g ops s' tr' s2' /\ alone E g id0 tr tr' /\ agree s2 s2'.
  Proof.
    intros s tr s2 H. induction H as [s|s ev es s1 tr s2 ST H IH]; intros s' A A' AG; [exists [], s'; split; [constructor|]; split; [constructor|exact AG]|].
    pose proof (ca_at_step E g S ops _ _ _ _ A ST) as A1. destruct (iso_step s s' ev es s1 A A' AG ST) as [(MF & s1' & ST' & AG1)|(NF & [(NR & AG1)|(key & SA & AG1)])].
    - destruct (IH s1' A1 (ca_at_step E g S ops _ _ _ _ A' ST') AG1) as (tr' & s2' & H' & AL & AG2). exists (HStep s' ev es s1' :: tr'), s2'.
      split; [econstructor; eassumption|]. split; [|exact AG2]. apply alone_keep; [exact MF|reflexivity|reflexivity|exact AL].
    - destruct (IH s' A1 A' AG1) as (tr' & s2' & H' & AL & AG2). exists tr', s2'. split; [exact H'|]. split; [|exact AG2]. apply alone_drop; [exact NF|exact NR|exact AL].
    - assert (ST' : step E g ops s' (EvRestart key) = Some (restart ops key s', [])) by reflexivity.
      destruct (IH (restart ops key s') A1 (ca_at_step E g S ops _ _ _ _ A' ST') AG1) as (tr' & s2' & H' & AL & AG2). exists (HStep s' (EvRestart key) [] (restart ops key s') :: tr'), s2'.
      split; [econstructor; eassumption|]. split; [|exact AG2]. eapply alone_restart; [exact NF|exact SA|reflexivity|exact AL].
  Qed.
End Isolation.
Lemma isolated : forall E g S (ops : store_ops S) s tr s2 id, ca_at E g ops s -> steps E g ops s tr s2 ->
  exists tr' s2', steps E g ops s tr' s2' /\ alone E g id tr tr' /\ pending ops s2' id = pending ops s2 id.
Proof.
  intros E g S ops s tr s2 id A H. destruct (iso_steps E g ops id s tr s2 H s A A (conj eq_refl eq_refl)) as (tr' & s2' & H' & AL & _ & P). exists tr', s2'. auto.
Qed.
