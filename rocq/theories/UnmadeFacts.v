(** The CA's other customers, with and without a request: the proofs of C134. *)
From Verif Require Import TraceProps ChalProps CaProps CaFacts SimFacts SecrecyFacts GuessFacts IsolationFacts OutsiderFacts TracklessFacts.
From Verif Require Export Spec_Unmade.
Local Open Scope N_scope.

Section Unmade.
  Context (E : env) (g : ca_cfg) {S : Type} (ops : store_ops S) (id0 : bytes).
  Record beside (s s' : ca_state S) : Prop := { bs_idkey : ca_idkey s = ca_idkey s'; bs_prof : ca_prof s = ca_prof s'; bs_others : forall id, id <> id0 -> pending ops s id = pending ops s' id }.
  Lemma beside_out : forall s s' i x, ca_at E g ops s -> ca_at E g ops s' -> beside s s' -> ~ about E g id0 (ca_idkey s) x -> on_interest E g ops s' i x = on_interest E g ops s i x.
  Proof.
    intros s s' i x A A' [K P R] NB. destruct (on_interest_cases E g S ops s i x) as [[NA Q]|(v & AV & Q)].
    { destruct (on_interest_cases E g S ops s' i x) as [[_ Q']|(v' & AV' & _)]; [congruence|destruct (NA _ AV')]. }
    destruct (on_interest_cases E g S ops s' i x) as [[NA' _]|(v' & AV' & Q')]; [destruct (NA' _ AV)|]. pose proof (verb_same g _ _ _ AV AV') as <-. rewrite Q, Q'. clear Q Q'.
    assert (NEW : forall rt, (rt = RT_NEW /\ addressed g VNew (i_name x) \/ rt = RT_REVOKE /\ addressed g VRevoke (i_name x)) ->
      on_new E g (fun r => match s_add ops (ca_store s') r with Some _ => true | None => false end) (ca_idkey s) i rt x = on_new E g (fun r => match s_add ops (ca_store s) r with Some _ => true | None => false end) (ca_idkey s) i rt x).
    { intros rt RT. apply new_ext; [destruct RT as [[-> _]|[-> _]]; auto|]. intros r peer c C ID. apply (add_same E g ops s s' r A A'). rewrite R; [tauto|].
      intros Q. apply NB. right. exists rt, peer, c. split; [exact RT|]. split; [exact C|congruence]. }
    unfold handle. rewrite <- K, <- P. destruct v; try reflexivity.
    - apply NEW. auto.
    - apply chal_ext; [|exact AV]. intros id N. symmetry. apply R. intros ->. apply NB. left. exact N.
    - apply NEW. auto.
  Qed.
  Lemma beside_effs : forall s s' i x n full o, ca_at E g ops s -> ca_at E g ops s' -> beside s s' -> on_interest E g ops s i x = (full, o) -> on_interest E g ops s' i x = (full, o) -> o <> UB ->
    beside (apply_effs ops (firstn n full) s) (apply_effs ops (firstn n full) s').
  Proof.
    intros s s' i x n full o A A' [K P R] O O' U. constructor; [rewrite !idkey_effs; exact K|rewrite !prof_effs, P; reflexivity|].
    intros id D. exact (proj2 (kept E g ops id s s' i x n full o A A' (conj K (R id D)) O O' U)).
  Qed.
  Lemma beside_restart : forall s0 s s' key, ca_at E g ops s0 -> (forall id, id <> id0 -> pending ops s id = pending ops s' id) -> beside (restart ops key s) (restart ops key s').
  Proof.
    intros s0 s s' key A R. destruct (ends E g ops s0 A) as (_ & _ & _ & _ & _ & RS). constructor; [reflexivity|reflexivity|]. intros id D. specialize (R id D). unfold pending, restart in *. cbn [ca_store].
    destruct RS as [X|X]; rewrite !X; [exact R|reflexivity].
  Qed.
  Lemma others_kept : forall s i x n full o, ca_at E g ops s -> on_interest E g ops s i x = (full, o) -> o <> UB -> about E g id0 (ca_idkey s) x ->
    forall id, id <> id0 -> pending ops (apply_effs ops (firstn n full) s) id = pending ops s id.
  Proof. intros s i x n full o A O U AB id D. apply (left_alone E g ops id s i x n full o A O U). intros AB'. apply D. symmetry. exact (about_one E g id0 id _ x AB AB'). Qed.
  Lemma unmade_step : forall s s' ev es s1, ca_at E g ops s -> ca_at E g ops s' -> beside s s' -> step E g ops s ev = Some (s1, es) ->
    (~ meant_for E g id0 (HStep s ev es s1) /\ exists s1', step E g ops s' ev = Some (s1', es) /\ beside s1 s1') \/
    (meant_for E g id0 (HStep s ev es s1) /\ ((forall key, ~ starts_again key ev) /\ beside s1 s' \/ exists key, starts_again key ev /\ beside s1 (restart ops key s'))).
  Proof.
    intros s s' ev es s1 A A' BS ST.
    assert (MF : forall i x, ev_interest ev = Some (i, x) -> (about E g id0 (ca_idkey s) x <-> meant_for E g id0 (HStep s ev es s1))).
    { intros i x EV. split.
      - intros AB. exists i, x. split; [apply ev_handles; exact EV|exact AB].
      - intros (i' & x' & HD & AB). apply ev_handles in HD. cbn [h_ev] in HD. rewrite EV in HD. injection HD as <- <-. exact AB. }
    assert (NF : (forall i x, ev_interest ev <> Some (i, x)) -> ~ meant_for E g id0 (HStep s ev es s1)).
    { intros N (i & x & HD & _). apply ev_handles in HD. exact (N _ _ HD). }
    destruct ev as [i x|i x n key|key|i].
    - cbn [step] in ST. destruct (about_dec E g id0 (ca_idkey s) x) as [AB|NB].
      + right. split; [apply (MF i x eq_refl), AB|]. left. split; [intros key [Q|(j & y & n & Q)]; discriminate Q|].
        destruct (on_interest E g ops s i x) as [full o] eqn:O. pose proof (about_prof E g ops id0 s i x full o AB O) as PR. destruct BS as [K P R].
        assert (W : o <> UB -> beside (apply_effs ops full s) s').
        { intros U. constructor; [rewrite idkey_effs; exact K|rewrite PR; exact P|]. intros id D. rewrite <- (R id D). pose proof (others_kept s i x (length full) full o A O U AB id D) as W. rewrite firstn_all in W. exact W. }
        destruct o; try discriminate; injection ST as <- <-; apply W; discriminate.
      + left. split; [rewrite <- (MF i x eq_refl); exact NB|]. pose proof (beside_out s s' i x A A' BS NB) as Q. cbn [step]. rewrite Q. destruct (on_interest E g ops s i x) as [full o] eqn:O.
        assert (W : o <> UB -> beside (apply_effs ops full s) (apply_effs ops full s')) by (intros U; pose proof (beside_effs s s' i x (length full) full o A A' BS O Q U) as W; rewrite firstn_all in W; exact W).
        destruct o; try discriminate; injection ST as <- <-; eexists; (split; [reflexivity|apply W; discriminate]).
    - cbn [step] in ST. destruct (about_dec E g id0 (ca_idkey s) x) as [AB|NB].
      + right. split; [apply (MF i x eq_refl), AB|]. right. exists key. split; [right; eauto|].
        destruct (on_interest E g ops s i x) as [full o] eqn:O. destruct BS as [K P R].
        assert (W : o <> UB -> beside (restart ops key (apply_effs ops (firstn n full) s)) (restart ops key s')).
        { intros U. apply (beside_restart s); [exact A|]. intros id D. rewrite <- (R id D). exact (others_kept s i x n full o A O U AB id D). }
        destruct o; try discriminate; injection ST as <- <-; apply W; discriminate.
      + left. split; [rewrite <- (MF i x eq_refl); exact NB|]. pose proof (beside_out s s' i x A A' BS NB) as Q. cbn [step]. rewrite Q. destruct (on_interest E g ops s i x) as [full o] eqn:O.
        assert (W : o <> UB -> beside (restart ops key (apply_effs ops (firstn n full) s)) (restart ops key (apply_effs ops (firstn n full) s'))).
        { intros U. apply (beside_restart s); [exact A|]. apply (beside_effs s s' i x n full o A A' BS O Q U). }
        destruct o; try discriminate; injection ST as <- <-; eexists; (split; [reflexivity|apply W; discriminate]).
    - left. split; [apply NF; intros; discriminate|]. cbn [step] in ST |- *. injection ST as <- <-. eexists. split; [reflexivity|]. apply (beside_restart s); [exact A|apply BS].
    - left. split; [apply NF; intros; discriminate|]. cbn [step] in ST |- *. destruct BS as [K P R]. rewrite <- P. destruct (on_get_profile E g (ca_prof s) i) as [full o] eqn:O.
      assert (SI : Forall silent full) by (unfold on_get_profile in O; destruct (profile_data E g (ca_prof s) (in_version i)); injection O as <- <-; try destruct (ca_prof s); repeat constructor).
      assert (W : beside (apply_effs ops full s) (apply_effs ops full s')).
      { constructor; [rewrite !idkey_effs; exact K|rewrite !prof_effs, P; reflexivity|]. intros id D. unfold pending in *. rewrite !(silent_store ops full _ SI). apply R, D. }
      destruct o; try discriminate; injection ST as <- <-; eexists; (split; [reflexivity|exact W]).
  Qed.
  Lemma unmade_steps : forall s tr s2, steps E g ops s tr s2 -> forall s', ca_at E g ops s -> ca_at E g ops s' -> beside s s' -> exists tr' s2', steps E g ops s' tr' s2' /\ unmade E g id0 tr tr' /\ beside s2 s2'.
  Proof.
    intros s tr s2 H. induction H as [s|s ev es s1 tr s2 ST H IH]; intros s' A A' BS; [exists [], s'; split; [constructor|]; split; [constructor|exact BS]|].
    pose proof (ca_at_step E g S ops _ _ _ _ A ST) as A1. destruct (unmade_step s s' ev es s1 A A' BS ST) as [(NM & s1' & ST' & B1)|(MF & [(NR & B1)|(key & SA & B1)])].
    - destruct (IH s1' A1 (ca_at_step E g S ops _ _ _ _ A' ST') B1) as (tr' & s2' & H' & UM & B2). exists (HStep s' ev es s1' :: tr'), s2'.
      split; [econstructor; eassumption|]. split; [|exact B2]. apply um_keep; [exact NM|split; reflexivity|exact UM].
    - destruct (IH s' A1 A' B1) as (tr' & s2' & H' & UM & B2). exists tr', s2'. split; [exact H'|]. split; [|exact B2]. apply um_drop; [exact MF|exact NR|exact UM].
    - assert (ST' : step E g ops s' (EvRestart key) = Some (restart ops key s', [])) by reflexivity.
      destruct (IH (restart ops key s') A1 (ca_at_step E g S ops _ _ _ _ A' ST') B1) as (tr' & s2' & H' & UM & B2). exists (HStep s' (EvRestart key) [] (restart ops key s') :: tr'), s2'.
      split; [econstructor; eassumption|]. split; [|exact B2]. eapply um_restart; [exact MF|exact SA|reflexivity|exact UM].
  Qed.
End Unmade.
Lemma others_same : forall E g S (ops : store_ops S) s tr s2 id, ca_at E g ops s -> steps E g ops s tr s2 ->
  exists tr' s2', steps E g ops s tr' s2' /\ unmade E g id tr tr' /\ forall id', id' <> id -> pending ops s2' id' = pending ops s2 id'.
Proof.
  intros E g S ops s tr s2 id A H. destruct (unmade_steps E g ops id s tr s2 H s A A) as (tr' & s2' & H' & UM & B); [constructor; reflexivity|].
  exists tr', s2'. split; [exact H'|]. split; [exact UM|]. intros id' D. symmetry. apply B, D.
Qed.
