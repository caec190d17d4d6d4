(** What is left at the CA of a request that is over: the proofs of C132. *)
From Verif Require Import TraceProps ChalProps CaProps CaFacts SimFacts SecrecyFacts GuessFacts IsolationFacts OutsiderFacts.
From Verif Require Export Spec_Trackless.
Local Open Scope N_scope.

Section Trackless.
  Context (E : env) (g : ca_cfg) {S : Type} (ops : store_ops S).
  Record looks_like (s s' : ca_state S) : Prop := { ll_idkey : ca_idkey s = ca_idkey s'; ll_prof : ca_prof s = ca_prof s'; ll_pending : forall id, pending ops s id = pending ops s' id }.
  Lemma looks_sym : forall s s', looks_like s s' -> looks_like s' s.
  Proof. intros s s' [K P R]. constructor; auto. Qed.
  Lemma looks_trans : forall s s' s2, looks_like s s' -> looks_like s' s2 -> looks_like s s2.
  Proof. intros s s' s2 [K P R] [K' P' R']. constructor; [congruence|congruence|]. intros id. rewrite R. apply R'. Qed.
  Lemma looks_out : forall s s' i x, ca_at E g ops s -> ca_at E g ops s' -> looks_like s s' -> on_interest E g ops s' i x = on_interest E g ops s i x.
  Proof.
    intros s s' i x A A' [K P R]. destruct (on_interest_cases E g S ops s i x) as [[NA Q]|(v & AV & Q)].
    { destruct (on_interest_cases E g S ops s' i x) as [[_ Q']|(v' & AV' & _)]; [congruence|destruct (NA _ AV')]. }
    destruct (on_interest_cases E g S ops s' i x) as [[NA' _]|(v' & AV' & Q')]; [destruct (NA' _ AV)|]. pose proof (verb_same g _ _ _ AV AV') as <-. rewrite Q, Q'. clear Q Q'.
    unfold handle. rewrite <- K, <- P. destruct v; try reflexivity.
    - apply new_ext; [auto|]. intros r _ _ _ _. apply (add_same E g ops s s' r A A'). rewrite R. tauto.
    - apply chal_ext; [|exact AV]. intros id _. symmetry. exact (R id).
    - apply new_ext; [auto|]. intros r _ _ _ _. apply (add_same E g ops s s' r A A'). rewrite R. tauto.
  Qed.
  Lemma looks_effs : forall s s' i x n full o, ca_at E g ops s -> ca_at E g ops s' -> looks_like s s' -> on_interest E g ops s i x = (full, o) -> on_interest E g ops s' i x = (full, o) -> o <> UB ->
    looks_like (apply_effs ops (firstn n full) s) (apply_effs ops (firstn n full) s').
  Proof.
    intros s s' i x n full o A A' [K P R] O O' U. constructor; [rewrite !idkey_effs; exact K|rewrite !prof_effs, P; reflexivity|].
    intros id. exact (proj2 (kept E g ops id s s' i x n full o A A' (conj K (R id)) O O' U)).
  Qed.
  Lemma looks_restart : forall s s' key, ca_at E g ops s -> (forall id, pending ops s id = pending ops s' id) -> looks_like (restart ops key s) (restart ops key s').
  Proof. intros s s' key A R. constructor; [reflexivity|reflexivity|]. intros id. exact (proj2 (restart_agree E g ops id s s' key A (R id))). Qed.
  Lemma looks_step : forall s s' ev es s1, ca_at E g ops s -> ca_at E g ops s' -> looks_like s s' -> step E g ops s ev = Some (s1, es) -> exists s1', step E g ops s' ev = Some (s1', es) /\ looks_like s1 s1'.
  Proof.
    intros s s' ev es s1 A A' L ST. destruct ev as [i x|i x n key|key|i].
    - pose proof (looks_out s s' i x A A' L) as Q. cbn [step] in ST |- *. rewrite Q. destruct (on_interest E g ops s i x) as [full o] eqn:O.
      assert (W : o <> UB -> looks_like (apply_effs ops full s) (apply_effs ops full s')) by (intros U; pose proof (looks_effs s s' i x (length full) full o A A' L O Q U) as W; rewrite firstn_all in W; exact W).
      destruct o; try discriminate; injection ST as <- <-; eexists; (split; [reflexivity|apply W; discriminate]).
    - pose proof (looks_out s s' i x A A' L) as Q. cbn [step] in ST |- *. rewrite Q. destruct (on_interest E g ops s i x) as [full o] eqn:O.
      assert (W : o <> UB -> looks_like (restart ops key (apply_effs ops (firstn n full) s)) (restart ops key (apply_effs ops (firstn n full) s'))).
      { intros U. pose proof (looks_effs s s' i x n full o A A' L O Q U) as [_ _ R]. destruct (ends E g ops s A) as (_ & _ & _ & _ & _ & RS).
        constructor; [reflexivity|reflexivity|]. intros id. specialize (R id). unfold pending, restart in *. cbn [ca_store]. destruct RS as [X|X]; rewrite !X; [exact R|reflexivity]. }
      destruct o; try discriminate; injection ST as <- <-; eexists; (split; [reflexivity|apply W; discriminate]).
    - cbn [step] in ST |- *. injection ST as <- <-. eexists. split; [reflexivity|]. apply looks_restart; [exact A|apply L].
    - cbn [step] in ST |- *. destruct L as [K P R]. rewrite <- P. destruct (on_get_profile E g (ca_prof s) i) as [full o] eqn:O.
      assert (SI : Forall silent full) by (unfold on_get_profile in O; destruct (profile_data E g (ca_prof s) (in_version i)); injection O as <- <-; try destruct (ca_prof s); repeat constructor).
      assert (W : looks_like (apply_effs ops full s) (apply_effs ops full s')).
      { constructor; [rewrite !idkey_effs; exact K|rewrite !prof_effs, P; reflexivity|]. intros id. unfold pending in *. rewrite !(silent_store ops full _ SI). apply R. }
      destruct o; try discriminate; injection ST as <- <-; eexists; (split; [reflexivity|exact W]).
  Qed.
  Lemma looks_steps : forall s tr s2, steps E g ops s tr s2 -> forall s', ca_at E g ops s -> ca_at E g ops s' -> looks_like s s' -> exists tr' s2', steps E g ops s' tr' s2' /\ Forall2 same_seen tr tr' /\ looks_like s2 s2'.
  Proof.
    intros s tr s2 H. induction H as [s|s ev es s1 tr s2 ST H IH]; intros s' A A' L; [exists [], s'; split; [constructor|]; split; [constructor|exact L]|].
    destruct (looks_step s s' ev es s1 A A' L ST) as (s1' & ST' & L1). destruct (IH s1' (ca_at_step E g S ops _ _ _ _ A ST) (ca_at_step E g S ops _ _ _ _ A' ST') L1) as (tr' & s2' & H' & F & L2).
    exists (HStep s' ev es s1' :: tr'), s2'. split; [econstructor; eassumption|]. split; [|exact L2]. constructor; [split; reflexivity|exact F].
  Qed.
  (** ** Events about one request leave everything else *)
  Lemma about_one : forall id id' k x, about E g id k x -> about E g id' k x -> id = id'.
  Proof.
    intros id id' k x [N|(rt & peer & c & RT & C & ID)] [N'|(rt' & peer' & c' & RT' & C' & ID')].
    - exact (names_same g id id' x N N').
    - exfalso. destruct RT' as [[_ B]|[_ B]]; pose proof (verb_same g _ _ _ (names_addressed g x id N) B) as Z; discriminate Z.
    - exfalso. destruct RT as [[_ B]|[_ B]]; pose proof (verb_same g _ _ _ (names_addressed g x id' N') B) as Z; discriminate Z.
    - assert (rt' = rt) by (destruct RT as [[-> B]|[-> B]], RT' as [[-> B']|[-> B']]; try reflexivity; pose proof (verb_same g _ _ _ B B') as Z; discriminate Z). subst rt'.
      assert (Q : rt = RT_NEW \/ rt = RT_REVOKE) by (destruct RT as [[-> _]|[-> _]]; auto).
      apply carries_decode in C; [|exact Q]. apply carries_decode in C'; [|exact Q]. rewrite C in C'. injection C' as <- <-. congruence.
  Qed.
  Lemma about_prof : forall id s i x full o, about E g id (ca_idkey s) x -> on_interest E g ops s i x = (full, o) -> ca_prof (apply_effs ops full s) = ca_prof s.
  Proof.
    intros id s i x full o AB O. apply no_profile_apply. destruct (on_interest_cases E g S ops s i x) as [[_ Q]|(v & AV & Q)]; rewrite O in Q; [injection Q as -> _; intros d []|].
    apply (handle_profile E g S ops v s i x full o); [|symmetry; exact Q]. intros ->. destruct AB as [N|(rt & peer & c & [[_ B]|[_ B]] & _)]; [pose proof (verb_same g _ _ _ (names_addressed g x id N) AV) as Z|pose proof (verb_same g _ _ _ B AV) as Z|pose proof (verb_same g _ _ _ B AV) as Z]; discriminate Z.
  Qed.
  Lemma about_step : forall id s ev es s1, ca_at E g ops s -> step E g ops s ev = Some (s1, es) -> meant_for E g id (HStep s ev es s1) -> (forall key, ~ starts_again key ev) ->
    ca_idkey s1 = ca_idkey s /\ ca_prof s1 = ca_prof s /\ forall id', id' <> id -> pending ops s1 id' = pending ops s id'.
  Proof.
    intros id s ev es s1 A ST (i & x & [EV|(n & key & EV)] & AB) NR; cbn [h_ev h_pre] in *; subst ev; [|destruct (NR key); right; eauto].
    change (about E g id (ca_idkey s) x) in AB. cbn [step] in ST. destruct (on_interest E g ops s i x) as [full o] eqn:O. pose proof (about_prof id s i x full o AB O) as P.
    assert (W : o <> UB -> forall id', id' <> id -> pending ops (apply_effs ops full s) id' = pending ops s id').
    { intros U id' D. pose proof (left_alone E g ops id' s i x (length full) full o A O U) as W. rewrite firstn_all in W. apply W. intros AB'. apply D. symmetry. exact (about_one id id' _ x AB AB'). }
    destruct o; try discriminate; injection ST as <- <-; (split; [apply idkey_effs|]; split; [exact P|apply W; discriminate]).
  Qed.
  Lemma about_steps : forall id s tr s2, steps E g ops s tr s2 -> ca_at E g ops s -> all_about E g id tr -> ca_idkey s2 = ca_idkey s /\ ca_prof s2 = ca_prof s /\ forall id', id' <> id -> pending ops s2 id' = pending ops s id'.
  Proof.
    intros id s tr s2 H. induction H as [s|s ev es s1 tr s2 ST H IH]; intros A AA; [auto|].
    destruct (AA _ (or_introl eq_refl)) as [MF NR]. destruct (about_step id s ev es s1 A ST MF NR) as (K & P & R).
    destruct (IH (ca_at_step E g S ops _ _ _ _ A ST) (fun st IN => AA st (or_intror IN))) as (K2 & P2 & R2).
    split; [congruence|]. split; [congruence|]. intros id' D. rewrite (R2 id' D). exact (R id' D).
  Qed.
End Trackless.
Lemma no_trace : forall E g S (ops : store_ops S) s tr s1 id, ca_at E g ops s -> steps E g ops s tr s1 -> all_about E g id tr -> pending ops s1 id = pending ops s id ->
  (forall tr1 s2, steps E g ops s1 tr1 s2 -> exists tr2 s2', steps E g ops s tr2 s2' /\ Forall2 same_seen tr1 tr2) /\
  (forall tr2 s2, steps E g ops s tr2 s2 -> exists tr1 s2', steps E g ops s1 tr1 s2' /\ Forall2 same_seen tr2 tr1).
Proof.
  intros E g S ops s tr s1 id A H AA P. destruct (about_steps E g ops id s tr s1 H A AA) as (K & PR & R).
  assert (A1 : ca_at E g ops s1) by (clear - A H; induction H as [s|s ev es s1 tr s2 ST H IH]; [exact A|exact (IH (ca_at_step E g S ops _ _ _ _ A ST))]).
  assert (L : looks_like ops s1 s).
  { constructor; [exact K|exact PR|]. intros id'. destruct (bytes_eqb id' id) eqn:B; [apply bytes_eqb_eq in B; subst; exact P|]. apply R. intros ->. rewrite bytes_eqb_refl in B. discriminate. }
  split.
  - intros tr1 s2 H1. destruct (looks_steps E g ops s1 tr1 s2 H1 s A1 A L) as (tr2 & s2' & H2 & F & _). eauto.
  - intros tr2 s2 H2. destruct (looks_steps E g ops s tr2 s2 H2 s1 A A1 (looks_sym ops _ _ L)) as (tr1 & s2' & H1 & F & _). eauto.
Qed.
