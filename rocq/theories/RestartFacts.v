(** Restarts of the CA while requests are pending: the proofs of C136. *)
From Verif Require Import TraceProps ChalProps CaProps CaFacts AtomicFacts.
From Verif Require Export Spec_Restart.
Local Open Scope N_scope.

Lemma apply_store : forall S (ops : store_ops S) es s s', ca_store s = ca_store s' -> ca_store (apply_effs ops es s) = ca_store (apply_effs ops es s').
Proof.
  intros S ops es. unfold apply_effs. induction es as [|e es IH]; intros s s' Q; [exact Q|]. cbn [fold_left]. apply IH.
  destruct e; cbn [apply_eff]; try exact Q; try (rewrite Q; reflexivity); [rewrite Q; destruct (s_add ops (ca_store s') r)|rewrite Q; destruct (s_update ops (ca_store s') r)]; try exact Q; reflexivity.
Qed.
Lemma keyless_interest : forall E g S (ops : store_ops S) (s s' : ca_state S) i x, keyless g (EvInterest i x) -> ca_store s = ca_store s' ->
  on_interest E g ops s i x = on_interest E g ops s' i x.
Proof.
  intros E g S ops s s' i x [K|(i' & x' & Q & NN & NR & NI)] ST; [discriminate|]. injection Q as <- <-.
  destruct (on_interest_cases E g S ops s i x) as [[N O]|(v & A & O)]; rewrite O.
  - destruct (on_interest_cases E g S ops s' i x) as [[_ O']|(v & A & _)]; [rewrite O'; reflexivity|destruct (N v A)].
  - rewrite (on_interest_at E g S ops v s' i x A). destruct v; cbn [handle]; try contradiction; [reflexivity|rewrite ST; reflexivity].
Qed.
Lemma keyless_step : forall E g S (ops : store_ops S) (s s' : ca_state S) ev s1 es, keyless g ev -> is_restart ev = false -> ca_store s = ca_store s' ->
  step E g ops s ev = Some (s1, es) -> exists s1', step E g ops s' ev = Some (s1', es) /\ ca_store s1 = ca_store s1'.
Proof.
  intros E g S ops s s' ev s1 es K NR Q H. destruct K as [K|(i & x & -> & K)]; [congruence|].
  pose proof (keyless_interest E g S ops s s' i x (or_intror (ex_intro _ i (ex_intro _ x (conj eq_refl K)))) Q) as O. cbn [step] in *. rewrite <- O.
  destruct (on_interest E g ops s i x) as [f [u| | |]]; try discriminate; injection H as <- <-; eexists; (split; [reflexivity|apply apply_store, Q]).
Qed.

(** Any other run with the same Interests, from any state with the same database. *)
Lemma restarts_any : forall E g (s : ca_state db) tr s2, steps E g (db_ops E) s tr s2 -> Forall (fun st => keyless g (h_ev st)) tr ->
  forall evs' s', but_restarts evs' = but_restarts (map h_ev tr) -> ca_store s = ca_store s' ->
  exists tr' s2', steps E g (db_ops E) s' tr' s2' /\ map h_ev tr' = evs' /\ all_served tr' = all_served tr /\ ca_store s2 = ca_store s2'.
Proof.
  intros E g s tr s2 H. induction H as [s|s ev es s1 tr s2 ST H IH]; intros K.
  - induction evs' as [|ev' evs' IH']; intros s' B Q; [exists [], s'; split; [constructor|]; auto|].
    destruct ev' as [?|?|key|?]; cbn in B; try discriminate.
    destruct (IH' (restart (db_ops E) key s') B Q) as (tr' & s2' & H' & M & V & Q'). 
    exists (HStep s' (EvRestart key) [] (restart (db_ops E) key s') :: tr'), s2'. split; [econstructor; [reflexivity|exact H']|]. split; [cbn [map h_ev]; rewrite M; reflexivity|]. split; [exact V|exact Q'].
  - inversion K as [|? ? K1 K2]; subst. cbn [h_ev] in K1. destruct (is_restart ev) eqn:R.
    + intros evs' s' B Q. destruct ev as [?|?|key|?]; try discriminate. cbn [step] in ST. injection ST as <- <-. exact (IH K2 evs' s' B Q).
    + unfold but_restarts. cbn [map h_ev filter]. rewrite R. cbn [negb]. induction evs' as [|ev' evs' IH']; intros s' B Q; [discriminate|].
      destruct (is_restart ev') eqn:R'; cbn [filter] in B; rewrite R' in B; cbn [negb] in B.
      * destruct ev' as [?|?|key|?]; try discriminate.
        destruct (IH' (restart (db_ops E) key s') B Q) as (tr' & s2' & H' & M & V & Q').
        exists (HStep s' (EvRestart key) [] (restart (db_ops E) key s') :: tr'), s2'. split; [econstructor; [reflexivity|exact H']|]. split; [cbn [map h_ev]; rewrite M; reflexivity|]. split; [exact V|exact Q'].
      * injection B as -> B. destruct (keyless_step E g db (db_ops E) s s' ev s1 es K1 R Q ST) as (s1' & ST' & Q1).
        destruct (IH K2 evs' s1' B Q1) as (tr' & s2' & H' & M & V & Q').
        exists (HStep s' ev es s1' :: tr'), s2'. split; [econstructor; eassumption|]. split; [cbn [map h_ev]; rewrite M; reflexivity|]. split; [|exact Q'].
        unfold all_served in *. cbn [filter h_ev]. rewrite R. cbn [negb map h_ev h_effs]. rewrite V. reflexivity.
Qed.
Lemma restarts_unnoticed : forall E g (s : ca_state db) tr s2 evs', steps E g (db_ops E) s tr s2 -> Forall (fun st => keyless g (h_ev st)) tr ->
  but_restarts evs' = but_restarts (map h_ev tr) ->
  exists tr' s2', steps E g (db_ops E) s tr' s2' /\ map h_ev tr' = evs' /\ all_served tr' = all_served tr /\ (forall id, pending (db_ops E) s2' id = pending (db_ops E) s2 id).
Proof.
  intros E g s tr s2 evs' H K B. destruct (restarts_any E g s tr s2 H K evs' s B eq_refl) as (tr' & s2' & H' & M & V & Q).
  exists tr', s2'. split; [exact H'|]. split; [exact M|]. split; [exact V|]. intros id. unfold pending. rewrite Q. reflexivity.
Qed.
Lemma crash_again : forall E g s i x n key s1 es i' s2 full, keyless g (EvInterest i x) -> step E g (db_ops E) s (EvCrash i x n key) = Some (s1, es) -> nothing_stored es ->
  step E g (db_ops E) s (EvInterest i' x) = Some (s2, full) ->
  exists s3, step E g (db_ops E) s1 (EvInterest i' x) = Some (s3, full) /\ forall id, pending (db_ops E) s3 id = pending (db_ops E) s2 id.
Proof.
  intros E g s i x n key s1 es i' s2 full K C NS H. apply crash_inv in C as (f & o & _ & _ & ->).
  assert (K' : keyless g (EvInterest i' x)) by (destruct K as [K|(j & y & Q & K)]; [discriminate|]; injection Q as <- <-; right; exists i', x; auto).
  assert (Q : ca_store s = ca_store (restart (db_ops E) key (apply_effs (db_ops E) es s))).
  { unfold restart. cbn [ca_store]. change (s_restart (db_ops E)) with (fun d : db => d). cbv beta. symmetry. apply no_write_store.
    apply Forall_forall. intros e IN. destruct NS as (NA & NU & ND). destruct e; try exact I; [exact (NA _ IN)|exact (NU _ IN)|exact (ND _ IN)]. }
  destruct (keyless_step E g db (db_ops E) s _ _ s2 full K' eq_refl Q H) as (s3 & H3 & Q3). exists s3. split; [exact H3|]. intros id. unfold pending. rewrite Q3. reflexivity.
Qed.
