(** The registration of a server's prefix. *)
From Verif Require Import ProcessFacts NameFacts.
From Verif Require Export Spec_Registration.
From Coq Require Import Lia.
Local Open Scope N_scope.

Lemma gsteps_app : forall S E g (ops : store_ops S) repo a b s s', gsteps E g ops repo s (a ++ b) s' <-> exists m, gsteps E g ops repo s a m /\ gsteps E g ops repo m b s'.
Proof.
  induction a as [|st a IH]; intros b s s'; cbn [app].
  - split; [intros H; exists s; split; [constructor|exact H]|]. intros (m & H1 & H2). inversion H1; subst. exact H2.
  - split.
    + intros H. inversion H as [|s0 ev os s1 tr s2 ST H4]; subst. apply IH in H4 as (m & H4 & H5). exists m. split; [econstructor; eassumption|exact H5].
    + intros (m & H1 & H2). inversion H1; subst. econstructor; [eassumption|]. apply IH. exists m. auto.
Qed.

(** What one event can be. *)
Inductive rcase {S} (E : env) (g : ca_cfg) (ops : store_ops S) (repo : bool) (r : reg) (p : proc S) : revent -> reg -> proc S -> list out -> Prop :=
| rc_answer : forall ok, r = Waiting -> rcase E g ops repo r p (RvAnswer ok) (if ok then Registered else Refused) p []
| rc_unheard : forall ca d cache i x, r <> Registered -> p = Running ca d cache -> rcase E g ops repo r p (RvEvent (PvInterest i x)) r p (filter_outs E g repo d cache x)
| rc_killed : forall ca d cache i x n, r <> Registered -> p = Running ca d cache -> rcase E g ops repo r p (RvEvent (PvKill i x n)) Waiting (Down (ca_store ca)) (filter_outs E g repo d cache x)
| rc_start : forall key i p' os, pstep E g ops repo p (PvStart key i) = Some (p', os) -> rcase E g ops repo r p (RvEvent (PvStart key i)) Waiting p' os
| rc_stop : forall p' os, pstep E g ops repo p PvStop = Some (p', os) -> rcase E g ops repo r p (RvEvent PvStop) r p' os
| rc_heard : forall ev p' os, r = Registered -> (forall key i, ev <> PvStart key i) -> pstep E g ops repo p ev = Some (p', os) -> rcase E g ops repo r p (RvEvent ev) r p' os.
Lemma rstep_cases : forall S E g (ops : store_ops S) repo r p ev r' p' os, rstep E g ops repo (r, p) ev = Some ((r', p'), os) -> rcase E g ops repo r p ev r' p' os.
Proof.
  intros S E g ops repo r p ev r' p' os H. unfold rstep in H. destruct ev as [ev|ok].
  - destruct p as [st|ca d cache].
    + destruct ev as [key i|i x|i x n|]; try (destruct r; discriminate). destruct (pstep E g ops repo (Down st) (PvStart key i)) as [[q os']|] eqn:Q; [|destruct r; discriminate].
      assert (H' : Some (Waiting, q, os') = Some (r', p', os)) by (destruct r; exact H). injection H' as <- <- <-. apply rc_start. exact Q.
    + destruct r.
      * destruct ev as [key i|i x|i x n|]; [discriminate| | |].
        -- injection H as <- <- <-. eapply rc_unheard; [discriminate|reflexivity].
        -- injection H as <- <- <-. eapply rc_killed; [discriminate|reflexivity].
        -- destruct (pstep _ _ _ _ _ _) as [[q os']|] eqn:Q; [|discriminate]. injection H as <- <- <-. apply rc_stop. exact Q.
      * destruct (pstep E g ops repo (Running ca d cache) ev) as [[q os']|] eqn:Q; [|discriminate]. destruct ev as [key i|i x|i x n|]; [discriminate Q| | |]; injection H as <- <- <-; (apply rc_heard; [reflexivity|discriminate|exact Q]).
      * destruct ev as [key i|i x|i x n|]; [discriminate| | |].
        -- injection H as <- <- <-. eapply rc_unheard; [discriminate|reflexivity].
        -- injection H as <- <- <-. eapply rc_killed; [discriminate|reflexivity].
        -- destruct (pstep _ _ _ _ _ _) as [[q os']|] eqn:Q; [|discriminate]. injection H as <- <- <-. apply rc_stop. exact Q.
  - destruct r; [|destruct p; discriminate..]. destruct p as [st|ca d cache]; [discriminate|]. injection H as <- <- <-. apply rc_answer. reflexivity.
Qed.
Lemma start_quiet : forall S E g (ops : store_ops S) repo p key i p' os, pstep E g ops repo p (PvStart key i) = Some (p', os) -> module_packets os = [].
Proof.
  intros S E g ops repo p key i p' os H. destruct p as [st|ca d cache]; [|discriminate]. cbn [pstep] in H. destruct (on_get_profile _ _ _ _) as [es [d| | |]]; [|injection H as _ <-; reflexivity|discriminate..].
  injection H as _ <-. destruct repo; reflexivity.
Qed.
Lemma stop_quiet : forall S E g (ops : store_ops S) repo p p' os, pstep E g ops repo p PvStop = Some (p', os) -> os = [] /\ exists st, p' = Down st.
Proof. intros S E g ops repo p p' os H. destruct p as [st|ca d cache]; [discriminate|]. injection H as <- <-. eauto. Qed.

Lemma reg_life : forall E g S (ops : store_ops S) repo tr s, reg_history E g ops repo tr s -> exists tr', server_history E g ops repo tr' (snd s) /\ heard tr tr'.
Proof.
  intros E g S ops repo tr s [LC NF B H]. assert (G : exists tr', psteps E g ops repo (Down (s_empty ops)) tr' (snd s) /\ heard tr tr'); [|destruct G as (tr' & G1 & G2); exists tr'; split; [constructor; assumption|exact G2]].
  clear LC NF B. change (Down (s_empty ops)) with (snd (Waiting, Down (s_empty ops))). induction H as [s|[r p] ev os [r1 p1] tr s2 ST H IH]; [exists []; split; constructor|]. destruct IH as (tr' & P & L). cbn [snd] in *.
  apply rstep_cases in ST. inversion ST as [ok Q1 Q2 Q3 Q4 Q5|ca d cache i x Q1 Q2 Q3 Q4 Q5 Q6|ca d cache i x n Q1 Q2 Q3 Q4 Q5 Q6|key i p' os' Q1 Q2 Q3 Q4 Q5|p' os' Q1 Q2 Q3 Q4 Q5|ev' p' os' Q0 Q1 Q2 Q3 Q4 Q5 Q6]; subst.
  - exists tr'. split; [exact P|constructor; exact L].
  - exists tr'. split; [exact P|]. apply hd_unheard; [exact Q1|apply filter_module|exact L].
  - eexists. split; [eapply (psteps_cons E g ops repo _ PvStop); [reflexivity|exact P]|]. apply hd_killed; [exact Q1|apply filter_module|exact L].
  - eexists. split; [econstructor; eassumption|]. constructor. exact L.
  - eexists. split; [econstructor; eassumption|]. constructor. exact L.
  - eexists. split; [econstructor; eassumption|]. constructor. exact L.
Qed.

(** Registered means an answer since the last start. *)
Lemma registered_since : forall E g S (ops : store_ops S) repo tr s0 s, gsteps E g ops repo s0 tr s -> fst s = Registered ->
  (fst s0 = Registered /\ no_start tr) \/ exists a st b, tr = a ++ st :: b /\ g_ev st = RvAnswer true /\ no_start b.
Proof.
  intros E g S ops repo tr s0 s H R. induction H as [s|[r p] ev os [r1 p1] tr s2 ST H IH]; [left; split; [exact R|constructor]|]. specialize (IH R). destruct IH as [[IH1 IH2]|(a & st & b & -> & Q1 & Q2)].
  - cbn [fst] in IH1. subst r1. apply rstep_cases in ST. inversion ST as [ok Q1 Q2 Q3 Q4 Q5|ca d cache i x Q1 Q2 Q3 Q4 Q5 Q6|ca d cache i x n Q1 Q2 Q3 Q4 Q5 Q6|key i p' os' Q1 Q2 Q3 Q4 Q5|p' os' Q1 Q2 Q3 Q4 Q5|ev' p' os' Q0 Q1 Q2 Q3 Q4 Q5 Q6]; subst; try congruence.
    + right. exists []. eexists. exists tr. split; [reflexivity|]. split; [|exact IH2]. destruct ok; [reflexivity|discriminate].
    + left. split; [reflexivity|]. constructor; [discriminate|exact IH2].
    + left. split; [reflexivity|]. constructor; [|exact IH2]. cbn [g_ev]. intros key i Q. injection Q as Q. exact (Q1 key i Q).
  - right. exists (GStep (r, p) ev os (r1, p1) :: a), st, b. auto.
Qed.
Lemma answers_registered : forall E g S (ops : store_ops S) repo tr st s, reg_history E g ops repo (tr ++ [st]) s -> module_packets (g_outs st) <> [] ->
  exists a st0 b, tr = a ++ st0 :: b /\ g_ev st0 = RvAnswer true /\ no_start b.
Proof.
  intros E g S ops repo tr st s [_ _ _ H] M. apply gsteps_app in H as (m & H1 & H2). inversion H2 as [|s' ev os s1 tr' s2 ST H3]; subst. cbn [g_outs] in M. destruct m as [r p], s1 as [r1 p1].
  assert (R : r = Registered).
  { apply rstep_cases in ST. inversion ST as [ok Q1 Q2 Q3 Q4 Q5|ca d cache i x Q1 Q2 Q3 Q4 Q5 Q6|ca d cache i x n Q1 Q2 Q3 Q4 Q5 Q6|key i p' os' Q1 Q2 Q3 Q4 Q5|p' os' Q1 Q2 Q3 Q4 Q5|ev' p' os' Q0 Q1 Q2 Q3 Q4 Q5 Q6]; subst; try reflexivity; exfalso; apply M.
    - reflexivity.
    - apply filter_module.
    - apply filter_module.
    - exact (start_quiet _ _ _ _ _ _ _ _ _ _ Q1).
    - rewrite (proj1 (stop_quiet _ _ _ _ _ _ _ _ Q1)). reflexivity. }
  destruct (registered_since E g S ops repo tr _ (r, p) H1 R) as [[Q _]|Q]; [discriminate|exact Q].
Qed.
Lemma serves_registered : forall E g S (ops : store_ops S) repo a st b s ev, reg_history E g ops repo (a ++ st :: b) s -> g_ev st = RvAnswer true -> no_start b -> (forall key i, ev <> PvStart key i) ->
  rstep E g ops repo s (RvEvent ev) = match pstep E g ops repo (snd s) ev with Some (p, os) => Some ((Registered, p), os) | None => None end.
Proof.
  intros E g S ops repo a st b s ev [_ _ _ H] Q NS NV. apply gsteps_app in H as (m & _ & H). inversion H as [|s' ev' os s1 tr' s2 ST H3]; subst. cbn [g_ev] in Q. subst ev'.
  assert (R1 : fst s1 = Registered). { destruct m as [r p], s1 as [r1 p1]. apply rstep_cases in ST. inversion ST; subst; reflexivity. }
  assert (R : fst s = Registered).
  { clear H ST. induction H3 as [s|[r p] ev0 os0 [r1 p1] tr s2 ST H IH]; [exact R1|]. inversion NS as [|st0 l NS1 NS2]; subst. apply IH; [exact NS2|]. cbn [fst] in *. subst r. cbn [g_ev] in NS1.
    apply rstep_cases in ST. inversion ST as [ok Q1 Q2 Q3 Q4 Q5|ca d cache i x Q1 Q2 Q3 Q4 Q5 Q6|ca d cache i x n Q1 Q2 Q3 Q4 Q5 Q6|key i p' os' Q1 Q2 Q3 Q4 Q5|p' os' Q1 Q2 Q3 Q4 Q5|ev' p' os' Q0 Q1 Q2 Q3 Q4 Q5 Q6]; subst; first [congruence | exfalso; exact (NS1 _ _ eq_refl)]. }
  destruct s as [r p]. cbn [fst snd] in *. subst r. unfold rstep. destruct p as [st0|ca d cache]; destruct ev as [key i|i x|i x n|]; try reflexivity; exfalso; exact (NV key i eq_refl).
Qed.
Lemma refused_silent : forall E g S (ops : store_ops S) repo a s0 os0 s1 w s, reg_history E g ops repo (a ++ GStep s0 (RvAnswer false) os0 s1 :: w) s -> no_start w ->
  Forall (fun st => module_packets (g_outs st) = [] /\ (repo = true -> g_outs st = []) /\ forall i x, g_ev st = RvEvent (PvInterest i x) -> g_post st = s1) w /\
  (s = s1 \/ exists p, snd s = Down p).
Proof.
  intros E g S ops repo a s0 os0 s1 w s [_ _ _ H] NS. apply gsteps_app in H as (m & _ & H). inversion H as [|s' ev' os s1' tr' s2 ST H3]; subst. clear H.
  assert (R1 : exists ca d cache, s1 = (Refused, Running ca d cache)).
  { destruct s0 as [r p]. unfold rstep in ST. destruct r; [|destruct p; discriminate..]. destruct p as [st|ca d cache]; [discriminate|]. injection ST as <- _. eauto. }
  destruct R1 as (ca & d & cache & ->). clear ST.
  assert (G : forall s' , gsteps E g ops repo s' w s -> (s' = (Refused, Running ca d cache) \/ exists p, snd s' = Down p) ->
    Forall (fun st => module_packets (g_outs st) = [] /\ (repo = true -> g_outs st = []) /\ forall i x, g_ev st = RvEvent (PvInterest i x) -> g_post st = (Refused, Running ca d cache)) w /\ (s = (Refused, Running ca d cache) \/ exists p, snd s = Down p)); [|exact (G _ H3 (or_introl eq_refl))].
  clear H3. intros s' H. induction H as [s|[r p] ev os [r1 p1] tr s2 ST H IH]; intros C; [split; [constructor|exact C]|]. inversion NS as [|st0 l NS1 NS2]; subst. cbn [g_ev] in NS1.
  assert (X : (module_packets os = [] /\ (repo = true -> os = []) /\ forall i x, ev = RvEvent (PvInterest i x) -> (r1, p1) = (Refused, Running ca d cache)) /\ ((r1, p1) = (Refused, Running ca d cache) \/ exists q, p1 = Down q)).
  { apply rstep_cases in ST. destruct C as [C|(q & C)].
    - injection C as -> ->. inversion ST as [ok Q1 Q2 Q3 Q4 Q5|ca0 d0 cache0 i x Q1 Q2 Q3 Q4 Q5 Q6|ca0 d0 cache0 i x n Q1 Q2 Q3 Q4 Q5 Q6|key i p' os' Q1 Q2 Q3 Q4 Q5|p' os' Q1 Q2 Q3 Q4 Q5|ev' p' os' Q0 Q1 Q2 Q3 Q4 Q5 Q6]; subst; try discriminate.
      + injection Q2 as <- <- <-. split; [|left; reflexivity]. split; [apply filter_module|]. split; [intros ->; reflexivity|reflexivity].
      + split; [|right; eauto]. split; [apply filter_module|]. split; [intros ->; reflexivity|discriminate].
      + apply stop_quiet in Q1 as (-> & q & ->). split; [|right; eauto]. split; [reflexivity|]. split; [reflexivity|discriminate].
    - cbn [snd] in C. subst p. inversion ST as [ok Q1 Q2 Q3 Q4 Q5|ca0 d0 cache0 i x Q1 Q2 Q3 Q4 Q5 Q6|ca0 d0 cache0 i x n Q1 Q2 Q3 Q4 Q5 Q6|key i p' os' Q1 Q2 Q3 Q4 Q5|p' os' Q1 Q2 Q3 Q4 Q5|ev' p' os' Q0 Q1 Q2 Q3 Q4 Q5 Q6]; subst; try discriminate.
      + split; [|right; eauto]. split; [reflexivity|]. split; [reflexivity|discriminate].
      + exfalso. exact (NS1 _ _ eq_refl).
      + destruct ev' as [key i|i x|i x n|]; try discriminate Q2. exfalso. exact (Q1 key i eq_refl). }
  destruct X as [X1 X2]. destruct (IH NS2 X2) as [F L]. split; [|exact L]. constructor; [exact X1|exact F].
Qed.

(** Before the registration the process has issued nothing. *)
Lemma unregistered_fresh : forall E g S (ops : store_ops S) repo tr s0 s, gsteps E g ops repo s0 tr s ->
  (fst s0 <> Registered -> forall ca d cache, snd s0 = Running ca d cache -> cache = []) -> fst s <> Registered -> forall ca d cache, snd s = Running ca d cache -> cache = [].
Proof.
  intros E g S ops repo tr s0 s H. induction H as [s|[r p] ev os [r1 p1] tr s2 ST H IH]; intros C; [exact C|]. apply IH. clear IH H. cbn [fst snd] in *. intros R ca d cache Q.
  apply rstep_cases in ST. inversion ST as [ok Q1 Q2 Q3 Q4 Q5|ca0 d0 cache0 i x Q1 Q2 Q3 Q4 Q5 Q6|ca0 d0 cache0 i x n Q1 Q2 Q3 Q4 Q5 Q6|key i p' os' Q1 Q2 Q3 Q4 Q5|p' os' Q1 Q2 Q3 Q4 Q5|ev' p' os' Q0 Q1 Q2 Q3 Q4 Q5 Q6]; subst.
  - apply (C ltac:(discriminate) ca d). reflexivity.
  - apply (C Q1 ca d). congruence.
  - discriminate.
  - destruct p as [st|ca1 d1 cache1]; [|discriminate]. cbn [pstep] in Q1. destruct (on_get_profile _ _ _ _) as [es [d2| | |]]; try discriminate. injection Q1 as _ _ Q1 _. symmetry. exact Q1.
  - apply stop_quiet in Q1 as (_ & st & Q1). discriminate.
  - contradiction.
Qed.
Lemma unregistered_own : forall E g S (ops : store_ops S) repo tr r ca d cache i x, reg_history E g ops repo tr (r, Running ca d cache) -> r <> Registered ->
  exists os, rstep E g ops repo (r, Running ca d cache) (RvEvent (PvInterest i x)) = Some ((r, Running ca d cache), os) /\
    (repo = false /\ begins (p_prefix (cfp g)) (i_name x) /\ begins (i_name x) (d_name d) /\ os = [OServed (SProfile d)] \/
     ~ (repo = false /\ begins (p_prefix (cfp g)) (i_name x) /\ begins (i_name x) (d_name d)) /\ os = []).
Proof.
  intros E g S ops repo tr r ca d cache i x [_ _ _ H] R.
  assert (C : cache = []). { apply (unregistered_fresh _ _ _ _ _ _ _ _ H) with (ca := ca) (d := d); [intros _ ca0 d0 cache0 Q; discriminate|exact R|reflexivity]. } subst cache.
  exists (filter_outs E g repo d [] x). split; [unfold rstep; destruct r; [reflexivity|contradiction|reflexivity]|].
  unfold filter_outs, serve, begins. destruct repo; [right; split; [intros (Q & _); discriminate|reflexivity]|]. destruct (is_prefix (p_prefix (cfp g)) (i_name x)) eqn:P1.
  - destruct (is_prefix (i_name x) (d_name d)) eqn:P2.
    + left. split; [reflexivity|]. split; [apply is_prefix_iff, P1|]. split; [apply is_prefix_iff, P2|reflexivity].
    + right. split; [|reflexivity]. intros (_ & _ & Q). apply is_prefix_iff in Q. congruence.
  - right. split; [|reflexivity]. intros (_ & Q & _). apply is_prefix_iff in Q. congruence.
Qed.
