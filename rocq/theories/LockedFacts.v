(** Proofs about a CA whose database cannot always be written. *)
From Coq Require Import Lia.
From Verif Require Export Spec_Locked TraceProps OutcomeFacts.
Local Open Scope N_scope.

Lemma locked_apply : forall S (ops : store_ops S) rd es s, ca_store (apply_effs (locked ops rd) es s) = ca_store s /\ ca_idkey (apply_effs (locked ops rd) es s) = ca_idkey s /\
  ((forall d, ~ In (EProfile d) es) -> apply_effs (locked ops rd) es s = s).
Proof.
  intros S ops rd es. unfold apply_effs. induction es as [|e es IH]; intros s; [auto|]. cbn [fold_left]. destruct (IH (apply_eff (locked ops rd) e s)) as (A & B & C). rewrite A, B.
  split; [destruct e; reflexivity|]. split; [destruct e; reflexivity|]. intros N. rewrite C by (intros d I; apply (N d); right; exact I).
  destruct e; try reflexivity; [destruct s; reflexivity|]. destruct (N d). left. reflexivity.
Qed.
Lemma new_locked : forall E g add_ok idkey i rt x, on_new E g (fun _ => false) idkey i rt x = on_new E g add_ok idkey i rt x \/
  exists r d info, short info /\ on_new E g add_ok idkey i rt x = ([EAdd r; EPut d; ECallback r], Ok tt) /\
    on_new E g (fun _ => false) idkey i rt x = ([EPut (error_data E g (i_name x) INVALID_PARAMETER info)], Ok tt).
Proof.
  intros E g add_ok idkey i rt x. unfold on_new.
  repeat match goal with
  | |- ?a = ?a \/ _ => left; reflexivity
  | |- context [negb (add_ok ?r)] => destruct (add_ok r); cbn [negb]; [right; do 3 eexists; split; [|split; reflexivity]; vm_compute; discriminate|left; reflexivity]
  | |- context [match ?y with _ => _ end] => destruct y
  end.
Qed.
Lemma update_split : forall es, (existsb is_update es = false /\ forall r, ~ In (EUpdate r) es) \/
  (existsb is_update es = true /\ exists a r b, es = a ++ EUpdate r :: b /\ before_update es = a).
Proof.
  induction es as [|e es IH]; [left; split; [reflexivity|intros r []]|]. cbn [existsb before_update]. destruct e; cbn [is_update orb];
  try (destruct IH as [[A B]|(A & a & r0 & b & C & D)]; [left; split; [exact A|intros r1 [H|H]; [discriminate|exact (B _ H)]]|right; split; [exact A|]; rewrite C, <- C, D; eexists (_ :: a), r0, b; split; [rewrite C; reflexivity|reflexivity]]).
  right. split; [reflexivity|]. exists [], r, es. auto.
Qed.
(** What the handlers do, compared with a database that can be written. *)
Lemma locked_cases : forall E g S (ops : store_ops S) rd s i x es o, on_interest E g ops s i x = (es, o) ->
  (on_interest_locked E g ops rd s i x = (es, o) /\ (forall r, ~ In (EAdd r) es) /\ (forall r, ~ In (EUpdate r) es)) \/
  (exists r d info, short info /\ es = [EAdd r; EPut d; ECallback r] /\ on_interest_locked E g ops rd s i x = ([EPut (error_data E g (i_name x) INVALID_PARAMETER info)], Ok tt)) \/
  (exists a r d, es = a ++ [EUpdate r; EPut d; ECallback r] /\ Forall is_mail a /\ on_interest_locked E g ops rd s i x = (a, Exn)) \/
  (rd = false /\ addressed g VChallenge (i_name x) /\ exists info, short info /\ on_interest_locked E g ops rd s i x = ([EPut (error_data E g (i_name x) INVALID_PARAMETER info)], Ok tt)).
Proof.
  intros E g S ops rd s i x es o H. unfold on_interest_locked.
  destruct (on_interest_cases E g S ops s i x) as [[N O]|(v & AD & O)]; rewrite O in H.
  { destruct (on_interest_cases E g S (locked ops rd) s i x) as [[_ O2]|(v & AD & _)]; [|destruct (N v AD)]. rewrite O2. injection H as <- <-. left. split; [reflexivity|]. split; intros r []. }
  rewrite (on_interest_at E g S (locked ops rd) v s i x AD).
  assert (NEWC : forall rt, rt = RT_NEW \/ rt = RT_REVOKE ->
    on_new E g (fun r => match s_add ops (ca_store s) r with Some _ => true | None => false end) (ca_idkey s) i rt x = (es, o) ->
    (let (es', o') := on_new E g (fun _ => false) (ca_idkey s) i rt x in if existsb is_update es' then (before_update es', Exn) else (es', o')) = (es, o) /\ (forall r, ~ In (EAdd r) es) /\ (forall r, ~ In (EUpdate r) es) \/
    exists r d info, short info /\ es = [EAdd r; EPut d; ECallback r] /\ (let (es', o') := on_new E g (fun _ => false) (ca_idkey s) i rt x in if existsb is_update es' then (before_update es', Exn) else (es', o')) = ([EPut (error_data E g (i_name x) INVALID_PARAMETER info)], Ok tt)).
  { intros rt RT Q. destruct (new_locked E g (fun r => match s_add ops (ca_store s) r with Some _ => true | None => false end) (ca_idkey s) i rt x) as [L|(r & d & info & SH & A & L)].
    - assert (Q' : on_new E g (fun _ => false) (ca_idkey s) i rt x = (es, o)) by congruence. rewrite Q'. left.
      apply on_new_cases in Q' as [(peer & c & _ & F & _)|[(code & info & -> & -> & _)|(_ & -> & _)]]; [discriminate F|..|exact RT]; (split; [reflexivity|]); split; intros r I; cbn [In] in I; repeat (destruct I as [I|I]; [discriminate|]); destruct I.
    - rewrite Q in A. injection A as -> ->. rewrite L. right. exists r, d, info. auto. }
  destruct v; cbn [handle] in H |- *.
  - left. assert (Q : (forall r, ~ In (EAdd r) es) /\ forall r, ~ In (EUpdate r) es).
    { unfold on_discovery, on_get_profile in H. destruct (profile_data E g (ca_prof s) (in_version i)); injection H as <- <-; try (split; intros r []; fail).
      destruct (ca_prof s); split; intros r I; cbn [app In] in I; repeat (destruct I as [I|I]; [discriminate|]); destruct I. }
    rewrite H. destruct (update_split es) as [[-> _]|(_ & a & r & b & -> & _)]; [auto|]. destruct Q as [_ Q]. destruct (Q r). apply in_or_app. right. left. reflexivity.
  - left. assert (Q : (forall r, ~ In (EAdd r) es) /\ forall r, ~ In (EUpdate r) es).
    { unfold on_probe in H. destruct (do params <- _; _) as [[[|? ?] [|? ?]]| | |]; injection H as <- <-; split; intros r I; cbn [In] in I; repeat (destruct I as [I|I]; [discriminate|]); destruct I. }
    rewrite H. destruct (update_split es) as [[-> _]|(_ & a & r & b & -> & _)]; [auto|]. destruct Q as [_ Q]. destruct (Q r). apply in_or_app. right. left. reflexivity.
  - destruct (NEWC RT_NEW (or_introl eq_refl) H) as [L|R]; [left; exact L|right; left; exact R].
  - cbn [s_get locked]. destruct rd.
    2:{ destruct (on_challenge_cases E g (fun _ => None) i x) as [(r & (id & _ & F) & _)|[(_ & _ & info & SH & Q)|(U & Q)]]; [discriminate F|..]; rewrite Q.
        - right. right. right. split; [reflexivity|]. split; [exact AD|]. exists info. auto.
        - left. destruct (on_challenge_cases E g (s_get ops (ca_store s)) i x) as [(r & (id & F & _) & _)|[(_ & N & _)|(_ & Q2)]]; [congruence|congruence|]. rewrite Q2 in H. injection H as <- <-. split; [reflexivity|]. split; intros r []. }
    replace (on_challenge E g (fun id => s_get ops (ca_store s) id) i x) with (es, o).
    destruct (on_challenge_cases E g (s_get ops (ca_store s)) i x) as [(r & _ & CO)|[(_ & _ & info & _ & Q)|(_ & Q)]]; [|rewrite Q in H; injection H as <- <-; left; split; [reflexivity|]; split; intros r I; cbn [In] in I; repeat (destruct I as [I|I]; [discriminate|]); destruct I..].
    rewrite H in CO. inversion CO; subst;
      try (left; split; [reflexivity|]; split; intros r0 I; cbn [In] in I; repeat (destruct I as [I|I]; [discriminate|]); destruct I; fail).
    + right. right. left. exists (email_effs em), r3. eexists. split; [reflexivity|]. destruct em as [cmd|]; cbn [email_effs app existsb is_update orb before_update]; (split; [|reflexivity]); repeat constructor. exists cmd. reflexivity.
    + left. destruct em as [cmd|]; cbn [email_effs existsb is_update orb]; (split; [reflexivity|]); split; intros r0 I; cbn [In] in I; repeat (destruct I as [I|I]; [discriminate|]); destruct I.
  - destruct (NEWC RT_REVOKE (or_intror eq_refl) H) as [L|R]; [left; exact L|right; left; exact R].
Qed.
Ltac none_in := let r := fresh in let I := fresh in intros r I; cbn [app In] in I; repeat (destruct I as [I|I]; [discriminate|]); destruct I.
Lemma profile_effs : forall E g S (ops : store_ops S) rd s i x es o, on_interest E g ops s i x = (es, o) ->
  (forall d, ~ In (EProfile d) es) \/ ((forall id, ~ In (EDelete id) es) /\ apply_effs ops es s = apply_effs (locked ops rd) es s).
Proof.
  intros E g S ops rd s i x es o H. destruct (on_interest_cases E g S ops s i x) as [[N O]|(v & AD & O)]; rewrite O in H.
  { injection H as <- <-. left. intros d []. }
  assert (NEWC : forall rt, rt = RT_NEW \/ rt = RT_REVOKE ->
    on_new E g (fun r => match s_add ops (ca_store s) r with Some _ => true | None => false end) (ca_idkey s) i rt x = (es, o) -> forall d, ~ In (EProfile d) es).
  { intros rt RT H'. apply on_new_cases in H' as [(peer & c & _ & _ & _ & ->)|[(code & info & _ & -> & _)|(_ & -> & T)]]; [..|exact RT]; none_in. }
  destruct v; cbn [handle] in H.
  - right. unfold on_discovery, on_get_profile in H. destruct (profile_data E g (ca_prof s) (in_version i)); injection H as <- <-; try (split; [none_in|reflexivity]; fail). destruct (ca_prof s); (split; [none_in|reflexivity]).
  - left. unfold on_probe in H. destruct (do params <- _; _) as [[[|? ?] [|? ?]]| | |]; injection H as <- <-; none_in.
  - left. exact (NEWC RT_NEW (or_introl eq_refl) H).
  - left. destruct (on_challenge_cases E g (s_get ops (ca_store s)) i x) as [(r & _ & CO)|[(_ & _ & info & _ & Q)|(_ & Q)]]; [|rewrite Q in H; injection H as <- <-; none_in..].
    rewrite H in CO. inversion CO; subst; try (none_in; fail); destruct em; none_in.
  - left. exact (NEWC RT_REVOKE (or_intror eq_refl) H).
Qed.
(** An Interest that arrives while the database is locked changes nothing, or it is one that does not need the database. *)
Lemma locked_step : forall E g S (ops : store_ops S) rd s i x s1 es, wstep E g ops s (WLocked rd i x) = Some (s1, es) ->
  s1 = s \/ (step E g ops s (EvInterest i x) = Some (s1, es) /\ forall r, ~ In (EAdd r) es).
Proof.
  intros E g S ops rd s i x s1 es H. cbn [wstep] in H. destruct (on_interest E g ops s i x) as [es0 o] eqn:O.
  destruct (locked_cases E g S ops rd s i x es0 o O) as [(L & NA & NU)|[(r & d & info & _ & _ & L)|[(a & r & d & -> & M & L)|(_ & _ & info & _ & L)]]]; rewrite L in H.
  - assert (Q : Some (apply_effs (locked ops rd) es0 s, es0) = Some (s1, es)) by (destruct o; congruence). injection Q as Q ->.
    destruct (profile_effs E g S ops rd s i x es o O) as [NP|[_ P]]; [left; rewrite <- Q; apply locked_apply, NP|]. right. split; [|exact NA]. cbn [step]. rewrite O, P, Q. destruct o; congruence.
  - injection H as <- _. left. apply (proj2 (proj2 (locked_apply S ops rd [EPut (error_data E g (i_name x) INVALID_PARAMETER info)] s))). none_in.
  - injection H as <- _. left. apply locked_apply. intros d0 I. rewrite Forall_forall in M. destruct (M _ I). discriminate.
  - injection H as <- _. left. apply (proj2 (proj2 (locked_apply S ops rd [EPut (error_data E g (i_name x) INVALID_PARAMETER info)] s))). none_in.
Qed.
Lemma locked_crash : forall E g S (ops : store_ops S) rd s i x n key s1 es, wstep E g ops s (WLockedCrash rd i x n key) = Some (s1, es) ->
  s1 = restart ops key s /\ step E g ops s (EvRestart key) = Some (s1, []).
Proof.
  intros E g S ops rd s i x n key s1 es H. cbn [wstep] in H. destruct (on_interest_locked E g ops rd s i x) as [es0 o].
  assert (Q : s1 = restart ops key s); [|split; [exact Q|rewrite Q; reflexivity]].
  assert (X : s1 = restart ops key (apply_effs (locked ops rd) (firstn n es0) s)) by (destruct o; congruence). rewrite X. unfold restart. rewrite (proj1 (locked_apply S ops rd (firstn n es0) s)). reflexivity.
Qed.
(** Every such history has the states of one without locked events. *)
Lemma thinned : forall E g S (ops : store_ops S) s tr s', wsteps E g ops s tr s' -> exists tr', thins tr tr' /\ steps E g ops s tr' s'.
Proof.
  intros E g S ops s tr s' H. induction H as [s|s w es s1 tr s2 W H (tr' & T & ST)]; [exists []; split; constructor|]. destruct w as [ev|rd i x|rd i x n key].
  - exists (HStep s ev es s1 :: tr'). split; [exact (th_keep (WRec s (WFine ev) es s1) tr tr' T)|econstructor; [exact W|exact ST]].
  - destruct (locked_step E g S ops rd s i x s1 es W) as [-> |[Q _]].
    + exists tr'. split; [apply th_drop; [exact I|reflexivity|exact T]|exact ST].
    + exists (HStep s (EvInterest i x) es s1 :: tr'). split; [exact (th_keep (WRec s (WLocked rd i x) es s1) tr tr' T)|econstructor; [exact Q|exact ST]].
  - destruct (locked_crash E g S ops rd s i x n key s1 es W) as [_ Q]. exists (HStep s (EvRestart key) [] s1 :: tr'). split; [exact (th_restart (WRec s (WLockedCrash rd i x n key) es s1) tr tr' key I T)|econstructor; [exact Q|exact ST]].
Qed.
Lemma history_thinned : forall E g tr s, locked_history E g tr s -> exists tr', thins tr tr' /\ ca_history E g (db_ops E) tr' s.
Proof.
  intros E g tr s [C P (key & H)]. destruct (thinned E g db (db_ops E) _ tr s H) as (tr' & T & ST). exists tr'. split; [exact T|]. constructor; [exact C|exact P|constructor|exists key; exact ST].
Qed.
Lemma locked_none : forall E g S (ops : store_ops S) rd s i x s1 es, wstep E g ops s (WLocked rd i x) = Some (s1, es) -> forall r, ~ In (EAdd r) es /\ ~ In (EUpdate r) es.
Proof.
  intros E g S ops rd s i x s1 es H r. cbn [wstep] in H. destruct (on_interest E g ops s i x) as [es0 o] eqn:O.
  destruct (locked_cases E g S ops rd s i x es0 o O) as [(L & NA & NU)|[(r0 & d & info & _ & _ & L)|[(a & r0 & d & -> & M & L)|(_ & _ & info & _ & L)]]]; rewrite L in H.
  - assert (Q : es0 = es) by (destruct o; congruence). subst es0. auto.
  - injection H as _ <-. split; revert r; none_in.
  - injection H as _ <-. rewrite Forall_forall in M. split; intros I; destruct (M _ I); discriminate.
  - injection H as _ <-. split; revert r; none_in.
Qed.
Lemma wsteps_app : forall E g S (ops : store_ops S) a b s s', wsteps E g ops s (a ++ b) s' <-> exists m, wsteps E g ops s a m /\ wsteps E g ops m b s'.
Proof.
  intros E g S ops a. induction a as [|w a IH]; intros b s s'; cbn [app].
  - split; [intros H; exists s; split; [constructor|exact H]|intros (m & A & H)]. inversion A. subst. exact H.
  - split.
    + intros H. inversion H as [|s0 w0 es s1 tr s2 W H2]. subst. apply IH in H2 as (m & A & B). exists m. split; [econstructor; eassumption|exact B].
    + intros (m & A & B). inversion A as [|s0 w0 es s1 tr s2 W H2]. subst. econstructor; [exact W|]. apply IH. eauto.
Qed.
(** What a certificate is issued for is what it would be issued for without locked events. *)
Lemma issue_unlocked : forall E g S (ops : store_ops S) s w s1 es c, wstep E g ops s w = Some (s1, es) -> In (EIssue c) es -> exists s2, step E g ops s (unlocked w) = Some (s2, es).
Proof.
  intros E g S ops s w s1 es c H IN. destruct w as [ev|rd i x|rd i x n key]; cbn [wstep unlocked step] in *; [eauto|..]; destruct (on_interest E g ops s i x) as [es0 o] eqn:O;
  destruct (locked_cases E g S ops rd s i x es0 o O) as [(L & NA & NU)|[(r0 & d & info & _ & _ & L)|[(a & r0 & d & -> & M & L)|(_ & _ & info & _ & L)]]]; rewrite L in H.
  - destruct o; try discriminate; injection H as _ <-; eauto.
  - injection H as _ <-. destruct IN as [IN|[]]. discriminate.
  - injection H as _ <-. rewrite Forall_forall in M. destruct (M _ IN). discriminate.
  - injection H as _ <-. destruct IN as [IN|[]]. discriminate.
  - destruct o; try discriminate; injection H as _ <-; eauto.
  - injection H as _ <-. destruct n as [|n]; [destruct IN|]. cbn in IN. destruct n; destruct IN as [IN|[]]; discriminate.
  - injection H as _ <-. assert (IN' : In (EIssue c) a) by (rewrite <- (firstn_skipn n a); apply in_or_app; left; exact IN). rewrite Forall_forall in M. destruct (M _ IN'). discriminate.
  - injection H as _ <-. destruct n as [|n]; [destruct IN|]. cbn in IN. destruct n; destruct IN as [IN|[]]; discriminate.
Qed.
Lemma issue_transfer : forall E g tr st s c, locked_history E g (tr ++ [st]) s -> In (EIssue c) (w_effs st) ->
  exists tr' s', thins tr tr' /\ ca_history E g (db_ops E) (tr' ++ [HStep (w_pre st) (unlocked (w_ev st)) (w_effs st) s']) s'.
Proof.
  intros E g tr st s c [C P (key & H)] IN. apply wsteps_app in H as (m & A & B). inversion B as [|s0 w es s1 tr0 s2 W H2]. subst. inversion H2. subst. cbn [w_pre w_ev w_effs] in *.
  destruct (issue_unlocked E g db (db_ops E) m w s es c W IN) as (s2 & Q). destruct (thinned E g db (db_ops E) _ tr m A) as (tr' & T & ST). exists tr', s2. split; [exact T|].
  constructor; [exact C|exact P|constructor|]. exists key. apply steps_app. exists m. split; [exact ST|]. econstructor; [exact Q|constructor].
Qed.

Lemma delete_locked : forall E g S (ops : store_ops S) s i x s1 es id, step E g ops s (EvInterest i x) = Some (s1, es) -> In (EDelete id) es -> wstep E g ops s (WLocked true i x) = Some (s, es).
Proof.
  intros E g S ops s i x s1 es id H IN. cbn [step wstep] in *. destruct (on_interest E g ops s i x) as [es0 o] eqn:O. assert (Q : es0 = es) by (destruct o; congruence). subst es0.
  destruct (locked_cases E g S ops true s i x es o O) as [(L & NA & NU)|[(r & d & info & _ & -> & L)|[(a & r & d & -> & M & L)|(Z & _)]]]; [..|discriminate Z]; rewrite L.
  - destruct (profile_effs E g S ops true s i x es o O) as [NP|[ND _]]; [|destruct (ND id IN)]. rewrite (proj2 (proj2 (locked_apply S ops true es s)) NP). destruct o; congruence.
  - destruct IN as [IN|[IN|[IN|[]]]]; discriminate.
  - apply in_app_or in IN as [IN|[IN|[IN|[IN|[]]]]]; try discriminate. rewrite Forall_forall in M. destruct (M _ IN). discriminate.
Qed.
Lemma wsteps_repeat : forall E g S (ops : store_ops S) s w es n, wstep E g ops s w = Some (s, es) -> wsteps E g ops s (repeat (WRec s w es s) n) s.
Proof. intros E g S ops s w es n H. induction n as [|n IH]; [constructor|]. cbn [repeat]. econstructor; eassumption. Qed.
Lemma locked_list : forall E g S (ops : store_ops S) s (l : list (inputs * interest)),
  Forall (fun ix => exists s1 es id, step E g ops s (EvInterest (fst ix) (snd ix)) = Some (s1, es) /\ In (EDelete id) es) l ->
  exists tr, wsteps E g ops s tr s /\ Forall2 (fun ix st => w_ev st = WLocked true (fst ix) (snd ix) /\ exists s1, step E g ops s (EvInterest (fst ix) (snd ix)) = Some (s1, w_effs st)) l tr.
Proof.
  intros E g S ops s l F. induction F as [|ix l (s1 & es & id & ST & D) F (tr & W & F2)]; [exists []; split; constructor|].
  exists (WRec s (WLocked true (fst ix) (snd ix)) es s :: tr). split; [econstructor; [exact (delete_locked E g S ops s _ _ s1 es id ST D)|exact W]|]. constructor; [|exact F2]. split; [reflexivity|]. exists s1. exact ST.
Qed.
Lemma issue_deletes : forall E g S (ops : store_ops S) s i x s1 es c, ca_at E g ops s -> step E g ops s (EvInterest i x) = Some (s1, es) -> In (EIssue c) es -> puts es <> [] -> exists id, In (EDelete id) es.
Proof.
  intros E g S ops s i x s1 es c A ST IN AN. destruct (chal_event E g S ops _ _ _ _ _ A ST IN I) as (i' & x' & id' & r & nrm & m & _ & _ & _ & _ & _ & _ & CS & _).
  destruct (step_issue _ _ _ _ _ _ _ _ _ CS IN) as (params & ty & dv & cs & PF & RT & IC & [[-> _]|[(tail & ->) _]]); [destruct (AN eq_refl)|]. exists (rq_id r). right. left. reflexivity.
Qed.
Lemma many_certificates : forall E g s x is, ca_at E g (db_ops E) s ->
  Forall (fun i => exists s1 es c, step E g (db_ops E) s (EvInterest i x) = Some (s1, es) /\ In (EIssue c) es /\ puts es <> []) is ->
  exists tr, wsteps E g (db_ops E) s tr s /\
    Forall2 (fun i st => w_ev st = WLocked true i x /\ puts (w_effs st) <> [] /\ (exists c, In (EIssue c) (w_effs st)) /\ exists s1, step E g (db_ops E) s (EvInterest i x) = Some (s1, w_effs st)) is tr.
Proof.
  intros E g s x is A F. destruct (locked_list E g db (db_ops E) s (map (fun i => (i, x)) is)) as (tr & W & F2).
  { apply Forall_map. eapply Forall_impl; [|exact F]. intros i (s1 & es & c & ST & IN & AN). destruct (issue_deletes E g db (db_ops E) s i x s1 es c A ST IN AN) as (id & D). exists s1, es, id. auto. }
  exists tr. split; [exact W|]. clear W. revert tr F2. induction F as [|i is (s1 & es & c & ST & IN & AN) F IH]; intros tr F2; cbn [map] in F2; inversion F2 as [|ix st l tr' (EV & s2 & Q) F3]; subst; constructor; [|apply IH, F3].
  cbn [fst snd] in *. assert (X : w_effs st = es) by congruence. rewrite X. split; [exact EV|]. split; [exact AN|]. split; [eauto|]. exists s1. exact ST.
Qed.
Lemma many_guesses : forall E g s id r cs code l, ca_at E g (db_ops E) s -> pending (db_ops E) s id = Some r -> rq_cs r = Some cs -> sec_get (bs "code") (cs_secrets cs) = Some code -> cs_tries cs = 1 ->
  Forall (fun ix => names_request g id (snd ix) /\ signed_by E (snd ix) (public_key (rq_cert r)) /\
    exists params ty given, acceptable E r (snd ix) params /\ selects params ty /\ guesses (fst ix) params cs ty given /\ given <> code) l ->
  exists tr, wsteps E g (db_ops E) s tr s /\
    Forall2 (fun ix st => w_ev st = WLocked true (fst ix) (snd ix) /\ exists d, In (EPut d) (w_effs st) /\ error_reply E g (snd ix) (7 (* out of tries *)) d) l tr.
Proof.
  intros E g s id r cs code l A P C SC T1 F.
  assert (G : Forall (fun ix => exists s1 es d, step E g (db_ops E) s (EvInterest (fst ix) (snd ix)) = Some (s1, es) /\ (exists id, In (EDelete id) es) /\ In (EPut d) es /\ error_reply E g (snd ix) 7 d) l).
  { eapply Forall_impl; [|exact F]. intros [i x] (N & SB & params & ty & given & AC & SE & GU & NE). cbn [fst snd] in *.
    destruct (@wrong_code E g db (db_ops E) s i x id r cs params ty given code A N P C SB AC SE GU SC NE) as (s' & es & ST & PU & [(LT & _)|(_ & PN & d & IN & ER)]); [lia|]. exists s', es, d. split; [exact ST|]. split; [|auto].
    destruct (pending_chal_step E g db (db_ops E) s (EvInterest i x) s' es i x id r A ST eq_refl N P) as (nrm & m & NO & IDR & LV & CS & Z).
    destruct (chal_step_answered _ _ _ _ _ _ _ _ CS PU SB LV) as [(r3 & _ & -> & _)|[D _]]; [|eauto]. destruct Z as [Z|[[] _]]. congruence. }
  destruct (locked_list E g db (db_ops E) s l) as (tr & W & F2); [eapply Forall_impl; [|exact G]; intros ix (s1 & es & d & ST & (id0 & D) & _); eauto|].
  exists tr. split; [exact W|]. clear W F. revert tr F2. induction G as [|ix l (s1 & es & d & ST & _ & IN & ER) G IH]; intros tr F2; inversion F2 as [|ix0 st l0 tr' (EV & s2 & Q) F3]; subst; constructor; [|apply IH, F3].
  split; [exact EV|]. exists d. assert (X : w_effs st = es) by congruence. rewrite X. auto.
Qed.
Lemma thins_split : forall S (a : list (wrec S)) w b tr', thins (a ++ w :: b) tr' -> ~ is_locked (w_ev w) ->
  exists a' b', tr' = a' ++ HStep (w_pre w) (unlocked (w_ev w)) (w_effs w) (w_post w) :: b' /\ thins a a' /\ thins b b'.
Proof.
  intros S a. induction a as [|v a IH]; intros w b tr' T NL; cbn [app] in T; inversion T as [|w0 a0 b0 T0|w0 a0 b0 key L T0|w0 a0 b0 L Q T0]; subst; try (destruct (NL L); fail).
  - exists [], b0. split; [reflexivity|]. split; [constructor|exact T0].
  - destruct (IH w b b0 T0 NL) as (a' & b' & -> & X & Y). eexists (_ :: a'), b'. split; [reflexivity|]. split; [constructor; exact X|exact Y].
  - destruct (IH w b b0 T0 NL) as (a' & b' & -> & X & Y). eexists (_ :: a'), b'. split; [reflexivity|]. split; [constructor 3; [exact L|exact X]|exact Y].
  - destruct (IH w b tr' T0 NL) as (a' & b' & -> & X & Y). exists a', b'. split; [reflexivity|]. split; [constructor 4; assumption|exact Y].
Qed.
Lemma thins_no_add : forall S id (b : list (wrec S)) b', thins b b' -> Forall (fun st => ~ w_adds id st) b -> no_add id b'.
Proof.
  intros S id b b' T. induction T as [|w a b T IH|w a b key L T IH|w a b L Q T IH]; intros F; [constructor|..]; inversion F as [|w0 a0 N F0]; subst; [constructor; [exact N|exact (IH F0)]|constructor; [intros (r & [] & _)|exact (IH F0)]|exact (IH F0)].
Qed.
Lemma one_certificate_locked : forall E g a st1 b st2 c s id i1 x1 i2 x2 c1 c2, locked_history E g (a ++ st1 :: b ++ st2 :: c) s -> ~ is_locked (w_ev st1) ->
  w_handles st1 i1 x1 -> names_request g id x1 -> In (EIssue c1) (w_effs st1) -> puts (w_effs st1) <> [] ->
  w_handles st2 i2 x2 -> names_request g id x2 -> In (EIssue c2) (w_effs st2) -> ~ Forall (fun st => ~ w_adds id st) b.
Proof.
  intros E g a st1 b st2 c s id i1 x1 i2 x2 c1 c2 H NL H1 N1 I1 AN H2 N2 I2 F.
  assert (H' : exists s', locked_history E g ((a ++ st1 :: b) ++ [st2]) s').
  { destruct H as [C P (key & W)]. replace (a ++ st1 :: b ++ st2 :: c) with (((a ++ st1 :: b) ++ [st2]) ++ c) in W by (rewrite <- !app_assoc; reflexivity). apply wsteps_app in W as (m & W & _). exists m. constructor; [exact C|exact P|exists key; exact W]. }
  destruct H' as (s' & H'). destruct (issue_transfer E g _ st2 s' c2 H' I2) as (tr' & s2 & T & HH). destruct (thins_split db a st1 b tr' T NL) as (a' & b' & -> & _ & TB). rewrite <- app_assoc in HH.
  refine (one_certificate E g db (db_ops E) a' _ b' _ [] s2 id i1 x1 i2 x2 c1 c2 HH _ N1 I1 AN _ N2 I2 (thins_no_add db id b b' TB F)).
  - exact H1.
  - exact H2.
Qed.
Definition fine {S} (st : hstep S) : wrec S := WRec (h_pre st) (WFine (h_ev st)) (h_effs st) (h_post st).
Lemma fine_steps : forall E g S (ops : store_ops S) s tr s', steps E g ops s tr s' -> wsteps E g ops s (map fine tr) s'.
Proof. intros E g S ops s tr s' H. induction H; [constructor|]. cbn [map]. econstructor; [eassumption|assumption]. Qed.
Lemma fine_history : forall E g tr s, ca_history E g (db_ops E) tr s -> locked_history E g (map fine tr) s.
Proof. intros E g tr s [C P _ (key & H)]. constructor; [exact C|exact P|]. exists key. apply fine_steps, H. Qed.
Lemma history_locked : forall E g tr s tr' s', locked_history E g tr s -> wsteps E g (db_ops E) s tr' s' -> locked_history E g (tr ++ tr') s'.
Proof. intros E g tr s tr' s' [C P (key & H)] W. constructor; [exact C|exact P|]. exists key. apply wsteps_app. eauto. Qed.
Lemma locked_answers : forall E g rd s i x es o, on_interest E g (db_ops E) s i x = (es, o) ->
  (on_interest_locked E g (db_ops E) rd s i x = (es, o) /\ (forall r, ~ In (EAdd r) es) /\ (forall r, ~ In (EUpdate r) es)) \/
  (exists r d, In (EAdd r) es /\ on_interest_locked E g (db_ops E) rd s i x = ([EPut d], Ok tt) /\ error_reply E g x (4 (* invalid parameter *)) d) \/
  (exists a r b, es = a ++ EUpdate r :: b /\ on_interest_locked E g (db_ops E) rd s i x = (a, Exn) /\ Forall is_mail a) \/
  (rd = false /\ addressed g VChallenge (i_name x) /\ exists d, on_interest_locked E g (db_ops E) rd s i x = ([EPut d], Ok tt) /\ error_reply E g x 4 d).
Proof.
  intros E g rd s i x es o H. destruct (locked_cases E g db (db_ops E) rd s i x es o H) as [L|[(r & d & info & SH & -> & L)|[(a & r & d & -> & M & L)|(Z & A & info & SH & L)]]]; [left; exact L|right; left|right; right; left|right; right; right].
  - exists r. eexists. split; [left; reflexivity|]. split; [exact L|]. apply error_data_reply. split; [discriminate|]. split; [vm_compute; discriminate|]. apply short_fits, SH.
  - exists a, r, [EPut d; ECallback r]. auto.
  - split; [exact Z|]. split; [exact A|]. eexists. split; [exact L|]. apply error_data_reply. split; [discriminate|]. split; [vm_compute; discriminate|]. apply short_fits, SH.
Qed.
Lemma locked_kept : forall E g rd s i x s1 es, wstep E g (db_ops E) s (WLocked rd i x) = Some (s1, es) -> ca_store s1 = ca_store s.
Proof.
  intros E g rd s i x s1 es H. cbn [wstep] in H. destruct (on_interest_locked E g (db_ops E) rd s i x) as [es0 o]. assert (Q : s1 = apply_effs (locked (db_ops E) rd) es0 s) by (destruct o; congruence). rewrite Q. apply locked_apply.
Qed.
