(** A crash never leaves a request half done: the proofs of C135. *)
From Verif Require Import TraceProps ChalProps CaProps CaFacts.
From Verif Require Export Spec_Trace.
Local Open Scope N_scope.

(** The effects of a handler: some before the one storage call, which put no packet; the storage call, if any; the rest. *)
Definition no_write (es : list eff) : Prop := Forall (fun e => match e with EAdd _ | EUpdate _ | EDelete _ => False | _ => True end) es.
Definition one_write (es : list eff) : Prop := exists a w b, es = a ++ w ++ b /\ no_write a /\ puts a = [] /\ (length w <= 1)%nat /\ no_write b.

Lemma no_write_store : forall S (ops : store_ops S) es s, no_write es -> ca_store (apply_effs ops es s) = ca_store s.
Proof.
  intros S ops es. unfold apply_effs. induction es as [|e es IH]; intros s N; [reflexivity|]. inversion N as [|? ? N1 N2]; subst. cbn [fold_left]. rewrite (IH _ N2).
  destruct e; cbn [apply_eff]; try reflexivity; destruct N1.
Qed.
Ltac nw := repeat first [apply Forall_nil|apply Forall_cons; [exact I|]].
Lemma one_write_none : forall es, no_write es -> one_write es.
Proof. intros es N. exists [], [], es. split; [reflexivity|]. split; [apply Forall_nil|]. split; [reflexivity|]. split; [cbn; lia|exact N]. Qed.
Lemma one_write_at : forall a e b, no_write a -> puts a = [] -> no_write b -> one_write (a ++ e :: b).
Proof. intros a e b A P B. exists a, [e], b. split; [reflexivity|]. split; [exact A|]. split; [exact P|]. split; [cbn; lia|exact B]. Qed.
Lemma email_no_write : forall em, no_write (email_effs em) /\ puts (email_effs em) = [].
Proof. intros [cmd|]; (split; [nw|reflexivity]). Qed.

Lemma handle_one_write : forall E g S (ops : store_ops S) v s i x es o, handle E g ops v s i x = (es, o) -> one_write es.
Proof.
  intros E g S ops v s i x es o H.
  assert (NEWC : forall rt, rt = RT_NEW \/ rt = RT_REVOKE -> 
    on_new E g (fun r => match s_add ops (ca_store s) r with Some _ => true | None => false end) (ca_idkey s) i rt x = (es, o) -> one_write es).
  { intros rt RT H'. apply on_new_cases in H' as [(peer & c & _ & _ & _ & ->)|[(code & info & _ & -> & _)|(_ & -> & T)]]; [..|exact RT];
      [apply (one_write_at []); [nw|reflexivity|nw]|apply one_write_none; nw..]. }
  destruct v; cbn [handle] in H.
  - apply discovery_cases in H as [(es0 & d & G & _ & m & -> & _)|[-> _]]; [|apply one_write_none; nw].
    apply get_profile_spec in G as [[P ->]|(P & -> & D & DS)]; apply one_write_none; nw.
  - unfold on_probe in H. destruct (do params <- _; _) as [[[|? ?] [|? ?]]| | |]; injection H as <- <-; apply one_write_none; nw.
  - exact (NEWC RT_NEW (or_introl eq_refl) H).
  - destruct (on_challenge_cases E g (s_get ops (ca_store s)) i x) as [(r & _ & CO)|[(_ & _ & info & _ & Q)|(_ & Q)]];
      [|rewrite Q in H; injection H as <- <-; apply one_write_none; nw..].
    rewrite H in CO. inversion CO; subst es o; try (apply one_write_none; nw; fail); try (apply (one_write_at []); [nw|reflexivity|nw]; fail).
    + destruct (email_no_write em). apply one_write_at; [assumption..|nw].
    + destruct (email_no_write em). apply one_write_none. assumption.
    + apply (one_write_at [EIssue c]); [nw|reflexivity|nw].
    + apply (one_write_at [EIssue c]); [nw|reflexivity|nw].
  - exact (NEWC RT_REVOKE (or_intror eq_refl) H).
Qed.
Lemma interest_one_write : forall E g S (ops : store_ops S) s i x es o, on_interest E g ops s i x = (es, o) -> one_write es.
Proof.
  intros E g S ops s i x es o H. destruct (on_interest_cases E g S ops s i x) as [[_ O]|(v & _ & O)]; rewrite O in H.
  - injection H as <- <-. apply one_write_none. nw.
  - eapply handle_one_write, H.
Qed.

(** Cut anywhere, either nothing has been stored and no packet put, or everything has been stored. *)
Lemma cut_write : forall es n, one_write es -> (no_write (firstn n es) /\ puts (firstn n es) = []) \/ no_write (skipn n es).
Proof.
  intros es n (a & w & b & -> & A & P & W & B). destruct (Nat.le_gt_cases n (length a)) as [L|L].
  - left. rewrite firstn_app. replace (n - length a)%nat with 0%nat by lia. cbn [firstn]. rewrite app_nil_r.
    unfold no_write in *. rewrite <- (firstn_skipn n a) in A, P. apply Forall_app in A as [A _]. split; [exact A|].
    unfold puts in P. rewrite flat_map_app in P. apply app_eq_nil in P as [P _]. exact P.
  - right. rewrite skipn_app, skipn_all2 by lia. rewrite skipn_app, skipn_all2 by lia. cbn [app].
    unfold no_write in *. rewrite <- (firstn_skipn (n - length a - length w) b) in B. apply Forall_app in B as [_ B]. exact B.
Qed.
Lemma apply_split : forall S (ops : store_ops S) n es s, no_write (skipn n es) -> ca_store (apply_effs ops es s) = ca_store (apply_effs ops (firstn n es) s).
Proof.
  intros S ops n es s N. rewrite <- (firstn_skipn n es) at 1. unfold apply_effs. rewrite fold_left_app.
  exact (no_write_store S ops (skipn n es) _ N).
Qed.
Lemma crash_inv : forall E g S (ops : store_ops S) s i x n key s1 es, step E g ops s (EvCrash i x n key) = Some (s1, es) ->
  exists full o, on_interest E g ops s i x = (full, o) /\ es = firstn n full /\ s1 = restart ops key (apply_effs ops es s).
Proof.
  intros E g S ops s i x n key s1 es H. cbn [step] in H. destruct (on_interest E g ops s i x) as [full [u| | |]]; try discriminate; injection H as <- <-; eauto 6.
Qed.

Lemma crash_whole : forall E g s i x s' full n key s1 es,
  step E g (db_ops E) s (EvInterest i x) = Some (s', full) -> step E g (db_ops E) s (EvCrash i x n key) = Some (s1, es) ->
  ((forall id, pending (db_ops E) s1 id = pending (db_ops E) s id) /\ puts es = []) \/ (forall id, pending (db_ops E) s1 id = pending (db_ops E) s' id).
Proof.
  intros E g s i x s' full n key s1 es H C. apply crash_inv in C as (f & o & O & -> & ->). cbn [step] in H. rewrite O in H.
  assert (Q : s' = apply_effs (db_ops E) f s) by (destruct o; try discriminate; injection H as <- _; reflexivity). subst s'.
  unfold pending, restart. cbn [ca_store]. change (s_restart (db_ops E)) with (fun d : db => d). cbv beta.
  destruct (cut_write f n (interest_one_write _ _ _ _ _ _ _ _ _ O)) as [[N P]|N].
  - left. split; [|exact P]. intros id. rewrite (no_write_store _ _ _ _ N). reflexivity.
  - right. intros id. rewrite (apply_split _ (db_ops E) n f s N). reflexivity.
Qed.
Lemma crash_told : forall E g s i x s' full n key s1 es,
  step E g (db_ops E) s (EvInterest i x) = Some (s', full) -> step E g (db_ops E) s (EvCrash i x n key) = Some (s1, es) ->
  puts es <> [] -> forall id, pending (db_ops E) s1 id = pending (db_ops E) s' id.
Proof. intros E g s i x s' full n key s1 es H C P. destruct (crash_whole _ _ _ _ _ _ _ _ _ _ _ H C) as [[_ Q]|Q]; [contradiction|exact Q]. Qed.
Lemma crash_points : forall E g s i x n m key key' s1 es s2 es2, (n <= m)%nat ->
  step E g (db_ops E) s (EvCrash i x n key) = Some (s1, es) -> step E g (db_ops E) s (EvCrash i x m key') = Some (s2, es2) ->
  ((forall id, pending (db_ops E) s1 id = pending (db_ops E) s id) /\ puts es = []) \/ (forall id, pending (db_ops E) s1 id = pending (db_ops E) s2 id).
Proof.
  intros E g s i x n m key key' s1 es s2 es2 L C C2. apply crash_inv in C as (f & o & O & -> & ->). apply crash_inv in C2 as (f2 & o2 & O2 & -> & ->).
  rewrite O in O2. injection O2 as <- <-. pose proof (interest_one_write _ _ _ _ _ _ _ _ _ O) as W.
  unfold pending, restart. cbn [ca_store]. change (s_restart (db_ops E)) with (fun d : db => d). cbv beta.
  destruct (cut_write f n W) as [[N P]|N].
  - left. split; [|exact P]. intros id. rewrite (no_write_store _ _ _ _ N). reflexivity.
  - right. intros id. rewrite <- (apply_split _ (db_ops E) n f s N).
    assert (M : no_write (skipn m f)).
    { replace m with (m - n + n)%nat by lia. unfold no_write in *. clear -N. rewrite <- (firstn_skipn (m - n) (skipn n f)) in N. apply Forall_app in N as [_ N].
      assert (SS : forall a b (l : list eff), skipn a (skipn b l) = skipn (a + b) l).
      { intros a b. revert a. induction b as [|b IH]; intros a l; [rewrite Nat.add_0_r; reflexivity|]. destruct l as [|e l]; [rewrite !skipn_nil; reflexivity|]. rewrite Nat.add_succ_r. cbn [skipn]. apply IH. }
      rewrite SS in N. exact N. }
    rewrite <- (apply_split _ (db_ops E) m f s M). reflexivity.
Qed.
