(** How many requests a CA keeps. *)
From Verif Require Import CaProps TraceFacts TraceProps StorageFacts.
From Verif Require Export Spec_Growth.
Local Open Scope N_scope.

Lemma idkey_effs : forall S (ops : store_ops S) es s, ca_idkey (apply_effs ops es s) = ca_idkey s.
Proof. intros S ops es. unfold apply_effs. induction es as [|e es IH]; intros s; [reflexivity|]. cbn [fold_left]. rewrite IH. destruct e as [r|r| | | | | |]; cbn [apply_eff]; try reflexivity; [destruct (s_add _ _ _)|destruct (s_update _ _ _)]; reflexivity. Qed.
Lemma idkey_step : forall S E g (ops : store_ops S) s i x s' es, step E g ops s (EvInterest i x) = Some (s', es) -> ca_idkey s' = ca_idkey s.
Proof. intros S E g ops s i x s' es H. cbn [step] in H. destruct (on_interest E g ops s i x) as [es0 [u| | |]]; try discriminate; injection H as <- _; apply idkey_effs. Qed.

Lemma all_kept : forall E g S (ops : store_ops S) l s, ca_at E g ops s -> suffix_limit_sane g -> Forall (allowed E g s) l -> NoDup (map (ask_id E s) l) ->
  (forall a, In a l -> pending ops s (ask_id E s a) = None) ->
  exists tr s', steps E g ops s tr s' /\ map h_ev tr = map (fun a => EvInterest (as_inputs a) (as_interest a)) l /\
    (forall a, In a l -> exists r, pending ops s' (ask_id E s a) = Some r /\ rq_cert r = as_cert a) /\ (forall id r, pending ops s id = Some r -> pending ops s' id = Some r).
Proof.
  intros E g S ops l. induction l as [|a l IH]; intros s A SA F ND NP.
  - exists [], s. split; [constructor|]. split; [reflexivity|]. split; [intros a []|auto].
  - inversion F as [|? ? [AD ADM] F']; subst. cbn [map] in ND. inversion ND as [|? ? NI ND']; subst.
    destruct (new_accepted E g S ops s (as_inputs a) RT_NEW (as_interest a) (as_peer a) (as_cert a) A SA (or_introl eq_refl) AD ADM (NP a (or_introl eq_refl))) as (s1 & ST & P1 & OT).
    pose proof (idkey_step S E g ops s _ _ s1 _ ST) as K.
    assert (SAME : forall b, ask_id E s1 b = ask_id E s b) by (intros b; unfold ask_id; rewrite K; reflexivity).
    destruct (IH s1) as (tr & s' & H & EV & ALL & KEEP).
    + eapply ca_at_step; eassumption.
    + exact SA.
    + revert F'. apply Forall_impl. intros b [B1 B2]. split; [exact B1|]. rewrite SAME. exact B2.
    + rewrite (map_ext _ _ SAME). exact ND'.
    + intros b HB. rewrite SAME. rewrite OT; [apply NP; right; exact HB|]. intros Q. apply NI. change (request_id_of E (ca_idkey s) (c_name (as_cert a))) with (ask_id E s a) in Q. rewrite <- Q. apply in_map, HB.
    + eexists. exists s'. split; [econstructor; [exact ST|exact H]|]. split; [cbn [map h_ev]; rewrite EV; reflexivity|]. split.
      * intros b [<-|HB]; [|specialize (ALL b HB); rewrite SAME in ALL; exact ALL]. eexists. split; [apply KEEP; exact P1|reflexivity].
      * intros id r Q. apply KEEP. rewrite OT; [exact Q|]. intros ->. pose proof (NP a (or_introl eq_refl)) as N. unfold ask_id, id_for in N. unfold request_id_of in Q. congruence.
Qed.

Lemma no_add_admissions : forall S (tr : list (hstep S)) id, ~ In id (admissions tr) -> no_add id tr.
Proof.
  intros S tr id H. apply Forall_forall. intros st HS (r & I & Q). apply H. unfold admissions. apply in_flat_map. exists st. split; [exact HS|]. apply in_flat_map. exists (EAdd r). split; [exact I|left; exact Q].
Qed.
Lemma kept_bound : forall E g S (ops : store_ops S) tr s ids, ca_history E g ops tr s -> NoDup ids -> (forall id, In id ids -> pending ops s id <> None) -> (length ids <= length (admissions tr))%nat.
Proof.
  intros E g S ops tr s ids H ND P. apply NoDup_incl_length; [exact ND|]. intros id HI. destruct (in_dec (list_eq_dec Byte.byte_eq_dec) id (admissions tr)) as [Y|N]; [exact Y|exfalso].
  pose proof (history_at _ _ _ _ _ _ H) as A. destruct H as [LC NF B (key & H)]. apply (P id HI). apply (none_stays E g S ops id (ca_init ops key) tr s).
  - constructor; try assumption. exists key, [], []. reflexivity.
  - exact H.
  - unfold pending, ca_init. cbn [ca_store]. destruct B; reflexivity.
  - apply no_add_admissions, N.
Qed.
(** The same Interest again after a restart. *)
Lemma again : forall E g S (ops : store_ops S) s a key r, ca_at E g ops s -> durable E S ops -> suffix_limit_sane g -> pending ops s (ask_id E s a) = Some r -> let s1 := restart ops key s in
  allowed E g s1 a -> ask_id E s1 a <> ask_id E s a -> pending ops s1 (ask_id E s1 a) = None ->
  exists s2 es r', step E g ops s1 (EvInterest (as_inputs a) (as_interest a)) = Some (s2, es) /\ pending ops s2 (ask_id E s a) = Some r /\
    pending ops s2 (ask_id E s1 a) = Some r' /\ rq_cert r' = as_cert a.
Proof.
  intros E g S ops s a key r A D SA P s1 [AD ADM] NE NP.
  assert (A1 : ca_at E g ops s1) by (apply (ca_at_step E g S ops s (EvRestart key) s1 []); [exact A|reflexivity]).
  destruct (new_accepted E g S ops s1 (as_inputs a) RT_NEW (as_interest a) (as_peer a) (as_cert a) A1 SA (or_introl eq_refl) AD ADM NP) as (s2 & ST & P2 & OT).
  exists s2. eexists. eexists. split; [exact ST|]. split; [|split; [exact P2|reflexivity]]. rewrite OT; [|intros Q; apply NE; symmetry; exact Q]. destruct D. exact P.
Qed.
