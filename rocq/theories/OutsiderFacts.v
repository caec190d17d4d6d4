(** What somebody else can learn about a pending request: the proofs of C131. *)
From Verif Require Import TraceProps ChalProps CaProps CaFacts SimFacts SecrecyFacts GuessFacts IsolationFacts.
From Verif Require Export Spec_Outsider.
Local Open Scope N_scope.

Section Outsider.
  Context (E : env) (g : ca_cfg) {S : Type} (ops : store_ops S) (id0 : bytes).
  (** The request [id0], if pending in [s], has a key with which [x] is not signed. *)
  Definition foreign (s : ca_state S) (x : interest) : Prop := forall r, pending ops s id0 = Some r -> names_request g id0 x -> ~ signed_by E x (public_key (rq_cert r)).
  Lemma add_same : forall s s' r, ca_at E g ops s -> ca_at E g ops s' -> (pending ops s (rq_id r) = None <-> pending ops s' (rq_id r) = None) ->
    match s_add ops (ca_store s') r with Some _ => true | None => false end = match s_add ops (ca_store s) r with Some _ => true | None => false end.
  Proof.
    intros s s' r A A' T. pose proof A as [LC _ B _]. unfold pending in T. destruct B.
    - cbn [mem_ops s_add s_get] in *. unfold mem_add, mem_get in *. destruct (mem_find (rq_id r) (ca_store s')), (mem_find (rq_id r) (ca_store s)); try reflexivity; destruct T as [T1 T2]; [discriminate (T1 eq_refl)|discriminate (T2 eq_refl)].
    - pose proof (ca_at_inv2 E g (db_ops E) (db_inv E) db_stored s (db_laws E LC) A) as [I _]. pose proof (ca_at_inv2 E g (db_ops E) (db_inv E) db_stored s' (db_laws E LC) A') as [I' _].
      cbn [db_ops s_add s_get] in *. destruct (db_get E (ca_store s) (rq_id r)) as [a|] eqn:P, (db_get E (ca_store s') (rq_id r)) as [b|] eqn:P'.
      + unfold db_add, db_get in *. destruct (db_row (ca_store s) (rq_id r)); [|discriminate]. destruct (db_row (ca_store s') (rq_id r)); [reflexivity|discriminate].
      + discriminate (proj2 T eq_refl).
      + discriminate (proj1 T eq_refl).
      + unfold db_add. rewrite (db_get_none E LC _ _ I P), (db_get_none E LC _ _ I' P'). reflexivity.
  Qed.
  Lemma there_all : forall s s' id, same_but ops id0 s s' -> (pending ops s id = None <-> pending ops s' id = None).
  Proof.
    intros s s' id [_ _ O T]. destruct (bytes_eqb id id0) eqn:B; [apply bytes_eqb_eq in B; subst; exact T|].
    rewrite (O id); [tauto|]. intros ->. rewrite bytes_eqb_refl in B. discriminate.
  Qed.
  Lemma chal_same : forall s s' i x, same_but ops id0 s s' -> foreign s x -> foreign s' x -> addressed g VChallenge (i_name x) ->
    on_challenge E g (s_get ops (ca_store s')) i x = on_challenge E g (s_get ops (ca_store s)) i x.
  Proof.
    intros s s' i x SB F F' AV. unfold on_challenge. destruct (challenge_id g (i_name x)) as [id| | |] eqn:CI; try reflexivity.
    pose proof (proj1 (challenge_id_names g x id AV) CI) as N. pose proof (there_all s s' id SB) as T. destruct SB as [_ _ O _].
    destruct (bytes_eqb id id0) eqn:B.
    - apply bytes_eqb_eq in B. subst id. unfold foreign, pending in *.
      destruct (s_get ops (ca_store s) id0) as [r|] eqn:P, (s_get ops (ca_store s') id0) as [r'|] eqn:P'; [|discriminate (proj2 T eq_refl)|discriminate (proj1 T eq_refl)|reflexivity].
      assert (V : verify_interest E x (rq_cert r) = false) by (destruct (verify_interest E x (rq_cert r)) eqn:V; [apply verify_interest_iff in V; destruct (F r eq_refl N V)|reflexivity]).
      assert (V' : verify_interest E x (rq_cert r') = false) by (destruct (verify_interest E x (rq_cert r')) eqn:V'; [apply verify_interest_iff in V'; destruct (F' r' eq_refl N V')|reflexivity]).
      rewrite V, V'. reflexivity.
    - assert (D : id <> id0) by (intros ->; rewrite bytes_eqb_refl in B; discriminate). specialize (O id D). unfold pending in O. rewrite O. reflexivity.
  Qed.
  Lemma out_same : forall s s' i x, ca_at E g ops s -> ca_at E g ops s' -> same_but ops id0 s s' -> foreign s x -> foreign s' x -> on_interest E g ops s' i x = on_interest E g ops s i x.
  Proof.
    intros s s' i x A A' SB F F'. destruct (on_interest_cases E g S ops s i x) as [[NA Q]|(v & AV & Q)].
    { destruct (on_interest_cases E g S ops s' i x) as [[_ Q']|(v' & AV' & _)]; [congruence|destruct (NA _ AV')]. }
    destruct (on_interest_cases E g S ops s' i x) as [[NA' _]|(v' & AV' & Q')]; [destruct (NA' _ AV)|]. pose proof (verb_same g _ _ _ AV AV') as <-. rewrite Q, Q'. clear Q Q'.
    unfold handle. rewrite <- (sb_idkey _ _ _ _ SB), <- (sb_prof _ _ _ _ SB). destruct v; try reflexivity.
    - apply new_ext; [auto|]. intros r _ _ _ _. apply add_same; [exact A|exact A'|apply there_all, SB].
    - apply chal_same; assumption.
    - apply new_ext; [auto|]. intros r _ _ _ _. apply add_same; [exact A|exact A'|apply there_all, SB].
  Qed.
  (** The hidden request stays as it is. *)
  Lemma stays : forall s i x n full o, ca_at E g ops s -> on_interest E g ops s i x = (full, o) -> o <> UB -> foreign s x ->
    (forall r, In (EAdd r) (firstn n full) -> rq_id r <> id0) -> pending ops (apply_effs ops (firstn n full) s) id0 = pending ops s id0.
  Proof.
    intros s i x n full o A O U F NA. destruct (ends E g ops s A) as (inv & nrm & SL & _ & _ & _). pose proof (ca_at_inv2 E g ops inv nrm s SL A) as I. pose proof A as [LC NF _ _].
    destruct (interest_step E g ops inv nrm SL LC NF s (EvInterest i x) i x (firstn n full) full o I eq_refl O U (cut_firstn n full)) as [_ M]. specialize (M id0).
    change (ca_get ops (apply_effs ops (firstn n full) s) id0 = ca_get ops s id0). unfold foreign in F. change (pending ops s id0) with (ca_get ops s id0) in F.
    remember (firstn n full) as es eqn:ES. clear ES. remember (ca_get ops s id0) as m0 eqn:M0. remember (ca_get ops (apply_effs ops es s) id0) as m1 eqn:M1. clear M0 M1.
    destruct M as [es m _ _|j y es info _ _ _ _|j y rt idkey peer c tail _ _ ID0 _ _|j y r es m EV N IDR CS]; [reflexivity|reflexivity| |].
    - exfalso. refine (NA _ (or_introl eq_refl) _). reflexivity.
    - injection EV as <- <-. specialize (F r eq_refl N). destruct CS as [| |code info tail SB|params ty dv cs em payload r3 tail SB|params ty dv cs c PF|params ty dv cs c tail PF|params ty dv cs tail PF]; try reflexivity; try contradiction.
      + destruct PF as (SB & _). contradiction.
      + destruct PF as (SB & _). contradiction.
  Qed.
  Lemma effs_same : forall s s' i x n full o, ca_at E g ops s -> ca_at E g ops s' -> same_but ops id0 s s' -> foreign s x -> foreign s' x ->
    on_interest E g ops s i x = (full, o) -> on_interest E g ops s' i x = (full, o) -> o <> UB -> (forall r, In (EAdd r) (firstn n full) -> rq_id r <> id0) ->
    same_but ops id0 (apply_effs ops (firstn n full) s) (apply_effs ops (firstn n full) s') /\
    pending ops (apply_effs ops (firstn n full) s) id0 = pending ops s id0 /\ pending ops (apply_effs ops (firstn n full) s') id0 = pending ops s' id0.
  Proof.
    intros s s' i x n full o A A' SB F F' O O' U NA. pose proof (stays s i x n full o A O U F NA) as P. pose proof (stays s' i x n full o A' O' U F' NA) as P'.
    split; [|split; assumption]. pose proof SB as [K PR OT T]. constructor.
    - rewrite !idkey_effs. exact K.
    - rewrite !prof_effs, PR. reflexivity.
    - intros id D. exact (proj2 (kept E g ops id s s' i x n full o A A' (conj K (OT id D)) O O' U)).
    - rewrite P, P'. exact T.
  Qed.
  (** The requests under [id0] in both states are those they were, or gone. *)
  Definition owned (K : bytes -> Prop) (s : ca_state S) : Prop := forall r, pending ops s id0 = Some r -> K (public_key (rq_cert r)).
  Lemma restart_but : forall s s' key, ca_at E g ops s -> same_but ops id0 s s' -> same_but ops id0 (restart ops key s) (restart ops key s').
  Proof.
    intros s s' key A [K PR OT T]. destruct (ends E g ops s A) as (_ & _ & _ & _ & _ & RS). constructor; [reflexivity|reflexivity| |]; unfold pending, restart in *; cbn [ca_store].
    - intros id D. destruct RS as [R|R]; rewrite !R; [exact (OT id D)|reflexivity].
    - destruct RS as [R|R]; rewrite !R; [exact T|tauto].
  Qed.
  Lemma restart_owned : forall K s key, ca_at E g ops s -> owned K s -> owned K (restart ops key s).
  Proof.
    intros K s key A OW r. destruct (ends E g ops s A) as (_ & _ & _ & _ & _ & RS). unfold owned, pending, restart in *. cbn [ca_store]. destruct RS as [R|R]; rewrite !R; [apply OW|discriminate].
  Qed.
  Lemma but_step : forall K s s' ev es s1, ca_at E g ops s -> ca_at E g ops s' -> same_but ops id0 s s' -> owned K s -> owned K s' -> step E g ops s ev = Some (s1, es) ->
    (forall i x pk, ev_interest ev = Some (i, x) -> names_request g id0 x -> K pk -> ~ signed_by E x pk) -> (forall r, In (EAdd r) es -> rq_id r <> id0) ->
    exists s1', step E g ops s' ev = Some (s1', es) /\ same_but ops id0 s1 s1' /\ owned K s1 /\ owned K s1'.
  Proof.
    intros K s s' ev es s1 A A' SB OW OW' ST NS NA.
    assert (FO : forall i x, ev_interest ev = Some (i, x) -> foreign s x /\ foreign s' x) by (intros i x EV; split; intros r P N; apply (NS i x _ EV N); [exact (OW r P)|exact (OW' r P)]).
    destruct ev as [i x|i x n key|key|i].
    - destruct (FO i x eq_refl) as [F F']. pose proof (out_same s s' i x A A' SB F F') as Q. cbn [step] in ST |- *. rewrite Q. destruct (on_interest E g ops s i x) as [full o] eqn:O.
      assert (W : o <> UB -> es = full -> same_but ops id0 (apply_effs ops full s) (apply_effs ops full s') /\ pending ops (apply_effs ops full s) id0 = pending ops s id0 /\ pending ops (apply_effs ops full s') id0 = pending ops s' id0).
      { intros U ->. pose proof (effs_same s s' i x (length full) full o A A' SB F F' O Q U) as W. rewrite firstn_all in W. exact (W NA). }
      destruct o; try discriminate; injection ST as <- <-; (destruct W as (W & P & P'); [discriminate|reflexivity|]); eexists; (split; [reflexivity|]; split; [exact W|]; split; intros r Z; [rewrite P in Z; exact (OW r Z)|rewrite P' in Z; exact (OW' r Z)]).
    - destruct (FO i x eq_refl) as [F F']. pose proof (out_same s s' i x A A' SB F F') as Q. cbn [step] in ST |- *. rewrite Q. destruct (on_interest E g ops s i x) as [full o] eqn:O.
      assert (W : o <> UB -> es = firstn n full -> same_but ops id0 (restart ops key (apply_effs ops (firstn n full) s)) (restart ops key (apply_effs ops (firstn n full) s')) /\
        owned K (restart ops key (apply_effs ops (firstn n full) s)) /\ owned K (restart ops key (apply_effs ops (firstn n full) s'))).
      { intros U ->. destruct (effs_same s s' i x n full o A A' SB F F' O Q U NA) as ([K1 PR1 OT1 T1] & P & P').
        destruct (ends E g ops s A) as (_ & _ & _ & _ & _ & RS). split; [|split].
        - constructor; [reflexivity|reflexivity| |]; unfold pending, restart in *; cbn [ca_store].
          + intros id D. destruct RS as [R|R]; rewrite !R; [exact (OT1 id D)|reflexivity].
          + destruct RS as [R|R]; rewrite !R; [exact T1|tauto].
        - intros r. unfold owned, pending, restart in *. cbn [ca_store]. destruct RS as [R|R]; rewrite !R; [rewrite P; apply OW|discriminate].
        - intros r. unfold owned, pending, restart in *. cbn [ca_store]. destruct RS as [R|R]; rewrite !R; [rewrite P'; apply OW'|discriminate]. }
      destruct o; try discriminate; injection ST as <- <-; (destruct W as (W & P & P'); [discriminate|reflexivity|]); eexists; (split; [reflexivity|]; split; [exact W|]; split; assumption).
    - cbn [step] in ST |- *. injection ST as <- <-. eexists. split; [reflexivity|]. split; [apply restart_but; assumption|]. split; apply restart_owned; assumption.
    - cbn [step] in ST |- *. rewrite <- (sb_prof _ _ _ _ SB). destruct (on_get_profile E g (ca_prof s) i) as [full o] eqn:O.
      assert (SI : Forall silent full) by (unfold on_get_profile in O; destruct (profile_data E g (ca_prof s) (in_version i)); injection O as <- <-; try destruct (ca_prof s); repeat constructor).
      assert (W : same_but ops id0 (apply_effs ops full s) (apply_effs ops full s') /\ owned K (apply_effs ops full s) /\ owned K (apply_effs ops full s')).
      { destruct SB as [K1 PR1 OT1 T1]. unfold owned, pending in *. rewrite !(silent_store ops full _ SI). split; [|split; assumption].
        constructor; [rewrite !idkey_effs; exact K1|rewrite !prof_effs, PR1; reflexivity| |]; unfold pending; rewrite !(silent_store ops full _ SI); assumption. }
      destruct o; try discriminate; injection ST as <- <-; eexists; (split; [reflexivity|exact W]).
  Qed.
End Outsider.
Lemma unseen : forall E g S (ops : store_ops S) s s' id tr s2, ca_at E g ops s -> ca_at E g ops s' -> same_but ops id s s' -> steps E g ops s tr s2 ->
  (forall r, pending ops s id = Some r \/ pending ops s' id = Some r -> not_the_owner E g id (public_key (rq_cert r)) tr) -> no_add id tr ->
  exists tr' s2', steps E g ops s' tr' s2' /\ Forall2 same_seen tr tr' /\ same_but ops id s2 s2'.
Proof.
  intros E g S ops s s' id tr s2 A A' SB H NO. set (K := fun pk => exists r, (pending ops s id = Some r \/ pending ops s' id = Some r) /\ pk = public_key (rq_cert r)).
  assert (OW : owned ops id K s) by (intros r P; exists r; auto). assert (OW' : owned ops id K s') by (intros r P; exists r; auto).
  assert (NK : forall st i x pk, In st tr -> handles st i x -> names_request g id x -> K pk -> ~ signed_by E x pk) by (intros st i x pk IN HD N (r & P & ->); exact (NO r P st i x IN HD N)).
  clearbody K. clear NO. revert s' A A' SB OW OW' NK. induction H as [s|s ev es s1 tr s2 ST H IH]; intros s' A A' SB OW OW' NK AD; [exists [], s'; split; [constructor|]; split; [constructor|exact SB]|].
  inversion AD as [|? ? AD1 AD2]; subst.
  destruct (but_step E g ops id K s s' ev es s1 A A' SB OW OW' ST) as (s1' & ST' & SB1 & OW1 & OW1').
  - intros i x pk EV N KP. apply (NK (HStep s ev es s1) i x pk); [left; reflexivity|apply ev_handles; exact EV|exact N|exact KP].
  - intros r IN ID. apply AD1. exists r. split; [exact IN|exact ID].
  - destruct (IH OW1 s1' (ca_at_step E g S ops _ _ _ _ A ST) (ca_at_step E g S ops _ _ _ _ A' ST') SB1 OW1 OW1' (fun st i x pk IN => NK st i x pk (or_intror IN)) AD2) as (tr' & s2' & H' & F & SB2) || 
    destruct (IH s1' (ca_at_step E g S ops _ _ _ _ A ST) (ca_at_step E g S ops _ _ _ _ A' ST') SB1 OW1 OW1' (fun st i x pk IN => NK st i x pk (or_intror IN)) AD2) as (tr' & s2' & H' & F & SB2).
    exists (HStep s' ev es s1' :: tr'), s2'. split; [econstructor; eassumption|]. split; [|exact SB2]. constructor; [split; reflexivity|exact F].
Qed.
(** No request is accepted under an ID that is taken. *)
Lemma taken_no_add : forall E g S (ops : store_ops S) s ev s' es id r, ca_at E g ops s -> step E g ops s ev = Some (s', es) -> pending ops s id = Some r -> ~ adds id (HStep s ev es s').
Proof.
  intros E g S ops s ev s' es id r A ST P (r1 & IA & ID). cbn [h_effs] in IA. destruct (at_id_step S E g ops _ _ _ _ A ST) as (nrm & NO & IDS). destruct (IDS id) as [m1 M _]. rewrite P in M.
  inversion M as [es0 m F NN| | |i0 x0 r0 es0 m EV0 N0 IDR CS]; subst.
  - rewrite Forall_forall in F. destruct (F _ IA eq_refl).
  - destruct (chal_no_add _ _ _ _ _ _ _ _ r1 CS IA).
Qed.
(** With SQLite strangers leave it as it is. *)
Lemma holds_step : forall E g s ev s1 es id r, ca_at E g (db_ops E) s -> step E g (db_ops E) s ev = Some (s1, es) -> pending (db_ops E) s id = Some r ->
  (forall i x, ev_interest ev = Some (i, x) -> names_request g id x -> ~ signed_by E x (public_key (rq_cert r))) -> pending (db_ops E) s1 id = Some r.
Proof.
  intros E g s ev s1 es id r A ST P NS. pose proof (taken_no_add E g _ _ _ _ _ _ _ _ A ST P) as NA.
  assert (NA' : forall r1, In (EAdd r1) es -> rq_id r1 <> id) by (intros r1 IN ID; apply NA; exists r1; split; [exact IN|exact ID]). clear NA.
  assert (FO : forall i x, ev_interest ev = Some (i, x) -> foreign E g (db_ops E) id s x) by (intros i x EV r1 P1 N; rewrite P in P1; injection P1 as <-; exact (NS i x EV N)).
  rewrite <- P. destruct ev as [i x|i x n key|key|i]; cbn [step] in ST.
  - destruct (on_interest E g (db_ops E) s i x) as [full o] eqn:O. pose proof (stays E g (db_ops E) id s i x (length full) full o A O) as W. rewrite firstn_all in W.
    destruct o; try discriminate; injection ST as <- <-; (apply W; [discriminate|exact (FO i x eq_refl)|exact NA']).
  - destruct (on_interest E g (db_ops E) s i x) as [full o] eqn:O. pose proof (stays E g (db_ops E) id s i x n full o A O) as W.
    destruct o; try discriminate; injection ST as <- <-; (change (pending (db_ops E) (apply_effs (db_ops E) (firstn n full) s) id = pending (db_ops E) s id); apply W; [discriminate|exact (FO i x eq_refl)|exact NA']).
  - injection ST as <- <-. reflexivity.
  - destruct (on_get_profile E g (ca_prof s) i) as [full o] eqn:O.
    assert (SI : Forall silent full) by (unfold on_get_profile in O; destruct (profile_data E g (ca_prof s) (in_version i)); injection O as <- <-; try destruct (ca_prof s); repeat constructor).
    destruct o; try discriminate; injection ST as <- <-; unfold pending; rewrite (silent_store (db_ops E) full _ SI); reflexivity.
Qed.
Lemma holds : forall E g s tr s2 id r, steps E g (db_ops E) s tr s2 -> ca_at E g (db_ops E) s -> pending (db_ops E) s id = Some r -> not_the_owner E g id (public_key (rq_cert r)) tr ->
  pending (db_ops E) s2 id = Some r /\ no_add id tr.
Proof.
  intros E g s tr s2 id r H. induction H as [s|s ev es s1 tr s2 ST H IH]; intros A P NO; [split; [exact P|constructor]|].
  assert (P1 : pending (db_ops E) s1 id = Some r).
  { apply (holds_step E g s ev s1 es id r A ST P). intros i x EV N. apply (NO (HStep s ev es s1) i x); [left; reflexivity|apply ev_handles; exact EV|exact N]. }
  destruct (IH (ca_at_step E g db (db_ops E) _ _ _ _ A ST) P1 (fun st i x IN => NO st i x (or_intror IN))) as [P2 NA].
  split; [exact P2|]. constructor; [exact (taken_no_add E g _ _ _ _ _ _ _ _ A ST P)|exact NA].
Qed.
Lemma unseen_sqlite : forall E g s s' id r r' tr s2, ca_at E g (db_ops E) s -> ca_at E g (db_ops E) s' -> same_but (db_ops E) id s s' ->
  pending (db_ops E) s id = Some r -> pending (db_ops E) s' id = Some r' -> steps E g (db_ops E) s tr s2 ->
  not_the_owner E g id (public_key (rq_cert r)) tr -> not_the_owner E g id (public_key (rq_cert r')) tr ->
  exists tr' s2', steps E g (db_ops E) s' tr' s2' /\ Forall2 same_seen tr tr' /\ same_but (db_ops E) id s2 s2' /\ pending (db_ops E) s2 id = Some r /\ pending (db_ops E) s2' id = Some r' /\ no_add id tr.
Proof.
  intros E g s s' id r r' tr s2 A A' SB P P' H NO NO'. destruct (holds E g s tr s2 id r H A P NO) as [P2 NA].
  destruct (unseen E g db (db_ops E) s s' id tr s2 A A' SB H) as (tr' & s2' & H' & F & SB2); [|exact NA|].
  - intros r0 [Q|Q]; [rewrite P in Q; injection Q as <-; exact NO|rewrite P' in Q; injection Q as <-; exact NO'].
  - exists tr', s2'. split; [exact H'|]. split; [exact F|]. split; [exact SB2|]. split; [exact P2|]. split; [|exact NA].
    apply (holds E g s' tr' s2' id r' H' A' P'). intros st i x IN HD N. clear - F IN HD N NO'. induction F as [|a b l l' [EV _] F IH]; [destruct IN|].
    destruct IN as [<-|IN]; [apply (NO' a i x); [left; reflexivity| |exact N]; apply ev_handles; apply ev_handles in HD; rewrite <- EV; exact HD|].
    apply IH; [intros st0 i0 x0 IN0; apply NO'; right; exact IN0|exact IN].
Qed.
(** Whether there is a request under an ID can be told by anybody. *)
Lemma told_apart : forall E g S (ops : store_ops S) s s' i x id r, ca_at E g ops s -> ca_at E g ops s' -> names_request g id x ->
  pending ops s id = Some r -> ~ signed_by E x (public_key (rq_cert r)) -> pending ops s' id = None ->
  exists d d', step E g ops s (EvInterest i x) = Some (s, [EPut d]) /\ step E g ops s' (EvInterest i x) = Some (s', [EPut d']) /\ error_reply E g x 3 d /\ error_reply E g x 4 d' /\ d <> d'.
Proof.
  intros E g S ops s s' i x id r A A' N P U P'. destruct (unsigned_refused E g S ops s i x id r A N P U) as (d & ST & ER).
  pose proof (names_addressed g x id N) as AD. set (d' := error_data E g (i_name x) INVALID_PARAMETER (bs "No certificate request state can be found.")).
  assert (O : on_interest E g ops s' i x = ([EPut d'], Ok tt)).
  { rewrite (on_interest_at E g S ops _ s' i x AD). cbn [handle]. unfold on_challenge. rewrite (proj2 (challenge_id_names g x id AD) N). unfold pending in P'. rewrite P'. reflexivity. }
  assert (ER' : error_reply E g x 4 d') by (apply error_data_reply; split; [discriminate|]; split; [discriminate|vm_compute; reflexivity]).
  exists d, d'. split; [exact ST|]. split; [rewrite (ok_step E g S ops s' i x _ O); destruct s'; reflexivity|]. split; [exact ER|]. split; [exact ER'|].
  intros <-. destruct ER as (_ & _ & info & Q). destruct ER' as (_ & _ & info' & Q'). rewrite Q in Q'. discriminate Q'.
Qed.
