(** The order in which Interests about different requests arrive: the proofs of C133. *)
From Verif Require Import TraceProps ChalProps CaProps CaFacts SimFacts SecrecyFacts GuessFacts IsolationFacts OutsiderFacts TracklessFacts.
From Verif Require Export Spec_Commute.
Local Open Scope N_scope.

Section Commute.
  Context (E : env) (g : ca_cfg) {S : Type} (ops : store_ops S).
  (** A step with an Interest about [id] depends on nothing else of the state and does not touch the rest. *)
  Lemma only_same : forall id s s' ev es s1, ca_at E g ops s -> ca_at E g ops s' -> ca_idkey s = ca_idkey s' -> pending ops s id = pending ops s' id -> step E g ops s ev = Some (s1, es) ->
    only_about E g id (HStep s ev es s1) -> exists s1', step E g ops s' ev = Some (s1', es) /\ only_about E g id (HStep s' ev es s1') /\ pending ops s1 id = pending ops s1' id.
  Proof.
    intros id s s' ev es s1 A A' K P ST [MF NR]. destruct (iso_step E g ops id s s' ev es s1 A A' (conj K P) ST) as [(_ & s1' & ST' & _ & P1)|(NM & _)]; [|contradiction].
    exists s1'. split; [exact ST'|]. split; [|exact P1]. split; [|exact NR]. destruct MF as (i & x & HD & M). exists i, x. split; [exact HD|]. cbn [h_pre] in *. rewrite <- K. exact M.
  Qed.
  Lemma swap_two : forall id id' s ev es s1 ev' es' s2, id <> id' -> ca_at E g ops s -> step E g ops s ev = Some (s1, es) -> step E g ops s1 ev' = Some (s2, es') ->
    only_about E g id (HStep s ev es s1) -> only_about E g id' (HStep s1 ev' es' s2) ->
    exists s1' s2', step E g ops s ev' = Some (s1', es') /\ step E g ops s1' ev = Some (s2', es) /\ looks_like ops s2 s2'.
  Proof.
    intros id id' s ev es s1 ev' es' s2 D A ST ST' OA OA'. pose proof (ca_at_step E g S ops _ _ _ _ A ST) as A1. pose proof (ca_at_step E g S ops _ _ _ _ A1 ST') as A2.
    destruct (about_step E g ops id s ev es s1 A ST (proj1 OA) (proj2 OA)) as (K1 & P1 & R1). destruct (about_step E g ops id' s1 ev' es' s2 A1 ST' (proj1 OA') (proj2 OA')) as (K2 & P2 & R2).
    destruct (only_same id' s1 s ev' es' s2 A1 A K1 (R1 id' (fun Q => D (eq_sym Q))) ST' OA') as (s1' & SU & OU & Q1). pose proof (ca_at_step E g S ops _ _ _ _ A SU) as B1.
    destruct (about_step E g ops id' s ev' es' s1' A SU (proj1 OU) (proj2 OU)) as (K3 & P3 & R3).
    destruct (only_same id s s1' ev es s1 A B1 (eq_sym K3) (eq_sym (R3 id D)) ST OA) as (s2' & SV & OV & Q2).
    destruct (about_step E g ops id s1' ev es s2' B1 SV (proj1 OV) (proj2 OV)) as (K4 & P4 & R4).
    exists s1', s2'. split; [exact SU|]. split; [exact SV|]. constructor; [congruence|congruence|]. intros k.
    destruct (bytes_eqb k id) eqn:B; [apply bytes_eqb_eq in B; subst k; rewrite (R2 id D); exact Q2|].
    assert (KD : k <> id) by (intros ->; rewrite bytes_eqb_refl in B; discriminate).
    destruct (bytes_eqb k id') eqn:B'; [apply bytes_eqb_eq in B'; subst k; rewrite (R4 id' KD); exact Q1|].
    assert (KD' : k <> id') by (intros ->; rewrite bytes_eqb_refl in B'; discriminate).
    rewrite (R2 k KD'), (R1 k KD), (R4 k KD), (R3 k KD'). reflexivity.
  Qed.
  Lemma steps_split : forall tr1 s tr2 s2, steps E g ops s (tr1 ++ tr2) s2 -> exists s1, steps E g ops s tr1 s1 /\ steps E g ops s1 tr2 s2.
  Proof.
    induction tr1 as [|st tr1 IH]; intros s tr2 s2 H; cbn [app] in H; [exists s; split; [constructor|exact H]|].
    inversion H; subst. match goal with Q : steps _ _ _ _ (tr1 ++ tr2) _ |- _ => destruct (IH _ _ _ Q) as (s1' & H1 & H2) end. exists s1'. split; [econstructor; eassumption|exact H2].
  Qed.
  Lemma steps_join : forall s tr1 s1, steps E g ops s tr1 s1 -> forall tr2 s2, steps E g ops s1 tr2 s2 -> steps E g ops s (tr1 ++ tr2) s2.
  Proof. intros s tr1 s1 H. induction H; intros tr2 s2' H2; [exact H2|]. cbn [app]. econstructor; [eassumption|]. apply IHsteps, H2. Qed.
  Lemma steps_at : forall s tr s2, steps E g ops s tr s2 -> ca_at E g ops s -> ca_at E g ops s2.
  Proof. intros s tr s2 H. induction H as [s|s ev es s1 tr s2 ST H IH]; intros A; [exact A|exact (IH (ca_at_step E g S ops _ _ _ _ A ST))]. Qed.
  Lemma seen_map : forall tr tr', Forall2 (@same_seen S) tr tr' -> map seen tr' = map seen tr.
  Proof. intros tr tr' F. induction F as [|a b l l' [EV EF] F IH]; [reflexivity|]. cbn [map]. unfold seen at 1 3. rewrite EV, EF, IH. reflexivity. Qed.
End Commute.
Lemma commute : forall E g S (ops : store_ops S) s a st st' b s2 id id', ca_at E g ops s -> steps E g ops s (a ++ st :: st' :: b) s2 ->
  only_about E g id st -> only_about E g id' st' -> id <> id' ->
  exists tr s2', steps E g ops s tr s2' /\ map seen tr = map seen (a ++ st' :: st :: b) /\ forall id0, pending ops s2' id0 = pending ops s2 id0.
Proof.
  intros E g S ops s a st st' b s2 id id' A H OA OA' D. destruct (steps_split E g ops a s _ s2 H) as (s0 & HA & HB). pose proof (steps_at E g ops s a s0 HA A) as A0.
  inversion HB as [|? ev es s1 ? ? ST HC Q1 Q2 Q3]; subst. inversion HC as [|? ev' es' s1b ? ? ST' HD Q1 Q2 Q3]; subst.
  destruct (swap_two E g ops id id' s0 ev es s1 ev' es' s1b D A0 ST ST' OA OA') as (t1 & t2 & SU & SV & L).
  pose proof (ca_at_step E g S ops _ _ _ _ A0 ST) as A1. pose proof (ca_at_step E g S ops _ _ _ _ A1 ST') as A2. pose proof (ca_at_step E g S ops _ _ _ _ A0 SU) as B1. pose proof (ca_at_step E g S ops _ _ _ _ B1 SV) as B2.
  destruct (looks_steps E g ops s1b b s2 HD t2 A2 B2 L) as (b' & s2' & HD' & F & L2).
  exists (a ++ HStep s0 ev' es' t1 :: HStep t1 ev es t2 :: b'), s2'. split; [apply (steps_join E g ops s a s0 HA); econstructor; [exact SU|]; econstructor; [exact SV|exact HD']|].
  split; [|intros id0; symmetry; apply L2]. rewrite !map_app. cbn [map]. rewrite (seen_map b b' F). reflexivity.
Qed.

(** ** Interleavings *)
Section Interleavings.
  Context (E : env) (g : ca_cfg) {S : Type} (ops : store_ops S) (k : bytes).
  Definition good (p : bytes * (event * list eff)) : Prop := interest_about E g k (fst p) (fst (snd p)).
  Inductive goes : ca_state S -> labelled -> ca_state S -> Prop :=
  | goes_nil : forall s, goes s [] s
  | goes_cons : forall s id ev es s1 l s2, step E g ops s ev = Some (s1, es) -> good (id, (ev, es)) -> goes s1 l s2 -> goes s ((id, (ev, es)) :: l) s2.
  Lemma good_only : forall (s : ca_state S) id ev es s1, ca_idkey s = k -> good (id, (ev, es)) -> only_about E g id (HStep s ev es s1).
  Proof.
    intros s id ev es s1 K (i & x & EV & M). cbn [fst snd] in *. subst ev. split; [|intros key [Q|(j & y & n & Q)]; discriminate Q].
    exists i, x. split; [left; reflexivity|]. cbn [h_pre]. rewrite K. exact M.
  Qed.
  Lemma good_key : forall s id ev es s1, ca_at E g ops s -> ca_idkey s = k -> good (id, (ev, es)) -> step E g ops s ev = Some (s1, es) -> ca_idkey s1 = k.
  Proof. intros s id ev es s1 A K G ST. destruct (good_only s id ev es s1 K G) as [MF NR]. rewrite (proj1 (about_step E g ops id s ev es s1 A ST MF NR)). exact K. Qed.
  Lemma goes_looks : forall s l s2, goes s l s2 -> forall s', ca_at E g ops s -> ca_at E g ops s' -> looks_like ops s s' -> exists s2', goes s' l s2' /\ looks_like ops s2 s2'.
  Proof.
    intros s l s2 H. induction H as [s|s id ev es s1 l s2 ST G H IH]; intros s' A A' L; [exists s'; split; [constructor|exact L]|].
    destruct (looks_step E g ops s s' ev es s1 A A' L ST) as (s1' & ST' & L1). destruct (IH s1' (ca_at_step E g S ops _ _ _ _ A ST) (ca_at_step E g S ops _ _ _ _ A' ST') L1) as (s2' & H' & L2).
    exists s2'. split; [econstructor; eassumption|exact L2].
  Qed.
  (** The first step about a request can come first. *)
  Lemma goes_front : forall a p b s s2, ca_at E g ops s -> ca_idkey s = k -> goes s (a ++ p :: b) s2 -> Forall (fun q => fst q <> fst p) a -> exists s2', goes s (p :: a ++ b) s2' /\ looks_like ops s2 s2'.
  Proof.
    induction a as [|q a IH]; intros p b s s2 A K H F; [exists s2; split; [exact H|]; constructor; reflexivity|]. inversion F as [|? ? D F']; subst. cbn [app] in H.
    inversion H as [|? id ev es s1 ? ? ST G H1]; subst. cbn [fst] in D. pose proof (ca_at_step E g S ops _ _ _ _ A ST) as A1. pose proof (good_key s id ev es s1 A K G ST) as K1.
    destruct (IH p b s1 s2 A1 K1 H1 F') as (s2' & H2 & L). inversion H2 as [|? id' ev' es' s1' ? ? ST' G' H3]; subst. cbn [fst] in D. pose proof (ca_at_step E g S ops _ _ _ _ A1 ST') as A2.
    destruct (swap_two E g ops id id' s ev es s1 ev' es' s1' D A ST ST' (good_only s id ev es s1 K G) (good_only s1 id' ev' es' s1' K1 G')) as (t1 & t2 & SU & SV & L1).
    pose proof (ca_at_step E g S ops _ _ _ _ (ca_at_step E g S ops _ _ _ _ A SU) SV) as B2.
    destruct (goes_looks s1' (a ++ b) s2' H3 t2 A2 B2 L1) as (s3 & H4 & L2). exists s3. split; [|exact (looks_trans ops _ _ _ L L2)].
    econstructor; [exact SU|exact G'|]. cbn [app]. econstructor; [exact SV|exact G|exact H4].
  Qed.
  Lemma first_of : forall id (l : labelled) e r, of_request id l = e :: r -> exists a b, l = a ++ (id, e) :: b /\ Forall (fun q => fst q <> id) a /\ of_request id b = r.
  Proof.
    intros id l. induction l as [|[j f] l IH]; intros e r H; [discriminate H|]. unfold of_request in H. cbn [filter fst] in H. destruct (bytes_eqb j id) eqn:B.
    - apply bytes_eqb_eq in B. subst j. cbn [map snd] in H. injection H as -> H. exists [], l. split; [reflexivity|]. split; [constructor|exact H].
    - destruct (IH e r H) as (a & b & -> & F & Q). exists ((j, f) :: a), b. split; [reflexivity|]. split; [|exact Q]. constructor; [|exact F]. cbn [fst]. intros ->. rewrite bytes_eqb_refl in B. discriminate.
  Qed.
  Lemma of_app : forall id a b, of_request id (a ++ b) = of_request id a ++ of_request id b.
  Proof. intros id a b. unfold of_request. rewrite filter_app, map_app. reflexivity. Qed.
  Lemma of_none : forall id a, Forall (fun q => fst q <> id) a -> of_request id a = [].
  Proof. intros id a F. induction F as [|[j f] a D F IH]; [reflexivity|]. unfold of_request. cbn [filter fst] in *. destruct (bytes_eqb j id) eqn:B; [apply bytes_eqb_eq in B; contradiction|exact IH]. Qed.
  Lemma goes_any : forall l' l s s2, ca_at E g ops s -> ca_idkey s = k -> goes s l s2 -> (forall id, of_request id l' = of_request id l) -> exists s2', goes s l' s2' /\ looks_like ops s2 s2'.
  Proof.
    induction l' as [|[id e] l' IH]; intros l s s2 A K H Q.
    - destruct l as [|[id e] l]; [exists s2; split; [exact H|constructor; reflexivity]|]. specialize (Q id). unfold of_request in Q. cbn [filter fst] in Q. rewrite bytes_eqb_refl in Q. discriminate Q.
    - pose proof (Q id) as QI. unfold of_request at 1 in QI. cbn [filter fst] in QI. rewrite bytes_eqb_refl in QI. cbn [map snd] in QI. fold (of_request id l') in QI. symmetry in QI.
      destruct (first_of id l e _ QI) as (a & b & -> & F & QB). destruct (goes_front a (id, e) b s s2 A K H F) as (s2' & H1 & L). inversion H1 as [|? j ev es s1 ? ? ST G H2]; subst.
      destruct (IH (a ++ b) s1 s2' (ca_at_step E g S ops _ _ _ _ A ST) (good_key s id ev es s1 A K G ST) H2) as (s3 & H3 & L3).
      + intros j. destruct (bytes_eqb j id) eqn:B; [apply bytes_eqb_eq in B; subst j; rewrite of_app, (of_none id a F); symmetry; exact QB|].
        specialize (Q j). rewrite of_app in Q |- *. unfold of_request at 1 3 in Q. cbn [filter fst] in Q.
        assert (B' : bytes_eqb id j = false) by (destruct (bytes_eqb id j) eqn:B'; [apply bytes_eqb_eq in B'; subst j; rewrite bytes_eqb_refl in B; discriminate|reflexivity]). rewrite B' in Q. exact Q.
      + exists s3. split; [econstructor; eassumption|exact (looks_trans ops _ _ _ L L3)].
  Qed.
  Lemma goes_steps : forall s l s2, goes s l s2 -> exists tr, steps E g ops s tr s2 /\ map seen tr = map snd l.
  Proof.
    intros s l s2 H. induction H as [s|s id ev es s1 l s2 ST G H (tr & IH & Q)]; [exists []; split; [constructor|reflexivity]|].
    exists (HStep s ev es s1 :: tr). split; [econstructor; eassumption|]. cbn [map snd]. rewrite Q. reflexivity.
  Qed.
  Lemma steps_goes : forall s tr s2, steps E g ops s tr s2 -> forall l, map seen tr = map snd l -> Forall good l -> goes s l s2.
  Proof.
    intros s tr s2 H. induction H as [s|s ev es s1 tr s2 ST H IH]; intros [|[id e] l] Q F; try discriminate Q; [constructor|].
    cbn [map snd] in Q. unfold seen at 1 in Q. cbn [h_ev h_effs] in Q. injection Q as <- Q. inversion F; subst. econstructor; [exact ST|assumption|]. apply IH; assumption.
  Qed.
End Interleavings.
Lemma any_order : forall E g S (ops : store_ops S) s tr s2 l l', ca_at E g ops s -> steps E g ops s tr s2 -> map seen tr = map snd l ->
  Forall (fun p => interest_about E g (ca_idkey s) (fst p) (fst (snd p))) l -> (forall id, of_request id l' = of_request id l) ->
  exists tr' s2', steps E g ops s tr' s2' /\ map seen tr' = map snd l' /\ forall id, pending ops s2' id = pending ops s2 id.
Proof.
  intros E g S ops s tr s2 l l' A H Q F O. pose proof (steps_goes E g ops (ca_idkey s) s tr s2 H l Q F) as G.
  destruct (goes_any E g ops (ca_idkey s) l' l s s2 A eq_refl G O) as (s2' & G' & L). destruct (goes_steps E g ops (ca_idkey s) s l' s2' G') as (tr' & H' & Q').
  exists tr', s2'. split; [exact H'|]. split; [exact Q'|]. intros id. symmetry. apply L.
Qed.
