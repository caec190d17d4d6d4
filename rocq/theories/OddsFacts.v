(** An attacker with many tries: runs that differ in the codes drawn go in lockstep until the first right code. *)
From Verif Require Import TraceProps ChalProps SimFacts SecrecyFacts TraceCounts CryptoFacts GuessFacts.
From Verif Require Export Spec_Odds.
From Coq Require Import Lia.
Local Open Scope N_scope.

(** ** Where a code comes from *)
Section Origin.
  Context (E : env) (g : ca_cfg) {S : Type} (ops : store_ops S).
  Lemma waits_dec : forall (s : ca_state S) id, (exists c, waits_for ops s id c) \/ ~ exists c, waits_for ops s id c.
  Proof.
    intros s id. destruct (pending ops s id) as [r|] eqn:P; [|right; intros (c & r & cs & Q & _); congruence].
    destruct (rq_cs r) as [cs|] eqn:C; [|right; intros (c & r' & cs & Q & Q2 & _); congruence].
    destruct (sec_get (bs "code") (cs_secrets cs)) as [c|] eqn:G; [left; exists c, r, cs; auto|].
    right. intros (c & r' & cs' & Q & Q2 & Q3). rewrite P in Q. injection Q as <-. rewrite C in Q2. injection Q2 as <-. congruence.
  Qed.
  Lemma drawn_here : forall s ev s' es id c, ca_at E g ops s -> step E g ops s ev = Some (s', es) -> waits_for ops s' id c -> ~ (exists c', waits_for ops s id c') ->
    awaits ops s' id c /\ exists i x, ev_interest ev = Some (i, x) /\ gen_code (in_words i) = Ok c.
  Proof.
    intros s ev s' es id c A ST (r1 & cs1 & P1 & C1 & SG) NW.
    destruct (at_id_step S E g ops _ _ _ _ A ST) as (nrm & NO & IDS). destruct (IDS id) as [m1 M Z]. rewrite P1 in Z. destruct Z as [Z|[_ Z]]; [|discriminate]. subst m1.
    assert (SAME : pending ops s id = Some r1 -> False) by (intros Q; apply NW; exists c, r1, cs1; auto).
    inversion M as [es0 m F NN|i0 x0 es0 info FI EV0 N0 C|i0 x0 rt idkey peer c0 tail EV0 RT ID0 ADM CT|i0 x0 r0 es0 m EV0 N0 IDR CS].
    - exfalso. apply SAME. congruence.
    - exfalso. subst r1. discriminate C1.
    - subst m es0. assert (P : pending ops s id = Some r0) by congruence. destruct (pending_live E g S ops s id r0 A P) as [ID LV].
      inversion CS as [es1 F|info FI NS|code info tail SB PE C0|params ty dv cs2 em payload r3 tail SB OP K MV CE C0|params ty dv cs2 c0 PF RT IC|params ty dv cs2 c0 tail PF RT IC T|params ty dv cs2 tail PF RT T];
        try (exfalso; apply SAME; congruence).
      destruct (moved_cs E g nrm i0 x0 r0 params ty dv cs2 em payload r3 NO LV OP K MV CE) as (cs' & Q & Q1 & Q2).
      match goal with H : nrm r3 = r1 |- _ => rewrite H in Q end. rewrite Q in C1. injection C1 as <-. rewrite Q2 in SG.
      destruct MV as [[_ SS]|(BF & _ & cs0 & C1 & (given & code & life & _ & _ & SG2 & _))].
      + destruct SS; cbn [cs_status cs_secrets] in *; try discriminate SG.
        * split; [exists r1, cs'; repeat split; auto; [left; exact Q1|rewrite Q2; exact SG]|]. exists i0, x0. split; [exact EV0|]. cbn in SG. congruence.
        * split; [exists r1, cs'; repeat split; auto; [left; exact Q1|rewrite Q2; exact SG]|]. exists i0, x0. split; [exact EV0|]. cbn in SG. congruence.
      + exfalso. apply NW. cbn [set_div rq_cs] in C1. exists code, r0, cs0. auto.
  Qed.
End Origin.
Lemma snoc_ind : forall A (P : list A -> Prop), P [] -> (forall l a, P l -> P (l ++ [a])) -> forall l, P l.
Proof. intros A P H0 H1 l. apply rev_ind; auto. Qed.
Lemma drawable_code : forall w, drawable w -> gen_code [w] = Ok (code_of_word w).
Proof.
  intros w D. unfold gen_code, find, accepted_word. unfold drawable in D. rewrite N.mod_small by lia. apply N.ltb_lt in D. rewrite D. reflexivity.
Qed.
Lemma dealt_words : forall w ev i x, ev_interest (dealt w ev) = Some (i, x) -> in_words i = [w].
Proof. intros w [i0 x0|i0 x0 n key|key|i0] i x H; cbn in H; try discriminate; injection H as <- <-; reflexivity. Qed.
Lemma nth_drawable : forall tape n w, Forall drawable tape -> nth_error tape n = Some w -> drawable w.
Proof. intros tape n w F H. rewrite Forall_forall in F. apply F. eapply nth_error_In, H. Qed.
Section Runs.
  Context (E : env) (g : ca_cfg) {S : Type} (ops : store_ops S).
  Lemma played_cut : forall play tape (a b : list (hstep S)), played play tape (a ++ b) -> played play tape a.
  Proof. intros play tape a b H c st d Q. apply (H c st (d ++ b)). rewrite Q, <- app_assoc. reflexivity. Qed.
  (** The event that drew the code: before it the request did not wait for one, since then it does. *)
  Lemma origin : forall play tape s tr s2 id c, ca_at E g ops s -> no_codes ops s -> Forall drawable tape -> steps E g ops s tr s2 -> played play tape tr -> waits_for ops s2 id c ->
    awaits ops s2 id c /\ exists a st b w, tr = a ++ st :: b /\ ~ (exists c', waits_for ops (h_pre st) id c') /\ (forall st', In st' b -> exists c', waits_for ops (h_pre st') id c') /\
      nth_error tape (length a) = Some w /\ c = code_of_word w.
  Proof.
    intros play tape s tr s2 id c A NC D. revert s2 c. induction tr as [|tr st IH] using snoc_ind; intros s2 c H PL W.
    - inversion H; subst. destruct (NC id c W).
    - pose proof (steps_mid S E g ops tr st [] s s2 H) as (H1 & ST & H2). inversion H2; subst. pose proof (steps_at S E g ops s tr (h_pre st) A H1) as A1.
      destruct (waits_dec ops (h_pre st) id) as [[c' W']|NW].
      + destruct (IH (h_pre st) c' H1 (played_cut _ _ _ _ PL) W') as (AW & a & st0 & b & w & Q & Q1 & Q2 & Q3 & Q4).
        destruct (awaits_step E g ops _ _ _ _ id c' A1 ST AW) as [N|AW2]; [destruct W as (r & cs & P & _); congruence|]. pose proof (awaits_code ops _ id c' c AW2 W) as ->.
        split; [exact AW2|]. exists a, st0, (b ++ [st]), w. split; [rewrite Q, <- app_assoc; reflexivity|]. split; [exact Q1|]. split; [|auto].
        intros st' IN. apply in_app_or in IN as [IN|[<-|[]]]; [apply Q2, IN|eauto].
      + destruct (drawn_here E g ops _ _ _ _ id c A1 ST W NW) as (AW & i & x & EV & GC). split; [exact AW|].
        destruct (PL tr st [] eq_refl) as (w & NT & HE). exists tr, st, [], w. split; [reflexivity|]. split; [exact NW|]. split; [intros ? []|]. split; [exact NT|].
        rewrite HE in EV. rewrite (dealt_words _ _ _ _ EV), (drawable_code w (nth_drawable _ _ _ D NT)) in GC. congruence.
  Qed.
  Lemma dealt_same : forall w w' ev, drawable w -> drawable w' -> same_but_codes (dealt w ev) (dealt w' ev).
  Proof.
    intros w w' ev D D'. assert (OC : forall i, other_code (with_words [w] i) (with_words [w'] i)).
    { intros i. split; [exists [w']; destruct i; reflexivity|]. split; eexists; apply drawable_code; assumption. }
    destruct ev; constructor; apply OC.
  Qed.
  Lemma alike_waits : forall s s' id, alike ops s s' -> (exists c, waits_for ops s id c) <-> exists c, waits_for ops s' id c.
  Proof.
    intros s s' id (_ & _ & N). specialize (N id). unfold waits_for. inversion N as [Q1 Q2|r r' T Q1 Q2].
    - split; intros (c & r & cs & P & _); discriminate.
    - split; intros (c & r0 & cs0 & P & C & G); injection P as <-; destruct T as [|cs k k' X Y Z].
      + exists c, r, cs0. auto.
      + exists k'. do 2 eexists. split; [reflexivity|]. split; reflexivity.
      + exists c, r, cs0. auto.
      + exists k, r, cs. split; [reflexivity|]. split; [exact X|]. rewrite Z. reflexivity.
  Qed.
  (** Without a right code in either, both runs send the same. *)
  Lemma in_step : forall play t t' a p p' s s' a' s2 s2', ca_at E g ops s -> ca_at E g ops s' -> alike ops s s' -> Forall drawable t -> Forall drawable t' ->
    sent p = sent p' -> steps E g ops s a s2 -> steps E g ops s' a' s2' -> length a = length a' -> played play t (p ++ a) -> played play t' (p' ++ a') ->
    (forall st, In st (a ++ a') -> ~ hits E g ops st) ->
    alike ops s2 s2' /\ sent (p ++ a) = sent (p' ++ a') /\ Forall2 (fun u v => alike ops (h_pre u) (h_pre v)) a a'.
  Proof.
    intros play t t'. induction a as [|u a IH]; intros p p' s s' a' s2 s2' A A' AL D D' SP H H' LEN PL PL' NH.
    - destruct a'; [|discriminate LEN]. inversion H; subst. inversion H'; subst. rewrite !app_nil_r. split; [exact AL|]. split; [exact SP|constructor].
    - destruct a' as [|v a']; [discriminate LEN|]. destruct (PL p u a eq_refl) as (w & W & HE). destruct (PL' p' v a' eq_refl) as (w' & W' & HE'). rewrite <- SP in HE'.
      destruct (steps_first _ _ _ _ _ _ _ _ H) as (ev & es & s1 & -> & ST & H2). destruct (steps_first _ _ _ _ _ _ _ _ H') as (ev' & es' & s1' & -> & ST' & H2'). cbn [h_pre h_ev h_effs h_post] in *.
      destruct (step_twin E g ops s s' ev ev' es es' s1 s1' A A' AL) as [AL2 PQ]; try assumption.
      + rewrite HE, HE'. apply dealt_same; [exact (nth_drawable _ _ _ D W)|exact (nth_drawable _ _ _ D' W')].
      + apply NH. left. reflexivity.
      + apply NH. apply in_or_app. right. left. reflexivity.
      + destruct (IH (p ++ [HStep s ev es s1]) (p' ++ [HStep s' ev' es' s1']) s1 s1' a' s2 s2') as (X & Y & Z); try assumption.
        * exact (ca_at_step E g S ops _ _ _ _ A ST).
        * exact (ca_at_step E g S ops _ _ _ _ A' ST').
        * unfold sent in *. rewrite !map_app, SP. cbn [map h_effs]. rewrite PQ. reflexivity.
        * cbn [length] in LEN. lia.
        * rewrite <- app_assoc. exact PL.
        * rewrite <- app_assoc. exact PL'.
        * intros st IN. apply NH. apply in_app_or in IN as [IN|IN]; [right; apply in_or_app; auto|apply in_or_app; right; right; exact IN].
        * rewrite <- !app_assoc in Y. split; [exact X|]. split; [exact Y|]. constructor; [exact AL|exact Z].
  Qed.
  Lemma hits_dealt : forall s s' ev w w' es es' s1 s1' code, ca_at E g ops s -> alike ops s s' ->
    forall id, compares E g ops id (HStep s (dealt w ev) es s1) code -> compares E g ops id (HStep s' (dealt w' ev) es' s1') code.
  Proof.
    intros s s' ev w w' es es' s1 s1' c A (_ & _ & T) id (i & p & ty & r & cs & P & C & (x & HD & N & SB & O & SE) & (l & t & G1 & G2 & G3 & G4 & G5)). cbn [h_pre] in P. specialize (T id). rewrite P in T.
    inversion T as [|? r' TW Q1 Q2]; subst. destruct (twin_fields _ _ TW) as (F1 & F2 & _).
    assert (X : exists cs', rq_cs r' = Some cs' /\ cs_status cs' = cs_status cs /\ cs_time cs' = cs_time cs).
    { destruct TW as [|cs0 k k' B1 B2 B3]; [eauto|]. rewrite B1 in C. injection C as ->. eexists. split; [reflexivity|]. split; reflexivity. }
    destruct X as (cs' & X1 & X2 & X3). assert (Y : exists i', handles (HStep s' (dealt w' ev) es' s1') i' x /\ in_t1 i' = in_t1 i).
    { destruct HD as [HD|(n & key & HD)]; cbn [h_ev] in HD; destruct ev; try discriminate HD; injection HD; intros; subst; eexists; (split; [first [left; reflexivity|right; do 2 eexists; reflexivity]|reflexivity]). }
    destruct Y as (i' & Y1 & Y2). exists i', p, ty, r', cs'. split; [symmetry; exact Q2|]. split; [exact X1|]. rewrite F1, F2.
    split; [exists x; auto|]. exists l, t. unfold wants_code. rewrite X2, X3, Y2. auto.
  Qed.
  (** The run whose first right code is presented at its end. *)
  Definition first_hit (play : list (list data) -> event) (s : ca_state S) (tape : list N) (n : nat) : Prop :=
    exists tr st s', steps E g ops s (tr ++ [st]) s' /\ played play tape (tr ++ [st]) /\ hits E g ops st /\ (forall st0, In st0 tr -> ~ hits E g ops st0) /\ length tr = n.
  Lemma forall2_nth : forall A B (R : A -> B -> Prop) l l' n a b, Forall2 R l l' -> nth_error l n = Some a -> nth_error l' n = Some b -> R a b.
  Proof. intros A B R l l' n a b F. revert n. induction F as [|x y l l' R1 F IH]; intros [|n] H H'; try discriminate; cbn [nth_error] in *; [congruence|eapply IH; eassumption]. Qed.
  Lemma nth_mid : forall A (l a : list A) st b, l = a ++ st :: b -> nth_error l (length a) = Some st.
  Proof. intros A l a st b ->. rewrite nth_error_app2 by lia. rewrite PeanoNat.Nat.sub_diag. reflexivity. Qed.
  Lemma origin_le : forall id tr tr' a st b a' st' b', Forall2 (fun u v => alike ops (h_pre u) (h_pre v)) tr tr' -> tr = a ++ st :: b -> tr' = a' ++ st' :: b' ->
    (forall u, In u b -> exists c', waits_for ops (h_pre u) id c') -> ~ (exists c', waits_for ops (h_pre st') id c') -> (length a' <= length a)%nat.
  Proof.
    intros id tr tr' a st b a' st' b' F Q Q' W NW. destruct (Compare_dec.le_lt_dec (length a') (length a)) as [L|L]; [exact L|exfalso].
    pose proof (nth_mid _ _ _ _ _ Q') as N'. destruct (nth_error tr (length a')) as [u|] eqn:N.
    - apply NW. apply (alike_waits (h_pre u) (h_pre st') id (forall2_nth _ _ _ _ _ _ _ _ F N N')). apply W. rewrite Q, nth_error_app2 in N by lia.
      destruct (length a' - length a)%nat as [|k] eqn:K; [lia|]. cbn [nth_error] in N. eapply nth_error_In, N.
    - apply nth_error_None in N. assert (LL : length tr = length tr') by (clear -F; induction F; cbn [length]; auto). rewrite LL in N. rewrite Q', app_length in N. cbn [length] in N. lia.
  Qed.
  (** What the tapes with their first right code at the same event have in common. *)
  Lemma same_place : forall play s t n, ca_at E g ops s -> no_codes ops s -> Forall drawable t -> first_hit play s t n ->
    exists k w, (k <= n)%nat /\ nth_error t k = Some w /\ forall t', Forall drawable t' -> first_hit play s t' n -> exists w', nth_error t' k = Some w' /\ code_of_word w' = code_of_word w.
  Proof.
    intros play s t n A NC D (tr & st & s2 & H & PL & (id & r & cs & code & P & C & G & CM) & NH & LEN).
    destruct (steps_mid _ _ _ _ _ _ _ _ _ H) as (H1 & ST & _). assert (W : waits_for ops (h_pre st) id code) by (exists r, cs; auto).
    destruct (origin play t s tr (h_pre st) id code A NC D H1 (played_cut _ _ _ _ PL) W) as (_ & a & u & b & w & Q & Q1 & Q2 & Q3 & Q4).
    exists (length a), w. split; [rewrite Q, app_length in LEN; lia|]. split; [exact Q3|]. intros t' D' (tr' & st' & s2' & H' & PL' & (id' & r' & cs' & code' & P' & C' & G' & CM') & NH' & LEN').
    destruct (steps_mid _ _ _ _ _ _ _ _ _ H') as (H1' & ST' & _).
    destruct (in_step play t t' tr [] [] s s tr' (h_pre st) (h_pre st') A A (alike_refl ops s) D D' eq_refl H1 H1') as (AL & SE & F); cbn [app] in *.
    { congruence. } { exact (played_cut _ _ _ _ PL). } { exact (played_cut _ _ _ _ PL'). } { intros st0 IN. apply in_app_or in IN as [IN|IN]; auto. }
    destruct (PL tr st [] eq_refl) as (v & _ & HE). destruct (PL' tr' st' [] eq_refl) as (v' & _ & HE'). rewrite <- SE in HE'.
    pose proof (steps_at S E g ops s tr (h_pre st) A H1) as A1.
    assert (X : compares E g ops id st' code).
    { destruct st as [p0 e0 x0 q0], st' as [p0' e0' x0' q0']. cbn [h_pre h_ev] in *. subst e0 e0'. exact (hits_dealt p0 p0' _ v v' x0 x0' q0 q0' code A1 AL id CM). }
    assert (id' = id).
    { destruct X as (? & ? & ? & ? & ? & _ & _ & (xa & HD1 & N1 & _) & _). destruct CM' as (? & ? & ? & ? & ? & _ & _ & (xb & HD2 & N2 & _) & _).
      destruct (handles_same S st' _ _ _ _ HD1 HD2) as [_ <-]. exact (names_same g _ _ _ N2 N1). }
    subst id'. pose proof (one_code _ _ _ _ _ _ _ _ X CM') as <-. assert (W' : waits_for ops (h_pre st') id code) by (exists r', cs'; auto).
    destruct (origin play t' s tr' (h_pre st') id code A NC D' H1' (played_cut _ _ _ _ PL') W') as (_ & a' & u' & b' & w' & Z & Z1 & Z2 & Z3 & Z4).
    assert (LA : length a' = length a).
    { apply PeanoNat.Nat.le_antisymm; [exact (origin_le id tr tr' a u b a' u' b' F Q Z Q2 Z1)|].
      assert (F' : Forall2 (fun u v => alike ops (h_pre u) (h_pre v)) tr' tr).
      { clear -F. induction F as [|x y l l' R F IH]; constructor; [|exact IH]. destruct R as (K & P & N). split; [congruence|]. split; [congruence|]. intros id. specialize (N id).
        inversion N as [|r r' T]; [constructor|]. constructor. destruct T as [|cs k k' X Y Z]; [constructor|].
        assert (Q : r = set_cs (Some (with_secrets [(K_CODE, k)] (with_secrets [(K_CODE, k')] cs))) (set_cs (Some (with_secrets [(K_CODE, k')] cs)) r)).
        { destruct r, cs. cbn in *. subst. reflexivity. }
        rewrite Q at 2. apply (twin_code _ _ k' k); [reflexivity| |reflexivity]. destruct cs. exact Y. }
      exact (origin_le id tr' tr a' u' b' a u b F' Z Q Z2 Q1). }
    exists w'. rewrite <- LA. split; [exact Z3|congruence].
  Qed.
End Runs.

(** ** Counting tapes *)
Definition prepend (ws : list N) (ts : list (list N)) : list (list N) := flat_map (fun w => map (cons w) ts) ws.
Lemma prepend_length : forall ws ts, length (prepend ws ts) = (length ws * length ts)%nat.
Proof. intros ws ts. unfold prepend. induction ws as [|w ws IH]; [reflexivity|]. cbn [flat_map length]. rewrite app_length, map_length, IH. reflexivity. Qed.
Lemma prepend_in : forall ws ts w t, In w ws -> In t ts -> In (w :: t) (prepend ws ts).
Proof. intros ws ts w t H1 H2. unfold prepend. apply in_flat_map. exists w. split; [exact H1|]. apply in_map, H2. Qed.
Definition from_to (a n : N) : list N := map (fun k => a + N.of_nat k) (seq 0 (N.to_nat n)).
Lemma from_to_length : forall a n, N.of_nat (length (from_to a n)) = n.
Proof. intros a n. unfold from_to. rewrite map_length, seq_length. apply Nnat.N2Nat.id. Qed.
Lemma from_to_in : forall a n w, a <= w < a + n -> In w (from_to a n).
Proof. intros a n w H. unfold from_to. apply in_map_iff. exists (N.to_nat (w - a)). split; [rewrite Nnat.N2Nat.id; lia|]. apply in_seq. lia. Qed.
Fixpoint tapes (T : nat) : list (list N) := match T with O => [[]] | Datatypes.S T' => prepend (from_to 0 4294000000) (tapes T') end.
(** The tapes with a word for the same code as [w] at place [k]. *)
Fixpoint tapes_with (T k : nat) (w : N) : list (list N) :=
  match T with
  | O => []
  | Datatypes.S T' => match k with
    | O => prepend (from_to (4294 * (w / 4294)) 4294) (tapes T')
    | Datatypes.S k' => prepend (from_to 0 4294000000) (tapes_with T' k' w)
    end
  end.
Lemma tapes_length : forall T, N.of_nat (length (tapes T)) = 4294000000 ^ N.of_nat T.
Proof.
  induction T as [|T IH]; [reflexivity|]. change (tapes (Datatypes.S T)) with (prepend (from_to 0 4294000000) (tapes T)).
  rewrite prepend_length, Nnat.Nat2N.inj_mul, from_to_length, IH, Nnat.Nat2N.inj_succ, N.pow_succ_r'. reflexivity.
Qed.
Lemma tapes_with_length : forall T k w, N.of_nat (length (tapes_with T k w)) * 1000000 <= 4294000000 ^ N.of_nat T.
Proof.
  induction T as [|T IH]; intros k w; [cbn; lia|]. rewrite Nnat.Nat2N.inj_succ, N.pow_succ_r'. destruct k as [|k].
  - change (tapes_with (Datatypes.S T) 0 w) with (prepend (from_to (4294 * (w / 4294)) 4294) (tapes T)). rewrite prepend_length, Nnat.Nat2N.inj_mul, from_to_length, tapes_length.
    generalize (4294000000 ^ N.of_nat T). intros m. lia.
  - change (tapes_with (Datatypes.S T) (Datatypes.S k) w) with (prepend (from_to 0 4294000000) (tapes_with T k w)). rewrite prepend_length, Nnat.Nat2N.inj_mul, from_to_length.
    specialize (IH k w). rewrite <- N.mul_assoc. apply N.mul_le_mono_l, IH.
Qed.
Lemma tapes_in : forall t, Forall drawable t -> In t (tapes (length t)).
Proof.
  induction t as [|w t IH]; intros F; [left; reflexivity|]. inversion F as [|? ? D F2]; subst.
  change (tapes (length (w :: t))) with (prepend (from_to 0 4294000000) (tapes (length t))). apply prepend_in; [apply from_to_in; unfold drawable in D; lia|apply IH, F2].
Qed.
Lemma tapes_with_in : forall t k w w', Forall drawable t -> drawable w -> nth_error t k = Some w' -> code_of_word w' = code_of_word w -> In t (tapes_with (length t) k w).
Proof.
  induction t as [|v t IH]; intros k w w' F DW NT CW; [destruct k; discriminate|]. inversion F as [|? ? D F2]; subst. destruct k as [|k]; cbn [nth_error] in NT.
  - injection NT as <-. change (tapes_with (length (v :: t)) 0 w) with (prepend (from_to (4294 * (w / 4294)) 4294) (tapes (length t))).
    apply prepend_in; [|apply tapes_in, F2]. apply from_to_in. unfold drawable in *. apply same_code; try lia; try exact CW; unfold accepted_word; apply N.ltb_lt; rewrite N.mod_small; lia.
  - change (tapes_with (length (v :: t)) (Datatypes.S k) w) with (prepend (from_to 0 4294000000) (tapes_with (length t) k w)).
    apply prepend_in; [apply from_to_in; unfold drawable in D; lia|eapply IH; eassumption].
Qed.

Section Cover.
  Context (E : env) (g : ca_cfg) {S : Type} (ops : store_ops S).
  Lemma some_first : forall play s tape n tr, (length tr <= n)%nat -> forall st s', steps E g ops s (tr ++ [st]) s' -> played play tape (tr ++ [st]) -> hits E g ops st ->
    ~ ~ exists m, (m <= length tr)%nat /\ first_hit E g ops play s tape m.
  Proof.
    intros play s tape. induction n as [|n IH]; intros tr LE st s' H PL HI K.
    - destruct tr; [|cbn [length] in LE; lia]. apply K. exists O. split; [lia|]. exists [], st, s'. repeat split; auto.
    - assert (X : ~ exists st0, In st0 tr /\ hits E g ops st0).
      { intros (st0 & IN & H0). apply in_split in IN as (a & b & ->). rewrite <- app_assoc in H, PL. cbn [app] in H, PL.
        rewrite app_length in LE. cbn [length] in LE. assert (Q : a ++ st0 :: b ++ [st] = (a ++ [st0]) ++ b ++ [st]) by (rewrite <- app_assoc; reflexivity). rewrite Q in H, PL.
        apply steps_app in H as (m & H1 & _). apply played_cut in PL.
        apply (IH a ltac:(lia) st0 m H1 PL H0). intros (k & LK & FH). apply K. exists k. split; [rewrite app_length; lia|exact FH]. }
      apply K. exists (length tr). split; [lia|]. exists tr, st, s'. split; [exact H|]. split; [exact PL|]. split; [exact HI|]. split; [|reflexivity]. intros st0 IN H0. apply X. eauto.
  Qed.
  Lemma covered : forall play s T (l : list (list N)) m, ca_at E g ops s -> no_codes ops s -> (forall t, In t l -> length t = T /\ Forall drawable t) ->
    ~ ~ exists cov : list (nat * N), (length cov <= m)%nat /\
          forall t n, In t l -> (n < m)%nat -> first_hit E g ops play s t n -> exists p, In p cov /\ In t (tapes_with T (fst p) (snd p)).
  Proof.
    intros play s T l m A NC L. induction m as [|m IH]; intros K.
    - apply K. exists []. split; [apply le_n|]. intros t n _ LT. lia.
    - apply IH. intros (cov & LEN & C). apply (fun X : ~ ~ (((exists t, In t l /\ first_hit E g ops play s t m) \/ ~ exists t, In t l /\ first_hit E g ops play s t m)) => X); [tauto|].
      intros [(t0 & IN0 & FH0)|NO]; apply K.
      + destruct (L t0 IN0) as [L0 D0]. destruct (same_place E g ops play s t0 m A NC D0 FH0) as (k & w & LK & NT & SP). exists ((k, w) :: cov). split; [cbn [length]; lia|].
        intros t n IN LT FH. destruct (PeanoNat.Nat.eq_dec n m) as [->|NE].
        * destruct (L t IN) as [LT1 D1]. destruct (SP t D1 FH) as (w' & NT' & CW). exists (k, w). split; [left; reflexivity|]. cbn [fst snd]. rewrite <- LT1.
          apply (tapes_with_in t k w w' D1 (nth_drawable _ _ _ D0 NT) NT' CW).
        * destruct (C t n IN ltac:(lia) FH) as (p & P1 & P2). exists p. split; [right; exact P1|exact P2].
      + exists cov. split; [lia|]. intros t n IN LT FH. destruct (PeanoNat.Nat.eq_dec n m) as [->|NE]; [destruct NO; eauto|]. apply (C t n IN); [lia|exact FH].
  Qed.
  Lemma few_tapes : forall play s T (l : list (list N)), ca_at E g ops s -> no_codes ops s -> NoDup l ->
    (forall t, In t l -> length t = T /\ Forall drawable t /\ guessed E g ops play s t) -> N.of_nat (length l) * 1000000 <= N.of_nat T * 4294000000 ^ N.of_nat T.
  Proof.
    intros play s T l A NC ND L. destruct (N.le_gt_cases (N.of_nat (length l) * 1000000) (N.of_nat T * 4294000000 ^ N.of_nat T)) as [G|G]; [exact G|exfalso].
    apply (covered play s T l T A NC); [intros t IN; destruct (L t IN) as (X & Y & _); auto|]. intros (cov & LEN & C).
    assert (INC : incl l (flat_map (fun p => tapes_with T (fst p) (snd p)) cov)).
    { intros t IN. destruct (in_dec (list_eq_dec N.eq_dec) t (flat_map (fun p => tapes_with T (fst p) (snd p)) cov)) as [Y|Y]; [exact Y|exfalso].
      destruct (L t IN) as (LT & D & (tr & st & s' & H & PL & HI)). apply (some_first play s t (length tr) tr (le_n _) st s' H PL HI). intros (n & LN & FH).
      destruct (PL tr st [] eq_refl) as (w & NT & _). assert (length tr < T)%nat by (rewrite <- LT; apply nth_error_Some; congruence).
      destruct (C t n IN ltac:(lia) FH) as (p & P1 & P2). apply Y. apply in_flat_map. eauto. }
    pose proof (NoDup_incl_length ND INC) as LE. clear INC C.
    assert (B : N.of_nat (length (flat_map (fun p => tapes_with T (fst p) (snd p)) cov)) * 1000000 <= N.of_nat (length cov) * 4294000000 ^ N.of_nat T).
    { clear. induction cov as [|p cov IH]; [cbn; lia|]. cbn [flat_map length]. rewrite app_length, Nnat.Nat2N.inj_add, Nnat.Nat2N.inj_succ, N.mul_add_distr_r, N.mul_succ_l.
      pose proof (tapes_with_length T (fst p) (snd p)) as X. lia. }
    assert (X : N.of_nat (length cov) * 4294000000 ^ N.of_nat T <= N.of_nat T * 4294000000 ^ N.of_nat T) by (apply N.mul_le_mono_r; lia).
    assert (Y : N.of_nat (length l) * 1000000 <= N.of_nat (length (flat_map (fun p => tapes_with T (fst p) (snd p)) cov)) * 1000000) by (apply N.mul_le_mono_r; lia).
    lia.
  Qed.
  Lemma certified_guessed : forall play s t, ca_at E g ops s -> no_codes ops s -> Forall drawable t -> certified E g ops play s t -> guessed E g ops play s t.
  Proof.
    intros play s t A NC D (tr & st & s' & i & x & id & code & c & H & PL & HD & N & W & IN). exists tr, st, s'. split; [exact H|]. split; [exact PL|].
    destruct (steps_mid _ _ _ _ _ _ _ _ _ H) as (H1 & ST & _). destruct (origin E g ops play t s tr (h_pre st) id code A NC D H1 (played_cut _ _ _ _ PL) W) as (AW & _).
    pose proof (steps_at S E g ops s tr (h_pre st) A H1) as A1. apply ev_handles in HD.
    pose proof (issue_right E g ops (h_pre st) (h_ev st) (h_post st) (h_effs st) id code i x c A1 ST HD N (or_intror AW) IN) as CM. destruct W as (r & cs & P & C & G).
    exists id, r, cs, code. split; [exact P|]. split; [exact C|]. split; [exact G|]. destruct st; exact CM.
  Qed.
End Cover.
Lemma odds : forall E g S (ops : store_ops S) play s T (l : list (list N)), ca_at E g ops s -> no_codes ops s -> NoDup l ->
  (forall t, In t l -> length t = T /\ Forall drawable t /\ guessed E g ops play s t) -> N.of_nat (length l) * 1000000 <= N.of_nat T * 4294000000 ^ N.of_nat T.
Proof. intros E g S ops. exact (few_tapes E g ops). Qed.
Lemma odds_certificate : forall E g S (ops : store_ops S) play s T (l : list (list N)), ca_at E g ops s -> no_codes ops s -> NoDup l ->
  (forall t, In t l -> length t = T /\ Forall drawable t /\ certified E g ops play s t) -> N.of_nat (length l) * 1000000 <= N.of_nat T * 4294000000 ^ N.of_nat T.
Proof.
  intros E g S ops play s T l A NC ND L. apply (few_tapes E g ops play s T l A NC ND). intros t IN. destruct (L t IN) as (X & Y & Z). split; [exact X|]. split; [exact Y|].
  exact (certified_guessed E g ops play s t A NC Y Z).
Qed.
