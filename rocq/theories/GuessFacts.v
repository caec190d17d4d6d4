(** At most three codes let an attacker in, whatever it sends. *)
From Verif Require Import TraceProps ChalProps SimFacts SecrecyFacts TraceCounts CryptoFacts.
From Verif Require Export Spec_Guess.
From Coq Require Import Lia.
Local Open Scope N_scope.

(** ** Facts about single events *)
Lemma opens_same : forall E key id x p p', opens E key id x p -> opens E key id x p' -> p = p'.
Proof.
  intros E key id x p p' (els & iv & tag & ct & pt & A1 & A2 & A3 & A4 & A5 & A6) (els' & iv' & tag' & ct' & pt' & B1 & B2 & B3 & B4 & B5 & B6).
  rewrite A1 in B1. injection B1 as <-. rewrite A2 in B2. injection B2 as <-. rewrite A3 in B3. injection B3 as <-. rewrite A4 in B4. injection B4 as <-.
  rewrite A5 in B5. injection B5 as <-. congruence.
Qed.
Lemma verb_same : forall g v v' n, addressed g v n -> addressed g v' n -> v = v'.
Proof.
  intros g v v' n A B. apply dispatch_iff in A, B. destruct (dispatch_cases g n) as [D|(w & D & _)]; rewrite D in A, B; [destruct A|].
  destruct A as [<-|[]], B as [<-|[]]. reflexivity.
Qed.
Lemma one_code : forall S E g (ops : store_ops S) id st c c', compares E g ops id st c -> compares E g ops id st c' -> c = c'.
Proof.
  intros S E g ops id st c c' (i & p & ty & r & cs & P & C & (x & H & _ & _ & O & _) & (l & t & _ & _ & G & <- & _)) (i' & p' & ty' & r' & cs' & P' & C' & (x' & H' & _ & _ & O' & _) & (l' & t' & _ & _ & G' & <- & _)).
  rewrite P in P'. injection P' as <-. destruct (handles_same S st i x i' x' H H') as [<- <-]. pose proof (opens_same _ _ _ _ _ _ O O') as <-. congruence.
Qed.
(** The CA waits for this code, and the challenge is one that asks for codes. *)
Definition awaits {S} (ops : store_ops S) (s : ca_state S) (id c : bytes) : Prop :=
  exists r cs, pending ops s id = Some r /\ rq_cs r = Some cs /\ wants_code cs /\ sec_get (bs "code") (cs_secrets cs) = Some c.
Section Steps.
  Context (E : env) (g : ca_cfg) {S : Type} (ops : store_ops S).
  Lemma moved_cs : forall nrm i x r params ty dv cs em payload r3, nrm_ok nrm -> live r -> opened E x r params ty dv -> known_type ty -> moves E (cf_chal g) i params (set_div dv r) ty cs em ->
    chal_encode E (moved dv ty cs r) [] [] (rnd_iv i) = (Ok payload, r3) -> exists cs', rq_cs (nrm r3) = Some cs' /\ cs_status cs' = cs_status cs /\ cs_secrets cs' = cs_secrets cs.
  Proof.
    intros nrm i x r params ty dv cs em payload r3 NO LV OP K MV CE. destruct (moved_live E g i x r params ty dv cs em payload r3 LV OP K MV CE) as (iv2 & -> & _).
    destruct (NO (set_eiv iv2 (moved dv ty cs r))) as [Q|Q]; rewrite Q; eexists; (split; [reflexivity|]; split; reflexivity).
  Qed.
  Lemma start_awaits : forall s ev s' es id r c, ca_at E g ops s -> step E g ops s ev = Some (s', es) -> pending ops s id = Some r -> rq_cs r = None ->
    waits_for ops s' id c -> awaits ops s' id c.
  Proof.
    intros s ev s' es id r c A ST P RC (r1 & cs1 & P1 & C1 & SG). exists r1, cs1. split; [exact P1|]. split; [exact C1|]. split; [|exact SG].
    destruct (pending_live E g S ops s id r A P) as [ID LV]. destruct (at_id_step S E g ops _ _ _ _ A ST) as (nrm & NO & IDS). destruct (IDS id) as [m1 M Z]. rewrite P in M. rewrite P1 in Z.
    destruct Z as [Z|[_ Z]]; [|discriminate]. subst m1.
    inversion M as [es0 m F NN|i0 x0 es0 info FI EV0 N0 C|i0 x0 rt idkey peer c0 tail EV0 RT ID0 ADM CT|i0 x0 r0 es0 m EV0 N0 IDR CS]; subst; try congruence.
    inversion CS as [es1 F|info FI NS|code info tail SB PE C0|params ty dv cs2 em payload r3 tail SB OP K MV CE C0|params ty dv cs2 c0 PF RT IC|params ty dv cs2 c0 tail PF RT IC T|params ty dv cs2 tail PF RT T]; subst; try congruence.
    destruct (moved_cs nrm i0 x0 r params ty dv cs2 em payload r3 NO LV OP K MV CE) as (cs' & Q & Q1 & Q2). rewrite Q in C1. injection C1 as <-.
    rewrite Q2 in SG. destruct MV as [[_ SS]|(BF & _ & cs0 & C1 & _)]; [|cbn [set_div rq_cs] in C1; congruence].
    destruct SS; cbn [cs_status cs_secrets] in *; try (left; exact Q1). discriminate SG.
  Qed.
  Lemma awaits_step : forall s ev s' es id c, ca_at E g ops s -> step E g ops s ev = Some (s', es) -> awaits ops s id c -> pending ops s' id = None \/ awaits ops s' id c.
  Proof.
    intros s ev s' es id c A ST (r & cs & P & RC & WC & SG). assert (SAME : pending ops s' id = Some r -> pending ops s' id = None \/ awaits ops s' id c) by (intros Q; right; exists r, cs; auto).
    destruct (pending_live E g S ops s id r A P) as [ID LV]. destruct (at_id_step S E g ops _ _ _ _ A ST) as (nrm & NO & IDS). destruct (IDS id) as [m1 M Z]. rewrite P in M.
    destruct Z as [Z|[_ Z]]; [|left; exact Z].
    inversion M as [es0 m F NN|i0 x0 es0 info FI EV0 N0 C|i0 x0 rt idkey peer c0 tail EV0 RT ID0 ADM CT|i0 x0 r0 es0 m EV0 N0 IDR CS]; [apply SAME; congruence|]. subst r0 es0 m.
    inversion CS as [es1 F|info FI NS|code info tail SB PE C0|params ty dv cs2 em payload r3 tail SB OP K MV CE C0|params ty dv cs2 c0 PF RT IC|params ty dv cs2 c0 tail PF RT IC T|params ty dv cs2 tail PF RT T];
      try (apply SAME; congruence); try (left; congruence).
    right. destruct (moved_cs nrm i0 x0 r params ty dv cs2 em payload r3 NO LV OP K MV CE) as (cs' & Q & Q1 & Q2). exists (nrm r3), cs'. split; [congruence|]. split; [exact Q|].
    destruct MV as [[BF _]|(BF & _ & cs0 & C1 & (given & code & life & _ & _ & _ & _ & TT & ->))]; [destruct (live_before r LV BF); cbn [set_div rq_status] in *; congruence|].
    cbn [set_div rq_cs] in C1. rewrite RC in C1. injection C1 as <-. cbn [cs_status cs_secrets] in Q1, Q2. unfold wants_code. rewrite Q1, Q2. split; [right; reflexivity|exact SG].
  Qed.
  Lemma awaits_steps : forall tr s s' id c, ca_at E g ops s -> steps E g ops s tr s' -> no_add id tr -> pending ops s id = None \/ awaits ops s id c -> pending ops s' id = None \/ awaits ops s' id c.
  Proof.
    intros tr s s' id c A H. revert A. induction H as [|s ev es s1 tr s2 ST H IH]; intros A NA W; [exact W|]. inversion NA as [|? ? N1 N2]; subst.
    apply IH; [eapply ca_at_step; eassumption|exact N2|]. destruct W as [W|W]; [|eapply awaits_step; eassumption].
    left. apply (none_stays E g S ops id s [HStep s ev es s1] s1 A); [econstructor; [exact ST|constructor]|exact W|constructor; [exact N1|constructor]].
  Qed.
  Lemma awaits_code : forall s id c c', awaits ops s id c -> waits_for ops s id c' -> c' = c.
  Proof. intros s id c c' (r & cs & P & C & _ & G) (r' & cs' & P' & C' & G'). rewrite P in P'. injection P' as <-. rewrite C in C'. injection C' as <-. congruence. Qed.
  (** The right code, compared and answered, ends the request. *)
  Lemma right_gone : forall s ev s' es id c, ca_at E g ops s -> step E g ops s ev = Some (s', es) -> awaits ops s id c -> compares E g ops id (HStep s ev es s') c ->
    answered (HStep s ev es s') -> pending ops s' id = None.
  Proof.
    intros s ev s' es id c A ST (r & cs & P & RC & WC & SG) (i & p & ty & r' & cs' & P' & RC' & (x & HD & N & SB & O & SE) & (l & t & CL & _ & GT & GV & _)) AN.
    cbn [h_pre] in P'. rewrite P in P'. injection P' as <-. apply ev_handles in HD. cbn [h_ev] in HD.
    destruct (pending_live E g S ops s id r A P) as [ID LV]. destruct (at_id_step S E g ops _ _ _ _ A ST) as (nrm & NO & IDS). destruct (IDS id) as [m1 M Z]. rewrite P in M.
    destruct Z as [Z|[_ Z]]; [|exact Z].
    inversion M as [es0 m F NN|i0 x0 es0 info FI EV0 N0 C|i0 x0 rt idkey peer c0 tail EV0 RT ID0 ADM CT|i0 x0 r0 es0 m EV0 N0 IDR CS]; [destruct (NN i x HD N)|]. subst r0 es0 m. rewrite HD in EV0. injection EV0 as <- <-.
    inversion CS as [es1 F|info FI NS|code info tail SB0 PE C0|params ty0 dv cs2 em payload r3 tail SB0 OP K MV CE C0|params ty0 dv cs2 c0 PF RT IC|params ty0 dv cs2 c0 tail PF RT IC T|params ty0 dv cs2 tail PF RT T]; try congruence.
    - destruct AN. cbn [h_effs]. clear -F. induction F as [|e l Q _ IH]; [reflexivity|]. destruct e; try (destruct Q; fail). exact IH.
    - exfalso. destruct (opened_opens E x r params ty0 dv OP) as [OO _]. rewrite ID in OO. pose proof (opens_same _ _ _ _ _ _ O OO) as <-.
      destruct MV as [[BF _]|(BF & _ & cs0 & C1 & (given & code & life & (l2 & t2 & _ & _ & GT2 & GV2 & _) & _ & SG2 & NE & _))]; [destruct (live_before r LV BF); cbn [set_div rq_status] in *; congruence|].
      cbn [set_div rq_cs] in C1. rewrite RC in C1. injection C1 as <-. congruence.
    - destruct AN. cbn [h_effs]. match goal with Q : _ = es |- _ => rewrite <- Q end. reflexivity.
  Qed.
  (** A certificate is issued only for the right code. *)
  Lemma issue_right : forall s ev s' es id c i x ct, ca_at E g ops s -> step E g ops s ev = Some (s', es) -> ev_interest ev = Some (i, x) -> names_request g id x ->
    pending ops s id = None \/ awaits ops s id c -> In (EIssue ct) es -> compares E g ops id (HStep s ev es s') c.
  Proof.
    intros s ev s' es id c i x ct A ST EV N W IN. destruct (chal_event E g S ops s ev s' es (EIssue ct) A ST IN I) as (i0 & x0 & id0 & r & nrm & m & EV0 & N0 & P & IDR & LV & NO & CS & _).
    rewrite EV in EV0. injection EV0 as <- <-. pose proof (names_same g id id0 x N N0) as <-. destruct W as [W|(r1 & cs & P1 & RC & WC & SG)]; [congruence|]. rewrite P in P1. injection P1 as <-.
    assert (PF : exists params ty dv cs1, pass_facts E i x r params ty dv cs1).
    { assert (TL : forall tail d c0, cut tail [EPut d; ECallback c0] -> ~ In (EIssue ct) tail).
      { intros tail d c0 [rest Q] Y. assert (In (EIssue ct) [EPut d; ECallback c0]) as [B|[B|[]]] by (rewrite Q; apply in_or_app; auto); discriminate. }
      assert (EM : forall em, ~ In (EIssue ct) (email_effs em)) by (intros [y|] Y; [destruct Y as [Y|[]]; discriminate|destruct Y]).
      inversion CS as [es1 F|info FI NS|code info tail SB PE C0|params ty dv cs1 em payload r3 tail SB OP K MV CE C0|params ty dv cs1 c0 PF RT IC|params ty dv cs1 c0 tail PF RT IC T|params ty dv cs1 tail PF RT T]; subst es; eauto 10; exfalso.
      - rewrite Forall_forall in F. exact (F _ IN).
      - destruct IN as [IN|[]]. discriminate.
      - destruct IN as [IN|IN]; [discriminate|]. destruct C0 as [rest Q]. assert (In (EIssue ct) [EPut (error_data E g (i_name x) code info)]) as [B|[]] by (rewrite Q; apply in_or_app; auto). discriminate.
      - apply in_app_or in IN as [IN|[IN|IN]]; [exact (EM _ IN)|discriminate|exact (TL _ _ _ C0 IN)]. }
    destruct PF as (params & ty & dv & cs1 & SB & OP & KT & _ & RC1 & PA). rewrite RC in RC1. injection RC1 as <-. destruct (opened_opens E x r params ty dv OP) as [OO SE]. rewrite IDR in OO.
    destruct PA as [ty code GU SG2|c1 w t nonce proof Q _ _ _ _ _ _ _]; [|destruct WC as [Y|Y]; rewrite Y in Q; discriminate].
    assert (code = c) by congruence. subst code. exists i, params, ty, r, cs. split; [exact P|]. split; [exact RC|]. split; [|exact GU]. exists x. split; [apply ev_handles; exact EV|auto].
  Qed.
End Steps.

(** ** Two runs side by side *)
Section Pair.
  Context (E : env) (g : ca_cfg) {S : Type} (ops : store_ops S) (id0 : bytes).
  Definition alike1 (s s' : ca_state S) : Prop :=
    ca_idkey s = ca_idkey s' /\ ca_prof s = ca_prof s' /\ twin_opt (pending ops s id0) (pending ops s' id0) /\ forall id, id <> id0 -> pending ops s' id = pending ops s id.
  Lemma alike1_alike : forall s s', alike1 s s' -> alike ops s s'.
  Proof.
    intros s s' (K & P & T & N). split; [exact K|]. split; [exact P|]. intros id. destruct (bytes_eqb id id0) eqn:B; [apply bytes_eqb_eq in B; subst; exact T|].
    rewrite (N id) by (intros ->; rewrite bytes_eqb_refl in B; discriminate). destruct (pending ops s id); constructor. constructor.
  Qed.
  Definition lucky_for (s : ca_state S) (ev : event) (es : list eff) (s1 : ca_state S) : Prop := exists code, waits_for ops s id0 code /\ compares E g ops id0 (HStep s ev es s1) code.
  Lemma lucky_one : forall s ev es s2 i x, ca_at E g ops s -> ev = EvInterest i x \/ (exists n key, ev = EvCrash i x n key) -> names_request g id0 x ->
    lucky_at E g (s_get ops (ca_store s)) i x -> lucky_for s ev es s2.
  Proof.
    intros s ev es s2 i x A EV NR (r & params & ty & dv & (id & CI & G) & SB & OP & (cs & code & C1 & C2 & C3)).
    pose proof (names_addressed g x id0 NR) as AV. pose proof (proj1 (challenge_id_names g x id AV) CI) as NR'. pose proof (names_same g id0 id x NR NR') as <-.
    destruct (pending_live E g S ops s id0 r A G) as [IDR _]. destruct (opened_opens E x r params ty dv OP) as [OO SE]. rewrite IDR in OO.
    exists code. split; [exists r, cs; auto|]. exists i, params, ty, r, cs. split; [exact G|]. split; [exact C1|]. split; [|exact C3].
    exists x. split; [exact EV|]. auto.
  Qed.
  Lemma chal_ext : forall get1 get2 i x, (forall id, names_request g id x -> get2 id = get1 id) -> addressed g VChallenge (i_name x) -> on_challenge E g get2 i x = on_challenge E g get1 i x.
  Proof.
    intros get1 get2 i x H AV. unfold on_challenge. destruct (challenge_id g (i_name x)) as [id| | |] eqn:CI; try reflexivity.
    rewrite (H id (proj1 (challenge_id_names g x id AV) CI)). reflexivity.
  Qed.
  (** An Interest that is not for [id0] is treated alike. *)
  Lemma other_same : forall s s' i x, ca_at E g ops s -> ca_at E g ops s' -> alike1 s s' -> ~ names_request g id0 x -> on_interest E g ops s' i x = on_interest E g ops s i x.
  Proof.
    intros s s' i x A A' AL NN. pose proof (alike1_alike s s' AL) as (_ & _ & N0). destruct AL as (K & P & T & N). destruct (ends E g ops s A) as (inv & nrm & SL & _ & AD & _).
    pose proof (ca_at_inv2 E g ops inv nrm s SL A) as [I _]. pose proof (ca_at_inv2 E g ops inv nrm s' SL A') as [I' _].
    destruct (on_interest_cases E g S ops s i x) as [[NA Q]|(v & AV & Q)]; (destruct (on_interest_cases E g S ops s' i x) as [[NA' Q']|(v' & AV' & Q')]).
    - congruence.
    - destruct (NA v' AV').
    - destruct (NA' v AV).
    - pose proof (verb_same g v v' _ AV AV') as <-. rewrite Q, Q'.
      assert (ADD : forall r, match s_add ops (ca_store s') r with Some _ => true | None => false end = match s_add ops (ca_store s) r with Some _ => true | None => false end).
      { intros r. symmetry. apply (AD _ _ r I I'). apply N0. }
      unfold handle. rewrite <- K, <- P. destruct v; try reflexivity.
      + apply (on_new_ext E g _ _ (ca_idkey s) i RT_NEW x ADD).
      + apply chal_ext; [|exact AV]. intros id NR. apply N. intros ->. contradiction.
      + apply (on_new_ext E g _ _ (ca_idkey s) i RT_REVOKE x ADD).
  Qed.
  (** After the effects, whether or not the process then dies. *)
  Lemma after_pair : forall s s' i i' x n full full' o o', ca_at E g ops s -> ca_at E g ops s' -> alike1 s s' ->
    on_interest E g ops s i x = (full, o) -> on_interest E g ops s' i' x = (full', o') -> o <> UB -> o' <> UB -> Forall2 etwin full full' -> names_request g id0 x \/ full' = full ->
    alike1 (apply_effs ops (firstn n full) s) (apply_effs ops (firstn n full') s').
  Proof.
    intros s s' i i' x n full full' o o' A A' AL O O' U U' F X. destruct (ends E g ops s A) as (inv & nrm & SL & NT & _ & _). pose proof (firstn_twin _ _ F n) as F'.
    pose proof (after_effs E g ops inv nrm s s' (EvInterest i x) (EvInterest i' x) i i' x (firstn n full) (firstn n full') full full' o o' SL NT A A' (alike1_alike _ _ AL) eq_refl eq_refl O O' U U' (cut_firstn _ _) (cut_firstn _ _) F') as (K & P & N).
    split; [exact K|]. split; [exact P|]. split; [apply N|]. intros id NE. destruct AL as (_ & _ & _ & M0).
    pose proof (ca_at_inv2 E g ops inv nrm s SL A) as I. pose proof (ca_at_inv2 E g ops inv nrm s' SL A') as I'. pose proof A as [LC NF _ _].
    destruct (interest_step E g ops inv nrm SL LC NF s (EvInterest i x) i x (firstn n full) full o I eq_refl O U (cut_firstn _ _)) as [_ M].
    destruct (interest_step E g ops inv nrm SL LC NF s' (EvInterest i' x) i' x (firstn n full') full' o' I' eq_refl O' U' (cut_firstn _ _)) as [_ M'].
    change (ca_get ops (apply_effs ops (firstn n full') s') id = ca_get ops (apply_effs ops (firstn n full) s) id). destruct X as [NR|X].
    - assert (STAY : forall ev j es m m1, ev_interest ev = Some (j, x) -> mid E g nrm id ev es m m1 -> m1 = m).
      { intros ev j es m m1 EV MM. destruct MM as [es0 m F0 NN|j0 x0 es0 info FI EV0 N0 C|j0 x0 rt idkey peer c tail EV0 RT ID0 ADM CT|j0 x0 r0 es0 m EV0 N0 IDR CS]; try reflexivity; rewrite EV in EV0; injection EV0 as <- <-.
        - pose proof (names_addressed g x id0 NR) as AV. destruct RT as [[_ RT]|[_ RT]]; pose proof (verb_same g _ _ _ AV RT); discriminate.
        - destruct (NE (names_same g id id0 x N0 NR)). }
      rewrite (STAY (EvInterest i x) i _ _ _ eq_refl (M id)), (STAY (EvInterest i' x) i' _ _ _ eq_refl (M' id)). apply M0, NE.
    - subst full'. rewrite (mid_result _ _ _ _ _ _ _ _ (M id) (fun r Q => proj1 (proj2 I id r Q))), (mid_result _ _ _ _ _ _ _ _ (M' id) (fun r Q => proj1 (proj2 I' id r Q))).
      f_equal. apply M0, NE.
  Qed.
  Inductive ev_pair : event -> event -> Prop :=
  | ep_same : forall ev, ev_pair ev ev
  | ep_draw : forall i i' x, names_request g id0 x -> draws_alike i i' -> ev_pair (EvInterest i x) (EvInterest i' x).
  (** An Interest treated in both runs. *)
  Lemma both : forall s s' ev ev' es es' s1 s1' i i' x, ca_at E g ops s -> ca_at E g ops s' -> alike1 s s' ->
    ev = EvInterest i x \/ (exists n key, ev = EvCrash i x n key) -> ev' = EvInterest i' x \/ (exists n key, ev' = EvCrash i' x n key) -> (i' = i \/ names_request g id0 x /\ draws_alike i i') ->
    ~ lucky_for s ev es s1 -> ~ lucky_for s' ev' es' s1' ->
    otwin (on_interest E g ops s i x) (on_interest E g ops s' i' x) /\ (names_request g id0 x \/ fst (on_interest E g ops s' i' x) = fst (on_interest E g ops s i x)).
  Proof.
    intros s s' ev ev' es es' s1 s1' i i' x A A' AL EV EV' D NL NL'.
    assert (NR : names_request g id0 x \/ ~ names_request g id0 x).
    { destruct (on_interest_cases E g S ops s i x) as [[NA _]|(v & AV & _)]; [right; intros Q; exact (NA _ (names_addressed g x id0 Q))|].
      destruct v; try (right; intros Q; pose proof (verb_same g _ _ _ (names_addressed g x id0 Q) AV); discriminate).
      destruct (challenge_id g (i_name x)) as [id| | |] eqn:CI; try (right; intros Q; apply (challenge_id_names g x id0 AV) in Q; congruence).
      destruct (bytes_eqb id id0) eqn:B; [left; apply bytes_eqb_eq in B; subst; apply (challenge_id_names g x id0 AV), CI|].
      right; intros Q; apply (challenge_id_names g x id0 AV) in Q. rewrite CI in Q. injection Q as ->. rewrite bytes_eqb_refl in B. discriminate. }
    destruct NR as [NR|NR].
    - assert (DA : draws_alike i i') by (destruct D as [->|[_ D]]; [apply alike_same|exact D]). split; [|left; exact NR].
      destruct (interest_twin E g ops s s' i i' x A A' (alike1_alike _ _ AL) DA) as [Z|(_ & [L|L])]; [exact Z| |].
      + destruct NL. exact (lucky_one s ev es s1 i x A EV NR L).
      + destruct NL'. exact (lucky_one s' ev' es' s1' i' x A' EV' NR L).
    - destruct D as [->|[D _]]; [|contradiction]. pose proof (other_same s s' i x A A' AL NR) as Q. rewrite Q. split; [apply otwin_refl|right; reflexivity].
  Qed.
  Lemma pair_step : forall s s' ev ev' es es' s1 s1', ca_at E g ops s -> ca_at E g ops s' -> alike1 s s' -> ev_pair ev ev' ->
    step E g ops s ev = Some (s1, es) -> step E g ops s' ev' = Some (s1', es') ->
    ~ lucky_for s ev es s1 -> ~ lucky_for s' ev' es' s1' -> alike1 s1 s1' /\ puts es = puts es'.
  Proof.
    assert (INT : forall s s' i i' x es es' s1 s1', ca_at E g ops s -> ca_at E g ops s' -> alike1 s s' -> i' = i \/ names_request g id0 x /\ draws_alike i i' ->
      step E g ops s (EvInterest i x) = Some (s1, es) -> step E g ops s' (EvInterest i' x) = Some (s1', es') -> ~ lucky_for s (EvInterest i x) es s1 -> ~ lucky_for s' (EvInterest i' x) es' s1' -> alike1 s1 s1' /\ puts es = puts es').
    { intros s s' i i' x es es' s1 s1' A A' AL D ST ST' NL NL'. cbn [step] in ST, ST'.
      destruct (both s s' (EvInterest i x) (EvInterest i' x) es es' s1 s1' i i' x A A' AL (or_introl eq_refl) (or_introl eq_refl) D NL NL') as [[F R] X].
      destruct (on_interest E g ops s i x) as [full o] eqn:O, (on_interest E g ops s' i' x) as [full' o'] eqn:O'. cbn [fst snd] in F, R, X. subst o'.
      assert (Q : o <> UB /\ (apply_effs ops full s, full) = (s1, es) /\ (apply_effs ops full' s', full') = (s1', es')).
      { destruct o; try discriminate; (split; [discriminate|]); injection ST as <- <-; injection ST' as <- <-; auto. }
      destruct Q as (U & Q1 & Q2). injection Q1 as <- <-. injection Q2 as <- <-. split; [|symmetry; apply puts_twin, F].
      pose proof (after_pair s s' i i' x (length full) full full' o o A A' AL O O' U U F X) as W. rewrite firstn_all in W.
      assert (LEN : length full = length full') by (clear -F; induction F; cbn [length]; congruence). rewrite LEN, firstn_all in W. exact W. }
    intros s s' ev ev' es es' s1 s1' A A' AL EP ST ST' NL NL'. destruct EP as [ev|i i' x NR D]; [|exact (INT s s' i i' x es es' s1 s1' A A' AL (or_intror (conj NR D)) ST ST' NL NL')].
    destruct ev as [i x|i x n key|key|i].
    - exact (INT s s' i i x es es' s1 s1' A A' AL (or_introl eq_refl) ST ST' NL NL').
    - cbn [step] in ST, ST'. assert (EV : EvCrash i x n key = EvInterest i x \/ exists n0 key0, EvCrash i x n key = EvCrash i x n0 key0) by eauto.
      destruct (both s s' _ _ es es' s1 s1' i i x A A' AL EV EV (or_introl eq_refl) NL NL') as [[F R] X].
      destruct (on_interest E g ops s i x) as [full o] eqn:O, (on_interest E g ops s' i x) as [full' o'] eqn:O'. cbn [fst snd] in F, R, X. subst o'.
      assert (Q : o <> UB /\ (restart ops key (apply_effs ops (firstn n full) s), firstn n full) = (s1, es) /\ (restart ops key (apply_effs ops (firstn n full') s'), firstn n full') = (s1', es')).
      { destruct o; try discriminate; (split; [discriminate|]); injection ST as <- <-; injection ST' as <- <-; auto. }
      destruct Q as (U & Q1 & Q2). injection Q1 as <- <-. injection Q2 as <- <-. split; [|symmetry; apply puts_twin, firstn_twin, F].
      pose proof (after_pair s s' i i x n full full' o o A A' AL O O' U U F X) as (_ & _ & T & N).
      destruct (ends E g ops s A) as (_ & _ & _ & _ & _ & RS). split; [reflexivity|]. split; [reflexivity|]. unfold pending, restart in *. cbn [ca_store].
      destruct RS as [RR|RR]; (split; [|intros id NE]; rewrite !RR); [exact T|apply N, NE|constructor|reflexivity].
    - cbn [step] in ST, ST'. injection ST as <- <-. injection ST' as <- <-. split; [|reflexivity]. destruct AL as (_ & _ & T & N).
      destruct (ends E g ops s A) as (_ & _ & _ & _ & _ & RS). split; [reflexivity|]. split; [reflexivity|]. unfold pending, restart in *. cbn [ca_store].
      destruct RS as [RR|RR]; (split; [|intros id NE]; rewrite !RR); [exact T|apply N, NE|constructor|reflexivity].
    - cbn [step] in ST, ST'. destruct AL as (K & P & T & N). rewrite <- P in ST'. destruct (on_get_profile E g (ca_prof s) i) as [full o] eqn:O.
      assert (Z : (apply_effs ops full s, full) = (s1, es) /\ (apply_effs ops full s', full) = (s1', es')) by (destruct o; try discriminate; injection ST as <- <-; injection ST' as <- <-; auto).
      destruct Z as (Z1 & Z2). injection Z1 as <- <-. injection Z2 as <- <-. split; [|reflexivity].
      split; [rewrite !idkey_effs; exact K|]. split; [rewrite !prof_effs, P; reflexivity|].
      assert (SI : Forall silent full) by (unfold on_get_profile in O; destruct (profile_data E g (ca_prof s) (in_version i)); injection O as <- <-; try destruct (ca_prof s); repeat constructor).
      unfold pending in *. split; [|intros id NE]; rewrite !(silent_store ops full _ SI); [exact T|apply N, NE].
  Qed.
  (** A code compared in one run is compared in the other. *)
  Lemma compares_pair : forall s s' ev es es' s1 s1' c, alike1 s s' -> compares E g ops id0 (HStep s ev es s1) c -> compares E g ops id0 (HStep s' ev es' s1') c.
  Proof.
    intros s s' ev es es' s1 s1' c (_ & _ & T & _) (i & p & ty & r & cs & P & C & (x & HD & N & SB & O & SE) & (l & t & G1 & G2 & G3 & G4 & G5)). cbn [h_pre] in P. rewrite P in T.
    inversion T as [|? r' TW Q1 Q2]; subst. destruct (twin_fields _ _ TW) as (F1 & F2 & _).
    assert (X : exists cs', rq_cs r' = Some cs' /\ cs_status cs' = cs_status cs /\ cs_time cs' = cs_time cs).
    { destruct TW as [|cs0 k k' A B D]; [eauto|]. rewrite A in C. injection C as ->. eexists. split; [reflexivity|]. split; reflexivity. }
    destruct X as (cs' & X1 & X2 & X3). exists i, p, ty, r', cs'. split; [symmetry; exact Q2|]. split; [exact X1|]. rewrite F1, F2.
    split; [exists x; split; [exact HD|auto]|]. exists l, t. unfold wants_code. rewrite X2, X3. auto.
  Qed.
  (** The first run reaches its code within the second run. *)
  Lemma lockstep : forall play c c' a p p' s s' st s2 b s2', ca_at E g ops s -> ca_at E g ops s' -> alike1 s s' ->
    sent p = sent p' -> p <> [] -> steps E g ops s (a ++ [st]) s2 -> steps E g ops s' b s2' ->
    follows play (p ++ a ++ [st]) -> follows play (p' ++ b) ->
    no_add id0 (a ++ [st]) -> no_add id0 b ->
    pending ops s id0 = None \/ awaits ops s id0 c -> pending ops s' id0 = None \/ awaits ops s' id0 c' ->
    (forall st0, In st0 a -> ~ compares E g ops id0 st0 c) -> (forall n st0, (n < length a)%nat -> nth_error b n = Some st0 -> ~ compares E g ops id0 st0 c') ->
    (length a < length b)%nat -> compares E g ops id0 st c -> exists st', In st' b /\ compares E g ops id0 st' c.
  Proof.
    intros play c c'. induction a as [|u a IH]; intros p p' s s' st s2 b s2' A A' AL SP PN H H' F F' NA NA' W W' NC NC' LEN CM.
    - destruct b as [|v b]; [cbn [length] in LEN; lia|]. exists v. split; [left; reflexivity|].
      assert (EQ : h_ev st = h_ev v).
      { rewrite (F p st [] eq_refl PN), (F' p' v b eq_refl); [rewrite SP; reflexivity|]. intros ->. destruct p; [contradiction|discriminate]. }
      inversion H; subst. inversion H'; subst. cbn [h_ev] in EQ. subst. eapply compares_pair; eassumption.
    - destruct b as [|v b]; [cbn [length] in LEN; lia|]. cbn [app] in *.
      assert (PN' : p' <> []) by (intros ->; destruct p; [contradiction|discriminate]).
      assert (EQ : h_ev u = h_ev v) by (rewrite (F p u _ eq_refl PN), (F' p' v b eq_refl PN'), SP; reflexivity).
      inversion H as [|? ev es s1 tr ? ST H2]; subst. inversion H' as [|? ev' es' s1' tr' ? ST' H2']; subst. cbn [h_ev] in EQ. subst ev'.
      assert (LU : ~ lucky_for s ev es s1).
      { intros (k & WF & CK). destruct W as [W|W]; [destruct WF as (r & cs & P & _); congruence|]. rewrite (awaits_code ops s id0 c k W WF) in CK. exact (NC _ (or_introl eq_refl) CK). }
      assert (LU' : ~ lucky_for s' ev es' s1').
      { intros (k & WF & CK). destruct W' as [W'|W']; [destruct WF as (r & cs & P & _); congruence|]. rewrite (awaits_code ops s' id0 c' k W' WF) in CK. refine (NC' O _ _ eq_refl CK). cbn [length]. lia. }
      destruct (pair_step s s' ev ev es es' s1 s1' A A' AL (ep_same ev) ST ST' LU LU') as [AL2 PQ].
      inversion NA as [|? ? N1 N2]; subst. inversion NA' as [|? ? N1' N2']; subst.
      assert (W2 : pending ops s1 id0 = None \/ awaits ops s1 id0 c).
      { apply (awaits_steps E g ops [HStep s ev es s1] s s1 id0 c A); [econstructor; [exact ST|constructor]|constructor; [exact N1|constructor]|exact W]. }
      assert (W2' : pending ops s1' id0 = None \/ awaits ops s1' id0 c').
      { apply (awaits_steps E g ops [HStep s' ev es' s1'] s' s1' id0 c' A'); [econstructor; [exact ST'|constructor]|constructor; [exact N1'|constructor]|exact W']. }
      destruct (IH (p ++ [HStep s ev es s1]) (p' ++ [HStep s' ev es' s1']) s1 s1' st s2 b s2') as (z & Z1 & Z2); try assumption.
      + exact (ca_at_step E g S ops _ _ _ _ A ST).
      + exact (ca_at_step E g S ops _ _ _ _ A' ST').
      + unfold sent in *. rewrite !map_app, SP. cbn [map h_effs]. rewrite PQ. reflexivity.
      + intros Q. apply app_eq_nil in Q as [Q _]. contradiction.
      + rewrite <- app_assoc. exact F.
      + rewrite <- app_assoc. exact F'.
      + intros st0 IN. apply NC. right. exact IN.
      + intros n st0 LT NT. apply (NC' (Datatypes.S n) st0); [cbn [length]; lia|exact NT].
      + cbn [length] in LEN. lia.
      + exists z. split; [right; exact Z1|exact Z2].
  Qed.
End Pair.

(** ** Counting *)
Lemma split_codes : forall A (P Q : A -> Prop) l, (forall c, In c l -> P c \/ Q c) -> (forall c, In c l -> Q c) \/ exists l1 c l2, l = l1 ++ c :: l2 /\ P c.
Proof.
  intros A P Q l. induction l as [|a l IH]; intros H; [left; intros c []|].
  destruct (H a (or_introl eq_refl)) as [X|X]; [right; exists [], a, l; auto|].
  destruct IH as [Y|(l1 & c & l2 & -> & Y)]; [intros c IN; apply H; right; exact IN|left; intros c [<-|IN]; auto|right; exists (a :: l1), c, l2; auto].
Qed.
Lemma count_codes : forall E g S (ops : store_ops S) s tr s' id codes, ca_at E g ops s -> steps E g ops s tr s' -> no_add id tr ->
  (forall st, In st tr -> (exists given, compares E g ops id st given) -> answered st) -> NoDup codes ->
  (forall c, In c codes -> exists st, In st tr /\ compares E g ops id st c) -> N.of_nat (length codes) + budget (pending ops s' id) <= budget (pending ops s id).
Proof.
  intros E g S ops s tr s' id codes A H. revert A codes. induction H as [|s ev es s1 tr s2 ST _ IH]; intros A codes NA AN ND ALL.
  - destruct codes as [|c codes]; [cbn [length]; lia|]. destruct (ALL c (or_introl eq_refl)) as (st & [] & _).
  - inversion NA as [|? ? N1 N2]; subst. destruct (budget_step E g S ops _ _ _ _ id A ST N1) as [B1 B2].
    pose proof (ca_at_step E g S ops s ev s1 es A ST) as A1.
    assert (AN2 : forall st, In st tr -> (exists given, compares E g ops id st given) -> answered st) by (intros st IN; apply AN; right; exact IN).
    destruct (split_codes _ (fun c => compares E g ops id (HStep s ev es s1) c) (fun c => exists st, In st tr /\ compares E g ops id st c) codes) as [X|(l1 & c & l2 & -> & X)].
    + intros c IN. destruct (ALL c IN) as (st & [<-|I2] & Q); eauto.
    + pose proof (IH A1 codes N2 AN2 ND X). lia.
    + assert (ND2 : NoDup (l1 ++ l2)) by (eapply NoDup_remove_1; exact ND). pose proof (NoDup_remove_2 _ _ _ ND) as NI.
      pose proof (IH A1 (l1 ++ l2) N2 AN2 ND2) as Y. rewrite app_length in *. cbn [length].
      assert (Z : forall c0, In c0 (l1 ++ l2) -> exists st, In st tr /\ compares E g ops id st c0).
      { intros c0 IN. destruct (ALL c0) as (st & [<-|I2] & Q); [apply in_or_app; apply in_app_or in IN as [IN|IN]; [left; exact IN|right; right; exact IN]| |eauto].
        destruct NI. rewrite (one_code S E g ops id _ c c0 X Q). exact IN. }
      specialize (Y Z). pose proof (B2 (AN _ (or_introl eq_refl) (ex_intro _ c X)) (ex_intro _ c X)). lia.
Qed.
Lemma longest : forall A (P : A -> nat -> Prop) l, l <> [] -> (forall c, In c l -> exists n, P c n) -> exists c n, In c l /\ P c n /\ forall c', In c' l -> exists n', P c' n' /\ (n' <= n)%nat.
Proof.
  intros A P l. induction l as [|a l IH]; intros NE H; [contradiction|]. destruct (H a (or_introl eq_refl)) as (n & Q). destruct l as [|b l].
  - exists a, n. split; [left; reflexivity|]. split; [exact Q|]. intros c' [<-|[]]. eauto.
  - destruct IH as (c & m & IN & PM & ALL); [discriminate|intros c IN; apply H; right; exact IN|]. destruct (Nat.le_ge_cases n m) as [L|L].
    + exists c, m. split; [right; exact IN|]. split; [exact PM|]. intros c' [<-|I2]; [eauto|apply ALL, I2].
    + exists a, n. split; [left; reflexivity|]. split; [exact Q|]. intros c' [<-|I2]; [eauto|]. destruct (ALL c' I2) as (n' & X & Y). exists n'. split; [exact X|lia].
Qed.

(** ** The claim *)
Lemma obtained_presented : forall E g S (ops : store_ops S) s i x id r0 play c, ca_at E g ops s -> pending ops s id = Some r0 -> rq_cs r0 = None ->
  obtained E g ops play s i x id c -> presented E g ops play s i x id c.
Proof.
  intros E g S ops s i x id r0 play c A P RC (start & a & st & i' & x' & ct & RW & HD & N & IN). exists start, a, st. split; [exact RW|].
  destruct RW as [_ (s' & H) _ WT AN NA]. inversion H as [|? ev0 es0 s0 tr ? ST0 H0]; subst. cbn [h_post] in WT.
  pose proof (ca_at_step E g S ops _ _ _ _ A ST0) as A0. pose proof (start_awaits E g ops _ _ _ _ id r0 c A ST0 P RC WT) as W0.
  pose proof H0 as H1. apply steps_mid in H1 as (H1 & ST & _). pose proof (steps_at S E g ops _ _ _ A0 H1) as A1. unfold no_add in NA. apply Forall_app in NA as [NA NA2].
  pose proof (awaits_steps E g ops a s0 (h_pre st) id c A0 H1 NA (or_intror W0)) as W1. destruct st as [sp ev es sq]. cbn [h_pre h_ev h_effs h_post] in *.
  assert (EV : ev_interest ev = Some (i', x')) by (apply (ev_handles S (HStep sp ev es sq) i' x'), HD).
  split; [exact (issue_right E g ops sp ev sq es id c i' x' ct A1 ST EV N W1 IN)|].
  intros [u evu esu v] IU CU. apply in_split in IU as (b & d & ->). apply steps_mid in H1 as (Hb & STu & Hd). cbn [h_pre h_ev h_effs h_post] in *.
  pose proof (steps_at S E g ops _ _ _ A0 Hb) as Au. apply Forall_app in NA as [NAb NAd]. inversion NAd as [|? ? NAu NAd2]; subst.
  destruct (awaits_steps E g ops b s0 u id c A0 Hb NAb (or_intror W0)) as [Q|Wu]; [destruct CU as (? & ? & ? & ? & ? & Q' & _); cbn [h_pre] in Q'; congruence|].
  assert (G : pending ops v id = None).
  { apply (right_gone E g ops u evu v esu id c Au STu Wu CU). apply AN; [|eauto]. apply in_or_app. left. apply in_or_app. right. left. reflexivity. }
  pose proof (none_stays E g S ops id v d sp (ca_at_step E g S ops _ _ _ _ Au STu) Hd G NAd2) as G2.
  destruct (chal_event E g S ops sp ev sq es (EIssue ct) A1 ST IN I) as (i0 & x0 & id0 & r & nrm & m & EV0 & N0 & P0 & _).
  rewrite EV in EV0. injection EV0 as <- <-. pose proof (names_same g id id0 x' N N0) as <-. congruence.
Qed.
Lemma steps_first : forall E g S (ops : store_ops S) s st tr s', steps E g ops s (st :: tr) s' ->
  exists ev es s1, st = HStep s ev es s1 /\ step E g ops s ev = Some (s1, es) /\ steps E g ops s1 tr s'.
Proof. intros E g S ops s st tr s' H. inversion H; subst. eauto 10. Qed.
Lemma three_codes : forall E g S (ops : store_ops S) s i x id r0 play codes, ca_at E g ops s -> names_request g id x -> pending ops s id = Some r0 -> rq_cs r0 = None ->
  NoDup codes -> (forall code, In code codes -> presented E g ops play s i x id code) -> (length codes <= 3)%nat.
Proof.
  intros E g S ops s i x id r0 play codes A NR P RC ND ALL. destruct codes as [|c0 codes]; [cbn [length]; lia|]. remember (c0 :: codes) as cs eqn:EC.
  destruct (longest bytes (fun c n => exists start a st, length a = n /\ run_with E g ops play s i x id c start (a ++ [st]) /\ compares E g ops id st c /\ forall st0, In st0 a -> ~ compares E g ops id st0 c) cs) as (c & n & IN & (start' & a' & st' & LA' & RW' & CM' & NC') & MX).
  { subst cs. discriminate. }
  { intros c IN. destruct (ALL c IN) as (start & a & st & Q). exists (length a), start, a, st. auto. }
  destruct RW' as [(ws' & GC' & EV') (s2' & H') PL' WT' AN' NA']. apply steps_first in H' as (ev0' & es0' & s0' & -> & ST0' & H0'). cbn [h_post h_ev] in WT', EV'.
  pose proof (ca_at_step E g S ops _ _ _ _ A ST0') as A0'. pose proof (start_awaits E g ops _ _ _ _ id r0 c A ST0' P RC WT') as W0'.
  assert (B : N.of_nat (length cs) + budget (pending ops s2' id) <= budget (pending ops s0' id)).
  { apply (count_codes E g S ops s0' (a' ++ [st']) s2' id cs A0' H0' NA' AN' ND). intros k IK. destruct (MX k IK) as (n' & (start & a & st & LA & RW & CM & NC) & LE).
    destruct RW as [(ws & GC & EV) (s2k & Hk) PL WT AN NA]. apply steps_first in Hk as (ev0 & es0 & s0 & -> & ST0 & H0). cbn [h_post h_ev] in WT, EV.
    pose proof (ca_at_step E g S ops _ _ _ _ A ST0) as A0. pose proof (start_awaits E g ops _ _ _ _ id r0 k A ST0 P RC WT) as W0.
    assert (NOL : forall ev es t, ~ lucky_for E g ops id s ev es t) by (intros ev es t (q & (r & csq & Q1 & Q2 & _) & _); congruence).
    subst ev0 ev0'.
    assert (AL : alike1 ops id s s) by (split; [reflexivity|]; split; [reflexivity|]; split; [destruct (pending ops s id); constructor; constructor|reflexivity]).
    assert (EP : ev_pair g id (EvInterest (with_words ws i) x) (EvInterest (with_words ws' i) x)).
    { apply ep_draw; [exact NR|]. split; [exists ws'; reflexivity|]. right. cbn [with_words in_words]. eauto. }
    destruct (pair_step E g ops id s s _ _ es0 es0' s0 s0' A A AL EP ST0 ST0' (NOL _ _ _) (NOL _ _ _)) as [AL1 PQ].
    apply (lockstep E g ops id play k c a [HStep s (EvInterest (with_words ws i) x) es0 s0] [HStep s (EvInterest (with_words ws' i) x) es0' s0'] s0 s0' st s2k (a' ++ [st']) s2'); auto.
    - unfold sent. cbn [map h_effs]. rewrite PQ. reflexivity.
    - discriminate.
    - intros q st0 LT NT. apply NC'. rewrite nth_error_app1 in NT by lia. eapply nth_error_In. exact NT.
    - rewrite app_length. cbn [length]. lia. }
  pose proof (budget_3 E g S ops s0' id A0'). lia.
Qed.
Lemma three_certificates : forall E g S (ops : store_ops S) s i x id r0 play codes, ca_at E g ops s -> names_request g id x -> pending ops s id = Some r0 -> rq_cs r0 = None ->
  NoDup codes -> (forall code, In code codes -> obtained E g ops play s i x id code) -> (length codes <= 3)%nat.
Proof.
  intros E g S ops s i x id r0 play codes A NR P RC ND ALL. apply (three_codes E g S ops s i x id r0 play codes A NR P RC ND). intros c IN.
  eapply obtained_presented; [exact A|exact P|exact RC|]. apply ALL, IN.
Qed.

(** ** In terms of random words *)
Lemma interval : forall k (l : list N), NoDup l -> (forall w, In w l -> k <= w < k + 4294) -> N.of_nat (length l) <= 4294.
Proof.
  intros k l ND H. assert (Q : (length (map (fun w => N.to_nat (w - k)) l) <= length (seq 0 (N.to_nat 4294)))%nat).
  { apply NoDup_incl_length.
    - revert H. induction ND as [|a l NI _ IH]; intros H; cbn [map]; constructor; [|apply IH; intros w IN; apply H; right; exact IN].
      intros IN. apply in_map_iff in IN as (b & Q & IB). apply NI. assert (b = a) as <-; [|exact IB].
      pose proof (H a (or_introl eq_refl)). pose proof (H b (or_intror IB)). lia.
    - intros n IN. apply in_map_iff in IN as (b & <- & IB). pose proof (H b IB). apply in_seq. lia. }
  rewrite map_length, seq_length in Q. lia.
Qed.
Lemma same_code : forall w w', w < 2 ^ 32 -> w' < 2 ^ 32 -> accepted_word w = true -> accepted_word w' = true -> code_of_word w' = code_of_word w -> 4294 * (w / 4294) <= w' < 4294 * (w / 4294) + 4294.
Proof.
  intros w w' B B' AW AW' Q. assert (K : w / 4294 < 1000000).
  { unfold accepted_word in AW. rewrite N.mod_small in AW by exact B. apply N.ltb_lt in AW. apply N.div_lt_upper_bound; lia. }
  pose proof (N.mul_div_le w 4294). pose proof (N.mul_succ_div_gt w 4294). assert (X : accepted_word w = true /\ code_of_word w = six_digits (w / 4294)) by (apply code_words; lia).
  destruct X as [_ X]. assert (Y : 4294 * (w / 4294) <= w' < 4294 * (w / 4294 + 1)) by (apply code_words; [exact K|exact B'|]; split; [exact AW'|congruence]). lia.
Qed.
Lemma few_words : forall codes words, NoDup words -> (forall w, In w words -> w < 2 ^ 32 /\ accepted_word w = true /\ In (code_of_word w) codes) -> N.of_nat (length words) <= 4294 * N.of_nat (length codes).
Proof.
  induction codes as [|c codes IH]; intros words ND H.
  - destruct words as [|w words]; [cbn [length]; lia|]. destruct (H w (or_introl eq_refl)) as (_ & _ & []).
  - pose (f := fun w => bytes_eqb (code_of_word w) c). assert (LEN : length words = (length (filter f words) + length (filter (fun w => negb (f w)) words))%nat).
    { clear. induction words as [|w words IH]; [reflexivity|]. cbn [filter]. destruct (f w); cbn [negb length]; lia. }
    assert (P1 : N.of_nat (length (filter f words)) <= 4294).
    { destruct (filter f words) as [|w l] eqn:F; [cbn [length]; lia|]. rewrite <- F.
      assert (IW : In w (filter f words)) by (rewrite F; left; reflexivity). apply filter_In in IW as [IW FW]. destruct (H w IW) as (B & AW & _).
      apply (interval (4294 * (w / 4294))); [apply NoDup_filter, ND|]. intros w' IN. apply filter_In in IN as [IN FW']. destruct (H w' IN) as (B' & AW' & _).
      apply same_code; try assumption. apply bytes_eqb_eq in FW, FW'. congruence. }
    assert (P2 : N.of_nat (length (filter (fun w => negb (f w)) words)) <= 4294 * N.of_nat (length codes)).
    { apply IH; [apply NoDup_filter, ND|]. intros w IN. apply filter_In in IN as [IN FW]. destruct (H w IN) as (B & AW & [Q|Q]); [|auto].
      unfold f in FW. rewrite Q, bytes_eqb_refl in FW. discriminate. }
    cbn [length]. lia.
Qed.
Lemma three_in_a_million : forall E g S (ops : store_ops S) s i x id r0 play words, ca_at E g ops s -> names_request g id x -> pending ops s id = Some r0 -> rq_cs r0 = None ->
  NoDup words -> (forall w, In w words -> w < 2 ^ 32 /\ exists code, gen_code [w] = Ok code /\ obtained E g ops play s i x id code) -> N.of_nat (length words) <= 3 * 4294.
Proof.
  intros E g S ops s i x id r0 play words A NR P RC ND ALL. pose (codes := nodup (list_eq_dec Byte.byte_eq_dec) (map code_of_word words)).
  assert (G : forall w code, gen_code [w] = Ok code -> accepted_word w = true /\ code = code_of_word w).
  { intros w code Q. unfold gen_code in Q. cbn [find] in Q. destruct (accepted_word w); [|discriminate]. injection Q as <-. auto. }
  assert (L3 : (length codes <= 3)%nat).
  { apply (three_certificates E g S ops s i x id r0 play codes A NR P RC); [apply NoDup_nodup|]. intros c IN. apply nodup_In, in_map_iff in IN as (w & <- & IN).
    destruct (ALL w IN) as (_ & code & Q & O). destruct (G w code Q) as [_ <-]. exact O. }
  pose proof (few_words codes words ND) as X. assert (N.of_nat (length words) <= 4294 * N.of_nat (length codes)); [|lia]. apply X. intros w IN.
  destruct (ALL w IN) as (B & code & Q & _). destruct (G w code Q) as [AW _]. split; [exact B|]. split; [exact AW|]. apply nodup_In, in_map, IN.
Qed.
