(** Properties of whole histories. *)
From Verif Require Export Spec_Trace ChalProps.
From Coq Require Import Lia.
Local Open Scope N_scope.

(** ** Histories *)
Lemma steps_app : forall S E g (ops : store_ops S) a b s s', steps E g ops s (a ++ b) s' <-> exists m, steps E g ops s a m /\ steps E g ops m b s'.
Proof.
  induction a as [|st a IH]; intros b s s'; cbn [app].
  - split; [intros H; exists s; split; [constructor|exact H]|]. intros (m & H1 & H2). inversion H1; subst. exact H2.
  - split.
    + intros H. inversion H as [|? ev es s1 tr ? ST H2]; subst. apply IH in H2 as (m & H3 & H4). exists m. split; [econstructor; eassumption|exact H4].
    + intros (m & H1 & H2). inversion H1 as [|? ev es s1 tr ? ST H3]; subst. econstructor; [exact ST|]. apply IH. eauto.
Qed.
Lemma steps_run : forall S E g (ops : store_ops S) s tr s', steps E g ops s tr s' ->
  run E g ops s (map h_ev tr) = Some (s', map (fun st => (h_ev st, h_effs st)) tr).
Proof.
  intros S E g ops s tr s' H. induction H as [|s ev es s1 tr s2 ST _ IH]; [reflexivity|]. cbn [map run h_ev h_effs]. rewrite ST, IH. reflexivity.
Qed.
Lemma history_at : forall S E g (ops : store_ops S) tr s, ca_history E g ops tr s -> ca_at E g ops s.
Proof. intros S E g ops tr s [LC NF B (key & H)]. constructor; try assumption. exists key, (map h_ev tr). eexists. apply steps_run. exact H. Qed.
Lemma history_cut : forall S E g (ops : store_ops S) a b s, ca_history E g ops (a ++ b) s -> exists m, ca_history E g ops a m /\ steps E g ops m b s.
Proof.
  intros S E g ops a b s [LC NF B (key & H)]. apply steps_app in H as (m & H1 & H2). exists m. split; [|exact H2]. constructor; eauto.
Qed.
Lemma history_snoc : forall S E g (ops : store_ops S) a st s, ca_history E g ops (a ++ [st]) s ->
  ca_history E g ops a (h_pre st) /\ step E g ops (h_pre st) (h_ev st) = Some (h_post st, h_effs st) /\ s = h_post st.
Proof.
  intros S E g ops a st s H. apply history_cut in H as (m & H1 & H2). inversion H2 as [|? ev es s1 tr ? ST H3]; subst. inversion H3; subst. cbn. auto.
Qed.

Definition nrm_ok (nrm : request -> request) : Prop := forall r, nrm r = r \/ nrm r = db_stored r.
Lemma at_id_step : forall S E g (ops : store_ops S) s ev s' es, ca_at E g ops s -> step E g ops s ev = Some (s', es) ->
  exists nrm, nrm_ok nrm /\ forall id, id_step E g nrm id ev es (pending ops s id) (pending ops s' id).
Proof.
  intros S E g ops s ev s' es A ST. destruct (ca_at_inv E g S ops s A) as (inv & nrm & SL & I). exists nrm. split; [exact (sl_nrm E ops inv nrm SL)|].
  exact (proj2 (step_ok E g ops inv nrm SL (at_codec _ _ _ _ A) (at_prefix _ _ _ _ A) s ev s' es I ST)).
Qed.
Lemma steps_at : forall S E g (ops : store_ops S) s tr s', ca_at E g ops s -> steps E g ops s tr s' -> ca_at E g ops s'.
Proof. intros S E g ops s tr s' A H. induction H; [exact A|]. apply IHsteps. eapply ca_at_step; eassumption. Qed.

Lemma ev_handles : forall S (st : hstep S) i x, ev_interest (h_ev st) = Some (i, x) <-> handles st i x.
Proof.
  intros S st i x. unfold handles. destruct (h_ev st) as [i' x'|i' x' n key|key|i']; cbn [ev_interest]; split; intros H; try discriminate.
  - injection H as -> ->. auto.
  - destruct H as [H|(n & key & H)]; [injection H as -> ->; reflexivity|discriminate].
  - injection H as -> ->. right. eauto.
  - destruct H as [H|(n' & key' & H)]; [discriminate|injection H as -> ->; reflexivity].
  - destruct H as [H|(n' & key' & H)]; discriminate.
  - destruct H as [H|(n' & key' & H)]; discriminate.
Qed.

(** What the back ends keep of a challenge state. *)
Lemma nrm_fixed : forall nrm r, nrm_ok nrm -> rq_id (nrm r) = rq_id r /\ rq_key (nrm r) = rq_key r /\ rq_cert (nrm r) = rq_cert r /\ rq_type (nrm r) = rq_type r /\
  rq_status (nrm r) = rq_status r /\ rq_eiv (nrm r) = rq_eiv r /\ rq_div (nrm r) = rq_div r.
Proof. intros nrm r N. destruct (N r) as [->| ->]; cbn; auto 10. Qed.
Lemma nrm_cs : forall nrm r cs, nrm_ok nrm -> rq_cs (nrm r) = Some cs -> exists cs0, rq_cs r = Some cs0 /\
  cs_status cs = cs_status cs0 /\ cs_secrets cs = cs_secrets cs0 /\ cs_tries cs = cs_tries cs0 /\ (cs_time cs = cs_time cs0 \/ cs_time cs = trunc_us (cs_time cs0)).
Proof.
  intros nrm r cs N H. destruct (N r) as [Q|Q]; rewrite Q in H.
  - exists cs. auto 10.
  - unfold db_stored in H. destruct (rq_cs r) as [cs0|]; [|discriminate]. cbn in H. injection H as <-. exists cs0. cbn. auto 10.
Qed.

Lemma emails_no : forall es r, Forall is_email es -> ~ In (EAdd r) es.
Proof. intros es r F IN. rewrite Forall_forall in F. exact (F _ IN). Qed.
(** CHALLENGE Interests add nothing. *)
Lemma chal_no_add : forall E g nrm i x r es m r', chal_step E g nrm i x r es m -> ~ In (EAdd r') es.
Proof.
  assert (T2 : forall tail d c r', cut tail [EPut d; ECallback c] -> ~ In (EAdd r') tail).
  { intros tail d c r' [rest Q] IN. assert (In (EAdd r') [EPut d; ECallback c]) as [A|[A|[]]] by (rewrite Q; apply in_or_app; auto); discriminate. }
  assert (TT : forall tail (P : bytes -> request -> Prop) (d : bytes -> data) r', (tail = [] \/ exists p r3, P p r3 /\ cut tail [EPut (d p); ECallback r3]) -> ~ In (EAdd r') tail).
  { intros tail P d r' [->|(p & r3 & _ & C)] IN; [destruct IN|exact (T2 _ _ _ _ C IN)]. }
  intros E g nrm i x r es m r' H IN. inversion H as [es0 F|info FI NS|code info tail SB PE C|params ty dv cs em payload r3 tail SB OP K M CE C|params ty dv cs c PF RT IC|params ty dv cs c tail PF RT IC T|params ty dv cs tail PF RT T]; subst.
  - exact (emails_no es r' F IN).
  - destruct IN as [Q|[]]; discriminate.
  - destruct IN as [Q|IN]; [discriminate|]. destruct C as [rest Q]. assert (In (EAdd r') [EPut (error_data E g (i_name x) code info)]) as [A|[]] by (rewrite Q; apply in_or_app; auto). discriminate.
  - apply in_app_or in IN as [IN|[Q|IN]]; [exact (emails_no _ r' (emails em) IN)|discriminate|exact (T2 _ _ _ _ C IN)].
  - destruct IN as [Q|[]]; discriminate.
  - destruct IN as [Q|[Q|IN]]; try discriminate. destruct T as [->|(p & r3 & _ & C)]; [destruct IN|exact (T2 _ _ _ _ C IN)].
  - destruct IN as [Q|IN]; try discriminate. destruct T as [->|(p & r3 & _ & C)]; [destruct IN|exact (T2 _ _ _ _ C IN)].
Qed.

(** ** Where a pending request comes from *)
Definition started {S} (E : env) (g : ca_cfg) (id key : bytes) (c : cert) (st : hstep S) (i : inputs) (params : list tlv) (ty : bytes) (cs : cstate) : Prop :=
  asks E g id key c st i params ty /\ exists r em, starts E (cf_chal g) i params r ty cs em /\ rq_cert r = c /\ rq_prefix r = p_prefix (cfp g) /\
    forall cmd, em = Some cmd -> In (EEmail cmd) (h_effs st).
Definition origin {S} (E : env) (g : ca_cfg) (id : bytes) (tr : list (hstep S)) (r : request) : Prop :=
  exists a1 st a2, tr = a1 ++ st :: a2 /\ accepts E g id (rq_type r) st (rq_key r) (rq_cert r) /\ no_add id a2 /\
    forall cs, rq_cs r = Some cs -> exists b1 st1 b2 i params ty cs0, a2 = b1 ++ st1 :: b2 /\
      started E g id (rq_key r) (rq_cert r) st1 i params ty cs0 /\ cs_secrets cs = cs_secrets cs0 /\
      (cs_status cs = cs_status cs0 \/ cs_status cs0 = bs "need-code" /\ cs_status cs = bs "wrong-code") /\
      exists k, tally (renews id) b2 k /\ (N.of_nat k + cs_tries cs <= 3) /\
      forall d L, paced d tr -> lives_within E g id (rq_key r) (rq_cert r) L b2 -> (cs_time cs <= in_t2 i + Z.of_nat k * (sec L + d))%Z.

Lemma paced_app : forall S d (a b : list (hstep S)), paced d (a ++ b) -> paced d a /\ paced d b.
Proof. intros S d a b H. split; intros st i x IN; apply (H st i x); apply in_or_app; auto. Qed.
Lemma trunc_le : forall t, (0 <= t)%Z -> (trunc_us t <= t)%Z.
Proof. intros t H. unfold trunc_us. rewrite Z.quot_div_nonneg by lia. pose proof (Z.mul_div_le t 1000). lia. Qed.
Lemma tally_app : forall A (P : A -> Prop) a n b m, tally P a n -> tally P b m -> tally P (a ++ b) (n + m).
Proof. intros A P a n b m H. induction H; intros B; cbn [app plus]; [exact B|constructor 2|constructor 3]; auto. Qed.
Lemma tally_one : forall A (P : A -> Prop) a, P a -> tally P [a] 1.
Proof. intros A P a H. constructor 2; [exact H|constructor]. Qed.
Lemma tally_none : forall A (P : A -> Prop) a, ~ P a -> tally P [a] 0.
Proof. intros A P a H. constructor 3; [exact H|constructor]. Qed.
Lemma lives_app : forall S E g id key c L (a b : list (hstep S)), lives_within E g id key c L (a ++ b) -> lives_within E g id key c L a /\ lives_within E g id key c L b.
Proof. intros S E g id key c L a b H. split; intros st i params ty life IN; apply (H st i params ty life); apply in_or_app; auto. Qed.

Lemma origin_more : forall S E g id (tr : list (hstep S)) st r, origin E g id tr r -> ~ adds id st -> ~ renews id st -> origin E g id (tr ++ [st]) r.
Proof.
  intros S E g id tr st r (a1 & st0 & a2 & -> & AC & NA & CS) N NR. exists a1, st0, (a2 ++ [st]). split; [rewrite <- app_assoc; reflexivity|].
  split; [exact AC|]. split; [apply Forall_app; split; [exact NA|constructor; [exact N|constructor]]|].
  intros cs C. destruct (CS cs C) as (b1 & st1 & b2 & i & params & ty & cs0 & -> & A). exists b1, st1, (b2 ++ [st]), i, params, ty, cs0.
  split; [rewrite <- app_assoc; reflexivity|]. destruct A as (A1 & A2 & A3 & k & A4 & A5 & A6). split; [exact A1|]. split; [exact A2|]. split; [exact A3|].
  exists k. split; [rewrite <- (Nat.add_0_r k); apply tally_app; [exact A4|apply tally_none, NR]|]. split; [exact A5|].
  intros d L PC LW. apply (A6 d L); [apply (paced_app _ d _ [st]); exact PC|apply (lives_app _ E g _ _ _ L b2 [st]); exact LW].
Qed.

Lemma opened_asks : forall S E g id (st : hstep S) i x r params ty dv, handles st i x -> names_request g id x -> rq_id r = id ->
  signed_by E x (public_key (rq_cert r)) -> opened E x r params ty dv -> asks E g id (rq_key r) (rq_cert r) st i params ty.
Proof.
  intros S E g id st i x r params ty dv H N ID SB OP. destruct (opened_opens E x r params ty dv OP) as [O SE]. rewrite ID in O. exists x. auto 10.
Qed.

Lemma live_cs_none : forall r cs, live r -> rq_cs r = Some cs -> rq_status r = ST_CHALLENGE.
Proof. intros r cs [(_ & _ & Q & _)|(Q & _)] H; [congruence|exact Q]. Qed.

Lemma has_origin : forall S E g (ops : store_ops S) tr s id r, ca_history E g ops tr s -> pending ops s id = Some r -> origin E g id tr r.
Proof.
  intros S E g ops tr. induction tr as [|st tr IH] using rev_ind; intros s id r H P.
  - destruct H as [LC NF B (key & H)]. inversion H; subst. destruct (back_end_laws E S ops B LC) as (inv & nrm & SL).
    destruct (init_inv E g ops inv nrm SL key) as [_ Z]. unfold pending in P. unfold ca_get in Z. rewrite Z in P. discriminate.
  - apply history_snoc in H as (H & ST & ->). pose proof (history_at _ _ _ _ _ _ H) as A.
    destruct (at_id_step S E g ops _ _ _ _ A ST) as (nrm & NO & IDS). destruct (IDS id) as [m1 M Z]. rewrite P in Z.
    destruct Z as [Z|[_ Z]]; [|discriminate]. subst m1.
    remember (pending ops (h_pre st) id) as m0 eqn:P0. symmetry in P0. remember (h_effs st) as es eqn:ES.
    inversion M as [es0 m F NN|i x es0 info FI EV N C|i x rt idkey peer c tail EV RT ID ADM CT|i x r0 es0 m EV N IDR CS].
    + assert (NA : ~ adds id st). { intros (r' & IN & ID). rewrite Forall_forall in F. rewrite <- ES in IN. exact (F _ IN ID). }
      assert (NR : ~ renews id st). { intros (r' & IN & ID). rewrite Forall_forall in F. rewrite <- ES in IN. exact (F _ IN ID). }
      apply origin_more; [|exact NA|exact NR]. apply (IH _ _ _ H). congruence.
    + exists tr, st, []. split; [reflexivity|]. split; [|split; [constructor|intros cs Q; discriminate]].
      cbn [created rq_type rq_key rq_cert]. exists i, x, peer. split; [apply ev_handles; exact EV|].
      split; [destruct RT as [[-> AD]|[-> AD]]; exact AD|]. split; [exact ADM|]. split; [reflexivity|].
      rewrite <- ES. match goal with Q : _ :: _ = es |- _ => rewrite <- Q end. left. reflexivity.
    + assert (NA : ~ adds id st) by (intros (r' & IN & _); rewrite <- ES in IN; exact (chal_no_add _ _ _ _ _ _ _ _ r' CS IN)).
      assert (P1 : pending ops (h_pre st) id = Some r0) by congruence.
      specialize (IH _ _ _ H P1). destruct (pending_live E g S ops _ _ _ A P1) as [_ LV].
      match goal with Q : es0 = es |- _ => clear Q end.
      inversion CS as [es1 F|info FI NS|code info tail SB PE C|params ty dv cs em payload r3 tail SB OP K MV CE C|params ty dv cs c PF RT IC|params ty dv cs c tail PF RT IC T|params ty dv cs tail PF RT T];
        try discriminate; try (apply origin_more; [congruence|exact NA|intros (r' & IN & _); rewrite <- ES in IN]).
      { rewrite Forall_forall in F. exact (F _ IN). }
      { match goal with Q : _ = es |- _ => rewrite <- Q in IN end. destruct IN as [Q|[]]; discriminate Q. }
      2:{ match goal with Q : _ = es |- _ => rewrite <- Q in IN end. destruct IN as [Q|[]]; discriminate Q. }
      assert (RW : renews id st) by (exists r3; split; [rewrite <- ES; match goal with Q : _ = es |- _ => rewrite <- Q end; apply in_or_app; right; left; reflexivity|];
        destruct (moved_live E g i x r0 params ty dv cs em payload r3 LV OP K MV CE) as (iv2 & -> & _); exact IDR).
      destruct (moved_live E g i x r0 params ty dv cs em payload r3 LV OP K MV CE) as (iv2 & -> & _ & _ & _ & _).
      destruct (nrm_fixed nrm (set_eiv iv2 (moved dv ty cs r0)) NO) as (_ & F2 & F3 & F4 & _). cbn [moved set_eiv set_cs set_ctype set_status set_div rq_key rq_cert rq_type] in F2, F3, F4.
      destruct IH as (a1 & st0 & a2 & -> & AC & NA2 & CSO).
      exists a1, st0, (a2 ++ [st]). split; [rewrite <- app_assoc; reflexivity|]. rewrite F2, F3, F4. split; [exact AC|].
      split; [apply Forall_app; split; [exact NA2|constructor; [exact NA|constructor]]|].
      intros cs' C'. apply nrm_cs in C' as (cs0 & C0 & S1 & S2 & S3 & S4); [|exact NO]. cbn in C0. injection C0 as <-. rewrite S1, S2, S3.
      destruct (moved_live E g i x r0 params ty dv cs em payload _ LV OP K MV CE) as (_ & _ & _ & _ & TRI & _).
      assert (TM : forall d, paced d ((a1 ++ st0 :: a2) ++ [st]) -> (cs_time cs = in_t2 i) -> (cs_time cs' <= in_t2 i)%Z /\ (0 <= in_t2 i <= in_t1 i + d)%Z).
      { intros d PC TQ. destruct (PC st i x) as [B1 B2]; [apply in_or_app; right; left; reflexivity|apply ev_handles; exact EV|].
        split; [|split; assumption]. destruct S4 as [->| ->]; rewrite TQ; [lia|apply trunc_le, B1]. }
      pose proof (opened_asks S E g id st i x r0 params ty dv (proj1 (ev_handles S st i x) EV) N IDR SB OP) as AK.
      destruct MV as [[SB0 STT]|(NB & _ & cs0 & C0 & RE)].
      * exists a2, st, [], i, params, ty, cs. split; [reflexivity|]. split; [split; [exact AK|eexists; exists em; split; [exact STT|]; split; [reflexivity|]]|].
        { split; [exact (proj1 (proj2 (proj2 (proj2 (pending_good E g S ops _ id r0 A P1)))))|]. intros cmd ->. rewrite <- ES. match goal with Q : _ = es |- _ => rewrite <- Q end. left. reflexivity. }
        split; [reflexivity|]. split; [auto|].
        exists 0%nat. split; [constructor|]. split; [destruct STT; cbn [cs_tries]; lia|].
        intros d L PC _. destruct (TM d PC) as [T1 _]; [destruct STT; reflexivity|]. lia.
      * cbn [set_div rq_cs] in C0. destruct (CSO cs0 C0) as (b1 & st1 & b2 & i1 & p1 & ty1 & cs1 & -> & STD & SE1 & SS1 & k & TL1 & TB1 & TM1).
        exists b1, st1, (b2 ++ [st]), i1, p1, ty1, cs1. split; [rewrite <- app_assoc; reflexivity|]. split; [exact STD|].
        destruct (live_cs r0 LV NB) as (cs2 & C2 & B2). assert (cs2 = cs0) by congruence. subst cs2.
        destruct RE as (given & code & life & (lf & t & CL & W & _ & _ & LT) & _ & _ & _ & TR & ->). cbn [cs_secrets cs_status cs_tries cs_time] in *. split; [exact SE1|].
        split; [|exists (k + 1)%nat; split; [apply tally_app; [exact TL1|apply tally_one, RW]|]; split; [lia|]; intros d L PC LW; destruct (TM d PC eq_refl) as [T1 T2];
          destruct (lives_app _ E g _ _ _ L b2 [st] LW) as [LW1 LW2]; pose proof (TM1 d L (proj1 (paced_app _ d _ [st] PC)) LW1) as T3;
          assert (LL : (lf <= L)%Z) by exact (LW2 st i params ty lf (or_introl eq_refl) AK CL); unfold sec in *; lia].
        right. split; [|reflexivity]. destruct SS1 as [SS1|[SS1 _]]; [|exact SS1]. destruct STD as [_ (r1 & em1 & STT & _)].
        destruct W as [W|W]; [congruence|]. rewrite W in SS1. destruct STT; discriminate SS1.
Qed.

(** ** Effects only CHALLENGE Interests for a pending request have *)
Definition chal_eff (e : eff) : Prop := match e with EEmail _ | EIssue _ | EUpdate _ | EDelete _ => True | _ => False end.
Lemma only_challenge : forall E g S (ops : store_ops S) s i x es o e, on_interest E g ops s i x = (es, o) -> In e es -> chal_eff e ->
  exists id r, names_request g id x /\ pending ops s id = Some r.
Proof.
  intros E g S ops s i x es o e H IN CE. destruct (on_interest_cases E g S ops s i x) as [[_ O]|(v & AD & O)]; rewrite O in H.
  { injection H as <- <-. destruct IN. }
  assert (NEWC : forall rt, rt = RT_NEW \/ rt = RT_REVOKE ->
    on_new E g (fun r => match s_add ops (ca_store s) r with Some _ => true | None => false end) (ca_idkey s) i rt x = (es, o) -> False).
  { intros rt RT H'. apply on_new_cases in H' as [(peer & c & _ & _ & _ & ->)|[(code & info & _ & -> & _)|(_ & -> & T)]]; [..|exact RT];
      cbn [In] in IN; repeat (destruct IN as [<-|IN]; [destruct CE|]); destruct IN. }
  destruct v; cbn [handle] in H.
  - unfold on_discovery, on_get_profile in H. destruct (profile_data E g (ca_prof s) (in_version i)); injection H as <- <-; try (destruct IN; fail).
    destruct (ca_prof s); cbn [app In] in IN; repeat (destruct IN as [<-|IN]; [destruct CE|]); destruct IN.
  - unfold on_probe in H. destruct (do params <- _; _) as [[[|? ?] [|? ?]]| | |]; injection H as <- <-; cbn [In] in IN; repeat (destruct IN as [<-|IN]; [destruct CE|]); destruct IN.
  - destruct (NEWC RT_NEW (or_introl eq_refl) H).
  - destruct (on_challenge_cases E g (s_get ops (ca_store s)) i x) as [(r & (id & CI & G) & CO)|[(_ & _ & info & _ & Q)|(_ & Q)]];
      [|rewrite Q in H; injection H as <- <-; cbn [In] in IN; repeat (destruct IN as [<-|IN]; [destruct CE|]); destruct IN..].
    exists id, r. split; [exact (proj1 (challenge_id_names g x id AD) CI)|exact G].
  - destruct (NEWC RT_REVOKE (or_intror eq_refl) H).
Qed.
Lemma chal_event : forall E g S (ops : store_ops S) s ev s' es e, ca_at E g ops s -> step E g ops s ev = Some (s', es) -> In e es -> chal_eff e ->
  exists i x id r nrm m, ev_interest ev = Some (i, x) /\ names_request g id x /\ pending ops s id = Some r /\ rq_id r = id /\ live r /\ nrm_ok nrm /\
    chal_step E g nrm i x r es m /\ (pending ops s' id = m \/ restarts ev /\ pending ops s' id = None).
Proof.
  intros E g S ops s ev s' es e A ST IN CE.
  assert (X : exists i x id r, ev_interest ev = Some (i, x) /\ names_request g id x /\ pending ops s id = Some r).
  { destruct ev as [i x|i x n key|key|i]; cbn [step] in ST.
    - destruct (on_interest E g ops s i x) as [es' o] eqn:OI. assert (EQ : es' = es) by (destruct o; inversion ST; reflexivity). subst es'.
      destruct (only_challenge E g S ops s i x es o e OI IN CE) as (id & r & N & P). exists i, x, id, r. auto.
    - destruct (on_interest E g ops s i x) as [es' o] eqn:OI. assert (EQ : es = firstn n es') by (destruct o; inversion ST; reflexivity).
      assert (IN' : In e es') by (rewrite <- (firstn_skipn n es'); apply in_or_app; left; rewrite <- EQ; exact IN).
      destruct (only_challenge E g S ops s i x es' o e OI IN' CE) as (id & r & N & P). exists i, x, id, r. auto.
    - injection ST as <- <-. destruct IN.
    - destruct (on_get_profile E g (ca_prof s) i) as [es' o] eqn:O. unfold on_get_profile in O.
      assert (EQ : es' = es) by (destruct o; inversion ST; reflexivity). subst es'.
      destruct (profile_data E g (ca_prof s) (in_version i)); injection O as <- <-; try (destruct IN; fail).
      destruct (ca_prof s); cbn [app In] in IN; repeat (destruct IN as [<-|IN]; [destruct CE|]); destruct IN. }
  destruct X as (i & x & id & r & EV & N & P). destruct (pending_live E g S ops s id r A P) as [ID LV].
  destruct (at_id_step S E g ops _ _ _ _ A ST) as (nrm & NO & IDS). destruct (IDS id) as [m1 M Z]. rewrite P in M.
  inversion M as [es0 m F NN|i0 x0 es0 info FI EV0 N0 C|i0 x0 rt idkey peer c tail EV0 RT ID0 ADM CT|i0 x0 r0 es0 m EV0 N0 IDR CS].
  - destruct (NN i x EV N).
  - subst r0 es0 m. rewrite EV in EV0. injection EV0 as <- <-. exists i, x, id, r, nrm, m1. auto 12.
Qed.

Lemma in_cut : forall (e : eff) tail full, cut tail full -> In e tail -> In e full.
Proof. intros e tail full [rest ->] IN. apply in_or_app. auto. Qed.
Lemma step_issue : forall E g nrm i x r es m c, chal_step E g nrm i x r es m -> In (EIssue c) es ->
  exists params ty dv cs, pass_facts E i x r params ty dv cs /\ (rq_type r = RT_NEW \/ rq_type r = RT_RENEW) /\ issue_certificate E g (in_version i) r = Ok c /\
    ((es = [EIssue c] /\ m = Some r) \/ (exists tail, es = EIssue c :: EDelete (rq_id r) :: tail) /\ m = None).
Proof.
  intros E g nrm i x r es m c H IN.
  assert (TT : forall tail d r3, cut tail [EPut d; ECallback r3] -> ~ In (EIssue c) tail).
  { intros tail d r3 C I. apply (in_cut _ _ _ C) in I. destruct I as [A|[A|[]]]; discriminate. }
  inversion H as [es1 F|info FI NS|code info tail SB PE C|params ty dv cs em payload r3 tail SB OP K MV CE C|params ty dv cs c0 PF RT IC|params ty dv cs c0 tail PF RT IC T|params ty dv cs tail PF RT T]; subst.
  - rewrite Forall_forall in F. destruct (F _ IN).
  - destruct IN as [Q|[]]; discriminate.
  - destruct IN as [Q|IN]; [discriminate|]. apply (in_cut _ _ _ C) in IN. destruct IN as [A|[]]. discriminate.
  - apply in_app_or in IN as [IN|[Q|IN]]; [|discriminate|destruct (TT _ _ _ C IN)]. pose proof (emails em) as F. rewrite Forall_forall in F. destruct (F _ IN).
  - destruct IN as [Q|[]]. injection Q as ->. exists params, ty, dv, cs. auto 10.
  - destruct IN as [Q|[Q|IN]]; [injection Q as ->|discriminate|]; [exists params, ty, dv, cs; split; [exact PF|]; split; [exact RT|]; split; [exact IC|]; right; eauto|].
    destruct T as [->|(p & r3 & _ & C)]; [destruct IN|destruct (TT _ _ _ C IN)].
  - destruct IN as [Q|IN]; [discriminate|]. destruct T as [->|(p & r3 & _ & C)]; [destruct IN|destruct (TT _ _ _ C IN)].
Qed.

(** ** C22 *)
Lemma passes_earned : forall E cfg i0 params0 r0 ty0 cs0 em i params cs ty, codec_laws E -> starts E cfg i0 params0 r0 ty0 cs0 em ->
  cs_secrets cs = cs_secrets cs0 -> (cs_status cs = cs_status cs0 \/ cs_status cs0 = bs "need-code" /\ cs_status cs = bs "wrong-code") ->
  passes E i params cs ty -> earned E cfg i0 params0 ty0 params ty.
Proof.
  intros E cfg i0 params0 r0 ty0 cs0 em i params cs ty LC ST SE SS PA.
  assert (LT : forall ty life, code_life ty life -> ty = bs "pin" \/ ty = bs "email") by (intros ? ? []; auto).
  destruct PA as [ty code (life & t & CL & W & G & TV & _) SG|c w t nonce proof SP PI PN FH BV CD FN V].
  - rewrite SE in SG. inversion ST as [code0 GC|code0 addr GC GA|c0 CI NC TR]; subst cs0 ty0; cbn [cs_secrets cs_status] in *.
    + change (sec_get (bs "code") [(bs "code", code0)]) with (Some code0) in SG. injection SG as <-. eapply earned_code; eauto.
    + change (sec_get (bs "code") [(bs "code", code0)]) with (Some code0) in SG. injection SG as <-. eapply earned_code; eauto.
    + discriminate SG.
  - rewrite SE in FH, FN. inversion ST as [code0 GC|code0 addr GC GA|c0 CI NC TR]; subst cs0 ty0; cbn [cs_secrets cs_status] in *.
    + destruct SS as [SS|[_ SS]]; rewrite SP in SS; discriminate.
    + destruct SS as [SS|[_ SS]]; rewrite SP in SS; discriminate.
    + fold (possession_secrets E (rnd_nonce i0) c0) in FH, FN. destruct (secrets_get E (rnd_nonce i0) c0) as [G1 G2]. rewrite G1 in FN. rewrite G2 in FH.
      rewrite from_to_hex in FN, FH. injection FN as <-. injection FH as <-.
      destruct (credential_storable E params0 c0 LC CI) as (_ & FT & UW). rewrite (stored_credential E c0 FT) in BV. injection BV as <-.
      unfold cert_decode, data_decode in CD. change (t_type (cert_tlv E c0) =? T_Data) with true in CD. cbv iota in CD. change (t_val (cert_tlv E c0)) with (o_cert_wire E c0) in CD.
      rewrite UW in CD. destruct (cert_ok c0); [|discriminate]. injection CD as <-. eapply earned_proof; eauto.
Qed.

Lemma issued_facts : forall E g v r c, good g r -> issue_certificate E g v r = Ok c -> certifies E g (rq_cert r) c /\ name_policy g (c_name c).
Proof.
  intros E g v r c (_ & _ & _ & (suffix & kid & issuer & version & Q & NE & LIM)) H. unfold issue_certificate in H.
  destruct (c_validity (rq_cert r)) as [vv|] eqn:V; cbn [of_opt bind] in H; [|discriminate]. injection H as <-.
  assert (KN : key_name_of (c_name (rq_cert r)) = p_prefix (cfp g) ++ suffix ++ [gc (bs "KEY"); kid]).
  { rewrite Q, !app_assoc. apply key_name_of_shape. }
  rewrite KN. split.
  - exists (p_prefix (cfp g) ++ suffix ++ [gc (bs "KEY"); kid]), issuer, version, v. cbn [c_name c_content c_validity c_iskey c_keyloc c_sig cert_msg].
    split; [rewrite Q, <- !app_assoc; reflexivity|]. rewrite V. auto 10.
  - exists suffix, kid, (gc (bs "NDNCERT")), (version_comp v). cbn [c_name]. split; [rewrite <- !app_assoc; reflexivity|]. auto.
Qed.
Lemma issued_earned : forall E g S (ops : store_ops S) tr st s c, ca_history E g ops (tr ++ [st]) s -> In (EIssue c) (h_effs st) ->
  exists id key c0 a1 new a2 start a3 i0 params0 ty0 i params ty,
    tr = a1 ++ new :: a2 ++ start :: a3 /\
    accepts E g id RT_NEW new key c0 /\ no_add id (a2 ++ start :: a3) /\
    (asks E g id key c0 start i0 params0 ty0 /\ exists r cs em, starts E (cf_chal g) i0 params0 r ty0 cs em /\ rq_cert r = c0 /\ forall cmd, em = Some cmd -> In (EEmail cmd) (h_effs start)) /\
    asks E g id key c0 st i params ty /\ earned E (cf_chal g) i0 params0 ty0 params ty /\
    certifies E g c0 c /\ name_policy g (c_name c) /\
    exists k, tally (renews id) a3 k /\ (k <= 2)%nat /\
      (ty <> bs "possession" -> forall d L, paced d tr -> lives_within E g id key c0 L (a3 ++ [st]) -> (in_t1 i - in_t2 i0 < Z.of_nat (k + 1) * sec L + Z.of_nat k * d)%Z).
Proof.
  intros E g S ops tr st s c H IN. apply history_snoc in H as (H & ST & ->). pose proof (history_at _ _ _ _ _ _ H) as A.
  destruct (chal_event E g S ops _ _ _ _ _ A ST IN I) as (i & x & id & r & nrm & m & EV & N & P & IDR & LV & NO & CS & _).
  destruct (step_issue _ _ _ _ _ _ _ _ _ CS IN) as (params & ty & dv & cs & (SB & OP & K & NB & C & PA) & RT & IC & _).
  destruct (has_origin S E g ops tr _ id r H P) as (a1 & new & a2 & -> & AC & NA & CSO).
  destruct (CSO cs C) as (b1 & st1 & b2 & i0 & p0 & ty0 & cs0 & -> & (AK & r1 & em & STT & RC1 & RP1 & EM) & SE & SS & k & TL & TB & TM).
  assert (RN : rq_type r = RT_NEW). { destruct (pending_good E g S ops _ id r A P) as (_ & _ & (_ & _ & [Q|Q] & _)); [exact Q|]. destruct RT as [RT|RT]; [exact RT|]. rewrite Q in RT. discriminate. }
  exists id, (rq_key r), (rq_cert r), a1, new, b1, st1, b2, i0, p0, ty0, i, params, ty. split; [reflexivity|]. rewrite RN in AC. split; [exact AC|]. split; [exact NA|].
  split; [split; [exact AK|exists r1, cs0, em; auto]|]. split; [exact (opened_asks S E g id st i x r params ty dv (proj1 (ev_handles S st i x) EV) N IDR SB OP)|].
  split; [exact (passes_earned E _ i0 p0 r1 ty0 cs0 em i params cs ty (ch_codec _ _ _ _ _ H) STT SE SS PA)|].
  destruct (issued_facts E g (in_version i) r c (proj2 (proj2 (pending_good E g S ops _ id r A P))) IC) as [X Y]. split; [exact X|]. split; [exact Y|].
  exists k. split; [exact TL|]. destruct (live_cs r LV NB) as (cs2 & C2 & B2). assert (cs2 = cs) by congruence. subst cs2. split; [lia|].
  intros NP d L PC LW. destruct (lives_app _ E g _ _ _ L b2 [st] LW) as [LW1 LW2]. pose proof (TM d L PC LW1) as T.
  destruct PA as [ty code (life & t & CL & _ & _ & _ & LT) _|]; [|contradiction].
  assert (LL : (life <= L)%Z) by exact (LW2 st i params ty life (or_introl eq_refl) (opened_asks S E g id st i x r params ty dv (proj1 (ev_handles S st i x) EV) N IDR SB OP) CL).
  unfold sec in *. lia.
Qed.

(** ** C26 *)
Lemma issued_says : forall E g S (ops : store_ops S) tr st s c, ca_history E g ops (tr ++ [st]) s -> In (EIssue c) (h_effs st) ->
  exists id key c0 a1 new a2 i x nb na, tr = a1 ++ new :: a2 /\ accepts E g id RT_NEW new key c0 /\ no_add id a2 /\ handles new i x /\
    certifies E g c0 c /\ name_policy g (c_name c) /\ c_validity c = Some (nb, na) /\ period_policy g (in_t2 i) nb na.
Proof.
  intros E g S ops tr st s c H IN. destruct (issued_earned E g S ops tr st s c H IN) as (id & key & c0 & a1 & new & a2 & start & a3 & i0 & p0 & ty0 & i & p & ty & -> & AC & NA & _ & _ & _ & CE & NP & _).
  pose proof AC as (i1 & x1 & peer & HD & _ & ADM & _). destruct (ad_cert _ _ _ _ _ _ _ _ ADM) as [(_ & (nb & na & V & PP) & _)|(Q & _)]; [|discriminate Q].
  exists id, key, c0, a1, new, (a2 ++ start :: a3), i1, x1, nb, na. split; [reflexivity|]. split; [exact AC|]. split; [exact NA|]. split; [exact HD|]. split; [exact CE|].
  split; [exact NP|]. split; [|exact PP]. destruct CE as (? & ? & ? & ? & _ & _ & _ & Q & _). congruence.
Qed.

(** ** C25 *)
Lemma none_stays : forall E g S (ops : store_ops S) id s tr s', ca_at E g ops s -> steps E g ops s tr s' -> pending ops s id = None -> no_add id tr -> pending ops s' id = None.
Proof.
  intros E g S ops id s tr s' A H. revert A. induction H as [|s ev es s1 tr s2 ST _ IH]; intros A P NA; [exact P|].
  inversion NA as [|? ? N1 N2]; subst. apply IH; [eapply ca_at_step; eassumption| |exact N2].
  destruct (at_id_step S E g ops _ _ _ _ A ST) as (nrm & NO & IDS). destruct (IDS id) as [m1 M Z]. rewrite P in M.
  assert (m1 = None).
  { inversion M as [es0 m F NN|i0 x0 es0 info FI EV0 N0 C|i0 x0 rt idkey peer c tail EV0 RT ID0 ADM CT|]; try reflexivity.
    exfalso. apply N1. exists (created E g i0 rt id peer c). cbn [h_effs]. match goal with Q : _ :: _ = es |- _ => rewrite <- Q end. split; [left; reflexivity|reflexivity]. }
  subst m1. destruct Z as [Z|[_ Z]]; exact Z.
Qed.
Lemma deleted_gone : forall E g S (ops : store_ops S) s ev s' es id, ca_at E g ops s -> step E g ops s ev = Some (s', es) -> In (EDelete id) es -> pending ops s' id = None.
Proof.
  intros E g S ops s ev s' es id A ST IN. destruct (chal_event E g S ops _ _ _ _ _ A ST IN I) as (i & x & id' & r & nrm & m & EV & N & P & IDR & LV & NO & CS & Z).
  assert (X : id = id' /\ m = None).
  { assert (TT : forall tail d r3, cut tail [EPut d; ECallback r3] -> ~ In (EDelete id) tail).
    { intros tail d r3 C Q. apply (in_cut _ _ _ C) in Q. destruct Q as [Q|[Q|[]]]; discriminate. }
    inversion CS as [es1 F|info FI NS|code info tail SB PE C|params ty dv cs em payload r3 tail SB OP K MV CE C|params ty dv cs c0 PF RT IC|params ty dv cs c0 tail PF RT IC T|params ty dv cs tail PF RT T]; subst.
    - rewrite Forall_forall in F. destruct (F _ IN).
    - destruct IN as [Q|[]]; discriminate.
    - destruct IN as [Q|IN]; [injection Q; auto|]. apply (in_cut _ _ _ C) in IN. destruct IN as [Q|[]]; discriminate.
    - apply in_app_or in IN as [IN|[Q|IN]]; [|discriminate|destruct (TT _ _ _ C IN)]. pose proof (emails em) as F. rewrite Forall_forall in F. destruct (F _ IN).
    - destruct IN as [Q|[]]; discriminate.
    - destruct IN as [Q|[Q|IN]]; [discriminate|injection Q; auto|]. destruct T as [->|(p & r3 & _ & C)]; [destruct IN|destruct (TT _ _ _ C IN)].
    - destruct IN as [Q|IN]; [injection Q; auto|]. destruct T as [->|(p & r3 & _ & C)]; [destruct IN|destruct (TT _ _ _ C IN)]. }
  destruct X as [-> ->]. destruct Z as [Z|[_ Z]]; exact Z.
Qed.

Lemma history_mid : forall S E g (ops : store_ops S) a st b s, ca_history E g ops (a ++ st :: b) s ->
  ca_at E g ops (h_pre st) /\ step E g ops (h_pre st) (h_ev st) = Some (h_post st, h_effs st) /\ ca_at E g ops (h_post st) /\ steps E g ops (h_post st) b s.
Proof.
  intros S E g ops a st b s H. apply history_cut in H as (m & H & ST). inversion ST as [|? ev es s1 tr ? ST1 ST2]; subst. cbn [h_pre h_ev h_post h_effs].
  pose proof (history_at _ _ _ _ _ _ H) as A. split; [exact A|]. split; [exact ST1|]. split; [eapply ca_at_step; eassumption|exact ST2].
Qed.
Lemma gone_until_new : forall E g S (ops : store_ops S) a st b s id, ca_history E g ops (a ++ st :: b) s -> In (EDelete id) (h_effs st) -> no_add id b -> pending ops s id = None.
Proof.
  intros E g S ops a st b s id H IN NA. apply history_mid in H as (A & ST & A2 & SS).
  exact (none_stays E g S ops id _ _ _ A2 SS (deleted_gone E g S ops _ _ _ _ id A ST IN) NA).
Qed.
Lemma names_same : forall g id id' x, names_request g id x -> names_request g id' x -> id = id'.
Proof. intros g id id' x (t1 & r1 & Q1 & _) (t2 & r2 & Q2 & _). rewrite Q1 in Q2. apply app_inv_head in Q2. injection Q2. auto. Qed.
Lemma handles_same : forall S (st : hstep S) i x i' x', handles st i x -> handles st i' x' -> i = i' /\ x = x'.
Proof. intros S st i x i' x' H1 H2. apply ev_handles in H1, H2. rewrite H1 in H2. injection H2; auto. Qed.
Lemma steps_mid : forall S E g (ops : store_ops S) b st c s s', steps E g ops s (b ++ st :: c) s' -> steps E g ops s b (h_pre st) /\ step E g ops (h_pre st) (h_ev st) = Some (h_post st, h_effs st) /\ steps E g ops (h_post st) c s'.
Proof. intros S E g ops b st c s s' H. apply steps_app in H as (m & H1 & H2). inversion H2; subst. cbn. auto. Qed.
Lemma pending_after : forall S E g (ops : store_ops S) id s b st c s' r, ca_at E g ops s -> steps E g ops s (b ++ st :: c) s' -> no_add id b -> pending ops (h_pre st) id = Some r -> pending ops s id <> None.
Proof.
  intros S E g ops id s b st c s' r A H NA P N. apply steps_mid in H as (H & _). rewrite (none_stays E g S ops id s b _ A H N NA) in P. discriminate.
Qed.
Lemma one_certificate : forall E g S (ops : store_ops S) a st1 b st2 c s id i1 x1 i2 x2 c1 c2, ca_history E g ops (a ++ st1 :: b ++ st2 :: c) s ->
  handles st1 i1 x1 -> names_request g id x1 -> In (EIssue c1) (h_effs st1) -> answered st1 ->
  handles st2 i2 x2 -> names_request g id x2 -> In (EIssue c2) (h_effs st2) -> ~ no_add id b.
Proof.
  intros E g S ops a st1 b st2 c s id i1 x1 i2 x2 c1 c2 H H1 N1 I1 AN H2 N2 I2 NA. apply history_mid in H as (A & ST & A2 & SS).
  destruct (chal_event E g S ops _ _ _ _ _ A ST I1 I) as (i & x & id' & r & nrm & m & EV & N & P & IDR & LV & NO & CS & Z).
  apply ev_handles in EV. destruct (handles_same _ _ _ _ _ _ H1 EV) as [<- <-]. pose proof (names_same _ _ _ _ N1 N) as <-.
  destruct (step_issue _ _ _ _ _ _ _ _ _ CS I1) as (params & ty & dv & cs & PF & RT & IC & [[Q _]|[(tail & Q) ->]]).
  { apply AN. rewrite Q. reflexivity. }
  assert (PN : pending ops (h_post st1) id = None) by (destruct Z as [Z|[_ Z]]; exact Z).
  destruct (steps_mid _ _ _ _ _ _ _ _ _ SS) as (S1 & S2 & _). pose proof (steps_at _ _ _ _ _ _ _ A2 S1) as A3.
  destruct (chal_event E g S ops _ _ _ _ _ A3 S2 I2 I) as (i' & x' & id2 & r2 & nrm2 & m2 & EV2 & N' & P2 & _).
  apply ev_handles in EV2. destruct (handles_same _ _ _ _ _ _ H2 EV2) as [<- <-]. pose proof (names_same _ _ _ _ N2 N') as <-.
  exact (pending_after S E g ops id _ b st2 c s r2 A2 SS NA P2 PN).
Qed.

(** A signed CHALLENGE Interest that is answered moves the challenge on or ends the request. *)
Lemma chal_step_answered : forall E g nrm i x r es m, chal_step E g nrm i x r es m -> puts es <> [] -> signed_by E x (public_key (rq_cert r)) -> live r ->
  (exists r3, In (EUpdate r3) es /\ m = Some (nrm r3) /\ rq_status r3 = ST_CHALLENGE /\ rq_id r3 = rq_id r) \/ (In (EDelete (rq_id r)) es /\ m = None).
Proof.
  intros E g nrm i x r es m CS AN SB LV.
  inversion CS as [es1 F|info FI NS|code info tail SB' PE C|params ty dv cs em payload r3 tail SB' OP K MV CE C|params ty dv cs c0 PF RT IC|params ty dv cs c0 tail PF RT IC T|params ty dv cs tail PF RT T]; subst.
  - exfalso. apply AN. clear AN CS. induction F as [|e es Q _ IH]; [reflexivity|]. destruct e; try (destruct Q; fail). cbn [puts flat_map app]. exact IH.
  - contradiction.
  - right. split; [left; reflexivity|reflexivity].
  - left. exists r3. split; [apply in_or_app; right; left; reflexivity|]. split; [reflexivity|].
    destruct (moved_live E g i x r params ty dv cs em payload r3 LV OP K MV CE) as (iv2 & -> & _). split; reflexivity.
  - exfalso. apply AN. reflexivity.
  - right. split; [right; left; reflexivity|reflexivity].
  - right. split; [left; reflexivity|reflexivity].
Qed.
Lemma pending_chal_step : forall E g S (ops : store_ops S) s ev s' es i x id r, ca_at E g ops s -> step E g ops s ev = Some (s', es) ->
  ev_interest ev = Some (i, x) -> names_request g id x -> pending ops s id = Some r ->
  exists nrm m, nrm_ok nrm /\ rq_id r = id /\ live r /\ chal_step E g nrm i x r es m /\ (pending ops s' id = m \/ restarts ev /\ pending ops s' id = None).
Proof.
  intros E g S ops s ev s' es i x id r A ST EV N P. destruct (pending_live E g S ops s id r A P) as [ID LV].
  destruct (at_id_step S E g ops _ _ _ _ A ST) as (nrm & NO & IDS). destruct (IDS id) as [m1 M Z]. rewrite P in M.
  inversion M as [es0 m F NN|i0 x0 es0 info FI EV0 N0 C|i0 x0 rt idkey peer c tail EV0 RT ID0 ADM CT|i0 x0 r0 es0 m EV0 N0 IDR CS].
  - destruct (NN i x EV N).
  - subst r0 es0 m. rewrite EV in EV0. injection EV0 as <- <-. exists nrm, m1. auto 10.
Qed.
Lemma answered_ends : forall E g S (ops : store_ops S) tr st s id r i x, ca_history E g ops (tr ++ [st]) s -> pending ops (h_pre st) id = Some r ->
  handles st i x -> names_request g id x -> signed_by E x (public_key (rq_cert r)) -> answered st ->
  (exists r3, In (EUpdate r3) (h_effs st) /\ rq_id r3 = id /\ rq_status r3 = ST_CHALLENGE) \/ (In (EDelete id) (h_effs st) /\ pending ops s id = None).
Proof.
  intros E g S ops tr st s id r i x H P HD N SB AN. apply history_snoc in H as (H & ST & ->). pose proof (history_at _ _ _ _ _ _ H) as A.
  apply ev_handles in HD. destruct (pending_chal_step E g S ops _ _ _ _ _ _ _ _ A ST HD N P) as (nrm & m & NO & IDR & LV & CS & Z).
  destruct (chal_step_answered _ _ _ _ _ _ _ _ CS AN SB LV) as [(r3 & IN & -> & Q & Q2)|[IN ->]]; [left; exists r3; rewrite Q2; auto|].
  right. rewrite <- IDR. split; [exact IN|]. rewrite IDR. destruct Z as [Z|[_ Z]]; exact Z.
Qed.
