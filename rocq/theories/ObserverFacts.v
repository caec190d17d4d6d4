(** C130: a follower of the status update callback. *)
From Coq Require Import Lia.
From Verif Require Import BytesFacts TraceProps ServerFacts.
From Verif Require Export Spec_Observer.
Local Open Scope N_scope.

(** A handler that runs to its end, or throws, has told the callback of every request it stored. *)
Definition notices (es : list eff) : Prop := forall r, In (EAdd r) es \/ In (EUpdate r) es -> In (ECallback r) es.
Lemma quiet_notices : forall es, (forall r, ~ In (EAdd r) es /\ ~ In (EUpdate r) es) -> notices es.
Proof. intros es H r [Q|Q]; destruct (H r) as [A B]; contradiction. Qed.
Ltac plain := apply quiet_notices; intros rr; split; intros QQ; cbn [email_effs In] in QQ; repeat match goal with H : _ \/ _ |- _ => destruct H | H : False |- _ => destruct H end; discriminate.
Lemma email_notices : forall em, notices (email_effs em).
Proof. intros [c|]; plain. Qed.
Lemma chal_notices : forall E g i x r full o, chal_out E g i x r (full, o) -> notices full.
Proof.
  intros E g i x r full o H. inversion H as [ info FI S | code info S K | o' S Q | params ty dv cs em payload r3 S OP KT M CE
    | params ty dv cs em o' r3 S OP KT M Q N | params ty dv cs c payload r3 S OP KT ST CS PA TY IC CE | params ty dv cs c o' r3 S OP KT ST CS PA TY IC Q N
    | params ty dv cs payload r3 S OP KT ST CS PA TY CE | params ty dv cs o' r3 S OP KT ST CS PA TY Q N ]; subst full o; try plain; [|apply email_notices].
  intros r0 [I|I]; apply in_app_or in I as [I|I].
  - destruct em as [cm|]; [destruct I as [I|[]]; discriminate|destruct I].
  - destruct I as [I|[I|[I|[]]]]; discriminate.
  - destruct em as [cm|]; [destruct I as [I|[]]; discriminate|destruct I].
  - destruct I as [I|[I|[I|[]]]]; try discriminate. injection I as <-. apply in_or_app. right. right. right. left. reflexivity.
Qed.
Lemma interest_notices : forall E g S (ops : store_ops S) s i x full o, on_interest E g ops s i x = (full, o) -> notices full.
Proof.
  intros E g S ops s i x full o H.
  assert (NEW : forall add_ok rt, rt = RT_NEW \/ rt = RT_REVOKE -> on_new E g add_ok (ca_idkey s) i rt x = (full, o) -> notices full).
  { intros add_ok rt RT Q. apply on_new_cases in Q; [|exact RT]. destruct Q as [(peer & c & AD & AO & -> & ->)|[(code & info & -> & -> & _ & _)|(-> & -> & _)]]; try plain.
    intros r [[Q|[Q|[Q|[]]]]|[Q|[Q|[Q|[]]]]]; try discriminate. right. right. left. f_equal. exact (f_equal (fun e => match e with EAdd r => r | _ => r end) Q). }
  destruct (on_interest_cases E g S ops s i x) as [[NA Q]|(v & AD & Q)]; rewrite Q in H.
  - injection H as <- <-. plain.
  - destruct v; cbn [handle] in H.
    + unfold on_discovery, on_get_profile in H. destruct (profile_data E g (ca_prof s) (in_version i)); [destruct (ca_prof s)| | |]; injection H as <- <-; plain.
    + unfold on_probe in H. match type of H with match ?b with _ => _ end = _ => destruct b as [[reds sufs]| | |] end; try (injection H as <- <-; plain).
      destruct reds, sufs; unfold put_error in H; injection H as <- <-; plain.
    + exact (NEW _ RT_NEW (or_introl eq_refl) H).
    + destruct (on_challenge_cases E g (s_get ops (ca_store s)) i x) as [(r & F & CO)|[(NF' & NUB & info & FI & Q')|(UB1 & Q')]].
      * rewrite H in CO. exact (chal_notices E g i x r full o CO).
      * rewrite Q' in H. injection H as <- <-. plain.
      * rewrite Q' in H. injection H as <- <-. plain.
    + exact (NEW _ RT_REVOKE (or_intror eq_refl) H).
Qed.
Lemma step_notices : forall E g S (ops : store_ops S) s ev s' es, step E g ops s ev = Some (s', es) -> ~ restarts ev -> notices es.
Proof.
  intros E g S ops s ev s' es H NR. destruct ev as [i x|i x n k|k|i]; try (destruct NR; exact I).
  - cbn [step] in H. destruct (on_interest E g ops s i x) as [full o] eqn:Q. assert (full = es) by (destruct o; congruence). subst full. exact (interest_notices E g S ops s i x es o Q).
  - cbn [step] in H. unfold on_get_profile in H. destruct (profile_data E g (ca_prof s) (in_version i)); try discriminate; [destruct (ca_prof s)|]; injection H as <- <-; plain.
Qed.

Lemma hear_none : forall id es v, (forall r, In (ECallback r) es -> rq_id r <> id) -> fold_left (hear id) es v = v.
Proof.
  intros id es. induction es as [|e es IH]; intros v H; [reflexivity|]. cbn [fold_left]. rewrite IH by (intros r I; apply H; right; exact I).
  destruct e; try reflexivity. cbn [hear]. destruct (bytes_eqb (rq_id r) id) eqn:B; [|reflexivity]. apply bytes_eqb_eq in B. destruct (H r (or_introl eq_refl) B).
Qed.
Lemma hear_emails : forall id em es v, fold_left (hear id) (email_effs em ++ es) v = fold_left (hear id) es v.
Proof. intros id [c|] es v; reflexivity. Qed.
Lemma encode_kept : forall E r issued fwd rnd payload r3, chal_encode E r issued fwd rnd = (Ok payload, r3) -> rq_id r3 = rq_id r /\ rq_status r3 = rq_status r.
Proof.
  intros E r issued fwd rnd payload r3 H. unfold chal_encode in H. destruct (chal_plain r issued fwd); try discriminate.
  destruct (encode_aes _ _ _ _ _ _) as [o iv]. destruct o; injection H as _ <-; auto.
Qed.
(** What is left of the last two effects: nothing, the reply, or both. *)
Lemma cut_two : forall tail d r, cut tail [EPut d; ECallback r] -> (forall r', ~ In (ECallback r') tail) \/ tail = [EPut d; ECallback r].
Proof.
  intros tail d r C. apply cut_cons in C as [->|(t1 & -> & C)]; [left; intros r' []|]. apply cut_cons in C as [->|(t2 & -> & C)].
  - left. intros r' [Q|[]]; discriminate.
  - apply cut_nil in C. subst. right. reflexivity.
Qed.
Definition last_sure (v m : option request) : Prop := forall r, m = Some r -> v = None \/ exists r0, v = Some r0 /\ told_of r0 r.
Definition forgotten {S} (E : env) (g : ca_cfg) (id : bytes) (r0 : request) (st : hstep S) : Prop :=
  exists i x, h_ev st = EvInterest i x /\ names_request g id x /\ signed_by E x (public_key (rq_cert r0)) /\ forgets id st.
Lemma told_cert : forall r0 r, told_of r0 r -> rq_cert r = rq_cert r0.
Proof. intros r0 r [ -> | -> ]; reflexivity. Qed.
Lemma heard_step : forall E g S (ops : store_ops S) (st : hstep S) id v, ca_at E g ops (h_pre st) -> step E g ops (h_pre st) (h_ev st) = Some (h_post st, h_effs st) -> ~ restarts (h_ev st) ->
  last_sure v (pending ops (h_pre st) id) ->
  (forall r, pending ops (h_post st) id = Some r -> (exists r0, hear_step id v st = Some r0 /\ told_of r0 r) \/ (hear_step id v st = None /\ v = None /\ pending ops (h_pre st) id = Some r)) /\
  (forall r0, hear_step id v st = Some r0 -> pending ops (h_post st) id = None -> v = Some r0 /\ (pending ops (h_pre st) id = None \/ forgotten E g id r0 st)) /\
  (pending ops (h_pre st) id = None -> ~ adds id st -> hear_step id v st = v /\ pending ops (h_post st) id = None) /\
  (forgets id st -> pending ops (h_post st) id = None /\ hear_step id v st = v).
Proof.
  intros E g S ops st id v A ST NR LS. destruct (at_id_step S E g ops _ _ _ _ A ST) as (nrm & NO & IDS). destruct (IDS id) as [m1 M Z].
  destruct Z as [Z|[R _]]; [|destruct (NR R)]. rewrite Z. clear Z IDS. pose proof (step_notices E g S ops _ _ _ _ ST NR) as NT.
  assert (HS : hear_step id v st = fold_left (hear id) (h_effs st) v) by (unfold hear_step; destruct (h_ev st); try reflexivity; destruct NR; exact I). rewrite HS. clear HS.
  remember (pending ops (h_pre st) id) as m0 eqn:P0. unfold forgets, adds, forgotten, forgets. remember (h_effs st) as es eqn:ES.
  match goal with |- ?G => remember G as GG eqn:EG end.
  assert (EV1 : forall i x, ev_interest (h_ev st) = Some (i, x) -> h_ev st = EvInterest i x).
  { intros i x Q. destruct (h_ev st); cbn in *; try discriminate; try congruence; destruct NR; exact I. }
  (* A step that leaves the request and the follower as they are. *)
  assert (SAME : m1 = m0 -> fold_left (hear id) es v = v -> ~ In (EDelete id) es ->
    GG).
  { intros -> HV ND. rewrite EG, HV. split; [|split; [|split]].
    - intros r Q. destruct (LS r Q) as [->|X]; [right|left; exact X]. auto.
    - intros r0 Q1 Q2. auto.
    - intros Q _. auto.
    - intros [D _]. destruct (ND D). }
  inversion M as [es0 m F NN|i x es0 info FI EV N C|i x rt idkey peer c tail EV RT ID0 ADM CT|i x r es0 m EV N IDR CS].
  - rewrite Forall_forall in F. apply SAME; [congruence| |].
    + apply hear_none. intros r I Q. exact (F _ I Q).
    + intros I. exact (F _ I eq_refl).
  - apply SAME; [congruence| |].
    + apply hear_none. intros r I. apply (in_cut _ _ _ C) in I. destruct I as [Q|[]]. discriminate.
    + intros I. apply (in_cut _ _ _ C) in I. destruct I as [Q|[]]. discriminate.
  - assert (TL : tail = [EPut (new_reply E g i x id); ECallback (created E g i rt id peer c)]).
    { destruct (cut_two _ _ _ CT) as [NC|Q]; [|exact Q]. specialize (NT (created E g i rt id peer c)). rewrite <- H in NT. destruct NT as [Q|Q]; [left; left; reflexivity|discriminate|destruct (NC _ Q)]. }
    assert (HV : fold_left (hear id) es v = Some (created E g i rt id peer c)).
    { rewrite <- H, TL. cbn [fold_left hear]. change (rq_id (created E g i rt id peer c)) with id. rewrite bytes_eqb_refl. reflexivity. }
    rewrite EG, HV, <- H0, <- H1. split; [|split; [|split]].
    + intros r Q. injection Q as <-. left. eexists. split; [reflexivity|left; reflexivity].
    + intros r0 _ Q. discriminate.
    + intros _ NA. exfalso. apply NA. exists (created E g i rt id peer c). split; [rewrite <- H; left; reflexivity|reflexivity].
    + intros [D NC]. exfalso. apply (NC (created E g i rt id peer c)). rewrite <- H, TL. right. right. left. reflexivity.
  - subst es0 m.
    assert (GONE : (forall r', ~ In (ECallback r') es) -> In (EDelete id) es -> m1 = None -> signed_by E x (public_key (rq_cert r)) ->
      GG).
    { intros NC ID -> SB. rewrite EG, hear_none by (intros r' I; destruct (NC _ I)). split; [intros ? Q; discriminate|]. split; [|split; [congruence|auto]].
      intros r0 Q _. split; [exact Q|]. right. exists i, x. split; [exact (EV1 i x EV)|]. split; [exact N|]. split; [|split; assumption].
      destruct (LS r (eq_sym H0)) as [Q'|(r1 & Q' & T)]; [congruence|]. assert (r1 = r0) by congruence. subst r1. rewrite <- (told_cert _ _ T). exact SB. }
    assert (DONE : fold_left (hear id) es v = None -> (exists r', In (ECallback r') es) -> m1 = None ->
      GG).
    { intros HV (r' & IC) ->. rewrite EG, HV. split; [intros ? Q; discriminate|]. split; [intros ? Q; discriminate|]. split; [congruence|]. intros [_ NC]. destruct (NC _ IC). }
    inversion CS as [es1 F|info FI NS|code info tail SB PE C|params ty dv cs em payload r3 tail SB OP K MV CE C|params ty dv cs c PF RT IC|params ty dv cs c tail PF RT IC T|params ty dv cs tail PF RT T].
    + subst es1. rewrite Forall_forall in F. apply SAME; [congruence| |].
      * apply hear_none. intros r' I. destruct (F _ I).
      * intros I. destruct (F _ I).
    + apply SAME; [congruence|rewrite <- H; reflexivity|rewrite <- H; intros [Q|[]]; discriminate].
    + apply GONE; [|rewrite <- H, IDR; left; reflexivity|congruence|exact SB]. intros r' I. rewrite <- H in I. destruct I as [Q|I]; [discriminate|].
      apply (in_cut _ _ _ C) in I. destruct I as [Q|[]]. discriminate.
    + destruct (encode_kept _ _ _ _ _ _ _ CE) as [KI KS]. change (rq_id (moved dv ty cs r)) with (rq_id r) in KI. rewrite IDR in KI.
      assert (TL : tail = [EPut (reply_data E g (i_name x) payload); ECallback r3]).
      { destruct (cut_two _ _ _ C) as [NC|Q]; [|exact Q]. specialize (NT r3). rewrite <- H in NT. exfalso.
        assert (I : In (ECallback r3) (email_effs em ++ EUpdate r3 :: tail)) by (apply NT; right; apply in_or_app; right; left; reflexivity).
        apply in_app_or in I as [I|[I|I]]; [|discriminate|exact (NC _ I)]. destruct em; [destruct I as [I|[]]; discriminate|destruct I]. }
      assert (HV : fold_left (hear id) es v = Some r3).
      { rewrite <- H, TL, hear_emails. cbn [fold_left hear]. rewrite KI, bytes_eqb_refl, KS. reflexivity. }
      rewrite EG, HV. rewrite <- H1. split; [|split; [|split]].
      * intros r' Q. injection Q as <-. left. exists r3. split; [reflexivity|exact (NO r3)].
      * intros r0 _ Q. discriminate.
      * congruence.
      * intros [_ NC]. destruct (NC r3). rewrite <- H, TL. apply in_or_app. right. right. right. left. reflexivity.
    + apply SAME; [congruence|rewrite <- H; reflexivity|rewrite <- H; intros [Q|[]]; discriminate].
    + destruct PF as (SB & _). destruct T as [->|(payload & r3 & CE & C)].
      * apply GONE; [|rewrite <- H, IDR; right; left; reflexivity|congruence|exact SB]. intros r' I. rewrite <- H in I. destruct I as [Q|[Q|[]]]; discriminate.
      * destruct (cut_two _ _ _ C) as [NC|TL].
        -- apply GONE; [|rewrite <- H, IDR; right; left; reflexivity|congruence|exact SB]. intros r' I. rewrite <- H in I. destruct I as [Q|[Q|I]]; try discriminate. exact (NC _ I).
        -- destruct (encode_kept _ _ _ _ _ _ _ CE) as [KI KS]. change (rq_id (set_status ST_SUCCESS (set_cert c (passed dv ty r)))) with (rq_id r) in KI. rewrite IDR in KI.
           apply DONE; [|exists r3; rewrite <- H, TL; right; right; right; left; reflexivity|congruence].
           rewrite <- H, TL. cbn [fold_left hear]. rewrite KI, bytes_eqb_refl, KS. reflexivity.
    + destruct PF as (SB & _). destruct T as [->|(payload & r3 & CE & C)].
      * apply GONE; [|rewrite <- H, IDR; left; reflexivity|congruence|exact SB]. intros r' I. rewrite <- H in I. destruct I as [Q|[]]; discriminate.
      * destruct (cut_two _ _ _ C) as [NC|TL].
        -- apply GONE; [|rewrite <- H, IDR; left; reflexivity|congruence|exact SB]. intros r' I. rewrite <- H in I. destruct I as [Q|I]; try discriminate. exact (NC _ I).
        -- destruct (encode_kept _ _ _ _ _ _ _ CE) as [KI KS]. change (rq_id (set_status ST_SUCCESS (passed dv ty r))) with (rq_id r) in KI. rewrite IDR in KI.
           apply DONE; [|exists r3; rewrite <- H, TL; right; right; left; reflexivity|congruence].
           rewrite <- H, TL. cbn [fold_left hear]. rewrite KI, bytes_eqb_refl, KS. reflexivity.
Qed.
Lemma restarted_step : forall S id v (st : hstep S), restarts (h_ev st) -> hear_step id v st = None.
Proof. intros S id v st R. unfold hear_step. destruct (h_ev st); try destruct R; reflexivity. Qed.
Lemma restarts_dec : forall ev, restarts ev \/ ~ restarts ev.
Proof. intros []; cbn; auto. Qed.
Lemma follows_steps : forall E g S (ops : store_ops S) id s tr s', ca_at E g ops s -> steps E g ops s tr s' -> forall v, last_sure v (pending ops s id) ->
  (forall r, pending ops s' id = Some r -> (exists r0, fold_left (hear_step id) tr v = Some r0 /\ told_of r0 r) \/
    (fold_left (hear_step id) tr v = None /\ ((v = None /\ pending ops s id = Some r) \/ exists a st b, tr = a ++ st :: b /\ restarts (h_ev st) /\ pending ops (h_post st) id = Some r))) /\
  (forall r0, fold_left (hear_step id) tr v = Some r0 -> pending ops s' id = None -> (v = Some r0 /\ pending ops s id = None) \/
    exists a st b, tr = a ++ st :: b /\ forgotten E g id r0 st /\ fold_left (hear_step id) a v = Some r0).
Proof.
  intros E g S ops id s tr s' A H. revert A. induction H as [s|s ev es s1 tr s2 ST SS IH]; intros A v LS.
  - cbn [fold_left]. split.
    + intros r P. destruct (LS r P) as [->|X]; [right|left; exact X]. auto.
    + intros r0 -> P. auto.
  - pose (st := HStep s ev es s1). cbn [fold_left]. pose proof (ca_at_step _ _ _ _ _ _ _ _ A ST) as A1. destruct (restarts_dec ev) as [R|NR].
    + assert (HV : hear_step id v st = None) by (apply restarted_step; exact R). fold st. rewrite HV. destruct (IH A1 None) as [F1 F2]; [intros r P; left; reflexivity|]. split.
      * intros r P. destruct (F1 r P) as [X|[X Y]]; [left; exact X|right]. split; [exact X|]. right. destruct Y as [[_ Y]|(a & st' & b & -> & Y)].
        -- exists [], st, tr. split; [reflexivity|]. split; [exact R|exact Y].
        -- exists (st :: a), st', b. split; [reflexivity|exact Y].
      * intros r0 Q P. destruct (F2 r0 Q P) as [[X _]|(a & st' & b & -> & X & Y)]; [discriminate|]. right. exists (st :: a), st', b. split; [reflexivity|]. split; [exact X|]. cbn [fold_left]. rewrite HV. exact Y.
    + destruct (heard_step E g S ops st id v A ST NR LS) as (G1 & G2 & _). cbn [h_pre h_post st] in G1, G2. fold st.
      destruct (IH A1 (hear_step id v st)) as [F1 F2].
      { intros r P. destruct (G1 r P) as [X|(X & _)]; [right; exact X|left; exact X]. }
      split.
      * intros r P. destruct (F1 r P) as [X|[X Y]]; [left; exact X|right]. split; [exact X|]. destruct Y as [[Y1 Y2]|(a & st' & b & -> & Y)].
        -- left. destruct (G1 r Y2) as [(r0 & Z & _)|(_ & Z1 & Z2)]; [congruence|]. auto.
        -- right. exists (st :: a), st', b. split; [reflexivity|exact Y].
      * intros r0 Q P. destruct (F2 r0 Q P) as [[X Y]|(a & st' & b & -> & X & Y)].
        -- destruct (G2 r0 X Y) as [Z1 [Z2|Z2]]; [left; auto|right]. exists [], st, tr. split; [reflexivity|]. split; [exact Z2|exact Z1].
        -- right. exists (st :: a), st', b. split; [reflexivity|]. split; [exact X|exact Y].
Qed.
Lemma history_start : forall E g S (ops : store_ops S) tr s, ca_history E g ops tr s -> exists s0, ca_at E g ops s0 /\ steps E g ops s0 tr s /\ forall id, pending ops s0 id = None.
Proof.
  intros E g S ops tr s H. pose proof H as [LC NF B (key & ST)]. destruct (back_end_laws E S ops B LC) as (inv & nrm & SL). destruct (init_inv E g ops inv nrm SL key) as [_ Z].
  exists (ca_init ops key). split; [|split; [exact ST|]].
  - apply (history_at _ _ _ _ [] _). constructor; try assumption. exists key. constructor.
  - intros id. unfold pending. unfold ca_get in Z. apply Z.
Qed.
Lemma observed_pending : forall E g S (ops : store_ops S) tr s id r, ca_history E g ops tr s -> pending ops s id = Some r ->
  (exists r0, observed id tr = Some r0 /\ told_of r0 r) \/
  (observed id tr = None /\ exists a st b, tr = a ++ st :: b /\ restarts (h_ev st) /\ pending ops (h_post st) id = Some r).
Proof.
  intros E g S ops tr s id r H P. destruct (history_start _ _ _ _ _ _ H) as (s0 & A & ST & Z). destruct (follows_steps E g S ops id s0 tr s A ST None) as [F _]; [intros ? ?; left; reflexivity|].
  destruct (F r P) as [X|[X [[_ Y]|Y]]]; [left; exact X|rewrite Z in Y; discriminate|right; split; assumption].
Qed.
Lemma observed_live : forall E g S (ops : store_ops S) tr s id r, ca_history E g ops tr s -> one_process tr -> pending ops s id = Some r -> exists r0, observed id tr = Some r0 /\ told_of r0 r.
Proof.
  intros E g S ops tr s id r H NR P. destruct (observed_pending _ _ _ _ _ _ _ _ H P) as [X|(_ & a & st & b & -> & R & _)]; [exact X|]. exfalso. apply Forall_app in NR as [_ NR].
  inversion NR as [|? ? Q _]; subst. exact (Q R).
Qed.
Lemma observed_stale : forall E g S (ops : store_ops S) tr s id r0, ca_history E g ops tr s -> observed id tr = Some r0 -> pending ops s id = None ->
  exists a st b i x, tr = a ++ st :: b /\ observed id a = Some r0 /\ h_ev st = EvInterest i x /\ names_request g id x /\ signed_by E x (public_key (rq_cert r0)) /\ forgets id st.
Proof.
  intros E g S ops tr s id r0 H O P. destruct (history_start _ _ _ _ _ _ H) as (s0 & A & ST & Z). destruct (follows_steps E g S ops id s0 tr s A ST None) as [_ F]; [intros ? ?; left; reflexivity|].
  destruct (F r0 O P) as [[X _]|(a & st & b & -> & (i & x & F1 & F2 & F3 & F4) & Y)]; [discriminate|]. exists a, st, b, i, x. repeat (split; [assumption||reflexivity|]). exact F4.
Qed.
Lemma never_told_steps : forall E g S (ops : store_ops S) id s tr s', ca_at E g ops s -> steps E g ops s tr s' -> pending ops s id = None -> one_process tr -> no_add id tr ->
  forall v, fold_left (hear_step id) tr v = v /\ pending ops s' id = None.
Proof.
  intros E g S ops id s tr s' A H. revert A. induction H as [s|s ev es s1 tr s2 ST SS IH]; intros A P NR NA v; [split; [reflexivity|exact P]|].
  inversion NR as [|? ? NR1 NR2]; inversion NA as [|? ? NA1 NA2]; subst. cbn [fold_left].
  destruct (heard_step E g S ops (HStep s ev es s1) id v A ST NR1) as (_ & _ & G & _); [intros r Q; cbn [h_pre] in Q; congruence|]. destruct (G P NA1) as [HV P1]. rewrite HV.
  exact (IH (ca_at_step _ _ _ _ _ _ _ _ A ST) P1 NR2 NA2 v).
Qed.
(** The follower keeps a request that the CA has forgotten. *)
Lemma never_told : forall E g S (ops : store_ops S) tr st later s id r0, ca_history E g ops (tr ++ st :: later) s -> observed id tr = Some r0 -> pending ops (h_pre st) id <> None -> forgets id st ->
  one_process (st :: later) -> no_add id later -> pending ops s id = None /\ observed id (tr ++ st :: later) = Some r0.
Proof.
  intros E g S ops tr st later s id r0 H O P F NR NA. destruct (history_cut _ _ _ _ _ _ _ H) as (m & H1 & H2). inversion H2 as [|? ev es s1 ? ? ST SS]; subst. pose proof (history_at _ _ _ _ _ _ H1) as A.
  inversion NR as [|? ? NR1 NR2]; subst. cbn [h_pre h_ev] in *.
  destruct (history_start _ _ _ _ _ _ H1) as (s0 & A0 & ST0 & Z). destruct (follows_steps E g S ops id s0 tr m A0 ST0 None) as [FW _]; [intros ? ?; left; reflexivity|]. fold (observed id tr) in FW.
  destruct (heard_step E g S ops (HStep m ev es s1) id (observed id tr) A ST NR1) as (_ & _ & _ & G).
  { intros r Q. destruct (FW r Q) as [X|[X _]]; [right; exact X|left; exact X]. }
  destruct (G F) as [P1 HV]. destruct (never_told_steps E g S ops id _ _ _ (ca_at_step _ _ _ _ _ _ _ _ A ST) SS P1 NR2 NA (Some r0)) as [X Y].
  split; [exact Y|]. unfold observed. rewrite fold_left_app. cbn [fold_left]. fold (observed id tr). rewrite HV, O. exact X.
Qed.
