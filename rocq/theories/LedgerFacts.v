(** The ledger a CA keeps: proofs. *)
From Verif Require Export Spec_Ledger TraceCounts.
From Coq Require Import Lia.
Local Open Scope N_scope.

Definition sound_proof (E : env) (s : stage) : Prop :=
  match s with AwaitProof c _ => fits (o_cert_wire E c) /\ o_cert_unwire E (o_cert_wire E c) = Some c | _ => True end.
Definition sim (E : env) (m : option request) (e : option entry) : Prop := stored_as E m e /\ forall en, e = Some en -> sound_proof E (en_stage en).

Lemma passes_stage : forall E i params cs ty r s, codec_laws E -> rq_cs r = Some cs -> passes E i params cs ty -> stands E r s -> sound_proof E s ->
  exists a, gives i params ty a /\ meets_stage E s a.
Proof.
  intros E i params cs ty r s L C P ST SP. inversion P as [ty0 code GU SC|c w t nonce proof SS PI NE FW BV CD FN OV]; subst.
  - destruct GU as (life & t & CL & W & GP & GV & LT). exists (GiveCode (t_val t) (in_t1 i) life). split; [constructor; assumption|].
    inversion ST as [? S1 S2|? cs0 code0 S1 S2 W0 SE|? cs0 c nonce S1 S2 PV]; subst; [congruence| |].
    + assert (cs0 = cs) by congruence. subst cs0. rewrite SE in SC. cbn [sec_get] in SC. change (bytes_eqb (bs "code") (bs "code")) with true in SC. cbv iota in SC.
      apply (f_equal (fun o => match o with Some b => b | None => [] end)) in SC. rewrite <- SC. constructor. exact LT.
    + exfalso. assert (cs0 = cs) by congruence. subst cs0. destruct PV as [Q _]. destruct W as [W|W]; rewrite W in Q; discriminate.
  - exists (GiveProof proof). split; [constructor; assumption|].
    inversion ST as [? S1 S2|? cs0 code0 S1 S2 W0 SE|? cs0 c0 nonce0 S1 S2 PV]; subst; [congruence| |].
    + exfalso. assert (cs0 = cs) by congruence. subst cs0. destruct W0 as [W|W]; rewrite W in SS; discriminate.
    + assert (cs0 = cs) by congruence. subst cs0. destruct PV as [_ SEC]. destruct SP as [F U].
      change (cs_secrets cs = possession_secrets E nonce0 c0) in SEC. rewrite SEC in FW, FN. destruct (secrets_get E nonce0 c0) as [G1 G2].
      rewrite ?G1, ?G2 in FW. rewrite ?G1, ?G2 in FN. rewrite from_to_hex in FW, FN.
      apply (f_equal (fun o => match o with Some b => b | None => [] end)) in FW. apply (f_equal (fun o => match o with Some b => b | None => [] end)) in FN. subst w nonce.
      rewrite (stored_credential E c0 F) in BV. apply (f_equal (fun o => match o with Some b => b | None => cert_tlv E c0 end)) in BV. subst t.
      unfold cert_decode, data_decode in CD. change (t_type (cert_tlv E c0) =? T_Data) with true in CD. cbv iota in CD. change (t_val (cert_tlv E c0)) with (o_cert_wire E c0) in CD.
      rewrite U in CD. destruct (cert_ok c0); [|discriminate]. assert (c0 = c) by congruence. subst c0. constructor. exact OV.
Qed.
Lemma trunc_about : forall t, about (trunc_us t) t.
Proof. intros t. unfold about, trunc_us. pose proof (Z.quot_rem t 1000). pose proof (Z.rem_bound_abs t 1000). lia. Qed.
Lemma about_refl : forall t, about t t.
Proof. intros t. unfold about. rewrite Z.sub_diag. reflexivity. Qed.

Lemma new_type : forall g r, good g r -> rq_type r = RT_NEW \/ rq_type r = RT_RENEW -> rq_type r = RT_NEW.
Proof. intros g r (_ & _ & [Q|Q] & _) [R|R]; try exact Q; rewrite Q in R; discriminate. Qed.

Lemma quiet_tail : forall em r3 tail, (exists d r4, cut tail [EPut d; ECallback r4]) ->
  signs_only (email_effs em ++ EUpdate r3 :: tail) [] /\ mails_only (email_effs em ++ EUpdate r3 :: tail) (match em with Some c => [c] | None => [] end).
Proof.
  intros em r3 tail (d & r4 & C). split.
  - intros c. split; [|intros []]. intros Q. apply in_app_or in Q as [Q|[Q|Q]]; [destruct em as [cmd|]; [destruct Q as [Q|[]]; discriminate|destruct Q]|discriminate|].
    apply (in_cut _ _ _ C) in Q. destruct Q as [Q|[Q|[]]]; discriminate.
  - intros cmd. split.
    + intros Q. apply in_app_or in Q as [Q|[Q|Q]]; [destruct em as [c|]; [destruct Q as [Q|[]]; injection Q as <-; left; reflexivity|destruct Q]|discriminate|].
      apply (in_cut _ _ _ C) in Q. destruct Q as [Q|[Q|[]]]; discriminate.
    + intros Q. apply in_or_app. left. destruct em as [c|]; [destruct Q as [<-|[]]; left; reflexivity|destruct Q].
Qed.
Lemma signs_none : forall es, (forall c, ~ In (EIssue c) es) -> signs_only es [].
Proof. intros es H c. split; [intros Q; destruct (H c Q)|intros []]. Qed.

Lemma issue_only : forall c id tail (P : bytes -> request -> Prop) (D : bytes -> data), tail = [] \/ (exists payload r3, P payload r3 /\ cut tail [EPut (D payload); ECallback r3]) -> signs_only (EIssue c :: EDelete id :: tail) [c].
Proof.
  intros c id tail P D T c'. split; [|intros [<-|[]]; left; reflexivity]. intros [Q|[Q|Q]]; [injection Q as <-; left; reflexivity|discriminate|].
  destruct T as [->|(payload & r3 & _ & C)]; [destruct Q|]. apply (in_cut _ _ _ C) in Q. destruct Q as [Q|[Q|[]]]; discriminate.
Qed.

Section Step.
  Context (E : env) (g : ca_cfg) {S : Type} (ops : store_ops S).
  Local Notation perf := (performs E g).

  Lemma sim_moved : forall nrm i x id r en params ty dv cs em payload r3 tail (st : hstep S), codec_laws E -> nrm_ok nrm -> handles st i x -> names_request g id x -> rq_id r = id ->
    good g r -> sim E (Some r) (Some en) -> signed_by E x (public_key (rq_cert r)) -> opened E x r params ty dv -> known_type ty ->
    moves E (cf_chal g) i params (set_div dv r) ty cs em -> chal_encode E (moved dv ty cs r) [] [] (rnd_iv i) = (Ok payload, r3) ->
    (exists d r4, cut tail [EPut d; ECallback r4]) /\ h_effs st = email_effs em ++ EUpdate r3 :: tail ->
    exists a e1, perf id st (Some en) a /\ turns E g (Some en) a e1 /\ sim E (Some (nrm r3)) e1.
  Proof.
    intros nrm i x id r en params ty dv cs em payload r3 tail st L NO HD N IDR GD [SA SP] SB OP KT MV CE (QT & ES).
    destruct (quiet_tail em r3 tail QT) as [SI ML]. rewrite <- ES in SI, ML.
    destruct GD as (LV & PFX & RT & NP). specialize (SP en eq_refl). inversion SA as [|r0 e0 A1 A2 A3 A4]; subst r0 e0.
    pose proof (opened_asks S E g id st i x r params ty dv HD N IDR SB OP) as AK. rewrite A2, A3 in AK.
    destruct (moved_live E g i x r params ty dv cs em payload r3 LV OP KT MV CE) as (iv2 & -> & _ & _ & TB & _).
    assert (IU : In (EUpdate (set_eiv iv2 (moved dv ty cs r))) (h_effs st)) by (rewrite ES; apply in_or_app; right; left; reflexivity).
    destruct en as [en_t en_c en_k en_s]. cbn [en_type en_cert en_key en_stage] in *.
    assert (NF := nrm_fixed nrm (set_eiv iv2 (moved dv ty cs r)) NO). destruct NF as (_ & F2 & F3 & F4 & F5 & _).
    cbn [moved set_eiv set_cs set_ctype set_status set_div rq_key rq_cert rq_type rq_status] in F2, F3, F4, F5.
    assert (NC : exists cs', rq_cs (nrm (set_eiv iv2 (moved dv ty cs r))) = Some cs' /\ cs_status cs' = cs_status cs /\ cs_secrets cs' = cs_secrets cs /\ cs_tries cs' = cs_tries cs /\ about (cs_time cs') (cs_time cs)).
    { destruct (NO (set_eiv iv2 (moved dv ty cs r))) as [-> | ->]; cbn; eexists; (split; [reflexivity|]); cbn; repeat (split; [reflexivity|]); [apply about_refl|apply trunc_about]. }
    destruct NC as (cs' & C' & S1 & S2 & S3 & S4).
    assert (SIM : forall s, stands E (nrm (set_eiv iv2 (moved dv ty cs r))) s -> sound_proof E s -> sim E (Some (nrm (set_eiv iv2 (moved dv ty cs r)))) (Some (Entry en_t en_c en_k s))).
    { intros s Q1 Q2. split; [constructor; cbn [en_type en_cert en_key en_stage]; [congruence|congruence|congruence|exact Q1]|]. intros en' Q. injection Q as <-. exact Q2. }
    assert (STC : forall code n, cs_tries cs = n -> wants_code cs' -> cs_secrets cs = [(bs "code", code)] -> stands E (nrm (set_eiv iv2 (moved dv ty cs r))) (AwaitCode code n (cs_time cs'))).
    { intros code n <- W Q. rewrite <- S3. apply (st_code E _ cs' code); [exact F5|exact C'|exact W|rewrite S2; exact Q]. }
    destruct MV as [[SB0 STT]|(NB & EMN & cs0 & C0 & RE)].
    - cbn [set_div rq_status] in SB0.
      assert (FR : en_s = Fresh).
      { inversion A4 as [? B1 B2|? cs0 code0 B1 B2 W0 SE|? cs0 c0 nonce0 B1 B2 PV]; subst; [reflexivity| |]; rewrite SB0 in B1; discriminate. }
      subst en_s. remember (set_div dv r) as rd eqn:RD. inversion STT as [code GC|code addr GC GP|c CI CC TR].
      + subst ty cs em. exists (Ask (AwaitCode code 3 (cs_time cs'))), (Some (Entry en_t en_c en_k (AwaitCode code 3 (cs_time cs')))).
        split; [|split; [constructor; constructor|]].
        * eapply pf_ask; [exact AK| |exact IU|exact SI]. cbn [en_cert]. constructor; [exact GC|exact S4|exact ML].
        * apply SIM; [|exact I]. apply STC; [reflexivity|left; exact S1|reflexivity].
      + subst ty cs em. exists (Ask (AwaitCode code 3 (cs_time cs'))), (Some (Entry en_t en_c en_k (AwaitCode code 3 (cs_time cs')))).
        split; [|split; [constructor; constructor|]].
        * eapply pf_ask; [exact AK| |exact IU|exact SI]. cbn [en_cert]. apply (begins_email _ _ _ _ _ _ code _ addr rd); [exact GC|exact S4|exact GP|subst rd; exact A2|subst rd; exact PFX|exact ML].
        * apply SIM; [|exact I]. apply STC; [reflexivity|left; exact S1|reflexivity].
      + subst ty cs em. exists (Ask (AwaitProof c (rnd_nonce i))), (Some (Entry en_t en_c en_k (AwaitProof c (rnd_nonce i)))).
        split; [|split; [constructor; constructor|]].
        * eapply pf_ask; [exact AK| |exact IU|exact SI]. cbn [en_cert]. constructor; [assumption|assumption|exact ML].
        * apply SIM; [|destruct (credential_storable E params c L CI) as (_ & Q); exact Q]. apply (st_proof E _ cs'); [exact F5|exact C'|]. split; [rewrite S1|rewrite S2]; reflexivity.
    - cbn [set_div rq_cs rq_status] in C0, NB. destruct RE as (given & code & life & (lf & t & CL & W & GP & GV & LT) & CL' & SG & NE & TR & CSQ).
      inversion A4 as [? B1 B2|? cs1 code0 B1 B2 W0 SE|? cs1 c0 nonce0 B1 B2 PV]; subst r0 en_s.
      { congruence. }
      2:{ exfalso. assert (cs1 = cs0) by congruence. subst cs1. destruct PV as [Q _]. destruct W as [W|W]; rewrite W in Q; discriminate. }
      assert (cs1 = cs0) by congruence. subst cs1. rewrite SE in SG. cbn [sec_get] in SG. change (bytes_eqb (bs "code") (bs "code")) with true in SG. cbv iota in SG. injection SG as ->.
      exists (Miss (GiveCode given (in_t1 i) lf) (cs_time cs')), (Some (Entry en_t en_c en_k (AwaitCode code (cs_tries cs0 - 1) (cs_time cs')))).
      split; [|split].
      + eapply pf_miss; [exact AK|rewrite <- GV; constructor; assumption|subst cs; exact S4|exact IU|exact SI|rewrite EMN in ML; exact ML].
      + constructor; [exact NE|exact LT|exact TR].
      + apply SIM; [|exact I]. subst cs. apply STC; [reflexivity|right; exact S1|exact SE].
  Qed.

  Lemma sim_chal : forall nrm i x id r en m (st : hstep S), codec_laws E -> nrm_ok nrm -> handles st i x -> names_request g id x -> rq_id r = id -> good g r ->
    sim E (Some r) (Some en) -> chal_step E g nrm i x r (h_effs st) m -> exists a e1, perf id st (Some en) a /\ turns E g (Some en) a e1 /\ sim E m e1.
  Proof.
    intros nrm i x id r en m st L NO HD N IDR GD SIM CS. pose proof SIM as [SA SP]. specialize (SP en eq_refl). inversion SA as [|r0 e0 A1 A2 A3 A4]; subst r0 e0.
    pose proof (fun params ty dv SB OP => opened_asks S E g id st i x r params ty dv HD N IDR SB OP) as AK. rewrite A2, A3 in AK.
    assert (NONE : sim E None None) by (split; [constructor|intros ? ?; discriminate]).
    remember (h_effs st) as es eqn:ES. 
    inversion CS as [es1 F|info FI NS|code info tail SB PE C|params ty dv cs em payload r3 tail SB OP K MV CE C|params ty dv cs c PF RT IC|params ty dv cs c tail PF RT IC T|params ty dv cs tail PF RT T]; subst m; subst es.
    - exists Idle, (Some en). split; [|split; [constructor|exact SIM]]. rewrite Forall_forall in F. constructor.
      + intros e IN T. specialize (F e IN). destruct e; try destruct F; destruct T.
      + intros i0 x0 _ _. apply signs_none. intros c IN. destruct (F _ IN).
    - exists Idle, (Some en). split; [|split; [constructor|exact SIM]]. constructor.
      + intros e IN T. rewrite <- H in IN. destruct IN as [<-|[]]. destruct T.
      + intros i0 x0 _ _. apply signs_none. intros c IN. rewrite <- H in IN. destruct IN as [Q|[]]. discriminate.
    - exists Drop, None. split; [|split; [constructor|exact NONE]]. rewrite A2 in SB. apply (pf_drop E g id st en i x HD N SB); rewrite <- H; rewrite ?IDR.
      + left. reflexivity.
      + apply signs_none. intros c [Q|Q]; [discriminate|]. apply (in_cut _ _ _ C) in Q. destruct Q as [Q|[]]. discriminate.
      + intros c [Q|Q]; [discriminate|]. apply (in_cut _ _ _ C) in Q. destruct Q as [Q|[]]. discriminate.
    - apply (sim_moved nrm i x id r en params ty dv cs em payload r3 tail st L NO HD N IDR GD SIM SB OP K MV CE). split; [|exact (eq_sym H)].
      exists (reply_data E g (i_name x) payload), r3. exact C.
    - destruct PF as (SB & OP & KT & NB & RC & PA). rewrite A2 in SB. destruct (passes_stage E i params cs ty r (en_stage en) L RC PA A4 SP) as (a & GV & MS).
      destruct (issued_facts E g _ _ _ GD IC) as [CF _]. assert (TY : en_type en = RT_NEW) by (rewrite <- A1; exact (new_type g r GD RT)).
      exists (Sign a c), (Some en). split; [eapply pf_sign; [apply (AK params ty dv); [exact SB|exact OP]|exact GV|symmetry; exact H]|].
      split; [|exact SIM]. rewrite A2 in CF. destruct en as [t0 c0 k0 s0]. cbn [en_type en_cert en_key en_stage] in *. rewrite TY; constructor; assumption.
    - destruct PF as (SB & OP & KT & NB & RC & PA). rewrite A2 in SB. destruct (passes_stage E i params cs ty r (en_stage en) L RC PA A4 SP) as (a & GV & MS).
      destruct (issued_facts E g _ _ _ GD IC) as [CF _]. assert (TY : en_type en = RT_NEW) by (rewrite <- A1; exact (new_type g r GD RT)).
      exists (Grant a c), None. split; [eapply pf_grant; [apply (AK params ty dv); [exact SB|exact OP]|exact GV|rewrite <- H; exact (issue_only c _ tail _ _ T)|rewrite <- H, IDR; right; left; reflexivity]|].
      split; [|exact NONE]. rewrite A2 in CF. destruct en as [t0 c0 k0 s0]. cbn [en_type en_cert en_key en_stage] in *. rewrite TY; constructor; assumption.
    - destruct PF as (SB & OP & KT & NB & RC & PA). rewrite A2 in SB. destruct (passes_stage E i params cs ty r (en_stage en) L RC PA A4 SP) as (a & GV & MS).
      exists (Revoke a), None. split; [eapply pf_revoke; [apply (AK params ty dv); [exact SB|exact OP]|exact GV|rewrite <- H, IDR; left; reflexivity|]|].
      + apply signs_none. intros c Q. rewrite <- H in Q. destruct Q as [Q|Q]; [discriminate|]. destruct T as [->|(payload & r3 & CE & C)]; [destruct Q|]. apply (in_cut _ _ _ C) in Q. destruct Q as [Q|[Q|[]]]; discriminate.
      + split; [|exact NONE]. assert (TY : en_type en = RT_REVOKE) by congruence. destruct en as [t0 c0 k0 s0]. cbn [en_type en_cert en_key en_stage] in *. rewrite TY; constructor; assumption.
  Qed.
  Lemma sim_step : forall (st : hstep S) id e, ca_at E g ops (h_pre st) -> step E g ops (h_pre st) (h_ev st) = Some (h_post st, h_effs st) -> sim E (pending ops (h_pre st) id) e ->
    exists a e1, perf id st e a /\ turns E g e a e1 /\ (sim E (pending ops (h_post st) id) e1 \/ (restarts (h_ev st) /\ sim E (pending ops (h_post st) id) None)).
  Proof.
    intros st id e A ST SIM. destruct (at_id_step S E g ops _ _ _ _ A ST) as (nrm & NO & IDS). destruct (IDS id) as [m1 M Z].
    assert (GD : forall r, pending ops (h_pre st) id = Some r -> good g r) by (intros r Q; exact (proj2 (proj2 (pending_good E g S ops _ id r A Q)))).
    assert (GO : (exists a e1, perf id st e a /\ turns E g e a e1 /\ sim E m1 e1) -> exists a e1, perf id st e a /\ turns E g e a e1 /\
        (sim E (pending ops (h_post st) id) e1 \/ (restarts (h_ev st) /\ sim E (pending ops (h_post st) id) None))).
    { intros (a & e1 & P & T & Q). exists a, e1. split; [exact P|]. split; [exact T|]. destruct Z as [->|[R ->]]; [left; exact Q|right]. split; [exact R|]. split; [constructor|intros ? ?; discriminate]. }
    apply GO. clear GO Z. remember (pending ops (h_pre st) id) as m0 eqn:P0. remember (h_effs st) as es eqn:ES.
    inversion M as [es0 m F NN|i x es0 info FI EV N C|i x rt idkey peer c tail EV RT ID0 ADM CT|i x r es0 m EV N IDR CS].
    - exists Idle, e. split; [|split; [constructor|congruence]]. rewrite Forall_forall in F. constructor.
      + intros ef IN T. rewrite <- ES in IN. apply (F ef IN). destruct ef; try destruct T; reflexivity.
      + intros i x HD N. apply ev_handles in HD. destruct (NN i x HD N).
    - subst m0 m1. exists Idle, e. split; [|split; [constructor|congruence]]. constructor.
      + intros ef IN T. rewrite <- ES in IN. apply (in_cut _ _ _ C) in IN. destruct IN as [<-|[]]. destruct T.
      + intros i0 x0 _ _. apply signs_none. intros c IN. rewrite <- ES in IN. apply (in_cut _ _ _ C) in IN. destruct IN as [Q|[]]. discriminate.
    - assert (e = None). { destruct SIM as [SA _]. rewrite <- H0 in SA. inversion SA. reflexivity. } subst e.
      exists (Open rt c (session_key E i id peer)), (Some (Entry rt c (session_key E i id peer) Fresh)).
      assert (RT' : rt = RT_NEW \/ rt = RT_REVOKE) by (destruct RT as [[-> _]|[-> _]]; auto).
      split; [constructor; [exists i, x, peer; split; [apply ev_handles; exact EV|]; split; [destruct RT as [[-> AD]|[-> AD]]; exact AD|]; split; [exact ADM|]; split; [reflexivity|]; rewrite <- ES, <- H; left; reflexivity|]|].
      { apply signs_none. intros c' Q. rewrite <- ES, <- H in Q. destruct Q as [Q|Q]; [discriminate|]. apply (in_cut _ _ _ CT) in Q. destruct Q as [Q|[Q|[]]]; discriminate. }
      split; [constructor; exact RT'|]. split; [constructor; cbn; try reflexivity; constructor; reflexivity|]. intros en Q. injection Q as <-. exact I.
    - rewrite <- H0 in SIM. destruct e as [en|]; [|destruct SIM as [SA _]; inversion SA].
      apply (sim_chal nrm i x id r en m1 st (at_codec _ _ _ _ A) NO (proj1 (ev_handles S st i x) EV) N IDR (GD r (eq_sym H0)) SIM). rewrite <- ES. exact CS.
  Qed.
  Lemma sim_steps : forall id s tr s', ca_at E g ops s -> steps E g ops s tr s' -> forall e, sim E (pending ops s id) e ->
    exists l e', walks E g ops id e tr l e' /\ sim E (pending ops s' id) e'.
  Proof.
    intros id s tr s' A H. revert A. induction H as [|s ev es s1 tr s2 ST _ IH]; intros A e SIM.
    - exists [], e. split; [constructor|exact SIM].
    - destruct (sim_step (HStep s ev es s1) id e A ST SIM) as (a & e1 & P & T & [Q|[R Q]]); cbn [h_post h_ev] in *;
        destruct (IH (ca_at_step _ _ _ _ _ _ _ _ A ST) _ Q) as (l & e' & W & SM).
      + exists (a :: l), e'. split; [eapply wk_step; try eassumption; exact (proj1 Q)|exact SM].
      + exists (a :: Lose :: l), e'. split; [eapply wk_lost; try eassumption; cbn [h_post]; destruct Q as [Q _]; inversion Q; reflexivity|exact SM].
  Qed.
  Lemma keeps_ledger : forall tr s id, ca_history E g ops tr s -> exists l e, walks E g ops id None tr l e /\ stored_as E (pending ops s id) e.
  Proof.
    intros tr s id H. pose proof H as [LC NF B (key & ST)]. destruct (back_end_laws E S ops B LC) as (inv & nrm & SL).
    destruct (init_inv E g ops inv nrm SL key) as [_ Z].
    assert (A : ca_at E g ops (ca_init ops key)). { apply (history_at _ _ _ _ [] _). constructor; try assumption. exists key. constructor. }
    destruct (sim_steps id _ _ _ A ST None) as (l & e & W & SM).
    { unfold pending. unfold ca_get in Z. rewrite Z. split; [constructor|intros ? ?; discriminate]. }
    exists l, e. split; [exact W|exact (proj1 SM)].
  Qed.
End Step.

(** ** Runs of the machine *)
Lemma walks_run : forall S E g (ops : store_ops S) id m (tr : list (hstep S)) l m', walks E g ops id m tr l m' -> ledger_run E g m l m'.
Proof.
  intros S E g ops id m tr l m' W. induction W as [|m st a m1 tr l m2 P T SA W IH|m st a m1 tr l m2 P T R SA W IH]; [constructor|econstructor; eassumption|].
  econstructor; [exact T|]. econstructor; [constructor|exact IH].
Qed.
(** How the entry came about. *)
Definition explained (l : list move) (e : option entry) : Prop := forall en, e = Some en ->
  exists b1 b2, l = b1 ++ Open (en_type en) (en_cert en) (en_key en) :: b2 /\
    ((en_stage en = Fresh /\ all_idle b2) \/
     exists b3 s b4, b2 = b3 ++ Ask s :: b4 /\ all_idle b3 /\ stays b4 /\ begun s /\
       ((exists code t t', s = AwaitCode code 3 t /\ en_stage en = AwaitCode code (3 - N.of_nat (misses b4)) t' /\ (misses b4 <= 2)%nat) \/
        (exists c nonce, s = AwaitProof c nonce /\ en_stage en = s /\ misses b4 = 0%nat))).
Lemma misses_app : forall a b, misses (a ++ b) = (misses a + misses b)%nat.
Proof. intros a b. unfold misses. rewrite filter_app, app_length. reflexivity. Qed.
Lemma stays_snoc : forall l a, stays l -> match a with Idle | Miss _ _ | Sign _ _ => True | _ => False end -> stays (l ++ [a]).
Proof. intros l a H A. apply Forall_app. split; [exact H|constructor; [exact A|constructor]]. Qed.
(** A move that leaves the entry as it is. *)
Lemma explained_same : forall l a en, explained l (Some en) -> a = Idle \/ (exists s, en_stage en <> Fresh /\ a = Sign (fst s) (snd s)) -> explained (l ++ [a]) (Some en).
Proof.
  intros l a en H A en' Q. injection Q as <-. destruct (H en eq_refl) as (b1 & b2 & -> & X).
  exists b1, (b2 ++ [a]). split; [rewrite <- app_assoc; reflexivity|]. destruct X as [[F ID]|(b3 & s & b4 & -> & ID & ST & BG & X)].
  - left. split; [exact F|]. destruct A as [->|(s & N & _)]; [|contradiction]. apply Forall_app. split; [exact ID|constructor; [reflexivity|constructor]].
  - right. exists b3, s, (b4 ++ [a]). split; [rewrite <- app_assoc; reflexivity|]. split; [exact ID|].
    split; [apply stays_snoc; [exact ST|destruct A as [->|([? ?] & _ & ->)]; exact I]|]. split; [exact BG|]. rewrite misses_app.
    assert (Z : misses [a] = 0%nat) by (destruct A as [->|(? & _ & ->)]; reflexivity). rewrite Z, Nat.add_0_r. exact X.
Qed.
Lemma explained_turn : forall E g l m a m1, explained l m -> turns E g m a m1 -> explained (l ++ [a]) m1.
Proof.
  intros E g l m a m1 H T. inversion T as [m0|rt c key RT|rt c key s BG|rt c key code n s given t life s' NE IT N|e|c0 key s an c MS CF|c0 key s an c MS CF|c0 key s an MS|m0]; subst;
    try (intros ? Q; discriminate Q).
  - destruct m1 as [en|]; [apply explained_same; [exact H|left; reflexivity]|intros ? Q; discriminate].
  - intros en Q. injection Q as <-. exists l, []. split; [reflexivity|]. left. split; [reflexivity|constructor].
  - intros en Q. injection Q as <-. destruct (H _ eq_refl) as (b1 & b2 & -> & [[_ ID]|(b3 & s0 & b4 & _ & _ & _ & BG0 & X)]).
    + exists b1, (b2 ++ [Ask s]). split; [rewrite <- app_assoc; reflexivity|]. right. exists b2, s, []. split; [reflexivity|]. split; [exact ID|]. split; [constructor|]. split; [exact BG|].
      inversion BG as [code t Q|c0 nonce Q]; subst s; [left; exists code, t, t; split; [reflexivity|]; split; [reflexivity|]; apply le_S, le_S, le_n|right; exists c0, nonce; auto].
    + cbn [en_stage] in X. destruct X as [(code & t & t' & _ & Q & _)|(c0 & nonce & Q1 & Q2 & _)]; [discriminate|]. rewrite <- Q2 in Q1. discriminate.
  - intros en Q. injection Q as <-. destruct (H _ eq_refl) as (b1 & b2 & -> & [[Q _]|(b3 & s0 & b4 & -> & ID & ST & BG0 & X)]); [discriminate|]. cbn [en_stage en_type en_cert en_key] in *.
    destruct X as [(code1 & t1 & t1' & -> & Q & LE)|(c0 & nonce & Q1 & Q2 & _)]; [|rewrite <- Q2 in Q1; discriminate].
    injection Q as <- NN <-. exists b1, ((b3 ++ Ask (AwaitCode code 3 t1) :: b4) ++ [Miss (GiveCode given t life) s']). split; [rewrite <- app_assoc; reflexivity|]. right.
    exists b3, (AwaitCode code 3 t1), (b4 ++ [Miss (GiveCode given t life) s']). split; [rewrite <- app_assoc; reflexivity|]. split; [exact ID|]. split; [apply stays_snoc; [exact ST|exact I]|]. split; [exact BG0|].
    left. exists code, t1, s'. rewrite misses_app. change (misses [Miss (GiveCode given t life) s']) with 1%nat. split; [reflexivity|].
    split; [f_equal; lia|lia].
  - apply explained_same; [exact H|]. right. exists (an, c). cbn [fst snd en_stage]. split; [|reflexivity]. intros ->. inversion MS.
Qed.
Lemma run_app : forall E g a b m m', ledger_run E g m (a ++ b) m' <-> exists n, ledger_run E g m a n /\ ledger_run E g n b m'.
Proof.
  induction a as [|x a IH]; intros b m m'; cbn [app].
  - split; [intros H; exists m; split; [constructor|exact H]|]. intros (n & H1 & H2). inversion H1; subst. exact H2.
  - split.
    + intros H. inversion H as [|? ? m1 ? ? T R]; subst. apply IH in R as (n & R1 & R2). exists n. split; [econstructor; eassumption|exact R2].
    + intros (n & H1 & H2). inversion H1 as [|? ? m1 ? ? T R]; subst. econstructor; [exact T|]. apply IH. exists n. auto.
Qed.
Lemma run_explained : forall E g l m, ledger_run E g None l m -> explained l m.
Proof.
  intros E g l. induction l as [|a l IH] using rev_ind; intros m H.
  - inversion H; subst. intros ? Q. discriminate.
  - apply run_app in H as (n & H1 & H2). inversion H2 as [|? ? m1 ? ? T R]; subst. inversion R; subst. exact (explained_turn E g l n a m (IH n H1) T).
Qed.
Lemma explained_led : forall E l rt c0 key s a, explained l (Some (Entry rt c0 key s)) -> meets_stage E s a -> led_to E rt c0 a l.
Proof.
  intros E l rt c0 key s a X MS. destruct (X _ eq_refl) as (b1 & b2 & -> & Y). cbn [en_type en_cert en_key en_stage] in *.
  destruct Y as [[-> _]|(b3 & s0 & b4 & -> & ID & ST & BG & Y)]; [inversion MS|].
  exists b1, key, b3, s0, b4. split; [reflexivity|]. split; [exact ID|]. split; [exact ST|].
  destruct Y as [(code & t & t' & -> & -> & LE)|(cr & nonce & -> & -> & Z)].
  - split; [exact LE|]. split; [exact BG|]. inversion MS; subst. constructor.
  - split; [rewrite Z; apply Nat.le_0_l|]. split; [exact BG|]. inversion MS; subst. constructor. assumption.
Qed.
Lemma run_granted : forall E g before a c after m, ledger_run E g None (before ++ Grant a c :: after) m \/ ledger_run E g None (before ++ Sign a c :: after) m ->
  exists c0, certifies E g c0 c /\ led_to E RT_NEW c0 a before.
Proof.
  intros E g before a c after m [H|H]; apply run_app in H as (n & H1 & H2); apply run_explained in H1; inversion H2 as [|? ? m1 ? ? T R]; subst; inversion T; subst;
    eexists; (split; [eassumption|]); eapply explained_led; eassumption.
Qed.
Lemma run_revoked : forall E g before a after m, ledger_run E g None (before ++ Revoke a :: after) m -> exists c0, led_to E RT_REVOKE c0 a before.
Proof.
  intros E g before a after m H; apply run_app in H as (n & H1 & H2); apply run_explained in H1; inversion H2 as [|? ? m1 ? ? T R]; subst; inversion T; subst;
    eexists; eapply explained_led; eassumption.
Qed.

(** ** Every certificate is accounted for *)
Lemma walks_app : forall S E g (ops : store_ops S) id (a b : list (hstep S)) m l m', walks E g ops id m (a ++ b) l m' -> exists l1 n l2, l = l1 ++ l2 /\ walks E g ops id m a l1 n /\ walks E g ops id n b l2 m'.
Proof.
  induction a as [|st a IH]; intros b m l m' W; cbn [app] in W.
  - exists [], m, l. split; [reflexivity|]. split; [constructor|exact W].
  - inversion W as [|? ? mv m1 ? l0 ? P T SA W1|? ? mv m1 ? l0 ? P T R SA W1]; subst; apply IH in W1 as (l1 & n & l2 & -> & X & Y).
    + exists (mv :: l1), n, l2. split; [reflexivity|]. split; [eapply wk_step; eassumption|exact Y].
    + exists (mv :: Lose :: l1), n, l2. split; [reflexivity|]. split; [eapply wk_lost; eassumption|exact Y].
Qed.
Lemma signed_move : forall S E g id (st : hstep S) m mv i x c, performs E g id st m mv -> handles st i x -> names_request g id x -> In (EIssue c) (h_effs st) ->
  exists a, mv = Grant a c \/ mv = Sign a c.
Proof.
  intros S E g id st m mv i x c P HD N IN. destruct P as [m T SO|m rt c1 key AC SO|e i1 params ty s r AK BG IU SO|e i1 params ty a s r AK GV AB IU SO ML|e i1 x1 H1 N1 SB ID SO CB|e i1 params ty a c1 AK GV ES|e i1 params ty a c1 AK GV SO ID|e i1 params ty a AK GV ID SO];
    try (apply SO in IN; destruct IN as []; fail).
  - apply (SO i x HD N) in IN. destruct IN.
  - exists a. right. rewrite ES in IN. destruct IN as [Q|[]]. injection Q as <-. reflexivity.
  - exists a. left. apply SO in IN. destruct IN as [<-|[]]. reflexivity.
Qed.
Lemma accounted : forall E g S (ops : store_ops S) a st b s c, ca_history E g ops (a ++ st :: b) s -> In (EIssue c) (h_effs st) ->
  exists id i x l m mv an c0, handles st i x /\ names_request g id x /\ walks E g ops id None a l m /\ performs E g id st m mv /\ (mv = Grant an c \/ mv = Sign an c) /\
    certifies E g c0 c /\ led_to E RT_NEW c0 an l.
Proof.
  intros E g S ops a st b s c H IN. pose proof (history_mid _ _ _ _ _ _ _ _ H) as (A & ST & _ & _).
  assert (NM : exists i x id, handles st i x /\ names_request g id x).
  { destruct (chal_event E g S ops _ _ _ _ _ A ST IN I) as (i & x & id & r & nrm & m & EV & N & _). exists i, x, id. split; [exact (proj1 (ev_handles _ _ _ _) EV)|exact N]. }
  destruct NM as (i & x & id & HD & N). destruct (keeps_ledger E g ops _ _ id H) as (l & e & W & _).
  apply walks_app in W as (l1 & n & l2 & -> & W1 & W2).
  assert (X : exists mv m1, performs E g id st n mv /\ turns E g n mv m1) by (inversion W2; subst; eauto).
  destruct X as (mv & m1 & P & T). destruct (signed_move S E g id st n mv i x c P HD N IN) as (an & MV).
  assert (LD : exists c0, certifies E g c0 c /\ led_to E RT_NEW c0 an l1).
  { apply walks_run in W1. apply (run_granted E g l1 an c [] m1). destruct MV as [->| ->]; [left|right]; apply run_app; exists n; (split; [exact W1|]); econstructor; try exact T; constructor. }
  destruct LD as (c0 & CF & LD). exists id, i, x, l1, n, mv, an, c0. auto 10.
Qed.
