(** Where the random values of a CA go: proofs. *)
From Verif Require Export Spec_Draw TraceCounts.
From Coq Require Import Lia.
Local Open Scope N_scope.

Lemma firstn_exact : forall A (a b : list A), firstn (length a) (a ++ b) = a.
Proof. intros A a b. induction a as [|h a IH]; [reflexivity|]. cbn [length app firstn]. rewrite IH. reflexivity. Qed.
Definition prov (D : bytes -> Prop) (m : option request) : Prop := forall r, m = Some r -> rq_eiv r = [] \/ (iv12 (rq_eiv r) /\ D (iv_prefix (rq_eiv r))).
Lemma prefix_first : forall rnd, length rnd = 8%nat -> iv_prefix (rnd ++ [x00; x00; x00; x00]) = rnd.
Proof. intros rnd L. unfold iv_prefix. rewrite <- L. apply firstn_exact. Qed.
Lemma prov_step : forall E g S (ops : store_ops S) s ev s' es id D, ca_at E g ops s -> step E g ops s ev = Some (s', es) -> prov D (pending ops s id) ->
  prov (fun p => D p \/ exists i x, ev_interest ev = Some (i, x) /\ names_request g id x /\ p = be_enc 8 (in_iv i)) (pending ops s' id).
Proof.
  intros E g S ops s ev s' es id D A ST B. destruct (at_id_step S E g ops _ _ _ _ A ST) as (nrm & NO & IDS). destruct (IDS id) as [m1 M Z].
  destruct Z as [Z|[_ Z]]; rewrite Z; clear Z; [|intros ? ?; discriminate].
  assert (KEEP : forall D' : bytes -> Prop, prov (fun p => D p \/ D' p) (pending ops s id)).
  { intros D' r Q. destruct (B r Q) as [N|[I P]]; [left; exact N|right; auto]. }
  assert (PL : forall r, pending ops s id = Some r -> live r) by (intros r Q; exact (proj2 (pending_live E g S ops s _ r A Q))).
  remember (pending ops s id) as m0 eqn:P0. clear P0.
  inversion M as [es0 m F NN|i0 x0 es0 info FI EV0 N0 C|i0 x0 rt idkey peer c0 tail EV0 RT ID0 ADM CT|i0 x0 r0 es0 m EV0 N0 IDR CS]; subst.
  - apply KEEP.
  - intros ? ?; discriminate.
  - intros r Q. injection Q as <-. left. reflexivity.
  - pose proof (PL r0 eq_refl) as LV.
    inversion CS as [es1 F|info FI NS|code info tail SB PE C|params ty dv cs em payload r3 tail SB OP K MV CE C|params ty dv cs c1 PF RT IC|params ty dv cs c1 tail PF RT IC T|params ty dv cs tail PF RT T]; subst;
      try (intros ? ?; discriminate); try apply KEEP.
    destruct (moved_reply E (cf_chal g) i0 x0 r0 params ty dv cs em payload r3 LV OP MV CE) as (nonce & iv2 & _ & _ & -> & J1 & J2 & PF & CT).
    intros r Q. injection Q as <-. destruct (nrm_fixed nrm (set_eiv iv2 (moved dv ty cs r0)) NO) as (_ & _ & _ & _ & _ & -> & _). cbn [set_eiv rq_eiv].
    right. split; [exact J2|]. rewrite PF. destruct (B r0 eq_refl) as [N|[I P]].
    + right. exists i0, x0. split; [exact EV0|]. split; [exact N0|]. rewrite N. cbn [initial_iv]. apply prefix_first. apply rnd_iv_len.
    + left. rewrite (initial_ne _ _ I). exact P.
Qed.
Lemma prov_steps : forall E g S (ops : store_ops S) id s tr s', ca_at E g ops s -> steps E g ops s tr s' -> forall D, prov D (pending ops s id) ->
  prov (fun p => D p \/ exists st i x, In st tr /\ handles st i x /\ names_request g id x /\ p = be_enc 8 (in_iv i)) (pending ops s' id).
Proof.
  intros E g S ops id s tr s' A H. revert A. induction H as [|s ev es s1 tr s2 ST _ IH]; intros A D B.
  - intros r Q. destruct (B r Q) as [N|[I P]]; [left; exact N|right; auto].
  - pose proof (IH (ca_at_step _ _ _ _ _ _ _ _ A ST) _ (prov_step E g S ops s ev s1 es id D A ST B)) as X.
    intros r Q. destruct (X r Q) as [N|[I [[P|(i & x & EV & NM & P)]|(st & i & x & IN & HD & NM & P)]]]; [left; exact N| | |]; right; (split; [exact I|]).
    + left. exact P.
    + right. exists (HStep s ev es s1), i, x. split; [left; reflexivity|]. split; [apply ev_handles; exact EV|]. split; [exact NM|exact P].
    + right. exists st, i, x. split; [right; exact IN|]. auto.
Qed.
Lemma prov_added : forall E g S (ops : store_ops S) s ev s' es id, ca_at E g ops s -> step E g ops s ev = Some (s', es) -> adds id (HStep s ev es s') ->
  prov (fun _ => False) (pending ops s' id).
Proof.
  intros E g S ops s ev s' es id A ST (r & IA & ID). cbn [h_effs] in IA. destruct (at_id_step S E g ops _ _ _ _ A ST) as (nrm & NO & IDS). destruct (IDS id) as [m1 M Z].
  destruct Z as [Z|[_ Z]]; rewrite Z; clear Z; [|intros ? ?; discriminate].
  inversion M as [es0 m F NN|i0 x0 es0 info FI EV0 N0 C|i0 x0 rt idkey peer c0 tail EV0 RT ID0 ADM CT|i0 x0 r0 es0 m EV0 N0 IDR CS]; subst.
  - rewrite Forall_forall in F. destruct (F _ IA eq_refl).
  - apply (in_cut _ _ _ C) in IA. destruct IA as [Q|[]]. discriminate.
  - intros r1 Q. injection Q as <-. left. reflexivity.
  - destruct (chal_no_add _ _ _ _ _ _ _ _ r CS IA).
Qed.

(** ** Initialization vectors *)
Lemma history_between : forall E g S (ops : store_ops S) a st0 b st c s, ca_history E g ops (a ++ st0 :: b ++ st :: c) s -> steps E g ops (h_post st0) b (h_pre st) /\
  ca_at E g ops (h_pre st0) /\ step E g ops (h_pre st0) (h_ev st0) = Some (h_post st0, h_effs st0) /\ ca_at E g ops (h_post st0) /\
  ca_at E g ops (h_pre st) /\ step E g ops (h_pre st) (h_ev st) = Some (h_post st, h_effs st).
Proof.
  intros E g S ops a st0 b st c s H. pose proof (history_mid _ _ _ _ _ _ _ _ H) as (A & ST & A2 & SS).
  replace (a ++ st0 :: b ++ st :: c) with ((a ++ st0 :: b) ++ st :: c) in H by (rewrite <- app_assoc; reflexivity).
  pose proof (history_mid _ _ _ _ _ _ _ _ H) as (A3 & ST3 & _ & _). repeat (split; [|auto]); auto.
  apply steps_app in SS as (m & S1 & S2). inversion S2 as [|? ev es s1 tr ? ST1 ST2]; subst. exact S1.
Qed.
Lemma reply_draw : forall E g S (ops : store_ops S) st id iv, ca_at E g ops (h_pre st) -> step E g ops (h_pre st) (h_ev st) = Some (h_post st, h_effs st) ->
  reply_iv g id st iv -> exists i x r, handles st i x /\ names_request g id x /\ pending ops (h_pre st) id = Some r /\ iv = initial_iv (rq_eiv r) (rnd_iv i).
Proof.
  intros E g S ops st id iv A ST R. destruct (reply_step E g S ops st id iv A ST R) as (_ & r & P & _ & LV & _).
  destruct R as (i & x & d & HD & N & IN & W). exists i, x, r. split; [exact HD|]. split; [exact N|]. split; [exact P|]. apply ev_handles in HD.
  destruct (pending_chal_step E g S ops _ _ _ _ _ _ _ _ A ST HD N P) as (nrm & m & NO & IDR & _ & CS & Z).
  exact (proj1 (chal_iv E g nrm i x r _ m d iv NO LV CS IN W)).
Qed.
Lemma iv_source : forall E g S (ops : store_ops S) a st0 b st c s id iv, ca_history E g ops (a ++ st0 :: b ++ st :: c) s -> adds id st0 -> reply_iv g id st iv ->
  iv_drawn g id iv (b ++ [st]).
Proof.
  intros E g S ops a st0 b st c s id iv H AD R. apply history_between in H as (SS & A0 & ST0 & A1 & A & ST).
  destruct st0 as [p0 e0 f0 q0]. cbn [h_pre h_ev h_post h_effs] in *.
  pose proof (prov_added E g S ops _ _ _ _ id A0 ST0 AD) as B. pose proof (prov_steps E g S ops id _ _ _ A1 SS _ B) as X.
  destruct (reply_draw E g S ops st id iv A ST R) as (i & x & r & HD & N & P & ->).
  destruct (X r P) as [NE|[I [[]|(st' & i' & x' & IN' & HD' & N' & PF)]]].
  - exists st, i, x. split; [apply in_or_app; right; left; reflexivity|]. split; [exact HD|]. split; [exact N|].
    rewrite NE. cbn [initial_iv]. apply (prefix_first (rnd_iv i)). apply rnd_iv_len.
  - exists st', i', x'. split; [apply in_or_app; left; exact IN'|]. split; [exact HD'|]. split; [exact N'|].
    rewrite (initial_ne _ _ I). exact PF.
Qed.
(** The first reply of a request: its initialization vector is the 8 bytes drawn for it and a counter of 0. *)
Lemma iv_first : forall E g S (ops : store_ops S) a st0 b st c s id iv, ca_history E g ops (a ++ st0 :: b ++ st :: c) s -> adds id st0 ->
  (forall st' i x, In st' b -> handles st' i x -> ~ names_request g id x) -> reply_iv g id st iv ->
  exists i x, handles st i x /\ iv = be_enc 8 (in_iv i) ++ be_enc 4 0.
Proof.
  intros E g S ops a st0 b st c s id iv H AD NONE R. apply history_between in H as (SS & A0 & ST0 & A1 & A & ST).
  destruct st0 as [p0 e0 f0 q0]. cbn [h_pre h_ev h_post h_effs] in *.
  pose proof (prov_added E g S ops _ _ _ _ id A0 ST0 AD) as B. pose proof (prov_steps E g S ops id _ _ _ A1 SS _ B) as X.
  destruct (reply_draw E g S ops st id iv A ST R) as (i & x & r & HD & N & P & ->).
  destruct (X r P) as [NE|[I [[]|(st' & i' & x' & IN' & HD' & N' & PF)]]].
  - exists i, x. split; [exact HD|]. rewrite NE. reflexivity.
  - destruct (NONE st' i' x' IN' HD' N').
Qed.

(** ** Salt and ECDH key *)
Lemma new_draws : forall E g S (ops : store_ops S) st r i x, ca_at E g ops (h_pre st) -> step E g ops (h_pre st) (h_ev st) = Some (h_post st, h_effs st) ->
  handles st i x -> In (EAdd r) (h_effs st) ->
  exists peer c, carries E (rq_type r) x peer c /\ rq_key r = snd (o_hkdf E (snd (o_ecdh E (in_sk i) peer)) (be_enc 32 (in_salt i)) (rq_id r)) /\
    (Forall fits (p_challenges (cfp g)) -> fits (o_ecdh_pub E (in_sk i)) -> answered st ->
     puts_elements st ([Tlv T_EcdhPub (o_ecdh_pub E (in_sk i)); Tlv T_Salt (be_enc 32 (in_salt i)); Tlv T_RequestId (rq_id r)] ++ map (Tlv T_Challenge) (p_challenges (cfp g)))).
Proof.
  intros E g S ops st r i x A ST HD IA. apply ev_handles in HD. destruct (at_id_step S E g ops _ _ _ _ A ST) as (nrm & NO & IDS). destruct (IDS (rq_id r)) as [m1 M Z].
  remember (pending ops (h_pre st) (rq_id r)) as m0 eqn:P0. remember (h_effs st) as es eqn:ES. remember (rq_id r) as rid eqn:RID.
  inversion M as [es0 m F NN|i0 x0 es0 info FI EV0 N0 C|i0 x0 rt idkey peer c0 tail EV0 RT ID0 ADM CT|i0 x0 r0 es0 m EV0 N0 IDR CS].
  - rewrite Forall_forall in F. destruct (F _ IA). symmetry. exact RID.
  - apply (in_cut _ _ _ C) in IA. destruct IA as [Q|[]]. discriminate.
  - rewrite HD in EV0. injection EV0 as <- <-.
    assert (RR : r = created E g i rt rid peer c0).
    { rewrite <- H in IA. destruct IA as [Q|Q]; [injection Q as <-; reflexivity|]. apply (in_cut _ _ _ CT) in Q. destruct Q as [Q|[Q|[]]]; discriminate. }
    exists peer, c0. split; [rewrite RR; exact (ad_params _ _ _ _ _ _ _ _ ADM)|]. split; [rewrite RR; reflexivity|].
    intros F FE AN. unfold puts_elements. exists (new_reply E g i x rid).
    assert (L : (length rid <= 8)%nat) by (rewrite ID0; unfold request_id_of; apply firstn_le_length).
    split.
    + unfold answered, puts in AN. try rewrite <- ES in AN; try rewrite <- ES; rewrite <- H in AN; rewrite <- H. right. destruct tail as [|e tail]; [destruct (AN eq_refl)|].
      destruct CT as [rest CT]. cbn [app] in CT. injection CT as <- _. left. reflexivity.
    + unfold new_reply, reply_data, mk_data. cbn [d_content]. unfold reply_encode. apply parse_enc. apply Forall_app. split.
      * constructor; [apply wf_tlv_intro; [reflexivity|discriminate|exact FE]|].
        constructor; [apply wf_tlv_intro; [reflexivity|discriminate|apply fits_short; unfold rnd_salt; rewrite be_enc_length; lia]|].
        constructor; [apply wf_tlv_intro; [reflexivity|discriminate|apply fits_short; lia]|constructor].
      * apply Forall_map. eapply Forall_impl; [|exact F]. intros k Fk. apply wf_tlv_intro; [reflexivity|discriminate|exact Fk].
  - destruct (chal_no_add _ _ _ _ _ _ _ _ r CS IA).
Qed.

(** ** Secrets *)
Lemma gen_word : forall ws code, gen_code ws = Ok code ->
  exists before w rest, ws = before ++ w :: rest /\ Forall (fun w => 4294000000 <= w mod 2 ^ 32) before /\ w mod 2 ^ 32 < 4294000000 /\ code = pad6 (to_string_N ((w mod 2 ^ 32) / 4294)).
Proof.
  intros ws code. unfold gen_code. induction ws as [|w ws IH]; cbn [find]; [discriminate|]. destruct (accepted_word w) eqn:AW.
  - intros H. apply (f_equal (fun r => match r with Ok c => c | _ => [] end)) in H. subst code. exists [], w, ws. split; [reflexivity|]. split; [constructor|]. split; [apply N.ltb_lt; exact AW|reflexivity].
  - intros H. destruct (IH H) as (b & w' & rest & -> & F & L & Q). exists (w :: b), w', rest. split; [reflexivity|]. split; [constructor; [apply N.ltb_ge; exact AW|exact F]|]. split; assumption.
Qed.
Lemma secret_draws : forall E g S (ops : store_ops S) st i x id r0 r k v, ca_at E g ops (h_pre st) -> step E g ops (h_pre st) (h_ev st) = Some (h_post st, h_effs st) ->
  handles st i x -> names_request g id x -> pending ops (h_pre st) id = Some r0 -> stores_secret st r k v ->
  (exists cs, rq_cs r0 = Some cs /\ In (k, v) (cs_secrets cs)) \/
  (k = bs "code" /\ exists before w rest, in_words i = before ++ w :: rest /\ Forall (fun w => 4294000000 <= w mod 2 ^ 32) before /\ w mod 2 ^ 32 < 4294000000 /\ v = pad6 (to_string_N ((w mod 2 ^ 32) / 4294))) \/
  (k = bs "nonce" /\ v = to_hex (be_enc 16 (in_nonce i))) \/
  (k = bs "issued-cert" /\ exists params c, opens E (rq_key r0) id x params /\ credential_in E params c /\ v = to_hex (enc_tlv (cert_tlv E c))).
Proof.
  intros E g S ops st i x id r0 r k v A ST HD N P [IU (cs & RC & IV)]. apply ev_handles in HD.
  destruct (pending_chal_step E g S ops _ _ _ _ _ _ _ _ A ST HD N P) as (nrm & m & NO & IDR & LV & CS & Z). remember (h_effs st) as es eqn:ES. clear ES ST.
  assert (NP : forall tail d r3, cut tail [EPut d; ECallback r3] -> ~ In (EUpdate r) tail).
  { intros tail d r3 C Q. apply (in_cut _ _ _ C) in Q. destruct Q as [Q|[Q|[]]]; discriminate. }
  inversion CS as [es1 F|info FI NS|code info tail SB PE C|params ty dv cs1 em payload r3 tail SB OP K MV CE C|params ty dv cs1 c1 PF RT IC|params ty dv cs1 c1 tail PF RT IC T|params ty dv cs1 tail PF RT T]; subst es m.
  - rewrite Forall_forall in F. destruct (F _ IU).
  - destruct IU as [Q|[]]; discriminate.
  - destruct IU as [Q|Q]; [discriminate|]. apply (in_cut _ _ _ C) in Q. destruct Q as [Q|[]]. discriminate.
  - apply in_app_or in IU as [IU|[Q|Q]].
    + pose proof (emails em) as F. rewrite Forall_forall in F. destruct (F _ IU).
    + injection Q as <-. destruct (moved_reply E (cf_chal g) i x r0 params ty dv cs1 em payload r3 LV OP MV CE) as (nonce & iv2 & _ & _ & -> & _).
      cbn [set_eiv moved set_cs rq_cs] in RC. injection RC as <-.
      destruct MV as [[_ SS]|(_ & _ & cs0 & R0 & (given & code & life & _ & _ & _ & _ & _ & ->))].
      * right. destruct (opened_opens E x r0 params ty dv OP) as [OO _]. rewrite IDR in OO.
        inversion SS as [code GC|code addr GC GA|c CI CC TR]; subst; cbn [cs_secrets] in IV.
        -- left. destruct IV as [Q|[]]. injection Q as <- <-. split; [reflexivity|]. exact (gen_word _ _ GC).
        -- left. destruct IV as [Q|[]]. injection Q as <- <-. split; [reflexivity|]. exact (gen_word _ _ GC).
        -- right. destruct IV as [Q|[Q|[]]]; [left; injection Q as <- <-; split; reflexivity|right]. apply pair_equal_spec in Q as [<- <-]. split; [reflexivity|]. exists params, c. auto.
      * left. exists cs0. split; [exact R0|exact IV].
    + destruct (NP _ _ _ C Q).
  - destruct IU as [Q|[]]; discriminate.
  - destruct IU as [Q|[Q|Q]]; try discriminate. destruct T as [->|(payload & r3 & CE & C)]; [destruct Q|]. destruct (NP _ _ _ C Q).
  - destruct IU as [Q|Q]; try discriminate. destruct T as [->|(payload & r3 & CE & C)]; [destruct Q|]. destruct (NP _ _ _ C Q).
Qed.

(** ** In histories *)
Lemma new_draws_in : forall E g S (ops : store_ops S) a st b s r i x, ca_history E g ops (a ++ st :: b) s -> handles st i x -> In (EAdd r) (h_effs st) ->
  exists peer c, carries E (rq_type r) x peer c /\ rq_key r = snd (o_hkdf E (snd (o_ecdh E (in_sk i) peer)) (be_enc 32 (in_salt i)) (rq_id r)) /\
    (Forall fits (p_challenges (cfp g)) -> fits (o_ecdh_pub E (in_sk i)) -> answered st ->
     puts_elements st ([Tlv T_EcdhPub (o_ecdh_pub E (in_sk i)); Tlv T_Salt (be_enc 32 (in_salt i)); Tlv T_RequestId (rq_id r)] ++ map (Tlv T_Challenge) (p_challenges (cfp g)))).
Proof. intros E g S ops a st b s r i x H. apply history_mid in H as (A & ST & _ & _). exact (new_draws E g S ops st r i x A ST). Qed.
Lemma secret_draws_in : forall E g S (ops : store_ops S) a st b s i x id r0 r k v, ca_history E g ops (a ++ st :: b) s -> handles st i x -> names_request g id x ->
  pending ops (h_pre st) id = Some r0 -> stores_secret st r k v ->
  (exists cs, rq_cs r0 = Some cs /\ In (k, v) (cs_secrets cs)) \/
  (k = bs "code" /\ exists before w rest, in_words i = before ++ w :: rest /\ Forall (fun w => 4294000000 <= w mod 2 ^ 32) before /\ w mod 2 ^ 32 < 4294000000 /\ v = pad6 (to_string_N ((w mod 2 ^ 32) / 4294))) \/
  (k = bs "nonce" /\ v = to_hex (be_enc 16 (in_nonce i))) \/
  (k = bs "issued-cert" /\ exists params c, opens E (rq_key r0) id x params /\ credential_in E params c /\ v = to_hex (enc_tlv (cert_tlv E c))).
Proof. intros E g S ops a st b s i x id r0 r k v H. apply history_mid in H as (A & ST & _ & _). exact (secret_draws E g S ops st i x id r0 r k v A ST). Qed.
