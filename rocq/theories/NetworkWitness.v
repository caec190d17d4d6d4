(** A run on an attacker's network for the examples beside the theorems: the attacker repeats the requester's NEW
    Interest, forges a reply to it, and opens a request of its own. *)
From Verif Require Export NetworkFacts SessionWitness.
Local Open Scope N_scope.

(** The forged reply: the CA's, with another content and the CA's signature. *)
Definition a_real : data := Eval vm_compute in the_put (snd x_ca1).
Definition a_forged : data := Eval vm_compute in Data (d_name a_real) (bs "forged") (d_fresh a_real) (d_final a_real) (d_sig a_real).
(** The repeated Interest. *)
Definition a_go := Eval vm_compute in x_go (fst x_ca1) (x_inputs (x_now + sec 5) 2) x_new_interest.
Lemma a_again : step toy x_cfg (db_ops toy) (fst x_ca1) (EvInterest (x_inputs (x_now + sec 5) 2) x_new_interest) = Some (fst x_ca1, snd a_go).
Proof. vm_compute. reflexivity. Qed.
Definition a_e1 := HStep (fst x_ca1) (EvInterest (x_inputs (x_now + sec 5) 2) x_new_interest) (snd a_go) (fst x_ca1).
(** The attacker's own request. *)
Definition a_sk : bytes := bs "mallory signing key".
Definition a_new : interest := Eval vm_compute in
  match fst (gen_new toy (request_init x_profile RT_NEW (bs "mallory ephemeral") (repeat x00 8)) (x_rin x_now 1) (x_prefix ++ [gc (bs "mallory"); c_KEY; gc (bs "k1")]) a_sk x_now (x_now + sec 3600)) with
  | Ok (Some i) => i | _ => Interest [] None None end.
Definition a_ca5 := Eval vm_compute in x_go (fst x_ca4) (x_inputs (x_now + sec 40) 5) a_new.
Lemma a_step5 : step toy x_cfg (db_ops toy) (fst x_ca4) (EvInterest (x_inputs (x_now + sec 40) 5) a_new) = Some a_ca5.
Proof. vm_compute. reflexivity. Qed.
Definition a_e5 := HStep (fst x_ca4) (EvInterest (x_inputs (x_now + sec 40) 5) a_new) (snd a_ca5) (fst a_ca5).

Definition a_y1 := Eval vm_compute in the_interest x_chal1.
Definition a_y2 := Eval vm_compute in the_interest x_chal2.
Definition a_y3 := Eval vm_compute in the_interest x_chal3.
Definition a_put2 := Eval vm_compute in the_put (snd x_ca2).
Definition a_put3 := Eval vm_compute in the_put (snd x_ca3).
Definition a_put4 := Eval vm_compute in the_put (snd x_ca4).
Definition a_chals := p_challenges (cfp x_cfg).
Definition a_tr1 : list (deed db) := [DNew x_new_interest x_creq; DCa x_e1; DCa a_e1; DNewReply x_new_interest a_forged Exn x_req1; DNew x_new_interest x_creq].
Definition a_join : deed db := DNewReply x_new_interest a_real (Ok a_chals) x_req2.
Definition a_tr2 : list (deed db) := a_tr1 ++ [a_join; DChallenge a_y1 z_key; DCa x_e2; DChalReply a_y1 a_put2 (Ok tt) x_req3; DChallenge a_y2 z_key; DCa x_e3].
Definition a_tr3 : list (deed db) := a_tr2 ++ [DChalReply a_y2 a_put3 (Ok tt) x_req4; DChallenge a_y3 z_key].
Definition a_tr : list (deed db) := a_tr3 ++ [DCa x_e4; DCa a_e5; DChalReply a_y3 a_put4 (Ok tt) x_req5].

Lemma a_knows : knows_ca toy x_cfg x_profile.
Proof. split; [reflexivity|]. exists x_ca_cert. split; [reflexivity|]. vm_compute. reflexivity. Qed.
Lemma a_setting : setting toy x_cfg (db_ops toy) x_profile.
Proof. constructor; [exact toy_laws|meets|constructor|exact v_fits|exact a_knows]. Qed.
Lemma a_sendable : sendable toy x_sk (x_rin x_now 1) x_keyname x_now (x_now + sec 3600).
Proof. split; [meets|]. split; [meets|]. split; [meets|]. split; [intros nb' na' Q; vm_compute in Q; injection Q as <- <-; meets|meets]. Qed.
Lemma a_gen : gen_new toy x_req0 (x_rin x_now 1) x_keyname x_sk x_now (x_now + sec 3600) = (Ok (Some x_new_interest), x_req1).
Proof. vm_compute. reflexivity. Qed.
Lemma a_gen2 : gen_new toy x_req1 (x_rin x_now 1) x_keyname x_sk x_now (x_now + sec 3600) = (Ok (Some x_new_interest), x_req1).
Proof. vm_compute. reflexivity. Qed.
Notation a_net := (network toy x_cfg (db_ops toy) x_profile x_sk).
Lemma a_net1 : a_net a_tr1 (fst x_ca1) x_req1 (WaitNew x_new_interest).
Proof.
  assert (N0 : a_net [] x_ca0 x_req0 WaitNothing) by exact (nw_start toy x_cfg (db_ops toy) x_profile x_sk (bs "id key") (bs "alice ephemeral") (repeat x00 8) eq_refl).
  assert (N1 : a_net [DNew x_new_interest x_creq] x_ca0 x_req1 (WaitNew x_new_interest)).
  { rewrite <- v_creq. exact (nw_new _ _ _ _ _ [] _ _ _ _ _ _ _ _ _ N0 a_sendable a_gen). }
  assert (N2 : a_net [DNew x_new_interest x_creq; DCa x_e1] (fst x_ca1) x_req1 (WaitNew x_new_interest)) by exact (nw_ca _ _ _ _ _ _ _ _ _ _ _ _ N1 (some_pair _ _ _ _ x_step1)).
  assert (N3 : a_net [DNew x_new_interest x_creq; DCa x_e1; DCa a_e1] (fst x_ca1) x_req1 (WaitNew x_new_interest)) by exact (nw_ca _ _ _ _ _ _ _ _ _ _ _ _ N2 a_again).
  assert (N4 : a_net [DNew x_new_interest x_creq; DCa x_e1; DCa a_e1; DNewReply x_new_interest a_forged Exn x_req1] (fst x_ca1) x_req1 WaitNothing).
  { eapply (nw_new_reply _ _ _ _ _ _ _ _ _ (x_rin x_now 2) a_forged Exn x_req1 N3); [vm_compute; reflexivity|reflexivity|vm_compute; reflexivity]. }
  unfold a_tr1. rewrite <- v_creq at 2. exact (nw_new _ _ _ _ _ [_; _; _; _] _ _ _ _ _ _ _ _ _ N4 a_sendable a_gen2).
Qed.
Lemma a_net2 : a_net a_tr2 (fst x_ca3) (snd x_chal2) (WaitChallenge a_y2).
Proof.
  assert (N1 : a_net (a_tr1 ++ [a_join]) (fst x_ca1) x_req2 WaitNothing).
  { apply (nw_new_reply _ _ _ _ _ _ _ _ _ (x_rin x_now 2) a_real (Ok a_chals) x_req2 a_net1); [vm_compute; reflexivity|reflexivity|vm_compute; reflexivity]. }
  assert (N2 : a_net (a_tr1 ++ [a_join]) (fst x_ca1) x_sel WaitNothing).
  { eapply (nw_select _ _ _ _ _ _ _ _ _ CH_PIN _ x_sel N1). vm_compute. reflexivity. }
  assert (N3 : a_net ((a_tr1 ++ [a_join]) ++ [DChallenge a_y1 z_key]) (fst x_ca1) (snd x_chal1) (WaitChallenge a_y1)).
  { apply (nw_challenge _ _ _ _ _ _ _ _ _ (x_rin x_now 3) [] a_y1 (snd x_chal1) N2). vm_compute. reflexivity. }
  assert (N4 := nw_ca _ _ _ _ _ _ _ _ _ _ _ _ N3 (some_pair _ _ _ _ x_step2)). fold x_e2 in N4.
  assert (N5 : a_net ((((a_tr1 ++ [a_join]) ++ [DChallenge a_y1 z_key]) ++ [DCa x_e2]) ++ [DChalReply a_y1 a_put2 (Ok tt) x_req3]) (fst x_ca2) x_req3 WaitNothing).
  { apply (nw_chal_reply _ _ _ _ _ _ _ _ _ (x_rin x_now 4) a_put2 (Ok tt) x_req3 N4); vm_compute; reflexivity. }
  assert (N6 : a_net (((((a_tr1 ++ [a_join]) ++ [DChallenge a_y1 z_key]) ++ [DCa x_e2]) ++ [DChalReply a_y1 a_put2 (Ok tt) x_req3]) ++ [DChallenge a_y2 z_key]) (fst x_ca2) (snd x_chal2) (WaitChallenge a_y2)).
  { apply (nw_challenge _ _ _ _ _ _ _ _ _ (x_rin x_now 5) [(K_CODE, bs "000000")] a_y2 (snd x_chal2) N5). vm_compute. reflexivity. }
  assert (N7 := nw_ca _ _ _ _ _ _ _ _ _ _ _ _ N6 (some_pair _ _ _ _ x_step3)). fold x_e3 in N7.
  rewrite <- !app_assoc in N7. exact N7.
Qed.
Lemma a_net3 : a_net a_tr3 (fst x_ca3) (snd x_chal3) (WaitChallenge a_y3).
Proof.
  assert (N1 : a_net (a_tr2 ++ [DChalReply a_y2 a_put3 (Ok tt) x_req4]) (fst x_ca3) x_req4 WaitNothing).
  { apply (nw_chal_reply _ _ _ _ _ _ _ _ _ (x_rin x_now 6) a_put3 (Ok tt) x_req4 a_net2); vm_compute; reflexivity. }
  assert (N2 : a_net ((a_tr2 ++ [DChalReply a_y2 a_put3 (Ok tt) x_req4]) ++ [DChallenge a_y3 z_key]) (fst x_ca3) (snd x_chal3) (WaitChallenge a_y3)).
  { apply (nw_challenge _ _ _ _ _ _ _ _ _ (x_rin x_now 7) [(K_CODE, x_code)] a_y3 (snd x_chal3) N1). vm_compute. reflexivity. }
  rewrite <- !app_assoc in N2. exact N2.
Qed.
Lemma a_run : a_net a_tr (fst a_ca5) x_req5 WaitNothing.
Proof.
  assert (N4 := nw_ca _ _ _ _ _ _ _ _ _ _ _ _ a_net3 (some_pair _ _ _ _ x_step4)). fold x_e4 in N4.
  assert (N5 := nw_ca _ _ _ _ _ _ _ _ _ _ _ _ N4 (some_pair _ _ _ _ a_step5)). fold a_e5 in N5.
  assert (N6 : a_net (((a_tr3 ++ [DCa x_e4]) ++ [DCa a_e5]) ++ [DChalReply a_y3 a_put4 (Ok tt) x_req5]) (fst a_ca5) x_req5 WaitNothing).
  { apply (nw_chal_reply _ _ _ _ _ _ _ _ _ (x_rin x_now 8) a_put4 (Ok tt) x_req5 N5); vm_compute; reflexivity. }
  rewrite <- !app_assoc in N6. exact N6.
Qed.

(** ** The run is ideal *)
Fixpoint at_each {A} (P : list A -> A -> Prop) (pre l : list A) : Prop :=
  match l with [] => True | e :: l' => P pre e /\ at_each P (pre ++ [e]) l' end.
Lemma at_each_all : forall A (P : list A -> A -> Prop) l pre, at_each P pre l -> forall a e b, l = a ++ e :: b -> P (pre ++ a) e.
Proof.
  induction l as [|e0 l IH]; intros pre H a e b Q; [destruct a; discriminate|]. cbn [at_each] in H. destruct H as [H0 H1].
  destruct a as [|e1 a]; injection Q as Qa Qb; subst.
  - rewrite app_nil_r. exact H0.
  - specialize (IH _ H1 a e b eq_refl). rewrite <- app_assoc in IH. exact IH.
Qed.
Definition a_steps : list (hstep db) := [x_e1; a_e1; x_e2; x_e3; x_e4; a_e5].
Definition a_sents : list interest := [x_new_interest; a_y1; a_y2; a_y3].
Ltac a_enum H := cbv [a_tr a_tr1 a_tr2 a_tr3 app In a_join] in H;
  repeat match type of H with _ \/ _ => destruct H as [H|H] | False => destruct H | DCa _ = DCa _ => injection H as H | DNew _ _ = DNew _ _ => injection H as H | DChallenge _ _ = DChallenge _ _ => injection H as H end; try discriminate H.
Lemma a_steps_all : forall st, In (DCa st) a_tr -> In st a_steps.
Proof. intros st H. a_enum H; subst st; cbv [a_steps In]; tauto. Qed.
Lemma a_sents_all : forall x, sent a_tr x -> In x a_sents.
Proof. intros x [[c H]|[key H]]; a_enum H; cbv [a_sents In]; subst; tauto. Qed.
Lemma a_keys_all : forall x key, In (DChallenge x key) a_tr -> key = z_key.
Proof.
  intros x key H. assert (Q : In key (map (fun e => match e with DChallenge _ k => k | _ => z_key end) a_tr)) by (apply in_map_iff; exists (DChallenge x key); split; [reflexivity|exact H]).
  cbv [a_tr a_tr1 a_tr2 a_tr3 app a_join map In] in Q. repeat (destruct Q as [Q|Q]; [symmetry; exact Q|]). destruct Q.
Qed.
Lemma a_handled_at : forall st i x, In st a_steps -> handles st i x -> (st = a_e5 /\ x = a_new) \/ (In st [x_e1; a_e1; x_e2; x_e3; x_e4] /\ In x a_sents).
Proof.
  intros st i x H K. unfold handles in K. cbv [a_steps In] in H.
  repeat (destruct H as [H|H]; [subst st; (destruct K as [K|(n & key & K)]; [|discriminate K]); injection K as K1 K2; subst x;
    first [left; split; reflexivity|right; split; [cbv [In]; tauto|first [left; reflexivity|right; left; reflexivity|do 2 right; left; reflexivity|do 3 right; left; reflexivity]]]|]). destruct H.
Qed.
Lemma a_id_data : forall a e b d, a_tr = a ++ e :: b -> reads e d -> o_verify toy (o_pub toy (cf_sk x_cfg)) (data_msg d) (d_sig d) = true ->
  exists st d', In (DCa st) a /\ (In (EPut d') (h_effs st) \/ In (EProfile d') (h_effs st)) /\ data_msg d' = data_msg d.
Proof.
  assert (W : at_each (fun a e => forall d, reads e d -> o_verify toy (o_pub toy (cf_sk x_cfg)) (data_msg d) (d_sig d) = true ->
    exists st d', In (DCa st) a /\ (In (EPut d') (h_effs st) \/ In (EProfile d') (h_effs st)) /\ data_msg d' = data_msg d) [] a_tr).
  { cbv [a_tr a_tr1 a_tr2 a_tr3 a_join app at_each]. repeat split; try exact I; intros d R V;
    (destruct R as [(x & o & s' & Q)|(x & o & s' & Q)]; try discriminate Q; injection Q as Qx Qd Qo Qs; subst d).
    - exfalso. vm_compute in V. discriminate V.
    - exists x_e1, a_real. split; [right; left; reflexivity|]. split; [|reflexivity]. left. right. left. reflexivity.
    - exists x_e2, a_put2. split; [do 7 right; left; reflexivity|]. split; [|reflexivity]. left. right. left. reflexivity.
    - exists x_e3, a_put3. split; [do 10 right; left; reflexivity|]. split; [|reflexivity]. left. right. left. reflexivity.
    - exists x_e4, a_put4. split; [do 13 right; left; reflexivity|]. split; [|reflexivity]. left. cbv [h_effs x_e4 x_ca4 snd In a_put4]. tauto. }
  intros a e b d Q. exact (at_each_all _ _ _ [] W a e b Q d).
Qed.

Lemma a_not_signed : ~ signed_by toy a_new (o_pub toy x_sk).
Proof. intros (sg & Q & V). assert (W : match i_sig a_new with Some sg => o_verify toy (o_pub toy x_sk) (interest_msg a_new) sg | None => false end = false) by (vm_compute; reflexivity). rewrite Q, V in W. discriminate W. Qed.
Lemma a_id_interest : forall a st b i x, a_tr = a ++ DCa st :: b -> handles st i x -> signed_by toy x (o_pub toy x_sk) ->
  exists x', sent a x' /\ interest_msg x' = interest_msg x.
Proof.
  assert (W : at_each (fun a e => forall st i x, e = DCa st -> handles st i x -> signed_by toy x (o_pub toy x_sk) ->
    exists x', sent a x' /\ interest_msg x' = interest_msg x) [] a_tr).
  { cbv [a_tr a_tr1 a_tr2 a_tr3 a_join app at_each]. repeat split; try exact I; intros st i x Q K V; try discriminate Q;
    injection Q as Q; subst st; (destruct K as [K|(n & key & K)]; [|discriminate K]); injection K as K1 K2; subst x.
    - exists x_new_interest. split; [left; eexists; left; reflexivity|reflexivity].
    - exists x_new_interest. split; [left; eexists; left; reflexivity|reflexivity].
    - exists a_y1. split; [right; eexists; do 6 right; left; reflexivity|reflexivity].
    - exists a_y2. split; [right; eexists; do 9 right; left; reflexivity|reflexivity].
    - exists a_y3. split; [right; eexists; do 12 right; left; reflexivity|reflexivity].
    - destruct (a_not_signed V). }
  intros a st b i x Q K V. exact (at_each_all _ _ _ [] W a (DCa st) b Q st i x eq_refl K V).
Qed.
Lemma a_id_digest : forall st i x x', In (DCa st) a_tr -> handles st i x -> sent a_tr x' -> i_name x = i_name x' -> x = x'.
Proof.
  intros st i x x' H K S Q. apply a_steps_all in H. apply a_sents_all in S. apply (f_equal (fun n => name_eqb n (i_name x'))) in Q. rewrite name_eqb_refl in Q.
  assert (W : In x (a_new :: a_sents)) by (destruct (a_handled_at _ _ _ H K) as [[_ X]|[_ X]]; [left; symmetry; exact X|right; exact X]). clear H K st i.
  cbv [a_sents In] in S, W.
  repeat (destruct W as [W|W]; [subst x; repeat (destruct S as [S|S]; [subst x'; first [reflexivity|vm_compute in Q; discriminate Q]|]); destruct S|]). destruct W.
Qed.
Lemma a_pending : forall st id r, In st [x_e1; a_e1; x_e2; x_e3; x_e4] -> pending (db_ops toy) (h_pre st) id = Some r -> rq_key r = z_key.
Proof.
  intros st id r H P. cbn [pending db_ops s_get] in P. unfold db_get, db_row in P. destruct (find _ _) as [w|] eqn:F; [|discriminate P]. apply find_some in F as [F _].
  assert (W : Forall (fun w => option_map rq_key (row_to_request toy w) = Some z_key) (ca_store (h_pre st))).
  { cbv [In] in H. repeat (destruct H as [H|H]; [subst st; cbv [h_pre x_e1 a_e1 x_e2 x_e3 x_e4 x_ca0 x_ca1 x_ca2 x_ca3 fst ca_store]; repeat constructor|]). destruct H. }
  rewrite Forall_forall in W. specialize (W w F). rewrite P in W. injection W as W. exact W.
Qed.
Lemma a_id_sealed : forall st i x key id r params, In (DCa st) a_tr -> handles st i x -> In (DChallenge x key) a_tr -> names_request x_cfg id x ->
  pending (db_ops toy) (h_pre st) id = Some r -> opens toy (rq_key r) id x params -> rq_key r = key.
Proof.
  intros st i x key id r params H K C _ P _. rewrite (a_keys_all _ _ C). apply a_steps_all in H.
  destruct (a_handled_at _ _ _ H K) as [[_ X]|[H0 _]]; [|exact (a_pending _ _ _ H0 P)].
  exfalso. assert (S : sent a_tr x) by (right; exists key; exact C). apply a_sents_all in S. subst x.
  assert (W : forallb (fun y => negb (name_eqb (i_name a_new) (i_name y))) a_sents = true) by (vm_compute; reflexivity).
  rewrite forallb_forall in W. specialize (W _ S). rewrite name_eqb_refl in W. discriminate W.
Qed.
Lemma a_adds : forall st r, In st a_steps -> In (EAdd r) (h_effs st) -> (st = x_e1 /\ rq_key r = z_key) \/ (st = a_e5 /\ bytes_eqb (rq_key r) z_key = false).
Proof.
  intros st r H K. cbv [a_steps In] in H.
  assert (W : forall l : list eff, existsb (fun f => match f with EAdd _ => true | _ => false end) l = false -> In (EAdd r) l -> False).
  { intros l L I0. rewrite <- not_true_iff_false in L. apply L. apply existsb_exists. exists (EAdd r). split; [exact I0|reflexivity]. }
  destruct H as [H|[H|[H|[H|[H|[H|H]]]]]]; [subst st|subst st; refine (False_ind _ (W _ _ K)); reflexivity..|subst st|destruct H].
  - left. split; [reflexivity|]. destruct K as [K|K]; [injection K as K; subst r; reflexivity|refine (False_ind _ (W _ _ K)); reflexivity].
  - right. split; [reflexivity|]. destruct K as [K|K]; [injection K as K; subst r; reflexivity|refine (False_ind _ (W _ _ K)); reflexivity].
Qed.
Definition a_is_add (e : deed db) : bool := match e with DCa st => existsb (fun f => match f with EAdd _ => true | _ => false end) (h_effs st) | _ => false end.
Lemma a_is_add_in : forall st r, In (EAdd r) (h_effs st) -> a_is_add (DCa st) = true.
Proof. intros st r K. cbn [a_is_add]. apply existsb_exists. exists (EAdd r). split; [exact K|reflexivity]. Qed.
Lemma a_id_keys : forall a st b st' c r r', a_tr = a ++ DCa st :: b ++ DCa st' :: c -> In (EAdd r) (h_effs st) -> In (EAdd r') (h_effs st') -> rq_key r <> rq_key r'.
Proof.
  intros a st b st' c r r' Q K K' X.
  assert (H : In st a_steps) by (apply a_steps_all; rewrite Q; apply in_or_app; right; left; reflexivity).
  assert (H' : In st' a_steps) by (apply a_steps_all; rewrite Q; apply in_or_app; right; right; apply in_or_app; right; left; reflexivity).
  assert (N : map (fun e => match e with DCa st => bytes_eqb (rq_key (match h_effs st with EAdd r :: _ => r | _ => r' end)) z_key | _ => false end) (filter a_is_add a_tr) = [true; false]) by (vm_compute; reflexivity).
  rewrite Q, filter_app, map_app in N. cbn [filter] in N. rewrite (a_is_add_in _ _ K), filter_app in N. cbn [filter] in N. rewrite (a_is_add_in _ _ K') in N. cbn [map] in N. rewrite map_app in N. cbn [map] in N.
  destruct (a_adds _ _ H K) as [[Q1 E1]|[Q1 E1]], (a_adds _ _ H' K') as [[Q2 E2]|[Q2 E2]].
  2: rewrite <- X, E1, bytes_eqb_refl in E2; discriminate E2.
  2: rewrite X, E2, bytes_eqb_refl in E1; discriminate E1.
  - rewrite Q1, Q2 in N. cbn [h_effs x_e1 x_ca1 snd] in N.
    destruct (map _ (filter _ a)) as [|? [|? [|]]]; cbn [app] in N; try discriminate N;
    destruct (map _ (filter _ b)) as [|? [|]]; cbn [app] in N; discriminate N.
  - rewrite Q1, Q2 in N. cbn [h_effs a_e5 a_ca5 snd] in N.
    destruct (map _ (filter _ a)) as [|? [|? [|]]]; cbn [app] in N; try discriminate N;
    destruct (map _ (filter _ b)) as [|? [|]]; cbn [app] in N; discriminate N.
Qed.
Lemma a_ideal : ideal toy x_cfg (db_ops toy) x_sk a_tr.
Proof. constructor; [exact a_id_data|exact a_id_interest|exact a_id_digest|exact a_id_sealed|exact a_id_keys]. Qed.
Definition a_rest1 : list (deed db) := Eval cbv [skipn a_tr a_tr1 a_tr2 a_tr3 app] in skipn 6 a_tr.
Lemma a_joined : joined (a_tr3 ++ [DCa x_e4; DCa a_e5]) x_new_interest x_req2.
Proof.
  exists a_tr1, a_real, a_chals. eexists. split; [unfold a_tr3, a_tr2; rewrite <- !app_assoc; reflexivity|].
  repeat constructor; intros (x & d & chals & s' & Q); discriminate Q.
Qed.
Definition a_cert : cert := Eval vm_compute in the_issued (snd x_ca4).
Lemma a_issued : In (EIssue a_cert) (h_effs x_e4) /\ public_key a_cert = o_pub toy x_sk.
Proof. split; [left; reflexivity|reflexivity]. Qed.
