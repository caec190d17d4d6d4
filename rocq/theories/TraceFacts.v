(** Histories seen from one request ID. *)
From Verif Require Export CaFacts.
Local Open Scope N_scope.

Definition cut (es full : list eff) : Prop := exists rest, full = es ++ rest.

(** What an event does to the request stored under the ID it names.  [nrm]: what the back end keeps. *)
Definition is_email (e : eff) : Prop := match e with EEmail _ => True | _ => False end.

Definition pass_facts (E : env) (i : inputs) (x : interest) (r : request) (params : list tlv) (ty dv : bytes) (cs : cstate) : Prop :=
  signed_by E x (public_key (rq_cert r)) /\ opened E x r params ty dv /\ known_type ty /\
  rq_status r <> ST_BEFORE /\ rq_cs r = Some cs /\ passes E i params cs ty.

Inductive chal_step (E : env) (g : ca_cfg) (nrm : request -> request) (i : inputs) (x : interest) (r : request) : list eff -> option request -> Prop :=
| CS_quiet : forall es, Forall is_email es -> chal_step E g nrm i x r es (Some r)
| CS_refused : forall info, fits info -> ~ signed_by E x (public_key (rq_cert r)) ->
    chal_step E g nrm i x r [EPut (error_data E g (i_name x) BAD_SIGNATURE info)] (Some r)
| CS_dropped : forall code info tail, signed_by E x (public_key (rq_cert r)) -> plain_error code info ->
    cut tail [EPut (error_data E g (i_name x) code info)] ->
    chal_step E g nrm i x r (EDelete (rq_id r) :: tail) None
| CS_moved : forall params ty dv cs em payload r3 tail, signed_by E x (public_key (rq_cert r)) ->
    opened E x r params ty dv -> known_type ty -> moves E (cf_chal g) i params (set_div dv r) ty cs em ->
    chal_encode E (moved dv ty cs r) [] [] (rnd_iv i) = (Ok payload, r3) ->
    cut tail [EPut (reply_data E g (i_name x) payload); ECallback r3] ->
    chal_step E g nrm i x r (email_effs em ++ EUpdate r3 :: tail) (Some (nrm r3))
| CS_issuing : forall params ty dv cs c, pass_facts E i x r params ty dv cs ->
    (rq_type r = RT_NEW \/ rq_type r = RT_RENEW) -> issue_certificate E g (in_version i) r = Ok c ->
    chal_step E g nrm i x r [EIssue c] (Some r)
| CS_issued : forall params ty dv cs c tail, pass_facts E i x r params ty dv cs ->
    (rq_type r = RT_NEW \/ rq_type r = RT_RENEW) -> issue_certificate E g (in_version i) r = Ok c ->
    (tail = [] \/ exists payload r3,
       chal_encode E (set_status ST_SUCCESS (set_cert c (passed dv ty r))) (c_name c) (p_fwd (cfp g)) (rnd_iv i) = (Ok payload, r3) /\
       cut tail [EPut (reply_data E g (i_name x) payload); ECallback r3]) ->
    chal_step E g nrm i x r (EIssue c :: EDelete (rq_id r) :: tail) None
| CS_revoked : forall params ty dv cs tail, pass_facts E i x r params ty dv cs -> rq_type r = RT_REVOKE ->
    (tail = [] \/ exists payload r3,
       chal_encode E (set_status ST_SUCCESS (passed dv ty r)) [] [] (rnd_iv i) = (Ok payload, r3) /\
       cut tail [EPut (reply_data E g (i_name x) payload); ECallback r3]) ->
    chal_step E g nrm i x r (EDelete (rq_id r) :: tail) None.

Lemma cut_cons : forall es a full, cut es (a :: full) -> es = [] \/ exists es', es = a :: es' /\ cut es' full.
Proof.
  intros [|b es] a full [rest H]; [auto|]. cbn [app] in H. injection H as -> H. right. exists es. split; [reflexivity|]. exists rest. exact H.
Qed.
Lemma cut_nil : forall es, cut es [] -> es = [].
Proof. intros [|b es] [rest H]; [reflexivity|discriminate]. Qed.
Lemma cut_email : forall es em full, cut es (email_effs em ++ full) ->
  Forall is_email es \/ exists es', es = email_effs em ++ es' /\ cut es' full.
Proof.
  intros es [c|] full H; cbn [email_effs app] in *; [|right; eauto].
  apply cut_cons in H as [->|(es' & -> & H)]; [left; constructor|right; eauto].
Qed.
Lemma emails : forall em, Forall is_email (email_effs em).
Proof. intros [c|]; repeat constructor. Qed.
Lemma cut_refl : forall es, cut es es. Proof. intros es. exists []. rewrite app_nil_r. reflexivity. Qed.

Lemma chal_out_step : forall E g nrm i x r full o es, chal_out E g i x r (full, o) -> cut es full ->
  exists m, chal_step E g nrm i x r es m.
Proof.
  intros E g nrm i x r full o es H C. inversion H as [ info FI S | code info S K | o' S Q | params ty dv cs em payload r3 S OP KT M CE
    | params ty dv cs em o' r3 S OP KT M Q N | params ty dv cs c payload r3 S OP KT ST CS PA TY IC CE | params ty dv cs c o' r3 S OP KT ST CS PA TY IC Q N
    | params ty dv cs payload r3 S OP KT ST CS PA TY CE | params ty dv cs o' r3 S OP KT ST CS PA TY Q N ]; subst full o.
  - apply cut_cons in C as [->|(es' & -> & C)]; [eexists; apply CS_quiet; constructor|]. apply cut_nil in C. subst es'. eexists. apply CS_refused; [exact (short_fits _ FI)|exact S].
  - apply cut_cons in C as [->|(es' & -> & C)]; [eexists; apply CS_quiet; constructor|]. eexists. eapply CS_dropped; [exact S|exact K|exact C].
  - apply cut_nil in C. subst es. eexists. apply CS_quiet. constructor.
  - apply cut_email in C as [C|(es' & -> & C)]; [eexists; apply CS_quiet, C|].
    apply cut_cons in C as [->|(es'' & -> & C)]; [rewrite app_nil_r; eexists; apply CS_quiet, emails|].
    eexists. exact (CS_moved E g nrm i x r params ty dv cs em payload r3 es'' S OP KT M CE C).
  - rewrite <- (app_nil_r (email_effs em)) in C. apply cut_email in C as [C|(es' & -> & C)]; [eexists; apply CS_quiet, C|].
    apply cut_nil in C. subst. rewrite app_nil_r. eexists. apply CS_quiet, emails.
  - assert (PF : pass_facts E i x r params ty dv cs) by (repeat (split; [assumption|]); assumption).
    apply cut_cons in C as [->|(es' & -> & C)]; [eexists; apply CS_quiet; constructor|].
    apply cut_cons in C as [->|(es'' & -> & C)]; [eexists; exact (CS_issuing E g nrm i x r params ty dv cs c PF TY IC)|].
    eexists. apply (CS_issued E g nrm i x r params ty dv cs c es'' PF TY IC). right. eauto.
  - assert (PF : pass_facts E i x r params ty dv cs) by (repeat (split; [assumption|]); assumption).
    apply cut_cons in C as [->|(es' & -> & C)]; [eexists; apply CS_quiet; constructor|].
    apply cut_cons in C as [->|(es'' & -> & C)]; [eexists; exact (CS_issuing E g nrm i x r params ty dv cs c PF TY IC)|].
    apply cut_nil in C. subst. eexists. apply (CS_issued E g nrm i x r params ty dv cs c [] PF TY IC). auto.
  - assert (PF : pass_facts E i x r params ty dv cs) by (repeat (split; [assumption|]); assumption).
    apply cut_cons in C as [->|(es' & -> & C)]; [eexists; apply CS_quiet; constructor|].
    eexists. apply (CS_revoked E g nrm i x r params ty dv cs es' PF TY). right. eauto.
  - assert (PF : pass_facts E i x r params ty dv cs) by (repeat (split; [assumption|]); assumption).
    apply cut_cons in C as [->|(es' & -> & C)]; [eexists; apply CS_quiet; constructor|].
    apply cut_nil in C. subst. eexists. apply (CS_revoked E g nrm i x r params ty dv cs [] PF TY). auto.
Qed.

(** ** Encrypted replies *)
Lemma chal_encode_ok : forall E r issued fwd rnd payload r3, (rq_eiv r = [] \/ iv12 (rq_eiv r)) -> length rnd = 8%nat ->
  chal_encode E r issued fwd rnd = (Ok payload, r3) ->
  exists l iv2, chal_plain r issued fwd = Ok l /\ update_iv (initial_iv (rq_eiv r) rnd) (blen (enc_tlvs l)) = Ok iv2 /\
    r3 = set_eiv iv2 r /\ payload = sealed E (rq_key r) (initial_iv (rq_eiv r) rnd) (rq_id r) (enc_tlvs l).
Proof.
  intros E r issued fwd rnd payload r3 V L H. unfold chal_encode in H. destruct (chal_plain r issued fwd) as [l| | |] eqn:P; try discriminate.
  destruct (encode_aes_spec E (rq_key r) (enc_tlvs l) (rq_id r) (rq_eiv r) rnd V L) as [(iv2 & U & Q)|[U Q]]; rewrite Q in H; [|discriminate].
  injection H as <- <-. exists l, iv2. auto.
Qed.
Lemma rnd_iv_len : forall i, length (rnd_iv i) = 8%nat.
Proof. intros i. apply be_enc_length. Qed.
Lemma live_eiv : forall r, live r -> rq_eiv r = [] \/ iv12 (rq_eiv r).
Proof. intros r [(_ & _ & _ & H & _)|(_ & _ & _ & H & _)]; auto. Qed.
Lemma live_div : forall r, live r -> rq_div r = [] \/ iv12 (rq_div r).
Proof. intros r [(_ & _ & _ & _ & H)|(_ & _ & _ & _ & H)]; auto. Qed.
Lemma live_before : forall r, live r -> rq_status r = ST_BEFORE -> rq_cs r = None /\ rq_eiv r = [] /\ rq_div r = [].
Proof. intros r [(_ & _ & A & B & C)|(A & _)] H; [auto|rewrite H in A; discriminate]. Qed.
Lemma live_cs : forall r, live r -> rq_status r <> ST_BEFORE -> exists cs, rq_cs r = Some cs /\ 1 <= cs_tries cs <= 3.
Proof. intros r [(A & _)|(_ & _ & C & _)] H; [contradiction|exact C]. Qed.

Lemma opened_dv : forall E x r params ty dv, opened E x r params ty dv -> iv12 dv.
Proof.
  intros E x r params ty dv (pt & D & _). apply decode_ok_inv in D as (iv & tag & ct & V & _ & _ & _ & U).
  apply dec_view_iv in V as (I & _). apply (update_iv_spec _ _ _ I) in U as (U & _). exact U.
Qed.

Lemma code_text : forall ws code, gen_code ws = Ok code -> secret_texts [(bs "code", code)].
Proof.
  intros ws code H. apply gen_code_spec in H as (_ & _ & _ & _ & k & _ & ->). constructor; [|constructor]. split; [apply utf8b_ok; reflexivity|]. apply ascii_utf8.
  assert (D : forall n, n < 10 -> Byte.to_N (digit n) < 128) by (intros n Hn; unfold digit; rewrite to_N_byte_of_N, N.mod_small by lia; lia).
  unfold six_digits. repeat constructor; apply D; apply N.mod_lt; discriminate.
Qed.
(** What a challenge stores can be written as JSON. *)
Lemma moves_texts : forall E cfg i params r dv ty cs em,
  match rq_ctype r, rq_cs r with [], None => True | _ :: _, Some cs => cs_tries cs < 2 ^ 31 /\ secret_texts (cs_secrets cs) | _, _ => False end ->
  moves E cfg i params (set_div dv r) ty cs em -> secret_texts (cs_secrets cs).
Proof.
  intros E cfg i params r dv ty cs em S [[_ M]|(_ & _ & cs0 & C & (given & code & life & _ & _ & _ & _ & _ & ->))].
  - destruct M as [code G|code addr G _|c _ _ _]; cbn [cs_secrets]; [exact (code_text _ _ G)|exact (code_text _ _ G)|].
    constructor; [|constructor; [|constructor]]; (split; [apply utf8b_ok; reflexivity|apply hex_utf8]).
  - cbn [set_div rq_cs] in C. rewrite C in S. cbn [cs_secrets]. destruct (rq_ctype r); [destruct S|exact (proj2 S)].
Qed.
(** The request after the challenge has been started or has gone on. *)
Lemma moved_live : forall E g i x r params ty dv cs em payload r3, live r -> opened E x r params ty dv -> known_type ty ->
  moves E (cf_chal g) i params (set_div dv r) ty cs em -> chal_encode E (moved dv ty cs r) [] [] (rnd_iv i) = (Ok payload, r3) ->
  exists iv2, r3 = set_eiv iv2 (moved dv ty cs r) /\ iv12 iv2 /\ iv12 dv /\ 1 <= cs_tries cs <= 3 /\ live r3.
Proof.
  intros E g i x r params ty dv cs em payload r3 L OP KT M CE. pose proof (opened_dv _ _ _ _ _ _ OP) as D.
  apply chal_encode_ok in CE as (l & iv2 & _ & U & -> & _); [|exact (live_eiv r L)|apply rnd_iv_len].
  change (rq_eiv (moved dv ty cs r)) with (rq_eiv r) in U.
  apply update_iv_spec in U as (U & _); [|apply iv12_initial; [exact (live_eiv r L)|apply rnd_iv_len]].
  assert (T : 1 <= cs_tries cs <= 3).
  { destruct M as [[_ S]|(N & _ & cs0 & C & (given & code & life & _ & _ & _ & _ & T & ->))].
    - destruct S; cbn [cs_tries]; lia.
    - destruct (live_cs r L N) as (cs1 & C1 & B). cbn [set_div rq_cs] in C. rewrite C in C1. injection C1 as <-. cbn [cs_tries]. lia. }
  exists iv2. split; [reflexivity|]. split; [exact U|]. split; [exact D|]. split; [exact T|]. right. cbn.
  split; [reflexivity|]. split; [|split; [exists cs; auto|split; [exact U|exact D]]].
  destruct KT as [->|[->| ->]]; vm_compute; discriminate.
Qed.

(** ** The stored certificate requests *)
Lemma carries_storable : forall E rt x peer c, codec_laws E -> carries E rt x peer c ->
  wf_cert c /\ cert_ok c = true /\ fits (o_cert_wire E c).
Proof.
  intros E rt x peer c L (cty & _ & els & t & P & _ & _ & _ & IT & _ & CC & _). destruct CC as (l & d & PL & GD & CD).
  apply parse_wf in PL. apply get_type in GD as [_ ID]. rewrite Forall_forall in PL. specialize (PL d ID).
  unfold cert_decode, data_decode in CD. destruct (t_type d =? T_Data); [|discriminate].
  destruct (o_cert_unwire E (t_val d)) as [c0|] eqn:U; [|discriminate]. destruct (cert_ok c0) eqn:K; [|discriminate]. injection CD as ->.
  split; [exact (l_cert_wf E L _ _ U)|]. split; [exact K|]. rewrite (l_cert_keeps_wire E L _ _ U). apply PL.
Qed.

(** ** One event, one request ID *)
Definition ev_interest (ev : event) : option (inputs * interest) :=
  match ev with
  | EvInterest i x | EvCrash i x _ _ => Some (i, x)
  | EvRestart _ | EvProfile _ => None
  end.
(** Effects on the request stored under [id]. *)
Definition concerns (id : bytes) (e : eff) : Prop :=
  match e with
  | EAdd r | EUpdate r | ECallback r => rq_id r = id
  | EDelete id' => id' = id
  | _ => False
  end.

Inductive mid (E : env) (g : ca_cfg) (nrm : request -> request) (id : bytes) (ev : event) : list eff -> option request -> option request -> Prop :=
| M_other : forall es m, Forall (fun e => ~ concerns id e) es -> (forall i x, ev_interest ev = Some (i, x) -> ~ names_request g id x) ->
    mid E g nrm id ev es m m
| M_absent : forall i x es info, fits info -> ev_interest ev = Some (i, x) -> names_request g id x ->
    cut es [EPut (error_data E g (i_name x) INVALID_PARAMETER info)] -> mid E g nrm id ev es None None
| M_add : forall i x rt idkey peer c tail, ev_interest ev = Some (i, x) ->
    (rt = RT_NEW /\ addressed g VNew (i_name x) \/ rt = RT_REVOKE /\ addressed g VRevoke (i_name x)) ->
    id = request_id_of E idkey (c_name c) -> admissible E g i rt id x peer c ->
    cut tail [EPut (new_reply E g i x id); ECallback (created E g i rt id peer c)] ->
    mid E g nrm id ev (EAdd (created E g i rt id peer c) :: tail) None (Some (created E g i rt id peer c))
| M_chal : forall i x r es m, ev_interest ev = Some (i, x) -> names_request g id x -> rq_id r = id ->
    chal_step E g nrm i x r es m -> mid E g nrm id ev es (Some r) m.

Inductive id_step (E : env) (g : ca_cfg) (nrm : request -> request) (id : bytes) (ev : event) (es : list eff) (m m2 : option request) : Prop :=
| IS : forall m1, mid E g nrm id ev es m m1 -> (m2 = m1 \/ restarts ev /\ m2 = None) -> id_step E g nrm id ev es m m2.

Inductive path (E : env) (g : ca_cfg) (nrm : request -> request) (id : bytes) : option request -> list (event * list eff) -> option request -> Prop :=
| P_nil : forall m, path E g nrm id m [] m
| P_cons : forall m m1 m2 ev es h, id_step E g nrm id ev es m m1 -> path E g nrm id m1 h m2 -> path E g nrm id m ((ev, es) :: h) m2.

(** What is stored between events. *)
Definition good (g : ca_cfg) (r : request) : Prop :=
  live r /\ rq_prefix r = p_prefix (cfp g) /\ (rq_type r = RT_NEW \/ rq_type r = RT_REVOKE) /\ name_policy g (c_name (rq_cert r)).

Lemma live_nrm : forall r, live r -> live (db_stored r).
Proof.
  intros r [(A & B & C & D & F)|(A & B & (cs & C & T) & D & F)]; unfold db_stored; rewrite C; [left|right]; cbn; auto 10.
  repeat (split; [assumption|]). split; [eexists; split; [reflexivity|exact T]|]. auto.
Qed.
Lemma set_cs_None : forall r, rq_cs r = None -> set_cs None r = r.
Proof. intros [? ? ? ? ? ? ? ? ? ?] H. cbn in H. subst. reflexivity. Qed.

Section Store.
  Context (E : env) (g : ca_cfg) {S : Type} (ops : store_ops S) (inv : S -> Prop) (nrm : request -> request)
          (SL : store_laws E ops inv nrm) (LC : codec_laws E) (NF : name_fits (p_prefix (cfp g))).

  Definition ca_get (s : ca_state S) (id : bytes) : option request := s_get ops (ca_store s) id.
  Definition ca_inv (s : ca_state S) : Prop := inv (ca_store s) /\ forall id r, ca_get s id = Some r -> good g r.

  Lemma nrm_good : forall r, good g r -> good g (nrm r).
  Proof using SL.
    intros r (A & B & C & D). destruct (sl_nrm E ops inv nrm SL r) as [->| ->]; [split; auto|].
    split; [apply live_nrm, A|]. auto.
  Qed.
  Lemma nrm_created : forall r, rq_cs r = None -> nrm r = r.
  Proof using SL.
    intros r H. destruct (sl_nrm E ops inv nrm SL r) as [->| ->]; [reflexivity|]. unfold db_stored. rewrite H. apply set_cs_None, H.
  Qed.

  (** Effects that do not touch the storage. *)
  Definition silent (e : eff) : Prop := match e with EAdd _ | EUpdate _ | EDelete _ => False | _ => True end.
  Lemma silent_store : forall es s, Forall silent es -> ca_store (apply_effs ops es s) = ca_store s.
  Proof.
    intros es s H. revert s. unfold apply_effs. induction H as [|e es A _ IH]; intros s; [reflexivity|]. cbn [fold_left].
    rewrite IH. destruct e; try contradiction; reflexivity.
  Qed.
  Lemma silent_get : forall es s id, Forall silent es -> ca_get (apply_effs ops es s) id = ca_get s id.
  Proof. intros es s id H. unfold ca_get. rewrite (silent_store es s H). reflexivity. Qed.
  Lemma silent_inv : forall es s, Forall silent es -> ca_inv s -> ca_inv (apply_effs ops es s).
  Proof. intros es s H [I G]. split; [rewrite (silent_store es s H); exact I|]. intros id r Q. rewrite (silent_get es s id H) in Q. exact (G id r Q). Qed.
  Lemma apply_app : forall a b s, apply_effs ops (a ++ b) s = apply_effs ops b (apply_effs ops a s).
  Proof. intros a b s. unfold apply_effs. apply fold_left_app. Qed.
  Lemma emails_silent : forall es, Forall is_email es -> Forall silent es.
  Proof. intros es H. eapply Forall_impl; [|exact H]. intros [] A; cbn in *; auto. Qed.
  Lemma cut_silent : forall es full, cut es full -> Forall silent full -> Forall silent es.
  Proof. intros es full [rest ->] H. apply Forall_app in H. apply H. Qed.

  Lemma delete_get : forall s id id', inv (ca_store s) ->
    ca_get (apply_eff ops (EDelete id) s) id' = if bytes_eqb id' id then None else ca_get s id'.
  Proof using SL. intros s id id' I. destruct (sl_delete E ops inv nrm SL (ca_store s) id I) as [_ H]. apply H. Qed.
  Lemma delete_inv : forall s id, ca_inv s -> ca_inv (apply_eff ops (EDelete id) s).
  Proof using SL.
    intros s id [I G]. split; [apply (sl_delete E ops inv nrm SL (ca_store s) id I)|]. intros id' r H. rewrite delete_get in H by exact I.
    destruct (bytes_eqb id' id); [discriminate|]. apply (G id' r H).
  Qed.

  (** A CHALLENGE Interest for a stored request. *)
  Lemma chal_step_state : forall i x r es m s, ca_inv s -> ca_get s (rq_id r) = Some r ->
    chal_step E g nrm i x r es m ->
    ca_inv (apply_effs ops es s) /\ ca_get (apply_effs ops es s) (rq_id r) = m /\
    (forall id, id <> rq_id r -> ca_get (apply_effs ops es s) id = ca_get s id) /\
    (forall id, id <> rq_id r -> Forall (fun e => ~ concerns id e) es).
  Proof using SL LC NF.
    intros i x r es m s [I G] GR H.
    assert (SIL : forall es, Forall silent es -> ca_inv (apply_effs ops es s) /\ ca_get (apply_effs ops es s) (rq_id r) = Some r /\
       (forall id, id <> rq_id r -> ca_get (apply_effs ops es s) id = ca_get s id)).
    { intros es' A. split; [apply silent_inv; [exact A|split; assumption]|]. rewrite (silent_get es' s _ A). split; [exact GR|].
      intros id _. apply silent_get, A. }
    assert (DEL : forall pre tail, Forall silent pre -> Forall silent tail ->
       ca_inv (apply_effs ops (pre ++ EDelete (rq_id r) :: tail) s) /\ ca_get (apply_effs ops (pre ++ EDelete (rq_id r) :: tail) s) (rq_id r) = None /\
       (forall id, id <> rq_id r -> ca_get (apply_effs ops (pre ++ EDelete (rq_id r) :: tail) s) id = ca_get s id)).
    { intros pre tail P T. rewrite apply_app. change (apply_effs ops (EDelete (rq_id r) :: tail) (apply_effs ops pre s)) with
        (apply_effs ops tail (apply_eff ops (EDelete (rq_id r)) (apply_effs ops pre s))).
      pose proof (silent_inv pre s P (conj I G)) as IP. split; [apply (silent_inv tail _ T), delete_inv, IP|].
      rewrite !(silent_get tail _ _ T). split.
      - rewrite (delete_get _ _ _ (proj1 IP)), bytes_eqb_refl. reflexivity.
      - intros id N. rewrite (silent_get tail _ _ T), (delete_get _ _ _ (proj1 IP)). apply bytes_eqb_neq in N. rewrite N. apply silent_get, P. }
    assert (TAILS : forall tail d r3, cut tail [EPut d; ECallback r3] -> Forall silent tail).
    { intros tail d r3 C. apply (cut_silent _ _ C). repeat constructor. }
    assert (TAILC : forall tail d r3 id, cut tail [EPut d; ECallback r3] -> rq_id r3 <> id -> Forall (fun e => ~ concerns id e) tail).
    { intros tail d r3 id [rest C] N. assert (Q : Forall (fun e => ~ concerns id e) [EPut d; ECallback r3]) by (repeat constructor; cbn; auto).
      rewrite C in Q. apply Forall_app in Q. apply Q. }
    assert (EMC : forall es id, Forall is_email es -> Forall (fun e => ~ concerns id e) es).
    { intros es' id A. eapply Forall_impl; [|exact A]. intros [] B; cbn in *; auto. }
    destruct H as [es A|info FI N|code info tail SG K C|params ty dv cs em payload r3 tail SG OP KT M CE C|params ty dv cs c PF TY IC|params ty dv cs c tail PF TY IC T|params ty dv cs tail PF TY T].
    - destruct (SIL es (emails_silent es A)) as (X & Y & Z). auto 10.
    - destruct (SIL [EPut (error_data E g (i_name x) BAD_SIGNATURE info)] ltac:(repeat constructor)) as (X & Y & Z).
      repeat (split; [assumption|]). intros id N'. repeat constructor. cbn. auto.
    - assert (ST : Forall silent tail) by (apply (cut_silent _ _ C); repeat constructor).
      destruct (DEL [] tail (Forall_nil _) ST) as (X & Y & Z). repeat (split; [assumption|]). intros id N'. constructor; [cbn; auto|].
      destruct C as [rest C]. assert (Q : Forall (fun e => ~ concerns id e) [EPut (error_data E g (i_name x) code info)]) by (repeat constructor; cbn; auto).
      rewrite C in Q. apply Forall_app in Q. apply Q.
    - destruct (G (rq_id r) r GR) as (LV & PR & RT & NP).
      destruct (moved_live E g i x r params ty dv cs em payload r3 LV OP KT M CE) as (iv2 & R3 & V1 & V2 & T3 & LV3).
      destruct (sl_get E ops inv nrm SL _ _ _ I GR) as (_ & (S1 & S2 & S3 & S4 & S5 & S6 & S7) & _).
      assert (SR : storable E r3).
      { rewrite R3. unfold storable. cbn [set_eiv moved set_cs set_ctype set_status set_div rq_prefix rq_cert rq_type rq_status rq_ctype rq_cs].
        split; [exact S1|]. split; [exact S2|]. split; [exact S3|]. split; [exact S4|]. split; [exact S5|]. split; [discriminate|].
        assert (TX : cs_tries cs < 2 ^ 31 /\ secret_texts (cs_secrets cs)) by (split; [lia|exact (moves_texts E (cf_chal g) i params r dv ty cs em S7 M)]).
        destruct KT as [->|[->| ->]]; exact TX. }
      assert (SF : same_fixed r r3) by (rewrite R3; repeat split).
      assert (ID3 : rq_id r3 = rq_id r) by (rewrite R3; reflexivity).
      rewrite apply_app. set (s1 := apply_effs ops (email_effs em) s).
      assert (S1E : ca_store s1 = ca_store s) by (apply silent_store, emails_silent, emails).
      assert (GR1 : s_get ops (ca_store s1) (rq_id r3) = Some r) by (rewrite S1E, ID3; exact GR).
      assert (I1 : inv (ca_store s1)) by (rewrite S1E; exact I).
      destruct (sl_update E ops inv nrm SL (ca_store s1) r3 r I1 SR GR1 SF) as (st' & U & I' & GU).
      change (apply_effs ops (EUpdate r3 :: tail) s1) with (apply_effs ops tail (apply_eff ops (EUpdate r3) s1)).
      assert (AE : apply_eff ops (EUpdate r3) s1 = CaState st' (ca_idkey s1) (ca_prof s1)) by (cbn [apply_eff]; rewrite U; reflexivity).
      rewrite AE. pose proof (TAILS _ _ _ C) as ST. set (s2 := CaState st' (ca_idkey s1) (ca_prof s1)).
      assert (GS : forall id, ca_get s2 id = s_get ops st' id) by reflexivity.
      rewrite (silent_get tail s2 _ ST). split; [apply (silent_inv tail s2 ST); split; [exact I'|]|].
      + intros id r' Q. rewrite GS, GU in Q. destruct (bytes_eqb id (rq_id r3)).
        * injection Q as <-. apply nrm_good. split; [exact LV3|]. rewrite R3. split; [exact PR|]. split; [exact RT|exact NP].
        * rewrite S1E in Q. exact (G id r' Q).
      + rewrite GS, GU, ID3, bytes_eqb_refl. split; [reflexivity|]. split.
        * intros id N. rewrite (silent_get tail s2 _ ST), GS, GU, ID3. apply bytes_eqb_neq in N. rewrite N, S1E. reflexivity.
        * intros id N. apply Forall_app. split; [apply EMC, emails|]. constructor; [cbn; rewrite ID3; auto|].
          apply (TAILC _ _ _ id C). rewrite ID3. auto.
    - destruct (SIL [EIssue c] ltac:(repeat constructor)) as (X & Y & Z). repeat (split; [assumption|]). intros id N'. repeat constructor. cbn. auto.
    - assert (ST : Forall silent tail) by (destruct T as [->|(payload & r3 & _ & C)]; [constructor|exact (TAILS _ _ _ C)]).
      destruct (DEL [EIssue c] tail ltac:(repeat constructor) ST) as (X & Y & Z). repeat (split; [assumption|]). intros id N'.
      constructor; [cbn; auto|]. constructor; [cbn; auto|]. destruct T as [->|(payload & r3 & CE & C)]; [constructor|].
      apply (TAILC _ _ _ id C). destruct (G (rq_id r) r GR) as (LV & _).
      apply chal_encode_ok in CE as (l & iv2 & _ & _ & -> & _); [cbn; auto|exact (live_eiv r LV)|apply rnd_iv_len].
    - assert (ST : Forall silent tail) by (destruct T as [->|(payload & r3 & _ & C)]; [constructor|exact (TAILS _ _ _ C)]).
      destruct (DEL [] tail (Forall_nil _) ST) as (X & Y & Z). repeat (split; [assumption|]). intros id N'.
      constructor; [cbn; auto|]. destruct T as [->|(payload & r3 & CE & C)]; [constructor|].
      apply (TAILC _ _ _ id C). destruct (G (rq_id r) r GR) as (LV & _).
      apply chal_encode_ok in CE as (l & iv2 & _ & _ & -> & _); [cbn; auto|exact (live_eiv r LV)|apply rnd_iv_len].
  Qed.

  Lemma names_unique : forall id id' x, names_request g id x -> names_request g id' x -> id = id'.
  Proof. intros id id' x (ty & rest & A & _) (ty' & rest' & B & _). rewrite A in B. apply app_inv_head in B. injection B; auto. Qed.

  Definition no_names (ev : event) : Prop := forall i x id, ev_interest ev = Some (i, x) -> ~ names_request g id x.

  (** All effects of an Interest, or the first few of them. *)
  Lemma interest_step : forall s ev i x es full o, ca_inv s -> ev_interest ev = Some (i, x) ->
    on_interest E g ops s i x = (full, o) -> o <> UB -> cut es full ->
    ca_inv (apply_effs ops es s) /\ forall id, mid E g nrm id ev es (ca_get s id) (ca_get (apply_effs ops es s) id).
  Proof using SL LC NF.
    intros s ev i x es full o INV EV H NU C.
    assert (QUIET : Forall silent es -> (forall id, ~ names_request g id x) -> (forall id, Forall (fun e => ~ concerns id e) es) ->
       ca_inv (apply_effs ops es s) /\ forall id, mid E g nrm id ev es (ca_get s id) (ca_get (apply_effs ops es s) id)).
    { intros A N F. unfold ca_inv, ca_get. rewrite (silent_store es s A). split; [exact INV|]. intros id. apply M_other; [apply F|].
      intros i' x' Q. rewrite EV in Q. injection Q as <- <-. apply N. }
    assert (NOTCH : forall v, v <> VChallenge -> addressed g v (i_name x) -> forall id, ~ names_request g id x).
    { intros v NV A id Q. apply names_addressed in Q. apply NV. exact (addressed_unique g _ _ _ A Q). }
    assert (PUTS : forall d, cut es [EPut d] -> Forall silent es /\ forall id, Forall (fun e => ~ concerns id e) es).
    { intros d [rest Q]. split.
      - assert (K : Forall silent [EPut d]) by (repeat constructor). rewrite Q in K. apply Forall_app in K. apply K.
      - intros id. assert (K : Forall (fun e => ~ concerns id e) [EPut d]) by (repeat constructor; cbn; auto). rewrite Q in K. apply Forall_app in K. apply K. }
    assert (NEWCASE : forall rt, rt = RT_NEW /\ addressed g VNew (i_name x) \/ rt = RT_REVOKE /\ addressed g VRevoke (i_name x) ->
       (forall id, ~ names_request g id x) ->
       on_new E g (fun r => match s_add ops (ca_store s) r with Some _ => true | None => false end) (ca_idkey s) i rt x = (full, o) ->
       ca_inv (apply_effs ops es s) /\ forall id, mid E g nrm id ev es (ca_get s id) (ca_get (apply_effs ops es s) id)).
    { intros rt RT NN Q. apply on_new_cases in Q; [|tauto]. destruct Q as [(peer & c & AD & AO & -> & ->)|[(code & info & -> & -> & _ & _)|(-> & -> & _)]].
      - set (id0 := request_id_of E (ca_idkey s) (c_name c)) in *. set (r := created E g i rt id0 peer c) in *.
        apply cut_cons in C as [->|(tail & -> & C)]; [apply QUIET; auto|].
        destruct INV as [I G].
        destruct (s_get ops (ca_store s) (rq_id r)) as [r'|] eqn:GR.
        { rewrite (sl_dup E ops inv nrm SL (ca_store s) r I) in AO; [discriminate|congruence]. }
        destruct (carries_storable E rt x peer c LC (ad_params _ _ _ _ _ _ _ _ AD)) as (W1 & W2 & W3).
        assert (SR : storable E r).
        { unfold storable, r, created. cbn [rq_prefix rq_cert rq_type rq_status rq_ctype rq_cs].
          split; [exact NF|]. split; [exact W1|]. split; [exact W2|]. split; [exact W3|]. split; [destruct RT as [[-> _]|[-> _]]; discriminate|].
          split; [discriminate|exact Logic.I]. }
        destruct (sl_add E ops inv nrm SL (ca_store s) r I SR GR) as (st' & A & I' & GA).
        rewrite (nrm_created r eq_refl) in GA.
        change (apply_effs ops (EAdd r :: tail) s) with (apply_effs ops tail (apply_eff ops (EAdd r) s)).
        assert (AE : apply_eff ops (EAdd r) s = CaState st' (ca_idkey s) (ca_prof s)) by (cbn [apply_eff]; rewrite A; reflexivity).
        rewrite AE. assert (ST : Forall silent tail) by (apply (cut_silent _ _ C); repeat constructor).
        unfold ca_inv at 1. unfold ca_get. rewrite (silent_store tail _ ST). cbn [ca_store]. split; [split; [exact I'|]|].
        + intros id r' Q. rewrite GA in Q. destruct (bytes_eqb id (rq_id r)); [|exact (G id r' Q)]. injection Q as <-.
          split; [left; repeat split|]. split; [reflexivity|]. split; [destruct RT as [[-> _]|[-> _]]; cbn; auto|]. exact (ad_name _ _ _ _ _ _ _ _ AD).
        + intros id. rewrite GA. destruct (bytes_eqb id (rq_id r)) eqn:B.
          * apply bytes_eqb_eq in B. subst id. change (rq_id r) with id0 in *. rewrite GR.
            exact (M_add E g nrm id0 ev i x rt (ca_idkey s) peer c tail EV RT eq_refl AD C).
          * apply bytes_eqb_neq in B. apply M_other.
            -- constructor; [cbn; intros Z; apply B; symmetry; exact Z|]. destruct C as [rest C].
               assert (K : Forall (fun e => ~ concerns id e) [EPut (new_reply E g i x id0); ECallback r]).
               { constructor; [cbn; auto|]. constructor; [cbn; intros Z; apply B; symmetry; exact Z|constructor]. }
               rewrite C in K. apply Forall_app in K. apply K.
            -- intros i' x' Z. rewrite EV in Z. injection Z as <- <-. apply NN.
      - destruct (PUTS _ C). apply QUIET; auto.
      - apply cut_nil in C. subst es. apply QUIET; auto. }
    destruct (on_interest_cases E g S ops s i x) as [[NA Q]|(v & AD & Q)]; rewrite Q in H.
    - injection H as <- <-. apply cut_nil in C. subst es. apply QUIET; auto. intros id N. apply (NA VChallenge). eapply names_addressed, N.
    - destruct v; cbn [handle] in H.
      + assert (NN := NOTCH VInfo ltac:(discriminate) AD). unfold on_discovery, on_get_profile in H.
        destruct (profile_data E g (ca_prof s) (in_version i)) as [d| | |]; try (injection H as <- <-; apply cut_nil in C; subst es; apply QUIET; auto; fail).
        destruct (ca_prof s); injection H as <- <-.
        * cbn [app] in C. destruct (PUTS _ C). apply QUIET; auto.
        * destruct C as [rest C].
          match type of C with ?f = _ => assert (K : Forall silent f /\ forall id, Forall (fun e => ~ concerns id e) f) end.
          { split; [repeat constructor|intros id; repeat constructor; cbn; auto]. }
          rewrite C in K. destruct K as [K1 K2]. apply Forall_app in K1 as [K1 _]. apply QUIET; auto.
          intros id. specialize (K2 id). apply Forall_app in K2. apply K2.
      + assert (NN := NOTCH VProbe ltac:(discriminate) AD). unfold on_probe in H.
        match type of H with match ?b with _ => _ end = _ => destruct b as [[reds sufs]| | |] end;
          try (injection H as <- <-; apply cut_nil in C; subst es; apply QUIET; auto; fail).
        destruct reds, sufs; unfold put_error in H; injection H as <- <-; destruct (PUTS _ C); apply QUIET; auto.
      + apply (NEWCASE RT_NEW); auto. apply (NOTCH VNew); [discriminate|exact AD].
      + destruct (on_challenge_cases E g (s_get ops (ca_store s)) i x) as [(r & F & CO)|[(NF' & NUB & info & FI & Q')|(UB1 & Q')]].
        * rewrite H in CO. destruct F as (id & CI & GR). apply (challenge_id_names g x id AD) in CI.
          destruct INV as [I G]. destruct (sl_get E ops inv nrm SL _ _ _ I GR) as (ID & _). subst id.
          destruct (chal_out_step E g nrm i x r full o es CO C) as [m CS].
          destruct (chal_step_state i x r es m s (conj I G) GR CS) as (X & Y & Z & W).
          split; [exact X|]. intros id. destruct (bytes_eqb id (rq_id r)) eqn:B.
          -- apply bytes_eqb_eq in B. subst id. rewrite Y. change (ca_get s (rq_id r)) with (s_get ops (ca_store s) (rq_id r)). rewrite GR.
             exact (M_chal E g nrm (rq_id r) ev i x r es m EV CI eq_refl CS).
          -- apply bytes_eqb_neq in B. rewrite (Z id B). apply M_other; [exact (W id B)|]. intros i' x' Q'. rewrite EV in Q'.
             injection Q' as <- <-. intros N. apply B. exact (names_unique _ _ _ N CI).
        * rewrite Q' in H. injection H as <- <-. destruct (PUTS _ C) as [P1 P2]. unfold ca_inv, ca_get. rewrite (silent_store es s P1).
          split; [exact INV|]. intros id. destruct (challenge_id g (i_name x)) as [id0| | |] eqn:CI; try contradiction.
          -- pose proof CI as CN. apply (challenge_id_names g x id0 AD) in CN. destruct (bytes_eqb id id0) eqn:B.
             ++ apply bytes_eqb_eq in B. subst id0. destruct (s_get ops (ca_store s) id) as [r|] eqn:GR.
                ** exfalso. apply (NF' r). exists id. auto.
                ** exact (M_absent E g nrm id ev i x es info (short_fits _ FI) EV CN C).
             ++ apply bytes_eqb_neq in B. apply M_other; [apply P2|]. intros i' x' Z. rewrite EV in Z. injection Z as <- <-.
                intros N. apply B. exact (names_unique _ _ _ N CN).
          -- apply M_other; [apply P2|]. intros i' x' Z. rewrite EV in Z. injection Z as <- <-. intros N.
             apply (challenge_id_names g x id AD) in N. congruence.
          -- exfalso. unfold challenge_id in CI. destruct (nth_error (i_name x) _); [destruct (_ =? 8)|]; discriminate.
        * rewrite Q' in H. injection H as <- <-. contradiction.
      + apply (NEWCASE RT_REVOKE); auto. apply (NOTCH VRevoke); [discriminate|exact AD].
  Qed.

  Lemma restart_state : forall s key, ca_inv s -> ca_inv (restart ops key s) /\
    ((forall id, ca_get (restart ops key s) id = ca_get s id) \/ (forall id, ca_get (restart ops key s) id = None)).
  Proof using SL.
    intros s key [I G]. destruct (sl_restart E ops inv nrm SL (ca_store s) I) as [I' [K|K]]; unfold ca_inv, ca_get, restart; cbn [ca_store].
    - split; [split; [exact I'|intros id r; rewrite K; apply G]|]. left. exact K.
    - split; [split; [exact I'|intros id r; rewrite K; discriminate]|]. right. exact K.
  Qed.

  Lemma step_ok : forall s ev s' es, ca_inv s -> step E g ops s ev = Some (s', es) ->
    ca_inv s' /\ forall id, id_step E g nrm id ev es (ca_get s id) (ca_get s' id).
  Proof using SL LC NF.
    intros s ev s' es INV H. destruct ev as [i x|i x n key|key|i]; cbn [step] in H.
    - destruct (on_interest E g ops s i x) as [full o] eqn:O.
      assert (Q : o <> UB /\ (apply_effs ops full s, full) = (s', es)) by (destruct o; try discriminate; (split; [discriminate|]); injection H as <- <-; reflexivity).
      destruct Q as [NU Q]. injection Q as <- <-.
      destruct (interest_step s (EvInterest i x) i x full full o INV eq_refl O NU (cut_refl _)) as [A B].
      split; [exact A|]. intros id. eapply IS; [apply B|auto].
    - destruct (on_interest E g ops s i x) as [full o] eqn:O.
      assert (Q : o <> UB /\ (restart ops key (apply_effs ops (firstn n full) s), firstn n full) = (s', es)) by (destruct o; try discriminate; (split; [discriminate|]); injection H as <- <-; reflexivity).
      destruct Q as [NU Q]. injection Q as <- <-.
      assert (C : cut (firstn n full) full) by (exists (skipn n full); symmetry; apply firstn_skipn).
      destruct (interest_step s (EvCrash i x n key) i x _ full o INV eq_refl O NU C) as [A B].
      destruct (restart_state _ key A) as [A' K]. split; [exact A'|]. intros id. eapply IS; [apply B|].
      destruct K as [K|K]; rewrite K; [auto|right; cbn; auto].
    - injection H as <- <-. destruct (restart_state s key INV) as [A K]. split; [exact A|]. intros id. eapply IS; [apply M_other; [constructor|intros i x Q; discriminate]|].
      destruct K as [K|K]; rewrite K; [auto|right; cbn; auto].
    - assert (Q : Forall silent es /\ (forall id, Forall (fun e => ~ concerns id e) es) /\ s' = apply_effs ops es s).
      { destruct (on_get_profile E g (ca_prof s) i) as [es0 o] eqn:O. unfold on_get_profile in O.
        destruct (profile_data E g (ca_prof s) (in_version i)) as [d| | |]; injection O as <- <-; try discriminate; injection H as <- <-;
          try destruct (ca_prof s); (split; [repeat constructor|]); (split; [intros id; repeat constructor; cbn; auto|]); reflexivity. }
      destruct Q as (A & B & ->). unfold ca_inv, ca_get. rewrite (silent_store es s A). split; [exact INV|]. intros id.
      eapply IS; [apply M_other; [apply B|intros i' x Q; discriminate]|auto].
  Qed.

  Lemma run_path : forall evs s s' h, ca_inv s -> run E g ops s evs = Some (s', h) ->
    ca_inv s' /\ forall id, path E g nrm id (ca_get s id) h (ca_get s' id).
  Proof using SL LC NF.
    induction evs as [|ev evs IH]; intros s s' h INV H; cbn [run] in H.
    - injection H as <- <-. split; [exact INV|]. intros id. constructor.
    - destruct (step E g ops s ev) as [[s1 es]|] eqn:ST; [|discriminate]. destruct (run E g ops s1 evs) as [[s2 h2]|] eqn:R; [|discriminate].
      injection H as <- <-. destruct (step_ok s ev s1 es INV ST) as [I1 P1]. destruct (IH s1 s2 h2 I1 R) as [I2 P2].
      split; [exact I2|]. intros id. econstructor; [apply P1|apply P2].
  Qed.

  Lemma init_inv : forall key, ca_inv (ca_init ops key) /\ forall id, ca_get (ca_init ops key) id = None.
  Proof using SL.
    intros key. unfold ca_inv, ca_get, ca_init. cbn [ca_store]. split.
    - split; [apply (sl_empty_inv E ops inv nrm SL)|]. intros id r H. rewrite (sl_empty E ops inv nrm SL) in H. discriminate.
    - apply (sl_empty E ops inv nrm SL).
  Qed.
End Store.

(** ** Reachable states *)
Lemma back_end_laws : forall E S (ops : store_ops S), back_end E S ops -> codec_laws E -> exists inv nrm, store_laws E ops inv nrm.
Proof. intros E S ops [] L; do 2 eexists; [apply mem_laws|apply db_laws, L]. Qed.
Lemma ca_at_inv : forall E g S (ops : store_ops S) s, ca_at E g ops s ->
  exists inv nrm, store_laws E ops inv nrm /\ ca_inv g ops inv s.
Proof.
  intros E g S ops s [LC NF B (key & evs & h & R)]. destruct (back_end_laws E S ops B LC) as (inv & nrm & SL).
  exists inv, nrm. split; [exact SL|]. destruct (init_inv E g ops inv nrm SL key) as [I _].
  exact (proj1 (run_path E g ops inv nrm SL LC NF evs _ _ _ I R)).
Qed.
Lemma pending_good : forall E g S (ops : store_ops S) s id r, ca_at E g ops s -> pending ops s id = Some r ->
  rq_id r = id /\ storable E r /\ good g r.
Proof.
  intros E g S ops s id r A H. destruct (ca_at_inv E g S ops s A) as (inv & nrm & SL & I & G).
  destruct (sl_get E ops inv nrm SL _ _ _ I H) as (X & Y & _). split; [exact X|]. split; [exact Y|]. exact (G id r H).
Qed.
Lemma ca_at_step : forall E g S (ops : store_ops S) s ev s' es, ca_at E g ops s -> step E g ops s ev = Some (s', es) -> ca_at E g ops s'.
Proof.
  intros E g S ops s ev s' es [LC NF B (key & evs & h & R)] H. constructor; try assumption.
  exists key, (evs ++ [ev]), (h ++ [(ev, es)]). revert R. generalize (ca_init ops key). revert h.
  induction evs as [|e evs IH]; intros h s0 R; cbn [run app] in *.
  - injection R as <- <-. rewrite H. reflexivity.
  - destruct (step E g ops s0 e) as [[s1 es1]|]; [|discriminate]. destruct (run E g ops s1 evs) as [[s2 h2]|] eqn:R2; [|discriminate].
    injection R as <- <-. rewrite (IH h2 s1 R2). reflexivity.
Qed.
