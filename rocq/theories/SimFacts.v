(** The two storages under the CA: same behaviour as long as the process runs and clocks are whole microseconds. *)
From Verif Require Import TraceProps.
From Verif Require Export Spec_Trace.
Local Open Scope N_scope.

(** Requests that differ at most in the remaining time kept with the challenge state (an int column). *)
Definition with_rtime (t : Z) (r : request) : request :=
  match rq_cs r with
  | None => r
  | Some cs => set_cs (Some (CState (cs_status cs) (cs_time cs) (cs_tries cs) t (cs_secrets cs))) r
  end.
Definition near (r1 r2 : request) : Prop := exists t, r2 = with_rtime t r1.
Inductive near_opt : option request -> option request -> Prop :=
| near_none : near_opt None None
| near_some : forall r1 r2, near r1 r2 -> near_opt (Some r1) (Some r2).

Lemma near_refl : forall r, near r r.
Proof. intros r. destruct (rq_cs r) as [cs|] eqn:C; [exists (cs_rtime cs)|exists 0%Z]; unfold with_rtime; rewrite C; [|reflexivity]. destruct r, cs. cbn in *. rewrite C. reflexivity. Qed.
Lemma whole_trunc : forall t, (t mod 1000 = 0)%Z -> trunc_us t = t.
Proof.
  intros t H. unfold trunc_us. pose proof (Z.div_mod t 1000 ltac:(lia)) as D. rewrite H, Z.add_0_r in D. rewrite D. rewrite (Z.mul_comm 1000), Z.quot_mul by lia. lia.
Qed.
Lemma near_stored : forall r, (forall cs, rq_cs r = Some cs -> (cs_time cs mod 1000 = 0)%Z) -> near r (db_stored r).
Proof.
  intros r H. unfold db_stored. destruct (rq_cs r) as [cs|] eqn:C.
  - exists (i32_of_Z (cs_rtime cs)). unfold with_rtime. rewrite C, (whole_trunc _ (H cs eq_refl)). destruct r. reflexivity.
  - exists 0%Z. unfold with_rtime. rewrite C. destruct r. cbn in *. rewrite C. reflexivity.
Qed.

(** ** The handlers do not read the remaining time *)
Lemma near_fields : forall t r, rq_cert (with_rtime t r) = rq_cert r /\ rq_key (with_rtime t r) = rq_key r /\ rq_id (with_rtime t r) = rq_id r /\ rq_div (with_rtime t r) = rq_div r /\
  rq_eiv (with_rtime t r) = rq_eiv r /\ rq_status (with_rtime t r) = rq_status r /\ rq_prefix (with_rtime t r) = rq_prefix r.
Proof. intros t r. unfold with_rtime. destruct (rq_cs r); cbn; auto 10. Qed.
Lemma set_div_near : forall t r dv, set_div dv (with_rtime t r) = with_rtime t (set_div dv r).
Proof. intros t r dv. unfold with_rtime. change (rq_cs (set_div dv r)) with (rq_cs r). destruct (rq_cs r); reflexivity. Qed.
Lemma set_cs_near : forall t r o ty st, set_cs o (set_ctype ty (set_status st (with_rtime t r))) = set_cs o (set_ctype ty (set_status st r)).
Proof. intros t r o ty st. unfold with_rtime. destruct (rq_cs r); reflexivity. Qed.
Definition same_res (h1 h2 : hres) : Prop := h_out h1 = h_out h2 /\ h_email h1 = h_email h2 /\ ((exists v, h_out h1 = Ok v) -> h_req h1 = h_req h2).
Lemma same_new : forall c t r st s n rt em t', same_res (ret_new c t r st s n rt em) (ret_new c t (with_rtime t' r) st s n rt em).
Proof. intros. unfold ret_new. rewrite set_cs_near. split; [reflexivity|]. split; reflexivity. Qed.
Lemma same_error : forall r c i em t', same_res (ret_error r c i em) (ret_error (with_rtime t' r) c i em).
Proof. intros. unfold ret_error. rewrite set_cs_near. split; [reflexivity|]. split; reflexivity. Qed.
Lemma same_success : forall c r em t', same_res (ret_success c r em) (ret_success c (with_rtime t' r) em).
Proof. intros. unfold ret_success. rewrite set_cs_near. split; [reflexivity|]. split; reflexivity. Qed.
Lemma same_exn : forall r em t', same_res (ret_exn r em) (ret_exn (with_rtime t' r) em).
Proof. intros. split; [reflexivity|]. split; [reflexivity|]. intros (v & Q). discriminate. Qed.
Lemma same_ub : forall r t', same_res (ret_ub r) (ret_ub (with_rtime t' r)).
Proof. intros. split; [reflexivity|]. split; [reflexivity|]. intros (v & Q). discriminate. Qed.
Lemma same_hang : forall r t', same_res (ret_hang r) (ret_hang (with_rtime t' r)).
Proof. intros. split; [reflexivity|]. split; [reflexivity|]. intros (v & Q). discriminate. Qed.
Ltac same := first [apply same_new|apply same_error|apply same_success|apply same_exn|apply same_ub|apply same_hang].
Lemma check_near : forall c life nt now t2 params r t, same_res (check_code c life nt now t2 params r) (check_code c life nt now t2 params (with_rtime t r)).
Proof.
  intros c life nt now t2 params r t. unfold check_code.
  assert (Q : rq_cs (with_rtime t r) = match rq_cs r with None => None | Some cs => Some (CState (cs_status cs) (cs_time cs) (cs_tries cs) t (cs_secrets cs)) end).
  { unfold with_rtime. destruct (rq_cs r) eqn:C; [reflexivity|exact C]. }
  rewrite Q. destruct (rq_cs r) as [cs|]; cbn [cs_status cs_time cs_secrets cs_tries]; [|same].
  destruct (bytes_eqb (cs_status cs) NEED_CODE || bytes_eqb (cs_status cs) WRONG_CODE); [|same].
  destruct (get T_ParameterValue params) as [given|]; [|same]. destruct (sec life <=? now - cs_time cs)%Z; [same|].
  destruct (sec_get K_CODE (cs_secrets cs)) as [code|]; [|same]. destruct (bytes_eqb (t_val given) code); [same|]. destruct (1 <? cs_tries cs); same.
Qed.
Lemma challenge_near : forall E cfg i ty params r t, match handle_challenge E cfg i ty params r, handle_challenge E cfg i ty params (with_rtime t r) with
  | Some h1, Some h2 => same_res h1 h2 | None, None => True | _, _ => False end.
Proof.
  intros E cfg i ty params r t. destruct (near_fields t r) as (Q1 & _ & _ & _ & _ & Q6 & Q7).
  assert (Q : rq_cs (with_rtime t r) = match rq_cs r with None => None | Some cs => Some (CState (cs_status cs) (cs_time cs) (cs_tries cs) t (cs_secrets cs)) end).
  { unfold with_rtime. destruct (rq_cs r) eqn:C; [reflexivity|exact C]. }
  unfold handle_challenge. destruct (bytes_eqb ty CH_PIN); [|destruct (bytes_eqb ty CH_EMAIL); [|destruct (bytes_eqb ty CH_POSSESSION); [|exact I]]].
  - unfold handle_pin. rewrite Q6. destruct (rq_status r =? ST_BEFORE); [|apply check_near]. destruct (gen_code (in_words i)); same.
  - unfold handle_email. rewrite Q6, Q1. destruct (rq_status r =? ST_BEFORE); [|apply check_near]. destruct (get T_ParameterValue params); [|same].
    destruct (get_neg 1 (identity_of (c_name (rq_cert r)))); [|same]. destruct (gen_code (in_words i)); try same. destruct (in_script_ok i); [|same].
    unfold email_command. rewrite Q1, Q7. same.
  - unfold handle_possession. rewrite Q6, Q. destruct (cc_anchors cfg); try same. destruct params as [|p0 params]; [same|].
    destruct (poss_loop E (p0 :: params) None []) as [[cred proof]|]; [|same]. destruct (rq_status r =? ST_BEFORE).
    + destruct cred as [c|]; [|same]. destruct (has_content (Some c)), proof; try same. destruct (c_keyloc c); [|same].
      destruct (negb (o_pubkey_ok E (public_key c))); [same|]. destruct (existsb _ _); same.
    + destruct (rq_cs r) as [cs|]; cbn [cs_status cs_secrets]; [|same]. destruct (bytes_eqb (cs_status cs) NEED_PROOF); [|same].
      destruct (has_content cred); [same|]. destruct proof as [|p1 proof]; [same|].
      destruct (from_hex _); [|same]. destruct (block_from_value _); [|same]. destruct (cert_decode E _) as [c|]; [|same]. destruct (from_hex _); [|same].
      destruct (negb (o_pubkey_ok E (public_key c))); [same|]. destruct (o_verify E _ _ _); same.
Qed.
Lemma on_challenge_near : forall E g get1 get2 i x, (forall id, near_opt (get1 id) (get2 id)) -> on_challenge E g get1 i x = on_challenge E g get2 i x.
Proof.
  intros E g get1 get2 i x H. unfold on_challenge. destruct (challenge_id g (i_name x)) as [id| | |]; try reflexivity.
  destruct (H id) as [|r1 r2 (t & ->)]; [reflexivity|]. destruct (near_fields t r1) as (Q1 & Q2 & Q3 & Q4 & Q5 & _). rewrite Q1, Q2, Q3, Q4, Q5.
  destruct (negb (verify_interest E x (rq_cert r1))); [reflexivity|]. destruct (decode_aes _ _ _ _ _ _) as [o iv]. destruct o as [[|b pt]| | |]; try reflexivity.
  destruct (parse (b :: pt)) as [params|]; [|reflexivity]. destruct (get T_SelectedChallenge params) as [ct|]; [|reflexivity].
  rewrite set_div_near. pose proof (challenge_near E (cf_chal g) i (t_val ct) params (set_div iv r1) t) as HC.
  destruct (handle_challenge E (cf_chal g) i (t_val ct) params (set_div iv r1)) as [h1|], (handle_challenge E (cf_chal g) i (t_val ct) params (with_rtime t (set_div iv r1))) as [h2|]; try contradiction; [|reflexivity].
  destruct HC as (P1 & P2 & P3). rewrite <- P1, <- P2. destruct (h_out h1) as [[code info]| | |]; try reflexivity. rewrite <- P3 by eauto. reflexivity.
Qed.

(** ** The stored requests after an event are determined by its effects *)
Fixpoint result (nrm : request -> request) (id : bytes) (es : list eff) (m : option request) : option request :=
  match es with
  | [] => m
  | e :: es' => result nrm id es'
      match e with
      | EAdd r => if bytes_eqb (rq_id r) id then Some r else m
      | EUpdate r => if bytes_eqb (rq_id r) id then Some (nrm r) else m
      | EDelete id' => if bytes_eqb id' id then None else m
      | _ => m
      end
  end.
Definition plain (e : eff) : Prop := match e with EAdd _ | EUpdate _ | EDelete _ => False | _ => True end.
Lemma result_plain : forall nrm id es m, Forall plain es -> result nrm id es m = m.
Proof. intros nrm id es. induction es as [|e es IH]; intros m F; [reflexivity|]. inversion F; subst. cbn [result]. destruct e; try contradiction; apply IH; assumption. Qed.
Lemma result_app : forall nrm id a b m, result nrm id (a ++ b) m = result nrm id b (result nrm id a m).
Proof. intros nrm id a. induction a as [|e a IH]; intros b m; [reflexivity|]. cbn [app result]. apply IH. Qed.
Lemma cut_plain : forall tail full, cut tail full -> Forall plain full -> Forall plain tail.
Proof. intros tail full [rest ->] F. apply Forall_app in F. apply F. Qed.
Lemma email_plain : forall es, Forall is_email es -> Forall plain es.
Proof. intros es H. induction H as [|e es E H IH]; constructor; [destruct e; try contradiction; exact I|exact IH]. Qed.
Lemma chal_result : forall E g nrm i x r es m, chal_step E g nrm i x r es m -> live r -> m = result nrm (rq_id r) es (Some r).
Proof.
  intros E g nrm i x r es m H LV.
  assert (T2 : forall tail d r3, cut tail [EPut d; ECallback r3] -> Forall plain tail) by (intros tail d r3 C; apply (cut_plain _ _ C); repeat constructor).
  destruct H as [es1 F|info FI NS|code info tail SB PE C|params ty dv cs em payload r3 tail SB OP K MV CE C|params ty dv cs c PF RT IC|params ty dv cs c tail PF RT IC T|params ty dv cs tail PF RT T].
  - rewrite result_plain; [reflexivity|apply email_plain, F].
  - reflexivity.
  - cbn [result]. rewrite bytes_eqb_refl, result_plain; [reflexivity|]. apply (cut_plain _ _ C). repeat constructor.
  - rewrite result_app, (result_plain nrm _ (email_effs em)) by (apply email_plain, emails). cbn [result].
    destruct (moved_live E g i x r params ty dv cs em payload r3 LV OP K MV CE) as (iv2 & -> & _). change (rq_id (set_eiv iv2 (moved dv ty cs r))) with (rq_id r). rewrite bytes_eqb_refl, result_plain; [reflexivity|exact (T2 _ _ _ C)].
  - reflexivity.
  - cbn [result]. rewrite bytes_eqb_refl, result_plain; [reflexivity|]. destruct T as [->|(p & r3 & _ & C)]; [constructor|exact (T2 _ _ _ C)].
  - cbn [result]. rewrite bytes_eqb_refl, result_plain; [reflexivity|]. destruct T as [->|(p & r3 & _ & C)]; [constructor|exact (T2 _ _ _ C)].
Qed.
Lemma mid_result : forall E g nrm id ev es m m1, mid E g nrm id ev es m m1 -> (forall r, m = Some r -> live r) -> m1 = result nrm id es m.
Proof.
  intros E g nrm id ev es m m1 H LV. destruct H as [es m F NN|i0 x0 es info FI EV0 N0 C|i0 x0 rt idkey peer c0 tail EV0 RT ID0 ADM CT|i0 x0 r0 es m EV0 N0 IDR CS].
  - clear NN LV. induction F as [|e es C F IH]; [reflexivity|]. cbn [result]. destruct e; try exact IH; cbn [concerns] in C.
    + destruct (bytes_eqb (rq_id r) id) eqn:B; [apply bytes_eqb_eq in B; contradiction|exact IH].
    + destruct (bytes_eqb (rq_id r) id) eqn:B; [apply bytes_eqb_eq in B; contradiction|exact IH].
    + destruct (bytes_eqb id0 id) eqn:B; [apply bytes_eqb_eq in B; contradiction|exact IH].
  - rewrite result_plain; [reflexivity|]. apply (cut_plain _ _ C). repeat constructor.
  - cbn [result]. change (rq_id (created E g i0 rt id peer c0)) with id. rewrite bytes_eqb_refl, result_plain; [reflexivity|]. apply (cut_plain _ _ CT). repeat constructor.
  - rewrite <- IDR. apply (chal_result _ _ _ _ _ _ _ _ CS). apply LV. reflexivity.
Qed.
Lemma mid_update : forall E g nrm id ev es m m1 r3 cs, mid E g nrm id ev es m m1 -> (forall r, m = Some r -> live r) -> In (EUpdate r3) es -> rq_id r3 = id -> rq_cs r3 = Some cs ->
  exists i x, ev_interest ev = Some (i, x) /\ cs_time cs = in_t2 i.
Proof.
  intros E g nrm id ev es m m1 r3 cs H LV IN ID C3.
  assert (TT : forall tail full, cut tail full -> Forall plain full -> In (EUpdate r3) tail -> False).
  { intros tail full C F Q. pose proof (cut_plain _ _ C F) as F'. rewrite Forall_forall in F'. destruct (F' _ Q). }
  destruct H as [es m F NN|i0 x0 es info FI EV0 N0 C|i0 x0 rt idkey peer c0 tail EV0 RT ID0 ADM CT|i0 x0 r0 es m EV0 N0 IDR CS].
  - rewrite Forall_forall in F. destruct (F _ IN ID).
  - exfalso. apply (TT _ _ C); [repeat constructor|exact IN].
  - destruct IN as [Q|IN]; [discriminate|]. exfalso. apply (TT _ _ CT); [repeat constructor|exact IN].
  - exists i0, x0. split; [exact EV0|]. specialize (LV r0 eq_refl).
    destruct CS as [es1 F|info FI NS|code info tail SB PE C|params ty dv cs0 em payload r4 tail SB OP K MV CE C|params ty dv cs0 c PF RT IC|params ty dv cs0 c tail PF RT IC T|params ty dv cs0 tail PF RT T].
    + rewrite Forall_forall in F. destruct (F _ IN).
    + destruct IN as [Q|[]]; discriminate.
    + destruct IN as [Q|IN]; [discriminate|]. exfalso. apply (TT _ _ C); [repeat constructor|exact IN].
    + assert (QQ : r4 = r3).
      { apply in_app_or in IN as [Q|[Q|Q]]; [|congruence|exfalso; apply (TT _ _ C); [repeat constructor|exact Q]]. pose proof (emails em) as F. rewrite Forall_forall in F. destruct (F _ Q). }
      subst r4. destruct (moved_live E g i0 x0 r0 params ty dv cs0 em payload r3 LV OP K MV CE) as (iv2 & -> & _). cbn in C3. injection C3 as <-.
      destruct MV as [[_ STT]|(_ & _ & cs1 & _ & (given & code & life & _ & _ & _ & _ & _ & ->))]; [destruct STT; reflexivity|reflexivity].
    + destruct IN as [Q|[]]; discriminate.
    + destruct IN as [Q|[Q|IN]]; try discriminate. destruct T as [->|(p & r4 & _ & C)]; [destruct IN|exfalso; apply (TT _ _ C); [repeat constructor|exact IN]].
    + destruct IN as [Q|IN]; try discriminate. destruct T as [->|(p & r4 & _ & C)]; [destruct IN|exfalso; apply (TT _ _ C); [repeat constructor|exact IN]].
Qed.
Lemma result_near : forall id es m1 m2, near_opt m1 m2 -> (forall r, In (EUpdate r) es -> rq_id r = id -> near r (db_stored r)) ->
  near_opt (result (fun r => r) id es m1) (result db_stored id es m2).
Proof.
  intros id es. induction es as [|e es IH]; intros m1 m2 N U; [exact N|]. cbn [result]. apply IH; [|intros r IN; apply U; right; exact IN].
  destruct e; try exact N.
  - destruct (bytes_eqb (rq_id r) id); [constructor; apply near_refl|exact N].
  - destruct (bytes_eqb (rq_id r) id) eqn:B; [constructor; apply U; [left; reflexivity|apply bytes_eqb_eq, B]|exact N].
  - destruct (bytes_eqb id0 id); [constructor|exact N].
Qed.

(** ** One event, both storages *)
Section Sim.
  Context (E : env) (g : ca_cfg).
  Definition sim (s1 : ca_state mem) (s2 : ca_state db) : Prop :=
    ca_idkey s1 = ca_idkey s2 /\ ca_prof s1 = ca_prof s2 /\ forall id, near_opt (pending mem_ops s1 id) (pending (db_ops E) s2 id).
  Lemma on_new_ext : forall a1 a2 k i rt x, (forall r, a1 r = a2 r) -> on_new E g a1 k i rt x = on_new E g a2 k i rt x.
  Proof.
    intros a1 a2 k i rt x H. unfold on_new. destruct (cert_is_valid (in_t1 i) (cf_cert g)) as [[|]| | |]; try reflexivity. destruct (req_decode E rt (params_of x)) as [[peer c]| | |]; try reflexivity.
    destruct peer; [reflexivity|]. destruct (derive_secret _ _ _); try reflexivity. destruct (negb (name_allowed _ _)); [reflexivity|]. destruct (type_checks _ _ _ _ _ _) as [[[]|]| | |]; try reflexivity.
    cbv zeta. destruct (hkdf _ _ _ _); try reflexivity. rewrite H. reflexivity.
  Qed.
  Lemma interest_sim : forall s1 s2 i x, ca_at E g mem_ops s1 -> ca_at E g (db_ops E) s2 -> sim s1 s2 -> on_interest E g mem_ops s1 i x = on_interest E g (db_ops E) s2 i x.
  Proof.
    intros s1 s2 i x A1 A2 (K & P & N).
    assert (AD : forall r, match s_add mem_ops (ca_store s1) r with Some _ => true | None => false end = match s_add (db_ops E) (ca_store s2) r with Some _ => true | None => false end).
    { intros r. specialize (N (rq_id r)). unfold pending in N. cbn [mem_ops db_ops s_add s_get] in *. unfold mem_add, db_add, mem_get in *.
      destruct (mem_find (rq_id r) (ca_store s1)) as [r1|]; inversion N; subst.
      - destruct (db_row (ca_store s2) (rq_id r)) eqn:R; [reflexivity|]. unfold db_get in *. rewrite R in *. discriminate.
      - assert (I : db_inv E (ca_store s2)).
        { destruct A2 as [LC NF B (key & evs & h & R)]. destruct (init_inv E g (db_ops E) _ _ (db_laws E LC) key) as [I0 _].
          exact (proj1 (proj1 (run_path E g (db_ops E) _ _ (db_laws E LC) LC NF evs _ _ _ I0 R))). }
        rewrite (db_get_none E (at_codec _ _ _ _ A2) (ca_store s2) (rq_id r) I) by congruence. reflexivity. }
    assert (D : forall v, handle E g mem_ops v s1 i x = handle E g (db_ops E) v s2 i x).
    { intros v. unfold handle. rewrite <- K, <- P. destruct v; try reflexivity.
      - apply on_new_ext, AD.
      - apply on_challenge_near. exact N.
      - apply on_new_ext, AD. }
    destruct (dispatch_cases g (i_name x)) as [Q|(v & Q & _)]; unfold on_interest; rewrite Q; [reflexivity|]. cbn [handle_all]. rewrite (D v).
    destruct (handle E g (db_ops E) v s2 i x) as [es o]. reflexivity.
  Qed.
  Lemma step_result : forall S (ops : store_ops S) inv nrm s ev s' es, store_laws E ops inv nrm -> codec_laws E -> name_fits (p_prefix (cfp g)) -> ca_inv g ops inv s ->
    step E g ops s ev = Some (s', es) -> ~ restarts ev -> forall id, exists m1, mid E g nrm id ev es (pending ops s id) m1 /\ pending ops s' id = m1.
  Proof.
    intros S ops inv nrm s ev s' es SL LC NF IV ST NR id. destruct (proj2 (step_ok E g ops inv nrm SL LC NF s ev s' es IV ST) id) as [m1 M [Z|[Z _]]]; [|contradiction]. exists m1. auto.
  Qed.
  Lemma idkey_effs : forall S (ops : store_ops S) es s, ca_idkey (apply_effs ops es s) = ca_idkey s.
  Proof.
    intros S ops es. induction es as [|e es IH]; intros s; [reflexivity|]. cbn [apply_effs fold_left] in *. unfold apply_effs in *. cbn [fold_left]. rewrite IH.
    destruct e; cbn [apply_eff]; try reflexivity; try (destruct (s_add ops (ca_store s) r); reflexivity); destruct (s_update ops (ca_store s) r); reflexivity.
  Qed.
  Definition prof_eff (es : list eff) (p0 : option data) : option data := fold_left (fun p e => match e with EProfile d => Some d | _ => p end) es p0.
  Lemma prof_effs : forall S (ops : store_ops S) es s, ca_prof (apply_effs ops es s) = prof_eff es (ca_prof s).
  Proof.
    intros S ops es. induction es as [|e es IH]; intros s; [reflexivity|]. unfold apply_effs, prof_eff in *. cbn [fold_left]. rewrite IH. f_equal.
    destruct e; cbn [apply_eff]; try reflexivity; try (destruct (s_add ops (ca_store s) r); reflexivity); destruct (s_update ops (ca_store s) r); reflexivity.
  Qed.
  Lemma step_same : forall s1 s2 ev, ca_at E g mem_ops s1 -> ca_at E g (db_ops E) s2 -> sim s1 s2 -> in_whole_us ev ->
    (step E g mem_ops s1 ev = None /\ step E g (db_ops E) s2 ev = None) \/
    (exists es, step E g mem_ops s1 ev = Some (apply_effs mem_ops es s1, es) /\ step E g (db_ops E) s2 ev = Some (apply_effs (db_ops E) es s2, es)).
  Proof.
    intros s1 s2 ev A1 A2 SM T. destruct ev as [i x|i x n k|k|i]; try contradiction.
    - cbn [step]. rewrite <- (interest_sim s1 s2 i x A1 A2 SM). destruct (on_interest E g mem_ops s1 i x) as [es [v| | |]]; eauto.
    - cbn [step]. destruct SM as (_ & <- & _). destruct (on_get_profile E g (ca_prof s1) i) as [es [v| | |]]; eauto.
  Qed.
  Lemma step_sim : forall s1 s2 ev es s1' s2', ca_at E g mem_ops s1 -> ca_at E g (db_ops E) s2 -> sim s1 s2 -> in_whole_us ev ->
    step E g mem_ops s1 ev = Some (s1', es) -> step E g (db_ops E) s2 ev = Some (s2', es) -> sim s1' s2'.
  Proof.
    intros s1 s2 ev es s1' s2' A1 A2 SM T S1 S2. destruct (step_same s1 s2 ev A1 A2 SM T) as [[Q _]|(es0 & Q1 & Q2)]; [congruence|].
    rewrite S1 in Q1. injection Q1 as -> <-. rewrite S2 in Q2. injection Q2 as ->. destruct SM as (K & P & N).
    split; [rewrite !idkey_effs; exact K|]. split; [rewrite !prof_effs, P; reflexivity|]. intros id.
    assert (NR : ~ restarts ev) by (destruct ev; try contradiction; intros []).
    assert (I1 : ca_inv g mem_ops (mem_inv (storable E)) s1).
    { destruct A1 as [LC NF B (key & evs & h & R)]. destruct (init_inv E g mem_ops _ _ (mem_laws E) key) as [I0 _]. exact (proj1 (run_path E g mem_ops _ _ (mem_laws E) LC NF evs _ _ _ I0 R)). }
    assert (I2 : ca_inv g (db_ops E) (db_inv E) s2).
    { destruct A2 as [LC NF B (key & evs & h & R)]. destruct (init_inv E g (db_ops E) _ _ (db_laws E LC) key) as [I0 _]. exact (proj1 (run_path E g (db_ops E) _ _ (db_laws E LC) LC NF evs _ _ _ I0 R)). }
    destruct A1 as [LC NF _ _].
    destruct (step_result _ mem_ops _ _ s1 ev _ es (mem_laws E) LC NF I1 S1 NR id) as (m1 & M1 & ->).
    destruct (step_result _ (db_ops E) _ _ s2 ev _ es (db_laws E LC) LC NF I2 S2 NR id) as (m2 & M2 & ->).
    assert (L1 : forall r, pending mem_ops s1 id = Some r -> live r) by (intros r Q; apply (proj2 I1 id r Q)).
    assert (L2 : forall r, pending (db_ops E) s2 id = Some r -> live r) by (intros r Q; apply (proj2 I2 id r Q)).
    rewrite (mid_result _ _ _ _ _ _ _ _ M1 L1), (mid_result _ _ _ _ _ _ _ _ M2 L2).
    apply result_near; [apply N|]. intros r3 IN ID. apply near_stored. intros cs C.
    destruct (mid_update _ _ _ _ _ _ _ _ r3 cs M1 L1 IN ID C) as (i & x & EV & ->). destruct ev; try contradiction; cbn in EV; [|discriminate]. injection EV as -> ->. exact T.
  Qed.
  Lemma run_sim : forall evs s1 s2, ca_at E g mem_ops s1 -> ca_at E g (db_ops E) s2 -> sim s1 s2 -> Forall in_whole_us evs ->
    (run E g mem_ops s1 evs = None /\ run E g (db_ops E) s2 evs = None) \/
    (exists s1' s2' h, run E g mem_ops s1 evs = Some (s1', h) /\ run E g (db_ops E) s2 evs = Some (s2', h) /\
      forall i x, on_interest E g mem_ops s1' i x = on_interest E g (db_ops E) s2' i x).
  Proof.
    induction evs as [|ev evs IH]; intros s1 s2 A1 A2 SM T.
    - right. exists s1, s2, []. repeat split. intros i x. apply interest_sim; assumption.
    - inversion T as [|? ? T1 T2]; subst. cbn [run]. destruct (step_same s1 s2 ev A1 A2 SM T1) as [[Q1 Q2]|(es & Q1 & Q2)]; rewrite Q1, Q2; [left; auto|].
      pose proof (ca_at_step E g _ mem_ops _ _ _ _ A1 Q1) as A1'. pose proof (ca_at_step E g _ (db_ops E) _ _ _ _ A2 Q2) as A2'.
      destruct (IH _ _ A1' A2' (step_sim _ _ _ _ _ _ A1 A2 SM T1 Q1 Q2) T2) as [[R1 R2]|(s1' & s2' & h & R1 & R2 & X)]; rewrite R1, R2; [left; auto|].
      right. eauto 10.
  Qed.
End Sim.
Lemma unobservable : forall E g key evs, codec_laws E -> name_fits (p_prefix (cfp g)) -> Forall in_whole_us evs ->
    (run E g mem_ops (ca_init mem_ops key) evs = None /\ run E g (db_ops E) (ca_init (db_ops E) key) evs = None) \/
    (exists s1 s2 h, run E g mem_ops (ca_init mem_ops key) evs = Some (s1, h) /\ run E g (db_ops E) (ca_init (db_ops E) key) evs = Some (s2, h) /\
      forall i x, on_interest E g mem_ops s1 i x = on_interest E g (db_ops E) s2 i x).
Proof.
  intros E g key evs LC NF T. apply run_sim; try assumption.
  - constructor; try assumption; [constructor|exists key, [], []; reflexivity].
  - constructor; try assumption; [constructor|exists key, [], []; reflexivity].
  - split; [reflexivity|]. split; [reflexivity|]. intros id. constructor.
Qed.
