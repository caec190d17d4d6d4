(** Proofs about several CAs of one account and about ndncert-ca-status. *)
From Verif Require Export Spec_Host SimFacts FilesFacts.
From Coq Require Import Lia.
Local Open Scope N_scope.

(** ** One CA on its own file *)
Section File.
  Context (E : env) (g : ca_cfg) (p : bytes).
  Definition view (s : ca_state files) : ca_state db := CaState (ca_store s p) (ca_idkey s) (ca_prof s).
  Lemma put_file_same : forall d f, put_file p d f p = d.
  Proof. intros d f. unfold put_file. rewrite bytes_eqb_refl. reflexivity. Qed.
  Lemma put_file_other : forall d f q, q <> p -> put_file p d f q = f q.
  Proof. intros d f q N. unfold put_file. assert (bytes_eqb q p = false) as -> by (apply bytes_eqb_neq; exact N). reflexivity. Qed.
  Lemma eff_view : forall e s, view (apply_eff (file_ops E p) e s) = apply_eff (db_ops E) e (view s).
  Proof.
    intros e s. destruct e; cbn [apply_eff file_ops db_ops s_add s_update s_delete view ca_store ca_idkey ca_prof]; try reflexivity.
    - destruct (db_add E (ca_store s p) r); cbn [option_map]; [unfold view; cbn; rewrite put_file_same|]; reflexivity.
    - destruct (db_update (ca_store s p) r); cbn [option_map]; [unfold view; cbn; rewrite put_file_same|]; reflexivity.
    - unfold view. cbn. rewrite put_file_same. reflexivity.
  Qed.
  Lemma effs_view : forall es s, view (apply_effs (file_ops E p) es s) = apply_effs (db_ops E) es (view s).
  Proof. unfold apply_effs. induction es as [|e es IH]; intros s; cbn [fold_left]; [reflexivity|]. rewrite IH, eff_view. reflexivity. Qed.
  Lemma eff_other : forall e s q, q <> p -> ca_store (apply_eff (file_ops E p) e s) q = ca_store s q.
  Proof.
    intros e s q N. destruct e; cbn [apply_eff file_ops s_add s_update s_delete ca_store]; try reflexivity.
    - destruct (db_add E (ca_store s p) r); cbn [option_map ca_store]; [apply put_file_other, N|reflexivity].
    - destruct (db_update (ca_store s p) r); cbn [option_map ca_store]; [apply put_file_other, N|reflexivity].
    - apply put_file_other, N.
  Qed.
  Lemma effs_other : forall es s q, q <> p -> ca_store (apply_effs (file_ops E p) es s) q = ca_store s q.
  Proof. unfold apply_effs. induction es as [|e es IH]; intros s q N; cbn [fold_left]; [reflexivity|]. rewrite IH by exact N. apply eff_other, N. Qed.
  Lemma handle_view : forall v s i x, handle E g (file_ops E p) v s i x = handle E g (db_ops E) v (view s) i x.
  Proof.
    intros v s i x. unfold handle. destruct v; try reflexivity; apply on_new_ext; intros r; cbn [file_ops db_ops s_add view ca_store]; destruct (db_add E (ca_store s p) r); reflexivity.
  Qed.
  Lemma handle_all_view : forall vs s i x, handle_all E g (file_ops E p) vs s i x = handle_all E g (db_ops E) vs (view s) i x.
  Proof.
    induction vs as [|v vs IH]; intros s i x; cbn [handle_all]; [reflexivity|]. rewrite handle_view. destruct (handle E g (db_ops E) v (view s) i x) as [es [u| | |]]; try reflexivity.
    rewrite IH, effs_view. reflexivity.
  Qed.
  Lemma step_view : forall s ev, step E g (db_ops E) (view s) ev = option_map (fun se => (view (fst se), snd se)) (step E g (file_ops E p) s ev).
  Proof.
    intros s ev. destruct ev as [i x|i x n k|k|i]; cbn [step]; unfold on_interest; rewrite ?handle_all_view.
    - destruct (handle_all E g (db_ops E) _ (view s) i x) as [es [u| | |]]; cbn [option_map fst snd]; rewrite ?effs_view; reflexivity.
    - destruct (handle_all E g (db_ops E) _ (view s) i x) as [es [u| | |]]; cbn [option_map fst snd]; try reflexivity; unfold restart; cbn [file_ops db_ops s_restart]; unfold view at 2; cbn [ca_store ca_idkey ca_prof];
        rewrite <- effs_view; reflexivity.
    - reflexivity.
    - cbn [view ca_prof]. destruct (on_get_profile E g (ca_prof s) i) as [es [u| | |]]; cbn [option_map fst snd]; rewrite ?effs_view; reflexivity.
  Qed.
  Lemma step_other : forall s ev s' es q, step E g (file_ops E p) s ev = Some (s', es) -> q <> p -> ca_store s' q = ca_store s q.
  Proof.
    intros s ev s' es q H N. destruct ev as [i x|i x n k|k|i]; cbn [step] in H.
    - destruct (on_interest E g (file_ops E p) s i x) as [es0 [u| | |]]; try discriminate; injection H as <- <-; apply effs_other, N.
    - destruct (on_interest E g (file_ops E p) s i x) as [es0 [u| | |]]; try discriminate; injection H as <- <-; unfold restart; cbn [file_ops s_restart ca_store]; apply effs_other, N.
    - injection H as <- <-. reflexivity.
    - destruct (on_get_profile E g (ca_prof s) i) as [es0 [u| | |]]; try discriminate; injection H as <- <-; apply effs_other, N.
  Qed.
End File.

(** ** Several CAs *)
Lemma at_same : forall A k (a : A) f, at_index k a f k = a.
Proof. intros A k a f. unfold at_index. rewrite Nat.eqb_refl. reflexivity. Qed.
Lemma at_other : forall A k j (a : A) f, j <> k -> at_index k a f j = f j.
Proof. intros A k j a f N. unfold at_index. apply Nat.eqb_neq in N. rewrite N. reflexivity. Qed.
Lemma host_steps : forall E gs k evs h h' tr, (forall j, In j (map fst evs) -> j <> k -> ca_file E gs j <> ca_file E gs k) -> host_run E gs h evs = Some (h', tr) ->
  exists htr, steps E (gs k) (db_ops E) (seen_by E gs k h) htr (seen_by E gs k h') /\ map (fun st => (h_ev st, h_effs st)) htr = events_of k tr.
Proof.
  intros E gs k. induction evs as [|[j ev] evs IH]; intros h h' tr AP H; cbn [host_run] in H.
  - injection H as <- <-. exists []. split; [constructor|reflexivity].
  - unfold host_step in H. set (s0 := CaState (ho_files h) (ho_key h j) (ho_prof h j)) in H. destruct (step E (gs j) (file_ops E (ca_file E gs j)) s0 ev) as [[s es]|] eqn:ST; [|discriminate].
    set (h1 := Host _ _ _) in H. destruct (host_run E gs h1 evs) as [[h2 tr2]|] eqn:R; [|discriminate]. injection H as <- <-.
    destruct (IH h1 h2 tr2 (fun j' IN => AP j' (or_intror IN)) R) as (htr & SS & Q). destruct (Nat.eq_dec j k) as [->|N].
    + pose proof (step_view E (gs k) (ca_file E gs k) s0 ev) as SV. rewrite ST in SV. cbn [option_map fst snd] in SV.
      assert (V0 : view (ca_file E gs k) s0 = seen_by E gs k h) by reflexivity.
      assert (V1 : view (ca_file E gs k) s = seen_by E gs k h1) by (unfold view, seen_by, h1; cbn [ho_files ho_key ho_prof]; rewrite !at_same; reflexivity).
      rewrite V0, V1 in SV. exists (HStep (seen_by E gs k h) ev es (seen_by E gs k h1) :: htr). split; [econstructor; [exact SV|exact SS]|].
      unfold events_of. cbn [filter fst snd map h_ev h_effs]. rewrite Nat.eqb_refl. cbn [map fst snd]. f_equal. exact Q.
    + assert (V1 : seen_by E gs k h1 = seen_by E gs k h).
      { unfold seen_by, h1. cbn [ho_files ho_key ho_prof]. rewrite !at_other by congruence. f_equal.
        rewrite (step_other E (gs j) (ca_file E gs j) s0 ev s es _ ST) by (intros Q'; exact (AP j (or_introl eq_refl) N (eq_sym Q'))). reflexivity. }
      rewrite V1 in SS. exists htr. split; [exact SS|]. unfold events_of. cbn [filter fst]. apply Nat.eqb_neq in N. rewrite N. exact Q.
Qed.
Lemma apart : forall E gs keys evs h tr k, codec_laws E -> name_fits (p_prefix (cfp (gs k))) -> (forall j, In j (map fst evs) -> j <> k -> ca_file E gs j <> ca_file E gs k) ->
  host_run E gs (host_init keys) evs = Some (h, tr) ->
  exists htr, ca_history E (gs k) (db_ops E) htr (seen_by E gs k h) /\ map (fun st => (h_ev st, h_effs st)) htr = events_of k tr.
Proof.
  intros E gs keys evs h tr k LC NF AP R. destruct (host_steps E gs k evs _ h tr AP R) as (htr & SS & Q). exists htr. split; [|exact Q].
  constructor; [exact LC|exact NF|constructor|]. exists (keys k). exact SS.
Qed.

(** ** File names *)
Definition flatten (b : byte) : byte := if byte_eqb b x2f then x5f else b.
Lemma flatten_inj : forall a b, ~ In x5f a -> ~ In x5f b -> map flatten a = map flatten b -> a = b.
Proof.
  induction a as [|x a IH]; intros [|y b] NA NB H; try discriminate; [reflexivity|]. cbn [map] in H. injection H as H1 H2.
  f_equal; [|apply IH; [intros Q; apply NA; right; exact Q|intros Q; apply NB; right; exact Q|exact H2]].
  assert (x <> x5f) by (intros ->; apply NA; left; reflexivity). assert (y <> x5f) by (intros ->; apply NB; left; reflexivity).
  unfold flatten in H1. destruct (byte_eqb x x2f) eqn:B1, (byte_eqb y x2f) eqn:B2; try (apply byte_eqb_eq in B1); try (apply byte_eqb_eq in B2); congruence.
Qed.
Lemma file_names : forall E a b, codec_laws E -> wf_name a -> wf_name b -> ~ In x5f (o_to_uri E a) -> ~ In x5f (o_to_uri E b) -> db_file E a = db_file E b -> a = b.
Proof.
  intros E a b LC WA WB NA NB H. unfold db_file in H. apply app_inv_tail in H. apply (flatten_inj _ _ NA NB) in H.
  pose proof (l_uri E LC a WA) as X. rewrite H, (l_uri E LC b WB) in X. congruence.
Qed.

(** ** ndncert-ca-status *)
Lemma shown_trans : forall a b c, shown a b -> shown b c -> shown a c.
Proof. intros a b c (x & y & ->) (u & v & ->). exists (x ++ u), (v ++ y). rewrite <- !app_assoc. reflexivity. Qed.
Lemma history_db_inv : forall E g tr s, ca_history E g (db_ops E) tr s -> db_inv E (ca_store s) /\ forall id r, pending (db_ops E) s id = Some r -> live r.
Proof.
  intros E g tr s H. pose proof (ch_codec _ _ _ _ _ H) as LC. pose proof (ch_prefix _ _ _ _ _ H) as NF. pose proof (history_at _ _ _ _ _ _ H) as A.
  split.
  - destruct A as [_ _ B (key & evs & h & R)]. destruct (init_inv E g (db_ops E) _ _ (db_laws E LC) key) as [I0 _].
    exact (proj1 (proj1 (run_path E g (db_ops E) _ _ (db_laws E LC) LC NF evs _ _ _ I0 R))).
  - intros id r P. destruct (pending_good E g _ (db_ops E) s id r A P) as (_ & _ & G). apply G.
Qed.
Lemma entry_describes : forall E iso show r, live r -> (forall cs, rq_cs r = Some cs -> secret_texts (cs_secrets cs)) -> describes E r (stars ++ print_request E iso show r ++ stars).
Proof.
  intros E iso show r LV TX. unfold describes, print_request, stars, line, NL. eexists. split.
  - rewrite <- !app_assoc. do 6 apply f_equal. do 3 apply f_equal.
    assert (Q : status_text (rq_status r) = if rq_status r =? ST_BEFORE then bs "Before challenge" else bs "In challenge") by (destruct LV as [[-> _]|[-> _]]; reflexivity).
    rewrite Q. reflexivity.
  - intros cs C. rewrite C. rewrite <- !app_assoc.
    split; [exists []; eexists; cbn [app]; rewrite <- !app_assoc; reflexivity|].
    split; [exists (bs "Challenge Status: " ++ cs_status cs ++ NL); eexists; unfold NL; rewrite <- !app_assoc; reflexivity|].
    split; [exists (bs "Challenge Status: " ++ cs_status cs ++ NL ++ bs "Challenge remaining tries:" ++ to_string_N (cs_tries cs) ++ bs " times" ++ NL); eexists; unfold NL; rewrite <- !app_assoc; reflexivity|].
    exists (secrets_text (cs_secrets cs)). split.
    + exists (bs "Challenge Status: " ++ cs_status cs ++ NL ++ bs "Challenge remaining tries:" ++ to_string_N (cs_tries cs) ++ bs " times" ++ NL ++ bs "Challenge remaining time: " ++ to_string_Z (cs_rtime cs) ++ bs " seconds" ++ NL ++ bs "Challenge last update: " ++ iso (cs_time cs) ++ NL). eexists.
      unfold NL; rewrite <- !app_assoc; reflexivity.
    + specialize (TX cs C). destruct (json_back _ (secrets_json (cs_secrets cs))) as (text & W & R & _). unfold secrets_text. rewrite W. apply R, secrets_utf8, TX.
Qed.
Lemma status_list : forall E iso show g tr s f arg, ca_history E g (db_ops E) tr s -> f (db_file E (p_prefix (cfp g))) = ca_store s -> o_of_uri E arg = Some (p_prefix (cfp g)) ->
  exists rs entries, ca_status E iso show f arg = Ok (line (bs "The pending requests are :") ++ concat entries) /\ Forall2 (describes E) rs entries /\
    NoDup (map rq_id rs) /\ forall r, In r rs <-> pending (db_ops E) s (rq_id r) = Some r.
Proof.
  intros E iso show g tr s f arg H FS AR. destruct (history_db_inv E g tr s H) as [I LV]. destruct (db_list_ok E (ch_codec _ _ _ _ _ H) (ca_store s) I) as (l & L & ND & EN).
  exists l, (map (fun r => stars ++ print_request E iso show r ++ stars) l). split; [|split; [|split; [exact ND|]]].
  - unfold ca_status. rewrite AR. cbn [of_opt bind]. rewrite FS, L. cbn [of_opt bind]. rewrite flat_map_concat_map. unfold line, NL. rewrite <- app_assoc. reflexivity.
  - assert (G : forall r, In r l -> describes E r (stars ++ print_request E iso show r ++ stars)).
    { intros r IN. apply EN in IN as [P _]. apply entry_describes; [exact (LV _ r P)|]. intros cs C.
      destruct (pending_good E g _ (db_ops E) s _ r (history_at _ _ _ _ _ _ H) P) as (_ & (_ & _ & _ & _ & _ & _ & ST) & _). rewrite C in ST. destruct (rq_ctype r); [destruct ST|]. apply ST. }
    clear -G. induction l as [|r l IH]; cbn [map]; constructor; [apply G; left; reflexivity|apply IH; intros r' IN; apply G; right; exact IN].
  - intros r. rewrite EN. cbn. unfold pending. cbn [db_ops s_get]. tauto.
Qed.
Lemma code_plain : forall ws code, gen_code ws = Ok code -> flat_map js_escape1 code = code.
Proof.
  intros ws code H. apply gen_code_spec in H as (_ & _ & _ & _ & k & _ & ->).
  assert (D : forall n, js_escape1 (digit (n mod 10)) = [digit (n mod 10)]).
  { intros n. assert (L : n mod 10 < 10) by (apply N.mod_lt; lia). generalize dependent (n mod 10). intros m L.
    assert (m = 0 \/ m = 1 \/ m = 2 \/ m = 3 \/ m = 4 \/ m = 5 \/ m = 6 \/ m = 7 \/ m = 8 \/ m = 9) as C by lia.
    repeat (destruct C as [->|C]; [vm_compute; reflexivity|]). subst m. vm_compute. reflexivity. }
  unfold digit in D. unfold six_digits. cbn [map flat_map]. rewrite !D. reflexivity.
Qed.
Lemma code_shown : forall code, flat_map js_escape1 code = code -> shown (secrets_text [(bs "code", code)]) (bs """code"": """ ++ code ++ bs """").
Proof.
  intros code H. exists (x7b :: x0a :: repeat x20 4), [x0a; x7d; x0a].
  assert (Q : secrets_text [(bs "code", code)] = (x7b :: x0a :: (js_indent 1 ++ js_quoted (bs "code") ++ [x3a; x20] ++ js_quoted code ++ [] ++ [x0a]) ++ js_indent 0 ++ [x7d]) ++ [x0a]) by (destruct code; reflexivity).
  rewrite Q. unfold js_quoted at 2. rewrite H. cbn [app]. repeat (rewrite <- ?app_assoc; cbn [app]). reflexivity.
Qed.
Lemma status_code : forall E iso show g tr s f arg id r cs code, ca_history E g (db_ops E) tr s -> f (db_file E (p_prefix (cfp g))) = ca_store s -> o_of_uri E arg = Some (p_prefix (cfp g)) ->
  pending (db_ops E) s id = Some r -> rq_cs r = Some cs -> sec_get (bs "code") (cs_secrets cs) = Some code ->
  exists text entry, ca_status E iso show f arg = Ok text /\ shown text entry /\ describes E r entry /\ shown entry (bs """code"": """ ++ code ++ bs """").
Proof.
  intros E iso show g tr s f arg id r cs code H FS AR P C SG. destruct (history_db_inv E g tr s H) as [I LV]. destruct (db_list_ok E (ch_codec _ _ _ _ _ H) (ca_store s) I) as (l & L & ND & EN).
  pose proof (history_at _ _ _ _ _ _ H) as A. destruct (pending_good E g _ (db_ops E) s _ r A P) as (ID & (_ & _ & _ & _ & _ & _ & ST) & _). rewrite C in ST.
  assert (TX : secret_texts (cs_secrets cs)) by (destruct (rq_ctype r); [destruct ST|apply ST]).
  assert (IN : In r l) by (apply EN; split; [rewrite ID; exact P|exact Logic.I]). apply in_split in IN as (l1 & l2 & ->).
  eexists _, (stars ++ print_request E iso show r ++ stars). split; [|split; [|split]].
  - unfold ca_status. rewrite AR. cbn [of_opt bind]. rewrite FS, L. cbn [of_opt bind]. reflexivity.
  - rewrite flat_map_app. cbn [flat_map]. exists (bs "The pending requests are :" ++ NL ++ flat_map (fun r0 => stars ++ print_request E iso show r0 ++ stars) l1).
    exists (flat_map (fun r0 => stars ++ print_request E iso show r0 ++ stars) l2). rewrite <- !app_assoc. reflexivity.
  - apply entry_describes; [exact (LV id r P)|]. intros cs' C'. rewrite C in C'. injection C' as <-. exact TX.
  - apply (shown_trans _ (secrets_text (cs_secrets cs))).
    + exists (stars ++ bs "Request's CA name: " ++ o_to_uri E (rq_prefix r) ++ NL ++ bs "Request's request ID: " ++ to_hex (rq_id r) ++ NL ++ bs "Request's status: " ++ status_text (rq_status r) ++ NL ++
        bs "Request's challenge type: " ++ rq_ctype r ++ NL ++ bs "Challenge Status: " ++ cs_status cs ++ NL ++ bs "Challenge remaining tries:" ++ to_string_N (cs_tries cs) ++ bs " times" ++ NL ++
        bs "Challenge remaining time: " ++ to_string_Z (cs_rtime cs) ++ bs " seconds" ++ NL ++ bs "Challenge last update: " ++ iso (cs_time cs) ++ NL ++ bs "Challenge secret: ").
      exists (NL ++ bs "Certificate:" ++ NL ++ show (rq_cert r) ++ stars). unfold print_request. rewrite C, <- !app_assoc. reflexivity.
    + destruct (has_origin _ E g (db_ops E) tr s id r H P) as (a1 & new & a2 & -> & AC & NA & CSO).
      destruct (CSO cs C) as (b1 & st1 & b2 & i0 & p0 & ty0 & cs0 & -> & (AK & r1 & em & STT & RC & RP & EM) & SE & SS & _).
      rewrite SE in *. destruct STT as [c0 G|c0 addr G GA|c0 CI CC TR]; cbn [cs_secrets] in *.
      * cbn in SG. injection SG as <-. apply code_shown. exact (code_plain _ _ G).
      * cbn in SG. injection SG as <-. apply code_shown. exact (code_plain _ _ G).
      * cbn in SG. discriminate.
Qed.

(** Every request the library prints, pending or not. *)
Lemma printed : forall E iso show r, exists word rest, status_word (rq_status r) word /\
  print_request E iso show r = line (bs "Request's CA name: " ++ o_to_uri E (rq_prefix r)) ++ line (bs "Request's request ID: " ++ to_hex (rq_id r)) ++
    line (bs "Request's status: " ++ word) ++ line (bs "Request's challenge type: " ++ rq_ctype r) ++ rest.
Proof.
  intros E iso show r. exists (status_text (rq_status r)). eexists. split.
  - unfold status_text, status_word. cbn [In]. destruct (N.eqb_spec (rq_status r) ST_BEFORE) as [->|]; [left; auto 12|]. destruct (N.eqb_spec (rq_status r) ST_CHALLENGE) as [->|]; [left; auto 12|].
    destruct (N.eqb_spec (rq_status r) ST_PENDING) as [->|]; [left; auto 12|]. destruct (N.eqb_spec (rq_status r) ST_SUCCESS) as [->|]; [left; auto 12|]. destruct (N.eqb_spec (rq_status r) ST_FAILURE) as [->|]; [left; auto 12|].
    right. split; [|reflexivity]. unfold ST_BEFORE, ST_CHALLENGE, ST_PENDING, ST_SUCCESS, ST_FAILURE in *. lia.
  - unfold print_request, line. rewrite <- !app_assoc. reflexivity.
Qed.
