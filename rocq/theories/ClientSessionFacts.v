(** The command line client talking to an honest CA. *)
From Verif Require Import CryptoFacts ChalProps RequestFacts RequesterFacts ConfigFacts SessionFacts ServerFacts OutcomeFacts MultimapFacts.
From Verif Require Export Spec_ClientSession ClientFacts EndToEndFacts.
From Coq Require Import Lia.
Local Open Scope N_scope.

(** ** User input *)
Lemma stoul_head : forall b l v, stoul (b :: l) = Some v -> is_space b = true \/ Byte.to_N b = 43 \/ Byte.to_N b = 45 \/ digit_of b <> None.
Proof.
  intros b l v. unfold stoul. cbn [skip_space]. destruct (is_space b); [auto|]. destruct (Byte.to_N b =? 43) eqn:P; [apply N.eqb_eq in P; auto|]. destruct (Byte.to_N b =? 45) eqn:M; [apply N.eqb_eq in M; auto|].
  unfold read_number. destruct (digit_of b); [|discriminate]. intros _. right. right. right. discriminate.
Qed.
Lemma lower_n : forall b, lower_byte b = x6e -> b = x6e \/ b = x4e.
Proof. intros b. destruct b; vm_compute; intros H; try discriminate; auto. Qed.
Lemma number_not_word : forall l v w, stoul l = Some v -> bytes_eqb (to_lower l) (x6e :: w) = false.
Proof.
  intros l v w H. destruct (bytes_eqb (to_lower l) (x6e :: w)) eqn:Q; [|reflexivity]. apply bytes_eqb_eq in Q. destruct l as [|b l]; [discriminate Q|]. unfold to_lower in Q. cbn [map] in Q. injection Q as Q _.
  apply lower_n in Q. apply stoul_head in H. destruct Q as [-> | ->]; vm_compute in H; destruct H as [H|[H|[H|H]]]; try discriminate; contradiction.
Qed.

(** ** Applying *)
Lemma find_key_in : forall kn sk (i : ident), NoDup (map fst (id_keys i)) -> In (kn, sk) (id_keys i) -> find_key kn i = Some (kn, sk).
Proof.
  intros kn sk i. unfold find_key. induction (id_keys i) as [|[k s] l IH]; intros ND I0; [destruct I0|]. cbn [map fst] in ND. inversion ND as [|? ? N1 N2]; subst. cbn [find fst].
  destruct I0 as [Q|I0]; [injection Q as -> ->; rewrite name_eqb_refl; reflexivity|]. destruct (name_eqb k kn) eqn:Q; [|exact (IH N2 I0)].
  apply name_eqb_eq in Q. subst k. destruct N1. apply (in_map fst) in I0. exact I0.
Qed.
Lemma find_key_last : forall kn sk (i : ident), ~ In kn (map fst (id_keys i)) -> find_key kn (add_key (kn, sk) i) = Some (kn, sk).
Proof.
  intros kn sk i. unfold find_key, add_key. cbn [id_keys]. induction (id_keys i) as [|[k s] l IH]; intros N; cbn [app find fst]; [rewrite name_eqb_refl; reflexivity|].
  destruct (name_eqb k kn) eqn:Q; [apply name_eqb_eq in Q; subst k; destruct N; left; reflexivity|]. apply IH. intros I0. apply N. right. exact I0.
Qed.
Lemma picked : forall E c ci ls p idn l ls1 v kid sk, cl_newid c = [] -> idn <> [] -> ls = l :: ls1 -> stoul l = Some v -> picks (cl_pib c) ci ls1 idn kid sk ->
  adds_up (ci_now ci) (sec (to_i32 v * 3600)) -> begins (p_prefix p) idn ->
  exists c' x, run_new E c ci ls p idn = (c', NWait x WNew) /\
    has_applied E c' x (request_init p RT_NEW (ci_ecdh ci) (ci_id0 ci)) (ci_ri ci) (idn ++ [gc (bs "KEY"); kid]) sk (ci_now ci) (ci_now ci + sec (to_i32 v * 3600)) /\
    holds (cl_pib c') idn kid sk.
Proof.
  intros E c ci ls p idn l ls1 v kid sk NI NE -> ST PK AU BG. unfold run_new. cbn [capture_validity next_line]. rewrite ST. cbv zeta. cbn [up_req cl_pib].
  assert (FIT : i64_fits (sec (to_i32 v * 3600)) && i64_fits (ci_now ci + sec (to_i32 v * 3600)) = true).
  { destruct AU as [A B]. unfold in_i64 in A, B. unfold i64_fits. rewrite !(proj2 (Z.leb_le _ _)), !(proj2 (Z.ltb_lt _ _)) by tauto. reflexivity. }
  assert (GEN : forall c4, exists x s, gen_new E (request_init p RT_NEW (ci_ecdh ci) (ci_id0 ci)) (ci_ri ci) (idn ++ [gc (bs "KEY"); kid]) sk (ci_now ci) (ci_now ci + sec (to_i32 v * 3600)) = (Ok (Some x), s) /\ cl_req (up_req (Some s) c4) = Some s).
  { intros c4. eexists. eexists. split; [|reflexivity]. apply gen_new_eq with (identity := idn) (kid := kid); [|reflexivity]. split; [|eexists; eexists; reflexivity].
    cbn [request_init rs_profile]. destruct BG as (rest & ->). exists (rest ++ [gc (bs "KEY"); kid]). rewrite app_assoc. reflexivity. }
  destruct PK as [PG|i l2 ls' v2 kid sk PG DF ND -> S2 NT|i l2 ls' PG DF -> LW NI2]; rewrite PG.
  - cbn [id_default up_newid up_pib cl_newid cl_pib fst snd]. destruct idn as [|a idn]; [contradiction|]. unfold find_key at 1. cbn [id_keys find fst]. change c_KEY with (gc (bs "KEY")). rewrite name_eqb_refl. rewrite FIT.
    destruct (GEN (up_newid (a :: idn) (up_pib (cl_pib c ++ [Ident (a :: idn) [((a :: idn) ++ [gc (bs "KEY"); fst (ci_key1 ci)], snd (ci_key1 ci))] (Some ((a :: idn) ++ [gc (bs "KEY"); fst (ci_key1 ci)]))]) (up_req (Some (request_init p RT_NEW (ci_ecdh ci) (ci_id0 ci))) c)))) as (x & s & G & Q).
    rewrite G. eexists. exists x. split; [reflexivity|]. split; [exists s; split; [exact G|reflexivity]|]. eexists. cbn [up_req up_newid up_pib cl_pib]. split; [apply pib_get_app; [exact PG|reflexivity]|].
    unfold find_key. cbn [id_keys find fst]. rewrite name_eqb_refl. reflexivity.
  - destruct (id_default i) as [d|]; [|contradiction]. cbn [up_req cl_newid]. rewrite NI. unfold capture_key. cbn [next_line]. change (bs "new") with (x6e :: [x65; x77]). rewrite (number_not_word l2 v2 _ S2), S2.
    assert (LT : (N.to_nat v2 < length (id_keys i))%nat) by (apply nth_error_Some; congruence). destruct (N.of_nat (length (id_keys i)) <=? v2) eqn:Q; [apply N.leb_le in Q; lia|]. rewrite NT, FIT.
    destruct (GEN (up_req (Some (request_init p RT_NEW (ci_ecdh ci) (ci_id0 ci))) c)) as (x & s & G & _). rewrite G. eexists. exists x. split; [reflexivity|]. split; [exists s; split; [exact G|reflexivity]|].
    exists i. cbn [up_req cl_pib]. split; [exact PG|]. apply find_key_in; [exact ND|]. exact (nth_error_In _ _ NT).
  - destruct (id_default i) as [d|] eqn:DD; [|contradiction]. cbn [up_req cl_newid]. rewrite NI. unfold capture_key. cbn [next_line]. apply lower_iff in LW. rewrite LW. change (bytes_eqb (bs "new") (bs "new")) with true. cbv iota. rewrite FIT. change c_KEY with (gc (bs "KEY")).
    destruct (GEN c) as (x & s & G & _). rewrite G. eexists. exists x. split; [reflexivity|]. split; [exists s; split; [exact G|reflexivity]|].
    cbn [up_req up_newkey up_pib cl_pib]. eexists. split; [apply (pib_get_set idn (cl_pib c) i); [exact PG|]|].
    + cbn [add_key id_name]. exact (proj2 (pib_get_in _ _ _ PG)).
    + apply find_key_last. exact NI2.
Qed.

(** The parameters of a PROBE are in order. *)
Lemma sorted_keys : forall a b, map fst a = map fst b -> mm_sorted a -> mm_sorted b.
Proof.
  induction a as [|[k x] a IH]; intros [|[k' y] b] Q S; try discriminate; [exact I|]. cbn [map fst] in Q. injection Q as <- Q. cbn [mm_sorted] in S |- *. destruct S as [S1 S2]. split; [|exact (IH b Q S2)].
  destruct a as [|[k1 x1] a], b as [|[k2 y2] b]; try discriminate; [exact I|]. cbn [map fst] in Q. injection Q as <- _. exact S1.
Qed.
Lemma asked_sorted : forall keys ls, mm_sorted (lower_first K_EMAIL (fst (capture_list keys ls))).
Proof.
  intros keys ls. refine (sorted_keys (mm_of (map (fun k => (k, bs "Please input: " ++ k)) keys)) _ _ (mm_of_is_sorted _)). rewrite lower_first_keys. unfold capture_list. rewrite capture_keys. reflexivity.
Qed.
Lemma run_sorted : forall E file pb h c nx, client_run E file pb h c nx -> forall m, cl_probe c = Some m -> mm_sorted m.
Proof.
  intros E file pb h c nx H. induction H as [ci c nx ST|h c i w ci ev c' nx H IH M ST|h c ci c' nx H IH ST]; intros m PM.
  - assert (cl_probe c = None); [|congruence]. unfold client_start, exits, falls, discover in ST. destruct (store_load E file); try (injection ST as <- <-; reflexivity).
    destruct (next_line (ci_lines ci)) as [l ls]. destruct (bytes_eqb _ _); [destruct (o_of_uri E _)|destruct (stoul l); [destruct (_ <=? _); [|destruct (nth_error _ _)]|]]; try (injection ST as <- <-; reflexivity);
      destruct (gen_discovery _); injection ST as <- <-; reflexivity.
  - destruct (cl_probe c) as [m0|] eqn:PC; [rewrite (client_probe_kept E c w ci ev c' nx m0 PC ST) in PM; injection PM as <-; apply IH; reflexivity|]. destruct (run_phase E file pb h c _ H) as [P _].
    destruct w as [full|full|p| | |]; cbn in P.
    + destruct ev as [d|d| | |]; cbn in M; try contradiction; cbn [client_step] in ST; unfold meta_cb, falls, exits in ST; [destruct (gen_profile_interest d)| | |unfold handle_signal in ST; destruct P as [(R & _) _]; rewrite R in ST; unfold exits in ST];
        injection ST as <- <-; congruence.
    + destruct ev as [d|d| | |]; cbn in M; try contradiction; cbn [client_step] in ST; [|injection ST as <- <-; congruence..|unfold handle_signal in ST; destruct P as [(R & _) _]; rewrite R in ST; injection ST as <- <-; congruence].
      unfold info_cb in ST. match type of ST with match ?x with _ => _ end = _ => destruct x as [p| | |] end; try (injection ST as <- <-; congruence).
      unfold run_probe in ST. cbn [cl_probe up_trusted] in ST. rewrite PC in ST. destruct (cl_trusted c); [injection ST as <- <-; injection PM as <-; apply asked_sorted|]. destruct (next_line (ci_lines ci)). destruct (bytes_eqb _ _); injection ST as <- <-; [injection PM as <-; apply asked_sorted|congruence].
    + destruct P as (_ & _ & m1 & Q & _). congruence.
    + destruct P as (s & (_ & _ & _ & Q & _) & _). contradiction.
    + destruct P as (s & (_ & _ & _ & Q & _) & _). contradiction.
    + destruct P as (s & (_ & _ & _ & Q & _) & _). contradiction.
  - apply IH. rewrite <- PM. unfold handle_signal, exits in ST. destruct (cl_req c); [|injection ST as <- <-; reflexivity]. destruct (cl_newid c); [destruct (cl_newkey c)|]; [injection ST as <- <-; reflexivity|..]; destruct (pib_get _ _); injection ST as <- <-; reflexivity.
Qed.

(** PROBE is answered and the client applies. *)
Lemma puts_named_probe : forall E g S (ops : store_ops S) s i p m d, p_prefix p = p_prefix (cfp g) -> on_interest E g ops s i (gen_probe E p m) = ([EPut d], Ok tt) -> d_name d = i_name (gen_probe E p m).
Proof.
  intros E g S ops s i p m d PX H. rewrite (on_interest_at E g S ops _ s i _ (probe_addressed E g p m PX)) in H. cbn [handle] in H. unfold on_probe in H.
  revert H. repeat match goal with |- context [match ?x with _ => _ end] => destruct x end; intros H; try discriminate; injection H as <-; reflexivity.
Qed.
Lemma pick_name : forall ls ns n ls' (f : name -> name * Z) E c ci p, chooses ls ns n ls' -> ci_lines ci = ls ->
  match map f ns with
  | [] => exits c 1
  | [(k, _)] => run_new E c ci (ci_lines ci) p k
  | _ :: _ :: _ => match capture_one (length (map f ns)) (ci_lines ci) with
                   | (None, _) => exits c 1
                   | (Some k, l) => match nth_error (map f ns) k with Some (n, _) => run_new E c ci l p n | None => (c, NUB) end
                   end
  end = run_new E c ci ls' p (fst (f n)).
Proof.
  intros ls ns n ls' f E c ci p CH L. destruct CH as [n|ns n l ls' v LEN -> ST NT].
  - cbn [map]. destruct (f n). rewrite L. reflexivity.
  - rewrite L. assert (Q : capture_one (length (map f ns)) (l :: ls') = (Some (N.to_nat v), ls')).
    { unfold capture_one. cbn [capture_index next_line]. rewrite ST, map_length. assert (LT : (N.to_nat v < length ns)%nat) by (apply nth_error_Some; congruence).
      destruct (v <? N.of_nat (length ns)) eqn:B; [reflexivity|]. apply N.ltb_ge in B. lia. }
    destruct (map f ns) as [|a [|b t]] eqn:MF; [destruct ns; [cbn in LEN; lia|discriminate MF]|destruct ns as [|? [|]]; cbn in LEN, MF; try lia; discriminate|].
    destruct a as [a0 a1]. rewrite Q, <- MF, (map_nth_error f _ _ NT). destruct (f n). reflexivity.
Qed.
Lemma client_applies : forall E g S (ops : store_ops S) file pb h c x p cc m s i ci ns n l ls ls1 v kid sk, sig_laws E -> client_run E file pb h c (NWait x (WProbe p)) ->
  p_prefix p = p_prefix (cfp g) -> p_cert p = Some cc -> public_key cc = o_pub E (cf_sk g) -> cl_probe c = Some m -> Forall (fun kv => fits (fst kv) /\ fits (snd kv)) m ->
  targets E m (cf_redirect (cf g)) [] -> offers E m (assigns g) (in_words64 i) ns -> p_prefix (cfp g) <> [] -> Forall (probe_fits (p_maxsuffix (cfp g))) (map (app (p_prefix (cfp g))) ns) ->
  (forall k, p_maxsuffix (cfp g) = Some k -> k < 2 ^ 64) -> chooses (ci_lines ci) ns n ls -> ls = l :: ls1 -> stoul l = Some v -> adds_up (ci_now ci) (sec (to_i32 v * 3600)) ->
  picks pb ci ls1 (p_prefix (cfp g) ++ n) kid sk ->
  exists d c' x', on_interest E g ops s i x = ([EPut d], Ok tt) /\ client_run E file pb ((ci, Some (CData d)) :: h) c' (NWait x' WNew) /\
    has_applied E c' x' (request_init p RT_NEW (ci_ecdh ci) (ci_id0 ci)) (ci_ri ci) (p_prefix (cfp g) ++ n ++ [gc (bs "KEY"); kid]) sk (ci_now ci) (ci_now ci + sec (to_i32 v * 3600)) /\
    holds (cl_pib c') (p_prefix (cfp g) ++ n) kid sk /\ cl_probe c' = Some m.
Proof.
  intros E g S ops file pb h c x p cc m s i ci ns n l ls ls1 v kid sk LS R PX PC PK PM F TG OF NE PF MX CH L ST AU PI.
  destruct (run_phase E file pb h c _ R) as [((_ & PB & NI & _) & _ & m' & PM' & ->) _]. rewrite PM in PM'. injection PM' as <-.
  assert (NN : ns <> []) by (destruct CH as [|? ? ? ? ? LEN]; [discriminate|destruct ns; [cbn in LEN; lia|discriminate]]).
  destruct (probe_end_to_end E g S ops s i p cc m [] ns LS PX PC PK (run_sorted E file pb h c _ R m PM) F TG OF (or_intror NN) NE PF ltac:(constructor) MX) as (d & OI & RD).
  assert (IDN : p_prefix (cfp g) ++ n <> []) by (destruct (p_prefix (cfp g)); [contradiction|discriminate]).
  destruct (picked E c ci ls p (p_prefix (cfp g) ++ n) l ls1 v kid sk NI IDN L ST) as (c' & x' & RN & HA & HO); [rewrite PB; exact PI|exact AU|rewrite PX; exists n; reflexivity|].
  assert (CS : client_step E c (WProbe p) ci (CData d) = (c', NWait x' WNew)).
  { cbn [client_step]. unfold probe_cb. rewrite RD. exact (eq_trans (pick_name (ci_lines ci) ns n ls (fun n0 => (p_prefix (cfp g) ++ n0, narrow_suffix (p_maxsuffix (cfp g)))) E c ci p CH eq_refl) RN). }
  exists d, c', x'. split; [exact OI|]. split; [|split; [rewrite app_assoc; exact HA|split; [exact HO|exact (client_probe_kept E c _ ci _ c' _ m PM CS)]]].
  eapply run_event; [exact R| |exact CS]. cbn. exact (puts_named_probe E g S ops s i p m d PX OI).
Qed.

(** ** Challenge Interests *)
Lemma begin_payload : forall ctype params, begins_with ctype params ->
  exists els ks, step_asks ctype ST_BEFORE [] ks /\ step_payload ctype ST_BEFORE [] params els /\ Forall wf_tlv els /\ els <> [] /\ blen (enc_tlvs els) < 2 ^ 31 /\ selects els ctype.
Proof.
  intros ctype params B. destruct B as [|addr B].
  - exists [Tlv T_SelectedChallenge (bs "pin")], []. split; [constructor|]. split; [constructor|]. split; [constructor; [wft; apply small_fits; vm_compute; reflexivity|constructor]|]. split; [discriminate|].
    split; [vm_compute; reflexivity|]. eexists; split; reflexivity.
  - exists [Tlv T_SelectedChallenge (bs "email"); Tlv T_ParameterKey (bs "email"); Tlv T_ParameterValue addr], [bs "email"]. split; [constructor|]. split; [constructor|].
    split; [constructor; [wft; apply small_fits; vm_compute; reflexivity|]; constructor; [wft; apply small_fits; vm_compute; reflexivity|]; constructor; [wft; apply small_fits; unfold small_payload; lia|constructor]|]. split; [discriminate|].
    split; [|eexists; split; reflexivity]. cbn [enc_tlvs]. rewrite !blen_app. pose proof (enc_tlv_len (Tlv T_SelectedChallenge (bs "email"))) as L1. pose proof (enc_tlv_len (Tlv T_ParameterKey (bs "email"))) as L2.
    pose proof (enc_tlv_len (Tlv T_ParameterValue addr)) as L3. cbn [t_val] in *. change (blen (bs "email")) with 5 in *. change (blen []) with 0. lia.
Qed.
Lemma email_found : forall m v, email_of m v -> mm_find (bs "email") m = Some v.
Proof.
  intros m v (a & b & -> & N). induction a as [|[k w] a IH]; [reflexivity|]. cbn [app mm_find]. destruct (bytes_eqb (bs "email") k) eqn:Q; [apply bytes_eqb_eq in Q; subst k; destruct N; left; reflexivity|].
  apply IH. intros I0. apply N. right. exact I0.
Qed.
Lemma first_challenge : forall E g S (ops : store_ops S) ctype id sk creq ca s c ci ls params, aes_laws E -> sig_laws E -> linked E g ops RT_NEW ctype id sk creq None ca s ->
  begins_with ctype params -> (forall addr, params = [(bs "email", addr)] -> exists m, cl_probe c = Some m /\ email_of m addr) ->
  exists x s1 m s2, select_challenge s ctype = (Ok m, s1) /\ gen_challenge E s1 (ci_ri ci) params = (Ok x, s2) /\ run_challenge E c s ci ls ctype = (up_req (Some s2) c, NWait x WChallenge).
Proof.
  intros E g S ops ctype id sk creq ca s c ci ls params LA LS LK B EM.
  destruct (lk_req _ _ _ _ _ _ _ LK) as (r & P & _ & _ & K & DV & STR). pose proof STR as (_ & _ & SS & SC).
  destruct (begin_payload ctype params B) as (els & ks & AK & PY & W & NE & SZ & SE). rewrite <- SS, <- SC in AK, PY.
  destruct (send_linked E g S ops RT_NEW ctype id sk creq None ca s (ci_ri ci) params els ks r ctype LA LS LK P DV K STR AK PY W NE SZ SE) as (x & m & iv2 & SEL & GC & _).
  eexists. eexists. exists m. eexists. split; [exact SEL|]. split; [exact GC|]. unfold run_challenge. rewrite SEL. cbn [upd_ctype rs_status]. rewrite SS. change (ST_BEFORE =? ST_BEFORE) with true. cbn [andb].
  unfold select_challenge in SEL. rewrite SS, SC in SEL. destruct B as [|addr B].
  - injection SEL as <-. rewrite GC. reflexivity.
  - injection SEL as <-. destruct (EM addr eq_refl) as (m0 & PM & EO). change (bytes_eqb (bs "email") K_EMAIL) with true. cbv iota. rewrite PM. change K_EMAIL with (bs "email") at 2. rewrite (email_found _ _ EO).
    change (mm_find (bs "email") [(K_EMAIL, prompt_email)]) with (Some prompt_email). cbv iota. cbn [map fst]. change (bytes_eqb K_EMAIL (bs "email")) with true. cbv iota. change K_EMAIL with (bs "email"). rewrite GC. reflexivity.
Qed.
Lemma next_challenge : forall E g S (ops : store_ops S) ctype life id sk creq code k t ca s c ci typed, aes_laws E -> sig_laws E -> code_life ctype life -> linked E g ops RT_NEW ctype id sk creq (Some (code, k, t)) ca s ->
  types ci typed -> blen typed < 2 ^ 30 ->
  exists x s1 m s2, select_challenge s ctype = (Ok m, s1) /\ gen_challenge E s1 (ci_ri ci) [(bs "code", typed)] = (Ok x, s2) /\ run_challenge E c s ci (ci_lines ci) ctype = (up_req (Some s2) c, NWait x WChallenge).
Proof.
  intros E g S ops ctype life id sk creq code k t ca s c ci typed LA LS CL LK TY B.
  destruct (lk_req _ _ _ _ _ _ _ LK) as (r & P & _ & _ & K & DV & STR). pose proof STR as (_ & _ & _ & _ & _ & SS & _ & _ & cs & C & SC & WC & _).
  assert (W : wants (rs_cstatus s)) by (rewrite SC; exact WC).
  destruct (code_payload ctype life (rs_cstatus s) typed CL W B) as (AK & PY & WF & SZ & SEL0). rewrite <- SS in AK, PY.
  destruct (send_linked E g S ops RT_NEW ctype id sk creq _ ca s (ci_ri ci) _ (code_els ctype typed) _ r ctype LA LS LK P DV K STR AK PY WF ltac:(discriminate) SZ SEL0) as (x & m & iv2 & SEL & GC & _).
  assert (KS : map fst m = [bs "code"]) by (apply asks_iff in AK as (m' & SEL' & Q); rewrite SEL in SEL'; injection SEL' as <-; exact Q).
  eexists. eexists. exists m. eexists. split; [exact SEL|]. split; [exact GC|]. unfold run_challenge. rewrite SEL. cbn [upd_ctype rs_status]. rewrite SS. change (ST_CHALLENGE =? ST_BEFORE) with false. cbn [andb].
  destruct m as [|[k0 v0] [|]]; try discriminate. injection KS as ->. cbn [capture fst].
  assert (NL : exists l', next_line (ci_lines ci) = (typed, l')). { unfold types in TY. destruct (ci_lines ci); cbn [next_line]; subst typed; eauto. } destruct NL as (l' & ->). cbn [fst]. rewrite GC. reflexivity.
Qed.

(** ** The session *)
Definition puts_at (n : name) (es : list eff) : Prop := forall d, In (EPut d) es -> d_name d = n.
Lemma puts_at_app : forall n a b, puts_at n a -> puts_at n b -> puts_at n (a ++ b).
Proof. intros n a b A B d I0. apply in_app_or in I0 as [I0|I0]; auto. Qed.
Ltac putsat := intros ? PUT; repeat (destruct PUT as [PUT|PUT]; [first [discriminate PUT|injection PUT as <-; reflexivity]|]); destruct PUT.
Lemma after_puts : forall E g i x es r, puts_at (i_name x) es -> puts_at (i_name x) (fst (after_challenge E g i x es r)).
Proof.
  intros E g i x es r H. unfold after_challenge, finish. destruct (rq_status r =? ST_PENDING); [destruct (_ || _); [destruct (issue_certificate E g (in_version i) r); try exact H|destruct (_ =? RT_REVOKE); [|exact H]]|];
    match goal with |- context [chal_encode ?a ?b ?c ?d ?e] => destruct (chal_encode a b c d e) as [[] ?] end; cbn [fst]; try exact H; rewrite <- ?app_assoc; (apply puts_at_app; [exact H|putsat]).
Qed.
Lemma challenge_puts : forall E g get_req i x, puts_at (i_name x) (fst (on_challenge E g get_req i x)).
Proof.
  intros E g get_req i x. unfold on_challenge. destruct (challenge_id g (i_name x)) as [id| | |]; try (putsat; fail). destruct (get_req id) as [r|]; [|putsat].
  destruct (negb _); [putsat|]. destruct (decode_aes E (rq_key r) (params_of x) (rq_id r) (rq_div r) (rq_eiv r)) as [[[|b pt]| | |] iv]; try (putsat; fail).
  destruct (parse (b :: pt)) as [params|]; [|putsat]. destruct (get T_SelectedChallenge params) as [ct|]; [|putsat]. destruct (handle_challenge E (cf_chal g) i (t_val ct) params (set_div iv r)) as [h|]; [|putsat].
  assert (EM : puts_at (i_name x) (match h_email h with Some cmd => [EEmail cmd] | None => [] end)) by (destruct (h_email h); putsat).
  destruct (h_out h) as [[code info]| | |]; cbn [fst]; try exact EM. destruct (negb (code =? NO_ERROR)); [|apply after_puts; exact EM]. unfold drop_error. cbn [fst]. apply puts_at_app; [exact EM|putsat].
Qed.
Lemma put_one : forall es d, puts es = [d] -> In (EPut d) es.
Proof.
  intros es d P. assert (I0 : In d (puts es)) by (rewrite P; left; reflexivity). unfold puts in I0. apply in_flat_map in I0 as (e & I1 & I2). destruct e; cbn in I2; try destruct I2 as [<-|[]]; try contradiction. exact I1.
Qed.
Lemma step_named : forall E g S (ops : store_ops S) ca i x ca' es d, addressed g VNew (i_name x) \/ addressed g VChallenge (i_name x) ->
  step E g ops ca (EvInterest i x) = Some (ca', es) -> puts es = [d] -> d_name d = i_name x.
Proof.
  intros E g S ops ca i x ca' es d AD ST P. apply put_one in P. cbn [step] in ST.
  assert (PA : puts_at (i_name x) (fst (on_interest E g ops ca i x))).
  { destruct AD as [AD|AD]; [rewrite (on_interest_new E g S ops ca i RT_NEW x (or_introl eq_refl) AD)|rewrite (on_interest_at E g S ops _ ca i x AD); cbn [handle]; apply challenge_puts].
    destruct (on_new E g _ _ i RT_NEW x) as [es0 o] eqn:ON. apply on_new_cases in ON as [(peer & c & _ & _ & _ & ->)|[(code & info & _ & -> & _)|(_ & -> & _)]]; [putsat|putsat|putsat|left; reflexivity]. }
  destruct (on_interest E g ops ca i x) as [es0 o]. destruct o; try discriminate; injection ST as _ <-; exact (PA d P).
Qed.
Lemma new_addressed : forall E g s ri kn sk nb na x s', p_prefix (rs_profile s) = p_prefix (cfp g) -> gen_new E s ri kn sk nb na = (Ok (Some x), s') -> addressed g VNew (i_name x).
Proof.
  intros E g s ri kn sk nb na x s' PX H. unfold gen_new in H. destruct (negb _); [discriminate|]. destruct kn; [discriminate|]. destruct (get_neg 2 _) as [k|]; [|discriminate]. destruct (comp_eqb k c_KEY); [|discriminate].
  injection H as <- _. rewrite PX. unfold signed_interest. cbn [i_name]. eexists. rewrite <- app_assoc. reflexivity.
Qed.
Lemma chal_addressed : forall E g s ri params x s', p_prefix (rs_profile s) = p_prefix (cfp g) -> gen_challenge E s ri params = (Ok x, s') -> addressed g VChallenge (i_name x).
Proof.
  intros E g s ri params x s' PX H. unfold gen_challenge in H. destruct (rs_ctype s); [discriminate|]. destruct (gen_challenge_tlv _ _ _ _) as [[els| | |]|]; try discriminate. destruct (encode_aes _ _ _ _ _ _) as [o iv].
  destruct o as [p| | |]; try discriminate. destruct (rs_keypair s) as [[kn sk]|]; [|discriminate]. injection H as <- _. rewrite PX. unfold signed_interest. cbn [i_name]. eexists. rewrite <- app_assoc. reflexivity.
Qed.
Lemma client_opens : forall E g S (ops : store_ops S) file pb h c x s0 ri i ca0 ci identity kid sk nb na ctype life params, env_laws E -> config_fits g ->
  client_run E file pb h c (NWait x WNew) -> has_applied E c x s0 ri (identity ++ [gc (bs "KEY"); kid]) sk nb na -> holds (cl_pib c) identity kid sk ->
  ca_at E g ops ca0 -> applies E g s0 ri i (identity ++ [gc (bs "KEY"); kid]) sk nb na ->
  let creq := cert_request E sk ri (identity ++ [gc (bs "KEY"); kid]) nb na in let id := id_for E (ca_idkey ca0) (c_name creq) in
  pending ops ca0 id = None -> length (ri_salt0 (ci_ri ci)) = 32%nat -> selects_first g c (ci_lines ci) ctype life params ->
  exists ca d c' x', answers E g ops ca0 i x ca d /\ client_run E file pb ((ci, Some (CData d)) :: h) c' (NWait x' WChallenge) /\
    in_round E g ops ctype life id sk creq None (ci_ri ci) params ca c' x'.
Proof.
  intros E g S ops file pb h c x s0 ri i ca0 ci identity kid sk nb na ctype life params L CF R (sx & GN & RQ) HO A AP creq id P L2 SF.
  destruct (open_ok E g S ops ctype life ca0 s0 ri (ci_ri ci) i _ sk nb na L CF A AP P L2) as (ca & es & s & OP & SE). fold creq in OP, SE. change (request_id_of E (ca_idkey ca0) (c_name creq)) with id in SE.
  pose proof OP as OP'. unfold opening in OP'. rewrite GN in OP'. destruct (step E g ops ca0 (EvInterest i x)) as [[ca' es']|] eqn:ST; [|discriminate]. destruct (puts es') as [|d [|]] eqn:PU; try discriminate.
  destruct (on_new_response E sx (ci_ri ci) d) as [[chals| | |] s2] eqn:NR; try discriminate. injection OP' as -> -> -> ->.
  pose proof L as [LA LE LH LS LC].
  assert (B : begins_with ctype params) by (destruct SF; constructor; assumption).
  destruct (session_linked E g S ops ctype life id sk creq None ca s L CF ltac:(intros N; contradiction N; reflexivity) SE) as [LK _].
  set (c1 := up_req (Some s) c).
  assert (FC : forall ls, exists y s1 m s3, select_challenge s ctype = (Ok m, s1) /\ gen_challenge E s1 (ci_ri ci) params = (Ok y, s3) /\ run_challenge E c1 s ci ls ctype = (up_req (Some s3) c1, NWait y WChallenge)).
  { intros ls. apply (first_challenge E g S ops ctype id sk creq ca s c1 ci ls params LA LS LK B). intros addr Q. destruct SF as [m0 a IN PM EO BL|]; [injection Q as <-; exists m0; auto|discriminate]. }
  assert (NC : exists ls, new_cb E c ci d = run_challenge E c1 s ci ls ctype).
  { unfold new_cb. rewrite RQ, NR. fold c1. destruct SF as [m0 a IN PM EO BL|l ls' v NI LL SV NT].
    - exists (ci_lines ci). assert (X : existsb (bytes_eqb K_EMAIL) (p_challenges (cfp g)) = true) by (apply existsb_exists; exists (bs "email"); split; [exact IN|reflexivity]).
      rewrite X. destruct (p_challenges (cfp g)); [destruct IN|reflexivity].
    - exists ls'. assert (X : existsb (bytes_eqb K_EMAIL) (p_challenges (cfp g)) = false).
      { destruct (existsb _ _) eqn:X; [|reflexivity]. apply existsb_exists in X as (b & IB & Q). apply bytes_eqb_eq in Q. subst b. destruct (NI IB). }
      rewrite X. assert (LT : (N.to_nat v < length (p_challenges (cfp g)))%nat) by (apply nth_error_Some; congruence).
      assert (CI : capture_index 3 (length (p_challenges (cfp g))) (ci_lines ci) = (Some (N.to_nat v), ls')).
      { rewrite LL. cbn [capture_index next_line]. rewrite SV. destruct (v <? N.of_nat (length (p_challenges (cfp g)))) eqn:Q; [reflexivity|]. apply N.ltb_ge in Q. lia. }
      rewrite CI, NT. destruct (p_challenges (cfp g)); [cbn in LT; lia|reflexivity]. }
  destruct NC as (ls & NC). destruct (FC ls) as (y & s1 & m & s3 & SEL & GC & RC).
  exists ca, d, (up_req (Some s3) c1), y. split; [exists es; auto|]. split.
  - eapply run_event; [exact R| |cbn [client_step]; rewrite NC; exact RC]. cbn. eapply step_named; [|exact ST|exact PU]. left. eapply new_addressed; [exact (ap_prefix _ _ _ _ _ _ _ _ _ AP)|exact GN].
  - split; [exists s, s1, m, s3; auto|]. exists identity, kid. eexists. eexists. split; [unfold creq, cert_request; cbn [c_name]; rewrite <- app_assoc; reflexivity|exact HO].
Qed.
Lemma client_meanwhile : forall E g S (ops : store_ops S) ctype life id sk creq ph ri params ca c x ca', in_round E g ops ctype life id sk creq ph ri params ca c x ->
  quiet E g ops id (o_pub E sk) ca ca' -> in_round E g ops ctype life id sk creq ph ri params ca' c x.
Proof. intros E g S ops ctype life id sk creq ph ri params ca c x ca' ((s & s1 & m & s2 & SE & R) & HO) Q. split; [|exact HO]. exists s, s1, m, s2. split; [eapply se_quiet; eassumption|exact R]. Qed.

(** One exchange, from the client's side. *)
Lemma played : forall E g S (ops : store_ops S) file pb h c x ctype life id sk creq ph ri params ca i ci ca' es s' s s1 m s2, env_laws E -> config_fits g -> (ph <> None -> code_life ctype life) ->
  client_run E file pb h c (NWait x WChallenge) -> session E g ops ctype life id sk creq ph ca s -> select_challenge s ctype = (Ok m, s1) -> gen_challenge E s1 ri params = (Ok x, s2) -> cl_req c = Some s2 ->
  round E g ops ca s ri (ci_ri ci) i ctype params = Some (ca', es, s') ->
  exists d, step E g ops ca (EvInterest i x) = Some (ca', es) /\ puts es = [d] /\ matches E x WChallenge (CData d) /\
    challenge_cb E c ci d = (if rs_status s' =? ST_SUCCESS then (up_req (Some s') c, NWait (fst (gen_cert_fetch s')) WCert) else run_challenge E (up_req (Some s') c) s' ci (ci_lines ci) (rs_ctype s')).
Proof.
  intros E g S ops file pb h c x ctype life id sk creq ph ri params ca i ci ca' es s' s s1 m s2 L CF CL R SE SEL GC RQ RD. unfold round in RD. rewrite SEL, GC in RD.
  destruct (step E g ops ca (EvInterest i x)) as [[ca1 es1]|] eqn:ST; [|discriminate]. destruct (puts es1) as [|d [|]] eqn:PU; try discriminate. destruct (on_challenge_response E s2 (ci_ri ci) d) as [[u| | |] s3] eqn:CR; try discriminate. injection RD as -> -> ->.
  exists d. split; [reflexivity|]. split; [exact PU|]. split.
  - cbn. eapply step_named; [|exact ST|exact PU]. right. eapply chal_addressed; [|exact GC].
    destruct (session_linked E g S ops ctype life id sk creq ph ca s L CF CL SE) as [LK _]. unfold select_challenge in SEL. destruct (requested_params _ _ _) as [r|]; [|discriminate]. injection SEL as _ <-. cbn [upd_ctype rs_profile]. exact (lk_prefix _ _ _ _ _ _ _ LK).
  - unfold challenge_cb. rewrite RQ, CR. reflexivity.
Qed.
(** The CA asks for a code, and the user types one. *)
Lemma asked_again : forall E g S (ops : store_ops S) file pb h c x ctype life id sk creq code k t ca' s' ci d typed, env_laws E -> config_fits g -> code_life ctype life ->
  client_run E file pb h c (NWait x WChallenge) -> matches E x WChallenge (CData d) -> session E g ops ctype life id sk creq (Some (code, k, t)) ca' s' ->
  challenge_cb E c ci d = (if rs_status s' =? ST_SUCCESS then (up_req (Some s') c, NWait (fst (gen_cert_fetch s')) WCert) else run_challenge E (up_req (Some s') c) s' ci (ci_lines ci) (rs_ctype s')) ->
  (exists identity kid issuer version, c_name creq = identity ++ [gc (bs "KEY"); kid; issuer; version] /\ holds (cl_pib c) identity kid sk) -> types ci typed -> blen typed < 2 ^ 30 ->
  exists c' x', client_run E file pb ((ci, Some (CData d)) :: h) c' (NWait x' WChallenge) /\ in_round E g ops ctype life id sk creq (Some (code, k, t)) (ci_ri ci) [(bs "code", typed)] ca' c' x'.
Proof.
  intros E g S ops file pb h c x ctype life id sk creq code k t ca' s' ci d typed L CF CL R M SE CB HO TY B. pose proof L as [LA LE LH LS LC].
  destruct (session_linked E g S ops ctype life id sk creq _ ca' s' L CF (fun _ => CL) SE) as [LK _].
  destruct (lk_req _ _ _ _ _ _ _ LK) as (r & _ & _ & _ & _ & _ & (_ & _ & _ & _ & _ & SS & SCT & _)). rewrite SS, SCT in CB. change (ST_CHALLENGE =? ST_SUCCESS) with false in CB. cbv iota in CB.
  destruct (next_challenge E g S ops ctype life id sk creq code k t ca' s' (up_req (Some s') c) ci typed LA LS CL LK TY B) as (x' & s1 & m & s2 & SEL & GC & RC).
  exists (up_req (Some s2) (up_req (Some s') c)), x'. split; [eapply run_event; [exact R|exact M|cbn [client_step]; rewrite CB; exact RC]|]. split; [exists s', s1, m, s2; auto|exact HO].
Qed.
Lemma client_asked : forall E g S (ops : store_ops S) file pb h c x ctype life id sk creq ri params ca i ci code typed, env_laws E -> config_fits g -> code_life ctype life ->
  client_run E file pb h c (NWait x WChallenge) -> in_round E g ops ctype life id sk creq None ri params ca c x -> begins_with ctype params ->
  gen_code (in_words i) = Ok code -> in_script_ok i = true -> (0 <= in_t2 i)%Z -> be_enc 8 (ri_iv ri) <> rnd_iv i -> clock_ok (ci_ri ci) -> types ci typed -> blen typed < 2 ^ 30 ->
  exists ca' d c' x', answers E g ops ca i x ca' d /\ client_run E file pb ((ci, Some (CData d)) :: h) c' (NWait x' WChallenge) /\
    in_round E g ops ctype life id sk creq (Some (code, O, in_t2 i)) (ci_ri ci) [(bs "code", typed)] ca' c' x'.
Proof.
  intros E g S ops file pb h c x ctype life id sk creq ri params ca i ci code typed L CF CL R ((s & s1 & m & s2 & SE & SEL & GC & RQ) & HO) BW G SK T2 IV CK TY B.
  destruct (SessionFacts.start_ok E g S ops ctype life id sk creq ca s ri (ci_ri ci) i params code L CF CL SE BW G SK T2 IV CK) as (ca' & s' & d0 & r3 & r & RD & _ & _ & SE' & _).
  destruct (played E g S ops file pb h c x ctype life id sk creq None ri params ca i ci ca' _ s' s s1 m s2 L CF (fun _ => CL) R SE SEL GC RQ RD) as (d & ST & PU & M & CB).
  destruct (asked_again E g S ops file pb h c x ctype life id sk creq code 0 (in_t2 i) ca' s' ci d typed L CF CL R M SE' CB HO TY B) as (c' & x' & R' & IR).
  exists ca', d, c', x'. split; [eexists; eauto|]. auto.
Qed.
Lemma client_wrong : forall E g S (ops : store_ops S) file pb h c x ctype life id sk creq code k t ri given ca i ci typed, env_laws E -> config_fits g -> code_life ctype life ->
  client_run E file pb h c (NWait x WChallenge) -> in_round E g ops ctype life id sk creq (Some (code, k, t)) ri [(bs "code", given)] ca c x -> given <> code -> blen given < 2 ^ 30 -> (k < 2)%nat ->
  (t <= in_t1 i < t + sec life - 1000 /\ 0 <= in_t2 i)%Z -> clock_ok (ci_ri ci) -> types ci typed -> blen typed < 2 ^ 30 ->
  exists ca' d c' x', answers E g ops ca i x ca' d /\ client_run E file pb ((ci, Some (CData d)) :: h) c' (NWait x' WChallenge) /\
    in_round E g ops ctype life id sk creq (Some (code, Datatypes.S k, in_t2 i)) (ci_ri ci) [(bs "code", typed)] ca' c' x'.
Proof.
  intros E g S ops file pb h c x ctype life id sk creq code k t ri given ca i ci typed L CF CL R ((s & s1 & m & s2 & SE & SEL & GC & RQ) & HO) NE BG K2 TB CK TY B.
  destruct (wrong_ok E g S ops ctype life id sk creq code k t ca s ri (ci_ri ci) i given L CF CL SE NE BG TB CK K2) as (ca' & s' & d0 & r & RD & SE' & _).
  destruct (played E g S ops file pb h c x ctype life id sk creq _ ri _ ca i ci ca' _ s' s s1 m s2 L CF (fun _ => CL) R SE SEL GC RQ RD) as (d & ST & PU & M & CB).
  destruct (asked_again E g S ops file pb h c x ctype life id sk creq code _ (in_t2 i) ca' s' ci d typed L CF CL R M SE' CB HO TY B) as (c' & x' & R' & IR).
  exists ca', d, c', x'. split; [eexists; eauto|]. auto.
Qed.
(** A third wrong code: the client leaves. *)
Lemma client_third : forall E g S (ops : store_ops S) file pb h c x ctype life id sk creq code t ri given ca i ci, env_laws E -> config_fits g -> code_life ctype life ->
  client_run E file pb h c (NWait x WChallenge) -> in_round E g ops ctype life id sk creq (Some (code, 2%nat, t)) ri [(bs "code", given)] ca c x -> given <> code -> blen given < 2 ^ 30 ->
  (t <= in_t1 i < t + sec life - 1000)%Z ->
  exists ca' d c', answers E g ops ca i x ca' d /\ client_run E file pb ((ci, Some (CData d)) :: h) c' (NExit 1) /\ pending ops ca' id = None /\ cl_pib c' = cl_pib c.
Proof.
  intros E g S ops file pb h c x ctype life id sk creq code t ri given ca i ci L CF CL R ((s & s1 & m & s2 & SE & SEL & GC & RQ) & _) NE BG TB.
  pose proof L as [LA LE LH LS LC]. destruct (session_linked E g S ops ctype life id sk creq _ ca s L CF (fun _ => CL) SE) as [LK _].
  destruct (guess_sent E g S ops RT_NEW ctype life id sk creq code 2 t ca s ri i given LA LS CL LK BG TB) as (r & cs & m' & x' & iv2 & msg & P & CR & RT & K & DV & IE & TR & SEL' & GC' & N & SB & OP & I2 & RN & FM & HC).
  rewrite SEL' in SEL. injection SEL as <- <-. rewrite GC' in GC. injection GC as <- <-.
  pose proof (lk_at _ _ _ _ _ _ _ LK) as A. destruct (lk_cert _ _ _ _ _ _ _ LK) as (cc & PC & PK). destruct (pending_live E g S ops ca id r A P) as [IDR LV].
  pose proof (chal_forward E g S ops ca i x' id r _ ctype iv2 A N P SB OP) as FW. rewrite HC in FW. rewrite (proj2 (bytes_eqb_neq given code) NE), TR in FW.
  change (1 <? 3 - N.of_nat 2) with false in FW. cbv iota in FW. cbn [ret_error h_out h_email email_effs] in FW. change (negb (OUT_OF_TRIES =? NO_ERROR)) with true in FW. cbv iota in FW.
  unfold drop_error in FW. cbn [app] in FW. pose proof (ok_step E g S ops ca i x' _ FW) as ST.
  eexists. exists (error_data E g (i_name x') OUT_OF_TRIES msg), c. split; [eexists; split; [exact ST|reflexivity]|].
  split; [|split; [|reflexivity]].
  - eapply run_event; [exact R|reflexivity|]. apply (client_bad_reply E file pb h c x' WChallenge ci _ (rs_profile s) cc R); [right; split; [right; reflexivity|eexists; split; [exact RQ|reflexivity]]|exact PC|].
    right. exists OUT_OF_TRIES. split; [discriminate|]. apply decoded_error; [|discriminate].
    destruct (error_data_reply E g x' OUT_OF_TRIES msg) as (_ & _ & info & Q); [split; [discriminate|]; split; [discriminate|exact FM]|]. rewrite Q. reflexivity.
  - exact (deleted_gone E g S ops _ _ _ _ id A ST (or_introl (f_equal EDelete IDR))).
Qed.
(** The right code: the certificate is issued, fetched and installed. *)
Lemma two_names : forall (a x : name) k1 k2 i1 v1 i2 v2, a ++ [k1; k2; i1; v1] = x ++ [i2; v2] -> x = a ++ [k1; k2].
Proof.
  intros a x k1 k2 i1 v1 i2 v2 H. rewrite <- (key_name_of_shape a k1 k2 i1 v1), H. symmetry. exact (prefix_neg_app x [i2; v2]).
Qed.
Lemma client_done : forall E g S (ops : store_ops S) file pb h c x ctype life id sk creq code k t ri tr ca i ci profile v, env_laws E -> config_fits g -> code_life ctype life ->
  client_run E file pb h c (NWait x WChallenge) -> in_round E g ops ctype life id sk creq (Some (code, k, t)) ri [(bs "code", code)] ca c x -> ca_history E g ops tr ca ->
  (t <= in_t1 i < t + sec life - 1000)%Z -> clock_ok (ci_ri ci) -> d_name profile = profile_name g v ->
  exists ca' es d c' y cert, let st := HStep ca (EvInterest i x) es ca' in
    step E g ops ca (EvInterest i x) = Some (ca', es) /\ puts es = [d] /\ client_run E file pb ((ci, Some (CData d)) :: h) c' (NWait y WCert) /\ certifies E g creq cert /\
    (forall later ca2 newer, steps E g ops ca' later ca2 -> Forall (fun e => ~ restarts (h_ev e)) later -> announced later newer -> (length newer < 100)%nat ->
      Forall (fun c0 => ~ begins (c_name cert) (full_name E c0)) newer -> serve E profile (server_cache (seen (tr ++ st :: later))) (i_name y) = Some (SCert cert)) /\
    forall ci2, exists c2, client_run E file pb ((ci2, Some (CCert cert)) :: (ci, Some (CData d)) :: h) c2 NDone /\ cl_installed c2 = [cert].
Proof.
  intros E g S ops file pb h c x ctype life id sk creq code k t ri tr ca i ci profile v L CF CL R ((s & s1 & m & s2 & SE & SEL & GC & RQ) & (identity & kid & iss & ver & CN & ident & PG & FK)) H TB CK PN.
  destruct (right_ok E g S ops ctype life id sk creq code k t ca s ri (ci_ri ci) i L CF CL SE TB CK) as (ca' & s' & cert & d0 & r & RD & CE & PK & SS & IS & _ & _).
  destruct (played E g S ops file pb h c x ctype life id sk creq _ ri _ ca i ci ca' _ s' s s1 m s2 L CF (fun _ => CL) R SE SEL GC RQ RD) as (d & ST & PU & M & CB).
  rewrite SS in CB. change (ST_SUCCESS =? ST_SUCCESS) with true in CB. cbv iota in CB.
  pose proof (history_push S E g ops tr (HStep ca (EvInterest i x) [EIssue cert; EDelete id; EPut d0; ECallback r] ca') H ST) as HP. cbn [h_post] in HP.
  assert (R1 : client_run E file pb ((ci, Some (CData d)) :: h) (up_req (Some s') c) (NWait (fst (gen_cert_fetch s')) WCert)) by (eapply run_event; [exact R|exact M|exact CB]).
  assert (F : forall later ca2 newer, steps E g ops ca' later ca2 -> Forall (fun e => ~ restarts (h_ev e)) later -> announced later newer -> (length newer < 100)%nat ->
      Forall (fun c0 => ~ begins (c_name cert) (full_name E c0)) newer -> serve E profile (server_cache (seen (tr ++ HStep ca (EvInterest i x) [EIssue cert; EDelete id; EPut d0; ECallback r] ca' :: later))) (c_name cert) = Some (SCert cert) /\ on_cert_fetch cert = Ok cert).
  { intros later ca2 newer SL NR AL LN OT. eapply announced_fetched; try eassumption; [exact (laws_sig _ L)| |].
    - split; [left; reflexivity|]. cbn. discriminate.
    - intros []. }
  exists ca', [EIssue cert; EDelete id; EPut d0; ECallback r], d, (up_req (Some s') c), (fst (gen_cert_fetch s')), cert. cbn zeta. split; [exact ST|]. split; [exact PU|]. split; [exact R1|]. split; [exact CE|].
  split; [intros later ca2 newer SL NR AL LN OT; unfold gen_cert_fetch; cbn [fst i_name]; rewrite IS; exact (proj1 (F later ca2 newer SL NR AL LN OT))|].
  intros ci2. assert (OK : on_cert_fetch cert = Ok cert) by (apply (F [] ca' []); [constructor|constructor|constructor|cbn; lia|constructor]).
  assert (KN : exists a b, c_name cert = identity ++ [gc (bs "KEY"); kid; a; b]).
  { destruct CE as (kn & i0 & v0 & v1 & Q0 & Q1 & _). rewrite CN in Q0. rewrite Q1, (two_names _ _ _ _ _ _ _ _ Q0), <- app_assoc. eexists. eexists. reflexivity. }
  destruct KN as (a & b & KN).
  exists (up_installed (cert :: cl_installed (up_req (Some s') c)) (up_req (Some s') c)). split.
  - eapply run_event; [exact R1|cbn; left; rewrite IS; reflexivity|]. cbn [client_step]. unfold cert_cb. rewrite OK, KN, identity_of_shape, key_name_of_shape. cbn [up_req cl_pib]. rewrite PG, FK.
    rewrite PK, bytes_eqb_refl. reflexivity.
  - cbn [up_installed cl_installed up_req]. destruct (run_phase E file pb h c _ R) as [(sx & (_ & _ & _ & _ & IN & _) & _) _]. rewrite IN. reflexivity.
Qed.

(** ** Finding the CA *)
(** The profile a CA keeps is one it made. *)
Definition prof_made (E : env) (g : ca_cfg) (p : option data) : Prop := forall d, p = Some d -> exists v, profile_data E g None v = Ok d.
Lemma effs_made : forall E g S (ops : store_ops S) es s, prof_made E g (ca_prof s) -> (forall d, In (EProfile d) es -> exists v, profile_data E g None v = Ok d) -> prof_made E g (ca_prof (apply_effs ops es s)).
Proof.
  intros E g S ops es. unfold apply_effs. induction es as [|e es IH]; intros s K P; [exact K|]. cbn [fold_left]. apply IH; [|intros d I0; apply P; right; exact I0].
  destruct e; cbn [apply_eff]; try exact K; [destruct (s_add ops (ca_store s) r); exact K|destruct (s_update ops (ca_store s) r); exact K|]. intros d' Q. cbn in Q. injection Q as <-. apply P. left. reflexivity.
Qed.
Lemma get_made : forall E g prof i es o, on_get_profile E g prof i = (es, o) -> forall d, In (EProfile d) es -> exists v, profile_data E g None v = Ok d.
Proof.
  intros E g prof i es o H d I0. unfold on_get_profile in H. destruct prof as [d0|]; [injection H as <- <-; destruct I0|]. destruct (profile_data E g None (in_version i)) as [d1| | |] eqn:Q; injection H as <- <-; try contradiction. destruct I0 as [I0|[]]. injection I0 as <-. eauto.
Qed.
Lemma interest_made : forall E g S (ops : store_ops S) s i x es o, on_interest E g ops s i x = (es, o) -> forall d, In (EProfile d) es -> exists v, profile_data E g None v = Ok d.
Proof.
  intros E g S ops s i x es o H d I0. destruct (on_interest_cases E g S ops s i x) as [[_ O]|(v & AD & O)]; rewrite O in H; [injection H as <- <-; destruct I0|].
  destruct v; try (exfalso; eapply handle_profile; [|exact H|exact I0]; discriminate). cbn [handle] in H.
  apply discovery_cases in H as [(es0 & d0 & G & _ & m & -> & _)|[-> _]]; [|destruct I0]. apply in_app_or in I0 as [I0|[I0|[]]]; [|discriminate]. eapply get_made; eassumption.
Qed.
Lemma step_made : forall E g S (ops : store_ops S) s ev s' es, step E g ops s ev = Some (s', es) -> prof_made E g (ca_prof s) -> prof_made E g (ca_prof s').
Proof.
  intros E g S ops s ev s' es H K. destruct ev as [i x|i x n key|key|i]; cbn [step] in H.
  - destruct (on_interest E g ops s i x) as [es0 o] eqn:O. assert (Q : s' = apply_effs ops es0 s) by (destruct o; try discriminate; injection H as <- <-; reflexivity). subst s'. apply effs_made; [exact K|]. eapply interest_made; exact O.
  - destruct (on_interest E g ops s i x) as [es0 o]. assert (Q : s' = restart ops key (apply_effs ops (firstn n es0) s)) by (destruct o; try discriminate; injection H as <- <-; reflexivity). subst s'. intros d Q. discriminate.
  - injection H as <- <-. intros d Q. discriminate.
  - destruct (on_get_profile E g (ca_prof s) i) as [es0 o] eqn:G. assert (Q : s' = apply_effs ops es0 s) by (destruct o; try discriminate; injection H as <- <-; reflexivity). subst s'. apply effs_made; [exact K|]. eapply get_made; exact G.
Qed.
Lemma reach_made : forall E g S (ops : store_ops S) s, reachable E g ops s -> prof_made E g (ca_prof s).
Proof.
  intros E g S ops s (key & evs & h & R).
  assert (G : forall evs s0 s1 h0, run E g ops s0 evs = Some (s1, h0) -> prof_made E g (ca_prof s0) -> prof_made E g (ca_prof s1)).
  { clear. induction evs as [|ev evs IH]; intros s0 s1 h0 H K; cbn [run] in H; [injection H as <- <-; exact K|].
    destruct (step E g ops s0 ev) as [[s2 es]|] eqn:ST; [|discriminate]. destruct (run E g ops s2 evs) as [[s3 h2]|] eqn:R; [|discriminate]. injection H as <- <-. eapply IH; [exact R|]. eapply step_made; eassumption. }
  eapply G; [exact R|]. intros d Q. discriminate.
Qed.
Lemma encodes : forall E p c, p_info p <> [] \/ c_keyloc c <> None -> exists b, info_encode E p c = Ok b.
Proof.
  intros E p c H. unfold info_encode. destruct (p_info p) as [|a l]; [|eexists; reflexivity]. destruct (c_keyloc c) as [k|]; [eexists; reflexivity|]. destruct H as [H|H]; contradiction.
Qed.
Lemma client_asks : forall E g S (ops : store_ops S) ca i file pb known ci0 l ls v q cc n last ci1 ci2, codec_laws E -> sig_laws E -> reachable E g ops ca ->
  p_prefix (cfp g) = n ++ [last] -> t_val last <> bs "CA" -> in_mversion i < 2 ^ 64 -> publishable E g ->
  store_load E file = Ok known -> ci_lines ci0 = l :: ls -> stoul l = Some v -> nth_error known (N.to_nat v) = Some q -> p_prefix q = p_prefix (cfp g) -> p_cert q = Some cc -> public_key cc = o_pub E (cf_sk g) ->
  exists c0 x ca' m d w, client_run E file pb [(ci0, None)] c0 (NWait x (WMeta [])) /\ answers E g ops ca i x ca' m /\ ca_prof ca' = Some d /\ d_name d = profile_name g w /\
    (w < 2 ^ 64 -> name_fits (p_prefix (cfp g) ++ [gc (bs "CA"); gc (bs "INFO"); version_comp w]) -> exists c1 y c2 z p mm,
       client_run E file pb [(ci1, Some (CData m)); (ci0, None)] c1 (NWait y (WInfo [])) /\ i_name y = d_name d /\
       client_run E file pb [(ci2, Some (CData d)); (ci1, Some (CData m)); (ci0, None)] c2 (NWait z (WProbe p)) /\
       p_prefix p = p_prefix (cfp g) /\ p_cert p = Some (cf_cert g) /\ cl_probe c2 = Some mm /\ Permutation (map fst mm) (p_probe_keys (cfp g))).
Proof.
  intros E g S ops ca i file pb known ci0 l ls v q cc n last ci1 ci2 LC LS RE PX NC MV (K1 & K2 & K3 & K4 & K5 & K6 & K7 & K8 & K9 & K10) SL LL SV NT PQ PC PK.
  assert (GD : exists x, gen_discovery (p_prefix (cfp g)) = Ok x) by (rewrite PX, discovery_name by exact NC; eexists; reflexivity). destruct GD as (x & GD).
  assert (OI : exists es, on_interest E g ops ca i x = (es, Ok tt)).
  { assert (AD : addressed g VInfo (i_name x)) by (rewrite PX, discovery_name in GD by exact NC; injection GD as <-; unfold addressed; cbn [i_name]; rewrite PX; exists []; reflexivity).
    rewrite (on_interest_at E g S ops _ ca i x AD). cbn [handle]. unfold on_discovery, on_get_profile, profile_data. destruct (ca_prof ca) as [d|]; [eexists; reflexivity|]. destruct (encodes E (cfp g) (cf_cert g) K6) as (b & ->). eexists. reflexivity. }
  destruct OI as (es & OI).
  destruct (discovered E g S ops ca i x es n last RE PX NC GD OI MV) as (d & m & w & y & PU & GP & DS & DN & CP & FIT).
  assert (R0 : client_run E file pb [(ci0, None)] (up_trusted (p_cert q) (client_init pb)) (NWait x (WMeta []))).
  { apply run_start. unfold client_start. rewrite SL, LL. cbn [next_line]. change (bs "none") with (x6e :: [x6f; x6e; x65]). rewrite (number_not_word l v _ SV), SV.
    assert (LT : (N.to_nat v < length known)%nat) by (apply nth_error_Some; congruence). destruct (N.of_nat (length known) <=? v) eqn:Q; [apply N.leb_le in Q; lia|]. rewrite NT. unfold discover. rewrite PQ, GD. reflexivity. }
  eexists. exists x, (apply_effs ops es ca), m, d, w. split; [exact R0|]. split; [exists es; split; [cbn [step]; rewrite OI; reflexivity|exact PU]|]. split; [exact CP|]. split; [exact DN|]. intros WB NF. destruct (FIT WB NF) as [GI YN].
  assert (MM : matches E x (WMeta []) (CData m)).
  { cbn. assert (AD : addressed g VInfo (i_name x)) by (rewrite PX, discovery_name in GD by exact NC; injection GD as <-; unfold addressed; cbn [i_name]; rewrite PX; exists []; reflexivity).
    destruct (discovery_reply E g S ops ca i x es RE AD OI) as (d' & m' & v' & _ & PU' & _ & _ & _ & _ & _ & MN). rewrite PU in PU'. injection PU' as <-. rewrite MN. rewrite PX, discovery_name in GD by exact NC. injection GD as <-. cbn [i_name]. rewrite PX.
    change [gc (bs "CA"); gc (bs "INFO"); Tlv T_Keyword (bs "metadata"); version_comp (in_mversion i); Tlv T_Segment (nni_enc 0)] with ([gc (bs "CA"); gc (bs "INFO"); Tlv T_Keyword (bs "metadata")] ++ [version_comp (in_mversion i); Tlv T_Segment (nni_enc 0)]).
    rewrite app_assoc. apply is_prefix_app. }
  assert (R1 : client_run E file pb [(ci1, Some (CData m)); (ci0, None)] (up_trusted (p_cert q) (client_init pb)) (NWait y (WInfo []))).
  { eapply run_event; [exact R0|exact MM|]. cbn [client_step]. unfold meta_cb. rewrite GI. reflexivity. }
  assert (PD : exists w', profile_data E g None w' = Ok d).
  { unfold on_get_profile in GP. destruct (ca_prof ca) as [d0|] eqn:CQ; [change (profile_data E g (Some d0) (in_version i)) with (Ok d0) in GP; apply pair_equal_spec in GP as [_ GP]; injection GP as <-; exact (reach_made E g S ops ca RE d0 CQ)|]. destruct (profile_data E g None (in_version i)) as [d1| | |] eqn:Q; try discriminate. apply pair_equal_spec in GP as [_ GP]. injection GP as <-. eauto. }
  destruct PD as (w' & PD). destruct (own_profile E g w' d LC LS PD K1 K2 K3 K4 K5 K7 K8 K9 K10) as (p & OP & _ & P1 & P2 & _ & P3).
  set (mm := lower_first K_EMAIL (fst (capture_list (p_probe_keys p) (ci_lines ci2)))).
  assert (IC : info_cb E (up_trusted (p_cert q) (client_init pb)) ci2 [] d = (up_probe (Some mm) (up_trusted (p_cert q) (client_init pb)), NWait (gen_probe E p mm) (WProbe p))).
  { unfold info_cb. cbn [up_trusted client_init cl_trusted]. rewrite PC. assert (V : verify_data E d cc = true). { unfold verify_data. rewrite PK. unfold data_signed_by in DS. rewrite DS. apply (l_sign_verify E LS). } rewrite V, OP. reflexivity. }
  eexists. exists y. eexists. eexists. exists p, mm. split; [exact R1|]. split; [exact YN|]. split; [eapply run_event; [exact R1|cbn; symmetry; exact YN|cbn [client_step]; exact IC]|]. split; [exact P1|]. split; [exact P2|]. split; [reflexivity|].
  unfold mm. rewrite lower_first_keys. unfold capture_list. rewrite capture_keys, <- P3. eapply Permutation_trans; [apply of_keys|]. rewrite map_map. cbn [fst]. rewrite map_id. apply Permutation_refl.
Qed.
