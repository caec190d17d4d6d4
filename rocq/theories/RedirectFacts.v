(** A client that one CA sends to another. *)
From Verif Require Export Spec_Redirect ClientSessionFacts.
From Verif Require Import NameFacts CryptoFacts ChalProps RequestFacts RequesterFacts ConfigFacts SessionFacts ServerFacts OutcomeFacts MultimapFacts PolicyFacts EndToEndFacts.
From Coq Require Import Lia.
Local Open Scope N_scope.

Lemma ca_of_target : forall E c prefix, ca_named prefix c -> ca_of_full (full_name E c) = Ok prefix.
Proof.
  intros E c prefix (kid & issuer & version & N). unfold ca_of_full, full_name. rewrite N.
  rewrite (prefix_neg_app _ [_]). cbv zeta. change (prefix ++ [gc (bs "KEY"); kid; issuer; version]) with (prefix ++ [c_KEY; kid; issuer; version]).
  rewrite valid_cert_name_of_shape, identity_of_shape. reflexivity.
Qed.
Lemma targets_in : forall E m l ns f, targets E m l ns -> In f ns -> exists c p, In (Some c, p) l /\ f = full_name E c.
Proof.
  intros E m l ns f T. induction T as [|c p l ns H T IH|oc p l ns H T IH]; intros I0; [destruct I0|..].
  - destruct I0 as [<-|I0]; [exists c, p; split; [left; reflexivity|reflexivity]|]. destruct (IH I0) as (c' & p' & A & B). exists c', p'. split; [right; exact A|exact B].
  - destruct (IH I0) as (c' & p' & A & B). exists c', p'. split; [right; exact A|exact B].
Qed.
Lemma all_proper : forall rs, Forall (fun f => exists ca, ca_of_full f = Ok ca) rs -> all_cas rs = Ok tt.
Proof. intros rs F. induction F as [|f rs (ca & Q) F IH]; [reflexivity|]. cbn [all_cas]. rewrite Q. cbn [bind]. exact IH. Qed.
Lemma pick_redirect : forall ls rs f ls' c, chooses ls rs f ls' -> Forall (fun f => exists ca, ca_of_full f = Ok ca) rs ->
  match rs with
  | [] => exits c 1
  | [f] => redirect_to c f
  | _ :: _ :: _ =>
      match all_cas rs with
      | Ok _ =>
          match capture_one (length rs) ls with
          | (None, _) => exits c 1
          | (Some k, _) => match nth_error rs k with Some f => redirect_to c f | None => (c, NUB) end
          end
      | o => falls c o
      end
  end = redirect_to c f.
Proof.
  intros ls rs f ls' c CH F. destruct CH as [f|rs f l ls' v LEN -> ST NT]; [reflexivity|].
  destruct rs as [|a [|b t]]; [cbn in LEN; lia|cbn in LEN; lia|]. rewrite (all_proper _ F).
  unfold capture_one. cbn [capture_index next_line]. rewrite ST. assert (LT : (N.to_nat v < length (a :: b :: t))%nat) by (apply nth_error_Some; congruence).
  destruct (v <? N.of_nat (length (a :: b :: t))) eqn:B; [|apply N.ltb_ge in B; lia]. rewrite NT. reflexivity.
Qed.

(** The first CA redirects; the client follows. *)
Lemma follows : forall E g S (ops : store_ops S) file pb h c x p cc m s i ci rs ns prefix target ls n last, sig_laws E -> client_run E file pb h c (NWait x (WProbe p)) ->
  p_prefix p = p_prefix (cfp g) -> p_cert p = Some cc -> public_key cc = o_pub E (cf_sk g) -> cl_probe c = Some m -> Forall (fun kv => fits (fst kv) /\ fits (snd kv)) m ->
  targets E m (cf_redirect (cf g)) rs -> offers E m (assigns g) (in_words64 i) ns -> p_prefix (cfp g) <> [] -> Forall (probe_fits (p_maxsuffix (cfp g))) (map (app (p_prefix (cfp g))) ns) ->
  Forall name_fits rs -> (forall k, p_maxsuffix (cfp g) = Some k -> k < 2 ^ 64) -> proper_targets g ->
  chooses (ci_lines ci) rs (full_name E target) ls -> ca_named prefix target -> prefix = n ++ [last] -> t_val last <> bs "CA" ->
  exists d x', on_interest E g ops s i x = ([EPut d], Ok tt) /\ gen_discovery prefix = Ok x' /\
    client_run E file pb ((ci, Some (CData d)) :: h) c (NWait x' (WMeta (full_name E target))).
Proof.
  intros E g S ops file pb h c x p cc m s i ci rs ns prefix target ls n last LS R PX PC PK PM F TG OF NE PF NF MX PT CH CN PL NC.
  destruct (run_phase E file pb h c _ R) as [((_ & PB & NI & _) & _ & m' & PM' & ->) _]. rewrite PM in PM'. injection PM' as <-.
  assert (NN : rs <> []) by (destruct CH as [|? ? ? ? ? LEN]; [discriminate|destruct ns0; [cbn in LEN; lia|discriminate]]).
  destruct (probe_end_to_end E g S ops s i p cc m rs ns LS PX PC PK (run_sorted E file pb h c _ R m PM) F TG OF (or_introl NN) NE PF NF MX) as (d & OI & RD).
  assert (AL : Forall (fun f => exists ca, ca_of_full f = Ok ca) rs).
  { apply Forall_forall. intros f I0. destruct (targets_in _ _ _ _ _ TG I0) as (t & q & I1 & ->). destruct (PT t q I1) as (pre & H). exists pre. exact (ca_of_target E t pre H). }
  assert (GD : exists x', gen_discovery prefix = Ok x') by (rewrite PL, discovery_name by exact NC; eexists; reflexivity). destruct GD as (x' & GD).
  exists d, x'. split; [exact OI|]. split; [exact GD|].
  eapply run_event; [exact R|cbn; exact (puts_named_probe E g S ops s i p m d PX OI)|]. cbn [client_step]. unfold probe_cb. rewrite RD.
  assert (RT : redirect_to c (full_name E target) = (c, NWait x' (WMeta (full_name E target)))). { unfold redirect_to. rewrite (ca_of_target E target prefix CN). unfold discover. rewrite GD. reflexivity. }
  rewrite <- RT. rewrite <- (pick_redirect (ci_lines ci) rs (full_name E target) ls c CH AL). destruct rs as [|a [|b t]]; [contradiction|reflexivity|reflexivity].
Qed.

(** A client that has been asked for the parameters of PROBE has a certificate it trusts. *)
Definition early (w : waiting) : Prop := match w with WMeta _ | WInfo _ | WProbe _ => True | _ => False end.
Lemma start_probe : forall E file pb ci c nx, client_start E file pb ci = (c, nx) -> cl_probe c = None.
Proof.
  intros E file pb ci c nx ST. unfold client_start, exits, falls, discover in ST. destruct (store_load E file); try (injection ST as <- <-; reflexivity).
  destruct (next_line (ci_lines ci)) as [l ls]. destruct (bytes_eqb _ _); [destruct (o_of_uri E _)|destruct (stoul l); [destruct (_ <=? _); [|destruct (nth_error _ _)]|]]; try (injection ST as <- <-; reflexivity);
    destruct (gen_discovery _); injection ST as <- <-; reflexivity.
Qed.
Lemma signal_late : forall c c' i w, handle_signal c = (c', NWait i w) -> False.
Proof.
  intros c c' i w. unfold handle_signal, exits. destruct (cl_req c); [|discriminate]. destruct (cl_newid c); [destruct (cl_newkey c)|]; [discriminate|..]; destruct (pib_get _ _); discriminate.
Qed.
Lemma challenge_late : forall E c s ci ls ty c' i w, run_challenge E c s ci ls ty = (c', NWait i w) -> ~ early w.
Proof.
  intros E c s ci ls ty c' i w. unfold run_challenge, exits, falls. destruct (select_challenge s ty) as [[req| | |] s1]; try discriminate.
  match goal with |- match ?x with _ => _ end = _ -> _ => destruct x as [ps| | |] end; try discriminate. destruct (gen_challenge _ _ _ _) as [[x| | |] s2]; try discriminate. intros Q. injection Q as <- <- <-. intros [].
Qed.
Lemma new_late : forall E c ci d c' i w, new_cb E c ci d = (c', NWait i w) -> ~ early w.
Proof.
  intros E c ci d c' i w. unfold new_cb, exits, falls. destruct (cl_req c) as [s|]; [|discriminate]. destruct (on_new_response _ _ _ _) as [[[|a l]| | |] s1]; try discriminate.
  destruct (existsb _ _); [apply challenge_late|]. destruct (capture_index _ _ _) as [[k|] ls]; [|discriminate]. destruct (nth_error _ _); [apply challenge_late|discriminate].
Qed.
Lemma challenge_cb_late : forall E c ci d c' i w, challenge_cb E c ci d = (c', NWait i w) -> ~ early w.
Proof.
  intros E c ci d c' i w. unfold challenge_cb, exits, falls. destruct (cl_req c) as [s|]; [|discriminate]. destruct (on_challenge_response _ _ _ _) as [[u| | |] s1]; try discriminate.
  destruct (_ =? _); [|apply challenge_late]. intros Q. injection Q as <- <- <-. intros [].
Qed.
Lemma run_new_late : forall E c ci ls p n c' i w, run_new E c ci ls p n = (c', NWait i w) -> ~ early w.
Proof.
  intros E c ci ls p n c' i w H EA. revert H. unfold run_new, exits, falls. destruct (capture_validity 3 ls) as [[hours|] ls1]; [|discriminate].
  repeat match goal with |- (let (_, _) := ?x in _) = _ -> _ => destruct x end. destruct o as [[kn sk]|]; [|discriminate]. destruct (_ && _); [|discriminate].
  destruct (gen_new _ _ _ _ _ _ _) as [[[x|]| | |] s1]; try discriminate. intros Q. injection Q as <- <- <-. destruct EA.
Qed.
Lemma redirect_same : forall c f c' i w, redirect_to c f = (c', NWait i w) -> c' = c.
Proof. intros c f c' i w. unfold redirect_to, discover, falls. destruct (ca_of_full f); try discriminate. destruct (gen_discovery _); try discriminate. intros Q. injection Q as <- _ _. reflexivity. Qed.
Lemma probe_same : forall E c ci p d c' i w, probe_cb E c ci p d = (c', NWait i w) -> early w -> c' = c.
Proof.
  intros E c ci p d c' i w. unfold probe_cb, exits, falls. destruct (on_probe_response E d p) as [[names rs]| | |]; try discriminate. destruct rs as [|f [|f2 rs]].
  - destruct names as [|[n z] [|b names]]; [discriminate|intros Q EA; destruct (run_new_late _ _ _ _ _ _ _ _ _ Q EA)|]. destruct (capture_one _ _) as [[k|] ls]; [|discriminate]. destruct (nth_error _ _) as [[n0 z0]|]; [|discriminate].
    intros Q EA; destruct (run_new_late _ _ _ _ _ _ _ _ _ Q EA).
  - intros Q _. exact (redirect_same _ _ _ _ _ Q).
  - destruct (all_cas _); try discriminate. destruct (capture_one _ _) as [[k|] ls]; [|discriminate]. destruct (nth_error _ _) as [f0|]; [|discriminate]. intros Q _. exact (redirect_same _ _ _ _ _ Q).
Qed.
Lemma early_trusted : forall E file pb h c nx, client_run E file pb h c nx -> forall i w, nx = NWait i w -> early w -> cl_probe c <> None -> cl_trusted c <> None.
Proof.
  intros E file pb h c nx H. induction H as [ci c nx ST|h c i0 w0 ci ev c' nx H IH M ST|h c ci c' nx H IH ST]; intros i w -> EA PM.
  - destruct (PM (start_probe _ _ _ _ _ _ ST)).
  - specialize (IH i0 w0 eq_refl). destruct ev as [d|d| | |]; cbn [client_step] in ST; [| destruct w0; try discriminate|discriminate|discriminate|destruct (signal_late _ _ _ _ ST)].
    + destruct w0 as [full|full|p| | |].
      * unfold meta_cb, falls in ST. destruct (gen_profile_interest d); try discriminate. injection ST as <- <- <-. exact (IH I PM).
      * unfold info_cb, falls in ST. pose proof (proj1 (proj2 (info_outcome E c full d))) as NC.
        match type of ST with match ?x with _ => _ end = _ => destruct x as [p| | |] end; try discriminate. destruct (cl_trusted c) as [t|] eqn:TR.
        -- unfold run_probe in ST. injection ST as <- _ _. cbn [up_probe cl_trusted]. rewrite TR. discriminate.
        -- destruct (next_line (ci_lines ci)). destruct (bytes_eqb _ _); [|discriminate]. unfold run_probe in ST. injection ST as <- _ _. cbn [up_probe up_trusted cl_trusted]. exact (NC p eq_refl).
      * pose proof (probe_same _ _ _ _ _ _ _ _ ST EA) as ->. exact (IH I PM).
      * destruct (new_late _ _ _ _ _ _ _ ST EA).
      * destruct (challenge_cb_late _ _ _ _ _ _ _ ST EA).
      * discriminate.
    + unfold cert_cb, falls in ST. destruct (on_cert_fetch d); try discriminate. destruct (pib_get _ _); [|discriminate]. destruct (find_key _ _) as [[]|]; [|discriminate]. destruct (bytes_eqb _ _); discriminate.
  - destruct (signal_late _ _ _ _ ST).
Qed.

(** The second CA shows its profile; the client asks it for names, with the parameters typed for the first. *)
Lemma arrives : forall E g S (ops : store_ops S) ca i file pb h c x n last m0 ci1 ci2, codec_laws E -> sig_laws E -> reachable E g ops ca ->
  p_prefix (cfp g) = n ++ [last] -> t_val last <> bs "CA" -> in_mversion i < 2 ^ 64 -> publishable E g ->
  client_run E file pb h c (NWait x (WMeta (full_name E (cf_cert g)))) -> gen_discovery (p_prefix (cfp g)) = Ok x -> cl_probe c = Some m0 ->
  exists ca' m d w, answers E g ops ca i x ca' m /\ ca_prof ca' = Some d /\ d_name d = profile_name g w /\
    (w < 2 ^ 64 -> name_fits (p_prefix (cfp g) ++ [gc (bs "CA"); gc (bs "INFO"); version_comp w]) -> exists y c2 z p,
       client_run E file pb ((ci1, Some (CData m)) :: h) c (NWait y (WInfo (full_name E (cf_cert g)))) /\ i_name y = d_name d /\
       client_run E file pb ((ci2, Some (CData d)) :: (ci1, Some (CData m)) :: h) c2 (NWait z (WProbe p)) /\
       p_prefix p = p_prefix (cfp g) /\ p_cert p = Some (cf_cert g) /\ p_probe_keys p = p_probe_keys (cfp g) /\ cl_probe c2 = Some m0 /\ cl_pib c2 = cl_pib c).
Proof.
  intros E g S ops ca i file pb h c x n last m0 ci1 ci2 LC LS RE PX NC MV (K1 & K2 & K3 & K4 & K5 & K6 & K7 & K8 & K9 & K10) R0 GD CP0.
  assert (CT : exists t, cl_trusted c = Some t) by (pose proof (early_trusted E file pb h c _ R0 x _ eq_refl I) as Z; destruct (cl_trusted c) as [t|]; [eauto|exfalso; apply Z; congruence]). destruct CT as (t & CT).
  assert (AD : addressed g VInfo (i_name x)) by (rewrite PX, discovery_name in GD by exact NC; injection GD as <-; unfold addressed; cbn [i_name]; rewrite PX; exists []; reflexivity).
  assert (OI : exists es, on_interest E g ops ca i x = (es, Ok tt)).
  { rewrite (on_interest_at E g S ops _ ca i x AD). cbn [handle]. unfold on_discovery, on_get_profile, profile_data. destruct (ca_prof ca) as [d|]; [eexists; reflexivity|]. destruct (encodes E (cfp g) (cf_cert g) K6) as (b & ->). eexists. reflexivity. }
  destruct OI as (es & OI).
  destruct (discovered E g S ops ca i x es n last RE PX NC GD OI MV) as (d & m & w & y & PU & GP & DS & DN & CP & FIT).
  exists (apply_effs ops es ca), m, d, w. split; [exists es; split; [cbn [step]; rewrite OI; reflexivity|exact PU]|]. split; [exact CP|]. split; [exact DN|]. intros WB NF. destruct (FIT WB NF) as [GI YN].
  assert (MM : matches E x (WMeta (full_name E (cf_cert g))) (CData m)).
  { cbn. destruct (discovery_reply E g S ops ca i x es RE AD OI) as (d' & m' & v' & _ & PU' & _ & _ & _ & _ & _ & MN). rewrite PU in PU'. injection PU' as <-. rewrite MN. rewrite PX, discovery_name in GD by exact NC. injection GD as <-. cbn [i_name]. rewrite PX.
    change [gc (bs "CA"); gc (bs "INFO"); Tlv T_Keyword (bs "metadata"); version_comp (in_mversion i); Tlv T_Segment (nni_enc 0)] with ([gc (bs "CA"); gc (bs "INFO"); Tlv T_Keyword (bs "metadata")] ++ [version_comp (in_mversion i); Tlv T_Segment (nni_enc 0)]).
    rewrite app_assoc. apply is_prefix_app. }
  assert (R1 : client_run E file pb ((ci1, Some (CData m)) :: h) c (NWait y (WInfo (full_name E (cf_cert g))))).
  { eapply run_event; [exact R0|exact MM|]. cbn [client_step]. unfold meta_cb. rewrite GI. reflexivity. }
  assert (PD : exists w', profile_data E g None w' = Ok d).
  { unfold on_get_profile in GP. destruct (ca_prof ca) as [d0|] eqn:CQ; [change (profile_data E g (Some d0) (in_version i)) with (Ok d0) in GP; apply pair_equal_spec in GP as [_ GP]; injection GP as <-; exact (reach_made E g S ops ca RE d0 CQ)|]. destruct (profile_data E g None (in_version i)) as [d1| | |] eqn:Q; try discriminate. apply pair_equal_spec in GP as [_ GP]. injection GP as <-. eauto. }
  destruct PD as (w' & PD). destruct (own_profile E g w' d LC LS PD K1 K2 K3 K4 K5 K7 K8 K9 K10) as (p & _ & OP & P1 & P2 & _ & P3).
  assert (IC : info_cb E c ci2 (full_name E (cf_cert g)) d = (up_probe (Some m0) c, NWait (gen_probe E p m0) (WProbe p))).
  { unfold info_cb. destruct (full_name E (cf_cert g)) as [|a f] eqn:FN; [unfold full_name in FN; destruct (c_name (cf_cert g)); discriminate|]. rewrite OP, CT. unfold run_probe. rewrite CP0. reflexivity. }
  exists y. eexists. eexists. exists p. split; [exact R1|]. split; [exact YN|]. split; [eapply run_event; [exact R1|cbn; symmetry; exact YN|cbn [client_step]; exact IC]|]. split; [exact P1|]. split; [exact P2|]. split; [exact P3|]. split; reflexivity.
Qed.
