(** A server and the limit on packets. *)
From Verif Require Import TlvFacts CaFacts ServerFacts ProcessFacts WireFacts SizeFacts LimitsFacts CrashFacts.
From Verif Require Export Spec_Face Spec_Crash.
From Coq Require Import Lia.
Local Open Scope N_scope.

(** ** The same life *)
Lemma sent_in : forall E g os b o, In o (sent E g b os) -> In o os.
Proof.
  intros E g os. induction os as [|o os IH]; intros b o'; [intros []|]. cbn [sent]. destruct (face_wire E g o); [destruct (b && _)|]; intros H.
  - destruct H as [->|H]; [left; reflexivity|right; exact (IH _ _ H)].
  - right. exact (IH _ _ H).
  - destruct H as [->|H]; [left; reflexivity|right; exact (IH _ _ H)].
Qed.
Lemma sent_certs : forall E g os b c, In (ORepoCert c) os -> In (ORepoCert c) (sent E g b os).
Proof.
  intros E g os. induction os as [|o os IH]; intros b c H; [destruct H|]. cbn [sent]. destruct H as [->|H]; [left; reflexivity|].
  destruct (face_wire E g o); [destruct (b && _)|]; [right|..]; try (apply IH, H). right. apply IH, H.
Qed.
Lemma face_life : forall E g S (ops : store_ops S) repo tr p, face_history E g ops repo tr p -> exists tr', server_history E g ops repo tr' p /\ same_life tr tr'.
Proof.
  intros E g S ops repo tr p [LC NF B H]. assert (G : exists tr', psteps E g ops repo (Down (s_empty ops)) tr' p /\ same_life tr tr'); [|destruct G as (tr' & G1 & G2); exists tr'; split; [constructor; assumption|exact G2]].
  clear LC NF B. induction H as [p|p ev os p1 tr p2 ST H IH]; [exists []; split; constructor|]. destruct IH as (tr' & P & L). unfold fstep in ST.
  destruct (pstep E g ops repo p ev) as [[q os0]|] eqn:PS; [|discriminate]. destruct q as [st|ca d cache].
  - injection ST as <- <-. exists (SStep p ev os0 (Down st) :: tr'). split; [econstructor; eassumption|constructor; exact L].
  - destruct (existsb (too_large E g) os0); injection ST as <- <-.
    + exists (SStep p ev os0 (Running ca d cache) :: SStep (Running ca d cache) PvStop [] (Down (ca_store ca)) :: tr'). split; [econstructor; [exact PS|econstructor; [reflexivity|exact P]]|].
      apply sl_ends; [apply sent_in|intros c; apply sent_certs|exact L].
    + exists (SStep p ev os0 (Running ca d cache) :: tr'). split; [econstructor; eassumption|constructor; exact L].
Qed.

(** ** Anyone can end it *)
Lemma size_front : forall t l, blen (enc_tlv t) <= blen (enc_tlvs (t :: l)) /\ blen (enc_tlvs l) <= blen (enc_tlvs (t :: l)).
Proof. intros t l. cbn [enc_tlvs]. rewrite blen_app. lia. Qed.
Lemma data_above : forall g d, data_size_above d <= blen (data_wire g d).
Proof.
  intros g d. unfold data_size_above, data_wire. refine (N.le_trans _ _ _ _ (proj2 (size_enc_tlv _))). cbn [t_val enc_tlvs]. rewrite !blen_app. unfold name_wire. lia.
Qed.
Lemma sent_nothing : forall E g os, module_packets (sent E g false os) = [].
Proof. intros E g os. induction os as [|o os IH]; [reflexivity|]. cbn [sent]. destruct o as [d|[d|c]|d|c]; cbn [face_wire andb]; exact IH. Qed.
Lemma module_sent : forall E g os d, module_packets os = [d] -> too_large E g (OModule d) = true -> forall b, module_packets (sent E g b os) = [].
Proof.
  intros E g os d M L. induction os as [|o os IH]; intros b; [discriminate|]. destruct o as [d'|[d'|c]|d'|c]; cbn [module_packets flat_map app] in M; fold (module_packets os) in M; cbn [sent face_wire].
  - injection M as -> M. rewrite L, andb_false_r. apply sent_nothing.
  - destruct (b && _); [exact (IH M true)|exact (IH M false)].
  - destruct (b && _); [exact (IH M true)|exact (IH M false)].
  - exact (IH M b).
  - exact (IH M b).
Qed.
Theorem anyone_ends : forall E g S (ops : store_ops S) repo tr ca d cache i, face_history E g ops repo tr (Running ca d cache) -> blen (enc_tlvs (p_prefix (cfp g))) <= 8000 ->
  exists x os, interest_size x <= packet_limit /\ i_sig x = None /\ fstep E g ops repo (Running ca d cache) (PvInterest i x) = Some (Down (ca_store ca), os) /\ module_packets os = [].
Proof.
  intros E g S ops repo tr ca d cache i H PS.
  destruct (oversized_on E g S ops ca i PS) as (x & m & XS & SG & OI & BIG).
  assert (TL : too_large E g (OModule m) = true) by (unfold too_large; cbn [face_wire]; apply N.ltb_lt; exact (N.lt_le_trans _ _ _ BIG (data_above g m))).
  exists x. eexists. split; [exact XS|]. split; [exact SG|]. unfold fstep. cbn [pstep]. rewrite OI.
  assert (MP : module_packets (filter_outs E g repo d cache x ++ effect_outs repo [EPut m]) = [m]) by (rewrite module_app, filter_module; reflexivity).
  assert (EX : existsb (too_large E g) (filter_outs E g repo d cache x ++ effect_outs repo [EPut m]) = true).
  { apply existsb_exists. exists (OModule m). split; [apply in_or_app; right; left; reflexivity|exact TL]. }
  rewrite EX. split; [reflexivity|]. exact (module_sent _ _ _ _ MP TL true).
Qed.

(** ** Short Interests do not *)
(** The packets of the CA module. *)
Lemma put_form : forall E g S (ops : store_ops S) s i x full o d, ca_at E g ops s -> on_interest E g ops s i x = (full, o) -> In (EPut d) full ->
  (exists content, d = reply_data E g (i_name x) content) \/
  exists v, d_fresh d = 10000000%Z /\ d_final d = Some segment0 /\ d_sig d = o_sign E (cf_sk g) (data_msg d) /\ d_name d = p_prefix (cfp g) ++ [gc (bs "CA"); gc (bs "INFO"); c_metadata; version_comp v; segment0].
Proof.
  intros E g S ops s i x full o d A H I.
  assert (NEW : forall add_ok rt, rt = RT_NEW \/ rt = RT_REVOKE -> on_new E g add_ok (ca_idkey s) i rt x = (full, o) -> exists content, d = reply_data E g (i_name x) content).
  { intros add_ok rt RT Q. apply on_new_cases in Q; [|exact RT]. destruct Q as [(peer & c & AD & AO & _ & ->)|[(code & info & _ & -> & _ & _)|(_ & -> & _)]].
    - destruct I as [I|[I|[I|[]]]]; try discriminate. injection I as <-. eexists. reflexivity.
    - destruct I as [I|[]]. injection I as <-. eexists. reflexivity.
    - destruct I. }
  destruct (on_interest_cases E g S ops s i x) as [[NA Q]|(v & AD & Q)]; rewrite Q in H; [injection H as <- <-; destruct I|].
  destruct v; cbn [handle] in H.
  - right. unfold on_discovery in H. destruct (on_get_profile E g (ca_prof s) i) as [es [d0| | |]] eqn:GP.
    2:{ injection H as <- <-. unfold on_get_profile in GP. destruct (profile_data E g (ca_prof s) (in_version i)); [destruct (ca_prof s)|..]; try discriminate; injection GP as <-; destruct I. }
    2,3: unfold on_get_profile in GP; destruct (profile_data E g (ca_prof s) (in_version i)); [destruct (ca_prof s)|..]; try discriminate; injection GP as <-; injection H as <- <-; destruct I.
    injection H as <- <-. apply get_profile_spec in GP.
    assert (N0 : exists v0, d_name d0 = profile_name g v0).
    { destruct GP as [[P _]|(_ & _ & D & _)]; [destruct (reach_profile E g S ops s (at_reach _ _ _ _ A) d0 P) as (v0 & Q0 & _); eauto|eauto]. }
    destruct N0 as (v0 & N0).
    assert (D : d = mk_data E g (prefix_neg 2 (d_name d0) ++ [c_metadata; version_comp (in_mversion i); segment0]) (name_wire (prefix_neg 1 (d_name d0))) 10000000 (Some segment0)).
    { apply in_app_or in I as [I|[I|[]]]; [|congruence]. destruct GP as [[_ ->]|(_ & -> & _)]; [destruct I|destruct I as [I|[]]; discriminate]. }
    exists (in_mversion i). rewrite D. split; [reflexivity|]. split; [reflexivity|]. split; [reflexivity|]. cbn [mk_data d_name]. rewrite N0.
    assert (N2 : prefix_neg 2 (profile_name g v0) = p_prefix (cfp g) ++ [gc (bs "CA"); gc (bs "INFO")]).
    { exact (eq_trans (f_equal (prefix_neg 2) (app_assoc (p_prefix (cfp g)) [gc (bs "CA"); gc (bs "INFO")] [version_comp v0; Tlv T_Segment (nni_enc 0)])) (prefix_neg_app _ [version_comp v0; Tlv T_Segment (nni_enc 0)])). }
    rewrite N2, <- app_assoc. reflexivity.
  - left. unfold on_probe in H. match type of H with match ?b with _ => _ end = _ => destruct b as [[reds sufs]| | |] end; try (injection H as <- <-; destruct I).
    destruct reds, sufs; unfold put_error in H; injection H as <- <-; destruct I as [I|[]]; injection I as <-; eexists; reflexivity.
  - left. exact (NEW _ RT_NEW (or_introl eq_refl) H).
  - left. destruct (on_challenge_cases E g (s_get ops (ca_store s)) i x) as [(r & F & CO)|[(_ & _ & info & _ & Q')|(_ & Q')]]; [|rewrite Q' in H; injection H as <- <-..].
    + rewrite H in CO. assert (EMS : forall em, ~ In (EPut d) (email_effs em)) by (intros [cmd|] X; [destruct X as [X|[]]; discriminate|destruct X]).
      inversion CO; subst full; repeat (match goal with X : In (EPut d) (_ ++ _) |- _ => apply in_app_or in X; destruct X as [X|X]; [destruct (EMS _ X)|] | X : In (EPut d) (email_effs _) |- _ => destruct (EMS _ X) end);
        repeat (destruct I as [I|I]; [try discriminate I; injection I as <-; eexists; reflexivity|]); destruct I.
    + destruct I as [I|[]]. injection I as <-. eexists. reflexivity.
    + destruct I.
  - left. exact (NEW _ RT_REVOKE (or_intror eq_refl) H).
Qed.

Lemma size_one : forall l n, blen (enc_tlvs l) <= n -> forall t m, blen (t_val t) <= m -> blen (enc_tlvs (t :: l)) <= 18 + m + n.
Proof. intros l n A t m B. cbn [enc_tlvs]. rewrite blen_app. pose proof (size_enc_tlv t) as [C _]. lia. Qed.
Lemma size_nil : blen (enc_tlvs []) <= 0.
Proof. vm_compute. discriminate. Qed.
Lemma data_below : forall g d K, blen (d_sig d) <= K -> d_final d = None \/ d_final d = Some segment0 ->
  blen (data_wire g d) <= blen (name_wire (d_name d)) + blen (d_content d) + blen (name_wire (cf_keyloc g)) + K + 260.
Proof.
  intros g d K SG FI. unfold data_wire. set (meta := Tlv 25 _ :: _).
  assert (M : blen (enc_tlvs meta) <= 90).
  { unfold meta. pose proof (nni_enc_len (Z.to_N (d_fresh d / 1000000))) as L. destruct FI as [-> | ->].
    - pose proof (size_one [] 0 size_nil (Tlv 25 (nni_enc (Z.to_N (d_fresh d / 1000000)))) 8 L) as Q. lia.
    - assert (F : blen (enc_tlvs [Tlv 26 (enc_tlv segment0)]) <= 21) by (apply (size_one [] 0 size_nil (Tlv 26 (enc_tlv segment0)) 3); vm_compute; discriminate).
      pose proof (size_one _ _ F (Tlv 25 (nni_enc (Z.to_N (d_fresh d / 1000000)))) 8 L) as Q. lia. }
  assert (SI : blen (enc_tlvs [Tlv 27 [x03]; Tlv 28 (name_wire (cf_keyloc g))]) <= 40 + blen (name_wire (cf_keyloc g))).
  { assert (F : blen (enc_tlvs [Tlv 28 (name_wire (cf_keyloc g))]) <= 18 + blen (name_wire (cf_keyloc g)) + 0) by (apply (size_one [] 0 size_nil (Tlv 28 (name_wire (cf_keyloc g)))); apply N.le_refl).
    assert (L1 : blen (t_val (Tlv 27 [x03])) <= 1) by (vm_compute; discriminate). pose proof (size_one _ _ F (Tlv 27 [x03]) 1 L1) as Q. lia. }
  set (me := enc_tlvs meta) in *. set (si := enc_tlvs [Tlv 27 [x03]; Tlv 28 (name_wire (cf_keyloc g))]) in *. clearbody me si.
  pose proof (size_one [] 0 size_nil (Tlv 23 (d_sig d)) K SG) as A1. pose proof (size_one _ _ A1 (Tlv 22 si) _ SI) as A2.
  pose proof (size_one _ _ A2 (Tlv T_Content (d_content d)) _ (N.le_refl _)) as A3. pose proof (size_one _ _ A3 (Tlv 20 me) _ M) as A4. cbn [t_val] in A4.
  set (rest := [Tlv 20 me; Tlv T_Content (d_content d); Tlv 22 si; Tlv 23 (d_sig d)]) in *. clearbody rest.
  pose proof (size_enc_tlv (Tlv T_Data (enc_tlvs (name_tlv (d_name d) :: rest)))) as [Z _]. cbn [t_val] in Z.
  assert (Y : blen (enc_tlvs (name_tlv (d_name d) :: rest)) = blen (name_wire (d_name d)) + blen (enc_tlvs rest)) by (cbn [enc_tlvs]; apply blen_app). lia.
Qed.
Lemma meta_name : forall p v, blen (name_wire (p ++ [gc (bs "CA"); gc (bs "INFO"); c_metadata; version_comp v; segment0])) <= blen (name_wire p) + 140.
Proof.
  intros p v. pose proof (size_name (p ++ [gc (bs "CA"); gc (bs "INFO"); c_metadata; version_comp v; segment0])) as [A _]. pose proof (size_name p) as [_ B]. rewrite size_tlvs_app, blen_app in A.
  assert (C : blen (enc_tlvs [gc (bs "CA"); gc (bs "INFO"); c_metadata; version_comp v; segment0]) <= 122); [|lia].
  assert (L : blen (t_val (version_comp v)) <= 8) by apply nni_enc_len.
  assert (Q1 : blen (enc_tlvs [segment0]) <= 3) by (vm_compute; discriminate). pose proof (size_one _ _ Q1 _ _ L) as Q2.
  change (enc_tlvs [gc (bs "CA"); gc (bs "INFO"); c_metadata; version_comp v; segment0]) with (enc_tlvs ([gc (bs "CA"); gc (bs "INFO"); c_metadata] ++ [version_comp v; segment0])). rewrite size_tlvs_app, blen_app.
  change (blen (enc_tlvs [gc (bs "CA"); gc (bs "INFO"); c_metadata])) with 20. apply (N.add_le_mono_l _ _ 20) in Q2. refine (N.le_trans _ _ _ Q2 _). vm_compute. discriminate.
Qed.
Lemma probe_or_not : forall v, v = VProbe \/ v <> VProbe.
Proof. intros []; [right; discriminate|left; reflexivity|right; discriminate..]. Qed.
Lemma addressed_probe : forall g x v, addressed g v (i_name x) -> to_verb (p_prefix (cfp g)) (bs "PROBE") x -> v = VProbe.
Proof. intros g x v A [rest T]. apply (addressed_unique g (i_name x) v VProbe A). exists rest. exact T. Qed.
Theorem short_served : forall E g S (ops : store_ops S) repo tr ca d cache i x L K p os, aes_laws E -> hash_laws E -> (forall k, p_maxsuffix (cfp g) = Some k -> k < 2 ^ 64) ->
  face_history E g ops repo tr (Running ca d cache) -> short_names g ops ca -> suffix_limit_sane g -> (addressed g VProbe (i_name x) -> probe_room E g i x L) ->
  room_needed E g (asked_for ops ca) L -> (forall m, blen (o_sign E (cf_sk g) m) <= K) ->
  blen (name_wire (i_name x)) + 2 * L + blen (name_wire (cf_keyloc g)) + K + 800 <= packet_limit -> data_fits g d -> Forall (cert_fits E) cache ->
  pstep E g ops repo (Running ca d cache) (PvInterest i x) = Some (p, os) -> Forall (fun d => fits (d_content d)) (module_packets os) ->
  fstep E g ops repo (Running ca d cache) (PvInterest i x) = Some (p, os) /\ (~ throws E g ops ca i x -> exists ca' cache', p = Running ca' d cache').
Proof.
  intros E g S ops repo tr ca d cache i x L K p os LA LH MX H SN SL NP R SG ROOM DF CF ST FT. destruct (face_life _ _ _ _ _ _ _ H) as (tr' & H' & _). destruct (running_at _ _ _ _ _ _ _ _ _ H') as [AT _].
  pose proof (@throws_iff E g S ops ca i x AT SN SL) as TH. cbn [pstep] in ST. destruct (on_interest E g ops ca i x) as [es o] eqn:OI. cbn [snd] in TH.
  assert (QS : os = filter_outs E g repo d cache x ++ effect_outs repo es) by (destruct o; try discriminate; injection ST as _ <-; reflexivity).
  assert (NL : existsb (too_large E g) os = false).
  { destruct (existsb (too_large E g) os) eqn:EX; [|reflexivity]. exfalso. apply existsb_exists in EX as (w & IN & TL). rewrite QS in IN. apply in_app_or in IN as [IN|IN].
    - unfold filter_outs in IN. destruct repo; [destruct IN|]. destruct (is_prefix _ _); [|destruct IN]. destruct (serve E d cache (i_name x)) as [a|] eqn:SV; [|destruct IN]. destruct IN as [<-|[]]. unfold serve in SV.
      destruct (is_prefix (i_name x) (d_name d)); [injection SV as <-; unfold too_large in TL; cbn [face_wire] in TL; apply N.ltb_lt in TL; unfold data_fits, packet_limit in DF; lia|].
      destruct (find _ cache) as [c|] eqn:FD; [|discriminate]. injection SV as <-. apply find_some in FD as [FD _]. rewrite Forall_forall in CF. specialize (CF c FD). unfold too_large in TL. cbn [face_wire] in TL. apply N.ltb_lt in TL. unfold cert_fits, packet_limit in CF. lia.
    - assert (D : exists m, w = OModule m /\ In (EPut m) es).
      { unfold effect_outs in IN. apply in_flat_map in IN as (e & IE & IN). destruct e; try destruct IN as [<-|[]]; try destruct IN.
        - eexists. split; [reflexivity|exact IE].
        - destruct (repo && _ && _); [destruct IN as [<-|[]]; discriminate TL|destruct IN]. }
      destruct D as (m & -> & IE).
      assert (FM : fits (d_content m)). { rewrite Forall_forall in FT. apply FT. rewrite QS, module_app, effect_module. apply in_or_app. right. unfold puts. apply in_flat_map. exists (EPut m). split; [exact IE|left; reflexivity]. }
      assert (CS : blen (d_content m) <= L + 400).
      { destruct (on_interest_cases E g S ops ca i x) as [[_ O]|(v & AD & _)]; [rewrite O in OI; injection OI as <- _; destruct IE|]. destruct (probe_or_not v) as [->|NV]; [exact (probe_content E g S ops ca i x es o m L AD OI IE (NP AD))|].
        refine (size_reply E g _ x _ L LA (interest_wired E g S ops ca i x es o m LA LH AT MX OI IE FM) _ R). intros TV. apply NV. exact (addressed_probe g x v AD TV). }
      unfold too_large in TL. cbn [face_wire] in TL. apply N.ltb_lt in TL. unfold packet_limit in ROOM.
      destruct (put_form E g S ops ca i x es o m AT OI IE) as [(content & ->)|(v & _ & F2 & F3 & F4)].
      + pose proof (data_below g (reply_data E g (i_name x) content) K (SG _) (or_introl eq_refl)) as B. cbn [reply_data mk_data d_name d_content] in B, CS. unfold reply_data in B, TL. cbn [mk_data d_name d_content] in TL, B. lia.
      + assert (SM : blen (d_sig m) <= K) by (rewrite F3; apply SG). pose proof (data_below g m K SM (or_intror F2)) as B. rewrite F4 in B. pose proof (meta_name (p_prefix (cfp g)) v) as MN. destruct R as (_ & R2 & _). lia. }
  split.
  - unfold fstep. cbn [pstep]. rewrite OI. destruct o as [[]| | |]; try discriminate; injection ST as <- Q; rewrite Q; [rewrite NL; reflexivity|reflexivity].
  - intros NT. destruct o as [[]| | |]; try discriminate; injection ST as <- _; [eexists _, _; reflexivity|]. destruct NT. apply TH. reflexivity.
Qed.
