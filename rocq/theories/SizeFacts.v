(** How long the CA's replies are. *)
From Verif Require Import BytesFacts TlvFacts ChallengeCodecFacts PolicyFacts CaFacts.
From Verif Require Export WireFacts Spec_Limits.
From Coq Require Import Lia.
Local Open Scope N_scope.

Lemma size_var : forall n w, var_number n w -> blen w <= 9.
Proof. intros n w [x H|b L H|b L H|b L H]; unfold blen; cbn [length]; try rewrite L; vm_compute; discriminate. Qed.
Definition room (l : list (N * bytes)) : N := fold_right (fun tv n => 18 + blen (snd tv) + n) 0 l.
Lemma size_message : forall l w, message l w -> blen w <= room l.
Proof. intros l w H. induction H as [|ty v l t n w T N M IH]; [vm_compute; discriminate|]. apply size_var in T, N. rewrite !blen_app. cbn [room fold_right snd]. fold (room l). lia. Qed.
Lemma size_integer : forall n v, integer n v -> blen v <= 8.
Proof. intros n v (_ & H). unfold blen. lia. Qed.
Lemma room_app : forall a b, room (a ++ b) = room a + room b.
Proof. induction a as [|x a IH]; intros b; [reflexivity|]. cbn [app room fold_right]. fold (room (a ++ b)). fold (room a). rewrite IH. lia. Qed.
Lemma room_total : forall ty l, room (map (pair ty) l) = 18 * N.of_nat (length l) + total l.
Proof. intros ty. induction l as [|x l IH]; [reflexivity|]. cbn [map room fold_right snd total]. fold (room (map (pair ty) l)). fold (total l). rewrite IH. cbn [length]. lia. Qed.

Lemma size_enc_var : forall n, blen (enc_var n) <= 9 /\ 1 <= blen (enc_var n).
Proof. intros n. unfold enc_var, blen. destruct (n <? 253); [cbn; lia|]. destruct (n <=? 65535); [cbn [length]; rewrite be_enc_length; lia|]. destruct (n <=? 4294967295); cbn [length]; rewrite be_enc_length; lia. Qed.
Lemma size_enc_tlv : forall t, blen (enc_tlv t) <= 18 + blen (t_val t) /\ blen (t_val t) <= blen (enc_tlv t).
Proof. intros t. unfold enc_tlv. rewrite !blen_app. pose proof (size_enc_var (t_type t)). pose proof (size_enc_var (blen (t_val t))). lia. Qed.
Lemma size_firstn : forall k (n : name), blen (enc_tlvs (firstn k n)) <= blen (enc_tlvs n).
Proof. induction k as [|k IH]; intros [|c n]; cbn [firstn enc_tlvs]; try (unfold blen; cbn; lia). rewrite !blen_app. specialize (IH n). lia. Qed.
Lemma size_tlvs_app : forall a b, enc_tlvs (a ++ b) = enc_tlvs a ++ enc_tlvs b.
Proof. induction a as [|x a IH]; intros b; [reflexivity|]. cbn [app enc_tlvs]. rewrite IH. apply app_assoc. Qed.
Lemma size_name : forall n, blen (name_wire n) <= 18 + blen (enc_tlvs n) /\ blen (enc_tlvs n) <= blen (name_wire n).
Proof. intros n. exact (size_enc_tlv (name_tlv n)). Qed.
Lemma size_issued : forall r v, blen v <= 8 -> blen (name_wire (key_name_of r ++ [Tlv 8 (bs "NDNCERT"); Tlv 54 v])) <= blen (name_wire r) + 69.
Proof.
  intros r v V. pose proof (size_name (key_name_of r ++ [Tlv 8 (bs "NDNCERT"); Tlv 54 v])) as [A _]. pose proof (size_name r) as [_ B]. rewrite size_tlvs_app, blen_app in A.
  assert (C : blen (enc_tlvs (key_name_of r)) <= blen (enc_tlvs r)). { unfold key_name_of, prefix_neg. destruct (Nat.leb 2 (length r)); [apply size_firstn|apply N.le_refl]. }
  cbn [enc_tlvs] in A. rewrite !blen_app in A. pose proof (size_enc_tlv (Tlv 8 (bs "NDNCERT"))) as [D _]. pose proof (size_enc_tlv (Tlv 54 v)) as [F _]. cbn [t_val] in *. change (blen (bs "NDNCERT")) with 7 in D. change (blen []) with 0 in A. lia.
Qed.
Lemma size_sealed : forall E key id plain w, aes_laws E -> wire_sealed E key id plain w -> blen w <= blen plain + 82.
Proof.
  intros E key id plain w L (iv & ct & tag & L1 & L2 & Q & M). apply size_message in M. destruct (l_aes_len E L _ _ _ _ _ _ Q) as [LC _]. unfold room, blen in *. cbn [fold_right snd] in M. rewrite L1, L2, LC in M. lia.
Qed.
Lemma size_prefixed : forall p v, blen v <= 8 -> blen (name_wire (p ++ [Tlv 8 (bs "CA"); Tlv 8 (bs "INFO"); Tlv 54 v])) <= blen (name_wire p) + 90.
Proof.
  intros p v V. pose proof (size_name (p ++ [Tlv 8 (bs "CA"); Tlv 8 (bs "INFO"); Tlv 54 v])) as [A _]. pose proof (size_name p) as [_ B]. rewrite size_tlvs_app, blen_app in A. cbn [enc_tlvs] in A. rewrite !blen_app in A.
  pose proof (size_enc_tlv (Tlv 8 (bs "CA"))) as [D _]. pose proof (size_enc_tlv (Tlv 8 (bs "INFO"))) as [D' _]. pose proof (size_enc_tlv (Tlv 54 v)) as [F _]. cbn [t_val] in *. change (blen (bs "CA")) with 2 in D. change (blen (bs "INFO")) with 4 in D'. change (blen []) with 0 in A. lia.
Qed.
Lemma size_reply : forall E g asked x w L, aes_laws E -> ca_message E g asked x w -> ~ to_verb (p_prefix (cfp g)) (bs "PROBE") x -> room_needed E g asked L -> blen w <= L + 400.
Proof.
  intros E g asked x w L LA M NP (R1 & R2 & R3).
  destruct M as [code text w C T (c & I & M)|v V _|sufs reds w P _|verb sk salt id w VB TV (LS & LI & M)|key id word tries time nonce plain w TV IW TR _ NN (t1 & t2 & I1 & I2 & M) WS|key id issued plain w TV CI M WS].
  - apply size_message in M. apply size_integer in I. unfold room in M. cbn [fold_right snd] in M. lia.
  - pose proof (size_prefixed (p_prefix (cfp g)) v V) as Q. apply (N.le_trans _ _ _ Q). lia.
  - contradiction.
  - apply size_message in M. rewrite room_app, room_total in M. specialize (R1 sk). unfold room in M. cbn [fold_right snd] in M. assert (B1 : blen salt = 32) by (unfold blen; rewrite LS; reflexivity). assert (B2 : blen id = 8) by (unfold blen; rewrite LI; reflexivity). lia.
  - apply size_sealed in WS; [|exact LA]. apply size_message in M. apply size_integer in I1, I2. rewrite room_app in M.
    assert (W : blen word <= 10) by (cbn [In] in IW; destruct IW as [<-|[<-|[<-|[]]]]; vm_compute; discriminate).
    destruct nonce as [v|]; unfold room in M; cbn [fold_right snd] in M; change (blen [x01]) with 1 in M; [|lia].
    assert (B : blen v = 16) by (unfold blen; rewrite (NN v eq_refl); reflexivity). change (blen (bs "nonce")) with 5 in M. lia.
  - apply size_sealed in WS; [|exact LA]. apply size_message in M. rewrite room_app in M. change (room [(155, [x03])]) with 19 in M.
    destruct issued as [[c hint]|]; [|change (room []) with 0 in M; lia]. destruct (CI c hint eq_refl) as (-> & r & v & A & V & ->). specialize (R3 r A). pose proof (size_issued (c_name r) v V).
    unfold room in M. cbn [fold_right snd] in M. lia.
Qed.
Lemma content_size : forall E g S (ops : store_ops S) tr st s i x d L, aes_laws E -> hash_laws E -> (forall k, p_maxsuffix (cfp g) = Some k -> k < 2 ^ 64) ->
  ca_history E g ops (tr ++ [st]) s -> handles st i x -> In (EPut d) (h_effs st) -> fits (d_content d) -> ~ to_verb (p_prefix (cfp g)) (bs "PROBE") x ->
  room_needed E g (asked_for ops (h_pre st)) L -> blen (d_content d) <= L + 400.
Proof. intros E g S ops tr st s i x d L LA LH MX H HA I F NP R. exact (size_reply E g _ x _ L LA (replies_wired E g S ops tr st s i x d LA LH MX H HA I F) NP R). Qed.

Lemma size_probe : forall ids max reds, blen (probe_encode ids max reds) <= total (map name_wire ids) + 62 * N.of_nat (length ids) + total (map name_wire reds) + 18 * N.of_nat (length reds).
Proof.
  intros ids max reds. unfold probe_encode. rewrite size_tlvs_app, blen_app.
  assert (A : blen (enc_tlvs (map (fun n => Tlv T_ProbeRedirect (name_wire n)) reds)) <= total (map name_wire reds) + 18 * N.of_nat (length reds)).
  { induction reds as [|n reds IH]; [vm_compute; discriminate|]. cbn [map enc_tlvs total fold_right length]. fold (total (map name_wire reds)). rewrite blen_app. pose proof (size_enc_tlv (Tlv T_ProbeRedirect (name_wire n))) as [B _]. cbn [t_val] in B. lia. }
  set (rest := match max with Some k => [Tlv T_MaxSuffixLength (nni_enc k)] | None => [] end).
  assert (R : blen (enc_tlvs rest) <= 26).
  { unfold rest. destruct max as [k|]; [|vm_compute; discriminate]. cbn [enc_tlvs]. rewrite app_nil_r. pose proof (size_enc_tlv (Tlv T_MaxSuffixLength (nni_enc k))) as [B _]. pose proof (nni_enc_len k). cbn [t_val] in B. lia. }
  assert (C : blen (enc_tlvs (map (fun n => Tlv T_ProbeResponse (enc_tlvs (name_tlv n :: rest))) ids)) <= total (map name_wire ids) + 62 * N.of_nat (length ids)); [|lia].
  induction ids as [|n ids IH]; [vm_compute; discriminate|]. cbn [map total fold_right length]. fold (total (map name_wire ids)). cbn [enc_tlvs]. rewrite blen_app.
  pose proof (size_enc_tlv (Tlv T_ProbeResponse (enc_tlv (name_tlv n) ++ enc_tlvs rest))) as [B _]. cbn [t_val] in B. rewrite blen_app in B. change (enc_tlv (name_tlv n)) with (name_wire n) in *. cbn [enc_tlvs] in IH. rewrite Nat2N.inj_succ. lia.
Qed.
Lemma probe_content : forall E g S (ops : store_ops S) s i x es o d L, addressed g VProbe (i_name x) -> on_interest E g ops s i x = (es, o) -> In (EPut d) es -> probe_room E g i x L -> blen (d_content d) <= L + 400.
Proof.
  intros E g S ops s i x es o d L AD H I R. rewrite (on_interest_at E g S ops _ s i x AD) in H. cbn [handle] in H. unfold on_probe in H.
  destruct (probe_params_decode (params_of x)) as [params| | |] eqn:PD; cbn [bind] in H; [|injection H as <- <-; destruct I..].
  destruct (redirects E (cf_redirect (cf g)) params) as [rs| | |] eqn:RD; cbn [bind] in H; [|injection H as <- <-; destruct I..].
  destruct (suffixes E (assigns g) (in_words64 i) params) as [ns| | |] eqn:SF; cbn [bind] in H; [|injection H as <- <-; destruct I..].
  apply targets_iff in RD. apply suffixes_offers in SF. specialize (R params rs ns PD RD SF).
  assert (G : In (EPut d) [EPut (reply_data E g (i_name x) (probe_encode (map (fun s => p_prefix (cfp g) ++ s) ns) (p_maxsuffix (cfp g)) rs))] -> blen (d_content d) <= L + 400).
  { intros [Q|[]]. injection Q as <-. cbn [reply_data mk_data d_content]. pose proof (size_probe (map (fun s => p_prefix (cfp g) ++ s) ns) (p_maxsuffix (cfp g)) rs) as B. rewrite map_map, map_length in B. exact (N.le_trans _ _ _ B (N.le_trans _ _ _ R (N.le_add_r L 400))). }
  destruct rs as [|r rs]; [destruct ns as [|n ns]|]; injection H as <- <-; [|exact (G I)|exact (G I)].
  destruct I as [I|[]]. injection I as <-. cbn [put_error error_data reply_data mk_data d_content]. unfold err_encode. set (info := bs _). assert (B : blen (err_encode INVALID_PARAMETER info) <= 400) by (vm_compute; discriminate). unfold err_encode in B. lia.
Qed.
