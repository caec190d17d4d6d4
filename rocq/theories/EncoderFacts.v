(** Facts about the encoders (error, info, probe, request). *)
From Verif Require Export Spec_Codec ErrorEncoder InfoEncoder ProbeEncoder RequestEncoder ChallengeEncoder.
From Verif Require Export MultimapFacts NameFacts.
Local Open Scope N_scope.

(** Computes comparisons of closed numbers. *)
Ltac ncmp :=
  repeat match goal with
  | |- context [?a =? ?b] =>
      is_const a; is_const b; let r := eval vm_compute in (a =? b) in
      match r with
      | true => change (a =? b) with true
      | false => change (a =? b) with false
      end
  end; cbv beta iota.

Lemma wf_tlv_intro : forall ty v, 0 < ty -> ty <= max_type -> fits v -> wf_tlv (Tlv ty v).
Proof. intros. unfold wf_tlv. cbn [t_type t_val]. auto. Qed.
Ltac wft := apply wf_tlv_intro; [reflexivity|vm_compute; discriminate|].

Lemma fits_nni : forall n, fits (nni_enc n).
Proof. intros n. unfold fits. pose proof (nni_enc_len n). lia. Qed.

Lemma is_critical_iff : forall ty, is_critical ty = true <-> critical ty.
Proof.
  intros ty. unfold is_critical, critical. rewrite orb_true_iff, N.leb_le, N.odd_spec. reflexivity.
Qed.

Lemma dec_var_bound : forall b n r, dec_var b = Some (n, r) -> n < 2 ^ 64.
Proof.
  intros [|x b] n r H; [discriminate|]. cbn [dec_var] in H. pose proof (to_N_bounded x).
  assert (forall k, (k <= 8)%nat -> take_be k b = Some (n, r) -> n < 2 ^ 64) as T.
  { intros k Hk Ht. unfold take_be in Ht. destruct (Nat.leb_spec k (length b)); [|discriminate].
    injection Ht as <- <-. pose proof (be_dec_bound (firstn k b)) as B. unfold blen in B.
    rewrite firstn_length_le in B by lia.
    eapply N.lt_le_trans; [exact B|]. change (2 ^ 64) with (256 ^ 8). apply N.pow_le_mono_r; lia. }
  destruct (Byte.to_N x <? 253); [injection H as <- <-; lia|].
  destruct (Byte.to_N x =? 253); [apply (T 2%nat); [lia|exact H]|].
  destruct (Byte.to_N x =? 254); [apply (T 4%nat); [lia|exact H]|apply (T 8%nat); [lia|exact H]].
Qed.

Lemma dec_elem_wf : forall b t r, dec_elem b = Some (t, r) -> wf_tlv t.
Proof.
  intros b t r H. destruct (dec_elem_wf_type _ _ _ H) as [T1 T2]. unfold wf_tlv.
  repeat split; auto. unfold dec_elem in H.
  destruct (dec_var b) as [[ty b1]|]; [|discriminate].
  destruct ((ty =? 0) || (max_type <? ty)); [discriminate|].
  destruct (dec_var b1) as [[len b2]|] eqn:D; [|discriminate]. apply dec_var_bound in D.
  destruct (N.ltb_spec (blen b2) len); [discriminate|]. injection H as <- <-. cbn [t_val].
  unfold blen in *. rewrite firstn_length_le by lia. lia.
Qed.

Lemma parse_wf : forall b els, parse b = Some els -> Forall wf_tlv els.
Proof.
  intros b. remember (length b) as n eqn:Hn. revert b Hn.
  induction n as [n IH] using lt_wf_ind. intros b Hn els H.
  destruct b as [|x b]; [injection H as <-; constructor|].
  rewrite parse_step in H by discriminate.
  destruct (dec_elem (x :: b)) as [[t rest]|] eqn:D; [|discriminate].
  destruct (parse rest) as [l|] eqn:P; [|discriminate]. injection H as <-.
  constructor; [eapply dec_elem_wf; exact D|]. apply dec_elem_len in D.
  eapply (IH (length rest)); [lia|reflexivity|exact P].
Qed.

(** ** Counting *)
Lemma count_cons : forall ty t els,
  count ty (t :: els) = if t_type t =? ty then S (count ty els) else count ty els.
Proof. intros. unfold count. cbn [filter]. destruct (t_type t =? ty); reflexivity. Qed.
Lemma count_pos_get : forall ty els, (0 < count ty els)%nat -> exists t, get ty els = Some t.
Proof.
  induction els as [|t els IH]; intros H; [cbn in H; lia|]. rewrite count_cons in H. cbn [get].
  destruct (t_type t =? ty); [eexists; reflexivity|apply IH; exact H].
Qed.
Lemma get_type : forall ty els t, get ty els = Some t -> t_type t = ty /\ In t els.
Proof.
  induction els as [|a els IH]; intros t H; [discriminate|]. cbn [get] in H.
  destruct (N.eqb_spec (t_type a) ty) as [T|T].
  - injection H as <-. split; [exact T|left; reflexivity].
  - destruct (IH t H) as [A B]. split; [exact A|right; exact B].
Qed.

(** ** Error replies *)
Lemma err_roundtrip : forall code info, code < 2 ^ 64 -> fits info ->
  err_decode (err_encode code info) = (code, info).
Proof.
  intros code info Hc Hi. unfold err_decode, err_body, err_encode.
  rewrite parse_enc.
  2:{ constructor; [wft; apply fits_nni|constructor; [wft; exact Hi|constructor]]. }
  cbn [of_opt bind err_loop t_type t_val get]. ncmp. cbn [of_opt bind t_val].
  rewrite nni_dec_enc by exact Hc. cbn [of_opt bind err_loop t_type get]. ncmp. reflexivity.
Qed.

Definition crit_others (els : list tlv) : nat :=
  length (filter (fun t => negb (t_type t =? T_ErrorCode) && negb (t_type t =? T_ErrorInfo) && is_critical (t_type t)) els).

Lemma err_loop_spec : forall all l e s cc ic oc e' s' cc' ic' oc',
  err_loop all l (e, s, cc, ic, oc) = Ok (e', s', cc', ic', oc') ->
  cc' = (cc + count T_ErrorCode l)%nat /\ ic' = (ic + count T_ErrorInfo l)%nat /\
  oc' = (oc + crit_others l)%nat /\
  (if Nat.eqb (count T_ErrorCode l) 0 then e' = e
   else exists t, get T_ErrorCode all = Some t /\ nni_dec (t_val t) = Some e') /\
  (if Nat.eqb (count T_ErrorInfo l) 0 then s' = s
   else exists t, get T_ErrorInfo all = Some t /\ t_val t = s').
Proof.
  intros all. induction l as [|t l IH]; intros e s cc ic oc e' s' cc' ic' oc' H; cbn [err_loop] in H.
  - injection H as <- <- <- <- <-. unfold crit_others. cbn. rewrite !Nat.add_0_r. auto.
  - rewrite !count_cons. unfold crit_others. cbn [filter].
    destruct (N.eqb_spec (t_type t) T_ErrorCode) as [T1|T1].
    + rewrite T1. ncmp. cbn [negb andb].
      destruct (get T_ErrorCode all) as [f|] eqn:G; [|discriminate]. cbn [of_opt bind] in H.
      destruct (nni_dec (t_val f)) as [n|] eqn:N; [|discriminate]. cbn [of_opt bind] in H.
      destruct (IH _ _ _ _ _ _ _ _ _ _ H) as (A & B & C & D & F). unfold crit_others in *. cbn [Nat.eqb].
      repeat split; try lia; [|exact F].
      destruct (Nat.eqb (count T_ErrorCode l) 0); [subst e'; exists f; auto|exact D].
    + destruct (N.eqb_spec (t_type t) T_ErrorInfo) as [T2|T2].
      * cbn [negb andb].
        destruct (get T_ErrorInfo all) as [f|] eqn:G; [|discriminate]. cbn [of_opt bind] in H.
        destruct (IH _ _ _ _ _ _ _ _ _ _ H) as (A & B & C & D & F). unfold crit_others in *. cbn [Nat.eqb].
        repeat split; try lia; [exact D|].
        destruct (Nat.eqb (count T_ErrorInfo l) 0); [subst s'; exists f; auto|exact F].
      * cbn [negb andb].
        destruct (is_critical (t_type t)); cbn [length];
        destruct (IH _ _ _ _ _ _ _ _ _ _ H) as (A & B & C & D & F); unfold crit_others in *;
        repeat split; try lia; assumption.
Qed.

Lemma crit_others_0 : forall els, crit_others els = O <-> only_known_critical known_error els.
Proof.
  intros els. unfold crit_others, only_known_critical, known_error. split.
  - intros H t Hin Hc. apply is_critical_iff in Hc.
    destruct (N.eqb_spec (t_type t) T_ErrorCode) as [->|T1]; [left; reflexivity|].
    destruct (N.eqb_spec (t_type t) T_ErrorInfo) as [->|T2]; [right; left; reflexivity|].
    exfalso. assert (In t (filter (fun t => negb (t_type t =? T_ErrorCode) && negb (t_type t =? T_ErrorInfo) && is_critical (t_type t)) els)) as F.
    { apply filter_In. split; [exact Hin|]. rewrite Hc.
      rewrite (proj2 (N.eqb_neq _ _) T1), (proj2 (N.eqb_neq _ _) T2). reflexivity. }
    destruct (filter _ els); [destruct F|discriminate].
  - intros H. apply length_zero_iff_nil. destruct (filter _ els) as [|t l] eqn:F; [reflexivity|]. exfalso.
    assert (In t (filter (fun t => negb (t_type t =? T_ErrorCode) && negb (t_type t =? T_ErrorInfo) && is_critical (t_type t)) els)) as I by (rewrite F; left; reflexivity).
    apply filter_In in I as [I1 I2]. rewrite !andb_true_iff, !negb_true_iff, !N.eqb_neq in I2.
    destruct I2 as [[I2 I3] I4]. apply is_critical_iff in I4. specialize (H t I1 I4). cbn in H.
    destruct H as [H|[H|[]]]; congruence.
Qed.

(** Everything the error decoder can say. *)
Lemma err_decode_only_if : forall b code info, err_decode b = (code, info) -> (code <> NO_ERROR \/ info <> []) ->
  exists els c s, parse b = Some els /\ count T_ErrorCode els = 1%nat /\ count T_ErrorInfo els = 1%nat /\
    only_known_critical known_error els /\ In c els /\ In s els /\
    t_type c = T_ErrorCode /\ t_type s = T_ErrorInfo /\ nni_dec (t_val c) = Some code /\ t_val s = info.
Proof.
  intros b code info H Hne. unfold err_decode, err_body in H.
  destruct (parse b) as [els|] eqn:P; cbn [of_opt bind] in H.
  2:{ injection H as <- <-. destruct Hne as [X|X]; contradiction. }
  destruct (err_loop els els (NO_ERROR, [], O, O, O)) as [[[[[e s] cc] ic] oc]| | |] eqn:L; cbn [bind] in H.
  2,3,4: injection H as <- <-; destruct Hne as [X|X]; contradiction.
  destruct (err_loop_spec _ _ _ _ _ _ _ _ _ _ _ _ L) as (A & B & C & D & F).
  cbn [Nat.add] in *. subst cc ic oc.
  destruct (Nat.eqb (count T_ErrorCode els) 0 && Nat.eqb (count T_ErrorInfo els) 0).
  { injection H as <- <-. destruct Hne as [X|X]; contradiction. }
  destruct (Nat.eqb_spec (count T_ErrorCode els) 1) as [C1|C1].
  2:{ cbn [negb orb] in H. injection H as <- <-. destruct Hne as [X|X]; contradiction. }
  destruct (Nat.eqb_spec (count T_ErrorInfo els) 1) as [C2|C2].
  2:{ cbn [negb orb] in H. injection H as <- <-. destruct Hne as [X|X]; contradiction. }
  cbn [negb orb] in H. destruct (Nat.ltb_spec 0 (crit_others els)) as [C3|C3].
  { injection H as <- <-. destruct Hne as [X|X]; contradiction. }
  injection H as <- <-. rewrite C1 in D. rewrite C2 in F. cbn [Nat.eqb] in D, F.
  destruct D as (c & D1 & D2). destruct F as (t & F1 & F2).
  destruct (get_type _ _ _ D1) as [D3 D4]. destruct (get_type _ _ _ F1) as [F3 F4].
  exists els, c, t. repeat split; auto. apply crit_others_0. lia.
Qed.

(** ** INFO *)
Lemma info_loop_app : forall E a b p, info_loop E (a ++ b) p = bind (info_loop E a p) (info_loop E b).
Proof.
  intros E. induction a as [|t a IH]; intros b p; cbn [app info_loop bind]; [reflexivity|].
  destruct (info_item E t p); cbn [bind]; auto.
Qed.
Lemma info_loop_keys : forall E ks p,
  info_loop E (map (Tlv T_ParameterKey) ks) p =
  Ok (Profile (p_prefix p) (p_fwd p) (p_info p) (p_probe_keys p ++ ks) (p_maxvalid p) (p_maxsuffix p) (p_challenges p) (p_cert p)).
Proof.
  intros E. induction ks as [|k ks IH]; intros p; cbn [map info_loop].
  - rewrite app_nil_r. destruct p; reflexivity.
  - unfold info_item. cbn [t_type t_val]. ncmp. cbn [bind]. rewrite IH. unfold add_p_key.
    cbn [p_prefix p_fwd p_info p_probe_keys p_maxvalid p_maxsuffix p_challenges p_cert].
    rewrite <- app_assoc. reflexivity.
Qed.

Lemma to_i64_u64 : forall z, (- 2 ^ 63 <= z < 2 ^ 63)%Z -> to_i64 (to_u64 z) = z.
Proof.
  intros z H. unfold to_i64, to_u64. rewrite Z2N.id by (apply Z.mod_pos_bound; lia).
  rewrite Z.mod_mod by lia. destruct (Z.ltb_spec (z mod 2 ^ 64) (2 ^ 63)); lia.
Qed.
Lemma to_u64_bound : forall z, to_u64 z < 2 ^ 64.
Proof. intros z. unfold to_u64. pose proof (Z.mod_pos_bound z (2 ^ 64)). lia. Qed.

Lemma name_tlv_wf : forall n, name_fits n -> wf_tlv (name_tlv n).
Proof.
  intros n [_ F]. unfold name_tlv. wft. unfold fits in *. unfold name_wire, enc_tlv in F. cbn [t_type t_val name_tlv] in F.
  unfold blen in *. rewrite !app_length in F. lia.
Qed.
Lemma cert_tlv_wf : forall E c, fits (enc_tlv (cert_tlv E c)) -> wf_tlv (cert_tlv E c).
Proof.
  intros E c F. unfold cert_tlv. wft. unfold fits in *. unfold enc_tlv in F. cbn [t_type t_val cert_tlv] in F.
  unfold blen in *. rewrite !app_length in F. lia.
Qed.

Lemma enc_tlvs_1 : forall t, enc_tlv t = enc_tlvs [t].
Proof. intros t. cbn [enc_tlvs]. rewrite app_nil_r. reflexivity. Qed.
Lemma parse_one : forall t, wf_tlv t -> parse (enc_tlv t) = Some [t].
Proof. intros t H. rewrite enc_tlvs_1. apply parse_enc. auto. Qed.

Lemma cert_decode_tlv : forall E c, codec_laws E -> wf_cert c -> cert_ok c = true -> cert_decode E (cert_tlv E c) = Some c.
Proof.
  intros E c L W K. unfold cert_decode, data_decode, cert_tlv. cbn [t_type t_val]. ncmp.
  rewrite (l_cert_codec E L c W), K. reflexivity.
Qed.

Lemma info_roundtrip : forall E p c content, codec_laws E ->
  name_fits (p_prefix p) -> fits (p_info p) -> Forall fits (p_probe_keys p) ->
  (forall k, c_keyloc c = Some k -> fits (bs "Issued by " ++ o_to_uri E k)) ->
  (- 2 ^ 63 <= p_maxvalid p < 2 ^ 63)%Z -> wf_cert c -> cert_ok c = true -> fits (enc_tlv (cert_tlv E c)) ->
  info_encode E p c = Ok content ->
  exists info, info_decode E content =
    Ok (Profile (p_prefix p) [] info (p_probe_keys p) (p_maxvalid p) None [] (Some c)) /\
    ((p_info p <> [] /\ info = p_info p) \/
     (p_info p = [] /\ exists k, c_keyloc c = Some k /\ info = bs "Issued by " ++ o_to_uri E k)).
Proof.
  intros E p c content L Hn Hi Hk Hl Hv Wc Kc Fc H. unfold info_encode in H.
  assert (forall info, fits info ->
    info_decode E (enc_tlvs ([Tlv T_CaPrefix (name_wire (p_prefix p)); Tlv T_CaInfo info]
                ++ map (Tlv T_ParameterKey) (p_probe_keys p)
                ++ [Tlv T_MaxValidityPeriod (nni_enc (to_u64 (p_maxvalid p)));
                    Tlv T_CaCertificate (enc_tlv (cert_tlv E c))])) =
    Ok (Profile (p_prefix p) [] info (p_probe_keys p) (p_maxvalid p) None [] (Some c))) as G.
  { intros info Fi. unfold info_decode. rewrite parse_enc.
    2:{ apply Forall_app. split.
        - constructor; [wft; apply Hn|constructor; [wft; exact Fi|constructor]].
        - apply Forall_app. split.
          + apply Forall_map. eapply Forall_impl; [|exact Hk]. intros k Fk. wft. exact Fk.
          + constructor; [wft; apply fits_nni|constructor; [wft; exact Fc|constructor]]. }
    cbn [of_opt bind]. rewrite !info_loop_app. cbn [info_loop]. unfold info_item at 1. cbn [t_type t_val]. ncmp.
    unfold name_wire. rewrite parse_one by (apply name_tlv_wf; exact Hn).
    cbn [of_opt bind get t_type name_tlv]. ncmp. cbn [of_opt bind].
    rewrite name_decode_tlv by apply Hn. cbn [of_opt bind]. unfold info_item. cbn [t_type t_val]. ncmp.
    cbn [bind]. rewrite info_loop_app, info_loop_keys. cbn [bind info_loop].
    unfold info_item. cbn [t_type t_val]. ncmp. rewrite nni_dec_enc by apply to_u64_bound. cbn [of_opt bind].
    rewrite to_i64_u64 by exact Hv. rewrite parse_one by (apply cert_tlv_wf; exact Fc).
    cbn [of_opt bind get cert_tlv t_type]. ncmp. cbn [of_opt bind].
    fold (cert_tlv E c). rewrite cert_decode_tlv by assumption. reflexivity. }
  destruct (p_info p) as [|x info] eqn:I.
  - destruct (c_keyloc c) as [k|] eqn:K; [|discriminate]. cbn [of_opt bind] in H. injection H as <-.
    eexists. split; [apply G; apply Hl; reflexivity|]. right. split; [reflexivity|]. exists k. auto.
  - cbn [bind] in H. injection H as <-. eexists. split; [apply G; exact Hi|]. left. split; [discriminate|reflexivity].
Qed.

(** ** PROBE parameters *)
Lemma probe_params_loop_pairs : forall m acc,
  probe_params_loop (flat_map (fun kv => [Tlv T_ParameterKey (fst kv); Tlv T_ParameterValue (snd kv)]) m) acc =
  Ok (fold_left (fun a kv => mm_insert (fst kv) (snd kv) a) m acc).
Proof.
  induction m as [|[k v] m IH]; intros acc; [reflexivity|].
  cbn [flat_map app fst snd probe_params_loop t_type t_val]. ncmp. cbn [andb]. rewrite IH. reflexivity.
Qed.

Lemma probe_params_roundtrip : forall m, mm_sorted m -> Forall (fun kv => fits (fst kv) /\ fits (snd kv)) m ->
  probe_params_decode (probe_params_encode m) = Ok m.
Proof.
  intros m S F. unfold probe_params_decode, probe_params_encode. rewrite parse_enc.
  - cbn [of_opt bind]. rewrite probe_params_loop_pairs. fold (mm_of m). rewrite mm_of_sorted by exact S. reflexivity.
  - clear S. induction F as [|[k v] m [F1 F2] F3 IH]; [constructor|]. cbn [flat_map app fst snd] in *.
    constructor; [wft; exact F1|constructor; [wft; exact F2|exact IH]].
Qed.

(** ** PROBE replies *)
Lemma probe_item_roundtrip : forall n max, name_fits n -> n <> [] -> (forall k, max = Some k -> k < 2 ^ 64) ->
  probe_item_loop (name_tlv n :: match max with Some k => [Tlv T_MaxSuffixLength (nni_enc k)] | None => [] end) ([], 0%Z)
  = Ok (n, narrow_suffix max).
Proof.
  intros n max Hn Hne Hm. cbn [probe_item_loop name_tlv t_type fst snd]. ncmp.
  fold (name_tlv n). rewrite name_decode_tlv by apply Hn. cbn [of_opt bind].
  destruct max as [k|]; [|reflexivity]. cbn [probe_item_loop t_type t_val]. ncmp.
  rewrite nni_dec_enc by (apply Hm; reflexivity). reflexivity.
Qed.

Lemma probe_loop_app : forall a b st, probe_loop (a ++ b) st = bind (probe_loop a st) (probe_loop b).
Proof.
  induction a as [|t a IH]; intros b st; cbn [app probe_loop bind]; [reflexivity|].
  destruct (t_type t =? T_ProbeResponse).
  { destruct (parse (t_val t)); cbn [of_opt bind]; [|reflexivity].
    destruct (probe_item_loop l ([], 0%Z)) as [nz| | |]; cbn [bind]; auto. destruct (fst nz); cbn [bind]; auto. }
  destruct (t_type t =? T_ProbeRedirect).
  { destruct (block_from_value (t_val t)); cbn [of_opt bind]; [|reflexivity].
    destruct (name_decode t0); cbn [of_opt bind]; auto. }
  destruct (is_critical (t_type t)); cbn [bind]; auto.
Qed.

Lemma probe_elem_wf : forall n max, name_fits n ->
  Forall wf_tlv (name_tlv n :: match max with Some k => [Tlv T_MaxSuffixLength (nni_enc k)] | None => [] end).
Proof.
  intros n max H. constructor; [apply name_tlv_wf; exact H|]. destruct max; constructor; [|constructor].
  wft. apply fits_nni.
Qed.

Lemma probe_roundtrip : forall ids max reds, Forall (probe_fits max) ids -> Forall (fun n => n <> []) ids ->
  Forall name_fits reds -> (forall k, max = Some k -> k < 2 ^ 64) ->
  probe_decode (probe_encode ids max reds) = Ok (map (fun n => (n, narrow_suffix max)) ids, reds).
Proof.
  intros ids max reds Hi Hne Hr Hm. unfold probe_decode, probe_encode. rewrite parse_enc.
  2:{ apply Forall_app. split; apply Forall_map.
      - eapply Forall_impl; [|exact Hi]. intros n [_ F]. wft. exact F.
      - eapply Forall_impl; [|exact Hr]. intros n [_ F]. wft. exact F. }
  cbn [of_opt bind]. rewrite probe_loop_app.
  assert (forall l acc racc, Forall (probe_fits max) l -> Forall (fun n => n <> []) l ->
    probe_loop (map (fun n => Tlv T_ProbeResponse (enc_tlvs (name_tlv n ::
       match max with Some k => [Tlv T_MaxSuffixLength (nni_enc k)] | None => [] end))) l) (acc, racc)
    = Ok (acc ++ map (fun n => (n, narrow_suffix max)) l, racc)) as A.
  { induction l as [|n l IH]; intros acc racc F1 F2; [cbn; rewrite app_nil_r; reflexivity|].
    inversion F1; subst. inversion F2; subst. cbn [map probe_loop t_type t_val]. ncmp.
    rewrite parse_enc by (apply probe_elem_wf; apply H1). cbn [of_opt bind].
    rewrite probe_item_roundtrip; [|apply H1|assumption|exact Hm]. cbn [bind fst snd].
    destruct n as [|x n]; [contradiction|]. rewrite IH by assumption. rewrite <- app_assoc. reflexivity. }
  rewrite A by assumption. cbn [bind app].
  assert (forall l acc racc, Forall name_fits l ->
    probe_loop (map (fun n => Tlv T_ProbeRedirect (name_wire n)) l) (acc, racc) = Ok (acc, racc ++ l)) as B.
  { induction l as [|n l IH]; intros acc racc F; [cbn; rewrite app_nil_r; reflexivity|].
    inversion F; subst. cbn [map probe_loop t_type t_val]. ncmp.
    unfold name_wire. rewrite block_from_value_enc by (apply name_tlv_wf; assumption). cbn [of_opt bind].
    rewrite name_decode_tlv by apply H1. cbn [of_opt bind fst snd]. rewrite IH by assumption.
    rewrite <- app_assoc. reflexivity. }
  rewrite B by assumption. reflexivity.
Qed.

Lemma probe_empty_name : forall ids1 ids2 max reds, Forall (probe_fits max) ids1 -> Forall (fun n => n <> []) ids1 ->
  Forall (probe_fits max) ids2 -> Forall name_fits reds -> (forall k, max = Some k -> k < 2 ^ 64) ->
  probe_decode (probe_encode (ids1 ++ [] :: ids2) max reds) = Exn.
Proof.
  intros ids1 ids2 max reds H1 H1' H2 Hr Hm. unfold probe_decode, probe_encode. rewrite parse_enc.
  2:{ apply Forall_app. split; apply Forall_map.
      - apply Forall_app. split.
        + eapply Forall_impl; [|exact H1]. intros n [_ F]. wft. exact F.
        + constructor.
          * wft. destruct max; unfold fits; [|reflexivity]. cbn [enc_tlvs]. unfold enc_tlv. cbn [t_type t_val name_tlv enc_tlvs].
            unfold blen. rewrite !app_length. pose proof (nni_enc_len n). unfold blen in *. cbn.
            unfold enc_var. destruct (N.ltb_spec (N.of_nat (length (nni_enc n))) 253); [cbn; lia|lia].
          * eapply Forall_impl; [|exact H2]. intros n [_ F]. wft. exact F.
      - eapply Forall_impl; [|exact Hr]. intros n [_ F]. wft. exact F. }
  cbn [of_opt bind]. rewrite map_app. cbn [map]. rewrite <- app_assoc. rewrite probe_loop_app.
  destruct (probe_loop (map _ ids1) ([], [])) as [st| | |] eqn:P; cbn [bind].
  - cbn [app probe_loop t_type t_val]. ncmp. rewrite parse_enc.
    2:{ constructor; [unfold name_tlv; wft; reflexivity|]. destruct max; constructor; [|constructor]. wft. apply fits_nni. }
    cbn [of_opt bind probe_item_loop name_tlv t_type]. ncmp. cbn [fst]. change (name_decode (Tlv T_Name (enc_tlvs []))) with (Some (@nil comp)).
    cbn [of_opt bind]. destruct max as [k|]; [|reflexivity]. cbn [probe_item_loop t_type t_val fst snd]. ncmp.
    rewrite nni_dec_enc by (apply Hm; reflexivity). reflexivity.
  - reflexivity.
  - exfalso. revert P. generalize (@nil (name * Z), @nil name).
    induction H1 as [|n l [Hn Hf] Hl IH]; intros st P; [discriminate|]. inversion H1'; subst.
    cbn [map probe_loop t_type t_val] in P. revert P. ncmp.
    rewrite parse_enc by (apply probe_elem_wf; exact Hn). cbn [of_opt bind].
    rewrite probe_item_roundtrip; [|exact Hn|assumption|exact Hm]. cbn [bind fst snd].
    destruct n as [|x n]; [contradiction|]. intros P. eapply IH; eassumption.
  - exfalso. revert P. generalize (@nil (name * Z), @nil name).
    induction H1 as [|n l [Hn Hf] Hl IH]; intros st P; [discriminate|]. inversion H1'; subst.
    cbn [map probe_loop t_type t_val] in P. revert P. ncmp.
    rewrite parse_enc by (apply probe_elem_wf; exact Hn). cbn [of_opt bind].
    rewrite probe_item_roundtrip; [|exact Hn|assumption|exact Hm]. cbn [bind fst snd].
    destruct n as [|x n]; [contradiction|]. intros P. eapply IH; eassumption.
Qed.
