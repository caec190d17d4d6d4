(** Facts about encrypted payloads and secret codes. *)
From Coq Require Export Sorted.
From Verif Require Export Spec_Crypto RequestFacts JsonFacts.
Local Open Scope N_scope.

(** ** IVs *)

Lemma ctr_bound : forall iv, iv_counter iv < 2 ^ 32.
Proof.
  intros iv. unfold iv_counter. pose proof (be_dec_bound (firstn 4 (skipn 8 iv))) as B.
  eapply N.lt_le_trans; [exact B|]. change (2 ^ 32) with (256 ^ 4). apply N.pow_le_mono_r; [lia|].
  unfold blen. rewrite firstn_length. lia.
Qed.
Lemma aes_blocks_small : forall n, n < 2 ^ 36 - 15 -> aes_blocks n = (n + 15) / 16.
Proof. intros n H. unfold aes_blocks. apply N.mod_small. apply N.div_lt_upper_bound; lia. Qed.

Lemma update_iv_spec : forall iv n iv', iv12 iv -> update_iv iv n = Ok iv' ->
  iv12 iv' /\ iv_prefix iv' = iv_prefix iv /\ iv_counter iv' = iv_counter iv + aes_blocks n /\
  iv_counter iv + aes_blocks n < u32_max.
Proof.
  intros iv n iv' L H. unfold update_iv in H. unfold blen in H. rewrite L in H. change (N.of_nat 12 <? 12) with false in H.
  cbv iota in H. destruct (N.leb_spec (u32_max - iv_counter iv) (aes_blocks n)) as [X|X]; [discriminate|].
  assert (iv' = iv_prefix iv ++ be_enc 4 (iv_counter iv + aes_blocks n) ++ skipn 12 iv) as -> by congruence.
  clear H. unfold iv12 in *.
  assert (length (iv_prefix iv) = 8%nat) as L8 by (unfold iv_prefix; rewrite firstn_length; lia).
  assert (length (be_enc 4 (iv_counter iv + aes_blocks n)) = 4%nat) as L4 by apply be_enc_length.
  assert (skipn 12 iv = []) as S12 by (rewrite <- L; apply skipn_all).
  rewrite S12, app_nil_r. repeat split.
  - rewrite app_length. lia.
  - unfold iv_prefix at 1. rewrite <- L8. apply firstn_app_exact.
  - unfold iv_counter at 1. rewrite <- L8, skipn_app_exact. rewrite firstn_all2 by lia.
    apply be_dec_enc_small. change (256 ^ N.of_nat 4) with 4294967296. unfold u32_max in X. lia.
  - lia.
Qed.
Lemma update_iv_not_ub : forall iv n, iv12 iv -> update_iv iv n <> UB /\ update_iv iv n <> Hang.
Proof.
  intros iv n L. unfold update_iv. unfold blen. rewrite L. change (N.of_nat 12 <? 12) with false. cbv iota.
  destruct (_ <=? _); split; discriminate.
Qed.
Lemma iv12_initial : forall iv rnd, (iv = [] \/ iv12 iv) -> length rnd = 8%nat -> iv12 (initial_iv iv rnd).
Proof.
  intros iv rnd [->|H] L; cbn [initial_iv].
  - unfold iv12. rewrite app_length, L. reflexivity.
  - destruct iv; [discriminate|]. exact H.
Qed.
Lemma initial_prefix : forall rnd, length rnd = 8%nat -> iv_prefix (initial_iv [] rnd) = rnd.
Proof. intros rnd L. cbn [initial_iv]. unfold iv_prefix. rewrite <- L. apply firstn_app_exact. Qed.
Lemma initial_counter : forall rnd, length rnd = 8%nat -> iv_counter (initial_iv [] rnd) = 0.
Proof. intros rnd L. cbn [initial_iv]. unfold iv_counter. rewrite <- L. rewrite skipn_app_exact. reflexivity. Qed.
Lemma initial_ne : forall iv rnd, iv12 iv -> initial_iv iv rnd = iv.
Proof. intros [|x iv] rnd H; [discriminate|reflexivity]. Qed.

Lemma blen12 : forall iv, iv12 iv -> (blen iv <? 12) = false.
Proof. intros iv H. unfold blen. rewrite H. reflexivity. Qed.

(** What encryption with a good IV does. *)
Definition sealed (E : env) (key iv ad payload : bytes) : bytes :=
  let (ct, tag) := o_aes_enc E key iv ad payload in
  enc_tlvs [Tlv T_InitializationVector iv; Tlv T_AuthenticationTag tag; Tlv T_EncryptedPayload ct].

Lemma encode_aes_spec : forall E key payload ad iv rnd, (iv = [] \/ iv12 iv) -> length rnd = 8%nat ->
  let iv1 := initial_iv iv rnd in
  (exists iv2, update_iv iv1 (blen payload) = Ok iv2 /\
     encode_aes E key payload ad iv rnd = (Ok (sealed E key iv1 ad payload), iv2)) \/
  (update_iv iv1 (blen payload) = Exn /\ encode_aes E key payload ad iv rnd = (Exn, iv1)).
Proof.
  intros E key payload ad iv rnd H L iv1. pose proof (iv12_initial iv rnd H L) as H1. fold iv1 in H1.
  unfold encode_aes. fold iv1. rewrite blen12 by exact H1. cbn zeta. unfold sealed.
  assert (firstn 12 iv1 = iv1) as F by (apply firstn_all2; unfold iv12 in H1; lia). rewrite F.
  destruct (o_aes_enc E key iv1 ad payload) as [ct tag].
  destruct (update_iv_not_ub iv1 (blen payload) H1) as [N1 N2].
  destruct (update_iv iv1 (blen payload)) as [iv2| | |]; try contradiction; [left; eexists; split; reflexivity|right; auto].
Qed.

Lemma sealed_parse : forall E key iv ad payload, aes_laws E -> iv12 iv -> fits payload ->
  exists ct tag, o_aes_enc E key iv ad payload = (ct, tag) /\ length ct = length payload /\ length tag = 16%nat /\
    parse (sealed E key iv ad payload) =
      Some [Tlv T_InitializationVector iv; Tlv T_AuthenticationTag tag; Tlv T_EncryptedPayload ct].
Proof.
  intros E key iv ad payload L H F. unfold sealed. destruct (o_aes_enc E key iv ad payload) as [ct tag] eqn:X.
  destruct (l_aes_len E L _ _ _ _ _ _ X) as [L1 L2]. exists ct, tag. repeat split; auto.
  apply parse_enc. constructor; [wft; apply fits_short; rewrite H; apply Nat.leb_le; reflexivity|].
  constructor; [wft; apply fits_short; rewrite L2; apply Nat.leb_le; reflexivity|].
  constructor; [wft; unfold fits, blen in *; rewrite L1; exact F|constructor].
Qed.
Lemma sealed_iv : forall E key iv ad payload, aes_laws E -> iv12 iv -> fits payload ->
  wire_iv (sealed E key iv ad payload) = Some iv.
Proof.
  intros E key iv ad payload L H F. destruct (sealed_parse E key iv ad payload L H F) as (ct & tag & _ & _ & _ & P).
  unfold wire_iv. rewrite P. cbn [get t_type]. ncmp. reflexivity.
Qed.

(** ** Decryption *)
Definition dec_view (block : bytes) : option (bytes * bytes * bytes) :=
  match parse block with
  | None => None
  | Some els =>
      match get T_EncryptedPayload els, get T_InitializationVector els, get T_AuthenticationTag els with
      | Some p, Some i, Some t =>
          if (blen (t_val i) =? 12) && (blen (t_val t) =? 16) then Some (t_val i, t_val t, t_val p) else None
      | _, _, _ => None
      end
  end.

Lemma decode_aes_eq : forall E key block ad div eiv,
  decode_aes E key block ad div eiv =
  match dec_view block with
  | None => (Exn, div)
  | Some (iv, tag, ct) =>
      if match eiv with [] => false | _ :: _ => blen eiv <? 8 end then (UB, div)
      else if match eiv with [] => false | _ :: _ => bytes_eqb (iv_prefix iv) (iv_prefix eiv) end then (Exn, div)
      else if match div with [] => false | _ :: _ => blen div <? 12 end then (UB, div)
      else if match div with [] => false | _ :: _ => (iv_counter iv <? iv_counter div) || negb (bytes_eqb (iv_prefix iv) (iv_prefix div)) end then (Exn, div)
      else match o_aes_dec E key iv ad ct tag with
           | None => (Exn, iv)
           | Some pt =>
               if negb (blen pt =? blen ct) then (Exn, iv)
               else match update_iv iv (blen pt) with
                    | Ok iv2 => (Ok pt, iv2)
                    | Exn => (Exn, iv)
                    | UB => (UB, iv)
                    | Hang => (Hang, iv)
                    end
           end
  end.
Proof.
  intros. unfold decode_aes, dec_view. destruct (parse block) as [els|]; [|reflexivity].
  destruct (get T_EncryptedPayload els) as [p|]; [|reflexivity].
  destruct (get T_InitializationVector els) as [i|]; [|reflexivity].
  destruct (get T_AuthenticationTag els) as [t|]; destruct (blen (t_val i) =? 12); cbn [andb negb]; try reflexivity.
  destruct (blen (t_val t) =? 16); reflexivity.
Qed.

Lemma dec_view_iv : forall block iv tag ct, dec_view block = Some (iv, tag, ct) ->
  iv12 iv /\ length tag = 16%nat /\ wire_iv block = Some iv.
Proof.
  intros block iv tag ct H. unfold dec_view in H. unfold wire_iv. destruct (parse block) as [els|]; [|discriminate].
  destruct (get T_EncryptedPayload els) as [p|]; [|discriminate].
  destruct (get T_InitializationVector els) as [i|]; [|discriminate].
  destruct (get T_AuthenticationTag els) as [t|]; [|discriminate].
  destruct (N.eqb_spec (blen (t_val i)) 12) as [A|A]; [|discriminate].
  destruct (N.eqb_spec (blen (t_val t)) 16) as [B|B]; [|discriminate].
  injection H as <- <- <-. unfold iv12, blen in *. repeat split; lia.
Qed.

Lemma sealed_view : forall E key iv ad payload, aes_laws E -> iv12 iv -> fits payload ->
  exists ct tag, o_aes_enc E key iv ad payload = (ct, tag) /\ length ct = length payload /\
    dec_view (sealed E key iv ad payload) = Some (iv, tag, ct).
Proof.
  intros E key iv ad payload L H F. destruct (sealed_parse E key iv ad payload L H F) as (ct & tag & A & B & C & P).
  exists ct, tag. repeat split; auto. unfold dec_view. rewrite P. cbn [get t_type]. ncmp. cbn [t_val].
  unfold blen. rewrite H, C. reflexivity.
Qed.

(** Receiver condition: the IV is acceptable. *)
Definition fresh_for (iv div eiv : bytes) : Prop :=
  (eiv = [] \/ (8 <= length eiv)%nat /\ iv_prefix iv <> iv_prefix eiv) /\
  (div = [] \/ (12 <= length div)%nat /\ iv_counter div <= iv_counter iv /\ iv_prefix iv = iv_prefix div).

Lemma decode_accepts : forall E key block ad div eiv iv tag ct pt,
  dec_view block = Some (iv, tag, ct) -> fresh_for iv div eiv ->
  o_aes_dec E key iv ad ct tag = Some pt -> length pt = length ct ->
  decode_aes E key block ad div eiv =
  match update_iv iv (blen pt) with Ok iv2 => (Ok pt, iv2) | Exn => (Exn, iv) | UB => (UB, iv) | Hang => (Hang, iv) end.
Proof.
  intros E key block ad div eiv iv tag ct pt V [F1 F2] D L. rewrite decode_aes_eq, V.
  assert (match eiv with [] => false | _ :: _ => blen eiv <? 8 end = false) as ->.
  { destruct F1 as [->|[A _]]; [reflexivity|]. destruct eiv; [reflexivity|]. apply N.ltb_ge. unfold blen. lia. }
  assert (match eiv with [] => false | _ :: _ => bytes_eqb (iv_prefix iv) (iv_prefix eiv) end = false) as ->.
  { destruct F1 as [->|[_ A]]; [reflexivity|]. destruct eiv; [reflexivity|]. apply bytes_eqb_neq. exact A. }
  assert (match div with [] => false | _ :: _ => blen div <? 12 end = false) as ->.
  { destruct F2 as [->|[A _]]; [reflexivity|]. destruct div; [reflexivity|]. apply N.ltb_ge. unfold blen. lia. }
  assert (match div with [] => false | _ :: _ => (iv_counter iv <? iv_counter div) || negb (bytes_eqb (iv_prefix iv) (iv_prefix div)) end = false) as ->.
  { destruct F2 as [->|(_ & A & B)]; [reflexivity|]. destruct div; [reflexivity|]. rewrite B, bytes_eqb_refl, orb_false_r.
    apply N.ltb_ge. exact A. }
  rewrite D. unfold blen. rewrite L, N.eqb_refl. reflexivity.
Qed.

Lemma decode_ok_inv : forall E key block ad div eiv pt div', decode_aes E key block ad div eiv = (Ok pt, div') ->
  exists iv tag ct, dec_view block = Some (iv, tag, ct) /\ fresh_for iv div eiv /\
    o_aes_dec E key iv ad ct tag = Some pt /\ length pt = length ct /\ update_iv iv (blen pt) = Ok div'.
Proof.
  intros E key block ad div eiv pt div' H. rewrite decode_aes_eq in H.
  destruct (dec_view block) as [[[iv tag] ct]|] eqn:V; [|discriminate]. exists iv, tag, ct. split; [reflexivity|].
  destruct (match eiv with [] => false | _ :: _ => blen eiv <? 8 end) eqn:U1; [discriminate|].
  destruct (match eiv with [] => false | _ :: _ => bytes_eqb (iv_prefix iv) (iv_prefix eiv) end) eqn:U2; [discriminate|].
  destruct (match div with [] => false | _ :: _ => blen div <? 12 end) eqn:U3; [discriminate|].
  destruct (match div with [] => false | _ :: _ => (iv_counter iv <? iv_counter div) || negb (bytes_eqb (iv_prefix iv) (iv_prefix div)) end) eqn:U4; [discriminate|].
  destruct (o_aes_dec E key iv ad ct tag) as [p|]; [|discriminate].
  destruct (N.eqb_spec (blen p) (blen ct)) as [X|X]; [|discriminate]. cbn [negb] in H.
  destruct (update_iv iv (blen p)) as [iv2| | |] eqn:U; try discriminate. injection H as -> ->.
  repeat split; auto.
  - destruct eiv as [|x eiv]; [left; reflexivity|right]. apply N.ltb_ge in U1. apply bytes_eqb_neq in U2. unfold blen in U1. split; [lia|exact U2].
  - destruct div as [|x div]; [left; reflexivity|right]. apply N.ltb_ge in U3. apply orb_false_iff in U4 as [U4 U5].
    apply N.ltb_ge in U4. apply negb_false_iff, bytes_eqb_eq in U5. unfold blen in U3. split; [lia|auto].
  - unfold blen in X. lia.
Qed.

(** The new decryption IV in every case. *)
Lemma decode_div : forall E key block ad div eiv o div', decode_aes E key block ad div eiv = (o, div') ->
  div' = div \/ exists iv, wire_iv block = Some iv /\ iv12 iv /\ fresh_for iv div eiv /\
    (div' = iv \/ exists pt, o = Ok pt /\ update_iv iv (blen pt) = Ok div').
Proof.
  intros E key block ad div eiv o div' H. rewrite decode_aes_eq in H.
  destruct (dec_view block) as [[[iv tag] ct]|] eqn:V; [|left; congruence].
  destruct (dec_view_iv _ _ _ _ V) as (I1 & _ & I2).
  destruct (match eiv with [] => false | _ :: _ => blen eiv <? 8 end) eqn:U1; [left; congruence|].
  destruct (match eiv with [] => false | _ :: _ => bytes_eqb (iv_prefix iv) (iv_prefix eiv) end) eqn:U2; [left; congruence|].
  destruct (match div with [] => false | _ :: _ => blen div <? 12 end) eqn:U3; [left; congruence|].
  destruct (match div with [] => false | _ :: _ => (iv_counter iv <? iv_counter div) || negb (bytes_eqb (iv_prefix iv) (iv_prefix div)) end) eqn:U4; [left; congruence|].
  right. exists iv. split; [exact I2|]. split; [exact I1|]. split.
  { split.
    - destruct eiv as [|x eiv]; [left; reflexivity|right]. apply N.ltb_ge in U1. apply bytes_eqb_neq in U2. unfold blen in U1. split; [lia|exact U2].
    - destruct div as [|x div]; [left; reflexivity|right]. apply N.ltb_ge in U3. apply orb_false_iff in U4 as [U4 U5].
      apply N.ltb_ge in U4. apply negb_false_iff, bytes_eqb_eq in U5. unfold blen in U3. split; [lia|auto]. }
  destruct (o_aes_dec E key iv ad ct tag) as [p|]; [|left; congruence].
  destruct (negb (blen p =? blen ct)); [left; congruence|].
  destruct (update_iv iv (blen p)) as [iv2| | |] eqn:U; inversion H; subst; [right; eauto|left; reflexivity..].
Qed.

(** ** C09: conversations *)
Inductive chain (E : env) (key : bytes) : bytes -> list (bytes * bytes * bytes) -> bytes -> Prop :=
| chain_nil : forall iv, chain E key iv [] iv
| chain_cons : forall iv ad p iv' q e, fits p -> update_iv iv (blen p) = Ok iv' -> chain E key iv' q e ->
    chain E key iv ((sealed E key iv ad p, ad, p) :: q) e.

Lemma chain_snoc : forall E key iv q e ad p e', chain E key iv q e -> fits p -> update_iv e (blen p) = Ok e' ->
  chain E key iv (q ++ [(sealed E key e ad p, ad, p)]) e'.
Proof.
  intros E key iv q e ad p e' H F U. induction H as [iv|iv ad0 p0 iv' q e F0 U0 H IH]; cbn [app].
  - econstructor; [exact F|exact U|constructor].
  - econstructor; [exact F0|exact U0|apply IH; exact U].
Qed.

(** One direction: sender IV [e], undelivered blocks [q], receiver IV [d], sender's random part [r]. *)
Definition stream (E : env) (key r e d : bytes) (q : list (bytes * bytes * bytes)) : Prop :=
  (e = [] /\ d = [] /\ q = []) \/
  (exists start, iv12 start /\ iv_prefix start = r /\ iv12 e /\ iv_prefix e = r /\ chain E key start q e /\ (d = start \/ (d = [] /\ iv_counter start = 0))).

Lemma stream_send : forall E key r e d q p ad o e', length r = 8%nat -> stream E key r e d q -> fits p ->
  encode_aes E key p ad e r = (o, e') ->
  stream E key r e' d (q ++ match o with Ok b => [(b, ad, p)] | _ => [] end).
Proof.
  intros E key r e d q p ad o e' L S F H.
  assert (e = [] \/ iv12 e) as He by (destruct S as [[A _]|(st & _ & _ & A & _)]; auto).
  destruct (encode_aes_spec E key p ad e r He L) as [(iv2 & U & X)|[U X]]; rewrite X in H; injection H as <- <-.
  - right. destruct S as [(-> & -> & ->)|(st & S1 & S2 & S3 & S4 & S5 & S6)].
    + assert (iv12 (initial_iv [] r)) as I by (apply iv12_initial; auto).
      destruct (update_iv_spec _ _ _ I U) as (U1 & U2 & U3 & _).
      exists (initial_iv [] r). rewrite initial_prefix in U2 by exact L.
      repeat split; auto; [apply initial_prefix; exact L| |right; split; [reflexivity|apply initial_counter; exact L]].
      cbn [app]. econstructor; [exact F|exact U|constructor].
    + rewrite (initial_ne e r S3) in *. destruct (update_iv_spec _ _ _ S3 U) as (U1 & U2 & U3 & _).
      exists st. repeat split; auto; [congruence|]. eapply chain_snoc; eassumption.
  - rewrite app_nil_r. right. destruct S as [(-> & -> & ->)|(st & S1 & S2 & S3 & S4 & S5 & S6)].
    + exists (initial_iv [] r). assert (iv12 (initial_iv [] r)) as I by (apply iv12_initial; auto).
      rewrite initial_prefix by exact L. repeat split; auto; [constructor|right; split; [reflexivity|apply initial_counter; exact L]].
    + rewrite (initial_ne e r S3). exists st. auto 10.
Qed.

Lemma stream_recv : forall E key r e d b ad p q eo ro, aes_laws E -> stream E key r e d ((b, ad, p) :: q) ->
  (eo = [] \/ iv12 eo /\ iv_prefix eo = ro) -> ro <> r ->
  exists d', decode_aes E key b ad d eo = (Ok p, d') /\ stream E key r e d' q.
Proof.
  intros E key r e d b ad p q eo ro L S Ho Hr.
  destruct S as [(_ & _ & X)|(st & S1 & S2 & S3 & S4 & S5 & S6)]; [discriminate|].
  inversion S5 as [|iv ad0 p0 iv' q0 e0 F U C A B D]; subst.
  destruct (sealed_view E key st ad p L S1 F) as (ct & tag & X1 & X2 & X3).
  destruct (update_iv_spec _ _ _ S1 U) as (U1 & U2 & U3 & _).
  exists iv'. split.
  - rewrite (decode_accepts E key _ ad d eo st tag ct p X3).
    + rewrite U. reflexivity.
    + split.
      * destruct Ho as [->|[O1 O2]]; [left; reflexivity|right]. unfold iv12 in O1. split; [lia|]. congruence.
      * destruct S6 as [->|[-> _]]; [right|left; reflexivity]. unfold iv12 in S1. split; [lia|]. split; [lia|reflexivity].
    + eapply l_aes_dec_enc; eassumption.
    + symmetry. exact X2.
  - right. exists iv'. repeat split; auto; congruence.
Qed.

Lemma stream_eiv : forall E key r e d q, stream E key r e d q -> e = [] \/ iv12 e /\ iv_prefix e = r.
Proof. intros E key r e d q [(-> & _)|(st & _ & _ & A & B & _)]; auto. Qed.

Definition conv_inv (E : env) (key rA rB : bytes) (s : conv) : Prop :=
  stream E key rA (cv_eA s) (cv_dB s) (cv_toB s) /\ stream E key rB (cv_eB s) (cv_dA s) (cv_toA s) /\
  Forall (fun x => snd x = Ok (fst x)) (cv_log s).

Lemma cstep_inv : forall E key rA rB s e, aes_laws E -> length rA = 8%nat -> length rB = 8%nat -> rA <> rB ->
  payload_fits e -> conv_inv E key rA rB s -> conv_inv E key rA rB (cstep E key rA rB s e).
Proof.
  intros E key rA rB s e L LA LB NE PF (IA & IB & IL). destruct e as [[|] p ad|[|]]; cbn [cstep].
  - destruct (encode_aes E key p ad (cv_eA s) rA) as [o iv] eqn:X. split; [|split]; cbn; auto.
    eapply stream_send; eassumption.
  - destruct (encode_aes E key p ad (cv_eB s) rB) as [o iv] eqn:X. split; [|split]; cbn; auto.
    eapply stream_send; eassumption.
  - destruct (cv_toA s) as [|[[b ad] p] q] eqn:Q; [split; [|split]; try rewrite Q; auto|].
    destruct (stream_recv E key rB (cv_eB s) (cv_dA s) b ad p q (cv_eA s) rA L IB (stream_eiv _ _ _ _ _ _ IA) NE) as (d' & D1 & D2).
    rewrite D1. split; [|split]; cbn; auto. apply Forall_app. split; [exact IL|]. constructor; [reflexivity|constructor].
  - destruct (cv_toB s) as [|[[b ad] p] q] eqn:Q; [split; [|split]; try rewrite Q; auto|].
    destruct (stream_recv E key rA (cv_eA s) (cv_dB s) b ad p q (cv_eB s) rB L IA (stream_eiv _ _ _ _ _ _ IB) (not_eq_sym NE)) as (d' & D1 & D2).
    rewrite D1. split; [|split]; cbn; auto. apply Forall_app. split; [exact IL|]. constructor; [reflexivity|constructor].
Qed.

Lemma converse_inv : forall E key rA rB l, aes_laws E -> length rA = 8%nat -> length rB = 8%nat -> rA <> rB ->
  Forall payload_fits l -> conv_inv E key rA rB (converse E key rA rB l).
Proof.
  intros E key rA rB l L LA LB NE. unfold converse.
  assert (forall s, conv_inv E key rA rB s -> Forall payload_fits l -> conv_inv E key rA rB (fold_left (cstep E key rA rB) l s)) as G.
  { induction l as [|e l IH]; intros s I F; cbn [fold_left]; [exact I|]. inversion F; subst.
    apply IH; [apply cstep_inv; assumption|assumption]. }
  intros F. apply G; [|exact F]. repeat split; try (left; auto; fail).
Qed.

Lemma stream_sync : forall E key r e d, stream E key r e d [] -> d = e \/ (d = [] /\ (e = [] \/ ctr_part e = 0)).
Proof.
  intros E key r e d [(-> & -> & _)|(st & S1 & S2 & S3 & S4 & S5 & S6)]; [left; reflexivity|].
  inversion S5; subst. destruct S6 as [->|[-> A]]; [left; reflexivity|right]. split; [reflexivity|right; exact A].
Qed.

Lemma conversation : forall E key rA rB l, aes_laws E -> length rA = 8%nat -> length rB = 8%nat -> rA <> rB ->
  Forall payload_fits l ->
  let s := converse E key rA rB l in
  Forall (fun x => snd x = Ok (fst x)) (cv_log s) /\
  (cv_toB s = [] -> cv_dB s = cv_eA s \/ cv_dB s = [] /\ (cv_eA s = [] \/ ctr_part (cv_eA s) = 0)) /\
  (cv_toA s = [] -> cv_dA s = cv_eB s \/ cv_dA s = [] /\ (cv_eB s = [] \/ ctr_part (cv_eB s) = 0)).
Proof.
  intros E key rA rB l L LA LB NE F s. destruct (converse_inv E key rA rB l L LA LB NE F) as (A & B & C). fold s in A, B, C.
  split; [exact C|]. split; intros Q; rewrite Q in *; eapply stream_sync; eassumption.
Qed.

(** ** C10: no IV twice *)
Lemma small_fits : forall p, small_payload p -> fits p.
Proof. intros p H. unfold fits, small_payload in *. lia. Qed.

Lemma sends_spec : forall E l iv, aes_laws E -> (iv = [] \/ iv12 iv) ->
  Forall (fun s => length (sd_rnd s) = 8%nat /\ sd_payload s <> [] /\ small_payload (sd_payload s)) l ->
  Forall (fun b => exists i, wire_iv b = Some i /\ iv12 i /\ (iv = [] \/ iv_counter iv <= iv_counter i)) (emitted E l iv) /\
  NoDup (map wire_iv (emitted E l iv)) /\
  StronglySorted (fun a b => exists i j, wire_iv a = Some i /\ wire_iv b = Some j /\ iv_prefix i = iv_prefix j /\ iv_counter i < iv_counter j) (emitted E l iv)
  /\ (iv12 iv -> Forall (fun b => exists i, wire_iv b = Some i /\ iv_prefix i = iv_prefix iv) (emitted E l iv)).
Proof.
  intros E l iv L. revert iv. induction l as [|s l IH]; intros iv Hiv F.
  { unfold emitted. cbn. repeat split; constructor. }
  inversion F as [|s' l' (R & P & SP) F']; subst.
  unfold emitted. cbn [sends].
  destruct (encode_aes_spec E (sd_key s) (sd_payload s) (sd_ad s) iv (sd_rnd s) Hiv R) as [(iv2 & U & X)|[U X]]; rewrite X.
  - pose proof (iv12_initial iv (sd_rnd s) Hiv R) as I1.
    destruct (update_iv_spec _ _ _ I1 U) as (U1 & U2 & U3 & U4).
    destruct (IH iv2 (or_intror U1) F') as (A & B & C & D). unfold emitted in *.
    destruct (sends E l iv2) as [os ivf] eqn:SS. cbn [fst flat_map app map] in *.
    pose proof (sealed_iv E (sd_key s) _ (sd_ad s) (sd_payload s) L I1 (small_fits _ SP)) as W.
    set (iv1 := initial_iv iv (sd_rnd s)) in *.
    assert (iv = [] \/ iv_counter iv <= iv_counter iv1) as LE.
    { destruct Hiv as [Hiv|Hiv]; [left; exact Hiv|right]. unfold iv1. rewrite initial_ne by exact Hiv. lia. }
    assert (0 < aes_blocks (blen (sd_payload s))) as POS.
    { rewrite aes_blocks_small by exact SP. destruct (sd_payload s) as [|x p]; [contradiction|]. unfold blen. cbn [length].
      apply N.div_str_pos. lia. }
    assert (iv2 <> []) as N2 by (intros ->; discriminate).
    repeat split.
    + constructor; [exists iv1; auto|]. eapply Forall_impl; [|exact A]. intros b (i & W1 & W2 & W3). exists i. repeat split; auto.
      right. destruct W3 as [W3|W3]; [contradiction|]. destruct LE as [->|LE]; [cbn; lia|lia].
    + constructor; [|exact B]. intros Hin. apply in_map_iff in Hin as (b & Wb & Hb). rewrite W in Wb.
      rewrite Forall_forall in A. destruct (A b Hb) as (i & W1 & W2 & W3). rewrite W1 in Wb. injection Wb as ->.
      destruct W3 as [W3|W3]; [contradiction|]. lia.
    + constructor; [exact C|]. specialize (D U1). rewrite Forall_forall in A, D. apply Forall_forall. intros b Hb.
      destruct (D b Hb) as (j & J1 & J2). destruct (A b Hb) as (i & W1 & W2 & W3).
      rewrite W1 in J1. injection J1 as ->. exists iv1, j. repeat split; auto; [congruence|].
      destruct W3 as [W3|W3]; [contradiction|]. lia.
    + intros Hi. constructor; [exists iv1; split; [exact W|unfold iv1; rewrite initial_ne by exact Hi; reflexivity]|].
      eapply Forall_impl; [|exact (D U1)]. intros b (j & J1 & J2). exists j. split; [exact J1|].
      rewrite J2, U2. unfold iv1. rewrite initial_ne by exact Hi. reflexivity.
  - pose proof (iv12_initial iv (sd_rnd s) Hiv R) as I1.
    destruct (IH _ (or_intror I1) F') as (A & B & C & D). unfold emitted in *.
    destruct (sends E l (initial_iv iv (sd_rnd s))) as [os ivf] eqn:SS. cbn [fst flat_map app map] in *.
    repeat split; auto.
    + eapply Forall_impl; [|exact A]. intros b (i & W1 & W2 & W3). exists i. repeat split; auto.
      destruct Hiv as [Hiv|Hiv]; [left; exact Hiv|]. rewrite initial_ne in W3 by exact Hiv. exact W3.
    + intros Hi. rewrite initial_ne in D by exact Hi. apply D. exact Hi.
Qed.

(** The counter never wraps. *)
Lemma encode_counter : forall E key p ad iv rnd, iv12 iv -> small_payload p ->
  (ctr_part iv + blocks16 p < 2 ^ 32 - 1 ->
     exists b iv', encode_aes E key p ad iv rnd = (Ok b, iv') /\ iv12 iv' /\ rand_part iv' = rand_part iv /\
                   ctr_part iv' = ctr_part iv + blocks16 p) /\
  (2 ^ 32 - 1 <= ctr_part iv + blocks16 p -> encode_aes E key p ad iv rnd = (Exn, iv)).
Proof.
  intros E key p ad iv rnd I S. assert (aes_blocks (blen p) = blocks16 p) as B by (apply aes_blocks_small; exact S).
  unfold encode_aes. rewrite initial_ne by exact I. cbn zeta. rewrite blen12 by exact I.
  destruct (o_aes_enc E key (firstn 12 iv) ad p) as [ct tag]. unfold update_iv at 1 2. rewrite blen12 by exact I.
  rewrite B. pose proof (ctr_bound iv) as CB. change (iv_counter iv) with (ctr_part iv) in *. unfold u32_max. split; intros H.
  - destruct (N.leb_spec (4294967295 - ctr_part iv) (blocks16 p)) as [X|X]; [lia|].
    eexists; eexists; split; [reflexivity|].
    assert (update_iv iv (blen p) = Ok (iv_prefix iv ++ be_enc 4 (ctr_part iv + blocks16 p) ++ skipn 12 iv)) as U.
    { unfold update_iv. rewrite blen12 by exact I. rewrite B. change (iv_counter iv) with (ctr_part iv). unfold u32_max.
      destruct (N.leb_spec (4294967295 - ctr_part iv) (blocks16 p)); [lia|reflexivity]. }
    destruct (update_iv_spec _ _ _ I U) as (U1 & U2 & U3 & _). rewrite B in U3. auto.
  - destruct (N.leb_spec (4294967295 - ctr_part iv) (blocks16 p)) as [X|X]; [reflexivity|lia].
Qed.

Definition counted (e : bytes) (ps : list bytes) (r : bytes) : Prop :=
  (e = [] /\ ps = []) \/ (iv12 e /\ ctr_part e = total16 ps).
Lemma total16_app : forall a b, total16 (a ++ b) = total16 a + total16 b.
Proof. induction a as [|x a IH]; intros b; cbn [app total16 fold_right]; [reflexivity|]. fold (total16 (a ++ b)) (total16 a). rewrite IH. lia. Qed.
Lemma total16_1 : forall p, total16 [p] = blocks16 p.
Proof. intros p. cbn [total16 fold_right]. apply N.add_0_r. Qed.
Lemma counted_send : forall E key r e ps p ad, length r = 8%nat -> counted e ps r -> small_payload p ->
  total16 (ps ++ [p]) < 2 ^ 32 - 1 ->
  exists b e', encode_aes E key p ad e r = (Ok b, e') /\ counted e' (ps ++ [p]) r.
Proof.
  intros E key r e ps p ad R C S T. rewrite total16_app, total16_1 in T.
  assert (exists e1, iv12 e1 /\ ctr_part e1 = total16 ps /\ forall x, encode_aes E key p x e r = encode_aes E key p x e1 r) as (e1 & L & Ct & Eq).
  { destruct C as [[-> ->]|[L Ct]].
    - exists (initial_iv [] r). split; [apply iv12_initial; auto|]. split; [apply initial_counter; exact R|].
      intros x. unfold encode_aes. rewrite (initial_ne (initial_iv [] r)) by (apply iv12_initial; auto). reflexivity.
    - exists e. auto. }
  destruct (encode_counter E key p ad e1 r L S) as [G _]. rewrite Ct in G. destruct (G T) as (b & iv' & H & L' & _ & Ct').
  exists b, iv'. rewrite Eq. split; [exact H|]. right. split; [exact L'|]. rewrite total16_app, total16_1. lia.
Qed.
Lemma converse_count : forall E key rA rB l, length rA = 8%nat -> length rB = 8%nat ->
  Forall (fun e => match e with CSend _ p _ => small_payload p | CRecv _ => True end) l ->
  total16 (sent_by true l) < 2 ^ 32 - 1 -> total16 (sent_by false l) < 2 ^ 32 - 1 ->
  let s := converse E key rA rB l in
  counted (cv_eA s) (sent_by true l) rA /\ counted (cv_eB s) (sent_by false l) rB /\
  (length (cv_log s) + length (cv_toA s) + length (cv_toB s) = length (sent_by true l) + length (sent_by false l))%nat.
Proof.
  intros E key rA rB l LA LB F. induction l as [|e l IH] using rev_ind; intros TA TB s.
  { cbn. split; [left; auto|]. split; [left; auto|reflexivity]. }
  apply Forall_app in F. destruct F as [F Fe]. inversion Fe as [|? ? He _]; subst.
  assert (forall f, sent_by f (l ++ [e]) = sent_by f l ++ sent_by f [e]) as SA.
  { intros f. unfold sent_by. apply flat_map_app. }
  rewrite !SA in *. rewrite !total16_app in TA, TB.
  destruct IH as (CA & CB & Len); [exact F|lia|lia|].
  subst s. unfold converse in *. rewrite fold_left_app. cbn [fold_left].
  set (s := fold_left (cstep E key rA rB) l conv0) in *.
  destruct e as [f p ad|f]; cbn [sent_by flat_map] in *.
  - destruct f; cbn [Bool.eqb app] in *; rewrite ?app_nil_r in *; cbn [cstep].
    + destruct (counted_send E key rA (cv_eA s) (sent_by true l) p ad LA CA He) as (b & e' & Q & C'); [rewrite total16_app; exact TA|].
      rewrite Q. cbn [cv_eA cv_eB cv_toA cv_toB cv_log]. rewrite !app_length. cbn [length]. split; [exact C'|]. split; [exact CB|lia].
    + destruct (counted_send E key rB (cv_eB s) (sent_by false l) p ad LB CB He) as (b & e' & Q & C'); [rewrite total16_app; exact TB|].
      rewrite Q. cbn [cv_eA cv_eB cv_toA cv_toB cv_log]. rewrite !app_length. cbn [length]. split; [exact CA|]. split; [exact C'|lia].
  - rewrite !app_nil_r. cbn [cstep]. destruct f.
    + destruct (cv_toA s) as [|[[b ad] p] q] eqn:Q; [rewrite Q; auto|].
      destruct (decode_aes E key b ad (cv_dA s) (cv_eA s)) as [o iv]. cbn [cv_eA cv_eB cv_toA cv_toB cv_log].
      rewrite app_length. cbn [length] in *. split; [exact CA|]. split; [exact CB|lia].
    + destruct (cv_toB s) as [|[[b ad] p] q] eqn:Q; [rewrite Q; auto|].
      destruct (decode_aes E key b ad (cv_dB s) (cv_eB s)) as [o iv]. cbn [cv_eA cv_eB cv_toA cv_toB cv_log].
      rewrite app_length. cbn [length] in *. split; [exact CA|]. split; [exact CB|lia].
Qed.

(** ** C11: accepted blocks *)
Lemma accepted_spec : forall E l iv, (iv = [] \/ iv12 iv) ->
  Forall (fun x => exists i, wire_iv (fst x) = Some i /\ iv12 i /\ (iv = [] \/ rand_part i = rand_part iv /\ ctr_part iv <= ctr_part i)) (accepted E l iv) /\
  StronglySorted after (accepted E l iv).
Proof.
  intros E l. induction l as [|r l IH]; intros iv Hiv; cbn [accepted].
  { split; constructor. }
  destruct (decode_aes E (rc_key r) (rc_block r) (rc_ad r) iv (rc_encIv r)) as [o iv'] eqn:D.
  assert ((iv' = [] \/ iv12 iv') /\ (iv <> [] -> iv' <> [] /\ rand_part iv' = rand_part iv /\ ctr_part iv <= ctr_part iv')) as [H1 H2].
  { destruct (decode_div _ _ _ _ _ _ _ _ D) as [->|(i & W & I & [F1 F2] & Hd)].
    { split; [exact Hiv|]. intros N. split; [exact N|]. split; [reflexivity|lia]. }
    assert (iv12 iv' /\ rand_part iv' = rand_part i /\ ctr_part i <= ctr_part iv') as (G1 & G2 & G3).
    { destruct Hd as [->|(pt & _ & U)]; [split; [exact I|]; split; [reflexivity|lia]|].
      destruct (update_iv_spec _ _ _ I U) as (U1 & U2 & U3 & _). split; [exact U1|]. split; [exact U2|].
      change (ctr_part iv') with (iv_counter iv'). change (ctr_part i) with (iv_counter i). lia. }
    split; [right; exact G1|]. intros N. split; [intros ->; discriminate|].
    destruct F2 as [F2|(_ & F2 & F3)]; [contradiction|]. 
    change (iv_counter iv) with (ctr_part iv) in F2. change (iv_counter i) with (ctr_part i) in F2.
    change (iv_prefix i) with (rand_part i) in F3. change (iv_prefix iv) with (rand_part iv) in F3.
    split; [congruence|lia]. }
  destruct (IH iv' H1) as [A B].
  assert (Forall (fun x => exists i, wire_iv (fst x) = Some i /\ iv12 i /\ (iv = [] \/ rand_part i = rand_part iv /\ ctr_part iv <= ctr_part i)) (accepted E l iv')) as A'.
  { eapply Forall_impl; [|exact A]. intros x (i & W1 & W2 & W3). exists i. repeat split; auto.
    destruct Hiv as [->|Hiv]; [left; reflexivity|right]. assert (iv <> []) as N by (intros ->; discriminate).
    destruct (H2 N) as (N1 & N2 & N3). destruct W3 as [W3|[W3 W4]]; [contradiction|]. split; [congruence|lia]. }
  destruct o as [pt| | |]; try (split; assumption).
  destruct (decode_ok_inv _ _ _ _ _ _ _ _ D) as (i & tag & ct & V & [F1 F2] & _ & _ & U).
  destruct (dec_view_iv _ _ _ _ V) as (I & _ & W). destruct (update_iv_spec _ _ _ I U) as (U1 & U2 & U3 & _).
  split.
  - constructor; [|exact A']. exists i. repeat split; auto. destruct F2 as [F2|(_ & F2 & F3)]; [left; exact F2|right].
    split; [exact F3|exact F2].
  - constructor; [exact B|]. eapply Forall_impl; [|exact A]. intros x (j & W1 & W2 & W3). exists i, j. cbn [fst snd].
    repeat split; auto; destruct W3 as [W3|[W3 W4]]; try (subst iv'; discriminate).
    + change (rand_part iv') with (iv_prefix iv') in W3. rewrite W3, U2. reflexivity.
    + change (ctr_part iv') with (iv_counter iv') in W4. change (ctr_part i) with (iv_counter i).
      match goal with |- context [blocks16 ?p mod 2 ^ 32] => change (blocks16 p mod 2 ^ 32) with (aes_blocks (blen p)) end. lia.
Qed.

Lemma sorted_nodup : forall l, StronglySorted after l -> Forall (fun x => snd x <> [] /\ small_payload (snd x)) l ->
  NoDup (map fst l).
Proof.
  induction l as [|x l IH]; intros S F; [constructor|]. inversion S as [|x' l' S1 S2]; subst. inversion F as [|x' l' [F1 F2] F3]; subst.
  cbn [map]. constructor; [|apply IH; assumption]. intros Hin. apply in_map_iff in Hin as (y & Y1 & Y2).
  rewrite Forall_forall in S2. destruct (S2 y Y2) as (i & j & W1 & W2 & W3 & W4). rewrite Y1, W1 in W2. injection W2 as ->.
  change (blocks16 (snd x) mod 2 ^ 32) with (aes_blocks (blen (snd x))) in W4.
  rewrite aes_blocks_small in W4 by exact F2. clear IH S. destruct (snd x) as [|a p] eqn:Ex in F1, F2, W4; [contradiction|].
  assert (0 < (blen (a :: p) + 15) / 16) by (apply N.div_str_pos; unfold blen; cbn [length]; lia). lia.
Qed.

(** ** C12: own blocks *)
Lemma reflect_rejected : forall E key block ad div eiv iv, eiv <> [] -> wire_iv block = Some iv ->
  rand_part iv = rand_part eiv -> fails (fst (decode_aes E key block ad div eiv)).
Proof.
  intros E key block ad div eiv iv N W R pt H.
  destruct (decode_aes E key block ad div eiv) as [o div'] eqn:D. cbn [fst] in H. subst o.
  destruct (decode_ok_inv _ _ _ _ _ _ _ _ D) as (i & tag & ct & V & [F1 F2] & _ & _ & U).
  destruct (dec_view_iv _ _ _ _ V) as (_ & _ & W'). rewrite W in W'. injection W' as ->.
  destruct F1 as [F1|[_ F1]]; [contradiction|]. apply F1. exact R.
Qed.

Lemma sends_prefix : forall E l iv, aes_laws E -> (iv = [] \/ iv12 iv) ->
  Forall (fun s => length (sd_rnd s) = 8%nat /\ fits (sd_payload s)) l ->
  (iv12 iv -> iv12 (snd (sends E l iv)) /\ iv_prefix (snd (sends E l iv)) = iv_prefix iv) /\
  Forall (fun b => exists i, wire_iv b = Some i /\ iv12 (snd (sends E l iv)) /\ iv_prefix i = iv_prefix (snd (sends E l iv))) (emitted E l iv).
Proof.
  intros E l iv L. revert iv. induction l as [|s l IH]; intros iv Hiv F.
  { unfold emitted. cbn. split; [auto|constructor]. }
  inversion F as [|s' l' (R & SP) F']; subst. unfold emitted. cbn [sends].
  pose proof (iv12_initial iv (sd_rnd s) Hiv R) as I1.
  destruct (encode_aes_spec E (sd_key s) (sd_payload s) (sd_ad s) iv (sd_rnd s) Hiv R) as [(iv2 & U & X)|[U X]]; rewrite X.
  - destruct (update_iv_spec _ _ _ I1 U) as (U1 & U2 & U3 & U4).
    destruct (IH iv2 (or_intror U1) F') as (A & B). unfold emitted in *.
    destruct (sends E l iv2) as [os ivf] eqn:SS. cbn [fst snd flat_map app map] in *. destruct (A U1) as [A1 A2]. split.
    + intros Hi. rewrite initial_ne in U2 by exact Hi. split; [exact A1|congruence].
    + constructor; [|exact B]. exists (initial_iv iv (sd_rnd s)). split; [apply sealed_iv; assumption|]. split; [exact A1|congruence].
  - destruct (IH _ (or_intror I1) F') as (A & B). unfold emitted in *.
    destruct (sends E l (initial_iv iv (sd_rnd s))) as [os ivf] eqn:SS. cbn [fst snd flat_map app map] in *. split; [|exact B].
    intros Hi. rewrite initial_ne in A by exact Hi. apply A. exact Hi.
Qed.

Lemma own_block_rejected : forall E l key ad div b, aes_laws E ->
  Forall (fun s => length (sd_rnd s) = 8%nat /\ fits (sd_payload s)) l ->
  In b (emitted E l []) -> fails (fst (decode_aes E key b ad div (snd (sends E l [])))).
Proof.
  intros E l key ad div b L F H. destruct (sends_prefix E l [] L (or_introl eq_refl) F) as [_ B].
  rewrite Forall_forall in B. destruct (B b H) as (i & W & I & R). eapply reflect_rejected; [|exact W|exact R].
  intros X. rewrite X in I. discriminate.
Qed.

(** ** C14: secret codes *)
Lemma dd_step : forall f n, dec_digits (S f) n = if n <? 10 then [digit n] else dec_digits f (n / 10) ++ [digit (n mod 10)].
Proof. reflexivity. Qed.

Lemma digits_small : forall k, k < 1000000 -> pad6 (to_string_N k) = six_digits k.
Proof.
  intros k H. unfold to_string_N, six_digits. cbn [map].
  change (fun d : N => byte_of_N (48 + d)) with digit.
  assert (k / 10 / 10 = k / 100) as E2 by (rewrite N.div_div by lia; reflexivity).
  assert (k / 100 / 10 = k / 1000) as E3 by (rewrite N.div_div by lia; reflexivity).
  assert (k / 1000 / 10 = k / 10000) as E4 by (rewrite N.div_div by lia; reflexivity).
  assert (k / 10000 / 10 = k / 100000) as E5 by (rewrite N.div_div by lia; reflexivity).
  rewrite dd_step. destruct (N.ltb_spec k 10) as [L1|L1].
  { rewrite (N.mod_small k) by lia. rewrite !N.div_small by lia. reflexivity. }
  rewrite dd_step. destruct (N.ltb_spec (k / 10) 10) as [L2|L2].
  { rewrite (N.mod_small (k / 10)) by lia. rewrite (N.div_small k 100000), (N.div_small k 10000), (N.div_small k 1000), (N.div_small k 100) by lia.
    reflexivity. }
  rewrite dd_step, E2. destruct (N.ltb_spec (k / 100) 10) as [L3|L3].
  { rewrite (N.mod_small (k / 100)) by lia. rewrite (N.div_small k 100000), (N.div_small k 10000), (N.div_small k 1000) by lia.
    reflexivity. }
  rewrite dd_step, E3. destruct (N.ltb_spec (k / 1000) 10) as [L4|L4].
  { rewrite (N.mod_small (k / 1000)) by lia. rewrite (N.div_small k 100000), (N.div_small k 10000) by lia.
    reflexivity. }
  rewrite dd_step, E4. destruct (N.ltb_spec (k / 10000) 10) as [L5|L5].
  { rewrite (N.mod_small (k / 10000)) by lia. rewrite (N.div_small k 100000) by lia.
    reflexivity. }
  rewrite dd_step, E5. destruct (N.ltb_spec (k / 100000) 10) as [L6|L6]; [|lia].
  rewrite (N.mod_small (k / 100000)) by lia. reflexivity.
Qed.

Lemma digit_inj : forall a b, a < 10 -> b < 10 -> digit a = digit b -> a = b.
Proof.
  intros a b A B H. destruct (digit_is_digit a A) as [_ X]. destruct (digit_is_digit b B) as [_ Y]. rewrite H in X. lia.
Qed.
Lemma digits_value : forall k, k < 1000000 ->
  k = 100000 * ((k / 100000) mod 10) + 10000 * ((k / 10000) mod 10) + 1000 * ((k / 1000) mod 10) +
      100 * ((k / 100) mod 10) + 10 * ((k / 10) mod 10) + k mod 10.
Proof.
  intros k H.
  assert (k / 10 / 10 = k / 100) as E2 by (rewrite N.div_div by lia; reflexivity).
  assert (k / 100 / 10 = k / 1000) as E3 by (rewrite N.div_div by lia; reflexivity).
  assert (k / 1000 / 10 = k / 10000) as E4 by (rewrite N.div_div by lia; reflexivity).
  assert (k / 10000 / 10 = k / 100000) as E5 by (rewrite N.div_div by lia; reflexivity).
  assert (k / 100000 < 10) as E6 by (apply N.div_lt_upper_bound; lia).
  pose proof (N.div_mod k 10 ltac:(lia)) as D1. pose proof (N.div_mod (k / 10) 10 ltac:(lia)) as D2.
  pose proof (N.div_mod (k / 100) 10 ltac:(lia)) as D3. pose proof (N.div_mod (k / 1000) 10 ltac:(lia)) as D4.
  pose proof (N.div_mod (k / 10000) 10 ltac:(lia)) as D5. pose proof (N.mod_small (k / 100000) 10 E6) as D6.
  rewrite E2 in D2. rewrite E3 in D3. rewrite E4 in D4. rewrite E5 in D5. clear E2 E3 E4 E5 H.
  generalize dependent (k / 100000). generalize dependent (k / 10000). generalize dependent (k / 1000).
  generalize dependent (k / 100). generalize dependent (k / 10). generalize (k mod 10).
  intros m0 d1 D1. generalize dependent (d1 mod 10). intros m1 d2 D2. generalize dependent (d2 mod 10). intros m2 d3 D3.
  generalize dependent (d3 mod 10). intros m3 d4 D4. generalize dependent (d4 mod 10). intros m4 d5 _ D5 D6. rewrite D6.
  clear D6. lia.
Qed.
Lemma six_digits_inj : forall a b, a < 1000000 -> b < 1000000 -> six_digits a = six_digits b -> a = b.
Proof.
  intros a b A B H. unfold six_digits in H. cbn [map] in H.
  change (fun d : N => byte_of_N (48 + d)) with digit in H.
  injection H as H1 H2 H3 H4 H5 H6.
  apply digit_inj in H1; [|apply N.mod_lt; lia..]. apply digit_inj in H2; [|apply N.mod_lt; lia..].
  apply digit_inj in H3; [|apply N.mod_lt; lia..]. apply digit_inj in H4; [|apply N.mod_lt; lia..].
  apply digit_inj in H5; [|apply N.mod_lt; lia..]. apply digit_inj in H6; [|apply N.mod_lt; lia..].
  rewrite (digits_value a A), (digits_value b B). congruence.
Qed.

Lemma code_words : forall k w, k < 1000000 -> w < 2 ^ 32 ->
  (accepted_word w = true /\ code_of_word w = six_digits k <-> 4294 * k <= w < 4294 * (k + 1)).
Proof.
  intros k w Hk Hw. unfold accepted_word, code_of_word. rewrite N.mod_small by exact Hw. rewrite N.ltb_lt. split.
  - intros [A B]. assert (w / 4294 < 1000000) as C by (apply N.div_lt_upper_bound; lia).
    rewrite digits_small in B by exact C. apply six_digits_inj in B; auto. subst k.
    pose proof (N.mul_div_le w 4294). pose proof (N.mul_succ_div_gt w 4294). lia.
  - intros [A B]. split; [lia|]. assert (w / 4294 = k) as -> by (symmetry; apply (N.div_unique w 4294 k (w - 4294 * k)); lia).
    apply digits_small. exact Hk.
Qed.

Lemma gen_code_spec : forall ws code, gen_code ws = Ok code ->
  exists w, In w ws /\ accepted_word w = true /\ code = code_of_word w /\
    exists k, k < 1000000 /\ code = six_digits k.
Proof.
  intros ws code H. unfold gen_code in H. destruct (find accepted_word ws) as [w|] eqn:F; [|discriminate].
  apply find_some in F as [F1 F2]. injection H as <-. exists w. repeat split; auto.
  exists ((w mod 2 ^ 32) / 4294). unfold accepted_word in F2. apply N.ltb_lt in F2.
  assert ((w mod 2 ^ 32) / 4294 < 1000000) as C by (apply N.div_lt_upper_bound; lia).
  split; [exact C|]. unfold code_of_word. apply digits_small. exact C.
Qed.
