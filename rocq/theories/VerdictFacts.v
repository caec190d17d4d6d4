(** Why the CA gives up a pending request. *)
From Verif Require Export Spec_Verdict PossessionFacts AcceptFacts.
From Coq Require Import Lia.
Local Open Scope N_scope.

(** ** The last value of a key *)
Definition is_pair (a b : tlv) (k : bytes) : bool := (t_type a =? T_ParameterKey) && (t_type b =? T_ParameterValue) && bytes_eqb (t_val a) k.
Fixpoint last_of (k : bytes) (l : list tlv) : option bytes :=
  match l with
  | a :: l1 => match last_of k l1 with
               | Some v => Some v
               | None => match l1 with b :: _ => if is_pair a b k then Some (t_val b) else None | [] => None end
               end
  | [] => None
  end.
Lemma is_pair_iff : forall a b k, is_pair a b k = true <-> a = Tlv T_ParameterKey k /\ b = Tlv T_ParameterValue (t_val b).
Proof.
  intros [ta va] [tb vb] k. unfold is_pair. cbn [t_type t_val]. split.
  - intros H. apply andb_prop in H as [H K]. apply andb_prop in H as [A B]. apply N.eqb_eq in A. apply N.eqb_eq in B. apply bytes_eqb_eq in K. subst. auto.
  - intros [A B]. injection A as -> ->. injection B as ->. rewrite !N.eqb_refl, bytes_eqb_refl. reflexivity.
Qed.
Lemma pair_in_inv : forall a l k v, pair_in (a :: l) k v -> pair_in l k v \/ exists b l', l = b :: l' /\ is_pair a b k = true /\ t_val b = v.
Proof.
  intros a l k v (p & q & H). destruct p as [|p0 p]; cbn [app] in H; injection H as -> ->.
  - right. eexists. eexists. split; [reflexivity|]. split; [apply is_pair_iff; auto|reflexivity].
  - left. exists p, q. reflexivity.
Qed.
Lemma is_pair_in : forall a b k l, is_pair a b k = true -> pair_in (a :: b :: l) k (t_val b).
Proof. intros a b k l H. apply is_pair_iff in H as [-> B]. exists [], l. cbn [app]. rewrite <- B. reflexivity. Qed.
Lemma last_none : forall k l, last_of k l = None <-> forall v, ~ pair_in l k v.
Proof.
  intros k. induction l as [|a l [IH1 IH2]]; cbn [last_of].
  - split; [intros _ v (p & q & H); destruct p; discriminate|reflexivity].
  - split.
    + intros H v PI. destruct (last_of k l) as [w|] eqn:L; [discriminate|]. apply pair_in_inv in PI as [PI|(b & l' & -> & P & V)]; [exact (IH1 eq_refl v PI)|].
      rewrite P in H. discriminate.
    + intros H. rewrite IH2 by (intros v PI; exact (H v (pair_in_cons _ _ _ _ PI))). destruct l as [|b l]; [reflexivity|].
      destruct (is_pair a b k) eqn:P; [|reflexivity]. destruct (H (t_val b) (is_pair_in _ _ _ _ P)).
Qed.
Lemma value_no_pair : forall v b k v', pair_in (Tlv T_ParameterValue v :: b) k v' -> pair_in b k v'.
Proof.
  intros v b k v' H. apply pair_in_inv in H as [H|(b0 & l' & -> & P & V)]; [exact H|]. apply is_pair_iff in P as [P _]. discriminate.
Qed.
Lemma last_some : forall k l v, last_of k l = Some v <-> last_value l k v.
Proof.
  intros k. induction l as [|a l IH]; intros v; cbn [last_of].
  - split; [discriminate|]. intros (p & q & H & _). destruct p; discriminate.
  - destruct (last_of k l) as [w|] eqn:L.
    + destruct (proj1 (IH w) eq_refl) as (p & q & -> & N). split.
      * intros Q. injection Q as <-. exists (a :: p), q. auto.
      * intros (p' & q' & Q & N'). destruct p' as [|a' p']; cbn [app] in Q; injection Q as -> Q.
        -- exfalso. destruct p as [|b p]; cbn [app] in Q; [apply (f_equal (fun l => match l with t :: _ => t_type t | [] => 0 end)) in Q; vm_compute in Q; discriminate Q|]. injection Q as E1 E2. apply (N' w). rewrite <- E2. exists p, q. reflexivity.
        -- apply (IH v). exists p', q'. auto.
    + pose proof (proj1 (last_none k l) L) as NP. split.
      * destruct l as [|b l]; [discriminate|]. destruct (is_pair a b k) eqn:P; [|discriminate]. intros Q. injection Q as <-. apply is_pair_iff in P as [-> B].
        exists [], l. cbn [app]. rewrite <- B. split; [reflexivity|]. intros v' PI. exact (NP v' (pair_in_cons _ _ _ _ PI)).
      * intros (p' & q' & Q & N'). destruct p' as [|a' p']; cbn [app] in Q; injection Q as -> Q.
        -- subst l. rewrite (proj2 (is_pair_iff _ _ k) (conj eq_refl eq_refl)). reflexivity.
        -- subst l. destruct (NP v). exists p', q'. reflexivity.
Qed.

(** ** The loop over the parameters of a possession challenge *)
Definition cert_of (E : env) (v : bytes) : option cert := match block_from_value v with Some b => data_decode E b | None => None end.
Lemma encloses_iff : forall E v c, encloses E v c <-> cert_of E v = Some c.
Proof.
  intros E v c. unfold encloses, cert_of. destruct (block_from_value v) as [b|]; [|split; [intros (b & H & _); discriminate|discriminate]].
  split; [intros (b' & H & D); injection H as ->; exact D|]. intros D. exists b. auto.
Qed.
Lemma pair_step : forall a b k l, is_pair a b k = true -> last_of k (a :: b :: l) = Some (match last_of k (b :: l) with Some v => v | None => t_val b end).
Proof. intros a b k l P. cbn [last_of]. cbn [last_of]. destruct (match last_of k l with Some v => Some v | None => _ end); [reflexivity|]. rewrite P. reflexivity. Qed.
Lemma other_step : forall a b k l, is_pair a b k = false -> last_of k (a :: b :: l) = last_of k (b :: l).
Proof. intros a b k l P. change (last_of k (a :: b :: l)) with (match last_of k (b :: l) with Some v => Some v | None => if is_pair a b k then Some (t_val b) else None end). rewrite P. destruct (last_of k (b :: l)); reflexivity. Qed.
Definition after (E : env) (l : list tlv) (cred : option cert) : option cert :=
  match last_of (bs "issued-cert") l with Some v => cert_of E v | None => cred end.
Definition afterp (l : list tlv) (pf : bytes) : bytes := match last_of (bs "proof") l with Some v => v | None => pf end.
Lemma key_excl : forall a b, is_pair a b (bs "issued-cert") = true -> is_pair a b (bs "proof") = true -> False.
Proof. intros a b P Q. apply is_pair_iff in P as [P _]. apply is_pair_iff in Q as [Q _]. rewrite P in Q. discriminate. Qed.

Lemma loop_exact : forall E l cred pf,
  (poss_loop E l cred pf = None /\ garbled E l) \/
  (poss_loop E l cred pf = Some (after E l cred, afterp l pf) /\ ~ garbled E l).
Proof.
  intros E. induction l as [|k l IH]; intros cred pf.
  - right. split; [reflexivity|]. intros (v & (p & q & H) & _). destruct p; discriminate.
  - destruct l as [|v l].
    + right. split; [reflexivity|]. intros (w & (p & q & H) & _). destruct p as [|? [|? p]]; discriminate.
    + assert (STEP : poss_loop E (k :: v :: l) cred pf =
        (if is_pair k v (bs "issued-cert") then match cert_of E (t_val v) with Some c => poss_loop E (v :: l) (Some c) pf | None => None end
         else if is_pair k v (bs "proof") then poss_loop E (v :: l) cred (t_val v) else poss_loop E (v :: l) cred pf)).
      { change (poss_loop E (k :: v :: l) cred pf) with
          (if (t_type k =? T_ParameterKey) && (t_type v =? T_ParameterValue) then
            if bytes_eqb (t_val k) K_CRED then
              match block_from_value (t_val v) with
              | Some b => match data_decode E b with Some c => poss_loop E (v :: l) (Some c) pf | None => None end
              | None => None
              end
            else if bytes_eqb (t_val k) K_PROOF then poss_loop E (v :: l) cred (t_val v) else poss_loop E (v :: l) cred pf
          else poss_loop E (v :: l) cred pf).
        unfold is_pair, cert_of. change K_CRED with (bs "issued-cert"). change K_PROOF with (bs "proof").
        destruct ((t_type k =? T_ParameterKey) && (t_type v =? T_ParameterValue)); cbn [andb]; [|reflexivity].
        destruct (bytes_eqb (t_val k) (bs "issued-cert")); [|reflexivity]. destruct (block_from_value (t_val v)); reflexivity. }
      assert (GC : garbled E (v :: l) -> garbled E (k :: v :: l)) by (intros (w & PI & N); exists w; split; [exact (pair_in_cons _ _ _ _ PI)|exact N]).
      assert (GI : garbled E (k :: v :: l) -> garbled E (v :: l) \/ is_pair k v (bs "issued-cert") = true /\ cert_of E (t_val v) = None).
      { intros (w & PI & N). apply pair_in_inv in PI as [PI|(b & l' & Q & P & V)]; [left; exists w; auto|]. injection Q as <- <-. right. split; [exact P|].
        destruct (cert_of E (t_val v)) as [c|] eqn:CO; [|reflexivity]. destruct (N c). apply encloses_iff. rewrite <- V. exact CO. }
      rewrite STEP. clear STEP. destruct (is_pair k v (bs "issued-cert")) eqn:PC.
      * assert (PP : is_pair k v (bs "proof") = false) by (destruct (is_pair k v (bs "proof")) eqn:Q; [destruct (key_excl _ _ PC Q)|reflexivity]).
        destruct (cert_of E (t_val v)) as [c|] eqn:CO.
        -- destruct (IH (Some c) pf) as [[Q G]|[Q G]]; rewrite Q.
           ++ left. auto.
           ++ right. split; [|intros H; apply GI in H as [H|[_ H]]; [contradiction|discriminate]].
              unfold after, afterp. rewrite (pair_step _ _ _ _ PC), (other_step _ _ _ _ PP). destruct (last_of (bs "issued-cert") (v :: l)); [reflexivity|]. rewrite CO. reflexivity.
        -- left. split; [reflexivity|]. exists (t_val v). split; [exact (is_pair_in _ _ _ _ PC)|]. intros c H. apply encloses_iff in H. congruence.
      * destruct (is_pair k v (bs "proof")) eqn:PP.
        -- destruct (IH cred (t_val v)) as [[Q G]|[Q G]]; rewrite Q; [left; auto|right]. split; [|intros H; apply GI in H as [H|[H _]]; [contradiction|discriminate]].
           unfold after, afterp. rewrite (pair_step _ _ _ _ PP), (other_step _ _ _ _ PC). reflexivity.
        -- destruct (IH cred pf) as [[Q G]|[Q G]]; rewrite Q; [left; auto|right]. split; [|intros H; apply GI in H as [H|[H _]]; [contradiction|discriminate]].
           unfold after, afterp. rewrite (other_step _ _ _ _ PP), (other_step _ _ _ _ PC). reflexivity.
Qed.

Lemma cred_known : forall E l, ~ garbled E l -> has_content (after E l None) = true <-> exists c, credential E l c.
Proof.
  intros E l NG. unfold after. split.
  - destruct (last_of (bs "issued-cert") l) as [v|] eqn:L; [|discriminate]. destruct (cert_of E v) as [c|] eqn:C; [|discriminate]. cbn [has_content]. intros H.
    exists c, v. split; [apply last_some; exact L|]. split; [apply encloses_iff; exact C|]. destruct (c_content c); discriminate.
  - intros (c & v & L & EN & CC). apply last_some in L. rewrite L. apply encloses_iff in EN. rewrite EN. cbn [has_content]. destruct (c_content c); [reflexivity|contradiction].
Qed.
Lemma cred_is : forall E l c, credential E l c <-> after E l None = Some c /\ c_content c <> None.
Proof.
  intros E l c. unfold after. split.
  - intros (v & L & EN & CC). apply last_some in L. rewrite L. apply encloses_iff in EN. auto.
  - intros [H CC]. destruct (last_of (bs "issued-cert") l) as [v|] eqn:L; [|discriminate]. exists v. split; [apply last_some; exact L|]. split; [apply encloses_iff; exact H|exact CC].
Qed.
Lemma proof_is : forall l p, proof l p <-> afterp l [] = p /\ p <> [].
Proof.
  intros l p. unfold afterp, proof. split; (intros [H N]; split; [|exact N]).
  - apply last_some in H. rewrite H. reflexivity.
  - destruct (last_of (bs "proof") l) as [v|] eqn:L; [|subst p; contradiction]. apply last_some. subst. exact L.
Qed.

(** ** The challenge modules *)
Lemma life_excl : forall ty life, code_life ty life -> ty <> bs "possession".
Proof. intros ty life H. destruct H; discriminate. Qed.
Lemma life_fun : forall ty a b, code_life ty a -> code_life ty b -> a = b.
Proof. intros ty a b H K. destruct H; inversion K; reflexivity. Qed.
Lemma wants_iff : forall cs, bytes_eqb (cs_status cs) NEED_CODE || bytes_eqb (cs_status cs) WRONG_CODE = true <-> wants_code cs.
Proof. intros cs. rewrite orb_true_iff, !bytes_eqb_eq. unfold wants_code. reflexivity. Qed.

Definition reports (h : hres) (code : N) : Prop := code <> NO_ERROR /\ exists info, h_out h = Ok (code, info).
Lemma reports_error : forall r c info em code, c <> NO_ERROR -> reports (ret_error r c info em) code <-> code = c.
Proof. intros r c info em code N. split; [intros (_ & i & Q); injection Q as -> _; reflexivity|]. intros ->. split; [exact N|]. exists info. reflexivity. Qed.
Lemma reports_not : forall h code, (forall c info, h_out h = Ok (c, info) -> c = NO_ERROR) -> ~ reports h code.
Proof. intros h code H (N & info & Q). exact (N (H _ _ Q)). Qed.
Ltac noerr := let H := fresh in intros H; exfalso; revert H; apply reports_not; intros ? ? ?Q; first [discriminate|injection Q as <- _; reflexivity].

(** The code of a pin or email challenge. *)
Lemma code_fails : forall E cfg i ty life msg params r code, code_life ty life -> rq_status r <> ST_BEFORE ->
  reports (check_code ty life msg (in_t1 i) (in_t2 i) params r) code <-> challenge_fails E cfg i params r ty code.
Proof.
  intros E cfg i ty life msg params r code CL ST. unfold check_code. destruct (rq_cs r) as [cs|] eqn:C.
  2:{ rewrite reports_error by discriminate. split.
      - intros ->. apply (fail_no_code_expected E cfg i params r ty life CL ST). congruence.
      - intros H. inversion H; subst; try congruence; try reflexivity; destruct (life_excl _ _ CL eq_refl). }
  destruct (bytes_eqb (cs_status cs) NEED_CODE || bytes_eqb (cs_status cs) WRONG_CODE) eqn:W.
  2:{ assert (NW : ~ wants_code cs) by (intros Q; apply wants_iff in Q; congruence). rewrite reports_error by discriminate. split.
      - intros ->. apply (fail_no_code_expected E cfg i params r ty life CL ST). congruence.
      - intros H. inversion H as [ty0 l CL' ST' N|ty0 l cs' t CL' ST' C' WC GP LE|ty0 cs' given code' ST' C' GU SC NE T| | | | | | ]; subst; try reflexivity; try (destruct (life_excl _ _ CL eq_refl)).
        + assert (cs' = cs) by congruence. subst. contradiction.
        + assert (cs' = cs) by congruence. subst. destruct GU as (? & ? & _ & Q & _). contradiction. }
  apply wants_iff in W. destruct (get T_ParameterValue params) as [given|] eqn:GP.
  2:{ split; [noerr|]. intros H. exfalso. inversion H as [ty0 l CL' ST' N|ty0 l cs' t CL' ST' C' WC GP' LE|ty0 cs' given code' ST' C' GU SC NE T| | | | | | ]; subst; try (exact (life_excl _ _ CL eq_refl)).
      - exact (N cs C W).
      - congruence.
      - destruct GU as (? & ? & _ & _ & Q & _). congruence. }
  destruct (Z.leb_spec (sec life) (in_t1 i - cs_time cs)) as [LE|LT].
  { rewrite reports_error by discriminate. split.
    - intros ->. exact (fail_too_late E cfg i params r ty life cs given CL ST C W GP LE).
    - intros H. inversion H as [ty0 l CL' ST' N|ty0 l cs' t CL' ST' C' WC GP' LE'|ty0 cs' given' code' ST' C' GU SC NE T| | | | | | ]; subst; try reflexivity; try (destruct (life_excl _ _ CL eq_refl)).
      + destruct (N cs C W).
      + assert (cs' = cs) by congruence. subst. destruct GU as (l' & t & CL' & _ & _ & _ & LT'). rewrite (life_fun _ _ _ CL' CL) in LT'. exfalso. revert LT' LE. intros. lia. }
  destruct (sec_get K_CODE (cs_secrets cs)) as [secret|] eqn:SC.
  2:{ split; [noerr|]. intros H. exfalso. inversion H as [ty0 l CL' ST' N|ty0 l cs' t CL' ST' C' WC GP' LE|ty0 cs' given' code' ST' C' GU SC' NE T| | | | | | ]; subst; try (exact (life_excl _ _ CL eq_refl)).
      - exact (N cs C W).
      - assert (cs' = cs) by congruence. subst. rewrite (life_fun _ _ _ CL' CL) in LE. lia.
      - assert (cs' = cs) by congruence. subst. change K_CODE with (bs "code") in SC. congruence. }
  assert (GUE : guesses i params cs ty (t_val given)) by (exists life, given; auto 10).
  destruct (bytes_eqb (t_val given) secret) eqn:B.
  { apply bytes_eqb_eq in B. split; [noerr|]. intros H. exfalso.
    inversion H as [ty0 l CL' ST' N|ty0 l cs' t CL' ST' C' WC GP' LE|ty0 cs' given' code' ST' C' GU SC' NE T| | | | | | ]; subst; try (exact (life_excl _ _ CL eq_refl)).
    - exact (N cs C W).
    - assert (cs' = cs) by congruence. subst. rewrite (life_fun _ _ _ CL' CL) in LE. lia.
    - assert (cs' = cs) by congruence. subst. change K_CODE with (bs "code") in SC. destruct GU as (l' & t & _ & _ & G & V & _). congruence. }
  apply bytes_eqb_neq in B. destruct (N.ltb_spec 1 (cs_tries cs)) as [T|T].
  { split; [noerr|]. intros H. exfalso.
    inversion H as [ty0 l CL' ST' N|ty0 l cs' t CL' ST' C' WC GP' LE|ty0 cs' given' code' ST' C' GU SC' NE T'| | | | | | ]; subst; try (exact (life_excl _ _ CL eq_refl)).
    - exact (N cs C W).
    - assert (cs' = cs) by congruence. subst. rewrite (life_fun _ _ _ CL' CL) in LE. lia.
    - assert (cs' = cs) by congruence. subst. lia. }
  rewrite reports_error by discriminate. split.
  - intros ->. exact (fail_last_try E cfg i params r ty cs (t_val given) secret ST C GUE SC B T).
  - intros H. inversion H as [ty0 l CL' ST' N|ty0 l cs' t CL' ST' C' WC GP' LE|ty0 cs' given' code' ST' C' GU SC' NE T'| | | | | | ]; subst; try reflexivity; try (destruct (life_excl _ _ CL eq_refl)).
    + destruct (N cs C W).
    + assert (cs' = cs) by congruence. subst. rewrite (life_fun _ _ _ CL' CL) in LE. exfalso. lia.
Qed.

(** A credential as the possession challenge keeps it. *)
Definition kept (E : env) (cs : cstate) : Prop := cs_status cs = bs "need-proof" ->
  exists c nonce, proves E cs c nonce /\ wf_cert c /\ fits (o_cert_wire E c) /\ o_cert_unwire E (o_cert_wire E c) = Some c.
Lemma some_inj : forall A (a b : A), Some a = Some b -> a = b.
Proof. congruence. Qed.
Lemma enc_var_blen : forall n, blen (enc_var n) = if n <? 253 then 1 else if n <=? 65535 then 3 else if n <=? 4294967295 then 5 else 9.
Proof. intros n. unfold enc_var, blen. destruct (n <? 253); [reflexivity|]. destruct (n <=? 65535); [reflexivity|]. destruct (n <=? 4294967295); reflexivity. Qed.
Lemma cert_tlv_inj : forall E a b, enc_tlv (cert_tlv E a) = enc_tlv (cert_tlv E b) -> o_cert_wire E a = o_cert_wire E b.
Proof.
  intros E a b H. unfold enc_tlv in H. cbn [cert_tlv t_type t_val] in H. apply app_inv_head in H.
  assert (L : blen (o_cert_wire E a) = blen (o_cert_wire E b)).
  { apply (f_equal blen) in H. rewrite !blen_app, !enc_var_blen in H. revert H. generalize (blen (o_cert_wire E a)) (blen (o_cert_wire E b)). intros n m.
    destruct (N.ltb_spec n 253), (N.leb_spec n 65535), (N.leb_spec n 4294967295), (N.ltb_spec m 253), (N.leb_spec m 65535), (N.leb_spec m 4294967295); lia. }
  rewrite L in H. exact (app_inv_head _ _ _ H).
Qed.
Lemma trusted_iff : forall E cfg c anchors loc, cc_anchors cfg = Ok anchors -> c_keyloc c = Some loc ->
  existsb (anchor_ok E c loc) anchors = true <-> trusted E cfg c.
Proof.
  intros E cfg c anchors loc A L. split.
  - intros X. apply existsb_exists in X as (a & IA & OK). unfold anchor_ok in OK. apply andb_prop in OK as [O1 O2].
    exists anchors, a, loc. split; [exact A|]. split; [exact IA|]. split; [exact L|]. split; [|exact O2]. apply orb_true_iff in O1 as [O1|O1]; apply name_eqb_eq in O1; auto.
  - intros T. destruct (trusted_anchor E cfg c T) as (an & lo & A' & L' & X). rewrite A in A'. injection A' as <-. rewrite L in L'. injection L' as <-. exact X.
Qed.

Lemma possession_fails : forall E cfg i params r code, codec_laws E -> params <> [] -> (forall cs, rq_cs r = Some cs -> kept E cs) ->
  reports (handle_possession E cfg i params r) code <-> challenge_fails E cfg i params r (bs "possession") code.
Proof.
  intros E cfg i params r code LC NE KP.
  assert (NC : forall life, ~ code_life (bs "possession") life) by (intros life H; exact (life_excl _ _ H eq_refl)).
  assert (NG' : forall cs given, ~ guesses i params cs (bs "possession") given) by (intros cs given (l & t & CL & _); exact (NC l CL)).
  unfold handle_possession. destruct (cc_anchors cfg) as [anchors| | |] eqn:A.
  2-4: split; [noerr|intros H; exfalso; inversion H; subst; try congruence; first [eapply NC; eassumption|eapply NG'; eassumption]].
  destruct params as [|p0 ps] eqn:PS; [contradiction|]. rewrite <- PS in *. clear p0 ps PS.
  destruct (loop_exact E params None []) as [[Q G]|[Q G]]; rewrite Q; clear Q.
  { rewrite reports_error by discriminate. split; [intros ->; exact (fail_garbled E cfg i params r anchors A G)|].
    intros H. inversion H; subst; try reflexivity; try contradiction; exfalso; first [eapply NC; eassumption|eapply NG'; eassumption]. }
  pose proof (cred_known E params G) as CK. pose proof (cred_is E params) as CI. pose proof (proof_is params) as PI. clear NE.
  set (cred := after E params None) in *. set (pf := afterp params []) in *. clearbody cred pf.
  assert (PN : pf = [] -> forall p, ~ proof params p) by (intros Q p H; apply PI in H as [H1 H2]; congruence).
  assert (PY : pf <> [] -> proof params pf) by (intros Q; apply PI; auto).
  assert (CN : has_content cred = false -> forall c, ~ credential E params c) by (intros Q c H; rewrite (proj2 CK (ex_intro _ c H)) in Q; discriminate).
  destruct (N.eqb_spec (rq_status r) ST_BEFORE) as [ST|ST].
  - assert (NOC : (has_content cred = false \/ pf <> []) -> reports (ret_error r BAD_INTEREST_FORMAT (bs "Cannot find certificate") None) code <-> challenge_fails E cfg i params r (bs "possession") code).
    { intros CASE. rewrite reports_error by discriminate. split.
      - intros ->. apply (fail_no_credential E cfg i params r anchors A G ST). destruct CASE as [Q|Q]; [left; exact (CN Q)|right; exists pf; exact (PY Q)].
      - intros H. inversion H as [|?|?|?|?|an c loc A' G' ST' CR NP KL PK NT|?|?|?]; subst; try reflexivity; try contradiction; try (exfalso; first [eapply NC; eassumption|eapply NG'; eassumption]).
        exfalso. destruct CASE as [Q|Q]; [exact (CN Q c CR)|exact (NP pf (PY Q))]. }
    destruct cred as [c|]; [|destruct pf; apply NOC; left; reflexivity]. destruct (has_content (Some c)) eqn:HC; [|destruct pf; apply NOC; left; reflexivity].
    destruct pf as [|b pf]; [|apply NOC; right; discriminate]. clear NOC.
    assert (CR : credential E params c) by (apply CI; split; [reflexivity|]; cbn [has_content] in HC; destruct (c_content c); discriminate).
    assert (CU : forall c', credential E params c' -> c' = c) by (intros c' H; apply CI in H as [H _]; congruence).
    assert (REST : forall h, (forall loc, c_keyloc c = Some loc -> o_pubkey_ok E (public_key c) = true -> ~ trusted E cfg c -> False) -> (forall cd, ~ reports h cd) ->
      reports h code <-> challenge_fails E cfg i params r (bs "possession") code).
    { intros h K NR. split; [intros H; destruct (NR _ H)|]. intros H. exfalso.
      inversion H as [|?|?|?|an A' G' ST' [Q|(p & Q)]|an c' loc A' G' ST' CR' NP KL PK NT|?|?|?]; subst; try contradiction; try (first [eapply NC; eassumption|eapply NG'; eassumption]).
      - exact (Q c CR).
      - exact (PN eq_refl p Q).
      - rewrite (CU c' CR') in *. exact (K loc KL PK NT). }
    destruct (c_keyloc c) as [loc|] eqn:KL; [|apply REST; [discriminate|intros cd; apply reports_not; discriminate]].
    destruct (o_pubkey_ok E (public_key c)) eqn:PK; cbn [negb]; [|apply REST; [discriminate|intros cd; apply reports_not; discriminate]].
    destruct (existsb (anchor_ok E c loc) anchors) eqn:X.
    + apply (trusted_iff E cfg c anchors loc A KL) in X. apply REST; [intros lo _ _ NT; contradiction|]. intros cd. apply reports_not. intros ? ? H. injection H as <- _. reflexivity.
    + assert (NT : ~ trusted E cfg c) by (intros T; apply (trusted_iff E cfg c anchors loc A KL) in T; congruence).
      rewrite reports_error by discriminate. split; [intros ->; exact (fail_untrusted E cfg i params r anchors c loc A G ST CR (PN eq_refl) KL PK NT)|].
      intros H. inversion H as [|?|?|?|an A' G' ST' [Q|(p & Q)]|an c' lo A' G' ST' CR' NP KL' PK' NT'|?|?|?]; subst; try reflexivity; try contradiction; exfalso; try (first [eapply NC; eassumption|eapply NG'; eassumption]).
      * exact (Q c CR).
      * exact (PN eq_refl p Q).
  - assert (UNEXP : (forall cs, rq_cs r = Some cs -> cs_status cs <> bs "need-proof") ->
      reports (ret_error r INVALID_PARAMETER (bs "Fail to recognize the request.") None) code <-> challenge_fails E cfg i params r (bs "possession") code).
    { intros CASE. rewrite reports_error by discriminate. split; [intros ->; exact (fail_no_proof_expected E cfg i params r anchors A G ST CASE)|].
      intros H. inversion H as [|?|?|?|?|?|?|an cs A' G' ST' C SS D|an cs c nonce p A' G' ST' C [SS _]]; subst; try reflexivity; try contradiction; exfalso; try (first [eapply NC; eassumption|eapply NG'; eassumption]).
      exact (CASE cs C SS). }
    destruct (rq_cs r) as [cs|] eqn:C; [|apply UNEXP; discriminate].
    destruct (bytes_eqb (cs_status cs) NEED_PROOF) eqn:W.
    2:{ apply UNEXP. intros cs' Q S. injection Q as <-. apply bytes_eqb_neq in W. exact (W S). }
    clear UNEXP. apply bytes_eqb_eq in W. change NEED_PROOF with (bs "need-proof") in W.
    assert (CSU : forall cs', rq_cs r = Some cs' -> cs' = cs) by congruence.
    assert (NOP : (has_content cred = true \/ pf = []) -> reports (ret_error r BAD_INTEREST_FORMAT (bs "Cannot find certificate") None) code <-> challenge_fails E cfg i params r (bs "possession") code).
    { intros CASE. rewrite reports_error by discriminate. split.
      - intros ->. apply (fail_no_proof E cfg i params r anchors cs A G ST C W). destruct CASE as [Q|Q]; [left; exact (proj1 CK Q)|right; exact (PN Q)].
      - intros H. inversion H as [|?|?|?|?|?|an A' G' ST' N|?|an cs' c nonce p A' G' ST' C' PR WF OK NCR PF PK V]; subst; try reflexivity; try contradiction; exfalso; try (first [eapply NC; eassumption|eapply NG'; eassumption]).
        + exact (N cs C W).
        + destruct CASE as [Q|Q]; [destruct (proj1 CK Q) as (c' & Q'); exact (NCR c' Q')|exact (PN Q p PF)]. }
    destruct (has_content cred) eqn:HC; [apply NOP; left; reflexivity|]. destruct pf as [|b pf'] eqn:PFQ; [apply NOP; right; reflexivity|]. rewrite <- PFQ in *. clear NOP.
    assert (PF : proof params pf) by (apply PY; subst; discriminate). 
    assert (PFU : forall p, proof params p -> p = pf) by (intros p H; apply PI in H as [H _]; congruence).
    destruct (KP cs eq_refl W) as (c & nonce & (_ & SEC) & WF & F & U).
    assert (CU : forall c' nonce', proves E cs c' nonce' -> wf_cert c' -> c' = c /\ nonce' = nonce).
    { intros c' nonce' (_ & SEC') WF'. rewrite SEC in SEC'. fold (possession_secrets E nonce c) in SEC'. fold (possession_secrets E nonce' c') in SEC'.
      destruct (secrets_get E nonce c) as [G1 G2]. destruct (secrets_get E nonce' c') as [G1' G2']. rewrite SEC' in G1, G2. rewrite G1' in G1. rewrite G2' in G2. split.
      - apply some_inj in G2. apply (f_equal from_hex) in G2. rewrite !from_to_hex in G2. apply some_inj, cert_tlv_inj in G2.
        pose proof (l_cert_codec E LC c' WF') as U'. rewrite G2 in U'. congruence.
      - apply some_inj in G1. apply (f_equal from_hex) in G1. rewrite !from_to_hex in G1. apply some_inj in G1. exact G1. }
    cbv zeta. rewrite SEC. change K_CRED with (bs "issued-cert"). change K_NONCE with (bs "nonce"). destruct (secrets_get E nonce c) as [G1 G2]. unfold possession_secrets in G1, G2. rewrite G1, G2, !from_to_hex, (stored_credential E c F).
    unfold cert_decode, data_decode. change (t_type (cert_tlv E c) =? T_Data) with true. cbv iota. change (t_val (cert_tlv E c)) with (o_cert_wire E c). rewrite U.
    assert (REST : forall h, (cert_ok c = true -> o_pubkey_ok E (public_key c) = true -> o_verify E (public_key c) (MRaw nonce) pf = false -> False) -> (forall cd, ~ reports h cd) ->
      reports h code <-> challenge_fails E cfg i params r (bs "possession") code).
    { intros h K NR. split; [intros H; destruct (NR _ H)|]. intros H. exfalso.
      inversion H as [|?|?|?|?|?|an A' G' ST' N|an cs' A' G' ST' C' SS [(c' & Q)|Q]|an cs' c' nonce' p A' G' ST' C' PR WF' OK NCR PF' PK V]; subst; try contradiction; try (first [eapply NC; eassumption|eapply NG'; eassumption]).
      - exact (N cs C W).
      - exact (CN eq_refl c' Q).
      - exact (Q _ PF).
      - rewrite (CSU cs' C') in *. destruct (CU c' nonce' PR WF') as [-> ->]. rewrite (PFU p PF') in *. exact (K OK PK V). }
    destruct (cert_ok c) eqn:OK; [|apply REST; [discriminate|intros cd; apply reports_not; discriminate]].
    destruct (o_pubkey_ok E (public_key c)) eqn:PK; cbn [negb]; [|apply REST; [discriminate|intros cd; apply reports_not; discriminate]].
    destruct (o_verify E (public_key c) (MRaw nonce) pf) eqn:V; [apply REST; [discriminate|intros cd; apply reports_not; intros ? ? Q; injection Q as <- _; reflexivity]|].
    rewrite reports_error by discriminate. split; [intros ->; exact (fail_proof E cfg i params r anchors cs c nonce pf A G ST C (conj W SEC) WF OK (CN eq_refl) PF PK V)|].
    intros H. inversion H as [|?|?|?|?|?|an A' G' ST' N|an cs' A' G' ST' C' SS [(c' & Q)|Q]|an cs' c' nonce' p A' G' ST' C' PR WF' OK' NCR PF' PK' V']; subst; try reflexivity; try contradiction; exfalso; try (first [eapply NC; eassumption|eapply NG'; eassumption]).
    + exact (CN eq_refl c' Q).
    + exact (Q _ PF).
Qed.

Lemma handle_fails : forall E cfg i ty params r code, codec_laws E -> params <> [] -> (forall cs, rq_cs r = Some cs -> kept E cs) ->
  (exists h, handle_challenge E cfg i ty params r = Some h /\ reports h code) <-> challenge_fails E cfg i params r ty code.
Proof.
  intros E cfg i ty params r code LC NE KP.
  assert (ONE : forall h, handle_challenge E cfg i ty params r = Some h -> (reports h code <-> challenge_fails E cfg i params r ty code) ->
    (exists h, handle_challenge E cfg i ty params r = Some h /\ reports h code) <-> challenge_fails E cfg i params r ty code).
  { intros h H K. rewrite <- K. split; [intros (h' & H' & R); congruence|]. intros R. exists h. auto. }
  assert (BEF : forall life, code_life ty life -> rq_status r = ST_BEFORE -> ~ challenge_fails E cfg i params r ty code).
  { intros life CL ST H. inversion H; subst; try contradiction; exact (life_excl _ _ CL eq_refl). }
  unfold handle_challenge in *. destruct (bytes_eqb ty CH_PIN) eqn:B1; [|destruct (bytes_eqb ty CH_EMAIL) eqn:B2; [|destruct (bytes_eqb ty CH_POSSESSION) eqn:B3]].
  - apply bytes_eqb_eq in B1. subst ty. apply (ONE _ eq_refl). unfold handle_pin. destruct (N.eqb_spec (rq_status r) ST_BEFORE) as [ST|ST]; [|apply code_fails; [constructor|exact ST]].
    split; [|intros H; destruct (BEF _ life_pin ST H)]. destruct (gen_code (in_words i)); noerr.
  - apply bytes_eqb_eq in B2. subst ty. apply (ONE _ eq_refl). unfold handle_email. destruct (N.eqb_spec (rq_status r) ST_BEFORE) as [ST|ST]; [|apply code_fails; [constructor|exact ST]].
    split; [|intros H; destruct (BEF _ life_email ST H)]. destruct (get T_ParameterValue params); [|noerr]. destruct (get_neg 1 (identity_of (c_name (rq_cert r)))); [|noerr].
    destruct (gen_code (in_words i)); try noerr. destruct (in_script_ok i); noerr.
  - apply bytes_eqb_eq in B3. subst ty. apply (ONE _ eq_refl). exact (possession_fails E cfg i params r code LC NE KP).
  - split; [intros (h & Q & _); discriminate|]. intros H. apply bytes_eqb_neq in B1. apply bytes_eqb_neq in B2. apply bytes_eqb_neq in B3. exfalso.
    assert (NL : forall life, ~ code_life ty life) by (intros life CL; destruct CL; [exact (B1 eq_refl)|exact (B2 eq_refl)]).
    inversion H as [? ? CL|? ? ? ? CL|? ? ? ? ? ? (? & ? & CL & _)| | | | | | ]; subst; try (exact (NL _ CL)); exact (B3 eq_refl).
Qed.
Lemma fails_ext : forall E cfg i params r r' ty code, rq_status r' = rq_status r -> rq_cs r' = rq_cs r ->
  challenge_fails E cfg i params r ty code -> challenge_fails E cfg i params r' ty code.
Proof.
  intros E cfg i params r r' ty code S C H.
  destruct H; [eapply fail_no_code_expected|eapply fail_too_late|eapply fail_last_try|eapply fail_garbled|eapply fail_no_credential|eapply fail_untrusted|eapply fail_no_proof_expected|eapply fail_no_proof|eapply fail_proof];
    try rewrite S; try rewrite C; eassumption.
Qed.

(** ** The handler *)
Lemma unsealed_iff : forall E r x pt, unsealed E r x pt <-> exists dv, decode_aes E (rq_key r) (params_of x) (rq_id r) (rq_div r) (rq_eiv r) = (Ok pt, dv).
Proof. intros E r x pt. unfold unsealed. split; intros (dv & H); exists dv; [apply aes_iff|apply aes_iff in H]; exact H. Qed.
Lemma unsealed_fun : forall E r x a b, unsealed E r x a -> unsealed E r x b -> a = b.
Proof. intros E r x a b A B. apply unsealed_iff in A as (da & A). apply unsealed_iff in B as (db & B). congruence. Qed.
Lemma opened_iff : forall E x r params ty, contains E r x params /\ selects params ty <-> exists dv, opened E x r params ty dv.
Proof.
  intros E x r params ty. split.
  - intros [(pt & U & N & P) SE]. apply unsealed_iff in U as (dv & U). exists dv, pt. auto.
  - intros (dv & pt & D & N & P & SE). split; [|exact SE]. exists pt. split; [apply unsealed_iff; eauto|auto].
Qed.
Lemma selects_ne : forall params ty, selects params ty -> params <> [].
Proof. intros params ty (t & G & _) ->. discriminate. Qed.

Lemma pending_kept : forall E g S (ops : store_ops S) s id r cs, ca_at E g ops s -> pending ops s id = Some r -> rq_cs r = Some cs -> kept E cs.
Proof.
  intros E g S ops s id r cs A P C SS. destruct (history_of _ _ _ _ _ A) as (tr & H).
  destruct (has_origin S E g ops tr s id r H P) as (a1 & new & a2 & -> & AC & NA & CSO).
  destruct (CSO cs C) as (b1 & st1 & b2 & i0 & p0 & ty0 & cs0 & -> & (AK & r1 & em & STT & RC & RP & EM) & SE & ST & _).
  destruct STT as [code G|code addr G GA|c CI CC T]; cbn [cs_status cs_secrets] in *.
  - rewrite SS in ST. destruct ST as [ST|[_ ST]]; discriminate ST.
  - rewrite SS in ST. destruct ST as [ST|[_ ST]]; discriminate ST.
  - destruct (credential_storable E p0 c (at_codec _ _ _ _ A) CI) as (WF & F & U). exists c, (rnd_nonce i0). split; [split; [exact SS|exact SE]|auto].
Qed.

Section Verdict.
  Context {E : env} {g : ca_cfg} {S : Type} {ops : store_ops S}.

  Lemma drop_step : forall s i x id r code info, ca_at E g ops s -> rq_id r = id -> plain_error code info -> names_request g id x ->
    on_interest E g ops s i x = drop_error E g x [] (rq_id r) code info ->
    exists s' d, step E g ops s (EvInterest i x) = Some (s', [EDelete id; EPut d]) /\ error_reply E g x code d /\ pending ops s' id = None.
  Proof.
    intros s i x id r code info A ID (P1 & P2 & P3) N OI. unfold drop_error in OI. cbn [app] in OI. rewrite ID in OI. pose proof (ok_step E g S ops s i x _ OI) as ST.
    eexists. eexists. split; [exact ST|]. split; [apply error_data_reply; split; [exact P1|]; split; [exact P2|apply short_fits; exact P3]|].
    apply (deleted_gone E g S ops _ _ _ _ id A ST). left. reflexivity.
  Qed.

  Lemma gives_up_drops : forall s i x id r code, ca_at E g ops s -> names_request g id x -> pending ops s id = Some r -> signed_by E x (public_key (rq_cert r)) ->
    gives_up E (cf_chal g) i x r code ->
    exists s' d, step E g ops s (EvInterest i x) = Some (s', [EDelete id; EPut d]) /\ error_reply E g x code d /\ pending ops s' id = None.
  Proof.
    intros s i x id r code A N P SB GU. destruct (pending_live E g S ops s id r A P) as [ID LV]. pose proof (names_addressed g x id N) as AD.
    assert (RAW : forall o dv, decode_aes E (rq_key r) (params_of x) (rq_id r) (rq_div r) (rq_eiv r) = (o, dv) -> o = Exn \/ o = Ok [] ->
      exists info, short info /\ on_interest E g ops s i x = drop_error E g x [] (rq_id r) INVALID_PARAMETER info).
    { intros o dv D O. rewrite (on_interest_at E g S ops _ s i x AD). cbn [handle]. unfold on_challenge. rewrite (proj2 (challenge_id_names g x id AD) N).
      change (s_get ops (ca_store s) id) with (pending ops s id). rewrite P. rewrite (proj2 (verify_interest_iff E x (rq_cert r)) SB). cbn [negb]. rewrite D.
      destruct O as [->| ->]; eexists; (split; [|reflexivity]); vm_compute; discriminate. }
    assert (PE : forall info, short info -> plain_error INVALID_PARAMETER info) by (intros info H; split; [discriminate|]; split; [vm_compute; discriminate|exact H]).
    destruct GU as [NU|U|params ty CO SE NT|params ty code CO SE CF].
    - destruct (decode_aes E (rq_key r) (params_of x) (rq_id r) (rq_div r) (rq_eiv r)) as [o dv] eqn:D.
      pose proof (decode_aes_safe E (rq_key r) (params_of x) (rq_id r) (rq_div r) (rq_eiv r) (live_div r LV) (live_eiv r LV)) as [D1 D2]. rewrite D in D1, D2. cbn [fst] in D1, D2.
      assert (O : o = Exn). { destruct o as [pt| | |]; try contradiction; [|reflexivity]. destruct (NU pt). apply unsealed_iff. eauto. }
      destruct (RAW o dv eq_refl (or_introl O)) as (info & SH & OI). exact (drop_step s i x id r _ info A ID (PE info SH) N OI).
    - apply unsealed_iff in U as (dv & D). destruct (RAW _ dv D (or_intror eq_refl)) as (info & SH & OI). exact (drop_step s i x id r _ info A ID (PE info SH) N OI).
    - destruct (proj1 (opened_iff E x r params ty) (conj CO SE)) as (dv & OP). pose proof (chal_forward E g S ops s i x id r params ty dv A N P SB OP) as FW.
      assert (HN : handle_challenge E (cf_chal g) i ty params (set_div dv r) = None).
      { destruct (handle_challenge E (cf_chal g) i ty params (set_div dv r)) as [h|] eqn:H; [|reflexivity]. apply hc_cases in H as [_ K]. destruct NT. cbn [In]. destruct K as [->|[->| ->]]; auto. }
      rewrite HN in FW. refine (drop_step s i x id r _ _ A ID (PE _ _) N FW). vm_compute. discriminate.
    - destruct (proj1 (opened_iff E x r params ty) (conj CO SE)) as (dv & OP). pose proof (chal_forward E g S ops s i x id r params ty dv A N P SB OP) as FW.
      apply (fails_ext E (cf_chal g) i params r (set_div dv r) ty code eq_refl eq_refl) in CF.
      apply (handle_fails E (cf_chal g) i ty params (set_div dv r) code (at_codec _ _ _ _ A) (selects_ne _ _ SE)) in CF as (h & H & (NE & info & HO)).
      2:{ intros cs C. exact (pending_kept E g S ops s id r cs A P C). }
      rewrite H, HO in FW. apply hc_cases in H as [H _]. apply N.eqb_neq in NE. rewrite NE in FW. cbn [negb] in FW.
      destruct H; cbn [h_out h_email email_effs] in *; try (injection HO as <- _; discriminate NE); [subst; destruct H as [Q|[Q|Q]]; discriminate|].
      injection HO as -> ->. exact (drop_step s i x id r _ _ A ID H N FW).
  Qed.

  (** What removes a request. *)
  Lemma deletes : forall s i x id r es o, ca_at E g ops s -> names_request g id x -> pending ops s id = Some r -> on_interest E g ops s i x = (es, o) -> In (EDelete id) es ->
    signed_by E x (public_key (rq_cert r)) /\ ((exists code, gives_up E (cf_chal g) i x r code) \/
     ((exists r', In (ECallback r') es) \/ puts es = []) /\
      exists params ty cs, contains E r x params /\ selects params ty /\ rq_status r <> ST_BEFORE /\ rq_cs r = Some cs /\ passes E i params cs ty).
  Proof.
    intros s i x id r es o A N P OI IN. destruct (pending_live E g S ops s id r A P) as [ID LV]. pose proof (names_addressed g x id N) as AD.
    rewrite (on_interest_at E g S ops _ s i x AD) in OI. cbn [handle] in OI. unfold on_challenge in OI. rewrite (proj2 (challenge_id_names g x id AD) N) in OI.
    change (s_get ops (ca_store s) id) with (pending ops s id) in OI. rewrite P in OI.
    destruct (verify_interest E x (rq_cert r)) eqn:V; cbn [negb] in OI; [|exfalso; injection OI as <- _; destruct IN as [Q|[]]; discriminate].
    pose proof (proj1 (verify_interest_iff E x (rq_cert r)) V) as SB. split; [exact SB|].
    destruct (decode_aes E (rq_key r) (params_of x) (rq_id r) (rq_div r) (rq_eiv r)) as [oo dv] eqn:D.
    destruct oo as [[|b pt]| | |].
    - left. exists 4. apply gu_empty. apply unsealed_iff. eauto.
    - destruct (parse (b :: pt)) as [params|] eqn:PP; [|exfalso; injection OI as <- _; destruct IN]. destruct (get T_SelectedChallenge params) as [ct|] eqn:G; [|exfalso; injection OI as <- _; destruct IN].
      assert (SE : selects params (t_val ct)) by (exists ct; auto).
      assert (CO : contains E r x params) by (exists (b :: pt); split; [apply unsealed_iff; eauto|]; split; [discriminate|exact PP]).
      assert (KP : forall cs, rq_cs (set_div dv r) = Some cs -> kept E cs) by (intros cs C; exact (pending_kept E g S ops s id r cs A P C)).
      pose proof (handle_fails E (cf_chal g) i (t_val ct) params (set_div dv r)) as HF.
      destruct (handle_challenge E (cf_chal g) i (t_val ct) params (set_div dv r)) as [h|] eqn:H.
      + assert (EM : forall o1, (email_effs (h_email h), o1) = (es, o) -> False).
        { intros o1 Q. injection Q as Q _. rewrite <- Q in IN. pose proof (emails (h_email h)) as F. rewrite Forall_forall in F. exact (F _ IN). }
        destruct (h_out h) as [[code info]| | |] eqn:HO; try (destruct (EM _ OI)).
        destruct (N.eqb_spec code NO_ERROR) as [NE|NE]; cbn [negb] in OI.
        * right. apply hc_cases in H as [H _]. subst code.
          assert (GO : forall em r1, rq_status r1 = ST_CHALLENGE -> after_challenge E g i x (email_effs em) r1 = (es, o) -> False).
          { intros em r1 S1 Q. unfold after_challenge in Q. rewrite S1 in Q. change (ST_CHALLENGE =? ST_PENDING) with false in Q. cbn iota in Q.
            pose proof (emails em) as F. rewrite Forall_forall in F. unfold finish in Q.
            destruct (chal_encode E r1 [] [] (rnd_iv i)) as [[pl| | |] r3]; injection Q as Q _; rewrite <- Q in IN; repeat (apply in_app_or in IN as [IN|IN]; [try exact (F _ IN)|]);
              try exact (F _ IN); cbn [In] in IN; repeat (destruct IN as [IN|IN]; [discriminate|]); exact IN. }
          destruct H as [o1 O1|code1 info1 PE|cs em SB0 ST0|cs cs' SB0 C0 RT0|cs NB C PA]; cbn [h_out h_req h_email] in *.
          { destruct O1 as [->|[->| ->]]; discriminate. }
          { injection HO as -> _. destruct PE as [PE _]. destruct (PE eq_refl). }
          { refine (False_ind _ (GO em _ _ OI)). reflexivity. }
          { refine (False_ind _ (GO None _ _ OI)). reflexivity. }
          split; [|exists params, (t_val ct), cs; auto]. clear - OI. cbn [email_effs] in OI. unfold after_challenge, finish in OI. cbn [app] in OI.
          repeat match type of OI with context [if ?c then _ else _] => destruct c | context [match ?c with Ok _ => _ | Exn => _ | UB => _ | Hang => _ end] => destruct c
            | context [match ?c with pair _ _ => _ end] => destruct c end; injection OI as <- _; first [right; reflexivity|left; eexists; cbn [In]; eauto 6].
        * left. exists code. apply (gu_failed E (cf_chal g) i x r params (t_val ct) code CO SE).
          apply (fails_ext E (cf_chal g) i params (set_div dv r) r (t_val ct) code eq_refl eq_refl). apply (HF code (at_codec _ _ _ _ A) (selects_ne _ _ SE) KP).
          exists h. split; [reflexivity|]. split; [exact NE|]. exists info. exact HO.
      + left. exists 4. apply (gu_unknown E (cf_chal g) i x r params (t_val ct) CO SE). cbn [In]. unfold handle_challenge in H.
        destruct (bytes_eqb (t_val ct) CH_PIN) eqn:B1; [discriminate|]. destruct (bytes_eqb (t_val ct) CH_EMAIL) eqn:B2; [discriminate|]. destruct (bytes_eqb (t_val ct) CH_POSSESSION) eqn:B3; [discriminate|].
        apply bytes_eqb_neq in B1. apply bytes_eqb_neq in B2. apply bytes_eqb_neq in B3. intros [Q|[Q|[Q|[]]]]; [apply B1|apply B2|apply B3]; symmetry; exact Q.
    - left. exists 4. apply gu_unreadable. intros pt U. apply unsealed_iff in U as (dv' & U). congruence.
    - exfalso. injection OI as <- _. destruct IN.
    - exfalso. injection OI as <- _. destruct IN.
  Qed.

  (** Dropping with an error has one of these reasons. *)
  Lemma drops_given_up : forall s i x id r s' d, ca_at E g ops s -> names_request g id x -> pending ops s id = Some r ->
    step E g ops s (EvInterest i x) = Some (s', [EDelete id; EPut d]) -> signed_by E x (public_key (rq_cert r)) /\ exists code, gives_up E (cf_chal g) i x r code /\ error_reply E g x code d.
  Proof.
    intros s i x id r s' d A N P ST. pose proof ST as ST0. cbn [step] in ST. destruct (on_interest E g ops s i x) as [es o] eqn:OI.
    assert (ES : es = [EDelete id; EPut d]) by (destruct o; congruence). subst es.
    destruct (deletes s i x id r _ o A N P OI (or_introl eq_refl)) as [SB [(code & GU)|[[(r' & [Q|[Q|[]]])|Q] _]]]; try discriminate.
    split; [exact SB|]. exists code. split; [exact GU|]. destruct (gives_up_drops s i x id r code A N P SB GU) as (s2 & d2 & ST2 & ER & _). congruence.
  Qed.
  (** A request that is gone was given up or has passed. *)
  Lemma ended : forall s i x id r s' es, ca_at E g ops s -> pending ops s id = Some r -> step E g ops s (EvInterest i x) = Some (s', es) -> pending ops s' id = None ->
    names_request g id x /\ signed_by E x (public_key (rq_cert r)) /\
    ((exists code d, es = [EDelete id; EPut d] /\ gives_up E (cf_chal g) i x r code /\ error_reply E g x code d) \/
     (exists params ty cs, contains E r x params /\ selects params ty /\ rq_status r <> ST_BEFORE /\ rq_cs r = Some cs /\ passes E i params cs ty)).
  Proof.
    intros s i x id r s' es A P ST GONE. destruct (at_id_step S E g ops _ _ _ _ A ST) as (nrm & NO & IDS). destruct (IDS id) as [m1 M Z]. rewrite P in M.
    assert (Z' : m1 = None) by (destruct Z as [Z|[[] _]]; congruence). subst m1.
    inversion M as [| | |i' x' r' es' m EV N ID CS]; subst. injection EV as <- <-. split; [exact N|].
    assert (IN : In (EDelete (rq_id r)) es) by (inversion CS; subst; cbn [In]; auto).
    destruct (on_interest E g ops s i x) as [es1 o] eqn:OI. assert (ES : es1 = es) by (cbn [step] in ST; rewrite OI in ST; destruct o; congruence). subst es1.
    destruct (deletes s i x (rq_id r) r es o A N P OI IN) as [SB [(code & GU)|[_ PA]]]; (split; [exact SB|]); [left|right; exact PA].
    destruct (gives_up_drops s i x (rq_id r) r code A N P SB GU) as (s2 & d2 & ST2 & ER & _). exists code, d2. split; [congruence|auto].
  Qed.
End Verdict.
