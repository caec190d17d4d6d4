(** Proofs about what the decoders accept. *)
From Verif Require Import Spec_Accept CryptoHelpers CryptoFacts ErrorEncoder InfoEncoder ProbeEncoder RequestEncoder ChallengeEncoder EncoderFacts RequestFacts BytesFacts MultimapFacts.
Local Open Scope N_scope.

Lemma takes_nil : forall A ty (rd : bytes -> A -> Prop) d v, takes ty rd [] d v <-> v = d.
Proof.
  intros A ty rd d v. split.
  - intros [_ [[_ H]|(a & t & b & H & _)]]; [exact H|destruct a; discriminate].
  - intros ->. split; [intros t []|left; split; reflexivity].
Qed.
Lemma takes_cons : forall A ty (rd : bytes -> A -> Prop) t els d v, takes ty rd (t :: els) d v <->
  if t_type t =? ty then exists x, rd (t_val t) x /\ takes ty rd els x v else takes ty rd els d v.
Proof.
  intros A ty rd t els d v. unfold takes. rewrite count_cons. destruct (t_type t =? ty) eqn:T.
  - apply N.eqb_eq in T. split.
    + intros [F [[C _]|(a & t' & b & Q & T' & C & R)]]; [discriminate|]. destruct a as [|a0 a]; injection Q as -> ->.
      * exists v. split; [exact R|]. split; [intros t I; apply F; right; exact I|]. left. split; [exact C|reflexivity].
      * destruct (F a0 (or_introl eq_refl) T) as [x X]. exists x. split; [exact X|]. split; [intros t I; apply F; right; exact I|].
        right. exists a, t', b. repeat split; assumption.
    + intros [x [X [F D]]]. split.
      * intros t' [<-|I] T'; [exists x; exact X|apply F; assumption].
      * right. destruct D as [[C ->]|(a & t' & b & -> & T' & C & R)]; [exists [], t, els|exists (t :: a), t', b]; repeat split; assumption.
  - apply N.eqb_neq in T. split.
    + intros [F D]. split; [intros t' I; apply F; right; exact I|]. destruct D as [D|(a & t' & b & Q & T' & C & R)]; [left; exact D|right].
      destruct a as [|a0 a]; injection Q as -> ->; [destruct (T T')|]. exists a, t', b. repeat split; assumption.
    + intros [F D]. split; [intros t' [<-|I] T'; [destruct (T T')|apply F; assumption]|].
      destruct D as [D|(a & t' & b & -> & T' & C & R)]; [left; exact D|right]. exists (t :: a), t', b. repeat split; assumption.
Qed.
Lemma values_cons : forall ty t els, values ty (t :: els) = if t_type t =? ty then t_val t :: values ty els else values ty els.
Proof. intros ty t els. unfold values. cbn [filter]. destruct (t_type t =? ty); reflexivity. Qed.


(** Decides the tests on the type of an element. *)
Ltac known T := apply N.eqb_eq in T; rewrite T;
  repeat match goal with |- context [N.eqb ?a ?b] =>
    let v := eval vm_compute in (N.eqb a b) in
    match v with true => change (N.eqb a b) with true | false => change (N.eqb a b) with false end end; cbv iota.
Ltac unknown := repeat match goal with T : (t_type ?t =? ?k) = false |- _ => rewrite ?T; clear T end; cbv iota.
Ltac okc_hd := let H := fresh in split; [intros H; cbn; tauto|].
Lemma crit_hd : forall ty known (P : Prop), is_critical ty = false -> (((critical ty -> In ty known) /\ P) <-> P).
Proof. intros ty known P H. split; [intros [_ X]; exact X|]. intros X. split; [intros C; destruct (not_critical _ H C)|exact X]. Qed.
Lemma known_hd : forall ty known (P : Prop), In ty known -> (((critical ty -> In ty known) /\ P) <-> P).
Proof. intros ty known P H. split; [intros [_ X]; exact X|]. intros X. split; [intros _; exact H|exact X]. Qed.

(** ** INFO *)
Lemma info_loop_iff : forall E els p p', info_loop E els p = Ok p' <->
  (only_known_critical known_info els /\
   takes T_CaPrefix holds_name els (p_prefix p) (p_prefix p') /\ takes T_CaInfo eq els (p_info p) (p_info p') /\
   p_probe_keys p' = p_probe_keys p ++ values T_ParameterKey els /\ takes T_MaxValidityPeriod as_i64 els (p_maxvalid p) (p_maxvalid p') /\
   takes T_CaCertificate (holds_cert E) els (p_cert p) (p_cert p') /\
   p_fwd p' = p_fwd p /\ p_maxsuffix p' = p_maxsuffix p /\ p_challenges p' = p_challenges p).
Proof.
  intros E els. induction els as [|t els IH]; intros p p'.
  - cbn [info_loop]. rewrite !takes_nil. cbn [values filter map]. rewrite app_nil_r. destruct p, p'. cbn. split.
    + intros Q. injection Q. intros. subst. repeat split; try reflexivity. intros t [].
    + intros (_ & -> & -> & -> & -> & -> & -> & -> & ->). reflexivity.
  - cbn [info_loop]. rewrite !takes_cons, values_cons, okc_cons. unfold info_item.
    destruct (t_type t =? T_CaPrefix) eqn:T1.
    { known T1. rewrite known_hd by (cbn; tauto). split.
      - intros H. destruct (parse (t_val t)) as [els'|] eqn:P; [cbn [of_opt bind] in H|discriminate]. destruct (get T_Name els') as [nt|] eqn:G; [cbn [of_opt bind] in H|discriminate].
        destruct (name_decode nt) as [n|] eqn:D; [cbn [of_opt bind] in H|discriminate]. apply IH in H. cbn in H. destruct H as (A & B & C). split; [exact A|]. split; [|exact C].
        exists n. split; [exists els', nt; auto|exact B].
      - intros (A & (n & (els' & nt & P & G & D) & B) & C). rewrite P. cbn [of_opt bind]. rewrite G. cbn [of_opt bind]. rewrite D. cbn [of_opt bind]. apply IH. cbn. split; [exact A|]. split; [exact B|exact C]. }
    destruct (t_type t =? T_CaInfo) eqn:T2.
    { known T2. rewrite known_hd by (cbn; tauto). cbn [bind]. rewrite IH. cbn. split.
      - intros (A & B & C & D). split; [exact A|]. split; [exact B|]. split; [eexists; split; [reflexivity|exact C]|exact D].
      - intros (A & B & (x & <- & C) & D). split; [exact A|]. split; [exact B|]. split; [exact C|exact D]. }
    destruct (t_type t =? T_ParameterKey) eqn:T3.
    { known T3. rewrite known_hd by (cbn; tauto). cbn [bind]. rewrite IH. cbn. rewrite <- app_assoc. cbn. tauto. }
    destruct (t_type t =? T_MaxValidityPeriod) eqn:T4.
    { known T4. rewrite known_hd by (cbn; tauto). split.
      - intros H. destruct (nni_dec (t_val t)) as [n|] eqn:N; [cbn [of_opt bind] in H|discriminate]. apply IH in H. cbn in H. destruct H as (A & B & C & D & F & G).
        split; [exact A|]. split; [exact B|]. split; [exact C|]. split; [exact D|]. split; [|exact G]. eexists. split; [exists n; split; [exact N|reflexivity]|exact F].
      - intros (A & B & C & D & (z & (n & N & ->) & F) & G). rewrite N. cbn [of_opt bind]. apply IH. cbn. tauto. }
    destruct (t_type t =? T_CaCertificate) eqn:T5.
    { known T5. rewrite known_hd by (cbn; tauto). split.
      - intros H. destruct (parse (t_val t)) as [els'|] eqn:P; [cbn [of_opt bind] in H|discriminate]. destruct (get T_Data els') as [d|] eqn:G; [cbn [of_opt bind] in H|discriminate].
        destruct (cert_decode E d) as [c|] eqn:D; [cbn [of_opt bind] in H|discriminate]. apply IH in H. cbn in H. destruct H as (A & B & C & K & V & F & R).
        do 5 (split; [assumption|]). split; [|exact R]. exists (Some c). split; [exists els', d, c; auto|exact F].
      - intros (A & B & C & K & V & (oc & (els' & d & c & P & G & D & ->) & F) & R). rewrite P. cbn [of_opt bind]. rewrite G. cbn [of_opt bind]. rewrite D. cbn [of_opt bind]. apply IH. cbn. tauto. }
    destruct (is_critical (t_type t)) eqn:CR.
    { split; [discriminate|]. intros ((K & _) & _). exfalso. apply is_critical_iff in CR. specialize (K CR). cbn in K.
      rewrite N.eqb_neq in T1, T2, T3, T4, T5. destruct K as [K|[K|[K|[K|[K|[]]]]]]; symmetry in K; contradiction. }
    cbn [bind]. rewrite crit_hd by exact CR. apply IH.
Qed.
Theorem info_decode_iff : forall E b p, info_decode E b = Ok p <-> info_reads E b p.
Proof.
  intros E b p. unfold info_decode, info_reads. split.
  - intros H. destruct (parse b) as [els|] eqn:P; [cbn [of_opt bind] in H|discriminate]. exists els. split; [reflexivity|]. apply info_loop_iff in H. exact H.
  - intros (els & P & H). rewrite P. cbn [of_opt bind]. apply info_loop_iff. exact H.
Qed.

(** ** PROBE reply *)
Definition names_in (els : list tlv) : list tlv := filter (fun t => t_type t =? T_Name) els.
(** The name read so far, and the Names that follow. *)
Definition names_read (n : name) (l : list tlv) (n' : name) : Prop :=
  match n with
  | _ :: _ => l = [] /\ n' = n
  | [] => (Forall (fun t => name_decode t = Some []) l /\ n' = []) \/
          (n' <> [] /\ exists blank t, l = blank ++ [t] /\ Forall (fun t => name_decode t = Some []) blank /\ name_decode t = Some n')
  end.
Lemma names_read_cons : forall n t l n', names_read n (t :: l) n' <-> n = [] /\ exists x, name_decode t = Some x /\ names_read x l n'.
Proof.
  intros n t l n'. destruct n as [|c n]; cbn [names_read]; [|split; [intros [H _]; discriminate|intros [H _]; discriminate]]. split.
  - intros [[F ->]|(N & blank & t' & Q & F & D)]; (split; [reflexivity|]).
    + inversion F as [|x y D F']; subst. exists []. split; [exact D|]. left. split; [exact F'|reflexivity].
    + destruct blank as [|b blank]; injection Q as -> ->.
      * exists n'. split; [exact D|]. destruct n'; [destruct (N eq_refl)|]. split; reflexivity.
      * inversion F as [|x y D' F']; subst. exists []. split; [exact D'|]. right. split; [exact N|]. exists blank, t'. auto.
  - intros [_ (x & D & H)]. destruct x as [|c x]; cbn [names_read] in H.
    + destruct H as [[F ->]|(N & blank & t' & -> & F & D')]; [left; split; [constructor; assumption|reflexivity]|right].
      split; [exact N|]. exists (t :: blank), t'. split; [reflexivity|]. split; [constructor; assumption|exact D'].
    + destruct H as [-> ->]. right. split; [discriminate|]. exists [], t. split; [reflexivity|]. split; [constructor|exact D].
Qed.
Lemma item_loop_iff : forall els n z n' z', probe_item_loop els (n, z) = Ok (n', z') <->
  (only_known_critical [T_Name; T_MaxSuffixLength] els /\ names_read n (names_in els) n' /\ takes T_MaxSuffixLength as_i32 els z z').
Proof.
  induction els as [|t els IH]; intros n z n' z'.
  - cbn [probe_item_loop names_in filter]. rewrite takes_nil. split.
    + intros Q. injection Q as -> ->. split; [intros t []|]. split; [|reflexivity]. destruct n'; [left; split; constructor|split; reflexivity].
    + intros (_ & N & ->). destruct n; [destruct N as [[_ ->]|(_ & blank & t & Q & _)]; [reflexivity|destruct blank; discriminate]|destruct N as [_ ->]; reflexivity].
  - cbn [probe_item_loop]. rewrite takes_cons, okc_cons. unfold names_in. cbn [filter fst snd].
    destruct (t_type t =? T_Name) eqn:T1.
    { known T1. rewrite known_hd by (cbn; tauto). rewrite names_read_cons. split.
      - intros H. destruct n as [|c n]; [|discriminate]. destruct (name_decode t) as [x|] eqn:D; [cbn [of_opt bind] in H|discriminate]. apply IH in H. destruct H as (A & B & C).
        split; [exact A|]. split; [|exact C]. split; [reflexivity|]. exists x. auto.
      - intros (A & (-> & x & D & B) & C). rewrite D. cbn [of_opt bind]. apply IH. auto. }
    destruct (t_type t =? T_MaxSuffixLength) eqn:T2.
    { known T2. rewrite known_hd by (cbn; tauto). split.
      - intros H. destruct (nni_dec (t_val t)) as [k|] eqn:K; [cbn [of_opt bind] in H|discriminate]. apply IH in H. destruct H as (A & B & C). split; [exact A|]. split; [exact B|].
        eexists. split; [exists k; split; [exact K|reflexivity]|exact C].
      - intros (A & B & x & (k & K & ->) & C). rewrite K. cbn [of_opt bind]. apply IH. auto. }
    destruct (is_critical (t_type t)) eqn:CR.
    { split; [discriminate|]. intros ((K & _) & _). exfalso. apply is_critical_iff in CR. specialize (K CR). cbn in K.
      rewrite N.eqb_neq in T1, T2. destruct K as [K|[K|[]]]; symmetry in K; contradiction. }
    rewrite crit_hd by exact CR. apply IH.
Qed.
Lemma item_iff : forall v nz, item_reads v nz <-> exists els, parse v = Some els /\ probe_item_loop els ([], 0%Z) = Ok nz /\ fst nz <> [].
Proof.
  intros v [n z]. unfold item_reads. cbn [fst snd]. split.
  - intros (els & blank & t & P & K & Q & B & D & N & T). exists els. split; [exact P|]. split; [|exact N]. apply item_loop_iff. split; [exact K|]. split; [|exact T].
    right. split; [exact N|]. exists blank, t. split; [exact Q|]. split; [apply Forall_forall; exact B|exact D].
  - intros (els & P & H & N). apply item_loop_iff in H. destruct H as (K & [[_ ->]|(_ & blank & t & Q & B & D)] & T); [destruct (N eq_refl)|].
    exists els, blank, t. split; [exact P|]. split; [exact K|]. split; [exact Q|]. split; [apply Forall_forall; exact B|]. auto.
Qed.
Lemma probe_loop_iff : forall els ns rs ns' rs', probe_loop els (ns, rs) = Ok (ns', rs') <->
  (only_known_critical known_probe_reply els /\ exists a b, ns' = ns ++ a /\ rs' = rs ++ b /\
   Forall2 item_reads (values T_ProbeResponse els) a /\ Forall2 is_name (values T_ProbeRedirect els) b).
Proof.
  induction els as [|t els IH]; intros ns rs ns' rs'.
  - cbn [probe_loop values filter map]. split.
    + intros Q. injection Q as -> ->. split; [intros t []|]. exists [], []. rewrite !app_nil_r. repeat split; constructor.
    + intros (_ & a & b & -> & -> & A & B). inversion A. inversion B. rewrite !app_nil_r. reflexivity.
  - cbn [probe_loop]. rewrite okc_cons, !values_cons. cbn [fst snd].
    destruct (t_type t =? T_ProbeResponse) eqn:T1.
    { known T1. rewrite known_hd by (cbn; tauto). split.
      - intros H. destruct (parse (t_val t)) as [els'|] eqn:P; [cbn [of_opt bind] in H|discriminate]. destruct (probe_item_loop els' ([], 0%Z)) as [nz| | |] eqn:I; cbn [bind] in H; try discriminate.
        destruct (fst nz) eqn:N; [discriminate|]. apply IH in H. destruct H as (K & a & b & -> & -> & A & B). split; [exact K|]. exists (nz :: a), b.
        split; [rewrite <- app_assoc; reflexivity|]. split; [reflexivity|]. split; [|exact B]. constructor; [|exact A]. apply item_iff. exists els'. split; [exact P|]. split; [exact I|]. rewrite N. discriminate.
      - intros (K & a & b & -> & -> & A & B). inversion A as [|v nz vs nzs I A' Q1 Q2]; subst. apply item_iff in I. destruct I as (els' & P & I & N). rewrite P. cbn [of_opt bind]. rewrite I. cbn [bind].
        destruct (fst nz) eqn:F; [destruct (N eq_refl)|]. apply IH. split; [exact K|]. exists nzs, b. split; [rewrite <- app_assoc; reflexivity|]. auto. }
    destruct (t_type t =? T_ProbeRedirect) eqn:T2.
    { known T2. rewrite known_hd by (cbn; tauto). split.
      - intros H. destruct (block_from_value (t_val t)) as [blk|] eqn:P; [cbn [of_opt bind] in H|discriminate]. destruct (name_decode blk) as [n|] eqn:D; [cbn [of_opt bind] in H|discriminate].
        apply IH in H. destruct H as (K & a & b & -> & -> & A & B). split; [exact K|]. exists a, (n :: b). split; [reflexivity|]. split; [rewrite <- app_assoc; reflexivity|]. split; [exact A|].
        constructor; [exists blk; auto|exact B].
      - intros (K & a & b & -> & -> & A & B). inversion B as [|v n vs nn (blk & P & D) B' Q1 Q2]; subst. rewrite P. cbn [of_opt bind]. rewrite D. cbn [of_opt bind]. apply IH. split; [exact K|].
        exists a, nn. split; [reflexivity|]. split; [rewrite <- app_assoc; reflexivity|]. auto. }
    destruct (is_critical (t_type t)) eqn:CR.
    { split; [discriminate|]. intros ((K & _) & _). exfalso. apply is_critical_iff in CR. specialize (K CR). cbn in K.
      rewrite N.eqb_neq in T1, T2. destruct K as [K|[K|[]]]; symmetry in K; contradiction. }
    rewrite crit_hd by exact CR. apply IH.
Qed.
Theorem probe_decode_iff : forall b names redirects, probe_decode b = Ok (names, redirects) <-> probe_reads b names redirects.
Proof.
  intros b ns rs. unfold probe_decode, probe_reads. split.
  - intros H. destruct (parse b) as [els|] eqn:P; [cbn [of_opt bind] in H|discriminate]. exists els. split; [reflexivity|]. apply probe_loop_iff in H.
    destruct H as (K & x & y & -> & -> & A & B). auto.
  - intros (els & P & K & A & B). rewrite P. cbn [of_opt bind]. apply probe_loop_iff. split; [exact K|]. exists ns, rs. auto.
Qed.

(** ** PROBE parameters *)
Lemma mm_sorted_le : forall m k v k' v', mm_sorted ((k, v) :: m) -> In (k', v') m -> bytes_ltb k' k = false.
Proof.
  induction m as [|[k1 v1] m IH]; intros k v k' v' S I; [destruct I|]. destruct S as [L S]. destruct I as [I|I].
  - injection I as <- <-. exact L.
  - destruct (bytes_ltb k' k) eqn:X; [|reflexivity]. exfalso. pose proof (IH _ _ _ _ S I) as Y. destruct (bytes_ltb k1 k') eqn:Z.
    + rewrite (bytes_ltb_trans _ _ _ Z X) in L. discriminate.
    + rewrite (bytes_ltb_total _ _ Y Z) in X. congruence.
Qed.
Lemma mm_sorted_tl : forall kv m, mm_sorted (kv :: m) -> mm_sorted m.
Proof. intros [k v] m [_ S]. exact S. Qed.
Lemma mm_all_hd : forall k m, mm_all k m <> [] <-> exists v, In (k, v) m.
Proof.
  intros k m. induction m as [|[k' v'] m IH]; cbn [mm_all]; [split; [intros H; destruct (H eq_refl)|intros [v []]]|].
  destruct (bytes_eqb k k') eqn:Q.
  - apply bytes_eqb_eq in Q. subst k'. split; [intros _; exists v'; left; reflexivity|discriminate].
  - rewrite IH. split; [intros [v I]; exists v; right; exact I|]. intros [v [I|I]]; [|exists v; exact I].
    injection I as -> ->. rewrite (proj2 (bytes_eqb_eq k k) eq_refl) in Q. discriminate.
Qed.
Lemma mm_unique : forall m1 m2, mm_sorted m1 -> mm_sorted m2 -> (forall k, mm_all k m1 = mm_all k m2) -> m1 = m2.
Proof.
  induction m1 as [|[k v] m1 IH]; intros m2 S1 S2 H.
  - destruct m2 as [|[k v] m2]; [reflexivity|]. specialize (H k). cbn [mm_all] in H. rewrite (proj2 (bytes_eqb_eq k k) eq_refl) in H. discriminate.
  - destruct m2 as [|[k2 v2] m2]. { specialize (H k). cbn [mm_all] in H. rewrite (proj2 (bytes_eqb_eq k k) eq_refl) in H. discriminate. }
    assert (Q : k2 = k).
    { assert (A : exists w, In (k, w) ((k2, v2) :: m2)). { apply mm_all_hd. rewrite <- H. apply mm_all_hd. exists v. left. reflexivity. }
      assert (B : exists w, In (k2, w) ((k, v) :: m1)). { apply mm_all_hd. rewrite H. apply mm_all_hd. exists v2. left. reflexivity. }
      destruct A as [w [A|A]]; [injection A as -> _; reflexivity|]. destruct B as [w' [B|B]]; [injection B as -> _; reflexivity|].
      apply bytes_ltb_total; [eapply mm_sorted_le in B; [exact B|exact S1]|eapply mm_sorted_le in A; [exact A|exact S2]]. }
    subst k2. assert (V : v2 = v /\ mm_all k m1 = mm_all k m2).
    { specialize (H k). cbn [mm_all] in H. rewrite (proj2 (bytes_eqb_eq k k) eq_refl) in H. injection H as -> H. split; [reflexivity|exact H]. }
    destruct V as [-> V]. f_equal. apply IH; [eapply mm_sorted_tl; exact S1|eapply mm_sorted_tl; exact S2|].
    intros k'. specialize (H k'). cbn [mm_all] in H. destruct (bytes_eqb k' k) eqn:X; [apply bytes_eqb_eq in X; subst k'; exact V|exact H].
Qed.
Definition flat_items (items : list (tlv + bytes * bytes)) : list tlv :=
  flat_map (fun i => match i with inl t => [t] | inr kv => [Tlv T_ParameterKey (fst kv); Tlv T_ParameterValue (snd kv)] end) items.
Lemma params_loop_iff : forall n els m m', (length els <= n)%nat -> probe_params_loop els m = Ok m' <->
  exists items, els = flat_items items /\ (forall t, In (inl t) items -> ~ critical (t_type t)) /\
    m' = fold_left (fun m kv => mm_insert (fst kv) (snd kv) m) (pairs_of items) m.
Proof.
  assert (CK : is_critical T_ParameterKey = true) by reflexivity. assert (CV : is_critical T_ParameterValue = true) by reflexivity.
  induction n as [|n IH]; intros els m m' L.
  - destruct els; [|cbn in L; lia]. cbn. split.
    + intros Q. injection Q as <-. exists []. repeat split. intros t [].
    + intros (items & Q & _ & ->). destruct items as [|[t|kv] items]; [reflexivity|discriminate|discriminate].
  - destruct els as [|t els].
    { cbn. split.
      + intros Q. injection Q as <-. exists []. repeat split. intros t [].
      + intros (items & Q & _ & ->). destruct items as [|[t|kv] items]; [reflexivity|discriminate|discriminate]. }
    rewrite pp_loop_step. cbn [length] in L.
    assert (SK : (if is_critical (t_type t) then Exn else probe_params_loop els m) = Ok m' <->
      exists items, t :: els = flat_items items /\ (exists t' i', items = inl t' :: i') /\ (forall t, In (inl t) items -> ~ critical (t_type t)) /\
        m' = fold_left (fun m kv => mm_insert (fst kv) (snd kv) m) (pairs_of items) m).
    { destruct (is_critical (t_type t)) eqn:CR.
      - split; [discriminate|]. intros (items & Q & (t' & i' & ->) & N & _). exfalso. cbn in Q. injection Q as -> _. apply (N t' (or_introl eq_refl)). apply is_critical_iff. exact CR.
      - rewrite IH by lia. split.
        + intros (items & Q & N & M). exists (inl t :: items). split; [cbn; rewrite Q; reflexivity|]. split; [eauto|]. split; [|exact M].
          intros t' [I|I]; [injection I as <-; intros C; exact (not_critical _ CR C)|apply N; exact I].
        + intros (items & Q & (t' & i' & ->) & N & M). cbn in Q. injection Q as -> ->. exists i'. split; [reflexivity|]. split; [intros x I; apply N; right; exact I|exact M]. }
    destruct els as [|b els].
    { transitivity ((if is_critical (t_type t) then Exn else probe_params_loop [] m) = Ok m'); [reflexivity|]. rewrite SK. split.
      - intros (items & Q & _ & N & M). exists items. auto.
      - intros (items & Q & N & M). exists items. split; [exact Q|]. split; [|auto]. destruct items as [|[t'|kv] items]; [discriminate|eauto|discriminate]. }
    destruct ((t_type t =? T_ParameterKey) && (t_type b =? T_ParameterValue)) eqn:T.
    { apply andb_prop in T. destruct T as [T1 T2]. apply N.eqb_eq in T1, T2. cbn [length] in L. rewrite IH by lia. split.
      - intros (items & -> & N & M). exists (inr (t_val t, t_val b) :: items). destruct t as [ty v], b as [ty' v']. cbn in T1, T2 |- *. subst ty ty'. split; [reflexivity|].
        split; [intros t [I|I]; [discriminate|apply N; exact I]|exact M].
      - intros (items & Q & N & M). destruct items as [|[t'|[k v]] items]; [discriminate| |].
        + exfalso. cbn in Q. injection Q as -> _. apply (N t' (or_introl eq_refl)). apply is_critical_iff. rewrite T1. exact CK.
        + cbn in Q. injection Q as -> -> ->. exists items. split; [reflexivity|]. split; [intros x I; apply N; right; exact I|exact M]. }
    rewrite SK. split.
    + intros (items & Q & _ & N & M). exists items. auto.
    + intros (items & Q & N & M). exists items. split; [exact Q|]. split; [|auto]. destruct items as [|[t'|[k v]] items]; [discriminate|eauto|].
      exfalso. cbn in Q. injection Q as -> -> _. discriminate T.
Qed.
Theorem params_decode_iff : forall b m, probe_params_decode b = Ok m <-> probe_params_reads b m.
Proof.
  intros b m. unfold probe_params_decode, probe_params_reads. split.
  - intros H. destruct (parse b) as [els|] eqn:P; [cbn [of_opt bind] in H|discriminate]. apply (params_loop_iff (length els)) in H; [|lia]. destruct H as (items & Q & N & M).
    exists els, items. split; [reflexivity|]. split; [exact Q|]. split; [exact N|]. change (m = mm_of (pairs_of items)) in M. subst m. split; [apply mm_of_is_sorted|intros k; apply mm_all_of].
  - intros (els & items & P & Q & N & S & M). rewrite P. cbn [of_opt bind]. apply (params_loop_iff (length els)); [lia|]. exists items. split; [exact Q|]. split; [exact N|].
    change (m = mm_of (pairs_of items)). apply mm_unique; [exact S|apply mm_of_is_sorted|]. intros k. rewrite mm_all_of. apply M.
Qed.

(** ** NEW and REVOKE reply *)
(** At most one value, copied into the buffer if there is one: what the loop has seen of a type. *)
Lemma filled_iff : forall old v new, memcpy_into old v = Ok new <-> filled old v new.
Proof.
  intros old v new. unfold memcpy_into, filled. destruct (Nat.ltb (length old) (length v)) eqn:L.
  - apply Nat.ltb_lt in L. split; [discriminate|intros [H _]; lia].
  - apply Nat.ltb_ge in L. split; [intros Q; injection Q as <-; auto|intros [_ ->]; reflexivity].
Qed.
Fixpoint fills (old : bytes) (vs : list bytes) (new : bytes) : Prop :=
  match vs with
  | [] => new = old
  | v :: vs' => exists x, filled old v x /\ fills x vs' new
  end.
Lemma reply_loop_iff : forall els r ec sc ic ec' sc' ic' r', reply_loop els r ec sc ic = (Ok (ec', sc', ic'), r') <->
  (only_known_critical known_new_reply els /\
   ec' = (ec + length (values T_EcdhPub els))%nat /\ rp_ecdh r' = last (values T_EcdhPub els) (rp_ecdh r) /\
   sc' = (sc + length (values T_Salt els))%nat /\ fills (rp_salt r) (values T_Salt els) (rp_salt r') /\
   ic' = (ic + length (values T_RequestId els))%nat /\ fills (rp_id r) (values T_RequestId els) (rp_id r') /\
   rp_challenges r' = rp_challenges r ++ values T_Challenge els).
Proof.
  induction els as [|t els IH]; intros r ec sc ic ec' sc' ic' r'.
  - cbn. rewrite app_nil_r, !Nat.add_0_r. destruct r, r'. cbn. split.
    + intros Q. injection Q. intros. subst. repeat split; try reflexivity. intros t [].
    + intros (_ & -> & -> & -> & -> & -> & -> & ->). reflexivity.
  - cbn [reply_loop]. rewrite !values_cons, okc_cons.
    destruct (t_type t =? T_Challenge) eqn:T1.
    { known T1. rewrite known_hd by (cbn; tauto). rewrite IH. cbn. rewrite <- app_assoc. reflexivity. }
    destruct (t_type t =? T_EcdhPub) eqn:T2.
    { known T2. rewrite known_hd by (cbn; tauto). rewrite IH. cbn [rp_ecdh rp_salt rp_id rp_challenges length].
      replace (ec + S (length (values T_EcdhPub els)))%nat with (S ec + length (values T_EcdhPub els))%nat by lia.
      replace (last (t_val t :: values T_EcdhPub els) (rp_ecdh r)) with (last (values T_EcdhPub els) (t_val t)); [reflexivity|].
      clear. generalize (t_val t) (rp_ecdh r). induction (values T_EcdhPub els) as [|x l IHl]; intros a b; [reflexivity|]. transitivity (last (x :: l) b); [|reflexivity].
      rewrite <- (IHl x b). symmetry. exact (IHl x a). }
    destruct (t_type t =? T_Salt) eqn:T3.
    { known T3. rewrite known_hd by (cbn; tauto). cbn [fills length].
      replace (sc + S (length (values T_Salt els)))%nat with (S sc + length (values T_Salt els))%nat by lia. split.
      - intros H. destruct (memcpy_into (rp_salt r) (t_val t)) as [x| | |] eqn:M; try discriminate. apply IH in H. cbn [rp_ecdh rp_salt rp_id rp_challenges] in H.
        destruct H as (A & B & C & D & F & G). do 4 (split; [assumption|]). split; [|exact G]. exists x. split; [apply filled_iff; exact M|exact F].
      - intros (A & B & C & D & (x & M & F) & G). apply filled_iff in M. rewrite M. apply IH. cbn [rp_ecdh rp_salt rp_id rp_challenges]. tauto. }
    destruct (t_type t =? T_RequestId) eqn:T4.
    { known T4. rewrite known_hd by (cbn; tauto). cbn [fills length].
      replace (ic + S (length (values T_RequestId els)))%nat with (S ic + length (values T_RequestId els))%nat by lia. split.
      - intros H. destruct (memcpy_into (rp_id r) (t_val t)) as [x| | |] eqn:M; try discriminate. apply IH in H. cbn [rp_ecdh rp_salt rp_id rp_challenges] in H.
        destruct H as (A & B & C & D & F & G & I & K). do 6 (split; [assumption|]). split; [|exact K]. exists x. split; [apply filled_iff; exact M|exact I].
      - intros (A & B & C & D & F & G & (x & M & I) & K). apply filled_iff in M. rewrite M. apply IH. cbn [rp_ecdh rp_salt rp_id rp_challenges]. tauto. }
    destruct (is_critical (t_type t)) eqn:CR.
    { split; [discriminate|]. intros ((K & _) & _). exfalso. apply is_critical_iff in CR. specialize (K CR). cbn in K.
      rewrite N.eqb_neq in T1, T2, T3, T4. destruct K as [K|[K|[K|[K|[]]]]]; symmetry in K; contradiction. }
    rewrite crit_hd by exact CR. apply IH.
Qed.
Lemma length_1 : forall A (l : list A), length l = 1%nat -> exists x, l = [x].
Proof. intros A [|x [|y l]] H; try discriminate. exists x. reflexivity. Qed.
Theorem reply_decode_iff : forall salt0 id0 b ecdh salt id chals, reply_decode salt0 id0 b = (Ok tt, Reply ecdh salt id chals) <->
  reply_reads salt0 id0 b ecdh salt id chals.
Proof.
  intros salt0 id0 b ecdh salt id chals. unfold reply_decode, reply_reads. split.
  - intros H. destruct (parse b) as [els|] eqn:P; [|discriminate]. destruct (reply_loop els (Reply [] salt0 id0 []) 0 0 0) as [[[[ec sc] ic]| | |] r] eqn:L; try discriminate.
    destruct (negb (Nat.eqb ec 1) || negb (Nat.eqb sc 1) || negb (Nat.eqb ic 1)) eqn:C; [discriminate|]. injection H as ->.
    apply Bool.orb_false_iff in C. destruct C as [C C3]. apply Bool.orb_false_iff in C. destruct C as [C1 C2]. apply Bool.negb_false_iff in C1, C2, C3. apply Nat.eqb_eq in C1, C2, C3. subst.
    apply reply_loop_iff in L. cbn [rp_ecdh rp_salt rp_id rp_challenges Nat.add app] in L. destruct L as (K & E1 & E2 & S1 & S2 & I1 & I2 & CH).
    symmetry in E1, S1, I1. apply length_1 in E1, S1, I1. destruct E1 as [e E1]. destruct S1 as [s S1]. destruct I1 as [i I1]. rewrite E1 in E2. rewrite S1 in S2. rewrite I1 in I2. cbn in E2, S2, I2. subst e.
    destruct S2 as (x & S2 & ->). destruct I2 as (y & I2 & ->). exists els, s, i. repeat split; try assumption; try apply S2; apply I2.
  - intros (els & s & i & P & K & E1 & S1 & S2 & I1 & I2 & CH). rewrite P.
    assert (L : reply_loop els (Reply [] salt0 id0 []) 0 0 0 = (Ok (1, 1, 1)%nat, Reply ecdh salt id chals)).
    { apply reply_loop_iff. rewrite E1, S1, I1. cbn. repeat split; try assumption; eexists; (split; [eassumption|reflexivity]). }
    rewrite L. reflexivity.
Qed.

(** ** CHALLENGE reply *)
Fixpoint nonce_ok (nonce : bool) (l : list tlv) : Prop :=
  match l with
  | [] => True
  | t :: l' =>
      if nonce then t_type t = T_ParameterValue /\ nonce_ok false l'
      else if t_type t =? T_ParameterKey then t_val t = bs "nonce" /\ nonce_ok true l'
      else t_type t <> T_ParameterValue /\ nonce_ok false l'
  end.
Lemma nonce_ok_iff : forall l nonce, nonce_ok nonce l <->
  if nonce then l = [] \/ exists v l', l = Tlv T_ParameterValue v :: l' /\ with_nonces l' else with_nonces l.
Proof.
  induction l as [|t l IH]; intros nonce; cbn [nonce_ok].
  - destruct nonce; (split; [intros _|auto]); [left; reflexivity|]. exists [], []. split; [reflexivity|]. split; [left; reflexivity|intros t []].
  - destruct nonce.
    + rewrite IH. split.
      * intros [T F]. right. exists (t_val t), l. split; [destruct t; cbn in T |- *; subst; reflexivity|exact F].
      * intros [Q|(v & l' & Q & F)]; [discriminate|]. injection Q as -> ->. split; [reflexivity|exact F].
    + destruct (t_type t =? T_ParameterKey) eqn:T.
      * apply N.eqb_eq in T. rewrite IH. split.
        -- intros [V [->|(v & l' & -> & items & tail & -> & TL & N)]].
           ++ exists [], [nonce_key]. destruct t as [ty w]. cbn in T, V. subst. split; [reflexivity|]. split; [right; reflexivity|intros t []].
           ++ exists (inr v :: items), tail. destruct t as [ty w]. cbn in T, V. subst. split; [reflexivity|]. split; [exact TL|]. intros t [I|I]; [discriminate|apply N; exact I].
        -- intros (items & tail & Q & TL & N). destruct items as [|[t'|v] items]; cbn in Q.
           ++ subst tail. destruct TL as [TL|TL]; [discriminate|]. injection TL as -> ->. split; [reflexivity|left; reflexivity].
           ++ injection Q as -> _. destruct (N t' (or_introl eq_refl)) as [X _]. destruct (X T).
           ++ injection Q as -> ->. split; [reflexivity|]. right. exists v. eexists. split; [reflexivity|]. exists items, tail. split; [reflexivity|]. split; [exact TL|intros t I; apply N; right; exact I].
      * apply N.eqb_neq in T. rewrite IH. split.
        -- intros [V (items & tail & -> & TL & N)]. exists (inl t :: items), tail. split; [reflexivity|]. split; [exact TL|]. intros t' [I|I]; [injection I as <-; auto|apply N; exact I].
        -- intros (items & tail & Q & TL & N). destruct items as [|[t'|v] items]; cbn in Q.
           ++ subst tail. destruct TL as [TL|TL]; [discriminate|]. injection TL as -> ->. destruct (T eq_refl).
           ++ injection Q as -> ->. split; [apply (N t' (or_introl eq_refl))|]. exists items, tail. split; [reflexivity|]. split; [exact TL|intros t I; apply N; right; exact I].
           ++ injection Q as -> _. destruct (T eq_refl).
Qed.
Lemma after_iff : forall now v n z, nni_dec v = Some n -> (time_plus_secs now n = Ok z <-> secs_after now v z).
Proof.
  intros now v n z V. unfold time_plus_secs, after. cbv zeta. destruct (_ && _)%bool eqn:B.
  - repeat (apply andb_prop in B; let X := fresh "X" in destruct B as [B X]). apply Z.leb_le in B, X0. apply Z.ltb_lt in X, X1. split.
    + intros Q. injection Q as <-. exists n. repeat split; assumption || reflexivity.
    + intros (n' & V' & -> & _). rewrite V in V'. injection V' as ->. reflexivity.
  - split; [discriminate|]. intros (n' & V' & -> & [A1 A2] & [A3 A4]). exfalso. rewrite V in V'. injection V' as ->.
    apply Z.leb_le in A1, A3. apply Z.ltb_lt in A2, A4. rewrite A1, A2, A3, A4 in B. discriminate.
Qed.
Lemma rest_kept_refl : forall s, rest_kept s s. Proof. intros s. repeat split. Qed.
Definition chal_inv (now : Z) (all els : list tlv) (nonce : bool) (ns : nat) (s : rstate) (ns' : nat) (s' : rstate) : Prop :=
   only_known_critical known_challenge_reply els /\ ns' = (ns + length (values T_Status els))%nat /\
   (values T_Status els = [] /\ rs_status s' = rs_status s \/
    values T_Status els <> [] /\ exists f, get T_Status all = Some f /\ status_from f = Some (rs_status s')) /\
   takes T_ChallengeStatus eq els (rs_cstatus s) (rs_cstatus s') /\ takes T_RemainingTries as_i32 els (rs_tries s) (rs_tries s') /\
   takes T_RemainingTime (secs_after now) els (rs_fresh s) (rs_fresh s') /\ takes T_IssuedCertName is_name els (rs_issued s) (rs_issued s') /\
   takes T_ForwardingHint is_name els (rs_fwd s) (rs_fwd s') /\
   takes T_ParameterValue (fun v n => length v = 16%nat /\ n = v) els (rs_nonce s) (rs_nonce s') /\
   nonce_ok nonce els /\ rest_kept s s' /\ rs_div s' = rs_div s.
Lemma chal_loop_iff : forall now all els nonce ns s ns' s', chal_loop now all els nonce ns s = (Ok ns', s') <-> chal_inv now all els nonce ns s ns' s'.
Proof.
  intros now all els. induction els as [|t els IH]; intros nonce ns s ns' s'.
  - unfold chal_inv. cbn [chal_loop values filter map length nonce_ok]. rewrite !takes_nil, Nat.add_0_r. split.
    + intros Q. injection Q as <- <-. split; [intros t []|]. split; [reflexivity|]. split; [left; split; reflexivity|]. do 6 (split; [reflexivity|]). split; [exact I|]. split; [apply rest_kept_refl|reflexivity].
    + intros (_ & -> & ST & A1 & A2 & A3 & A4 & A5 & A6 & _ & (B1 & B2 & B3 & B4 & B5 & B6 & B7 & B8 & B9) & C). destruct ST as [[_ ST]|[ST _]]; [|destruct (ST eq_refl)].
      f_equal. destruct s, s'. cbn in *. subst. reflexivity.
  - unfold chal_inv. cbn [chal_loop nonce_ok]. rewrite !takes_cons, values_cons, okc_cons.
    destruct nonce.
    { destruct (t_type t =? T_ParameterValue) eqn:T1.
      - known T1. rewrite known_hd by (cbn; tauto). destruct (blen (t_val t) =? 16) eqn:L.
        + rewrite IH. unfold chal_inv. apply N.eqb_eq in L. assert (L' : length (t_val t) = 16%nat) by (unfold blen in L; lia). split.
          * intros (A & B & C & D & F & G & H & J & K & NO & R). do 8 (split; [assumption|]). split; [eexists; split; [split; [exact L'|reflexivity]|exact K]|]. split; [split; [reflexivity|exact NO]|exact R].
          * intros (A & B & C & D & F & G & H & J & (x & (_ & ->) & K) & (_ & NO) & R). do 9 (split; [assumption|]). split; assumption.
        + split; [discriminate|]. intros (A & B & C & D & F & G & H & J & (x & (L' & _) & K) & R). exfalso. apply N.eqb_neq in L. apply L. unfold blen. lia.
      - split; [discriminate|]. intros (A & B & C & D & F & G & H & J & K & (R & _) & _). exfalso. apply N.eqb_neq in T1. exact (T1 R). }
    destruct (t_type t =? T_Status) eqn:T1.
    { known T1. rewrite known_hd by (cbn; tauto). cbn [length]. replace (ns + S (length (values T_Status els)))%nat with (S ns + length (values T_Status els))%nat by lia. split.
      - intros H. destruct (get T_Status all) as [f|] eqn:G; [|discriminate]. destruct (status_from f) as [v|] eqn:V; [|discriminate]. apply IH in H.
        destruct H as (A & B & C & D1 & D2 & D3 & D4 & D5 & D6 & NO & R). split; [exact A|]. split; [exact B|]. split.
        + right. split; [discriminate|]. exists f. split; [reflexivity|]. destruct C as [[_ ->]|[_ (f' & Q & C)]]; [exact V|]. rewrite G in Q. injection Q as <-. exact C.
        + do 6 (split; [assumption|]). split; [split; [discriminate|exact NO]|exact R].
      - intros (A & B & [[C _]|[_ (f & G & V)]] & D1 & D2 & D3 & D4 & D5 & D6 & (_ & NO) & R); [discriminate|]. rewrite G, V. apply IH. split; [exact A|]. split; [exact B|]. split.
        + destruct (values T_Status els) as [|x l]; [left; split; reflexivity|right; split; [discriminate|]]. exists f. auto.
        + do 6 (split; [assumption|]). split; [exact NO|exact R]. }
    destruct (t_type t =? T_ChallengeStatus) eqn:T2.
    { known T2. rewrite known_hd by (cbn; tauto). rewrite IH. unfold chal_inv. split.
      - intros (A & B & C & D1 & D2 & D3 & D4 & D5 & D6 & NO & R). do 3 (split; [assumption|]). split; [exists (t_val t); split; [reflexivity|exact D1]|]. do 5 (split; [assumption|]).
        split; [split; [discriminate|exact NO]|exact R].
      - intros (A & B & C & (x & <- & D1) & D2 & D3 & D4 & D5 & D6 & (_ & NO) & R). do 3 (split; [assumption|]). split; [exact D1|]. do 5 (split; [assumption|]). split; [exact NO|exact R]. }
    destruct (t_type t =? T_RemainingTries) eqn:T3.
    { known T3. rewrite known_hd by (cbn; tauto). split.
      - intros H. destruct (nni_dec (t_val t)) as [n|] eqn:V; [|discriminate]. apply IH in H. destruct H as (A & B & C & D1 & D2 & D3 & D4 & D5 & D6 & NO & R).
        do 4 (split; [assumption|]). split; [eexists; split; [exists n; split; [exact V|reflexivity]|exact D2]|]. do 4 (split; [assumption|]). split; [split; [discriminate|exact NO]|exact R].
      - intros (A & B & C & D1 & (x & (n & V & ->) & D2) & D3 & D4 & D5 & D6 & (_ & NO) & R). rewrite V. apply IH. do 4 (split; [assumption|]). split; [exact D2|]. do 4 (split; [assumption|]). split; [exact NO|exact R]. }
    destruct (t_type t =? T_RemainingTime) eqn:T4.
    { known T4. rewrite known_hd by (cbn; tauto). split.
      - intros H. destruct (nni_dec (t_val t)) as [n|] eqn:V; [|discriminate]. destruct (time_plus_secs now n) as [z| | |] eqn:Z; try discriminate.
        apply (after_iff _ _ _ _ V) in Z. apply IH in H. destruct H as (A & B & C & D1 & D2 & D3 & D4 & D5 & D6 & NO & R).
        do 5 (split; [assumption|]). split; [exists z; split; [exact Z|exact D3]|]. do 3 (split; [assumption|]). split; [split; [discriminate|exact NO]|exact R].
      - intros (A & B & C & D1 & D2 & (z & Z & D3) & D4 & D5 & D6 & (_ & NO) & R). pose proof Z as (n & V & _). rewrite V. apply (after_iff _ _ _ _ V) in Z. rewrite Z. apply IH.
        do 5 (split; [assumption|]). split; [exact D3|]. do 3 (split; [assumption|]). split; [exact NO|exact R]. }
    destruct (t_type t =? T_IssuedCertName) eqn:T5.
    { known T5. rewrite known_hd by (cbn; tauto). split.
      - intros H. destruct (block_from_value (t_val t)) as [b|] eqn:V; [|discriminate]. destruct (name_decode b) as [n|] eqn:Z; [|discriminate].
        apply IH in H. destruct H as (A & B & C & D1 & D2 & D3 & D4 & D5 & D6 & NO & R).
        do 6 (split; [assumption|]). split; [exists n; split; [exists b; auto|exact D4]|]. do 2 (split; [assumption|]). split; [split; [discriminate|exact NO]|exact R].
      - intros (A & B & C & D1 & D2 & D3 & (n & (b & V & Z) & D4) & D5 & D6 & (_ & NO) & R). rewrite V, Z. apply IH.
        do 6 (split; [assumption|]). split; [exact D4|]. do 2 (split; [assumption|]). split; [exact NO|exact R]. }
    destruct (t_type t =? T_ForwardingHint) eqn:T6.
    { known T6. rewrite known_hd by (cbn; tauto). split.
      - intros H. destruct (block_from_value (t_val t)) as [b|] eqn:V; [|discriminate]. destruct (name_decode b) as [n|] eqn:Z; [|discriminate].
        apply IH in H. destruct H as (A & B & C & D1 & D2 & D3 & D4 & D5 & D6 & NO & R).
        do 7 (split; [assumption|]). split; [exists n; split; [exists b; auto|exact D5]|]. split; [assumption|]. split; [split; [discriminate|exact NO]|exact R].
      - intros (A & B & C & D1 & D2 & D3 & D4 & (n & (b & V & Z) & D5) & D6 & (_ & NO) & R). rewrite V, Z. apply IH.
        do 7 (split; [assumption|]). split; [exact D5|]. split; [assumption|]. split; [exact NO|exact R]. }
    destruct (t_type t =? T_ParameterKey) eqn:T7.
    { known T7. rewrite known_hd by (cbn; tauto). destruct (bytes_eqb (t_val t) (bs "nonce")) eqn:V.
      - apply bytes_eqb_eq in V. rewrite IH. unfold chal_inv. split.
        + intros (A & B & C & D1 & D2 & D3 & D4 & D5 & D6 & NO & R). do 9 (split; [assumption|]). split; [split; [exact V|exact NO]|exact R].
        + intros (A & B & C & D1 & D2 & D3 & D4 & D5 & D6 & (_ & NO) & R). do 9 (split; [assumption|]). split; [exact NO|exact R].
      - split; [discriminate|]. intros (A & B & C & D1 & D2 & D3 & D4 & D5 & D6 & (X & NO) & R). exfalso. apply bytes_eqb_eq in X. rewrite X in V. discriminate. }
    destruct (t_type t =? T_ParameterValue) eqn:T8.
    { known T8. change (is_critical T_ParameterValue) with true. cbv iota. split; [discriminate|]. intros (A & B & C & D1 & D2 & D3 & D4 & D5 & D6 & (X & NO) & R). destruct (X eq_refl). }
    destruct (is_critical (t_type t)) eqn:CR.
    { split; [discriminate|]. intros ((K & _) & _). exfalso. apply is_critical_iff in CR. specialize (K CR). cbn in K.
      rewrite N.eqb_neq in T1, T2, T3, T4, T5, T6, T7, T8. repeat (destruct K as [K|K]; [symmetry in K; contradiction|]). exact K. }
    rewrite crit_hd by exact CR. rewrite IH. unfold chal_inv. apply N.eqb_neq in T8. split.
    + intros (A & B & C & D1 & D2 & D3 & D4 & D5 & D6 & NO & R). do 9 (split; [assumption|]). split; [split; [exact T8|exact NO]|exact R].
    + intros (A & B & C & D1 & D2 & D3 & D4 & D5 & D6 & (_ & NO) & R). do 9 (split; [assumption|]). split; [exact NO|exact R].
Qed.
Lemma get_values : forall ty els v, values ty els = [v] -> get ty els = Some (Tlv ty v).
Proof.
  intros ty els v. induction els as [|t els IH]; [discriminate|]. rewrite values_cons. cbn [get]. destruct (t_type t =? ty) eqn:T; [|exact IH].
  intros Q. injection Q as <- _. apply N.eqb_eq in T. destruct t. cbn in T |- *. subst. reflexivity.
Qed.

Lemma aes_iff : forall E key block ad decIv encIv pt iv', decode_aes E key block ad decIv encIv = (Ok pt, iv') <->
  aes_reads E key ad decIv encIv block pt iv'.
Proof.
  intros E key block ad decIv encIv pt iv'. unfold decode_aes. split.
  - intros H. destruct (parse block) as [els|] eqn:P; [|discriminate]. destruct (get T_EncryptedPayload els) as [p|] eqn:G1; [|discriminate].
    destruct (get T_InitializationVector els) as [iv|] eqn:G2; [|discriminate]. destruct (blen (t_val iv) =? 12) eqn:L1; [|discriminate]. cbn [negb] in H.
    destruct (get T_AuthenticationTag els) as [tag|] eqn:G3; [|discriminate]. destruct (blen (t_val tag) =? 16) eqn:L2; [|discriminate]. cbn [negb] in H.
    apply N.eqb_eq in L1, L2. assert (I : iv12 (t_val iv)) by (unfold iv12, blen in *; lia).
    match type of H with (if ?x then _ else _) = _ => destruct x eqn:U1 in H; [discriminate|] end.
    match type of H with (if ?x then _ else _) = _ => destruct x eqn:B1 in H; [discriminate|] end.
    match type of H with (if ?x then _ else _) = _ => destruct x eqn:U2 in H; [discriminate|] end.
    match type of H with (if ?x then _ else _) = _ => destruct x eqn:B2 in H; [discriminate|] end.
    destruct (o_aes_dec E key (t_val iv) ad (t_val p) (t_val tag)) as [q|] eqn:D; [|discriminate].
    destruct (blen q =? blen (t_val p)) eqn:L3; [|discriminate]. cbn [negb] in H. unfold update_iv in H. rewrite blen12 in H by exact I.
    destruct (u32_max - iv_counter (t_val iv) <=? aes_blocks (blen q)) eqn:C; [discriminate|].
    replace (skipn 12 (t_val iv)) with (@nil byte) in H by (rewrite <- I; symmetry; apply skipn_all). rewrite app_nil_r in H. apply pair_equal_spec in H. destruct H as [H <-]. injection H as <-.
    apply N.eqb_eq in L3. apply N.leb_gt in C. exists els, p, iv, tag. do 4 (split; [assumption|]). split; [exact I|]. split; [unfold blen in L2; lia|].
    split. { destruct encIv as [|x l]; [left; reflexivity|right]. apply N.ltb_ge in U1. split; [unfold blen in U1; lia|]. apply bytes_eqb_neq. exact B1. }
    split. { destruct decIv as [|x l]; [left; reflexivity|right]. apply N.ltb_ge in U2. apply orb_false_iff in B2. destruct B2 as [B2 B3]. split; [unfold blen in U2; lia|].
      apply negb_false_iff, bytes_eqb_eq in B3. apply N.ltb_ge in B2. split; assumption. }
    split; [exact D|]. split; [unfold blen in L3; lia|]. unfold u32_max in C. split; [unfold blocks16; change (ctr_part (t_val iv)) with (iv_counter (t_val iv)); unfold aes_blocks in C; lia|]. reflexivity.
  - intros (els & p & iv & tag & P & G1 & G2 & G3 & I & L2 & EI & DI & D & L3 & C & ->). rewrite P, G1, G2, G3.
    replace (blen (t_val iv) =? 12) with true by (symmetry; apply N.eqb_eq; unfold iv12, blen in *; lia).
    replace (blen (t_val tag) =? 16) with true by (symmetry; apply N.eqb_eq; unfold blen; lia). cbn [negb].
    assert (Q1 : match encIv with [] => false | _ :: _ => blen encIv <? 8 end = false).
    { destruct encIv as [|x l]; [reflexivity|]. destruct EI as [EI|[EI _]]; [discriminate|]. apply N.ltb_ge. unfold blen. lia. }
    assert (Q2 : match encIv with [] => false | _ :: _ => bytes_eqb (iv_prefix (t_val iv)) (iv_prefix encIv) end = false).
    { destruct encIv as [|x l]; [reflexivity|]. destruct EI as [EI|[_ EI]]; [discriminate|]. apply bytes_eqb_neq. exact EI. }
    assert (Q3 : match decIv with [] => false | _ :: _ => blen decIv <? 12 end = false).
    { destruct decIv as [|x l]; [reflexivity|]. destruct DI as [DI|[DI _]]; [discriminate|]. apply N.ltb_ge. unfold blen. lia. }
    assert (Q4 : match decIv with [] => false | _ :: _ => (iv_counter (t_val iv) <? iv_counter decIv) || negb (bytes_eqb (iv_prefix (t_val iv)) (iv_prefix decIv)) end = false).
    { destruct decIv as [|x l]; [reflexivity|]. destruct DI as [DI|[_ [DI DJ]]]; [discriminate|]. apply orb_false_iff. split; [apply N.ltb_ge; exact DJ|]. apply negb_false_iff, bytes_eqb_eq. exact DI. }
    cbv zeta. rewrite Q1, Q2, Q3, Q4, D. replace (blen pt =? blen (t_val p)) with true by (symmetry; apply N.eqb_eq; unfold blen; lia). cbn [negb].
    unfold update_iv. rewrite blen12 by exact I. replace (u32_max - iv_counter (t_val iv) <=? aes_blocks (blen pt)) with false.
    2:{ symmetry. apply N.leb_gt. unfold u32_max, aes_blocks. unfold blocks16 in C. change (ctr_part (t_val iv)) with (iv_counter (t_val iv)) in C. lia. }
    replace (skipn 12 (t_val iv)) with (@nil byte) by (rewrite <- I; symmetry; apply skipn_all). rewrite app_nil_r. reflexivity.
Qed.
Theorem chal_decode_iff : forall E now b s s', chal_decode E now b s = (Ok tt, s') <->
  exists pt, aes_reads E (rs_key s) (rs_id s) (rs_div s) (rs_eiv s) b pt (rs_div s') /\ challenge_reads now pt s s' /\ rest_kept s s'.
Proof.
  intros E now b s s'. unfold chal_decode. split.
  - intros H. destruct (decode_aes E (rs_key s) b (rs_id s) (rs_div s) (rs_eiv s)) as [o iv] eqn:DA. destruct o as [pt| | |]; try discriminate.
    destruct (parse pt) as [els|] eqn:P; [|discriminate]. destruct (chal_loop now els els false 0 (upd_div iv s)) as [[ns| | |] s2] eqn:L; try discriminate.
    destruct (Nat.eqb ns 1) eqn:N; [|discriminate]. injection H as ->. apply Nat.eqb_eq in N. subst ns. apply chal_loop_iff in L.
    destruct L as (A & B & C & D1 & D2 & D3 & D4 & D5 & D6 & NO & R & DV). symmetry in B. apply length_1 in B. destruct B as [st B].
    exists pt. split; [apply aes_iff; rewrite DA; cbn in DV; rewrite DV; reflexivity|]. split; [|exact R]. exists els, st. split; [exact P|]. split; [exact A|]. split; [exact B|].
    destruct C as [[C _]|[_ (f & G & C)]]; [rewrite C in B; discriminate|]. rewrite (get_values _ _ _ B) in G. injection G as <-. unfold status_from in C. cbn [t_val] in C.
    destruct (nni_dec st) as [n|]; [|discriminate]. destruct (6 <? n) eqn:S6; [discriminate|]. injection C as ->. apply N.ltb_ge in S6.
    do 2 (split; [assumption || reflexivity|]). do 6 (split; [assumption|]). apply (nonce_ok_iff els false). exact NO.
  - intros (pt & D & (els & st & P & A & B & C1 & C2 & D1 & D2 & D3 & D4 & D5 & D6 & NO) & R). apply aes_iff in D. rewrite D, P. remember (rs_div s') as iv eqn:DV.
    assert (L : chal_loop now els els false 0 (upd_div iv s) = (Ok 1%nat, s')).
    { apply chal_loop_iff. split; [exact A|]. split; [rewrite B; reflexivity|]. split.
      - right. split; [rewrite B; discriminate|]. eexists. split; [apply get_values; exact B|]. unfold status_from. cbn [t_val]. rewrite C1. apply N.ltb_ge in C2. rewrite C2. reflexivity.
      - do 6 (split; [assumption|]). split; [apply (nonce_ok_iff els false); exact NO|]. split; [exact R|symmetry; exact DV]. }
    rewrite L. reflexivity.
Qed.

(** ** Errors *)
Lemma values_count : forall ty els, length (values ty els) = count ty els.
Proof. intros ty els. induction els as [|t l IH]; [reflexivity|]. rewrite values_cons, count_cons. destruct (t_type t =? ty); cbn [length]; rewrite IH; reflexivity. Qed.
Lemma in_values : forall ty els v, In v (values ty els) <-> exists t, In t els /\ t_type t = ty /\ t_val t = v.
Proof.
  intros ty els v. unfold values. rewrite in_map_iff. split.
  - intros (t & V & I). apply filter_In in I. destruct I as [I T]. apply N.eqb_eq in T. exists t. auto.
  - intros (t & I & T & V). exists t. split; [exact V|]. apply filter_In. split; [exact I|]. apply N.eqb_eq. exact T.
Qed.
Lemma err_loop_total : forall all l e s cc ic oc, (forall t, get T_ErrorCode all = Some t -> nni_dec (t_val t) <> None) ->
  (forall t, In t l -> In t all) -> exists r, err_loop all l (e, s, cc, ic, oc) = Ok r.
Proof.
  intros all l. induction l as [|t l IH]; intros e s cc ic oc H S; cbn [err_loop]; [eexists; reflexivity|].
  assert (S' : forall x, In x l -> In x all) by (intros x X; apply S; right; exact X).
  assert (G : forall ty, t_type t = ty -> exists f, get ty all = Some f).
  { intros ty T. assert (I : In t all) by (apply S; left; reflexivity). clear - I T. induction all as [|x m IHm]; [destruct I|]. cbn [get].
    destruct (t_type x =? ty) eqn:X; [eexists; reflexivity|]. destruct I as [->|I]; [apply N.eqb_neq in X; contradiction|auto]. }
  destruct (t_type t =? T_ErrorCode) eqn:T1.
  - apply N.eqb_eq in T1. destruct (G _ T1) as [f F]. rewrite F. cbn [of_opt bind]. specialize (H f F). destruct (nni_dec (t_val f)) eqn:N; [|destruct (H eq_refl)]. cbn [of_opt bind].
    apply IH; [|exact S']. intros t' Q. rewrite F in Q. injection Q as <-. rewrite N. discriminate.
  - destruct (t_type t =? T_ErrorInfo) eqn:T2.
    + apply N.eqb_eq in T2. destruct (G _ T2) as [f F]. rewrite F. cbn [of_opt bind]. apply IH; assumption.
    + destruct (is_critical (t_type t)); apply IH; assumption.
Qed.
Theorem err_decode_iff : forall b code info, code <> NO_ERROR \/ info <> [] ->
  (err_decode b = (code, info) <-> error_reads b code info).
Proof.
  intros b code info NE. split.
  - intros H. destruct (err_decode_only_if _ _ _ H NE) as (els & c & s & P & C1 & C2 & K & I1 & I2 & T1 & T2 & V & <-). exists els, (t_val c).
    assert (ONE : forall ty t, In t els -> t_type t = ty -> count ty els = 1%nat -> values ty els = [t_val t]).
    { intros ty t I T C. rewrite <- values_count in C. apply length_1 in C. destruct C as [x C]. assert (X : In (t_val t) (values ty els)) by (apply in_values; exists t; auto).
      rewrite C in X |- *. destruct X as [<-|[]]. reflexivity. }
    split; [exact P|]. split; [exact K|]. split; [apply (ONE _ c); assumption|]. split; [exact V|]. apply (ONE _ s); assumption.
  - intros (els & c & P & K & VC & V & VI). unfold err_decode, err_body. rewrite P. cbn [of_opt bind].
    pose proof (get_values _ _ _ VC) as G1. pose proof (get_values _ _ _ VI) as G2.
    destruct (err_loop_total els els NO_ERROR [] 0 0 0) as [[[[[e s] cc] ic] oc] L].
    { intros t G. rewrite G1 in G. injection G as <-. cbn [t_val]. rewrite V. discriminate. }
    { auto. }
    pose proof L as L0. unfold bytes in L0 |- *. rewrite L0. cbn [bind]. destruct (err_loop_spec _ _ _ _ _ _ _ _ _ _ _ _ L) as (A & B & C & D & F). cbn [Nat.add] in A, B, C.
    pose proof (values_count T_ErrorCode els) as N1. pose proof (values_count T_ErrorInfo els) as N2. rewrite VC in N1. rewrite VI in N2. cbn [length] in N1, N2. rewrite <- N1 in A, D. rewrite <- N2 in B, F.
    apply crit_others_0 in K. rewrite K in C. subst cc ic oc. cbn [Nat.eqb andb negb orb Nat.ltb Nat.leb] in D, F |- *.
    destruct D as (t & Q & D). rewrite G1 in Q. injection Q as <-. cbn [t_val] in D. rewrite V in D. injection D as <-.
    destruct F as (t & Q & F). rewrite G2 in Q. injection Q as <-. cbn [t_val] in F. subst s. reflexivity.
Qed.
