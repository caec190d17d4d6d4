(** The address check and the command line of the email challenge. *)
From Verif Require Export EmailScript Spec_Email BytesFacts JsonFacts.
From Coq Require Import Lia.
Local Open Scope N_scope.

(** ** Regular expressions *)
Inductive lang : rx -> bytes -> Prop :=
| L_empty : lang REmpty []
| L_char : forall p c, p c = true -> lang (RChar p) [c]
| L_seq : forall a b s t, lang a s -> lang b t -> lang (RSeq a b) (s ++ t)
| L_left : forall a b s, lang a s -> lang (RAlt a b) s
| L_right : forall a b s, lang b s -> lang (RAlt a b) s
| L_nil : forall a, lang (RStar a) []
| L_cons : forall a s t, lang a s -> lang (RStar a) t -> lang (RStar a) (s ++ t).

Lemma rx_null_iff : forall r, rx_null r = true <-> lang r [].
Proof.
  induction r as [| |p|a IHa b IHb|a IHa b IHb|a IHa]; cbn [rx_null].
  - split; [discriminate|intros H; inversion H].
  - split; [constructor|reflexivity].
  - split; [discriminate|intros H; inversion H].
  - rewrite andb_true_iff, IHa, IHb. split.
    + intros [A B]. exact (L_seq a b [] [] A B).
    + intros H. inversion H as [| |? ? s t A B Q1 Q2| | | |]; subst. apply app_eq_nil in Q2 as [-> ->]. auto.
  - rewrite orb_true_iff, IHa, IHb. split; [intros [H|H]; [apply L_left|apply L_right]; exact H|intros H; inversion H; subst; auto].
  - split; [intros _; constructor|reflexivity].
Qed.
Lemma star_cons : forall a c s, lang (RStar a) (c :: s) -> exists s1 s2, s = s1 ++ s2 /\ lang a (c :: s1) /\ lang (RStar a) s2.
Proof.
  intros a c s H. remember (RStar a) as r eqn:R. remember (c :: s) as w eqn:W. revert a c s R W.
  induction H as [|p c0 P|x y s0 t A IA B IB|x y s0 A IA|x y s0 A IA|x|x s0 t A IA B IB]; intros a c s R W; try discriminate.
  injection R as ->. destruct s0 as [|c1 s1].
  - cbn [app] in W. exact (IB a c s eq_refl W).
  - cbn [app] in W. injection W as -> <-. exists s1, t. auto.
Qed.
Lemma rx_der_iff : forall r c s, lang (rx_der c r) s <-> lang r (c :: s).
Proof.
  induction r as [| |p|a IHa b IHb|a IHa b IHb|a IHa]; intros c s; cbn [rx_der].
  - split; intros H; inversion H.
  - split; intros H; inversion H.
  - destruct (p c) eqn:P; split; intros H; inversion H; subst; try congruence; constructor; exact P.
  - assert (SEQ : lang (RSeq (rx_der c a) b) s <-> exists s1 s2, s = s1 ++ s2 /\ lang a (c :: s1) /\ lang b s2).
    { split.
      - intros H. inversion H as [| |? ? s1 s2 A B Q1 Q2| | | |]; subst. exists s1, s2. rewrite <- IHa. auto.
      - intros (s1 & s2 & -> & A & B). apply L_seq; [apply IHa, A|exact B]. }
    assert (OUT : lang (RSeq a b) (c :: s) <-> (exists s1 s2, s = s1 ++ s2 /\ lang a (c :: s1) /\ lang b s2) \/ (lang a [] /\ lang b (c :: s))).
    { split.
      - intros H. inversion H as [| |? ? s1 s2 A B Q1 Q2| | | |]; subst. destruct s1 as [|c1 s1]; [right; cbn [app] in Q2; subst; auto|].
        cbn [app] in Q2. injection Q2 as -> <-. left. eauto.
      - intros [(s1 & s2 & -> & A & B)|[A B]]; [exact (L_seq a b (c :: s1) s2 A B)|exact (L_seq a b [] (c :: s) A B)]. }
    destruct (rx_null a) eqn:N.
    + apply rx_null_iff in N. rewrite OUT. split.
      * intros H. inversion H; subst; [left; apply SEQ; assumption|right; split; [exact N|apply IHb; assumption]].
      * intros [H|[_ H]]; [apply L_left, SEQ, H|apply L_right, IHb, H].
    + rewrite OUT, SEQ. split; [auto|]. intros [H|[H _]]; [exact H|]. apply rx_null_iff in H. congruence.
  - split; intros H; inversion H; subst; [apply L_left, IHa|apply L_right, IHb|apply L_left, IHa|apply L_right, IHb]; assumption.
  - split.
    + intros H. inversion H as [| |? ? s1 s2 A B Q1 Q2| | | |]; subst. apply (L_cons a (c :: s1) s2); [apply IHa, A|exact B].
    + intros H. apply star_cons in H as (s1 & s2 & -> & A & B). apply L_seq; [apply IHa, A|exact B].
Qed.
Lemma rx_match_iff : forall s r, rx_match r s = true <-> lang r s.
Proof. induction s as [|c s IH]; intros r; cbn [rx_match]; [apply rx_null_iff|]. rewrite IH. apply rx_der_iff. Qed.

Lemma lang_star_char : forall p s, lang (RStar (RChar p)) s <-> forallb p s = true.
Proof.
  intros p s. split.
  - intros H. remember (RStar (RChar p)) as r eqn:R. revert R.
    induction H as [|p0 c0 P|x y s0 t A IA B IB|x y s0 A IA|x y s0 A IA|x|x s0 t A IA B IB]; intros R; try discriminate; [reflexivity|].
    injection R as ->. inversion A; subst. cbn [app forallb]. rewrite (IB eq_refl). match goal with H : p _ = true |- _ => rewrite H end. reflexivity.
  - induction s as [|c s IH]; intros H; [constructor|]. cbn [forallb] in H. apply andb_prop in H as [A B].
    exact (L_cons (RChar p) [c] s (L_char p c A) (IH B)).
Qed.
Lemma lang_plus_char : forall p s, lang (RPlus (RChar p)) s <-> s <> [] /\ forallb p s = true.
Proof.
  intros p s. unfold RPlus. split.
  - intros H. inversion H as [| |? ? s1 s2 A B Q1 Q2| | | |]; subst. inversion A; subst. apply lang_star_char in B. split; [discriminate|].
    cbn [app forallb]. rewrite B. match goal with H : p _ = true |- _ => rewrite H end. reflexivity.
  - intros [N H]. destruct s as [|c s]; [contradiction|]. cbn [forallb] in H. apply andb_prop in H as [A B].
    exact (L_seq (RChar p) (RStar (RChar p)) [c] s (L_char p c A) (proj2 (lang_star_char p s) B)).
Qed.
Lemma lang_seq : forall a b s, lang (RSeq a b) s <-> exists s1 s2, s = s1 ++ s2 /\ lang a s1 /\ lang b s2.
Proof.
  intros a b s. split.
  - intros H. inversion H; subst. eauto 6.
  - intros (s1 & s2 & -> & A & B). apply L_seq; assumption.
Qed.
Lemma lang_char : forall p s, lang (RChar p) s <-> exists c, s = [c] /\ p c = true.
Proof. intros p s. split; [intros H; inversion H; subst; eauto|]. intros (c & -> & P). constructor. exact P. Qed.

Lemma in_range_iff : forall a b c, in_range a b c = true <-> Byte.to_N a <= Byte.to_N c <= Byte.to_N b.
Proof. intros. unfold in_range. rewrite andb_true_iff, !N.leb_le. reflexivity. Qed.
Lemma byte_eqb_iff : forall a b, byte_eqb a b = true <-> a = b.
Proof.
  intros a b. unfold byte_eqb. rewrite N.eqb_eq. split; [|intros ->; reflexivity]. intros H.
  pose proof (Byte.of_to_N a) as A. pose proof (Byte.of_to_N b) as B. rewrite H in A. congruence.
Qed.
Lemma class_iff : forall l c, alnum c || one_of l c = true <-> address_char l c.
Proof.
  intros l c. unfold alnum, one_of, address_char, letter_or_digit. rewrite !orb_true_iff, !in_range_iff, existsb_exists.
  assert ((exists x, In x l /\ byte_eqb c x = true) <-> In c l) as ->.
  { split; [intros (x & I & Q); apply byte_eqb_iff in Q; subst; exact I|]. intros I. exists c. split; [exact I|]. apply byte_eqb_iff. reflexivity. }
  change (Byte.to_N x61) with 97. change (Byte.to_N x7a) with 122. change (Byte.to_N x41) with 65. change (Byte.to_N x5a) with 90.
  change (Byte.to_N x30) with 48. change (Byte.to_N x39) with 57. tauto.
Qed.
Lemma class_all : forall l s, forallb (fun c => alnum c || one_of l c) s = true <-> Forall (address_char l) s.
Proof.
  intros l s. induction s as [|c s IH]; cbn [forallb]; [split; [constructor|reflexivity]|].
  rewrite andb_true_iff, IH, class_iff. split; [intros [A B]; constructor; assumption|intros H; inversion H; auto].
Qed.

Theorem is_valid_email_iff : forall s, is_valid_email s = true <->
  exists local domain c rest, s = local ++ bs "@" ++ domain ++ [c] ++ rest /\
    local <> [] /\ Forall (address_char (bs "_.+-")) local /\ domain <> [] /\ Forall (address_char (bs "-")) domain /\
    c <> x0a /\ c <> x0d /\ rest <> [] /\ Forall (address_char (bs "-.")) rest.
Proof.
  intros s. unfold is_valid_email, email_pattern. rewrite rx_match_iff. split.
  - intros H. apply lang_seq in H as (l & s1 & -> & L & H). apply lang_seq in H as (at_ & s2 & -> & A & H).
    apply lang_seq in H as (d & s3 & -> & D & H). apply lang_seq in H as (dot & r & -> & T & R).
    apply lang_plus_char in L as [L1 L2]. apply lang_char in A as (a & -> & A). apply byte_eqb_iff in A. subst a.
    apply lang_plus_char in D as [D1 D2]. apply lang_char in T as (c & -> & T). apply lang_plus_char in R as [R1 R2].
    exists l, d, c, r. apply class_all in L2, D2, R2. unfold any_char in T. apply andb_prop in T as [T1 T2].
    split; [reflexivity|]. repeat (split; [assumption|]). split; [intros ->; discriminate|]. split; [intros ->; discriminate|]. auto.
  - intros (l & d & c & r & -> & L1 & L2 & D1 & D2 & C1 & C2 & R1 & R2). apply class_all in L2, D2, R2.
    apply lang_seq. exists l, (bs "@" ++ d ++ [c] ++ r). split; [reflexivity|]. split; [apply lang_plus_char; auto|].
    apply lang_seq. exists (bs "@"), (d ++ [c] ++ r). split; [reflexivity|]. split; [apply lang_char; exists x40; split; reflexivity|].
    apply lang_seq. exists d, ([c] ++ r). split; [reflexivity|]. split; [apply lang_plus_char; auto|].
    apply lang_seq. exists [c], r. split; [reflexivity|]. split; [|apply lang_plus_char; auto].
    apply lang_char. exists c. split; [reflexivity|]. unfold any_char. apply andb_true_iff.
    split; apply negb_true_iff; apply not_true_iff_false; intros Q; apply byte_eqb_iff in Q; contradiction.
Qed.

(** ** Splitting the command line *)
Lemma split_quoted : forall s quoted part prev rest, ~ In x22 s -> quoted = true ->
  split_args (s ++ rest) quoted part prev = split_args rest quoted (rev s ++ part) (match rev s with [] => prev | c :: _ => Some c end).
Proof.
  induction s as [|c s IH]; intros quoted part prev rest N Q; [reflexivity|]. subst quoted. cbn [app split_args rev].
  assert (C : byte_eqb c x22 = false) by (apply not_true_iff_false; intros E; apply byte_eqb_iff in E; apply N; left; exact E). rewrite C. cbn [xorb negb andb].
  rewrite (IH true (c :: part) (Some c) rest (fun H => N (or_intror H)) eq_refl). rewrite <- app_assoc. cbn [app]. f_equal. destruct (rev s); reflexivity.
Qed.
Lemma split_word : forall s part prev rest, ~ In x22 s -> ~ In x20 s ->
  split_args (s ++ rest) false part prev = split_args rest false (rev s ++ part) (match rev s with [] => prev | c :: _ => Some c end).
Proof.
  induction s as [|c s IH]; intros part prev rest N1 N2; [reflexivity|]. cbn [app split_args rev].
  assert (C1 : byte_eqb c x22 = false) by (apply not_true_iff_false; intros E; apply byte_eqb_iff in E; apply N1; left; exact E).
  assert (C2 : byte_eqb c x20 = false) by (apply not_true_iff_false; intros E; apply byte_eqb_iff in E; apply N2; left; exact E).
  rewrite C1. cbn [xorb negb andb]. rewrite C2.
  rewrite (IH (c :: part) (Some c) rest (fun H => N1 (or_intror H)) (fun H => N2 (or_intror H))). rewrite <- app_assoc. cbn [app]. f_equal. destruct (rev s); reflexivity.
Qed.
Lemma unescape_plain_aux : forall n s, (length s <= n)%nat -> ~ In x22 s -> unescape s = s.
Proof.
  induction n as [|n IH]; intros s L N; [destruct s; [reflexivity|cbn in L; lia]|].
  destruct s as [|c [|d s]]; [reflexivity|reflexivity|]. cbn [unescape]. destruct (byte_eqb d x22) eqn:D.
  { apply byte_eqb_iff in D. destruct N. right. left. exact D. }
  rewrite andb_false_r. f_equal. apply (IH (d :: s)); [cbn in L |- *; lia|intros H; apply N; right; exact H].
Qed.
Lemma unescape_plain : forall s, ~ In x22 s -> unescape s = s.
Proof. intros s. apply (unescape_plain_aux (length s)). lia. Qed.
Lemma make_quoted : forall s, ~ In x22 s -> make_entry (x22 :: s ++ [x22]) = Ok s.
Proof. intros s N. unfold make_entry. rewrite rev_app_distr. cbn [rev app]. rewrite rev_involutive, unescape_plain by exact N. reflexivity. Qed.
Lemma make_word : forall s, ~ In x22 s -> make_entry s = Ok s.
Proof.
  intros s N. pose proof (unescape_plain s N) as U. unfold make_entry. destruct s as [|c s]; [rewrite U; reflexivity|].
  destruct c; rewrite ?U; try reflexivity. destruct N. left. reflexivity.
Qed.

(** Quoted arguments, each after a space. *)
Definition quoted_args (l : list bytes) : bytes := concat (map (fun a => x20 :: x22 :: a ++ [x22]) l).
Lemma split_rest : forall l part p, part <> [] -> p <> x20 -> Forall (fun a => ~ In x22 a) l ->
  split_args (quoted_args l) false part (Some p) = do e <- make_entry (rev part); Ok (e :: l).
Proof.
  induction l as [|a l IH]; intros part p PN PS F.
  - cbn. destruct part; [contradiction|reflexivity].
  - inversion F as [|? ? A F']; subst. unfold quoted_args. cbn [map concat]. fold (quoted_args l). cbn [app split_args].
    change (byte_eqb x20 x22) with false. change (byte_eqb x20 x20) with true. cbn [xorb negb andb].
    assert (byte_eqb p x20 = false) as -> by (apply not_true_iff_false; intros E; apply byte_eqb_iff in E; contradiction).
    change (byte_eqb x22 x22) with true. change (byte_eqb x22 x20) with false. cbn [xorb negb andb].
    rewrite <- app_assoc. rewrite (split_quoted a true [x22] (Some x22) ([x22] ++ quoted_args l) A eq_refl).
    cbn [app split_args]. change (byte_eqb x22 x22) with true. change (byte_eqb x22 x20) with false. cbn [xorb negb andb].
    rewrite (IH (x22 :: rev a ++ [x22]) x22) by (try discriminate; assumption).
    cbn [rev]. rewrite rev_app_distr, rev_involutive. cbn [rev app]. rewrite (make_quoted a A).
    destruct (make_entry (rev part)); reflexivity.
Qed.
Lemma build_args_quoted : forall script l, script <> [] -> ~ In x22 script -> ~ In x20 script -> Forall (fun a => ~ In x22 a) l ->
  build_args (script ++ quoted_args l) = Ok (script :: l).
Proof.
  intros script l NE N1 N2 F. unfold build_args. rewrite (split_word script [] None (quoted_args l) N1 N2). rewrite app_nil_r.
  destruct (rev script) as [|c q] eqn:R; [apply (f_equal (@rev byte)) in R; rewrite rev_involutive in R; contradiction|].
  rewrite split_rest; [|discriminate| |exact F].
  - rewrite <- R, rev_involutive, make_word by exact N1. reflexivity.
  - intros ->. apply N2. rewrite <- (rev_involutive script), R. cbn [rev]. apply in_or_app. right. left. reflexivity.
Qed.

Lemma uri_no_quote : forall E n, codec_laws E -> ~ In x22 (o_to_uri E n).
Proof.
  intros E n L H. pose proof (l_uri_plain E L n) as P. rewrite forallb_forall in P. specialize (P _ H). vm_compute in P. discriminate.
Qed.
Lemma code_no_quote : forall ws code, gen_code ws = Ok code -> ~ In x22 code.
Proof.
  intros ws code H IN. unfold gen_code in H. destruct (find accepted_word ws) as [w|]; [|discriminate]. injection H as <-.
  unfold code_of_word, pad6 in IN. apply in_app_or in IN as [IN|IN]; [apply repeat_spec in IN; discriminate|].
  match type of IN with In _ (to_string_N ?k) => pose proof (to_string_digits k) as D end. rewrite forallb_forall in D. specialize (D _ IN). vm_compute in D. discriminate.
Qed.
Lemma email_args : forall E script addr ws code r, codec_laws E -> script <> [] -> ~ In x22 script -> ~ In x20 script -> ~ In x22 addr ->
  gen_code ws = Ok code ->
  build_args (email_command E script addr code r) = Ok [script; addr; code; o_to_uri E (rq_prefix r); o_to_uri E (c_name (rq_cert r))].
Proof.
  intros E script addr ws code r L NE N1 N2 A G.
  rewrite <- (build_args_quoted script [addr; code; o_to_uri E (rq_prefix r); o_to_uri E (c_name (rq_cert r))] NE N1 N2).
  - f_equal. unfold email_command, quoted_args, DQ. cbn [map concat]. change (bs " ") with [x20]. rewrite !app_nil_r. repeat (cbn [app]; rewrite <- ?app_assoc). reflexivity.
  - repeat constructor; [exact A|exact (code_no_quote ws code G)|apply uri_no_quote, L..].
Qed.

(** ** Addresses the pattern is meant for *)
Lemma join_chars : forall labels, Forall (fun l => l <> [] /\ Forall (address_char (bs "-")) l) labels -> labels <> [] ->
  join x2e labels <> [] /\ Forall (address_char (bs "-.")) (join x2e labels).
Proof.
  assert (W : forall l, Forall (address_char (bs "-")) l -> Forall (address_char (bs "-.")) l).
  { intros l. apply Forall_impl. intros c [H|[<-|[]]]; [left; exact H|right; left; reflexivity]. }
  induction labels as [|l ls IH]; intros F NE; [contradiction|]. inversion F as [|? ? [N A] F']; subst. destruct ls as [|l2 ls].
  - cbn [join]. auto.
  - cbn [join]. destruct IH as [J1 J2]; [exact F'|discriminate|]. split; [destruct l; discriminate|].
    apply Forall_app. split; [apply W, A|]. constructor; [right; right; left; reflexivity|exact J2].
Qed.
Lemma well_formed_accepted : forall s, well_formed_address s -> is_valid_email s = true.
Proof.
  intros s (local & labels & -> & NL & FL & LEN & F). apply is_valid_email_iff.
  destruct labels as [|l1 [|l2 ls]]; cbn [length] in LEN; [lia|lia|]. inversion F as [|? ? [N A] F']; subst.
  exists local, l1, x2e, (join x2e (l2 :: ls)). destruct (join_chars (l2 :: ls) F' ltac:(discriminate)) as [J1 J2].
  split; [cbn [join app]; reflexivity|]. repeat (split; [solve [auto|discriminate]|]). exact J2.
Qed.
Lemma dotless_accepted : exists s, is_valid_email s = true /\ ~ In x2e s /\ ~ well_formed_address s.
Proof.
  exists (bs "a@bcd"). split; [vm_compute; reflexivity|].
  assert (ND : ~ In x2e (bs "a@bcd")) by (cbn; intros H; repeat (destruct H as [H|H]; [discriminate|]); exact H).
  split; [exact ND|]. intros (local & labels & Q & _ & _ & L & _). apply ND. rewrite Q.
  destruct labels as [|l1 [|l2 ls]]; cbn [length] in L; [lia|lia|]. cbn [join]. apply in_or_app. right. apply in_or_app. right. apply in_or_app. right. left. reflexivity.
Qed.
