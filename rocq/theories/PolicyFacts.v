(** Facts about name assignment, redirection policies and PROBE replies. *)
From Verif Require Export Spec_Policy MultimapFacts BytesFacts.
Local Open Scope N_scope.

(** ** Searching bytes *)
Lemma rfind_none : forall c s, rfind_byte c s = None <-> free c s.
Proof.
  induction s as [|x s IH]; cbn [rfind_byte]; [split; [intros _ []|reflexivity]|].
  destruct (rfind_byte c s) as [i|] eqn:R.
  - split; [discriminate|]. intros F. exfalso. assert (free c s) as F' by (intros Q; apply F; right; exact Q). apply IH in F'. discriminate.
  - pose proof (proj1 IH eq_refl) as F. destruct (byte_eqb x c) eqn:Q.
    + apply byte_eqb_eq in Q as ->. split; [discriminate|]. intros F'. exfalso. apply F'. left. reflexivity.
    + split; [|reflexivity]. intros _ [->|H]; [rewrite (proj2 (byte_eqb_eq c c) eq_refl) in Q; discriminate|contradiction].
Qed.
Lemma rfind_app : forall c a b, free c b -> rfind_byte c (a ++ c :: b) = Some (length a).
Proof.
  induction a as [|x a IH]; intros b F; cbn [app rfind_byte length].
  - apply rfind_none in F. rewrite F, (proj2 (byte_eqb_eq c c) eq_refl). reflexivity.
  - rewrite IH by exact F. reflexivity.
Qed.
Lemma rfind_split : forall c s i, rfind_byte c s = Some i -> s = firstn i s ++ c :: skipn (S i) s /\ free c (skipn (S i) s) /\ (i < length s)%nat.
Proof.
  induction s as [|x s IH]; intros i H; cbn [rfind_byte] in H; [discriminate|].
  destruct (rfind_byte c s) as [j|] eqn:R.
  - injection H as <-. destruct (IH j eq_refl) as (A & B & L). cbn [firstn skipn app length]. split; [f_equal; exact A|]. split; [exact B|lia].
  - destruct (byte_eqb x c) eqn:Q; [|discriminate]. injection H as <-. apply byte_eqb_eq in Q as ->. cbn [firstn skipn app length].
    split; [reflexivity|]. split; [apply rfind_none, R|lia].
Qed.
Lemma find_none : forall c s, find_byte c s = None <-> free c s.
Proof.
  induction s as [|x s IH]; cbn [find_byte]; [split; [intros _ []|reflexivity]|]. destruct (byte_eqb x c) eqn:Q.
  - apply byte_eqb_eq in Q as ->. split; [discriminate|]. intros F. exfalso. apply F. left. reflexivity.
  - destruct (find_byte c s).
    + split; [discriminate|]. intros F. assert (free c s) as F' by (intros Z; apply F; right; exact Z). apply IH in F'. discriminate.
    + split; [|reflexivity]. intros _ [->|H]; [rewrite (proj2 (byte_eqb_eq c c) eq_refl) in Q; discriminate|]. apply (proj1 IH eq_refl), H.
Qed.
Lemma find_app : forall c a b, free c a -> find_byte c (a ++ c :: b) = Some (length a).
Proof.
  induction a as [|x a IH]; intros b F; cbn [app find_byte length].
  - rewrite (proj2 (byte_eqb_eq c c) eq_refl). reflexivity.
  - destruct (byte_eqb x c) eqn:Q; [apply byte_eqb_eq in Q as ->; exfalso; apply F; left; reflexivity|].
    rewrite IH; [reflexivity|]. intros H. apply F. right. exact H.
Qed.

Lemma skip_sep : forall (c : byte) a b, skipn (S (length a)) (a ++ c :: b) = b.
Proof. induction a as [|x a IH]; intros b; [reflexivity|]. cbn [length app]. rewrite skipn_cons. apply IH. Qed.
Lemma first_sep : forall (c : byte) a b, firstn (length a) (a ++ c :: b) = a.
Proof. induction a as [|x a IH]; intros b; [reflexivity|]. cbn [length app firstn]. rewrite IH. reflexivity. Qed.

(** ** Splitting and joining *)
Lemma join_cons : forall c x y l, join c (x :: y :: l) = x ++ c :: join c (y :: l).
Proof. reflexivity. Qed.
Lemma split_free : forall c s, free c s -> split_on c s = [s].
Proof.
  induction s as [|x s IH]; intros F; [reflexivity|]. cbn [split_on]. destruct (byte_eqb x c) eqn:Q.
  - apply byte_eqb_eq in Q as ->. exfalso. apply F. left. reflexivity.
  - rewrite IH; [reflexivity|]. intros H. apply F. right. exact H.
Qed.
Lemma split_app : forall c a b, free c a -> split_on c (a ++ c :: b) = a :: split_on c b.
Proof.
  induction a as [|x a IH]; intros b F; cbn [app split_on].
  - rewrite (proj2 (byte_eqb_eq c c) eq_refl). reflexivity.
  - destruct (byte_eqb x c) eqn:Q; [apply byte_eqb_eq in Q as ->; exfalso; apply F; left; reflexivity|].
    rewrite IH; [reflexivity|]. intros H. apply F. right. exact H.
Qed.
Lemma split_join : forall c l, l <> [] -> Forall (free c) l -> split_on c (join c l) = l.
Proof.
  induction l as [|x l IH]; intros N F; [contradiction|]. inversion F as [|? ? F1 F2]; subst. destruct l as [|y l].
  - apply split_free, F1.
  - rewrite join_cons, split_app by exact F1. rewrite IH by (assumption || discriminate). reflexivity.
Qed.
Lemma filter_nonempty : forall l, filter nonempty l = filter (fun p => negb (bytes_eqb p [])) l.
Proof. intros l. apply filter_ext. intros [|x p]; reflexivity. Qed.
Lemma split_nonempty : forall c s, split_on c s <> [].
Proof. intros c [|x s]; cbn [split_on]; [discriminate|]. destruct (byte_eqb x c); [discriminate|]. destruct (split_on c s); discriminate. Qed.
Lemma split_pieces : forall c s, Forall (free c) (split_on c s).
Proof.
  induction s as [|x s IH]; cbn [split_on]; [constructor; [intros []|constructor]|]. destruct (byte_eqb x c) eqn:Q.
  - constructor; [intros []|exact IH].
  - destruct (split_on c s) as [|p ps] eqn:SP.
    + constructor; [|constructor]. intros [->|[]]. rewrite (proj2 (byte_eqb_eq c c) eq_refl) in Q. discriminate.
    + inversion IH; subst. constructor; [|assumption]. intros [->|H]; [rewrite (proj2 (byte_eqb_eq c c) eq_refl) in Q; discriminate|contradiction].
Qed.
Lemma join_split : forall c s, join c (split_on c s) = s.
Proof.
  induction s as [|x s IH]; [reflexivity|]. cbn [split_on]. pose proof (split_nonempty c s) as NE. destruct (byte_eqb x c) eqn:Q.
  - apply byte_eqb_eq in Q as ->. destruct (split_on c s) as [|p ps]; [contradiction|]. rewrite join_cons, IH. reflexivity.
  - destruct (split_on c s) as [|p [|q ps]]; [contradiction|cbn [join] in *; congruence|]. rewrite join_cons in *. cbn [app]. congruence.
Qed.
Lemma join_app_last : forall c l x, l <> [] -> join c (l ++ [x]) = join c l ++ c :: x.
Proof.
  induction l as [|y l IH]; intros x N; [contradiction|]. destruct l as [|z l]; [reflexivity|].
  change ((y :: z :: l) ++ [x]) with (y :: z :: (l ++ [x])). rewrite join_cons. change (z :: l ++ [x]) with ((z :: l) ++ [x]).
  rewrite IH by discriminate. rewrite join_cons. rewrite <- app_assoc. reflexivity.
Qed.

(** ** Parameters *)
Lemma find_first : forall params k v, mm_find k params = Some v <-> first_value params k v.
Proof.
  induction params as [|[k0 v0] params IH]; intros k v; cbn [mm_find].
  - split; [discriminate|]. intros (a & b & Q & _). destruct a; discriminate.
  - destruct (bytes_eqb k k0) eqn:Q.
    + apply bytes_eqb_eq in Q as <-. split.
      * intros H. injection H as <-. exists [], params. split; [reflexivity|intros []].
      * intros (a & b & Q & N). destruct a as [|[k1 v1] a]; [injection Q as <- <-; reflexivity|]. injection Q as <- <- _. exfalso. apply N. left. reflexivity.
    + apply bytes_eqb_neq in Q. rewrite IH. split; intros (a & b & Z & N).
      * exists ((k0, v0) :: a), b. subst. split; [reflexivity|]. intros [H|H]; [cbn in H; congruence|contradiction].
      * destruct a as [|[k1 v1] a]; [injection Z as <- <- <-; contradiction|]. injection Z as <- <- ->. exists a, b. split; [reflexivity|].
        intros H. apply N. right. exact H.
Qed.
Lemma find_none_keys : forall params k, mm_find k params = None <-> ~ In k (map fst params).
Proof.
  induction params as [|[k0 v0] params IH]; intros k; cbn [mm_find map fst]; [split; [intros _ []|reflexivity]|].
  destruct (bytes_eqb k k0) eqn:Q.
  - apply bytes_eqb_eq in Q as <-. split; [discriminate|]. intros N. exfalso. apply N. left. reflexivity.
  - apply bytes_eqb_neq in Q. rewrite IH. split; intros N; [intros [H|H]; [congruence|contradiction]|intros H; apply N; right; exact H].
Qed.
Lemma all_in : forall params k v, In v (mm_all k params) <-> In (k, v) params.
Proof.
  induction params as [|[k0 v0] params IH]; intros k v; cbn [mm_all]; [reflexivity|]. destruct (bytes_eqb k k0) eqn:Q.
  - apply bytes_eqb_eq in Q as <-. cbn [In]. rewrite IH. split; intros [H|H]; auto; left; congruence.
  - apply bytes_eqb_neq in Q. rewrite IH. cbn [In]. split; [auto|]. intros [H|H]; [congruence|exact H].
Qed.
Lemma existsb_eq_in : forall v l, existsb (bytes_eqb v) l = true <-> In v l.
Proof.
  intros v l. rewrite existsb_exists. split.
  - intros (x & H & Q). apply bytes_eqb_eq in Q as ->. exact H.
  - intros H. exists v. split; [exact H|apply bytes_eqb_refl].
Qed.

(** ** The param and hash functions *)
Lemma quoted_literal : forall item lit, quoted item = Some lit <-> literal item lit.
Proof.
  intros item lit. unfold quoted, literal. change x22 with QUOTE. destruct item as [|q rest].
  - split; [discriminate|]. intros Q. discriminate.
  - destruct (rev rest) as [|q2 m] eqn:R.
    + apply (f_equal (@rev byte)) in R. rewrite rev_involutive in R. subst. split; [discriminate|]. intros Q. apply (f_equal (@length byte)) in Q.
      cbn [app length] in Q. rewrite app_length in Q. cbn in Q. lia.
    + apply (f_equal (@rev byte)) in R. rewrite rev_involutive in R. cbn [rev] in R. subst rest.
      destruct (byte_eqb q QUOTE) eqn:A; [destruct (byte_eqb q2 QUOTE) eqn:B|]; cbn [andb].
      * apply byte_eqb_eq in A as ->. apply byte_eqb_eq in B as ->. split; [intros H; injection H as <-; reflexivity|].
        intros H. cbn [app] in H. injection H as H. apply app_inj_tail in H as [-> _]. reflexivity.
      * split; [discriminate|]. intros H. cbn [app] in H. injection H as -> H. apply app_inj_tail in H as [_ ->].
        rewrite (proj2 (byte_eqb_eq QUOTE QUOTE) eq_refl) in B. discriminate.
      * split; [discriminate|]. intros H. cbn [app] in H. injection H as -> H.
        rewrite (proj2 (byte_eqb_eq QUOTE QUOTE) eq_refl) in A. discriminate.
Qed.

Definition text_of (params : mmap) (item : bytes) : option bytes :=
  match quoted item with
  | Some lit => Some lit
  | None => match mm_find item params with Some (x :: v) => Some (x :: v) | _ => None end
  end.
Lemma text_of_iff : forall params item text, text_of params item = Some text <-> item_text params item text.
Proof.
  intros params item text. unfold text_of. destruct (quoted item) as [lit|] eqn:Q.
  - pose proof (proj1 (quoted_literal item lit) Q) as L. split.
    + intros H. injection H as <-. apply text_literal, L.
    + intros [l H|v N _ _]; [apply quoted_literal in H; congruence|destruct (N _ L)].
  - assert (NL : forall l, ~ literal item l) by (intros l H; apply quoted_literal in H; congruence). split.
    + destruct (mm_find item params) as [[|x v]|] eqn:F; try discriminate. intros H. injection H as <-.
      apply text_value; [exact NL|apply find_first, F|discriminate].
    + intros [l H|v _ F N]; [destruct (NL _ H)|]. apply find_first in F. rewrite F. destruct v; [contradiction|reflexivity].
Qed.
Lemma assign_param_eq : forall E fmt params, assign_param E fmt params =
  match fmt with
  | [] => Ok (Some [])
  | item :: fmt' => match text_of params item with
                    | Some text => do n <- of_opt (o_of_uri E text); do r <- assign_param E fmt' params; Ok (option_map (app n) r)
                    | None => Ok None
                    end
  end.
Proof. intros E [|item fmt] params; reflexivity. Qed.

Lemma assign_param_cases : forall E params fmt,
  (exists n, assign_param E fmt params = Ok (Some n) /\ param_name E params fmt n) \/
  (assign_param E fmt params = Ok None /\ param_missing E params fmt) \/
  (assign_param E fmt params = Exn /\ param_throws E params fmt).
Proof.
  induction fmt as [|item fmt IH]; rewrite assign_param_eq; [left; exists []; split; [reflexivity|constructor]|].
  destruct (text_of params item) as [text|] eqn:T.
  - apply text_of_iff in T. destruct (o_of_uri E text) as [n|] eqn:U; cbn [of_opt bind].
    + destruct IH as [(m & -> & P)|[[-> P]|[-> P]]]; cbn [bind option_map].
      * left. exists (n ++ m). split; [reflexivity|]. eapply pn_item; eauto.
      * right. left. split; [reflexivity|]. eapply pm_later; eauto.
      * right. right. split; [reflexivity|]. eapply pt_later; eauto.
    + right. right. split; [reflexivity|]. eapply pt_here; eauto.
  - right. left. split; [reflexivity|]. apply pm_here. intros text H. apply text_of_iff in H. congruence.
Qed.
Lemma item_text_fun : forall params item a b, item_text params item a -> item_text params item b -> a = b.
Proof. intros params item a b A B. apply text_of_iff in A. apply text_of_iff in B. congruence. Qed.
Lemma param_name_fun : forall E params fmt n m, param_name E params fmt n -> param_name E params fmt m -> n = m.
Proof.
  intros E params fmt n m A. revert m. induction A as [|item text n fmt m T U A IH]; intros m' B; inversion B; subst; [reflexivity|].
  match goal with H : item_text params item ?t |- _ => pose proof (item_text_fun _ _ _ _ T H); subst end. f_equal; [congruence|auto].
Qed.
Lemma param_missing_not : forall E params fmt n, param_name E params fmt n -> ~ param_missing E params fmt.
Proof.
  intros E params fmt n A. induction A as [|item text n fmt m T U A IH]; intros B; inversion B; subst; [|auto].
  match goal with H : forall t, ~ item_text _ _ t |- _ => exact (H _ T) end.
Qed.
Lemma param_throws_not : forall E params fmt n, param_name E params fmt n -> ~ param_throws E params fmt.
Proof.
  intros E params fmt n A. induction A as [|item text n fmt m T U A IH]; intros B; inversion B; subst; [|auto].
  match goal with H : item_text params item ?t |- _ => pose proof (item_text_fun _ _ _ _ T H); subst end. congruence.
Qed.
Lemma param_throws_missing : forall E params fmt, param_throws E params fmt -> ~ param_missing E params fmt.
Proof.
  intros E params fmt A. induction A as [item text fmt T U|item text n fmt T U A IH]; intros B; inversion B; subst; auto;
    try match goal with H : forall t, ~ item_text _ _ t |- _ => exact (H _ T) end.
  match goal with H : item_text params item ?t |- _ => pose proof (item_text_fun _ _ _ _ T H); subst end. congruence.
Qed.

Lemma assign_param_throws : forall E params fmt, assign_param E fmt params = Exn <-> param_throws E params fmt.
Proof.
  intros E params fmt. destruct (assign_param_cases E params fmt) as [(m & -> & P)|[[-> P]|[-> P]]]; split; intros H; try discriminate; auto.
  - destruct (param_throws_not _ _ _ _ P H).
  - destruct (param_throws_missing _ _ _ H P).
Qed.

Lemma assign_hash_name : forall E params fmt n, assign_hash E fmt params = Some n <-> hash_name E params fmt n.
Proof.
  unfold hash_name. induction fmt as [|item fmt IH]; intros n; cbn [assign_hash].
  - split; [intros H; injection H as <-; constructor|]. intros H. inversion H. reflexivity.
  - destruct (mm_find item params) as [v|] eqn:F.
    + apply find_first in F. destruct (assign_hash E fmt params) as [m|] eqn:A; cbn [option_map].
      * split.
        -- intros H. injection H as <-. constructor; [exists v; auto|apply IH; reflexivity].
        -- intros H. inversion H as [|? c ? m' (v' & F' & ->) H2]; subst. apply find_first in F'. apply find_first in F. rewrite F in F'. injection F' as <-.
           apply IH in H2. injection H2 as ->. reflexivity.
      * split; [discriminate|]. intros H. inversion H as [|? c ? m' _ H2]; subst. apply IH in H2. discriminate.
    + split; [discriminate|]. intros H. inversion H as [|? c ? m' (v' & F' & _) H2]; subst. apply find_first in F'. congruence.
Qed.
Lemma assign_hash_none : forall E params fmt, assign_hash E fmt params = None <-> exists k, In k fmt /\ ~ In k (map fst params).
Proof.
  induction fmt as [|item fmt IH]; cbn [assign_hash].
  - split; [discriminate|]. intros (k & [] & _).
  - destruct (mm_find item params) as [v|] eqn:F.
    + assert (In item (map fst params)) as I.
      { apply find_first in F as (a & b & -> & _). rewrite map_app. apply in_or_app. right. left. reflexivity. }
      destruct (assign_hash E fmt params) as [m|]; cbn [option_map].
      * split; [discriminate|]. intros (k & [<-|H] & N); [contradiction|]. enough (Some m = None) by discriminate. apply IH. exists k. auto.
      * split; [|reflexivity]. intros _. destruct (proj1 IH eq_refl) as (k & H & N). exists k. split; [right; exact H|exact N].
    + apply find_none_keys in F. split; [|reflexivity]. intros _. exists item. split; [left; reflexivity|exact F].
Qed.

(** ** The email function *)
(** The loop on a domain given by its labels. *)
Lemma email_loop_labels : forall labels fmt fuel, Forall (free DOT) labels -> labels <> [] -> (length (DOT :: join DOT labels) <= fuel)%nat ->
  exists ks, kept (rev labels) fmt ks /\ email_loop fuel (DOT :: join DOT labels) fmt = map (fun b => gc (cstr b)) ks.
Proof.
  intros labels. induction labels as [|lab labels IH] using rev_ind; intros fmt fuel F NE L; [contradiction|].
  apply Forall_app in F as [F1 F2]. inversion F2 as [|? ? F3 _]; subst. rewrite rev_app_distr. cbn [rev app].
  assert (exists rest, DOT :: join DOT (labels ++ [lab]) = rest ++ DOT :: lab /\
    (labels = [] /\ rest = [] \/ labels <> [] /\ rest = DOT :: join DOT labels)) as (rest & EQr & R).
  { destruct labels as [|l0 ls]; [exists []; split; [reflexivity|auto]|]. exists (DOT :: join DOT (l0 :: ls)).
    split; [rewrite join_app_last by discriminate; reflexivity|right; split; [discriminate|reflexivity]]. }
  rewrite EQr in *. destruct fuel as [|fuel]; [rewrite app_length in L; cbn in L; lia|]. cbn [email_loop]. rewrite rfind_app by exact F3.
  rewrite skip_sep, first_sep.
  rewrite app_length in L. cbn [length] in L.
  assert (NX : forall fmt', exists ks, kept (rev labels) fmt' ks /\ email_loop fuel rest fmt' = map (fun b => gc (cstr b)) ks).
  { intros fmt'. destruct R as [[-> ->]|[N ->]].
    - exists []. split; [constructor|]. destruct fuel; reflexivity.
    - apply IH; [exact F1|exact N|lia]. }
  destruct fmt as [|x fmt].
  - destruct (NX []) as (ks & K & ->). exists (lab :: ks). split; [|reflexivity]. apply kept_keep; [discriminate|exact K].
  - destruct (bytes_eqb lab x) eqn:Q.
    + apply bytes_eqb_eq in Q as ->. destruct (NX fmt) as (ks & K & ->). exists ks. split; [|reflexivity]. apply kept_drop, K.
    + apply bytes_eqb_neq in Q. destruct (NX (x :: fmt)) as (ks & K & ->). exists (lab :: ks). split; [|reflexivity].
      apply kept_keep; [cbn; congruence|exact K].
Qed.
Lemma kept_fun : forall ls fmt a b, kept ls fmt a -> kept ls fmt b -> a = b.
Proof.
  intros ls fmt a b A. revert b. induction A as [fmt|l ls fmt ks A IH|l ls fmt ks N A IH]; intros b B; inversion B; subst; auto.
  - cbn in *. congruence.
  - cbn in *. congruence.
  - f_equal. auto.
Qed.
(** More fuel changes nothing. *)
Lemma email_loop_fuel : forall d fmt f1 f2, (length d <= f1)%nat -> (length d <= f2)%nat -> email_loop f1 d fmt = email_loop f2 d fmt.
Proof.
  intros d. remember (length d) as k eqn:K. revert d K. induction k as [k IH] using lt_wf_ind. intros d -> fmt f1 f2 L1 L2.
  destruct f1 as [|f1], f2 as [|f2]; try (destruct d; [|cbn in *; lia]); try reflexivity. cbn [email_loop].
  destruct (rfind_byte DOT d) as [i|] eqn:R; [|reflexivity]. destruct (rfind_split _ _ _ R) as (_ & _ & LT).
  assert (length (firstn i d) = i) as FL by (rewrite firstn_length; lia).
  assert (NX : forall fmt', email_loop f1 (firstn i d) fmt' = email_loop f2 (firstn i d) fmt').
  { intros fmt'. apply (IH (length (firstn i d))); rewrite ?FL; [exact LT|reflexivity|lia|lia]. }
  destruct fmt as [|x fmt]; [rewrite NX; reflexivity|]. destruct (bytes_eqb _ x); rewrite ?NX; reflexivity.
Qed.

Lemma assign_email_name : forall fmt k addr rest n, fmt <> [] -> In (bs "email") (map fst ((k, addr) :: rest)) ->
  (assign_email fmt ((k, addr) :: rest) = Some n <-> email_name fmt addr n).
Proof.
  intros fmt k addr rest n NF IN. unfold assign_email. destruct fmt as [|f0 fmt0] eqn:FE; [contradiction|]. rewrite <- FE in *. clear FE NF.
  destruct (mm_find (bs "email") ((k, addr) :: rest)) as [v|] eqn:F; [|apply find_none_keys in F; contradiction]. clear v F.
  destruct (rfind_byte AT addr) as [[|j]|] eqn:R.
  - split; [discriminate|]. intros (loc & labels & ks & -> & NL & NE & FA & _). cbn [app] in R; rewrite rfind_app in R by exact FA. injection R as R. destruct loc; [contradiction|discriminate].
  - destruct (rfind_split _ _ _ R) as (EQ & FA & LT). set (dom := skipn (S (S j)) addr) in *. set (loc := firstn (S j) addr) in *.
    pose proof (email_loop_labels (split_on DOT dom) fmt (length (DOT :: dom)) (split_pieces _ _) (split_nonempty _ _)) as EL.
    rewrite join_split in EL. destruct (EL (le_n _)) as (ks & K & ->).
    replace (map (fun b => gc (cstr b)) ks ++ [gc (cstr loc)]) with (map (fun b => gc (cstr b)) (ks ++ [loc])) by (rewrite map_app; reflexivity).
    assert (NL : loc <> []) by (unfold loc; destruct addr; discriminate). split.
    + intros H. injection H as <-. exists loc, (split_on DOT dom), ks. rewrite join_split.
      split; [exact EQ|]. split; [exact NL|]. split; [apply split_nonempty|]. split; [exact FA|]. split; [apply split_pieces|]. split; [exact K|reflexivity].
    + intros (loc' & labels & ks' & EQ' & NL' & NE & FA' & FD & K' & ->).
      assert (length loc = length loc') as LL.
      { pose proof R as R2. rewrite EQ' in R2. cbn [app] in R2. rewrite rfind_app in R2 by exact FA'. injection R2 as R2.
        rewrite R2. unfold loc. rewrite firstn_length. lia. }
      assert (loc = loc' /\ dom = join DOT labels) as [<- D].
      { rewrite EQ in EQ'. apply app_inv_head_iff || idtac. clear - EQ' LL. revert loc' EQ' LL. induction loc as [|a l IH]; intros [|b l'] EQ' LL; try discriminate.
        - injection EQ' as Q. auto.
        - cbn [app] in EQ'. injection EQ' as -> Q. injection LL as LL. destruct (IH l' Q LL) as [-> D]. auto. }
      rewrite D, split_join in K by assumption. rewrite (kept_fun _ _ _ _ K K'). reflexivity.
  - split; [discriminate|]. intros (loc & labels & ks & -> & NL & NE & FA & _). cbn [app] in R; rewrite rfind_app in R by exact FA. discriminate.
Qed.
Lemma assign_email_absent : forall fmt params, fmt = [] \/ ~ In (bs "email") (map fst params) -> assign_email fmt params = None.
Proof.
  intros fmt params [->|N]; [reflexivity|]. apply find_none_keys in N. unfold assign_email. rewrite N. destruct fmt; reflexivity.
Qed.

(** ** Redirection policies *)
Lemma redirecting_iff : forall p params, is_redirecting p params = true <-> redirects_to p params.
Proof.
  intros [pairs|dom] params; cbn [is_redirecting redirects_to]; change "@"%byte with AT.
  - rewrite forallb_forall. split.
    + intros H k v IN. specialize (H (k, v) IN). cbn [fst snd] in H. apply existsb_eq_in in H. apply all_in, H.
    + intros H [k v] IN. cbn [fst snd]. apply existsb_eq_in, all_in, H, IN.
  - rewrite existsb_exists. split.
    + intros (v & IN & M). apply all_in in IN. destruct (rfind_byte AT v) as [i|] eqn:R; [|discriminate]. apply bytes_eqb_eq in M.
      destruct (rfind_split _ _ _ R) as (EQ & FA & _). rewrite M in *. split; [exact FA|]. exists (firstn i v). cbn [app]. rewrite <- EQ. exact IN.
    + intros (FA & loc & IN). exists (loc ++ [AT] ++ dom). split; [apply all_in, IN|]. cbn [app]. rewrite rfind_app by exact FA.
      rewrite skip_sep. apply bytes_eqb_refl.
Qed.
Lemma mm_insert_in : forall k v m x, In x (mm_insert k v m) <-> x = (k, v) \/ In x m.
Proof.
  induction m as [|[k1 v1] m IH]; intros x; cbn [mm_insert]; [cbn; intuition|]. destruct (bytes_ltb k k1); cbn [In]; [intuition|]. rewrite IH. intuition.
Qed.
Lemma loop_pairs : forall pairs m, Forall (fun kv => free EQ (fst kv)) pairs ->
  exists m', redirect_param_loop (map (fun kv => fst kv ++ [EQ] ++ snd kv) pairs) m = Ok m' /\ forall x, In x m' <-> In x pairs \/ In x m.
Proof.
  induction pairs as [|[k v] pairs IH]; intros m F; cbn [map redirect_param_loop]; [exists m; split; [reflexivity|cbn; intuition]|].
  inversion F as [|? ? F1 F2]; subst. cbn [fst snd app] in *. rewrite find_app by exact F1.
  rewrite first_sep, skip_sep.
  destruct (IH (mm_insert k v m) F2) as (m' & A & B). exists m'. split; [exact A|]. intros x. rewrite B, mm_insert_in. cbn [In]. intuition.
Qed.
Lemma join_nonempty : forall c l, (exists x, In x l /\ x <> []) -> join c l <> [].
Proof.
  induction l as [|y l IH]; intros (x & IN & N); [destruct IN|]. destruct l as [|z l].
  - destruct IN as [->|[]]. exact N.
  - rewrite join_cons. intros Q. apply app_eq_nil in Q as [_ Q]. discriminate.
Qed.
Lemma param_policy : forall pairs, pairs <> [] ->
  Forall (fun kv => free EQ (fst kv) /\ free AMP (fst kv) /\ free AMP (snd kv)) pairs ->
  exists p, create_policy (bs "param") (join AMP (map (fun kv => fst kv ++ [EQ] ++ snd kv) pairs)) = Ok (Some p) /\
    forall params, is_redirecting p params = true <-> (forall k v, In (k, v) pairs -> In (k, v) params).
Proof.
  intros pairs NE F. unfold create_policy. change (bytes_eqb (bs "param") (bs "param")) with true. cbn match.
  set (pieces := map (fun kv => fst kv ++ [EQ] ++ snd kv) pairs).
  assert (FP : Forall (free AMP) pieces).
  { unfold pieces. apply Forall_forall. intros x H. apply in_map_iff in H as ([k v] & <- & IN). rewrite Forall_forall in F. specialize (F _ IN). cbn [fst snd] in *.
    destruct F as (_ & A & B). intros H. apply in_app_or in H as [H|H]; [contradiction|]. destruct H as [H|H]; [discriminate|contradiction]. }
  assert (PN : pieces <> []) by (unfold pieces; destruct pairs; [contradiction|discriminate]).
  assert (JN : join AMP pieces <> []).
  { apply join_nonempty. destruct pairs as [|[k v] ps]; [contradiction|]. exists (k ++ [EQ] ++ v). split; [left; reflexivity|]. destruct k; discriminate. }
  unfold redirect_param_ctor. destruct (join AMP pieces) as [|b0 b1] eqn:J; [contradiction|]. rewrite <- J, split_join by assumption.
  destruct (loop_pairs pairs []) as (m & A & B). { eapply Forall_impl; [|exact F]. cbn. intuition. }
  fold pieces in A. rewrite A. cbn [bind]. exists (PParam m). split; [reflexivity|]. intros params. rewrite redirecting_iff. cbn [redirects_to].
  split; intros H k v IN; apply H; [apply B; left; exact IN|apply B in IN as [IN|[]]; exact IN].
Qed.
Lemma loop_illformed : forall pieces m, Exists (free EQ) pieces -> redirect_param_loop pieces m = Exn.
Proof.
  induction pieces as [|s ps IH]; intros m H; [inversion H|]. cbn [redirect_param_loop]. destruct (find_byte EQ s) as [i|] eqn:F; [|reflexivity].
  apply IH. inversion H as [? ? H0|? ? H0]; subst; [apply find_none in H0; congruence|exact H0].
Qed.
Lemma param_policy_illformed : forall pieces, pieces <> [] -> join AMP pieces <> [] -> Forall (free AMP) pieces -> Exists (free EQ) pieces ->
  create_policy (bs "param") (join AMP pieces) = Exn.
Proof.
  intros pieces NE JN F X. unfold create_policy. change (bytes_eqb (bs "param") (bs "param")) with true. cbn match.
  unfold redirect_param_ctor. destruct (join AMP pieces) as [|b0 b1] eqn:J; [contradiction|]. rewrite <- J, split_join by assumption.
  rewrite loop_illformed by exact X. reflexivity.
Qed.
Lemma empty_param_policy : create_policy (bs "param") [] = Ok (Some (PParam [])) /\ forall params, is_redirecting (PParam []) params = true.
Proof. split; reflexivity. Qed.
Lemma email_policy : forall dom, exists p, create_policy (bs "email") dom = Ok (Some p) /\
  forall params, is_redirecting p params = true <-> (free AT dom /\ exists loc, In (bs "email", loc ++ [AT] ++ dom) params).
Proof. intros dom. exists (PEmail dom). split; [reflexivity|]. intros params. apply (redirecting_iff (PEmail dom)). Qed.
Lemma unknown_policy : forall type format, type <> bs "param" -> type <> bs "email" -> create_policy type format = Ok None.
Proof. intros type format A B. unfold create_policy. apply bytes_eqb_neq in A. apply bytes_eqb_neq in B. rewrite A, B. reflexivity. Qed.

(** ** Configured functions and PROBE *)
Lemma targets_iff : forall E params l ns, redirects E l params = Ok ns <-> targets E params l ns.
Proof.
  induction l as [|[oc p] l IH]; intros ns; cbn [redirects].
  - split; [intros H; injection H as <-; constructor|]. intros H. inversion H. reflexivity.
  - destruct (is_redirecting p params) eqn:R.
    + pose proof (proj1 (redirecting_iff p params) R) as M. destruct oc as [c|].
      * destruct (redirects E l params) as [ms| | |] eqn:L; cbn [bind].
        -- split; [intros H; injection H as <-; apply tg_hit; [exact M|apply IH; reflexivity]|]. intros H. inversion H; subst; [|contradiction].
           match goal with H : targets _ _ _ _ |- _ => apply IH in H end. congruence.
        -- split; [discriminate|]. intros H. inversion H; subst; [|contradiction]. match goal with H : targets _ _ _ _ |- _ => apply IH in H end. discriminate.
        -- split; [discriminate|]. intros H. inversion H; subst; [|contradiction]. match goal with H : targets _ _ _ _ |- _ => apply IH in H end. discriminate.
        -- split; [discriminate|]. intros H. inversion H; subst; [|contradiction]. match goal with H : targets _ _ _ _ |- _ => apply IH in H end. discriminate.
      * split; [discriminate|]. intros H. inversion H; subst. contradiction.
    + assert (M : ~ redirects_to p params) by (intros H; apply redirecting_iff in H; congruence). rewrite IH. split.
      * intros H. apply tg_miss; assumption.
      * intros H. inversion H; subst; [contradiction|assumption].
Qed.
Lemma redirects_not_exn : forall E params l, redirects E l params <> Exn.
Proof.
  induction l as [|[oc p] l IH]; cbn [redirects]; [discriminate|].
  destruct (is_redirecting p params); [|exact IH]. destruct oc as [c|]; [|discriminate].
  destruct (redirects E l params); try discriminate. contradiction.
Qed.
Lemma assign_name_offers : forall E params w a ns, assign_name E a w params = Ok ns <-> offers1 E params w a ns.
Proof.
  intros E params w [kind fmt] ns. unfold assign_name. cbn [a_kind a_format]. destruct kind.
  - destruct (assign_param_cases E params fmt) as [(m & -> & P)|[[-> P]|[-> P]]]; cbn [bind].
    + split; [intros H; injection H as <-; apply of_param, P|]. intros H. inversion H; subst.
      * match goal with H : param_name _ _ _ _ |- _ => rewrite (param_name_fun _ _ _ _ _ P H) end. reflexivity.
      * destruct (param_missing_not _ _ _ _ P H1).
    + split; [intros H; injection H as <-; apply of_param_none, P|]. intros H. inversion H; subst; [|reflexivity].
      match goal with H : param_name _ _ _ _ |- _ => destruct (param_missing_not _ _ _ _ H P) end.
    + split; [discriminate|]. intros H. inversion H; subst.
      * match goal with H : param_name _ _ _ _ |- _ => destruct (param_throws_not _ _ _ _ H P) end.
      * destruct (param_throws_missing _ _ _ P H1).
  - destruct (assign_hash E fmt params) as [m|] eqn:A.
    + pose proof (proj1 (assign_hash_name _ _ _ _) A) as HN. split; [intros H; injection H as <-; apply of_hash, HN|].
      intros H. inversion H; subst.
      * match goal with H : hash_name _ _ _ _ |- _ => apply assign_hash_name in H end. congruence.
      * match goal with H : forall n, ~ hash_name _ _ _ n |- _ => destruct (H _ HN) end.
    + assert (HN : forall n, ~ hash_name E params fmt n) by (intros n H; apply assign_hash_name in H; congruence).
      split; [intros H; injection H as <-; apply of_hash_none, HN|]. intros H. inversion H; subst; [|reflexivity].
      match goal with H : hash_name _ _ _ ?n |- _ => destruct (HN _ H) end.
  - destruct (assign_email fmt params) as [m|] eqn:A.
    + assert (fmt <> [] /\ exists k addr rest, params = (k, addr) :: rest /\ In (bs "email") (map fst params)) as (NF & k & addr & rest & -> & IN).
      { unfold assign_email in A. destruct fmt as [|f0 f]; [discriminate|]. destruct (mm_find (bs "email") params) as [v|] eqn:F; [|discriminate].
        destruct params as [|[k addr] rest]; [discriminate|]. split; [discriminate|]. exists k, addr, rest. split; [reflexivity|].
        apply find_first in F as (a & b & -> & _). rewrite map_app. apply in_or_app. right. left. reflexivity. }
      pose proof (proj1 (assign_email_name fmt k addr rest m NF IN) A) as EN. split.
      * intros H. injection H as <-. exact (of_email E _ w fmt k addr rest m NF eq_refl IN EN).
      * intros H. inversion H as [| | | |fmt' k' addr' rest' n' NF' PQ IN' EN'|fmt' NO|]; subst.
        -- injection PQ as <- <- <-. apply (assign_email_name fmt k addr rest _ NF IN) in EN'. congruence.
        -- destruct (NO k addr rest m NF eq_refl IN EN).
    + split.
      * intros H. injection H as <-. apply of_email_none. intros k addr rest n NF -> IN EN. apply (assign_email_name fmt k addr rest n NF IN) in EN. congruence.
      * intros H. inversion H as [| | | |fmt' k' addr' rest' n' NF' PQ IN' EN'|fmt' NO|]; subst; [|reflexivity].
        apply (assign_email_name fmt k' addr' rest' _ NF' IN') in EN'. congruence.
  - split; [intros H; injection H as <-; apply of_random|]. intros H. inversion H; subst. reflexivity.
Qed.
Lemma assign_name_cases : forall E params w a, (exists ns, assign_name E a w params = Ok ns) \/
  (assign_name E a w params = Exn /\ a_kind a = AParam /\ param_throws E params (a_format a)).
Proof.
  intros E params w [kind fmt]. unfold assign_name. cbn [a_kind a_format]. destruct kind; [|left; eexists; reflexivity..].
  destruct (assign_param_cases E params fmt) as [(m & -> & P)|[[-> P]|[-> P]]]; cbn [bind]; [left; eexists; reflexivity..|].
  right. auto.
Qed.
Lemma suffixes_offers : forall E params l ws ns, suffixes E l ws params = Ok ns <-> offers E params l ws ns.
Proof.
  induction l as [|a l IH]; intros ws ns; cbn [suffixes].
  - split; [intros H; injection H as <-; constructor|]. intros H. inversion H. reflexivity.
  - assert (forall w ws', (do x <- assign_name E a w params; do r <- suffixes E l ws' params; Ok (x ++ r)) = Ok ns <->
        exists x r, offers1 E params w a x /\ offers E params l ws' r /\ ns = x ++ r) as G.
    { intros w ws'. split.
      - destruct (assign_name E a w params) as [x| | |] eqn:A; cbn [bind]; try discriminate.
        destruct (suffixes E l ws' params) as [r| | |] eqn:B; cbn [bind]; try discriminate. intros H. injection H as <-.
        exists x, r. split; [apply assign_name_offers, A|]. split; [apply IH, B|reflexivity].
      - intros (x & r & A & B & ->). apply assign_name_offers in A. rewrite A. cbn [bind]. apply IH in B. rewrite B. reflexivity. }
    destruct (a_kind a) eqn:K.
    4: { rewrite G. split.
         - intros (x & r & A & B & ->). apply of_cons_random; assumption.
         - intros H. inversion H; subst; [|contradiction]. eexists _, _. eauto. }
    all: rewrite G; split; [intros (x & r & A & B & ->); apply of_cons; [congruence|assumption..]|intros H; inversion H; subst; [congruence|]; eexists _, _; eauto].
Qed.
Lemma suffixes_cases : forall E params l ws, (exists ns, suffixes E l ws params = Ok ns) \/
  (suffixes E l ws params = Exn /\ exists fmt, In (Assign AParam fmt) l /\ param_throws E params fmt).
Proof.
  induction l as [|a l IH]; intros ws; cbn [suffixes]; [left; eexists; reflexivity|].
  assert (G : forall w ws', (exists ns, (do x <- assign_name E a w params; do r <- suffixes E l ws' params; Ok (x ++ r)) = Ok ns) \/
    ((do x <- assign_name E a w params; do r <- suffixes E l ws' params; Ok (x ++ r)) = Exn /\
     exists fmt, In (Assign AParam fmt) (a :: l) /\ param_throws E params fmt)).
  { intros w ws'. destruct (assign_name_cases E params w a) as [(x & ->)|(-> & K & T)]; cbn [bind].
    - destruct (IH ws') as [(r & ->)|(-> & fmt & IN & T)]; cbn [bind]; [left; eexists; reflexivity|].
      right. split; [reflexivity|]. exists fmt. split; [right; exact IN|exact T].
    - right. split; [reflexivity|]. exists (a_format a). split; [left; destruct a; cbn in *; congruence|exact T]. }
  destruct (a_kind a); apply G.
Qed.
