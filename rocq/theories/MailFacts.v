(** C102: the script that mails the codes. *)
From Verif Require Export Spec_Mail.
From Verif Require Import EmailFacts CryptoFacts.
Local Open Scope N_scope.

Lemma eqb_false : forall a b : byte, a <> b -> byte_eqb a b = false.
Proof. intros a b N. destruct (byte_eqb a b) eqn:Q; [|reflexivity]. apply byte_eqb_iff in Q. contradiction. Qed.

Lemma filled_format : forall code ca cert t s, filled code ca cert t s -> format t code ca cert = Some s.
Proof.
  intros code ca cert t s H.
  assert (X : exists l, format_pieces t FText = Some l /\ forall m, fill_pieces code ca cert l 0 m = Some s).
  { induction H as [|c t s N1 N2 _ (l & F & R)|t s _ (l & F & R)|t s _ (l & F & R)|t s _ (l & F & R)|t s _ (l & F & R)|t s _ (l & F & R)].
    - exists []. split; reflexivity.
    - exists (PText c :: l). cbn [format_pieces]. rewrite (eqb_false _ _ N1), (eqb_false _ _ N2), F. split; [reflexivity|]. intros m. cbn [fill_pieces]. rewrite R. reflexivity.
    - exists (PText x7b :: l). change (format_pieces (bs "{{" ++ t) FText) with (cons_piece (PText x7b) (format_pieces t FText)). rewrite F. split; [reflexivity|]. intros m. cbn [fill_pieces]. rewrite R. reflexivity.
    - exists (PText x7d :: l). change (format_pieces (bs "}}" ++ t) FText) with (cons_piece (PText x7d) (format_pieces t FText)). rewrite F. split; [reflexivity|]. intros m. cbn [fill_pieces]. rewrite R. reflexivity.
    - exists (PField (bs "0") :: l). change (format_pieces (bs "{0}" ++ t) FText) with (cons_piece (PField (bs "0")) (format_pieces t FText)). rewrite F. split; [reflexivity|]. intros m.
      change (fill_pieces code ca cert (PField (bs "0") :: l) 0 m) with (match fill_pieces code ca cert l 0 true with Some s => Some (code ++ s) | None => None end). rewrite R. reflexivity.
    - exists (PField (bs "1") :: l). change (format_pieces (bs "{1}" ++ t) FText) with (cons_piece (PField (bs "1")) (format_pieces t FText)). rewrite F. split; [reflexivity|]. intros m.
      change (fill_pieces code ca cert (PField (bs "1") :: l) 0 m) with (match fill_pieces code ca cert l 0 true with Some s => Some (ca ++ s) | None => None end). rewrite R. reflexivity.
    - exists (PField (bs "2") :: l). change (format_pieces (bs "{2}" ++ t) FText) with (cons_piece (PField (bs "2")) (format_pieces t FText)). rewrite F. split; [reflexivity|]. intros m.
      change (fill_pieces code ca cert (PField (bs "2") :: l) 0 m) with (match fill_pieces code ca cert l 0 true with Some s => Some (cert ++ s) | None => None end). rewrite R. reflexivity. }
  destruct X as (l & F & R). unfold format. rewrite F. apply R.
Qed.

Lemma cstr_plain : forall s, ~ In x00 s -> cstr s = s.
Proof.
  induction s as [|c s IH]; intros N; [reflexivity|]. cbn [cstr]. rewrite IH by (intros I; apply N; right; exact I).
  rewrite eqb_false; [reflexivity|]. intros ->. apply N. left. reflexivity.
Qed.
Lemma undashed : forall a, hd_error a <> Some "-"%byte -> bytes_eqb a (bs "--") = false /\ is_option a = false.
Proof.
  intros a N. destruct a as [|c a]; [split; reflexivity|]. assert (C : byte_eqb c x2d = false) by (apply eqb_false; intros ->; apply N; reflexivity).
  split; [destruct c; try reflexivity; discriminate C|destruct c; try reflexivity; discriminate C].
Qed.
Lemma undashed_positional : forall argv, Forall (fun a => hd_error a <> Some "-"%byte) argv -> positionals argv = Some argv.
Proof.
  induction 1 as [|a argv A _ IH]; [reflexivity|]. cbn [positionals]. destruct (undashed a A) as [-> ->]. rewrite IH. reflexivity.
Qed.
Lemma uri_no_nul : forall E n, codec_laws E -> ~ In x00 (o_to_uri E n).
Proof. intros E n L H. pose proof (l_uri_plain E L n) as P. rewrite forallb_forall in P. specialize (P _ H). vm_compute in P. discriminate. Qed.

Lemma code_digits : forall ws code, gen_code ws = Ok code -> forallb ascii_digit code = true /\ code <> [].
Proof.
  intros ws code H. apply gen_code_spec in H as (w & _ & _ & _ & k & _ & ->). unfold six_digits. split; [|discriminate].
  apply forallb_forall. intros c IN. apply in_map_iff in IN as (e & <- & IN).
  assert (X : forall d, d < 10 -> ascii_digit (byte_of_N (48 + d)) = true).
  { intros d D. destruct d as [|p]; [reflexivity|]. do 4 (destruct p as [p|p|]; try reflexivity; try lia). }
  apply X. repeat (destruct IN as [<-|IN]; [apply N.mod_upper_bound; discriminate|]). destruct IN.
Qed.

Lemma mails_code : forall E script addr ws code r mode server port user password from subject tt th text html, codec_laws E -> rooted_uris E ->
  script <> [] -> ~ In x22 script -> ~ In x20 script -> ~ In x22 addr -> ~ In x00 addr -> hd_error addr <> Some "-"%byte -> gen_code ws = Ok code ->
  filled code (o_to_uri E (rq_prefix r)) (o_to_uri E (c_name (rq_cert r))) tt text ->
  filled code (o_to_uri E (rq_prefix r)) (o_to_uri E (c_name (rq_cert r))) th html ->
  exists args before, build_args (email_command E script addr code r) = Ok (script :: args) /\
    mail_script (settings mode server port user password from subject tt th) args = before ++ [SSend from addr (Mail from addr subject text html); SClose] /\
    ~ Exists delivers before.
Proof.
  intros E script addr ws code r mode server port user password from subject tt th text html L RU S1 S2 S3 A1 A2 A3 GC FT FH.
  pose proof (email_args E script addr ws code r L S1 S2 S3 A1 GC) as B.
  exists [addr; code; o_to_uri E (rq_prefix r); o_to_uri E (c_name (rq_cert r))]. eexists. split; [exact B|].
  assert (CD : forallb ascii_digit code = true /\ code <> []) by exact (code_digits ws code GC). destruct CD as [CD CN].
  assert (C0 : ~ In x00 code) by (intros I; rewrite forallb_forall in CD; specialize (CD _ I); discriminate CD).
  assert (CH : hd_error code <> Some "-"%byte) by (destruct code as [|c code']; [discriminate|]; cbn [hd_error]; intros Q; injection Q as ->; discriminate CD).
  unfold mail_script. cbn [map]. rewrite (cstr_plain addr A2), (cstr_plain code C0), !(cstr_plain _ (uri_no_nul E _ L)).
  rewrite undashed_positional by (repeat constructor; [exact A3|exact CH|rewrite RU; discriminate|rewrite RU; discriminate]).
  cbn [settings mc_mode mc_server mc_port mc_user mc_password mc_from mc_subject mc_text mc_html]. rewrite (filled_format _ _ _ _ _ FT), (filled_format _ _ _ _ _ FH).
  unfold session. cbn [ml_from ml_to]. split; [rewrite !app_assoc; reflexivity|].
  intros X. apply Exists_exists in X as (a & IN & SA). apply in_app_or in IN as [IN|IN]; [apply in_app_or in IN as [[<-|[]]|IN]; [exact SA|]|].
  - destruct (bytes_eqb mode (bs "none")); [destruct IN|]. destruct IN as [<-|IN]; [exact SA|]. destruct (bytes_eqb mode (bs "tls")); [destruct IN as [<-|[]]; exact SA|destruct IN].
  - destruct user, password; try destruct IN as [<-|[]]; try exact SA; destruct IN.
Qed.

(** What the actions of the script are, whatever the arguments. *)
Lemma script_cases : forall k argv, mail_script k argv = [] \/ exists email secret ca cert mode server port user password from subject t h text html,
  positionals (map cstr argv) = Some [email; secret; ca; cert] /\ k = settings mode server port user password from subject t h /\
  mail_script k argv = session mode server port user password (Mail from email subject text html).
Proof.
  intros k argv. unfold mail_script. destruct (positionals (map cstr argv)) as [[|email [|secret [|ca [|cert [|? ?]]]]]|]; try (left; reflexivity).
  destruct k as [[mode|] [server|] [port|] [user|] [password|] [from|] [subject|] [t|] [h|]]; try (left; reflexivity).
  cbn [mc_mode mc_server mc_port mc_user mc_password mc_from mc_subject mc_text mc_html]. destruct (format t secret ca cert) as [text|]; [|left; reflexivity].
  destruct (format h secret ca cert) as [html|]; [|left; reflexivity]. right. exists email, secret, ca, cert, mode, server, port, user, password, from, subject, t, h, text, html.
  split; [reflexivity|]. split; reflexivity.
Qed.
Lemma positional_of : forall argv l a, positionals argv = Some l -> In a l -> In a argv.
Proof.
  induction argv as [|b argv IH]; intros l a P IN; cbn [positionals] in P; [injection P as <-; destruct IN|].
  destruct (bytes_eqb b (bs "--")); [injection P as <-; right; exact IN|]. destruct (is_option b); [discriminate|]. destruct (positionals argv) as [l'|] eqn:Q; [|discriminate].
  injection P as <-. destruct IN as [<-|IN]; [left; reflexivity|right; eauto].
Qed.

Lemma one_mail : forall k argv a from rcpt m b, mail_script k argv = a ++ SSend from rcpt m :: b ->
  ~ Exists delivers (a ++ b) /\ rcpt = ml_to m /\ from = ml_from m /\ mc_from k = Some from /\ mc_subject k = Some (ml_subject m) /\ exists arg, In arg argv /\ rcpt = cstr arg.
Proof.
  intros k argv a from rcpt m b H. destruct (script_cases k argv) as [Q|(email & secret & ca & cert & mode & server & port & user & password & from0 & subject & t & h & text & html & P & -> & Q)]; rewrite Q in H.
  { destruct a; discriminate. }
  set (m0 := Mail from0 email subject text html) in *.
  assert (X : exists pre, session mode server port user password m0 = pre ++ [SSend from0 email m0; SClose] /\ ~ Exists delivers pre).
  { unfold session. eexists. split; [rewrite !app_assoc; reflexivity|].
    intros X. apply Exists_exists in X as (x & IN & SA). apply in_app_or in IN as [IN|IN]; [apply in_app_or in IN as [[<-|[]]|IN]; [exact SA|]|].
    - destruct (bytes_eqb mode (bs "none")); [destruct IN|]. destruct IN as [<-|IN]; [exact SA|]. destruct (bytes_eqb mode (bs "tls")); [destruct IN as [<-|[]]; exact SA|destruct IN].
    - destruct user, password; try destruct IN as [<-|[]]; try exact SA; destruct IN. }
  destruct X as (pre & SQ & NS). rewrite SQ in H.
  assert (Y : a = pre /\ SSend from rcpt m = SSend from0 email m0 /\ b = [SClose]).
  { clear - H NS. revert a H NS. induction pre as [|p pre IH]; intros a H NS.
    - destruct a as [|x a]; [injection H as <- <- <- <-; auto|]. injection H as <- H. destruct a as [|y a]; [discriminate|]. injection H as <- H. destruct a; discriminate.
    - destruct a as [|x a].
      + exfalso. injection H as -> _. apply NS. left. exact I.
      + injection H as <- H. destruct (IH a H) as (-> & Q & ->); [intros Z; apply NS; right; exact Z|auto]. }
  destruct Y as (-> & Y & ->). injection Y as -> -> ->. split; [intros Z; apply Exists_app in Z as [Z|Z]; [exact (NS Z)|inversion Z as [? ? Z1|? ? Z1]; [destruct Z1|inversion Z1]]|].
  split; [reflexivity|]. split; [reflexivity|]. split; [reflexivity|]. split; [reflexivity|].
  pose proof (positional_of _ _ email P (or_introl eq_refl)) as IN. apply in_map_iff in IN as (arg & <- & IN). eauto.
Qed.

Lemma kept_private : forall k argv a x b, mc_mode k = Some (bs "ssl") \/ mc_mode k = Some (bs "tls") -> mail_script k argv = a ++ x :: b -> confidential x -> encrypted a.
Proof.
  intros k argv a x b MD H CF. destruct (script_cases k argv) as [Q|(email & secret & ca & cert & mode & server & port & user & password & from0 & subject & t & h & text & html & P & -> & Q)]; rewrite Q in H.
  { destruct a; discriminate. }
  destruct MD as [MD|MD]; injection MD as ->; unfold session in H.
  - destruct a as [|x0 a]; [injection H as <- _; destruct CF|]. injection H as <- _. right. exists server, port. left. reflexivity.
  - left. destruct a as [|x0 a]; [injection H as <- _; destruct CF|]. injection H as _ H. destruct a as [|x1 a]; [injection H as <- _; destruct CF|]. injection H as _ H.
    destruct a as [|x2 a]; [injection H as <- _; destruct CF|]. injection H as <- _. right. right. left. reflexivity.
Qed.

Lemma logs_in : forall k argv user password, In (SLogin user password) (mail_script k argv) -> mc_user k = Some user /\ mc_password k = Some password /\ user <> [] /\ password <> [].
Proof.
  intros k argv user password IN. destruct (script_cases k argv) as [Q|(email & secret & ca & cert & mode & server & port & user0 & password0 & from0 & subject & t & h & text & html & P & -> & Q)]; rewrite Q in IN; [destruct IN|].
  unfold session in IN. apply in_app_or in IN as [[IN|[]]|IN]; [discriminate|]. apply in_app_or in IN as [IN|IN].
  - destruct (bytes_eqb mode (bs "none")); [destruct IN|]. destruct IN as [IN|IN]; [discriminate|]. destruct (bytes_eqb mode (bs "tls")); [destruct IN as [IN|[]]; discriminate|destruct IN].
  - apply in_app_or in IN as [IN|[IN|[IN|[]]]]; try discriminate. destruct user0, password0; [destruct IN..|destruct IN as [IN|[]]]. injection IN as <- <-. repeat split; discriminate.
Qed.

(** ** Exactly which mails are sent *)
Lemma pick_iff : forall a b c n v, pick a b c n = Some v <-> nth_value a b c n v.
Proof.
  intros a b c n v. unfold pick, nth_value. destruct (N.eqb_spec n 0) as [->|N0]; [split; [intros H; injection H as <-; auto|intros [[_ ->]|[[Q _]|[Q _]]]; [reflexivity|discriminate|discriminate]]|].
  destruct (N.eqb_spec n 1) as [->|N1]; [split; [intros H; injection H as <-; auto|intros [[Q _]|[[_ ->]|[Q _]]]; [discriminate|reflexivity|discriminate]]|].
  destruct (N.eqb_spec n 2) as [->|N2]; [split; [intros H; injection H as <-; auto|intros [[Q _]|[[Q _]|[_ ->]]]; [discriminate|discriminate|reflexivity]]|].
  split; [discriminate|]. intros [[Q _]|[[Q _]|[Q _]]]; contradiction.
Qed.
Lemma ascii_digit_iff : forall c, ascii_digit c = true <-> 48 <= Byte.to_N c <= 57.
Proof. intros c. unfold ascii_digit. rewrite in_range_iff. reflexivity. Qed.
Lemma digits_all : forall s, forallb ascii_digit s = true <-> all_digits s.
Proof. intros s. unfold all_digits. rewrite forallb_forall, Forall_forall. split; intros H x I; apply ascii_digit_iff, H, I. Qed.

Lemma fold_ge : forall f n, n <= fold_left (fun n c => 10 * n + (Byte.to_N c - 48)) f n.
Proof. induction f as [|c f IH]; intros n; cbn [fold_left]; [reflexivity|]. eapply N.le_trans; [|apply IH]. lia. Qed.
Lemma index_small : forall f n, f <> [] -> n <= 2 ->
  (field_index f = Some n <-> exists zeros d, f = zeros ++ [d] /\ Forall (eq "0"%byte) zeros /\ Byte.to_N d = 48 + n).
Proof.
  intros f n NE LE. unfold field_index. split.
  - destruct (forallb ascii_digit f) eqn:D; [|discriminate]. intros H. injection H as H. apply digits_all in D.
    destruct (exists_last NE) as (z & d & ->). exists z, d. split; [reflexivity|]. rewrite fold_left_app in H. cbn [fold_left] in H.
    apply Forall_app in D as [DZ DD]. inversion DD as [|? ? D1 _]; subst.
    assert (Z0 : fold_left (fun n c => 10 * n + (Byte.to_N c - 48)) z 0 = 0) by lia.
    split; [|lia]. clear - Z0 DZ. assert (X : forall z k, k <= 0 -> all_digits z -> fold_left (fun n c => 10 * n + (Byte.to_N c - 48)) z k = 0 -> Forall (eq "0"%byte) z).
    { clear. induction z as [|c z IH]; intros k K DZ H; [constructor|]. cbn [fold_left] in H. pose proof (fold_ge z (10 * k + (Byte.to_N c - 48))) as G. rewrite H in G.
      inversion DZ as [|? ? D1 D2]; subst. constructor; [|apply (IH (10 * k + (Byte.to_N c - 48))); [exact G|exact D2|exact H]].
      assert (Q : Byte.to_N c = 48) by lia. destruct c; try discriminate Q. reflexivity. }
    apply (X z 0); [reflexivity|exact DZ|exact Z0].
  - intros (z & d & -> & FZ & QD).
    assert (D : all_digits (z ++ [d])). { apply Forall_app. split; [eapply Forall_impl; [|exact FZ]; intros c <-; vm_compute; split; discriminate|constructor; [lia|constructor]]. }
    apply digits_all in D. rewrite D, fold_left_app. cbn [fold_left]. apply f_equal.
    assert (Z0 : fold_left (fun n c => 10 * n + (Byte.to_N c - 48)) z 0 = 0). { clear - FZ. induction FZ as [|c z <- _ IH]; [reflexivity|]. cbn [fold_left]. exact IH. }
    rewrite Z0. lia.
Qed.

(** What is left of a template in each state of the scan. *)
Lemma field_scan : forall t acc l, format_pieces t (FField acc) = Some l <->
  exists f t' l', t = f ++ x7d :: t' /\ ~ In x7d f /\ ~ In x7b f /\ l = PField (rev acc ++ f) :: l' /\ format_pieces t' FText = Some l'.
Proof.
  induction t as [|c t IH]; intros acc l; cbn [format_pieces].
  - split; [discriminate|]. intros (f & t' & l' & Q & _). destruct f; discriminate.
  - destruct (byte_eqb c x7d) eqn:C1; [apply byte_eqb_iff in C1; subst c|destruct (byte_eqb c x7b) eqn:C2; [apply byte_eqb_iff in C2; subst c|]].
    + split.
      * intros H. unfold cons_piece in H. destruct (format_pieces t FText) as [l'|] eqn:F; [|discriminate]. injection H as <-. exists [], t, l'. rewrite app_nil_r. repeat split; auto.
      * intros (f & t' & l' & Q & N1 & _ & -> & F). destruct f as [|x f]; [|injection Q as <- _; exfalso; apply N1; left; reflexivity]. injection Q as <-. rewrite F, app_nil_r. reflexivity.
    + split; [discriminate|]. intros (f & t' & l' & Q & _ & N2 & _). destruct f as [|x f]; [discriminate|]. injection Q as <- _. exfalso. apply N2. left. reflexivity.
    + rewrite IH. split.
      * intros (f & t' & l' & -> & N1 & N2 & -> & F). exists (c :: f), t', l'. split; [reflexivity|]. split; [intros [Q|I]; [subst c; discriminate C1|exact (N1 I)]|]. split; [intros [Q|I]; [subst c; discriminate C2|exact (N2 I)]|].
        split; [cbn [rev]; rewrite <- app_assoc; reflexivity|exact F].
      * intros (f & t' & l' & Q & N1 & N2 & -> & F). destruct f as [|x f]; [injection Q as -> ->; discriminate C1|]. injection Q as <- ->. exists f, t', l'. split; [reflexivity|].
        split; [intros I; apply N1; right; exact I|]. split; [intros I; apply N2; right; exact I|]. split; [cbn [rev]; rewrite <- app_assoc; reflexivity|exact F].
Qed.

(** The scan of a template, by its first field. *)
Inductive scanned : bytes -> list piece -> Prop :=
| sc_end : scanned [] []
| sc_char : forall c t l, c <> "{"%byte -> c <> "}"%byte -> scanned t l -> scanned (c :: t) (PText c :: l)
| sc_open : forall t l, scanned t l -> scanned (bs "{{" ++ t) (PText x7b :: l)
| sc_close : forall t l, scanned t l -> scanned (bs "}}" ++ t) (PText x7d :: l)
| sc_field : forall f t l, ~ In x7b f -> ~ In x7d f -> scanned t l -> scanned (bs "{" ++ f ++ bs "}" ++ t) (PField f :: l).
Lemma scan_iff : forall t l, format_pieces t FText = Some l <-> scanned t l.
Proof.
  intros t. remember (length t) as n eqn:LN. assert (LE : (length t <= n)%nat) by lia. clear LN. revert t LE. induction n as [|n IH]; intros t LE l.
  - destruct t; [|cbn [length] in LE; lia]. cbn [format_pieces]. split; [intros H; injection H as <-; constructor|intros H; inversion H; reflexivity].
  - split.
    + destruct t as [|c t]; cbn [format_pieces]; [intros H; injection H as <-; constructor|]. cbn [length] in LE.
      destruct (byte_eqb c x7b) eqn:C1; [apply byte_eqb_iff in C1; subst c|destruct (byte_eqb c x7d) eqn:C2; [apply byte_eqb_iff in C2; subst c|]].
      * destruct t as [|d t]; cbn [format_pieces]; [discriminate|]. cbn [length] in LE.
        destruct (byte_eqb d x7b) eqn:D1; [apply byte_eqb_iff in D1; subst d|destruct (byte_eqb d x7d) eqn:D2; [apply byte_eqb_iff in D2; subst d|]].
        -- intros H. unfold cons_piece in H. destruct (format_pieces t FText) as [l'|] eqn:F; [|discriminate]. injection H as <-. apply (sc_open t l'). apply IH; [lia|exact F].
        -- intros H. unfold cons_piece in H. destruct (format_pieces t FText) as [l'|] eqn:F; [|discriminate]. injection H as <-. apply (sc_field [] t l'); [intros []|intros []|]. apply IH; [lia|exact F].
        -- intros H. apply field_scan in H as (f & t' & l' & -> & N1 & N2 & -> & F). cbn [rev app]. rewrite app_length in LE. cbn [length] in LE.
           apply (sc_field (d :: f) t' l'); [intros [Q|I]; [subst d; discriminate D1|exact (N2 I)]|intros [Q|I]; [subst d; discriminate D2|exact (N1 I)]|]. apply IH; [lia|exact F].
      * destruct t as [|d t]; cbn [format_pieces]; [discriminate|]. cbn [length] in LE. destruct (byte_eqb d x7d) eqn:D2; [apply byte_eqb_iff in D2; subst d|discriminate].
        intros H. unfold cons_piece in H. destruct (format_pieces t FText) as [l'|] eqn:F; [|discriminate]. injection H as <-. apply (sc_close t l'). apply IH; [lia|exact F].
      * intros H. unfold cons_piece in H. destruct (format_pieces t FText) as [l'|] eqn:F; [|discriminate]. injection H as <-.
        apply sc_char; [intros ->; discriminate C1|intros ->; discriminate C2|]. apply IH; [lia|exact F].
    + intros H. inversion H as [|c t' l' N1 N2 S|t' l' S|t' l' S|f t' l' N1 N2 S]; subst.
      * reflexivity.
      * cbn [length] in LE. cbn [format_pieces]. rewrite (eqb_false _ _ N1), (eqb_false _ _ N2). apply IH in S; [|lia]. rewrite S. reflexivity.
      * cbn in LE. change (format_pieces (bs "{{" ++ t') FText) with (cons_piece (PText x7b) (format_pieces t' FText)). apply IH in S; [|lia]. rewrite S. reflexivity.
      * cbn in LE. change (format_pieces (bs "}}" ++ t') FText) with (cons_piece (PText x7d) (format_pieces t' FText)). apply IH in S; [|lia]. rewrite S. reflexivity.
      * rewrite !app_length in LE. cbn in LE. apply IH in S; [|lia]. destruct f as [|c f].
        -- change (format_pieces (bs "{" ++ [] ++ bs "}" ++ t') FText) with (cons_piece (PField []) (format_pieces t' FText)). rewrite S. reflexivity.
        -- change (format_pieces (bs "{" ++ (c :: f) ++ bs "}" ++ t') FText) with (format_pieces (c :: f ++ x7d :: t') FOpen). cbn [format_pieces].
           rewrite (eqb_false c x7b) by (intros ->; apply N1; left; reflexivity). rewrite (eqb_false c x7d) by (intros ->; apply N2; left; reflexivity).
           apply field_scan. exists f, t', l'. split; [reflexivity|]. split; [intros I; apply N2; right; exact I|]. split; [intros I; apply N1; right; exact I|]. split; [reflexivity|exact S].
Qed.

Lemma no_brace : forall z d n, Forall (eq "0"%byte) z -> Byte.to_N d = 48 + n -> n <= 2 -> ~ In x7b (z ++ [d]) /\ ~ In x7d (z ++ [d]).
Proof.
  intros z d n FZ QD LE. rewrite Forall_forall in FZ.
  split; intros I; apply in_app_or in I as [I|[I|[]]]; try (apply FZ in I; discriminate I); subst d; cbn in QD; lia.
Qed.
Lemma value_small : forall a b c n v, nth_value a b c n v -> n <= 2.
Proof. intros a b c n v [[-> _]|[[-> _]|[-> _]]]; lia. Qed.
Lemma renders_filled : forall a b c next t s, renders a b c next t s -> exists l, scanned t l /\
  match next with None => forall m, fill_pieces a b c l 0 m = Some s | Some n => fill_pieces a b c l n false = Some s end.
Proof.
  intros a b c next t s H. induction H as [next|next x t s N1 N2 _ (l & S & F)|next t s _ (l & S & F)|next t s _ (l & S & F)|z d n v t s FZ QD NV _ (l & S & F)|n v t s NV _ (l & S & F)].
  - exists []. split; [constructor|]. destruct next; reflexivity.
  - exists (PText x :: l). split; [constructor; assumption|]. destruct next; cbn [fill_pieces]; [rewrite F; reflexivity|intros m; rewrite F; reflexivity].
  - exists (PText x7b :: l). split; [apply (sc_open t l S)|]. destruct next; cbn [fill_pieces]; [rewrite F; reflexivity|intros m; rewrite F; reflexivity].
  - exists (PText x7d :: l). split; [apply (sc_close t l S)|]. destruct next; cbn [fill_pieces]; [rewrite F; reflexivity|intros m; rewrite F; reflexivity].
  - exists (PField (z ++ [d]) :: l). pose proof (value_small _ _ _ _ _ NV) as LE. destruct (no_brace z d n FZ QD LE) as [B1 B2].
    split; [pose proof (sc_field (z ++ [d]) t l B1 B2 S) as X; rewrite <- app_assoc in X; exact X|]. intros m.
    assert (NE : z ++ [d] <> []) by (destruct z; discriminate).
    assert (FI : field_index (z ++ [d]) = Some n) by (apply index_small; [exact NE|exact LE|exists z, d; auto]).
    apply pick_iff in NV. destruct (z ++ [d]) as [|x0 f0]; [contradiction|]. cbn [fill_pieces]. change (0 <? 0) with false. cbv iota. rewrite FI, NV, F. reflexivity.
  - exists (PField [] :: l). split; [apply (sc_field [] t l); [intros []|intros []|exact S]|]. cbn [fill_pieces]. apply pick_iff in NV. rewrite NV, F. reflexivity.
Qed.
Lemma fill_numbered : forall a b c t l, scanned t l -> forall s, fill_pieces a b c l 0 true = Some s -> renders a b c None t s.
Proof.
  intros a b c t l H. induction H as [|x t l N1 N2 _ IH|t l _ IH|t l _ IH|f t l N1 N2 SC IH]; intros s Q; cbn [fill_pieces] in Q.
  - injection Q as <-. constructor.
  - destruct (fill_pieces a b c l 0 true) as [s'|] eqn:F; [|discriminate]. injection Q as <-. apply rn_char; auto.
  - destruct (fill_pieces a b c l 0 true) as [s'|] eqn:F; [|discriminate]. injection Q as <-. apply (rn_open a b c None t s'); auto.
  - destruct (fill_pieces a b c l 0 true) as [s'|] eqn:F; [|discriminate]. injection Q as <-. apply (rn_close a b c None t s'); auto.
  - destruct f as [|x f]; [discriminate|]. change (0 <? 0) with false in Q. cbv iota in Q.
    destruct (field_index (x :: f)) as [n|] eqn:FI; [|discriminate]. destruct (pick a b c n) as [v|] eqn:P; [|discriminate]. destruct (fill_pieces a b c l 0 true) as [s'|] eqn:F; [|discriminate]. injection Q as <-.
    apply pick_iff in P. apply index_small in FI as (z & d & -> & FZ & QD); [|discriminate|exact (value_small _ _ _ _ _ P)].
    rewrite <- !app_assoc. eapply rn_number; eauto.
Qed.
Lemma fill_any : forall a b c t l, scanned t l -> forall n s, fill_pieces a b c l n false = Some s -> renders a b c (Some n) t s \/ n = 0 /\ renders a b c None t s.
Proof.
  intros a b c t l H. induction H as [|x t l N1 N2 _ IH|t l _ IH|t l _ IH|f t l N1 N2 SC IH]; intros n s Q; cbn [fill_pieces] in Q.
  - injection Q as <-. left. constructor.
  - destruct (fill_pieces a b c l n false) as [s'|] eqn:F; [|discriminate]. injection Q as <-. destruct (IH _ _ F) as [R|[-> R]]; [left|right; split; [reflexivity|]]; apply rn_char; auto.
  - destruct (fill_pieces a b c l n false) as [s'|] eqn:F; [|discriminate]. injection Q as <-. destruct (IH _ _ F) as [R|[-> R]]; [left; apply (rn_open a b c (Some n) t s' R)|right; split; [reflexivity|apply (rn_open a b c None t s' R)]].
  - destruct (fill_pieces a b c l n false) as [s'|] eqn:F; [|discriminate]. injection Q as <-. destruct (IH _ _ F) as [R|[-> R]]; [left; apply (rn_close a b c (Some n) t s' R)|right; split; [reflexivity|apply (rn_close a b c None t s' R)]].
  - destruct f as [|x f].
    + destruct (pick a b c n) as [v|] eqn:P; [|discriminate]. destruct (fill_pieces a b c l (n + 1) false) as [s'|] eqn:F; [|discriminate]. injection Q as <-.
      left. destruct (IH _ _ F) as [R|[Z _]]; [|lia]. apply (rn_next a b c n v t s'); [apply pick_iff; exact P|exact R].
    + destruct (N.ltb_spec 0 n) as [L|L]; [discriminate|]. assert (n = 0) by lia. subst n.
      destruct (field_index (x :: f)) as [n|] eqn:FI; [|discriminate]. destruct (pick a b c n) as [v|] eqn:P; [|discriminate]. destruct (fill_pieces a b c l 0 true) as [s'|] eqn:F; [|discriminate]. injection Q as <-.
      apply pick_iff in P. apply index_small in FI as (z & d & -> & FZ & QD); [|discriminate|exact (value_small _ _ _ _ _ P)].
      right. split; [reflexivity|]. rewrite <- !app_assoc. eapply rn_number; eauto. eapply fill_numbered; eauto.
Qed.
Lemma format_iff : forall t a b c s, format t a b c = Some s <-> renders a b c None t s \/ renders a b c (Some 0) t s.
Proof.
  intros t a b c s. unfold format. split.
  - intros H. destruct (format_pieces t FText) as [l|] eqn:S; [|discriminate]. apply scan_iff in S. destruct (fill_any a b c t l S 0 s H) as [R|[_ R]]; auto.
  - intros [R|R]; apply renders_filled in R as (l & S & F); apply scan_iff in S; rewrite S; apply F.
Qed.

(** Arguments. *)
Lemma starts_iff : forall p a, starts_with p a = true <-> exists r, a = p ++ r.
Proof.
  induction p as [|x p IH]; intros a; cbn [starts_with]; [split; [intros _; exists a; reflexivity|reflexivity]|]. destruct a as [|y a]; [split; [discriminate|intros [r Q]; discriminate]|].
  rewrite andb_true_iff, byte_eqb_iff, IH. split; [intros [-> [r ->]]; exists r; reflexivity|intros [r Q]; injection Q as -> ->; split; [reflexivity|exists r; reflexivity]].
Qed.
Lemma no_space : forall a, existsb (byte_eqb x20) a = false <-> ~ In " "%byte a.
Proof.
  intros a. rewrite <- not_true_iff_false, existsb_exists. split; intros H I; apply H; [exists " "%byte; split; [exact I|reflexivity]|].
  destruct I as (x & I & Q). apply byte_eqb_iff in Q. subst x. exact I.
Qed.
Lemma neg_iff : forall a, neg_number a = true <-> negative_number a.
Proof.
  intros a. unfold neg_number, negative_number.
  assert (LG : forall r, rx_match (RAlt (RPlus (RChar ascii_digit)) (RSeq (RStar (RChar ascii_digit)) (RSeq (RChar (byte_eqb x2e)) (RPlus (RChar ascii_digit))))) r = true <->
    (r <> [] /\ all_digits r \/ exists ip fp, r = ip ++ bs "." ++ fp /\ all_digits ip /\ all_digits fp /\ fp <> [])).
  { intros r. rewrite rx_match_iff. split.
    - intros H. inversion H as [| | |? ? ? L|? ? ? L| |]; subst.
      + apply lang_plus_char in L as [NE D]. left. split; [exact NE|]. apply digits_all. exact D.
      + apply lang_seq in L as (s1 & s2 & -> & L1 & L2). apply lang_star_char in L1. apply lang_seq in L2 as (s3 & s4 & -> & L3 & L4). apply lang_char in L3 as (x & -> & Q). apply byte_eqb_iff in Q. subst x.
        apply lang_plus_char in L4 as [NE D]. right. exists s1, s4. split; [reflexivity|]. split; [apply digits_all; exact L1|]. split; [apply digits_all; exact D|exact NE].
    - intros [[NE D]|(ip & fp & -> & D1 & D2 & NE)].
      + apply L_left. apply lang_plus_char. split; [exact NE|apply digits_all; exact D].
      + apply L_right. apply lang_seq. exists ip, (bs "." ++ fp). split; [reflexivity|]. split; [apply lang_star_char, digits_all; exact D1|]. apply lang_seq. exists (bs "."), fp. split; [reflexivity|].
        split; [apply lang_char; exists x2e; split; reflexivity|]. apply lang_plus_char. split; [exact NE|apply digits_all; exact D2]. }
  split.
  - intros H. destruct a as [|c r]; [discriminate|]. destruct c; try discriminate H. exists r. split; [reflexivity|]. apply LG. exact H.
  - intros (ds & -> & H). cbn [app]. apply LG. exact H.
Qed.
Lemma before_eq_split : forall a, exists more, a = before_eq a ++ more /\ (more = [] \/ exists v, more = bs "=" ++ v) /\ ~ In "="%byte (before_eq a).
Proof.
  induction a as [|c a (more & Q & M & N)]; [exists []; cbn; auto|]. cbn [before_eq]. destruct (byte_eqb c x3d) eqn:C.
  - apply byte_eqb_iff in C. subst c. exists (x3d :: a). split; [reflexivity|]. split; [right; exists a; reflexivity|intros []].
  - exists more. split; [cbn [app]; rewrite <- Q; reflexivity|]. split; [exact M|]. intros [E|I]; [subst c; discriminate C|exact (N I)].
Qed.
Lemma before_eq_of : forall w more, ~ In "="%byte w -> (more = [] \/ exists v, more = bs "=" ++ v) -> before_eq (w ++ more) = w.
Proof.
  induction w as [|c w IH]; intros more N M.
  - destruct M as [->|[v ->]]; reflexivity.
  - cbn [app before_eq]. rewrite (eqb_false c x3d) by (intros ->; apply N; left; reflexivity). rewrite IH; [reflexivity|intros I; apply N; right; exact I|exact M].
Qed.
Lemma option_iff : forall a, is_option a = true <-> option_like a.
Proof.
  intros a. unfold option_like. split.
  - intros H. destruct a as [|c a]; [discriminate|]. destruct c; try discriminate H. destruct a as [|c a]; [discriminate|]. cbn [is_option] in H.
    destruct (byte_eqb c x68) eqn:C1; [apply byte_eqb_iff in C1; subst c; left; exists a; reflexivity|]. destruct (byte_eqb c x2d) eqn:C2.
    + apply byte_eqb_iff in C2. subst c. right. left. exists a. split; [reflexivity|]. apply orb_true_iff in H as [H|H].
      * right. destruct (before_eq_split (x2d :: x2d :: a)) as (more & Q & M & N). apply starts_iff in H as [r R].
        assert (B : exists w, before_eq (x2d :: x2d :: a) = x2d :: x2d :: w) by (eexists; reflexivity). destruct B as [w B]. rewrite B in *. injection Q as Q. injection R as R.
        exists w, more. split; [exact Q|]. split; [exact M|]. exists r. exact R.
      * left. apply negb_true_iff, no_space in H. exact H.
    + right. right. exists c, a. split; [reflexivity|]. split; [intros ->; discriminate C2|]. apply negb_true_iff, orb_false_iff in H as [H1 H2].
      split; [intros Q; apply neg_iff in Q; congruence|apply no_space; exact H2].
  - intros [(rest & ->)|[(rest & -> & H)|(c & rest & -> & C & NN & NS)]].
    + reflexivity.
    + change (starts_with (before_eq (bs "--" ++ rest)) (bs "--help") || negb (existsb (byte_eqb x20) (bs "--" ++ rest)) = true). apply orb_true_iff. destruct H as [H|(w & more & -> & M & e & Q)].
      * right. apply negb_true_iff, no_space. exact H.
      * left. assert (NE : ~ In "="%byte (bs "--" ++ w)).
        { intros I. apply in_app_or in I as [[I|[I|[]]]|I]; try discriminate I. assert (J : In "="%byte (bs "help")) by (rewrite Q; apply in_or_app; left; exact I). cbn in J. repeat (destruct J as [J|J]; [discriminate J|]). exact J. }
        rewrite app_assoc, (before_eq_of _ more NE M). apply starts_iff. exists e. change (bs "--help") with (bs "--" ++ bs "help"). rewrite Q, app_assoc. reflexivity.
    + change (bs "-" ++ c :: rest) with (x2d :: c :: rest) in *. cbn [is_option]. destruct (byte_eqb c x68); [reflexivity|]. rewrite (eqb_false c x2d C). apply negb_true_iff, orb_false_iff.
      split; [destruct (neg_number (x2d :: c :: rest)) eqn:Q; [apply neg_iff in Q; contradiction|reflexivity]|apply no_space; exact NS].
Qed.
Lemma arguments_iff : forall argv l, positionals argv = Some l <-> arguments argv l.
Proof.
  induction argv as [|a argv IH]; intros l; cbn [positionals]; [split; [intros H; injection H as <-; constructor|intros H; inversion H; reflexivity]|].
  destruct (bytes_eqb a (bs "--")) eqn:D.
  - apply bytes_eqb_eq in D. subst a. split; [intros H; injection H as <-; constructor|intros H; inversion H; subst; [reflexivity|contradiction]].
  - assert (ND : a <> bs "--") by (intros ->; discriminate D). destruct (is_option a) eqn:O.
    + apply option_iff in O. split; [discriminate|intros H; inversion H; subst; contradiction].
    + assert (NO : ~ option_like a) by (intros Q; apply option_iff in Q; congruence). split.
      * intros H. destruct (positionals argv) as [l'|] eqn:P; [|discriminate]. injection H as <-. constructor; [exact ND|exact NO|]. apply IH. reflexivity.
      * intros H. inversion H as [| |? ? l' _ _ R]; subst; [contradiction|]. apply IH in R. rewrite R. reflexivity.
Qed.

Lemma mail_iff : forall k argv m, (exists from rcpt, In (SSend from rcpt m) (mail_script k argv)) <->
  exists email code ca cert mode server port user password from subject t h text html, arguments (map cstr argv) [email; code; ca; cert] /\
    k = settings mode server port user password from subject t h /\ (renders code ca cert None t text \/ renders code ca cert (Some 0) t text) /\
    (renders code ca cert None h html \/ renders code ca cert (Some 0) h html) /\ m = Mail from email subject text html.
Proof.
  intros k argv m. split.
  - intros (from & rcpt & IN). unfold mail_script in IN. destruct (positionals (map cstr argv)) as [l|] eqn:P; [|destruct IN]. apply arguments_iff in P.
    destruct l as [|email [|code [|ca [|cert [|? ?]]]]]; try destruct IN.
    destruct k as [[mode|] [server|] [port|] [user|] [password|] [from0|] [subject|] [t|] [h|]]; try destruct IN.
    cbn [mc_mode mc_server mc_port mc_user mc_password mc_from mc_subject mc_text mc_html] in IN. destruct (format t code ca cert) as [text|] eqn:F1; [|destruct IN].
    destruct (format h code ca cert) as [html|] eqn:F2; [|destruct IN]. apply format_iff in F1, F2.
    exists email, code, ca, cert, mode, server, port, user, password, from0, subject, t, h, text, html. split; [exact P|]. split; [reflexivity|]. split; [exact F1|]. split; [exact F2|].
    unfold session in IN. apply in_app_or in IN as [[IN|[]]|IN]; [discriminate|]. apply in_app_or in IN as [IN|IN].
    + destruct (bytes_eqb mode (bs "none")); [destruct IN|]. destruct IN as [IN|IN]; [discriminate|]. destruct (bytes_eqb mode (bs "tls")); [destruct IN as [IN|[]]; discriminate|destruct IN].
    + apply in_app_or in IN as [IN|[IN|[IN|[]]]]; [destruct user, password; try destruct IN as [IN|[]]; try discriminate; destruct IN|injection IN as _ _ <-; reflexivity|discriminate].
  - intros (email & code & ca & cert & mode & server & port & user & password & from & subject & t & h & text & html & A & -> & R1 & R2 & ->).
    exists from, email. unfold mail_script. apply arguments_iff in A. rewrite A. cbn [settings mc_mode mc_server mc_port mc_user mc_password mc_from mc_subject mc_text mc_html].
    apply format_iff in R1, R2. rewrite R1, R2. unfold session. cbn [ml_from ml_to]. do 3 (apply in_or_app; right). left. reflexivity.
Qed.
