(** [read_json] reads exactly the texts of the grammar. *)
From Verif Require Export Spec_JsonGrammar JsonTextFacts ConfigFacts.
From Coq Require Import Lia.
Local Open Scope N_scope.
Ltac bN := repeat first [rewrite andb_true_iff in * | rewrite orb_true_iff in * | rewrite N.leb_le in * | rewrite N.ltb_lt in * | rewrite N.leb_gt in * | rewrite N.ltb_ge in * | rewrite N.eqb_eq in * ].

(** *** White space *)
Lemma g_ws : forall c, js_is_ws c = true <-> In c [x20; x09; x0a; x0d].
Proof. intros c. split; [destruct c; intros H; try discriminate H; cbn [In]; tauto|]. cbn [In]. intros [<-|[<-|[<-|[<-|[]]]]]; reflexivity. Qed.
Lemma g_skip : forall a s, json_space a -> js_skip_ws (a ++ s) = js_skip_ws s.
Proof. induction a as [|c a IH]; intros s H; [reflexivity|]. inversion H as [|? ? C A]; subst. cbn [app js_skip_ws]. apply g_ws in C. rewrite C. apply IH. exact A. Qed.
Lemma g_skip_inv : forall s, exists a, json_space a /\ s = a ++ js_skip_ws s.
Proof.
  induction s as [|c s (a & A & E)]; [exists []; split; [constructor|reflexivity]|]. cbn [js_skip_ws]. destruct (js_is_ws c) eqn:W.
  - exists (c :: a). split; [constructor; [apply g_ws; exact W|exact A]|]. cbn [app]. rewrite <- E. reflexivity.
  - exists []. split; [constructor|reflexivity].
Qed.
Lemma g_skip_nil : forall s, js_skip_ws s = [] <-> json_space s.
Proof.
  intros s. split; [|intros H; rewrite <- (app_nil_r s), g_skip by exact H; reflexivity].
  intros H. destruct (g_skip_inv s) as (a & A & E). rewrite H, app_nil_r in E. subst. exact A.
Qed.
Lemma g_skip_stop : forall c s, js_is_ws c = false -> js_skip_ws (c :: s) = c :: s.
Proof. intros c s H. cbn [js_skip_ws]. rewrite H. reflexivity. Qed.
Lemma g_have : forall a c s, json_space a -> js_is_ws c = false -> js_have c (a ++ c :: s) = Some s.
Proof. intros a c s A C. unfold js_have. rewrite (g_skip _ _ A), (g_skip_stop _ _ C), (proj2 (byte_eqb_eq c c) eq_refl). reflexivity. Qed.
Lemma g_have_not : forall a c x s, json_space a -> js_is_ws x = false -> x <> c -> js_have c (a ++ x :: s) = None.
Proof. intros a c x s A X N. unfold js_have. rewrite (g_skip _ _ A), (g_skip_stop _ _ X). destruct (byte_eqb x c) eqn:Q; [apply byte_eqb_eq in Q; contradiction|reflexivity]. Qed.
Lemma g_have_inv : forall c s s', js_have c s = Some s' -> exists a, json_space a /\ s = a ++ c :: s'.
Proof.
  intros c s s' H. unfold js_have in H. destruct (g_skip_inv s) as (a & A & E). destruct (js_skip_ws s) as [|x u]; [discriminate|].
  destruct (byte_eqb x c) eqn:Q; [|discriminate]. apply byte_eqb_eq in Q. injection H as <-. subst x. exists a. split; assumption.
Qed.

(** *** Escapes *)
Lemma g_hex : forall c v, js_hex_val c = Some v <-> json_hex c v.
Proof.
  intros c v. unfold js_hex_val. split.
  - destruct ((48 <=? Byte.to_N c) && (Byte.to_N c <=? 57)) eqn:A; [intros [= <-]; bN; apply json_hex_09; lia|].
    destruct ((65 <=? Byte.to_N c) && (Byte.to_N c <=? 70)) eqn:B; [intros [= <-]; bN; apply json_hex_AF; lia|].
    destruct ((97 <=? Byte.to_N c) && (Byte.to_N c <=? 102)) eqn:C; [intros [= <-]; bN; apply json_hex_af; lia|discriminate].
  - assert (T : forall a b n, a <= n -> n <= b -> (a <=? n) && (n <=? b) = true) by (intros; rewrite andb_true_iff, !N.leb_le; lia).
    assert (F : forall a b n, n < a \/ b < n -> (a <=? n) && (n <=? b) = false) by (intros a b n H; rewrite andb_false_iff, !N.leb_gt; exact H).
    intros [x n L E|x n L E|x n L E].
    + rewrite T by lia. f_equal. lia.
    + rewrite F, T by lia. f_equal. lia.
    + rewrite F, F, T by lia. f_equal. lia.
Qed.
Lemma g_hex4 : forall a b c d n, js_hex4 a b c d = Some n <-> json_unicode n [x5c; x75; a; b; c; d].
Proof.
  intros a b c d n. unfold js_hex4. split.
  - destruct (js_hex_val a) as [va|] eqn:A; [|discriminate]. destruct (js_hex_val b) as [vb|] eqn:B; [|discriminate].
    destruct (js_hex_val c) as [vc|] eqn:C; [|discriminate]. destruct (js_hex_val d) as [vd|] eqn:D; [|discriminate].
    apply g_hex in A, B, C, D. intros [= <-]. econstructor; [eassumption..|lia].
  - inversion 1 as [a0 b0 c0 d0 va vb vc vd A B C D E]; subst. apply g_hex in A, B, C, D. rewrite A, B, C, D. f_equal. lia.
Qed.
Lemma g_hex4_bound : forall n u, json_unicode n u -> n < 0x10000.
Proof. intros n u [a b c d va vb vc vd A B C D E]. assert (H : forall x v, json_hex x v -> v < 16) by (intros x v [? ? ? ?|? ? ? ?|? ? ? ?]; lia). apply H in A, B, C, D. lia. Qed.
Lemma g_byte : forall n, n < 256 -> Byte.to_N (byte_of_N n) = n.
Proof. intros n H. rewrite to_N_byte_of_N. apply N.mod_small. exact H. Qed.
Lemma g_bytes : forall x n, Byte.to_N x = n -> byte_of_N n = x.
Proof. intros x n <-. apply byte_of_N_to_N. Qed.
Lemma g_low : forall n, js_is_low n = true <-> 0xDC00 <= n < 0xE000.
Proof. intros n. unfold js_is_low. rewrite andb_true_iff, !N.leb_le. lia. Qed.
Lemma g_high : forall n, js_is_high n = true <-> 0xD800 <= n < 0xDC00.
Proof. intros n. unfold js_is_high. rewrite andb_true_iff, !N.leb_le. lia. Qed.
Lemma g_divmod : forall n h l k, 0 < k -> l < k -> n = h * k + l -> n / k = h /\ n mod k = l.
Proof. intros n h l k K L E. split; symmetry; [apply (N.div_unique n k h l)|apply (N.mod_unique n k h l)]; lia. Qed.
Lemma g_utf8 : forall n p, n < 0x110000 -> js_utf8 n = p <-> utf8_bytes n p.
Proof.
  intros n p N0. split.
  - intros <-. unfold js_utf8. destruct (n <=? 0x7F) eqn:A; bN; [apply utf8_bytes_1; [lia|apply g_byte; lia]|].
    destruct (n <=? 0x7FF) eqn:B; bN.
    { pose proof (N.div_mod n 64 ltac:(lia)) as D. pose proof (N.mod_lt n 64 ltac:(lia)) as M. generalize dependent (n / 64). generalize dependent (n mod 64). intros l M h D.
      apply (utf8_bytes_2 n _ _ h l); [lia..|apply g_byte; lia|apply g_byte; lia]. }
    destruct (n <=? 0xFFFF) eqn:C; bN.
    { replace 4096 with (64 * 64) by reflexivity. rewrite <- N.div_div by lia.
      pose proof (N.div_mod n 64 ltac:(lia)) as D. pose proof (N.mod_lt n 64 ltac:(lia)) as M. generalize dependent (n mod 64). intros l D M. generalize dependent (n / 64). intros q D.
      pose proof (N.div_mod q 64 ltac:(lia)) as D'. pose proof (N.mod_lt q 64 ltac:(lia)) as M'. generalize dependent (q mod 64). intros m D' M'. generalize dependent (q / 64). intros h D'.
      apply (utf8_bytes_3 n _ _ _ h m l); [lia..|apply g_byte; lia|apply g_byte; lia|apply g_byte; lia]. }
    replace 262144 with (64 * 64 * 64) by reflexivity. replace 4096 with (64 * 64) by reflexivity. rewrite <- !N.div_div by lia.
    pose proof (N.div_mod n 64 ltac:(lia)) as D. pose proof (N.mod_lt n 64 ltac:(lia)) as M. generalize dependent (n mod 64). intros l D M. generalize dependent (n / 64). intros q D.
    pose proof (N.div_mod q 64 ltac:(lia)) as D'. pose proof (N.mod_lt q 64 ltac:(lia)) as M'. generalize dependent (q mod 64). intros m D' M'. generalize dependent (q / 64). intros r D'.
    pose proof (N.div_mod r 64 ltac:(lia)) as D''. pose proof (N.mod_lt r 64 ltac:(lia)) as M''. generalize dependent (r mod 64). intros i D'' M''. generalize dependent (r / 64). intros h D''.
    apply (utf8_bytes_4 n _ _ _ _ h i m l); [lia..|apply g_byte; lia|apply g_byte; lia|apply g_byte; lia|apply g_byte; lia].
  - assert (T : forall a b, a <= b -> (a <=? b) = true) by (intros; apply N.leb_le; assumption). assert (F : forall a b, b < a -> (a <=? b) = false) by (intros; apply N.leb_gt; assumption).
    unfold js_utf8. intros [a L A|a b h l L L1 E A B|a b c h m l L L1 L2 E A B C|a b c d h i m l L L1 L2 L3 E A B C D].
    + rewrite T by lia. rewrite (g_bytes _ _ A). reflexivity.
    + rewrite F, T by lia. destruct (g_divmod n h l 64 ltac:(lia) L1 E) as [-> ->]. rewrite (g_bytes _ _ A), (g_bytes _ _ B). reflexivity.
    + rewrite F, F, T by lia. replace 4096 with (64 * 64) by reflexivity. rewrite <- N.div_div by lia.
      destruct (g_divmod n (h * 64 + m) l 64 ltac:(lia) L2 E) as [-> ->]. destruct (g_divmod (h * 64 + m) h m 64 ltac:(lia) L1 eq_refl) as [-> ->].
      rewrite (g_bytes _ _ A), (g_bytes _ _ B), (g_bytes _ _ C). reflexivity.
    + rewrite F, F, F by lia. replace 262144 with (64 * 64 * 64) by reflexivity. replace 4096 with (64 * 64) by reflexivity. rewrite <- !N.div_div by lia.
      destruct (g_divmod n _ l 64 ltac:(lia) L3 E) as [-> ->]. destruct (g_divmod _ (h * 64 + i) m 64 ltac:(lia) L2 eq_refl) as [-> ->]. destruct (g_divmod _ h i 64 ltac:(lia) L1 eq_refl) as [-> ->].
      rewrite (g_bytes _ _ A), (g_bytes _ _ B), (g_bytes _ _ C), (g_bytes _ _ D). reflexivity.
Qed.
Lemma g_escape : forall c m, js_escaped c = Some m <-> json_escape c m.
Proof.
  intros c m. unfold json_escape. split.
  - destruct c; intros H; try discriminate H; injection H as <-; cbn [In]; tauto.
  - cbn [In]. intros H. repeat destruct H as [H|H]; try contradiction; injection H as <- <-; reflexivity.
Qed.

(** *** Strings *)
Lemma g_trail : forall a, js_is_trail a = true <-> json_trail a.
Proof. intros a. unfold js_is_trail, json_trail. rewrite andb_true_iff, !N.leb_le. lia. Qed.
Lemma g_prepend : forall p o t r, js_prepend p o = Some (t, r) -> exists t', o = Some (t', r) /\ t = p ++ t'.
Proof. intros p [[t' r']|] t r H; [|discriminate]. injection H as <- <-. exists t'. split; reflexivity. Qed.
Lemma g_neq : forall a b : byte, a <> b -> byte_eqb a b = false.
Proof. intros a b H. destruct (byte_eqb a b) eqn:Q; [apply byte_eqb_eq in Q; contradiction|reflexivity]. Qed.
Lemma g_rest_plain : forall c s, json_plain c -> js_string_rest (c ++ s) = js_prepend c (js_string_rest s).
Proof.
  assert (LT : forall a b, a < b -> (a <? b) = true) by (intros; apply N.ltb_lt; assumption). assert (GE : forall a b, b <= a -> (a <? b) = false) by (intros; apply N.ltb_ge; assumption).
  assert (Q : forall c : byte, 0x80 <= Byte.to_N c -> byte_eqb c x22 = false /\ byte_eqb c x5c = false) by (intros c H; split; apply g_neq; intros ->; vm_compute in H; apply H; reflexivity).
  intros c s [x L N1 N2|x a L A|x a b L A B|x a b d L A B D]; cbn [app]; unfold js_string_rest at 1; fold js_string_rest; unfold js_trailing.
  - rewrite (g_neq _ _ N1), (g_neq _ _ N2), LT by exact L. reflexivity.
  - destruct (Q x ltac:(lia)) as [-> ->]. rewrite GE, GE, LT by lia. apply g_trail in A. rewrite A. reflexivity.
  - destruct (Q x ltac:(lia)) as [-> ->]. rewrite GE, GE, GE, LT by lia. apply g_trail in A, B. rewrite A, B. reflexivity.
  - destruct (Q x ltac:(lia)) as [-> ->]. rewrite GE, GE, GE, GE, LT by lia. apply g_trail in A, B, D. rewrite A, B, D. reflexivity.
Qed.
Lemma g_rest_escape : forall c m s, json_escape c m -> js_string_rest (x5c :: c :: s) = js_prepend [m] (js_string_rest s).
Proof.
  intros c m s H. unfold js_string_rest at 1; fold js_string_rest. change (byte_eqb x5c x22) with false. change (byte_eqb x5c x5c) with true. cbv iota.
  assert (byte_eqb c x75 = false) as ->. { apply g_neq. intros ->. apply g_escape in H. discriminate. }
  apply g_escape in H. rewrite H. reflexivity.
Qed.
Lemma g_rest_eq : forall a b c d s, js_string_rest (x5c :: x75 :: a :: b :: c :: d :: s) =
  match js_hex4 a b c d with
  | None => None
  | Some n =>
      if js_is_low n then None
      else if js_is_high n then
        match s with
        | b :: u :: l1 :: l2 :: l3 :: l4 :: s3 =>
            if byte_eqb b x5c && byte_eqb u x75 then
              match js_hex4 l1 l2 l3 l4 with
              | Some m => if js_is_low m then js_prepend (js_utf8 (0x10000 + (n - 0xD800) * 1024 + (m - 0xDC00))) (js_string_rest s3) else None
              | None => None
              end
            else None
        | _ => None
        end
      else js_prepend (js_utf8 n) (js_string_rest s)
  end.
Proof. reflexivity. Qed.
Lemma g_rest_u : forall n u s, json_unicode n u -> n < 0xD800 \/ 0xE000 <= n -> js_string_rest (u ++ s) = js_prepend (js_utf8 n) (js_string_rest s).
Proof.
  intros n u s U R. pose proof U as V. destruct U as [a b c d]. apply g_hex4 in V. cbn [app]. rewrite g_rest_eq, V.
  assert (js_is_low n = false) as -> by (apply not_true_iff_false; rewrite g_low; lia). assert (js_is_high n = false) as -> by (apply not_true_iff_false; rewrite g_high; lia). reflexivity.
Qed.
Lemma g_rest_pair : forall h l u v s, json_unicode h u -> json_unicode l v -> 0xD800 <= h < 0xDC00 -> 0xDC00 <= l < 0xE000 ->
  js_string_rest (u ++ v ++ s) = js_prepend (js_utf8 (0x10000 + (h - 0xD800) * 1024 + (l - 0xDC00))) (js_string_rest s).
Proof.
  intros h l u v s U V H L. pose proof U as U'. pose proof V as V'. destruct U as [a b c d]. destruct V as [a' b' c' d']. apply g_hex4 in U', V'. cbn [app]. rewrite g_rest_eq, U'.
  assert (js_is_low h = false) as -> by (apply not_true_iff_false; rewrite g_low; lia). apply g_high in H. rewrite H. change (byte_eqb x5c x5c && byte_eqb x75 x75) with true. cbv iota. rewrite V'. apply g_low in L. rewrite L. reflexivity.
Qed.
Lemma g_chars : forall w t r, json_chars w t -> js_string_rest (w ++ x22 :: r) = Some (t, r).
Proof.
  intros w t r H. induction H as [|c w t C _ IH|c m w t C _ IH|n u p w t U R P _ IH|h l u v p w t U V R S P _ IH].
  - reflexivity.
  - rewrite <- app_assoc, (g_rest_plain _ _ C), IH. reflexivity.
  - cbn [app]. rewrite (g_rest_escape _ _ _ C), IH. reflexivity.
  - rewrite <- app_assoc, (g_rest_u _ _ _ U R), IH. pose proof (g_hex4_bound _ _ U). apply g_utf8 in P; [|lia]. rewrite P. reflexivity.
  - rewrite <- !app_assoc, (g_rest_pair _ _ _ _ _ U V R S), IH. apply g_utf8 in P; [|lia]. rewrite P. reflexivity.
Qed.
Lemma g_chars_inv : forall n s t r, (length s <= n)%nat -> js_string_rest s = Some (t, r) -> exists w, json_chars w t /\ s = w ++ x22 :: r.
Proof.
  induction n as [|n IH]; intros s t r L H; (destruct s as [|c s]; [discriminate H|]); cbn [length] in L; [lia|].
  unfold js_string_rest in H; fold js_string_rest in H. destruct (byte_eqb c x22) eqn:Q; [apply byte_eqb_eq in Q; injection H as <- <-; exists []; split; [constructor|subst; reflexivity]|].
  destruct (byte_eqb c x5c) eqn:Q1.
  - apply byte_eqb_eq in Q1. subst c. destruct s as [|e s]; [discriminate|]. cbn [length] in L. destruct (byte_eqb e x75) eqn:Q2.
    + apply byte_eqb_eq in Q2. subst e. destruct s as [|h1 [|h2 [|h3 [|h4 s]]]]; try discriminate. cbn [length] in L. destruct (js_hex4 h1 h2 h3 h4) as [m|] eqn:X; [|discriminate].
      pose proof (proj1 (g_hex4 _ _ _ _ _) X) as U. destruct (js_is_low m) eqn:LO; [discriminate|]. destruct (js_is_high m) eqn:HI.
      * destruct s as [|b [|u [|l1 [|l2 [|l3 [|l4 s]]]]]]; try discriminate. cbn [length] in L. destruct (byte_eqb b x5c && byte_eqb u x75) eqn:BU; [|discriminate].
        apply andb_true_iff in BU as [B1 B2]. apply byte_eqb_eq in B1, B2. subst b u. destruct (js_hex4 l1 l2 l3 l4) as [k|] eqn:Y; [|discriminate]. destruct (js_is_low k) eqn:LK; [|discriminate].
        apply g_hex4 in Y. apply g_low in LK. apply g_high in HI. apply g_prepend in H as (t' & H & ->). apply IH in H as (w & W & ->); [|lia].
        exists ([x5c; x75; h1; h2; h3; h4] ++ [x5c; x75; l1; l2; l3; l4] ++ w). split; [|reflexivity]. eapply jc_pair; try eassumption. apply g_utf8; [lia|reflexivity].
      * apply g_prepend in H as (t' & H & ->). apply IH in H as (w & W & ->); [|lia]. exists ([x5c; x75; h1; h2; h3; h4] ++ w). split; [|reflexivity].
        apply not_true_iff_false in LO, HI. rewrite g_low in LO. rewrite g_high in HI. pose proof (g_hex4_bound _ _ U). eapply jc_unicode; [eassumption|lia|apply g_utf8; [lia|reflexivity]|exact W].
    + destruct (js_escaped e) as [m|] eqn:X; [|discriminate]. apply g_escape in X. apply g_prepend in H as (t' & H & ->). apply IH in H as (w & W & ->); [|lia]. exists (x5c :: e :: w). split; [apply jc_escape; assumption|reflexivity].
  - assert (N1 : c <> x22) by (intros ->; discriminate Q). assert (N2 : c <> x5c) by (intros ->; discriminate Q1).
    assert (P : forall p s', json_plain p -> (length s' <= n)%nat -> js_prepend p (js_string_rest s') = Some (t, r) -> exists w, json_chars w t /\ p ++ s' = w ++ x22 :: r).
    { intros p s' PL L' H'. apply g_prepend in H' as (t' & H' & ->). apply IH in H' as (w & W & ->); [|exact L']. exists (p ++ w). split; [apply jc_plain; assumption|apply app_assoc]. }
    revert H. unfold js_trailing. destruct (Byte.to_N c <? 0x80) eqn:E1; [bN; intros H; apply (P [c] s); [apply json_plain_1; assumption|lia|exact H]|].
    destruct (Byte.to_N c <? 0xC0) eqn:E2; [discriminate|]. destruct (Byte.to_N c <? 0xE0) eqn:E3.
    { destruct s as [|a s]; [discriminate|]. cbn [length] in L. destruct (js_is_trail a) eqn:A; [|discriminate]. apply g_trail in A. bN. intros H. apply (P [c; a] s); [apply json_plain_2; [lia|exact A]|lia|exact H]. }
    destruct (Byte.to_N c <? 0xF0) eqn:E4.
    { destruct s as [|a [|b s]]; try discriminate. cbn [length] in L. destruct (js_is_trail a) eqn:A; [|discriminate]. destruct (js_is_trail b) eqn:B; [|discriminate]. apply g_trail in A, B. bN. intros H. apply (P [c; a; b] s); [apply json_plain_3; [lia|exact A|exact B]|lia|exact H]. }
    destruct (Byte.to_N c <? 0xF8) eqn:E5; [|discriminate].
    destruct s as [|a [|b [|d s]]]; try discriminate. cbn [length] in L. destruct (js_is_trail a) eqn:A; [|discriminate]. destruct (js_is_trail b) eqn:B; [|discriminate]. destruct (js_is_trail d) eqn:D; [|discriminate]. apply g_trail in A, B, D. bN.
    intros H. apply (P [c; a; b; d] s); [apply json_plain_4; [lia|exact A|exact B|exact D]|lia|exact H].
Qed.

(** *** Numbers *)
Definition nm_minus (s : bytes) : bytes * bytes := match s with x2d :: s' => ([x2d], s') | _ => ([], s) end.
Definition nm_int (s1 : bytes) : option (bytes * bytes) :=
  match s1 with x30 :: s' => Some ([x30], s') | _ => match js_take_digits s1 with ([], _) => None | (d, r) => Some (d, r) end end.
Definition nm_frac (s2 : bytes) : option (bytes * bytes) :=
  match s2 with x2e :: s' => match js_take_digits s' with ([], _) => None | (d, r) => Some (x2e :: d, r) end | _ => Some ([], s2) end.
Definition nm_sign (s : bytes) : bytes * bytes := match s with (x2b | x2d) as c :: r => ([c], r) | _ => ([], s) end.
Definition nm_exp (s3 : bytes) : option (bytes * bytes) :=
  match s3 with
  | (x65 | x45) as e :: s' => let (sign, s'') := nm_sign s' in match js_take_digits s'' with ([], _) => None | (d, r) => Some (e :: sign ++ d, r) end
  | _ => Some ([], s3)
  end.
Lemma nm_eq : forall s, js_number s =
  let (m, s1) := nm_minus s in
  match nm_int s1 with None => None | Some (i, s2) => match nm_frac s2 with None => None | Some (f, s3) => match nm_exp s3 with None => None | Some (e, r) => Some (m ++ i ++ f ++ e, r) end end end.
Proof.
  intros s.
  change (js_number s) with (let (m, s1) := nm_minus s in match nm_int s1 with None => None | Some (i, s2) => match nm_frac s2 with None => None | Some (f, s3) =>
    match s3 with
    | (x65 | x45) as e :: s' => let (sign, s'') := nm_sign s' in match js_take_digits s'' with ([], _) => None | (d, r) => Some (m ++ i ++ f ++ e :: sign ++ d, r) end
    | _ => Some (m ++ i ++ f, s3)
    end end end).
  destruct (nm_minus s) as [m s1]. destruct (nm_int s1) as [[i s2]|]; [|reflexivity]. destruct (nm_frac s2) as [[f s3]|]; [|reflexivity].
  unfold nm_exp. destruct s3 as [|c s3]; [rewrite !app_nil_r; reflexivity|]. destruct c; try (rewrite !app_nil_r; reflexivity).
  - destruct (nm_sign s3) as [g s4]. destruct (js_take_digits s4) as [[|x d] r]; reflexivity.
  - destruct (nm_sign s3) as [g s4]. destruct (js_take_digits s4) as [[|x d] r]; reflexivity.
Qed.
Lemma nm_digit : forall c, is_digit c = true <-> 0x30 <= Byte.to_N c <= 0x39.
Proof. intros c. unfold is_digit. rewrite andb_true_iff, !N.leb_le. lia. Qed.
Definition nm_no_digit (r : bytes) : Prop := forall c r', r = c :: r' -> is_digit c = false.
Lemma nm_take : forall d r, Forall (fun c => 0x30 <= Byte.to_N c <= 0x39) d -> nm_no_digit r -> js_take_digits (d ++ r) = (d, r).
Proof.
  induction d as [|c d IH]; intros r F N; cbn [app].
  - destruct r as [|c r]; [reflexivity|]. cbn [js_take_digits]. rewrite (N c r eq_refl). reflexivity.
  - inversion F as [|? ? C D]; subst. cbn [js_take_digits]. apply nm_digit in C. rewrite C, (IH r D N). reflexivity.
Qed.
Lemma nm_take_inv : forall s d r, js_take_digits s = (d, r) -> Forall (fun c => 0x30 <= Byte.to_N c <= 0x39) d /\ s = d ++ r.
Proof.
  induction s as [|c s IH]; intros d r H; cbn [js_take_digits] in H; [injection H as <- <-; split; [constructor|reflexivity]|].
  destruct (is_digit c) eqn:D; [|injection H as <- <-; split; [constructor|reflexivity]].
  destruct (js_take_digits s) as [d' r']. injection H as <- <-. destruct (IH d' r' eq_refl) as [F ->]. split; [constructor; [apply nm_digit; exact D|exact F]|reflexivity].
Qed.
Lemma nm_minus_inv : forall s m s1, nm_minus s = (m, s1) -> In m [[]; [x2d]] /\ s = m ++ s1.
Proof. intros [|c s] m s1 H; [injection H as <- <-; cbn [In]; auto|]. destruct c; injection H as <- <-; cbn [In]; auto. Qed.
Lemma nm_int_inv : forall s i r, nm_int s = Some (i, r) -> json_whole i /\ s = i ++ r.
Proof.
  intros s i r H. assert (A : (exists s', s = x30 :: s') \/ nm_int s = match js_take_digits s with ([], _) => None | (d, r) => Some (d, r) end /\ hd_error s <> Some x30).
  { destruct s as [|c s]; [right; split; [reflexivity|discriminate]|]. destruct c; try (right; split; [reflexivity|discriminate]). left. exists s. reflexivity. }
  destruct A as [(s' & ->)|[A N]]; [injection H as <- <-; split; [left; reflexivity|reflexivity]|]. rewrite A in H. destruct (js_take_digits s) as [[|x d] r'] eqn:T; [discriminate|]. injection H as <- <-.
  apply nm_take_inv in T as [F ->]. split; [|reflexivity]. right. split; [split; [discriminate|exact F]|exact N].
Qed.
Lemma nm_frac_inv : forall s f r, nm_frac s = Some (f, r) -> json_fraction f /\ s = f ++ r.
Proof.
  intros s f r H. assert (A : (exists s', s = x2e :: s') \/ nm_frac s = Some ([], s)).
  { destruct s as [|c s]; [right; reflexivity|]. destruct c; try (right; reflexivity). left. exists s. reflexivity. }
  destruct A as [(s' & ->)|A]; [|rewrite A in H; injection H as <- <-; split; [left; reflexivity|reflexivity]]. cbn [nm_frac] in H. destruct (js_take_digits s') as [[|x d] r'] eqn:T; [discriminate|]. injection H as <- <-.
  apply nm_take_inv in T as [F ->]. split; [|reflexivity]. right. eexists. split; [reflexivity|]. split; [discriminate|exact F].
Qed.
Lemma nm_sign_inv : forall s g r, nm_sign s = (g, r) -> In g [[]; [x2b]; [x2d]] /\ s = g ++ r.
Proof. intros [|c s] g r H; [injection H as <- <-; cbn [In]; auto|]. destruct c; injection H as <- <-; cbn [In]; auto. Qed.
Lemma nm_exp_inv : forall s e r, nm_exp s = Some (e, r) -> json_exponent e /\ s = e ++ r.
Proof.
  intros s e r H. assert (A : (exists c s', s = c :: s' /\ In c [x65; x45] /\ nm_exp s = let (sign, s'') := nm_sign s' in match js_take_digits s'' with ([], _) => None | (d, r) => Some (c :: sign ++ d, r) end) \/ nm_exp s = Some ([], s)).
  { destruct s as [|c s]; [right; reflexivity|]. destruct c; try (right; reflexivity); left; eexists _, s; (split; [reflexivity|split; [cbn [In]; auto|reflexivity]]). }
  destruct A as [(c & s' & -> & C & A)|A]; rewrite A in H; [|injection H as <- <-; split; [left; reflexivity|reflexivity]]. destruct (nm_sign s') as [g s''] eqn:G. apply nm_sign_inv in G as [G ->].
  destruct (js_take_digits s'') as [[|x d] r'] eqn:T; [discriminate|]. injection H as <- <-. apply nm_take_inv in T as [F ->]. split; [|cbn [app]; rewrite <- app_assoc; reflexivity].
  right. exists c, g, (x :: d). split; [reflexivity|]. split; [exact C|]. split; [exact G|]. split; [discriminate|exact F].
Qed.
Lemma nm_inv : forall s w r, js_number s = Some (w, r) -> json_number w /\ s = w ++ r.
Proof.
  intros s w r H. rewrite nm_eq in H. destruct (nm_minus s) as [m s1] eqn:M. apply nm_minus_inv in M as [M ->]. destruct (nm_int s1) as [[i s2]|] eqn:I; [|discriminate]. apply nm_int_inv in I as [I ->].
  destruct (nm_frac s2) as [[f s3]|] eqn:F; [|discriminate]. apply nm_frac_inv in F as [F ->]. destruct (nm_exp s3) as [[e s4]|] eqn:X; [|discriminate]. apply nm_exp_inv in X as [X ->]. injection H as <- <-.
  split; [exists m, i, f, e; auto|]. rewrite <- !app_assoc. reflexivity.
Qed.
(** What may follow a number: no digit, no point, no letter e. *)
Definition nm_stop (r : bytes) : Prop := forall c r', r = c :: r' -> is_digit c = false /\ c <> x2e /\ c <> x65 /\ c <> x45.
Lemma nm_stop_digit : forall r, nm_stop r -> nm_no_digit r.
Proof. intros r H c r' E. exact (proj1 (H c r' E)). Qed.
Lemma nm_exp_ok : forall e r, json_exponent e -> nm_stop r -> nm_exp (e ++ r) = Some (e, r).
Proof.
  intros e r [->|(c & g & d & -> & C & G & [N F])] R.
  - cbn [app]. destruct r as [|c r]; [reflexivity|]. destruct (R c r eq_refl) as (_ & _ & E1 & E2). destruct c; try reflexivity; [elim E2|elim E1]; reflexivity.
  - assert (S : nm_sign ((g ++ d) ++ r) = (g, d ++ r)).
    { destruct d as [|x d]; [elim N; reflexivity|]. inversion F as [|? ? X D]; subst. cbn [In] in G. destruct G as [<-|[<-|[<-|[]]]]; [|reflexivity..]. cbn [app]. destruct x; try reflexivity; exfalso; vm_compute in X; destruct X as [X1 X2]; elim X1; reflexivity. }
    assert (T : nm_exp ((c :: g ++ d) ++ r) = let (sign, s'') := nm_sign ((g ++ d) ++ r) in match js_take_digits s'' with ([], _) => None | (d, r) => Some (c :: sign ++ d, r) end) by (cbn [In] in C; destruct C as [<-|[<-|[]]]; reflexivity).
    rewrite T, S, (nm_take d r F (nm_stop_digit _ R)). destruct d; [elim N; reflexivity|reflexivity].
Qed.
Lemma nm_exp_head : forall e r c s', json_exponent e -> nm_stop r -> e ++ r = c :: s' -> is_digit c = false /\ c <> x2e.
Proof.
  intros e r c s' [->|(x & g & d & -> & C & _)] R E.
  - destruct (R c s' E) as (A & B & _). split; assumption.
  - injection E as <- _. cbn [In] in C. destruct C as [<-|[<-|[]]]; split; (reflexivity || discriminate).
Qed.
Lemma nm_frac_ok : forall f e r, json_fraction f -> json_exponent e -> nm_stop r -> nm_frac (f ++ e ++ r) = Some (f, e ++ r).
Proof.
  intros f e r [->|(d & -> & [N F])] X R.
  - cbn [app]. destruct (e ++ r) as [|c s'] eqn:E; [reflexivity|]. destruct (nm_exp_head e r c s' X R E) as [_ P]. destruct c; try reflexivity. elim P. reflexivity.
  - cbn [app nm_frac]. rewrite (nm_take d (e ++ r) F); [|intros c r' E; exact (proj1 (nm_exp_head e r c r' X R E))]. destruct d; [elim N; reflexivity|reflexivity].
Qed.
Lemma nm_int_ok : forall i f e r, json_whole i -> json_fraction f -> json_exponent e -> nm_stop r -> nm_int (i ++ f ++ e ++ r) = Some (i, f ++ e ++ r).
Proof.
  intros i f e r [->|[[N D] Z]] F X R; [reflexivity|].
  assert (T : nm_int (i ++ f ++ e ++ r) = match js_take_digits (i ++ f ++ e ++ r) with ([], _) => None | (d, r) => Some (d, r) end).
  { destruct i as [|c i]; [elim N; reflexivity|]. destruct c; try reflexivity. elim Z. reflexivity. }
  rewrite T, (nm_take i (f ++ e ++ r) D); [destruct i; [elim N; reflexivity|reflexivity]|].
  intros c r' E. destruct F as [->|(d & -> & _)]; [exact (proj1 (nm_exp_head e r c r' X R E))|injection E as <- _; reflexivity].
Qed.
Lemma nm_ok : forall w r, json_number w -> nm_stop r -> js_number (w ++ r) = Some (w, r).
Proof.
  intros w r (m & i & f & e & -> & M & I & F & X) R. rewrite nm_eq. replace ((m ++ i ++ f ++ e) ++ r) with (m ++ i ++ f ++ e ++ r) by (rewrite <- !app_assoc; reflexivity).
  assert (nm_minus (m ++ i ++ f ++ e ++ r) = (m, i ++ f ++ e ++ r)) as ->.
  { cbn [In] in M. destruct M as [<-|[<-|[]]]; [|reflexivity]. cbn [app]. destruct I as [->|[[N D] _]]; [reflexivity|]. destruct i as [|x i]; [elim N; reflexivity|]. inversion D as [|? ? X' D']; subst. cbn [app].
    destruct x; try reflexivity. exfalso. vm_compute in X'. destruct X' as [X1 _]. elim X1. reflexivity. }
  rewrite (nm_int_ok i f e r I F X R), (nm_frac_ok f e r F X R), (nm_exp_ok e r X R). reflexivity.
Qed.
(** A number starts with a digit or a minus. *)
Lemma nm_head : forall w, json_number w -> exists c w', w = c :: w' /\ (is_digit c = true \/ c = x2d).
Proof.
  intros w (m & i & f & e & -> & M & I & _ & _). cbn [In] in M. destruct M as [<-|[<-|[]]]; [|eexists _, _; split; [reflexivity|right; reflexivity]]. cbn [app].
  destruct I as [->|[[N D] _]]; [eexists _, _; split; [reflexivity|left; reflexivity]|]. destruct i as [|x i]; [elim N; reflexivity|]. inversion D as [|? ? X' D']; subst. eexists _, _. split; [reflexivity|]. left. apply nm_digit. exact X'.
Qed.

(** *** Values *)
(** What may follow a value. *)
Definition vstop (r : bytes) : Prop := forall c r', r = c :: r' -> In c [x20; x09; x0a; x0d; x2c; x7d; x5d].
Lemma vstop_num : forall r, vstop r -> nm_stop r.
Proof. intros r H c r' E. specialize (H c r' E). cbn [In] in H. repeat (destruct H as [<-|H]; [repeat split; (reflexivity || discriminate)|]). contradiction. Qed.
Lemma vstop_space : forall a r, json_space a -> vstop r -> vstop (a ++ r).
Proof. intros [|x a] r A R c r' E; [exact (R c r' E)|]. injection E as <- _. inversion A as [|? ? X _]; subst. cbn [In] in *. tauto. Qed.
Lemma vstop_cons : forall c r, In c [x20; x09; x0a; x0d; x2c; x7d; x5d] -> vstop (c :: r).
Proof. intros c r H c' r' E. injection E as <- _. exact H. Qed.
(** The first character of a value. *)
Definition vhead (c : byte) : Prop := In c [x22; x7b; x5b; x74; x66; x6e; x2d] \/ is_digit c = true.
Lemma vhead_ok : forall w t, json_value w t -> exists c w', w = c :: w' /\ vhead c.
Proof.
  intros w t H. unfold vhead. destruct H as [w t _|w H|w H|a _|a _|w l _|w l _]; try (eexists _, _; split; [reflexivity|left; cbn [In]; tauto]).
  - destruct (nm_head w H) as (c & w' & -> & [D| ->]); eexists _, _; (split; [reflexivity|]); [right; exact D|left; cbn [In]; tauto].
  - cbn [In] in H. repeat (destruct H as [<-|H]; [eexists _, _; split; [reflexivity|left; cbn [In]; tauto]|]). contradiction.
Qed.
Lemma vhead_plain : forall c, vhead c -> js_is_ws c = false /\ c <> x7d /\ c <> x5d.
Proof.
  intros c [H|H]; [cbn [In] in H; repeat (destruct H as [<-|H]; [repeat split; (reflexivity || discriminate)|]); contradiction|].
  apply nm_digit in H. repeat split; [|intros ->; vm_compute in H; destruct H as [_ H]; elim H; reflexivity..].
  destruct (js_is_ws c) eqn:W; [|reflexivity]. apply g_ws in W. cbn [In] in W. exfalso. repeat (destruct W as [<-|W]; [vm_compute in H; destruct H as [H _]; elim H; reflexivity|]). contradiction.
Qed.
Scheme jv_mut := Induction for json_value Sort Prop
with jms_mut := Induction for json_members Sort Prop
with jm_mut := Induction for json_member Sort Prop
with jis_mut := Induction for json_items Sort Prop.

Lemma jv_number_value : forall f w r, json_number w -> vstop r -> js_value (S f) (w ++ r) = Some (PT w [], r).
Proof.
  intros f w r H R. pose proof (nm_ok w r H (vstop_num r R)) as K. destruct (nm_head w H) as (c & w' & -> & C). cbn [app] in *.
  assert (W : js_is_ws c = false) by (apply vhead_plain; destruct C as [C| ->]; [right; exact C|left; cbn [In]; tauto]).
  cbn [js_value]. rewrite (g_skip_stop _ _ W). rewrite K.
  destruct C as [C| ->]; [|reflexivity]. unfold is_digit in C. destruct c; try discriminate C; reflexivity.
Qed.
Lemma jv_word_value : forall f w r, In w [bs "true"; bs "false"; bs "null"] -> js_value (S f) (w ++ r) = Some (PT w [], r).
Proof. intros f w r H. cbn [In] in H. repeat (destruct H as [<-|H]; [reflexivity|]). contradiction. Qed.

Lemma jm_shape : forall w k t, json_member w k t -> exists a w', json_space a /\ w = a ++ x22 :: w'.
Proof. intros w k t [a w' k' b c v t' d A _ _ _ _ _]. exists a. eexists. split; [exact A|reflexivity]. Qed.
Lemma jms_shape : forall w l, json_members w l -> exists a w', json_space a /\ w = a ++ x22 :: w'.
Proof.
  intros w l [w' k t M|w' k t w'' l' M _]; destruct (jm_shape _ _ _ M) as (a & u & A & ->); exists a; eexists; (split; [exact A|]); [reflexivity|rewrite <- app_assoc; reflexivity].
Qed.
Lemma jis_shape : forall w l, json_items w l -> exists a c w', json_space a /\ vhead c /\ w = a ++ c :: w'.
Proof.
  intros w l [a v t d A V _|a v t d w' l' A V _ _]; destruct (vhead_ok _ _ V) as (c & u & -> & C); exists a, c; eexists; (split; [exact A|split; [exact C|reflexivity]]).
Qed.
Lemma js_value_ws : forall f a s, json_space a -> js_value f (a ++ s) = js_value f s.
Proof. intros f a s A. apply value_ws. apply g_skip. exact A. Qed.

Definition reads_value (w : bytes) (t : ptree) : Prop := forall f r, (length w <= f)%nat -> vstop r -> js_value f (w ++ r) = Some (t, r).
Definition reads_member (w k : bytes) (t : ptree) : Prop := forall f acc r, (length w <= S f)%nat -> vstop r ->
  js_members (S f) acc (w ++ r) =
    match js_have x2c r with Some s5 => js_members f (acc ++ [(k, t)]) s5 | None => option_map (fun s5 => (PT [] (acc ++ [(k, t)]), s5)) (js_have x7d r) end.
Definition reads_members (w : bytes) (l : list (bytes * ptree)) : Prop := forall f acc r, (length w <= f)%nat ->
  js_members f acc (w ++ x7d :: r) = Some (PT [] (acc ++ l), r).
Definition reads_items (w : bytes) (l : list (bytes * ptree)) : Prop := forall f acc r, (length w < f)%nat ->
  js_items f acc (w ++ x5d :: r) = Some (PT [] (acc ++ l), r).

Lemma jv_reads : forall w t, json_value w t -> reads_value w t.
Proof.
  apply (jv_mut (fun w t _ => reads_value w t) (fun w l _ => reads_members w l) (fun w k t _ => reads_member w k t) (fun w l _ => reads_items w l)).
  - intros w t C f r L R. destruct f as [|f]; [cbn in L; lia|]. cbn [app]. rewrite value_text, <- app_assoc. cbn [app]. rewrite (g_chars w t r C). reflexivity.
  - intros w N f r L R. destruct f as [|f]; [destruct (nm_head w N) as (c & w' & -> & _); cbn in L; lia|]. apply jv_number_value; assumption.
  - intros w N f r L R. destruct f as [|f]; [cbn [In] in N; repeat (destruct N as [<-|N]; [cbn in L; lia|]); contradiction|]. apply jv_word_value; assumption.
  - intros a A f r L R. destruct f as [|f]; [cbn in L; lia|]. cbn [app]. rewrite <- app_assoc. cbn [app js_value js_skip_ws js_is_ws]. change (byte_eqb x7b x7b) with true. cbv iota. rewrite (g_have a x7d r A eq_refl). reflexivity.
  - intros a A f r L R. destruct f as [|f]; [cbn in L; lia|]. cbn [app]. rewrite <- app_assoc. cbn [app js_value js_skip_ws js_is_ws]. change (byte_eqb x5b x7b) with false. change (byte_eqb x5b x5b) with true. cbv iota. rewrite (g_have a x5d r A eq_refl). reflexivity.
  - intros w l M IH f r L R. destruct f as [|f]; [cbn in L; lia|]. cbn [app length] in *. rewrite app_length in L. cbn [length] in L. rewrite <- app_assoc. cbn [app js_value js_skip_ws js_is_ws]. change (byte_eqb x7b x7b) with true. cbv iota.
    destruct (jms_shape _ _ M) as (a & u & A & E). assert (js_have x7d (w ++ x7d :: r) = None) as -> by (rewrite E, <- app_assoc; apply g_have_not; [exact A|reflexivity|discriminate]).
    rewrite (IH f [] r) by lia. reflexivity.
  - intros w l M IH f r L R. destruct f as [|f]; [cbn in L; lia|]. cbn [app length] in *. rewrite app_length in L. cbn [length] in L. rewrite <- app_assoc. cbn [app js_value js_skip_ws js_is_ws]. change (byte_eqb x5b x7b) with false. change (byte_eqb x5b x5b) with true. cbv iota.
    destruct (jis_shape _ _ M) as (a & c & u & A & C & E). destruct (vhead_plain c C) as (C1 & _ & C3). assert (js_have x5d (w ++ x5d :: r) = None) as -> by (rewrite E, <- app_assoc; apply g_have_not; assumption).
    rewrite (IH f [] r) by lia. reflexivity.
  - intros w k t M IH f acc r L. destruct (jm_shape _ _ _ M) as (a & u & _ & E). destruct f as [|f]; [rewrite E, app_length in L; cbn in L; lia|].
    rewrite (IH f acc (x7d :: r)) by (lia || (apply vstop_cons; cbn [In]; tauto)). reflexivity.
  - intros w k t w' l M IH M' IH' f acc r L. destruct f as [|f]; [rewrite app_length in L; cbn in L; lia|]. rewrite app_length in L. cbn [length] in L. rewrite <- app_assoc. cbn [app].
    rewrite (IH f acc (x2c :: w' ++ x7d :: r)) by (lia || (apply vstop_cons; cbn [In]; tauto)). change (js_have x2c (x2c :: w' ++ x7d :: r)) with (Some (w' ++ x7d :: r)). cbv iota.
    destruct (jm_shape _ _ _ M) as (a & u & _ & E). rewrite E, app_length in L. cbn [length] in L. rewrite (IH' f) by lia. rewrite <- app_assoc. reflexivity.
  - intros a w k b c v t d A K B C V IH D f acc r L R. cbn [js_members]. repeat (rewrite app_length in L; cbn [length] in L). repeat (rewrite <- app_assoc; cbn [app]).
    rewrite (g_have a x22) by (exact A || reflexivity). rewrite (g_chars w k _ K). rewrite (g_have b x3a) by (exact B || reflexivity). rewrite (js_value_ws _ _ _ C), (IH f) by (lia || (apply vstop_space; assumption)).
    rewrite !(have_ws _ (d ++ r) r) by (apply g_skip; exact D). reflexivity.
  - intros a v t d A V IH D f acc r L. destruct f as [|f]; [lia|]. repeat (rewrite app_length in L; cbn [length] in L). repeat (rewrite <- app_assoc; cbn [app]). cbn [js_items].
    rewrite (js_value_ws _ _ _ A), (IH f) by (lia || (apply vstop_space; [assumption|apply vstop_cons; cbn [In]; tauto])). rewrite (g_have_not d x2c x5d r), (g_have d x5d r) by (assumption || reflexivity || discriminate). reflexivity.
  - intros a v t d w l A V IH D M IH' f acc r L. destruct f as [|f]; [lia|]. repeat (rewrite app_length in L; cbn [length] in L). repeat (rewrite <- app_assoc; cbn [app]). cbn [js_items].
    rewrite (js_value_ws _ _ _ A), (IH f) by (lia || (apply vstop_space; [assumption|apply vstop_cons; cbn [In]; tauto])). rewrite (g_have d x2c) by (assumption || reflexivity). rewrite (IH' f) by lia. rewrite <- app_assoc. reflexivity.
Qed.

Lemma js_strip_inv : forall w s r, js_strip w s = Some r -> s = w ++ r.
Proof.
  induction w as [|a w IH]; intros s r H; cbn [js_strip] in H; [injection H as <-; reflexivity|]. destruct s as [|b s]; [discriminate|]. destruct (byte_eqb a b) eqn:Q; [|discriminate].
  apply byte_eqb_eq in Q. subst b. rewrite (IH _ _ H). reflexivity.
Qed.
Lemma js_word_inv : forall w s t r, js_word w s = Some (t, r) -> t = w /\ s = w ++ r.
Proof. intros w s t r H. unfold js_word in H. destruct (js_strip w s) as [u|] eqn:E; [|discriminate]. injection H as <- <-. split; [reflexivity|apply js_strip_inv; exact E]. Qed.
Lemma js_leaf_inv : forall o t r, js_leaf o = Some (t, r) -> exists d, o = Some (d, r) /\ t = PT d [].
Proof. intros [[d r']|] t r H; [|discriminate]. injection H as <- <-. exists d. split; reflexivity. Qed.
Lemma js_read_inv : forall f,
  (forall s t r, js_value f s = Some (t, r) -> exists a w, json_space a /\ json_value w t /\ s = a ++ w ++ r) /\
  (forall acc s t r, js_members f acc s = Some (t, r) -> exists w l, json_members w l /\ s = w ++ x7d :: r /\ t = PT [] (acc ++ l)) /\
  (forall acc s t r, js_items f acc s = Some (t, r) -> exists w l, json_items w l /\ s = w ++ x5d :: r /\ t = PT [] (acc ++ l)).
Proof.
  induction f as [|f (IHv & IHm & IHi)]; [repeat split; intros; discriminate|]. repeat split.
  - intros s t r H. destruct (g_skip_inv s) as (a & A & E). cbn [js_value] in H. destruct (js_skip_ws s) as [|c s1]; [discriminate|]. exists a. rewrite E.
    assert (K : forall w, json_value w t /\ c :: s1 = w ++ r -> exists w, json_space a /\ json_value w t /\ a ++ c :: s1 = a ++ w ++ r) by (intros w [W Q]; exists w; rewrite Q; auto).
    destruct (byte_eqb c x7b) eqn:C1.
    { apply byte_eqb_eq in C1. subst c. destruct (js_have x7d s1) as [s2|] eqn:HV.
      - injection H as <- <-. apply g_have_inv in HV as (b & B & ->). apply (K (x7b :: b ++ [x7d])). split; [constructor; exact B|cbn [app]; rewrite <- app_assoc; reflexivity].
      - apply IHm in H as (w & l & M & -> & ->). apply (K (x7b :: w ++ [x7d])). split; [constructor; exact M|cbn [app]; rewrite <- app_assoc; reflexivity]. }
    destruct (byte_eqb c x5b) eqn:C2.
    { apply byte_eqb_eq in C2. subst c. destruct (js_have x5d s1) as [s2|] eqn:HV.
      - injection H as <- <-. apply g_have_inv in HV as (b & B & ->). apply (K (x5b :: b ++ [x5d])). split; [constructor; exact B|cbn [app]; rewrite <- app_assoc; reflexivity].
      - apply IHi in H as (w & l & M & -> & ->). apply (K (x5b :: w ++ [x5d])). split; [constructor; exact M|cbn [app]; rewrite <- app_assoc; reflexivity]. }
    destruct (byte_eqb c x22) eqn:C3.
    { apply byte_eqb_eq in C3. subst c. apply js_leaf_inv in H as (d & H & ->). apply (g_chars_inv (length s1)) in H as (w & W & ->); [|apply le_n]. apply (K (x22 :: w ++ [x22])). split; [constructor; exact W|cbn [app]; rewrite <- app_assoc; reflexivity]. }
    apply js_leaf_inv in H as (d & H & ->). unfold js_or in H.
    destruct (js_word (bs "true") (c :: s1)) as [[w u]|] eqn:W1; [injection H as <- <-; apply js_word_inv in W1 as [-> W1]; apply (K (bs "true")); split; [apply jv_word; cbn [In]; tauto|exact W1]|].
    destruct (js_word (bs "false") (c :: s1)) as [[w u]|] eqn:W2; [injection H as <- <-; apply js_word_inv in W2 as [-> W2]; apply (K (bs "false")); split; [apply jv_word; cbn [In]; tauto|exact W2]|].
    destruct (js_word (bs "null") (c :: s1)) as [[w u]|] eqn:W3; [injection H as <- <-; apply js_word_inv in W3 as [-> W3]; apply (K (bs "null")); split; [apply jv_word; cbn [In]; tauto|exact W3]|].
    apply nm_inv in H as [H Q]. apply (K d). split; [apply jv_number; exact H|exact Q].
  - intros acc s t r H. cbn [js_members] in H. destruct (js_have x22 s) as [s1|] eqn:H1; [|discriminate]. apply g_have_inv in H1 as (a & A & ->).
    destruct (js_string_rest s1) as [[k s2]|] eqn:H2; [|discriminate]. apply (g_chars_inv (length s1)) in H2 as (w & W & ->); [|apply le_n].
    destruct (js_have x3a s2) as [s3|] eqn:H3; [|discriminate]. apply g_have_inv in H3 as (b & B & ->). destruct (js_value f s3) as [[v s4]|] eqn:H4; [|discriminate]. apply IHv in H4 as (c & u & C & V & ->).
    destruct (js_have x2c s4) as [s5|] eqn:H5.
    + apply g_have_inv in H5 as (d & D & ->). apply IHm in H as (w' & l & M & -> & ->). eexists _, ((k, v) :: l). split; [eapply jms_more; [apply (jm_one a w k b c u v d); assumption|exact M]|].
      split; [|rewrite <- app_assoc; reflexivity]. repeat (rewrite <- app_assoc; cbn [app]). reflexivity.
    + destruct (js_have x7d s4) as [s5|] eqn:H6; [|discriminate]. injection H as <- <-. apply g_have_inv in H6 as (d & D & ->). eexists _, [(k, v)]. split; [apply jms_last; apply (jm_one a w k b c u v d); assumption|].
      split; [|reflexivity]. repeat (rewrite <- app_assoc; cbn [app]). reflexivity.
  - intros acc s t r H. cbn [js_items] in H. destruct (js_value f s) as [[v s4]|] eqn:H4; [|discriminate]. apply IHv in H4 as (a & u & A & V & ->).
    destruct (js_have x2c s4) as [s5|] eqn:H5.
    + apply g_have_inv in H5 as (d & D & ->). apply IHi in H as (w' & l & M & -> & ->). eexists _, (([], v) :: l). split; [apply (jis_more a u v d w' l); assumption|].
      split; [|rewrite <- app_assoc; reflexivity]. repeat (rewrite <- app_assoc; cbn [app]). reflexivity.
    + destruct (js_have x5d s4) as [s5|] eqn:H6; [|discriminate]. injection H as <- <-. apply g_have_inv in H6 as (d & D & ->). eexists _, [([], v)]. split; [apply (jis_last a u v d); assumption|].
      split; [|reflexivity]. repeat (rewrite <- app_assoc; cbn [app]). reflexivity.
Qed.

Lemma read_json_iff : forall s t, read_json s = Some t <-> json_text s t.
Proof.
  intros s t. unfold read_json. split.
  - destruct (js_value (S (length s)) s) as [[t' r]|] eqn:V; [|discriminate]. destruct (js_skip_ws r) eqn:R; [|discriminate]. intros [= <-]. apply (proj1 (js_read_inv _)) in V as (a & w & A & W & E).
    apply g_skip_nil in R. exists a, w, r. auto.
  - intros (a & v & d & -> & A & V & D). rewrite (js_value_ws _ _ _ A), (jv_reads v t V) by ((rewrite !app_length; lia) || (rewrite <- (app_nil_r d); apply vstop_space; [exact D|intros c r' E; discriminate])).
    assert (js_skip_ws d = []) as -> by (apply g_skip_nil; exact D). reflexivity.
Qed.
Lemma json_unambiguous : forall s t t', json_text s t -> json_text s t' -> t = t'.
Proof. intros s t t' A B. apply read_json_iff in A, B. congruence. Qed.
Lemma written_json : forall t s, write_json t = Ok s -> utf8_tree t -> json_text s t.
Proof.
  intros t s W U. assert (J : json_tree t). { apply json_tree_ok. unfold write_json in W. destruct (js_verify_node true t); [reflexivity|discriminate]. }
  destruct (json_back t J) as (s' & W' & R & _). rewrite W in W'. injection W' as <-. apply read_json_iff. exact (R U).
Qed.
Lemma configuration_text : forall E file c, config_load E (read_json file) = Ok c <-> exists j, json_text file j /\ config_read E j c.
Proof.
  intros E file c. split.
  - intros H. destruct (read_json file) as [j|] eqn:R; [|discriminate]. exists j. split; [apply read_json_iff; exact R|apply config_iff; exact H].
  - intros (j & T & C). apply read_json_iff in T. rewrite T. apply config_iff. exact C.
Qed.
