(** Configuration loading and the profile store. *)
From Coq Require Import Sorting.Sorted Sorting.Permutation.
From Verif Require Import JsonFacts EncoderFacts NameFacts.
From Verif Require Export PolicyFacts Spec_Config.
Local Open Scope N_scope.

(** ** JSON trees *)
Lemma assoc_first : forall k l t, assoc_child k l = Some t <-> exists a b, l = a ++ (k, t) :: b /\ ~ In k (map fst a).
Proof.
  intros k l. induction l as [|[k1 t1] l IH]; intros t; cbn [assoc_child].
  - split; [discriminate|]. intros ([|] & b & Q & _); discriminate.
  - destruct (bytes_eqb k k1) eqn:B.
    + apply bytes_eqb_eq in B. subst k1. split.
      * intros Q. injection Q as <-. exists [], l. split; [reflexivity|intros []].
      * intros (a & b & Q & N). destruct a as [|[k2 t2] a]; [injection Q as <- <-; reflexivity|]. injection Q as <- <- Q. exfalso. apply N. left. reflexivity.
    + apply bytes_eqb_neq in B. rewrite IH. split.
      * intros (a & b & -> & N). exists ((k1, t1) :: a), b. split; [reflexivity|]. intros [Q|Q]; [cbn in Q; congruence|exact (N Q)].
      * intros (a & b & Q & N). destruct a as [|[k2 t2] a]; [injection Q as <- <-; congruence|]. injection Q as <- <- ->. exists a, b. split; [reflexivity|]. intros Q. apply N. right. exact Q.
Qed.
Lemma child_first : forall j k t, pt_child k j = Some t <-> first_child j k t.
Proof. intros j k t. apply assoc_first. Qed.
Lemma child_none : forall j k, pt_child k j = None <-> no_child j k.
Proof.
  intros [d l] k. unfold pt_child, no_child. cbn [pt_children]. induction l as [|[k1 t1] l IH]; cbn [assoc_child map fst]; [split; [intros _ []|reflexivity]|].
  destruct (bytes_eqb k k1) eqn:B.
  - apply bytes_eqb_eq in B. subst k1. split; [discriminate|]. intros N. exfalso. apply N. left. reflexivity.
  - apply bytes_eqb_neq in B. rewrite IH. split; intros N; [intros [Q|Q]; [congruence|exact (N Q)]|intros Q; apply N; right; exact Q].
Qed.
Lemma get_text : forall j k s, pt_get k [] j = s <-> text j k s.
Proof.
  intros j k s. unfold pt_get, text. destruct (pt_child k j) as [t|] eqn:C.
  - apply child_first in C as F. split.
    + intros <-. left. exists t. auto.
    + intros [(t' & F' & <-)|[N _]]; [|apply child_none in N; congruence]. apply child_first in F'. congruence.
  - apply child_none in C as N. split; [intros <-; right; auto|]. intros [(t' & F' & _)|[_ ->]]; [|reflexivity]. apply child_first in F'. congruence.
Qed.
Lemma text_at : forall j k, text j k (pt_get k [] j).
Proof. intros j k. apply get_text. reflexivity. Qed.
Definition child_items (k : bytes) (j : ptree) : list (bytes * ptree) := match pt_child k j with Some t => pt_children t | None => [] end.
Lemma get_items : forall j k l, child_items k j = l <-> items j k l.
Proof.
  intros j k l. unfold child_items, items. destruct (pt_child k j) as [t|] eqn:C.
  - apply child_first in C as F. split.
    + intros <-. left. exists t. auto.
    + intros [(t' & F' & <-)|[N _]]; [|apply child_none in N; congruence]. apply child_first in F'. congruence.
  - apply child_none in C as N. split; [intros <-; right; auto|]. intros [(t' & F' & _)|[_ ->]]; [|reflexivity]. apply child_first in F'. congruence.
Qed.

Lemma lower_iff : forall a b, to_lower a = b <-> lower_of a b.
Proof.
  assert (ONE : forall x, Byte.to_N (lower_byte x) = if (65 <=? Byte.to_N x) && (Byte.to_N x <=? 90) then Byte.to_N x + 32 else Byte.to_N x).
  { intros x. unfold lower_byte. destruct ((65 <=? Byte.to_N x) && (Byte.to_N x <=? 90)) eqn:C; [|reflexivity]. apply andb_true_iff in C as [C1 C2]. apply N.leb_le in C1, C2.
    rewrite to_N_byte_of_N. apply N.mod_small. lia. }
  intros a b. split.
  - intros <-. unfold lower_of, to_lower. induction a as [|x a IH]; constructor; [apply ONE|exact IH].
  - intros H. induction H as [|x y a b Q _ IH]; [reflexivity|]. cbn [to_lower map]. f_equal; [|exact IH]. rewrite <- ONE in Q. apply to_N_inj. symmetry. exact Q.
Qed.

(** ** Numbers *)
Lemma digit_iff : forall c d, is_digit c = true /\ Byte.to_N c - 48 = d <-> Byte.to_N c = 48 + d /\ d < 10.
Proof. intros c d. unfold is_digit. rewrite andb_true_iff, !N.leb_le. lia. Qed.
Lemma parse_snoc : forall s c acc, parse_digits (s ++ [c]) acc = match parse_digits s acc with Some n => if is_digit c then Some (n * 10 + (Byte.to_N c - 48)) else None | None => None end.
Proof.
  induction s as [|x s IH]; intros c acc; cbn [app parse_digits]; [reflexivity|]. destruct (is_digit x); [apply IH|reflexivity].
Qed.
Lemma decimal_iff : forall s n, parse_dec s = Some n <-> decimal s n.
Proof.
  assert (A : forall s, s <> [] -> parse_dec s = parse_digits s 0) by (intros [|] H; [contradiction|reflexivity]).
  intros s. induction s as [|c s IH] using rev_ind; intros n.
  - split; [discriminate|]. intros H. inversion H as [|s0 ? c ? ? ? ? Q]. destruct s0; discriminate.
  - rewrite A by (destruct s; discriminate). rewrite parse_snoc. destruct s as [|x s].
    + cbn [parse_digits app]. change (0 * 10) with 0. split.
      * intros H. destruct (is_digit c) eqn:D; [|discriminate]. injection H as <-. destruct (proj1 (digit_iff c (Byte.to_N c - 48)) (conj D eq_refl)) as [P Q]. rewrite N.add_0_l. constructor; assumption.
      * intros H. inversion H as [c0 d P Q E1 E2|s0 n0 c0 d H0 P Q E1 E2]; subst.
        -- destruct (proj2 (digit_iff c n) (conj P Q)) as [D V]. rewrite D, V. reflexivity.
        -- apply (f_equal (@length byte)) in E1. rewrite app_length in E1. destruct s0; [inversion H0 as [|[|] ? ? ? ? ? ? E3]; discriminate|cbn in E1; lia].
    + rewrite <- A by discriminate. split.
      * intros H. destruct (parse_dec (x :: s)) as [m|] eqn:PD; [|discriminate]. destruct (is_digit c) eqn:D; [|discriminate]. injection H as <-.
        destruct (proj1 (digit_iff c (Byte.to_N c - 48)) (conj D eq_refl)) as [P Q]. rewrite (N.mul_comm m). apply dec_more; [apply IH; reflexivity|exact P|exact Q].
      * intros H. inversion H as [c0 d P Q E1 E2|s0 n0 c0 d H0 P Q E1 E2]; subst.
        -- destruct s; discriminate.
        -- rewrite app_comm_cons in E1. apply app_inj_tail in E1 as [-> ->]. apply IH in H0. rewrite H0. destruct (proj2 (digit_iff c d) (conj P Q)) as [D V]. rewrite D, V. f_equal. lia.
Qed.
Lemma decimal_head : forall s n, decimal s n -> exists c s', s = c :: s' /\ c <> x2d /\ c <> x2b.
Proof.
  intros s n H. induction H as [c d P Q|s n c d H (x & s' & -> & N) P Q].
  - exists c, []. split; [reflexivity|]. split; intros ->; [change (Byte.to_N x2d) with 45 in P|change (Byte.to_N x2b) with 43 in P]; lia.
  - exists x, (s' ++ [c]). auto.
Qed.
Lemma sign_cases : forall (A : Type) s (f g h : bytes -> A), match s with x2d :: s' => f s' | x2b :: s' => g s' | _ => h s end =
  match s with c :: s' => if byte_eqb c x2d then f s' else if byte_eqb c x2b then g s' else h s | [] => h [] end.
Proof. intros A [|c s] f g h; [reflexivity|]. destruct c; reflexivity. Qed.
Lemma int_iff : forall s z, parse_int s = Some z <-> int_text s z.
Proof.
  intros s z. unfold parse_int, int_text. rewrite (sign_cases _ s (fun s' => option_map (fun n => (- Z.of_N n)%Z) (parse_dec s')) (fun s' => option_map Z.of_N (parse_dec s')) (fun s => option_map Z.of_N (parse_dec s))).
  assert (R : forall o, match o with Some z => if ((- 2 ^ 31 <=? z) && (z <? 2 ^ 31))%Z then Some z else None | None => None end = Some z <-> o = Some z /\ (- 2 ^ 31 <= z < 2 ^ 31)%Z).
  { intros [y|]; [|split; [discriminate|intros [Q _]; discriminate]]. destruct ((- 2 ^ 31 <=? y) && (y <? 2 ^ 31))%Z eqn:C.
    - apply andb_true_iff in C as [C1 C2]. apply Z.leb_le in C1. apply Z.ltb_lt in C2. split; [intros Q; injection Q as ->; auto|intros [Q _]; exact Q].
    - split; [discriminate|]. intros [Q B]. injection Q as ->. apply andb_false_iff in C as [C|C]; [apply Z.leb_gt in C|apply Z.ltb_ge in C]; lia. }
  rewrite R. clear R. rewrite and_comm. apply and_iff_compat_l.
  destruct s as [|c s].
  - split; [discriminate|]. intros (ds & n & D & [[[Q|Q] _]|[Q _]]); try discriminate. subst ds. destruct (decimal_head _ _ D) as (c & s' & Q & _). discriminate.
  - destruct (byte_eqb c x2d) eqn:M; [|destruct (byte_eqb c x2b) eqn:P].
    + apply byte_eqb_eq in M. subst c. split.
      * intros H. destruct (parse_dec s) as [n|] eqn:D; [|discriminate]. injection H as <-. exists s, n. split; [apply decimal_iff, D|]. right. auto.
      * intros (ds & n & D & [[[Q|Q] _]|[Q ->]]).
        -- subst ds. destruct (decimal_head _ _ D) as (c & s' & Q & N1 & N2). injection Q as <- _. contradiction.
        -- discriminate.
        -- injection Q as ->. apply decimal_iff in D. rewrite D. reflexivity.
    + apply byte_eqb_eq in P. subst c. split.
      * intros H. destruct (parse_dec s) as [n|] eqn:D; [|discriminate]. injection H as <-. exists s, n. split; [apply decimal_iff, D|]. left. auto.
      * intros (ds & n & D & [[[Q|Q] ->]|[Q _]]).
        -- subst ds. destruct (decimal_head _ _ D) as (c & s' & Q & N1 & N2). injection Q as <- _. contradiction.
        -- injection Q as ->. apply decimal_iff in D. rewrite D. reflexivity.
        -- discriminate.
    + split.
      * intros H. destruct (parse_dec (c :: s)) as [n|] eqn:D; [|discriminate]. injection H as <-. exists (c :: s), n. split; [apply decimal_iff, D|]. left. auto.
      * intros (ds & n & D & [[[Q|Q] ->]|[Q _]]).
        -- subst ds. apply decimal_iff in D. rewrite D. reflexivity.
        -- injection Q as -> ->. discriminate.
        -- injection Q as -> ->. discriminate.
Qed.
Lemma neg64 : forall n k, n < 2 ^ 64 -> ((2 ^ 64 - n) mod 2 ^ 64 = k <-> (k + n) mod 2 ^ 64 = 0 /\ k < 2 ^ 64).
Proof.
  intros n k H. destruct (N.eq_dec n 0) as [->|NZ].
  - rewrite N.sub_0_r, N.mod_same, N.add_0_r by lia. split; [intros <-; split; [reflexivity|lia]|]. intros [Q L]. rewrite N.mod_small in Q by exact L. congruence.
  - rewrite (N.mod_small (2 ^ 64 - n)) by lia. split.
    + intros <-. replace (2 ^ 64 - n + n) with (2 ^ 64) by lia. split; [apply N.mod_same; lia|lia].
    + intros [Q L]. apply N.mod_divide in Q; [|lia]. destruct Q as [q Q]. assert (q = 1) by nia. subst q. lia.
Qed.
Lemma size_iff : forall s k, parse_size s = Some k <-> size_text s k.
Proof.
  intros s k. unfold parse_size, size_text. rewrite (sign_cases _ s (fun s' => (true, parse_dec s')) (fun s' => (false, parse_dec s')) (fun s => (false, parse_dec s))).
  destruct s as [|c s].
  - split; [discriminate|]. intros (ds & n & D & _ & [[[Q|Q] _]|[Q _]]); try discriminate. subst ds. destruct (decimal_head _ _ D) as (c & s' & Q & _). discriminate.
  - destruct (byte_eqb c x2d) eqn:M; [|destruct (byte_eqb c x2b) eqn:P].
    + apply byte_eqb_eq in M. subst c. split.
      * intros H. destruct (parse_dec s) as [n|] eqn:D; [|discriminate]. destruct (n <? 2 ^ 64) eqn:B; [|discriminate]. apply N.ltb_lt in B. injection H as H. exists s, n. split; [apply decimal_iff, D|]. split; [exact B|]. right. split; [reflexivity|]. apply neg64; assumption.
      * intros (ds & n & D & B & [[[Q|Q] _]|[Q R]]).
        -- subst ds. destruct (decimal_head _ _ D) as (c & s' & Q & N1 & N2). injection Q as <- _. contradiction.
        -- discriminate.
        -- injection Q as ->. apply decimal_iff in D. rewrite D. apply N.ltb_lt in B as B'. rewrite B'. f_equal. apply neg64; assumption.
    + apply byte_eqb_eq in P. subst c. split.
      * intros H. destruct (parse_dec s) as [n|] eqn:D; [|discriminate]. destruct (n <? 2 ^ 64) eqn:B; [|discriminate]. apply N.ltb_lt in B. injection H as H. exists s, n. split; [apply decimal_iff, D|]. split; [exact B|]. left. auto.
      * intros (ds & n & D & B & [[[Q|Q] ->]|[Q _]]).
        -- subst ds. destruct (decimal_head _ _ D) as (c & s' & Q & N1 & N2). injection Q as <- _. contradiction.
        -- injection Q as ->. apply decimal_iff in D. rewrite D. apply N.ltb_lt in B as B'. rewrite B'. reflexivity.
        -- discriminate.
    + split.
      * intros H. destruct (parse_dec (c :: s)) as [n|] eqn:D; [|discriminate]. destruct (n <? 2 ^ 64) eqn:B; [|discriminate]. apply N.ltb_lt in B. injection H as H. exists (c :: s), n. split; [apply decimal_iff, D|]. split; [exact B|]. left. auto.
      * intros (ds & n & D & B & [[[Q|Q] ->]|[Q _]]).
        -- subst ds. apply decimal_iff in D. rewrite D. apply N.ltb_lt in B as B'. rewrite B'. reflexivity.
        -- injection Q as -> ->. discriminate.
        -- injection Q as -> ->. discriminate.
Qed.

(** ** [CaProfile::fromJson] *)
Lemma keys_iff : forall l ks, probe_keys_of l = Ok ks <->
  Forall2 (fun (it : bytes * ptree) k => exists s, text (snd it) (bs "probe-parameter-key") s /\ lower_of s k /\ k <> []) l ks.
Proof.
  induction l as [|[k0 t] l IH]; intros ks; cbn [probe_keys_of].
  - split; [intros Q; injection Q as <-; constructor|]. intros H. inversion H. reflexivity.
  - split.
    + intros H. destruct (to_lower (pt_get K_PROBE_PARAMETER [] t)) as [|x k] eqn:L; [discriminate|]. destruct (probe_keys_of l) as [ks'| | |] eqn:R; try discriminate. injection H as <-.
      constructor; [|apply IH; reflexivity]. exists (pt_get K_PROBE_PARAMETER [] t). split; [apply text_at|]. split; [apply lower_iff, L|discriminate].
    + intros H. inversion H as [|? k ? ks' (s & T & L & NE) F]; subst. cbn [snd] in T. apply get_text in T. apply lower_iff in L. apply IH in F.
      change (pt_get K_PROBE_PARAMETER [] t = s) in T. rewrite T, L, F. destruct k; [contradiction|reflexivity].
Qed.
Lemma supported_iff : forall k, supported k = true <-> In k [bs "pin"; bs "email"; bs "possession"].
Proof.
  intros k. unfold supported. rewrite !orb_true_iff, !bytes_eqb_eq. cbn [In]. split.
  - intros [[->| ->]| ->]; auto.
  - intros [<-|[<-|[<-|[]]]]; auto.
Qed.
Lemma challenges_iff : forall l ks, challenges_of l = Ok ks <->
  Forall2 (fun (it : bytes * ptree) k => exists s, text (snd it) (bs "challenge") s /\ lower_of s k /\ In k [bs "pin"; bs "email"; bs "possession"]) l ks.
Proof.
  induction l as [|[k0 t] l IH]; intros ks; cbn [challenges_of].
  - split; [intros Q; injection Q as <-; constructor|]. intros H. inversion H. reflexivity.
  - split.
    + intros H. destruct (to_lower (pt_get K_CHALLENGE [] t)) as [|x k] eqn:L; [discriminate|]. destruct (supported (x :: k)) eqn:SP; [|discriminate].
      destruct (challenges_of l) as [ks'| | |] eqn:R; try discriminate. injection H as <-.
      constructor; [|apply IH; reflexivity]. exists (pt_get K_CHALLENGE [] t). split; [apply text_at|]. split; [apply lower_iff, L|apply supported_iff, SP].
    + intros H. inversion H as [|? k ? ks' (s & T & L & SP) F]; subst. cbn [snd] in T. apply get_text in T. apply lower_iff in L. apply IH in F. apply supported_iff in SP.
      change (pt_get K_CHALLENGE [] t = s) in T. rewrite T, L. destruct k; [vm_compute in SP; discriminate|]. rewrite SP, F. reflexivity.
Qed.
Lemma of_child : forall (A : Type) (f : list (bytes * ptree) -> res (list A)) k j, f [] = Ok [] ->
  match pt_child k j with Some t => f (pt_children t) | None => Ok [] end = f (child_items k j).
Proof. intros A f k j H. unfold child_items. destruct (pt_child k j); [reflexivity|symmetry; exact H]. Qed.
Lemma int_field : forall k j z, pt_get_int k 86400 j = z <->
  exists s, text j k s /\ (int_text s z \/ (forall z, ~ int_text s z) /\ z = 86400%Z).
Proof.
  intros k j z.
  assert (Q : pt_get_int k 86400 j = match parse_int (pt_get k [] j) with Some z => z | None => 86400%Z end).
  { unfold pt_get_int, pt_get. destruct (pt_child k j); reflexivity. }
  rewrite Q. clear Q. split.
  - intros H. exists (pt_get k [] j). split; [apply text_at|]. destruct (parse_int (pt_get k [] j)) as [z0|] eqn:P.
    + left. subst z0. apply int_iff, P.
    + right. split; [|symmetry; exact H]. intros z0 I. apply int_iff in I. congruence.
  - intros (s & T & [I|[N ->]]); apply get_text in T; rewrite T; [apply int_iff in I; rewrite I; reflexivity|].
    destruct (parse_int s) as [z0|] eqn:P; [apply int_iff in P; destruct (N _ P)|reflexivity].
Qed.
Lemma size_field : forall k j o, pt_get_size k j = o <->
  exists s, text j k s /\ ((exists n, size_text s n /\ o = Some n) \/ (forall n, ~ size_text s n) /\ o = None).
Proof.
  intros k j o.
  assert (Q : pt_get_size k j = parse_size (pt_get k [] j)).
  { unfold pt_get_size, pt_get. destruct (pt_child k j); reflexivity. }
  rewrite Q. clear Q. split.
  - intros H. exists (pt_get k [] j). split; [apply text_at|]. destruct o as [n|].
    + left. exists n. split; [apply size_iff, H|reflexivity].
    + right. split; [|reflexivity]. intros n I. apply size_iff in I. congruence.
  - intros (s & T & [(n & I & ->)|[N ->]]); apply get_text in T; rewrite T; [apply size_iff, I|].
    destruct (parse_size s) as [n|] eqn:P; [apply size_iff in P; destruct (N _ P)|reflexivity].
Qed.
Lemma profile_iff : forall E j p, profile_from_json E j = Ok p <-> profile_read E j p.
Proof.
  intros E j p. unfold profile_from_json. rewrite (of_child _ probe_keys_of K_PROBE_PARAMETERS j eq_refl), (of_child _ challenges_of K_CHALLENGES j eq_refl). split.
  - intros H. destruct (o_of_uri E (pt_get K_CA_PREFIX [] j)) as [[|c0 pre]|] eqn:P; try discriminate. cbn [of_opt bind] in H.
    destruct (o_of_uri E (pt_get K_FORWARDING_HINT [] j)) as [fwd|] eqn:F; [|discriminate]. cbn [of_opt bind] in H.
    destruct (probe_keys_of (child_items K_PROBE_PARAMETERS j)) as [keys| | |] eqn:K; try discriminate. cbn [bind] in H.
    destruct (challenges_of (child_items K_CHALLENGES j)) as [chs| | |] eqn:C; try discriminate. cbn [bind] in H. injection H as <-.
    constructor; cbn [p_prefix p_fwd p_info p_probe_keys p_maxvalid p_maxsuffix p_challenges p_cert].
    + exists (pt_get K_CA_PREFIX [] j). split; [apply text_at|]. split; [exact P|discriminate].
    + exists (pt_get K_FORWARDING_HINT [] j), fwd. split; [apply text_at|]. split; [exact F|]. destruct fwd; [right; auto|left; split; [discriminate|reflexivity]].
    + apply text_at.
    + apply int_field. reflexivity.
    + apply size_field. reflexivity.
    + eexists. split; [apply get_items; reflexivity|]. apply keys_iff, K.
    + eexists. split; [apply get_items; reflexivity|]. apply challenges_iff, C.
    + exists (pt_get K_CERTIFICATE [] j). split; [apply text_at|]. destruct (pt_get K_CERTIFICATE [] j); [left; auto|right; split; [discriminate|reflexivity]].
  - intros [(s1 & T1 & U1 & N1) (s2 & n2 & T2 & U2 & F2) T3 MV MS (l1 & I1 & K1) (l2 & I2 & K2) (s4 & T4 & C4)].
    apply get_text in T1, T2, T3, T4. apply get_items in I1, I2. apply keys_iff in K1. apply challenges_iff in K2. apply int_field in MV. apply size_field in MS.
    change (pt_get K_CA_PREFIX [] j = s1) in T1. change (pt_get K_FORWARDING_HINT [] j = s2) in T2. change (pt_get K_CA_INFO [] j = p_info p) in T3. change (pt_get K_CERTIFICATE [] j = s4) in T4.
    change (child_items K_PROBE_PARAMETERS j = l1) in I1. change (child_items K_CHALLENGES j = l2) in I2. change (pt_get_int K_MAX_VALIDITY 86400 j = p_maxvalid p) in MV. change (pt_get_size K_MAX_SUFFIX j = p_maxsuffix p) in MS.
    rewrite T1, U1. cbn [of_opt bind]. rewrite T2, U2. cbn [of_opt bind]. rewrite I1, K1, I2, K2, T3, MV, MS, T4. cbn [bind].
    destruct p as [pre fwd info keys mv ms chs oc]. cbn [p_prefix p_fwd p_info p_probe_keys p_maxvalid p_maxsuffix p_challenges p_cert] in *.
    destruct pre as [|c0 pre]; [contradiction|]. f_equal. f_equal.
    + destruct F2 as [[N ->]|[-> ->]]; [destruct n2; [contradiction|reflexivity]|reflexivity].
    + destruct C4 as [[-> ->]|[N ->]]; [reflexivity|]. destruct s4; [contradiction|reflexivity].
Qed.

(** ** [CaConfig::load] *)
Lemma loop_of : forall pairs m, Forall (fun kv => free EQ (fst kv)) pairs ->
  redirect_param_loop (map (fun kv => fst kv ++ [EQ] ++ snd kv) pairs) m = Ok (fold_left (fun m kv => mm_insert (fst kv) (snd kv) m) pairs m).
Proof.
  induction pairs as [|[k v] pairs IH]; intros m F; [reflexivity|]. inversion F as [|? ? F1 F2]; subst. cbn [map redirect_param_loop fst snd app fold_left] in *.
  rewrite find_app by exact F1. rewrite first_sep, skip_sep. apply IH, F2.
Qed.
Lemma loop_pieces : forall pieces m m', Forall (free AMP) pieces -> redirect_param_loop pieces m = Ok m' ->
  exists pairs, pieces = map (fun kv => fst kv ++ [EQ] ++ snd kv) pairs /\ Forall (fun kv => free EQ (fst kv) /\ free AMP (fst kv) /\ free AMP (snd kv)) pairs.
Proof.
  induction pieces as [|s ps IH]; intros m m' F H; [exists []; split; [reflexivity|constructor]|]. inversion F as [|? ? F1 F2]; subst. cbn [redirect_param_loop] in H.
  destruct (find_byte EQ s) as [i|] eqn:FB; [|discriminate]. destruct (IH _ _ F2 H) as (pairs & -> & FP).
  assert (SP : s = firstn i s ++ EQ :: skipn (S i) s /\ free EQ (firstn i s)).
  { clear - FB. revert i FB. induction s as [|x s IH]; intros i FB; [discriminate|]. cbn [find_byte] in FB. destruct (byte_eqb x EQ) eqn:B.
    - injection FB as <-. apply byte_eqb_eq in B. subst x. split; [reflexivity|intros []].
    - destruct (find_byte EQ s) as [k|] eqn:FK; [|discriminate]. injection FB as <-. destruct (IH k eq_refl) as [A N]. split; [cbn [firstn skipn app]; f_equal; exact A|].
      intros [Q|Q]; [subst x; rewrite (proj2 (byte_eqb_eq EQ EQ) eq_refl) in B; discriminate|exact (N Q)]. }
  destruct SP as [SP N]. exists ((firstn i s, skipn (S i) s) :: pairs). cbn [map fst snd app]. split; [f_equal; exact SP|]. constructor; [|exact FP]. cbn [fst snd]. split; [exact N|].
  rewrite SP in F1. split; intros Q; apply F1, in_or_app; [left; exact Q|right; right; exact Q].
Qed.
Lemma policy_iff : forall ty pa p, create_policy ty pa = Ok (Some p) <-> policy_read ty pa p.
Proof.
  intros ty pa p. unfold create_policy. split.
  - destruct (bytes_eqb ty (bs "param")) eqn:B1; [|destruct (bytes_eqb ty (bs "email")) eqn:B2; [|discriminate]].
    + apply bytes_eqb_eq in B1. subst ty. unfold redirect_param_ctor. destruct pa as [|b0 pa]; [intros Q; injection Q as <-; constructor|].
      destruct (redirect_param_loop (split_on AMP (b0 :: pa)) []) as [m| | |] eqn:L; try discriminate. intros Q. injection Q as <-.
      destruct (loop_pieces _ _ _ (split_pieces AMP (b0 :: pa)) L) as (pairs & SP & F). rewrite <- (join_split AMP (b0 :: pa)), SP.
      assert (PN : pairs <> []) by (intros ->; apply (split_nonempty AMP (b0 :: pa)); exact SP).
      rewrite SP, loop_of in L by (eapply Forall_impl; [|exact F]; cbn; intuition). injection L as <-. apply pol_param; assumption.
    + apply bytes_eqb_eq in B2. subst ty. intros Q. injection Q as <-. constructor.
  - intros H. destruct H as [dom| |pairs NE F]; [reflexivity|reflexivity|]. rewrite bytes_eqb_refl. unfold redirect_param_ctor.
    change "&"%byte with AMP in *. change "="%byte with EQ in *. set (pieces := map (fun kv => fst kv ++ [EQ] ++ snd kv) pairs).
    assert (FP : Forall (free AMP) pieces).
    { unfold pieces. apply Forall_forall. intros x H. apply in_map_iff in H as ([k v] & <- & IN). rewrite Forall_forall in F. specialize (F _ IN). cbn [fst snd] in *.
      destruct F as (_ & A & B). intros H. apply in_app_or in H as [H|H]; [contradiction|]. destruct H as [H|H]; [discriminate|contradiction]. }
    assert (PN : pieces <> []) by (unfold pieces; destruct pairs; [contradiction|discriminate]).
    assert (JN : join AMP pieces <> []).
    { apply join_nonempty. destruct pairs as [|[k v] ps]; [contradiction|]. exists (k ++ [EQ] ++ v). split; [left; reflexivity|]. destruct k; discriminate. }
    destruct (join AMP pieces) as [|b0 b1] eqn:J; [contradiction|]. rewrite <- J, split_join by assumption. unfold pieces.
    rewrite loop_of by (eapply Forall_impl; [|exact F]; cbn; intuition). reflexivity.
Qed.
Lemma assign_iff : forall ty f a, create_assign ty f = Some a <-> assign_read ty f a.
Proof.
  intros ty f a. split.
  - intros H. unfold create_assign, name_format in H.
    assert (G : forall kind, In (ty, kind) [(bs "param", AParam); (bs "hash", AHash); (bs "email", AEmail); (bs "random", ARandom)] -> assign_read ty f (Assign kind (filter nonempty (split_on SLASH f)))).
    { intros kind IN. rewrite <- (join_split SLASH f) at 1. rewrite filter_nonempty. constructor; [apply split_nonempty|apply split_pieces|exact IN]. }
    destruct (bytes_eqb ty (bs "param")) eqn:B1; [apply bytes_eqb_eq in B1; subst ty; injection H as <-; apply G; cbn; auto|].
    destruct (bytes_eqb ty (bs "hash")) eqn:B2; [apply bytes_eqb_eq in B2; subst ty; injection H as <-; apply G; cbn; auto|].
    destruct (bytes_eqb ty (bs "email")) eqn:B3; [apply bytes_eqb_eq in B3; subst ty; injection H as <-; apply G; cbn; auto|].
    destruct (bytes_eqb ty (bs "random")) eqn:B4; [apply bytes_eqb_eq in B4; subst ty; injection H as <-; apply G; cbn; auto|discriminate].
  - intros H. destruct H as [ty kind pieces NE F IN]. unfold create_assign, name_format. rewrite (split_join SLASH) by assumption. rewrite filter_nonempty.
    destruct IN as [Q|[Q|[Q|[Q|[]]]]]; injection Q as <- <-; reflexivity.
Qed.
Lemma assigns_iff : forall l r, assign_items l = Ok r <-> Forall2 (fun (it : bytes * ptree) a => assign_read (fst it) (pt_data (snd it)) a) l r.
Proof.
  induction l as [|[k t] l IH]; intros r; cbn [assign_items].
  - split; [intros Q; injection Q as <-; constructor|]. intros H. inversion H. reflexivity.
  - split.
    + intros H. destruct (create_assign k (pt_data t)) as [a|] eqn:C; [|discriminate]. destruct (assign_items l) as [r'| | |] eqn:R; try discriminate. injection H as <-.
      constructor; [apply assign_iff, C|apply IH; reflexivity].
    + intros H. inversion H as [|? a ? r' A F]; subst. cbn [fst snd] in A. apply assign_iff in A. apply IH in F. rewrite A, F. reflexivity.
Qed.
Lemma identity_split : forall n m, (4 <= length n)%nat -> (m = identity_of n <-> exists key, n = m ++ key /\ length key = 4%nat).
Proof.
  intros n m L. unfold identity_of, prefix_neg. rewrite (proj2 (Nat.leb_le 4 (length n)) L). split.
  - intros ->. exists (skipn (length n - 4) n). split; [symmetry; apply firstn_skipn|]. rewrite skipn_length. lia.
  - intros (key & -> & K). clear L. rewrite app_length, K. replace (length m + 4 - 4)%nat with (length m + 0)%nat by lia. rewrite firstn_app_2. cbn [firstn]. symmetry. apply app_nil_r.
Qed.
Lemma loaded_name : forall E s c, io_load E s = Some c -> (4 <= length (c_name c))%nat.
Proof.
  intros E s c H. unfold io_load in H. destruct (o_unb64 E s) as [w|]; [|discriminate]. destruct (dec_elem w) as [[t rest]|]; [|discriminate].
  unfold cert_decode in H. destruct (data_decode E t) as [c'|]; [|discriminate]. destruct (cert_ok c') eqn:K; [|discriminate]. injection H as <-.
  unfold cert_ok in K. apply andb_true_iff in K as [K _]. apply andb_true_iff in K as [K _]. unfold valid_cert_name, get_neg in K.
  destruct (Nat.leb 4 (length (c_name c'))) eqn:B; [apply Nat.leb_le, B|discriminate].
Qed.
Lemma redirect_iff : forall E t oc p, redirect_item E t = Ok (oc, p) <-> redirection_read E t oc p.
Proof.
  intros E t oc p. unfold redirect_item, redirection_read.
  assert (POL : (match pt_get K_POLICY_TYPE [] t with
      | [] => Exn
      | ty => do p <- create_policy ty (pt_get K_POLICY_PARAM [] t); match p with None => Exn | Some p' => Ok (io_load E (pt_get K_CERTIFICATE [] t), p') end
      end = Ok (oc, p)) <-> oc = io_load E (pt_get K_CERTIFICATE [] t) /\ exists ty pa, text t (bs "policy-type") ty /\ text t (bs "policy-param") pa /\ policy_read ty pa p).
  { split.
    - intros H. destruct (pt_get K_POLICY_TYPE [] t) as [|b ty] eqn:TY; [discriminate|]. destruct (create_policy (b :: ty) (pt_get K_POLICY_PARAM [] t)) as [[p'|]| | |] eqn:CP; try discriminate.
      cbn [bind] in H. injection H as <- <-. split; [reflexivity|]. exists (b :: ty), (pt_get K_POLICY_PARAM [] t). split; [apply get_text; exact TY|]. split; [apply text_at|]. apply policy_iff, CP.
    - intros (-> & ty & pa & T1 & T2 & P). apply get_text in T1, T2. change (pt_get K_POLICY_TYPE [] t = ty) in T1. change (pt_get K_POLICY_PARAM [] t = pa) in T2. rewrite T1, T2.
      destruct ty as [|b ty]; [inversion P|]. apply policy_iff in P. rewrite P. reflexivity. }
  split.
  - intros H. destruct (pt_get K_CERTIFICATE [] t) as [|b s] eqn:CS; [discriminate|].
    assert (PRE : text t (bs "ca-prefix") [] \/ exists s' c n key, text t (bs "ca-prefix") s' /\ s' <> [] /\ io_load E (b :: s) = Some c /\ o_of_uri E s' = Some n /\ c_name c = n ++ key /\ length key = 4%nat).
    { destruct (pt_get K_CA_PREFIX [] t) as [|b1 s1] eqn:PS; [left; apply get_text, PS|]. right. destruct (io_load E (b :: s)) as [c|] eqn:IL; [|discriminate].
      destruct (o_of_uri E (b1 :: s1)) as [n|] eqn:U; [|discriminate]. cbn [of_opt bind] in H. destruct (name_eqb n (identity_of (c_name c))) eqn:NE; [|discriminate].
      apply name_eqb_eq in NE. destruct (proj1 (identity_split _ _ (loaded_name E _ _ IL)) NE) as (key & Q & L). exists (b1 :: s1), c, n, key. split; [apply get_text, PS|]. split; [discriminate|]. auto. }
    assert (H' : oc = io_load E (b :: s) /\ exists ty pa, text t (bs "policy-type") ty /\ text t (bs "policy-param") pa /\ policy_read ty pa p).
    { apply POL. destruct (match pt_get K_CA_PREFIX [] t with [] => Ok tt | _ :: _ => _ end) as [u| | |] eqn:X; try discriminate. exact H. }
    destruct H' as [-> PP]. split; [exists (b :: s); split; [apply get_text, CS|]; split; [discriminate|reflexivity]|]. split; [exact PRE|exact PP].
  - intros ((s & T & NE & ->) & PRE & PP). apply get_text in T. change (pt_get K_CERTIFICATE [] t = s) in T. rewrite T in *. destruct s as [|b s]; [contradiction|].
    assert (X : match pt_get K_CA_PREFIX [] t with [] => Ok tt | _ :: _ => match io_load E (b :: s) with None => UB | Some c' => do n <- of_opt (o_of_uri E (pt_get K_CA_PREFIX [] t)); if name_eqb n (identity_of (c_name c')) then Ok tt else Exn end end = Ok tt).
    { destruct PRE as [P|(s' & c & n & key & P & N1 & IL & U & CN & L)]; apply get_text in P.
      - change (pt_get K_CA_PREFIX [] t = []) in P. rewrite P. reflexivity.
      - change (pt_get K_CA_PREFIX [] t = s') in P. rewrite P. destruct s' as [|b1 s1]; [contradiction|]. rewrite IL, U. cbn [of_opt bind].
        rewrite (proj2 (name_eqb_eq n (identity_of (c_name c)))); [reflexivity|]. apply (identity_split _ _ (loaded_name E _ _ IL)). exists key. auto. }
    cbv zeta. rewrite X. cbn [bind]. apply POL. split; [reflexivity|exact PP].
Qed.
Lemma redirects_iff : forall E l r, redirect_items E l = Ok r <-> Forall2 (fun (it : bytes * ptree) rp => redirection_read E (snd it) (fst rp) (snd rp)) l r.
Proof.
  intros E. induction l as [|[k t] l IH]; intros r; cbn [redirect_items].
  - split; [intros Q; injection Q as <-; constructor|]. intros H. inversion H. reflexivity.
  - split.
    + intros H. destruct (redirect_item E t) as [[oc p]| | |] eqn:C; try discriminate. cbn [bind] in H. destruct (redirect_items E l) as [r'| | |] eqn:R; try discriminate. injection H as <-.
      constructor; [apply redirect_iff, C|apply IH; reflexivity].
    + intros H. inversion H as [|? [oc p] ? r' A F]; subst. cbn [fst snd] in A. apply redirect_iff in A. apply IH in F. rewrite A, F. reflexivity.
Qed.
Lemma config_iff : forall E j c, config_load E (Some j) = Ok c <-> config_read E j c.
Proof.
  intros E j c. unfold config_load. cbn [of_opt bind]. rewrite (of_child _ (redirect_items E) K_REDIRECTION j eq_refl), (of_child _ assign_items K_NAME_ASSIGNMENT j eq_refl). split.
  - intros H. destruct (pt_children j) eqn:CH; [discriminate|]. destruct (profile_from_json E j) as [pr| | |] eqn:P; try discriminate. cbn [bind] in H.
    destruct (p_challenges pr) eqn:CS; [discriminate|]. destruct (redirect_items E (child_items K_REDIRECTION j)) as [rs| | |] eqn:R; try discriminate. cbn [bind] in H.
    destruct (assign_items (child_items K_NAME_ASSIGNMENT j)) as [as_| | |] eqn:A; try discriminate. injection H as <-. constructor; cbn [cf_profile cf_redirect cf_assign].
    + apply profile_iff, P.
    + rewrite CS. discriminate.
    + eexists. split; [apply get_items; reflexivity|apply redirects_iff, R].
    + eexists. split; [apply get_items; reflexivity|apply assigns_iff, A].
  - intros [P CS (l1 & I1 & R) (l2 & I2 & A)]. apply get_items in I1, I2. apply redirects_iff in R. apply assigns_iff in A. apply profile_iff in P.
    change (child_items K_REDIRECTION j = l1) in I1. change (child_items K_NAME_ASSIGNMENT j = l2) in I2. rewrite P, I1, R, I2, A. cbn [bind].
    destruct (pt_children j) eqn:CH.
    + exfalso. destruct j as [d ch]. cbn in CH. subst ch. unfold profile_from_json in P. destruct (of_opt (o_of_uri E (pt_get K_CA_PREFIX [] (PT d [])))) as [[|c0 pre]| | |]; try discriminate. cbn [bind] in P.
      destruct (of_opt (o_of_uri E (pt_get K_FORWARDING_HINT [] (PT d [])))) as [n| | |]; try discriminate. cbn in P. injection P as P. rewrite <- P in CS. apply CS. reflexivity.
    + destruct (p_challenges (cf_profile c)); [contradiction|]. destruct c; reflexivity.
Qed.

(** ** [CaProfile::toJson] *)
Lemma load_save : forall E s c, codec_laws E -> io_load E s = Some c -> io_load E (io_save E c) = Some c /\ io_save E c <> [].
Proof.
  intros E s c LC H. unfold io_load in H. destruct (o_unb64 E s) as [w|]; [|discriminate]. destruct (dec_elem w) as [[t rest]|] eqn:D; [|discriminate].
  unfold cert_decode in H. destruct (data_decode E t) as [c'|] eqn:DD; [|discriminate]. destruct (cert_ok c') eqn:K; [|discriminate]. injection H as ->.
  unfold data_decode in DD. destruct (t_type t =? T_Data) eqn:TT; [|discriminate]. apply N.eqb_eq in TT.
  assert (Q : cert_tlv E c = t).
  { unfold cert_tlv. rewrite (l_cert_keeps_wire E LC _ _ DD). destruct t as [ty v]. cbn in *. subst ty. reflexivity. }
  unfold io_save, io_load. rewrite (l_b64 E LC), Q. pose proof (dec_elem_wf _ _ _ D) as W. pose proof (dec_enc_elem t [] W) as DE. rewrite app_nil_r in DE. rewrite DE.
  unfold cert_decode, data_decode. rewrite TT, N.eqb_refl, DD, K. split; [reflexivity|]. apply (l_b64_nonempty E LC). intros Q0. rewrite Q0 in DE. discriminate.
Qed.
Lemma int_range : forall k j, (- 2 ^ 31 <= pt_get_int k 86400 j < 2 ^ 31)%Z.
Proof.
  intros k j. unfold pt_get_int. destruct (pt_child k j) as [t|]; [|lia]. destruct (parse_int (pt_data t)) as [z|] eqn:P; [|lia]. apply int_iff in P. destruct P as [P _]. exact P.
Qed.
Lemma size_range : forall k j n, pt_get_size k j = Some n -> n < 2 ^ 64.
Proof.
  intros k j n H. unfold pt_get_size in H. destruct (pt_child k j) as [t|]; [|discriminate]. apply size_iff in H.
  destruct H as (ds & m & _ & B & [[_ ->]|(_ & _ & L)]); [exact B|exact L].
Qed.
(** What importing an exported profile gives. *)
Definition exported (p : profile) : profile :=
  Profile (p_prefix p) (p_prefix p ++ [gc (bs "CA")]) (p_info p) [] (p_maxvalid p) (p_maxsuffix p) [] (p_cert p).
Lemma put_child_get : forall k d t k', pt_child k' (pt_put k d t) = if bytes_eqb k' k then Some (PT d (match pt_child k t with Some c => pt_children c | None => [] end)) else pt_child k' t.
Proof.
  intros k d [d0 l] k'. unfold pt_put, pt_child. cbn [pt_children pt_data]. induction l as [|[k1 t1] l IH]; cbn [put_child assoc_child].
  - destruct (bytes_eqb k' k) eqn:B; reflexivity.
  - destruct (bytes_eqb k k1) eqn:B1.
    + apply bytes_eqb_eq in B1. subst k1. cbn [assoc_child]. destruct (bytes_eqb k' k) eqn:B2; [reflexivity|reflexivity].
    + cbn [assoc_child]. destruct (bytes_eqb k' k1) eqn:B2.
      * apply bytes_eqb_eq in B2. subst k1. destruct (bytes_eqb k' k) eqn:B3; [|reflexivity]. apply bytes_eqb_eq in B3. subst k'. rewrite bytes_eqb_refl in B1. discriminate.
      * exact IH.
Qed.
Lemma push_child_get : forall c t k', k' <> [] -> pt_child k' (pt_push [] c t) = pt_child k' t.
Proof.
  intros c [d l] k' N. unfold pt_push, pt_child. cbn [pt_children pt_data]. induction l as [|[k1 t1] l IH]; cbn [app assoc_child].
  - destruct (bytes_eqb k' []) eqn:B; [apply bytes_eqb_eq in B; contradiction|reflexivity].
  - destruct (bytes_eqb k' k1); [reflexivity|exact IH].
Qed.
Lemma export_import : forall E j p, codec_laws E -> profile_from_json E j = Ok p -> profile_from_json E (profile_to_json E p) = Ok (exported p).
Proof.
  intros E j p LC H.
  assert (W : wf_name (p_prefix p) /\ p_prefix p <> []).
  { apply profile_iff in H. destruct H as [(s & _ & U & N) _ _ _ _ _ _ _]. split; [exact (l_uri_wf E LC _ _ U)|exact N]. }
  assert (MV : (- 2 ^ 31 <= p_maxvalid p < 2 ^ 31)%Z).
  { apply profile_iff in H. destruct H as [_ _ _ MV _ _ _ _]. apply int_field in MV. rewrite <- MV. apply int_range. }
  assert (MS : forall n, p_maxsuffix p = Some n -> n < 2 ^ 64).
  { apply profile_iff in H. destruct H as [_ _ _ _ MS _ _ _]. apply size_field in MS. rewrite <- MS. intros n. apply size_range. }
  assert (CC : forall c, p_cert p = Some c -> io_load E (io_save E c) = Some c /\ io_save E c <> []).
  { apply profile_iff in H. destruct H as [_ _ _ _ _ _ _ (s & _ & [[_ Q]|[_ Q]])]; rewrite Q; intros c Q'; [discriminate|]. exact (load_save E s c LC Q'). }
  assert (G : forall k, k <> [] -> pt_child k (profile_to_json E p) =
    if bytes_eqb k K_CERTIFICATE then match p_cert p with Some c => Some (pt_leaf (io_save E c)) | None => None end
    else if bytes_eqb k K_MAX_SUFFIX then match p_maxsuffix p with Some n => Some (pt_leaf (to_string_N n)) | None => None end
    else if bytes_eqb k K_MAX_VALIDITY then Some (pt_leaf (to_string_Z (p_maxvalid p)))
    else if bytes_eqb k K_CA_INFO then Some (pt_leaf (p_info p))
    else if bytes_eqb k K_CA_PREFIX then Some (pt_leaf (o_to_uri E (p_prefix p))) else None).
  { intros k NK. unfold profile_to_json. cbv zeta.
    set (j0 := pt_put K_MAX_VALIDITY (to_string_Z (p_maxvalid p)) (pt_put K_CA_INFO (p_info p) (pt_put K_CA_PREFIX (o_to_uri E (p_prefix p)) pt_empty))).
    assert (G0 : forall k, pt_child k j0 = if bytes_eqb k K_MAX_VALIDITY then Some (pt_leaf (to_string_Z (p_maxvalid p))) else if bytes_eqb k K_CA_INFO then Some (pt_leaf (p_info p))
      else if bytes_eqb k K_CA_PREFIX then Some (pt_leaf (o_to_uri E (p_prefix p))) else None).
    { intros k1. unfold j0. rewrite !put_child_get. change (pt_child k1 pt_empty) with (@None ptree). reflexivity. }
    set (j1 := match p_maxsuffix p with Some n => pt_put K_MAX_SUFFIX (to_string_N n) j0 | None => j0 end).
    assert (G1 : forall k, pt_child k j1 = if bytes_eqb k K_MAX_SUFFIX then match p_maxsuffix p with Some n => Some (pt_leaf (to_string_N n)) | None => None end else pt_child k j0).
    { intros k1. unfold j1. destruct (p_maxsuffix p) as [n|].
      - rewrite put_child_get. destruct (bytes_eqb k1 K_MAX_SUFFIX); [|reflexivity]. rewrite G0. reflexivity.
      - destruct (bytes_eqb k1 K_MAX_SUFFIX) eqn:B; [|reflexivity]. apply bytes_eqb_eq in B. subst k1. rewrite G0. reflexivity. }
    set (j2 := match p_probe_keys p with [] => j1 | l => pt_push [] (list_json K_PROBE_PARAMETER l) j1 end).
    assert (G2 : forall k, k <> [] -> pt_child k j2 = pt_child k j1).
    { intros k1 N. unfold j2. destruct (p_probe_keys p); [reflexivity|apply push_child_get, N]. }
    set (j3 := match p_challenges p with [] => j2 | l => pt_push [] (list_json K_CHALLENGE l) j2 end).
    assert (G3 : forall k, k <> [] -> pt_child k j3 = pt_child k j2).
    { intros k1 N. unfold j3. destruct (p_challenges p); [reflexivity|apply push_child_get, N]. }
    destruct (p_cert p) as [c|].
    - rewrite put_child_get. rewrite (G3 K_CERTIFICATE), (G2 K_CERTIFICATE), G1, G0 by discriminate. destruct (bytes_eqb k K_CERTIFICATE); [reflexivity|].
      rewrite G3, G2, G1, G0 by exact NK. reflexivity.
    - rewrite G3, G2, G1, G0 by exact NK. destruct (bytes_eqb k K_CERTIFICATE) eqn:B; [|reflexivity]. apply bytes_eqb_eq in B. subst k. reflexivity. }
  unfold profile_from_json, pt_get, pt_get_int, pt_get_size. rewrite !G by discriminate. cbn [bytes_eqb].
  change (bytes_eqb K_CA_PREFIX K_CERTIFICATE) with false. change (bytes_eqb K_CA_PREFIX K_MAX_SUFFIX) with false. change (bytes_eqb K_CA_PREFIX K_MAX_VALIDITY) with false.
  change (bytes_eqb K_CA_PREFIX K_CA_INFO) with false. change (bytes_eqb K_CA_PREFIX K_CA_PREFIX) with true.
  change (bytes_eqb K_FORWARDING_HINT K_CERTIFICATE) with false. change (bytes_eqb K_FORWARDING_HINT K_MAX_SUFFIX) with false. change (bytes_eqb K_FORWARDING_HINT K_MAX_VALIDITY) with false.
  change (bytes_eqb K_FORWARDING_HINT K_CA_INFO) with false. change (bytes_eqb K_FORWARDING_HINT K_CA_PREFIX) with false.
  change (bytes_eqb K_CA_INFO K_CERTIFICATE) with false. change (bytes_eqb K_CA_INFO K_MAX_SUFFIX) with false. change (bytes_eqb K_CA_INFO K_MAX_VALIDITY) with false. change (bytes_eqb K_CA_INFO K_CA_INFO) with true.
  change (bytes_eqb K_MAX_VALIDITY K_CERTIFICATE) with false. change (bytes_eqb K_MAX_VALIDITY K_MAX_SUFFIX) with false. change (bytes_eqb K_MAX_VALIDITY K_MAX_VALIDITY) with true.
  change (bytes_eqb K_MAX_SUFFIX K_CERTIFICATE) with false. change (bytes_eqb K_MAX_SUFFIX K_MAX_SUFFIX) with true.
  change (bytes_eqb K_CERTIFICATE K_CERTIFICATE) with true.
  change (bytes_eqb K_PROBE_PARAMETERS K_CERTIFICATE) with false. change (bytes_eqb K_PROBE_PARAMETERS K_MAX_SUFFIX) with false. change (bytes_eqb K_PROBE_PARAMETERS K_MAX_VALIDITY) with false.
  change (bytes_eqb K_PROBE_PARAMETERS K_CA_INFO) with false. change (bytes_eqb K_PROBE_PARAMETERS K_CA_PREFIX) with false.
  change (bytes_eqb K_CHALLENGES K_CERTIFICATE) with false. change (bytes_eqb K_CHALLENGES K_MAX_SUFFIX) with false. change (bytes_eqb K_CHALLENGES K_MAX_VALIDITY) with false.
  change (bytes_eqb K_CHALLENGES K_CA_INFO) with false. change (bytes_eqb K_CHALLENGES K_CA_PREFIX) with false.
  cbn match. cbn [pt_data pt_leaf]. rewrite (l_uri E LC _ (proj1 W)). cbn [of_opt bind]. rewrite (l_uri_empty E LC). cbn [of_opt bind].
  rewrite parse_int_to_string by exact MV. destruct (p_prefix p) as [|c0 pre] eqn:PP; [destruct W; contradiction|]. f_equal. unfold exported. rewrite PP. f_equal.
  - destruct (p_maxsuffix p) as [n|] eqn:M; [|reflexivity]. cbn [pt_data pt_leaf]. apply parse_size_to_string, MS. reflexivity.
  - destruct (p_cert p) as [c|] eqn:C; [|reflexivity]. cbn [pt_data pt_leaf]. destruct (CC c eq_refl) as [A B]. destruct (io_save E c); [contradiction|exact A].
Qed.
Lemma export_iff : forall E j p, codec_laws E -> profile_from_json E j = Ok p ->
  (profile_from_json E (profile_to_json E p) = Ok p <-> p_probe_keys p = [] /\ p_challenges p = [] /\ p_fwd p = p_prefix p ++ [gc (bs "CA")]).
Proof.
  intros E j p LC H. rewrite (export_import E j p LC H). split.
  - intros Q. injection Q as Q. rewrite <- Q. auto.
  - intros (A & B & C). destruct p. cbn in A, B, C. subst. reflexivity.
Qed.
Lemma export_keeps : forall E j p, codec_laws E -> profile_from_json E j = Ok p ->
  exists q, profile_from_json E (profile_to_json E p) = Ok q /\ p_prefix q = p_prefix p /\ p_info q = p_info p /\ p_maxvalid q = p_maxvalid p /\ p_maxsuffix q = p_maxsuffix p /\ p_cert q = p_cert p /\
    p_probe_keys q = [] /\ p_challenges q = [] /\ p_fwd q = p_prefix p ++ [gc (bs "CA")].
Proof. intros E j p LC H. exists (exported p). split; [exact (export_import E j p LC H)|]. repeat split. Qed.

(** ** [ProfileStorage] *)
Lemma saved_not_loaded : forall E l, store_load E (Some (store_save E l)) = Exn.
Proof.
  intros E l. unfold store_load, store_save. cbn [of_opt bind pt_children]. destruct l as [|p l]; [reflexivity|]. cbn [map]. unfold store_load_json.
  replace (pt_child (bs "ca-list") _) with (@None ptree); [reflexivity|]. symmetry. apply child_none. unfold no_child. cbn [pt_children]. intros IN.
  change (([], profile_to_json E p) :: map (fun p => ([], profile_to_json E p)) l) with (map (fun p => (@nil byte, profile_to_json E p)) (p :: l)) in IN.
  rewrite map_map in IN. apply in_map_iff in IN as (q & Q & _). discriminate.
Qed.
Lemma load_iff : forall E j l, store_load E (Some j) = Ok l <->
  exists t, first_child j (bs "ca-list") t /\ Forall2 (fun it p => profile_read E (snd it) p /\ p_cert p <> None) (pt_children t) l.
Proof.
  intros E j l.
  assert (LI : forall ch l, load_items E ch = Ok l <-> Forall2 (fun (it : bytes * ptree) p => profile_read E (snd it) p /\ p_cert p <> None) ch l).
  { induction ch as [|[k t] ch IH]; intros l0; cbn [load_items].
    - split; [intros Q; injection Q as <-; constructor|]. intros H. inversion H. reflexivity.
    - split.
      + intros H. destruct (profile_from_json E t) as [p| | |] eqn:P; try discriminate. cbn [bind] in H. destruct (p_cert p) as [c|] eqn:C; [|discriminate].
        destruct (load_items E ch) as [r| | |] eqn:R; try discriminate. injection H as <-. constructor; [split; [apply profile_iff, P|congruence]|apply IH; reflexivity].
      + intros H. inversion H as [|? p ? r [P C] F]; subst. cbn [snd] in P. apply profile_iff in P. apply IH in F. rewrite P. cbn [bind]. destruct (p_cert p); [|contradiction]. rewrite F. reflexivity. }
  unfold store_load, store_load_json. cbn [of_opt bind]. split.
  - intros H. destruct (pt_children j) eqn:CH; [discriminate|]. destruct (pt_child (bs "ca-list") j) as [t|] eqn:C; [|discriminate]. exists t. split; [apply child_first, C|apply LI, H].
  - intros (t & F & L). apply child_first in F as C. rewrite C. destruct (pt_children j) eqn:CH; [|apply LI, L]. destruct F as (a & b & Q & _). rewrite CH in Q. destruct a; discriminate.
Qed.

Lemma store_add_in : forall p l q, NoDup (map p_prefix l) -> (In q (store_add p l) <-> q = p \/ In q l /\ p_prefix q <> p_prefix p).
Proof.
  intros p l q. induction l as [|x l IH]; intros ND; cbn [store_add].
  - cbn. intuition.
  - inversion ND as [|? ? NI ND']; subst. destruct (name_eqb (p_prefix x) (p_prefix p)) eqn:B.
    + apply name_eqb_eq in B. cbn [In]. split.
      * intros [<-|IN]; [auto|]. right. split; [auto|]. rewrite <- B. intros Q. apply NI. rewrite <- Q. apply in_map, IN.
      * intros [->|[[<-|IN] N]]; [auto|contradiction|auto].
    + assert (N : p_prefix x <> p_prefix p) by (intros Q; apply name_eqb_eq in Q; congruence). cbn [In]. rewrite IH by exact ND'. split.
      * intros [<-|[->|[IN N']]]; auto.
      * intros [->|[[<-|IN] N']]; auto.
Qed.
Lemma store_add_prefixes : forall p l, map p_prefix (store_add p l) = if existsb (fun n => name_eqb n (p_prefix p)) (map p_prefix l) then map p_prefix l else map p_prefix l ++ [p_prefix p].
Proof.
  intros p l. induction l as [|x l IH]; [reflexivity|]. cbn [store_add map existsb]. destruct (name_eqb (p_prefix x) (p_prefix p)) eqn:B; cbn [orb map].
  - apply name_eqb_eq in B. rewrite B. reflexivity.
  - rewrite IH. destruct (existsb _ _); reflexivity.
Qed.
Lemma touch_add : forall ops op q, last_added (ops ++ [op]) q <-> op = SAdd q \/ last_added ops q /\ ~ touches (p_prefix q) op.
Proof.
  intros ops op q. split.
  - intros (a & b & Q & F). destruct b as [|y b _] using rev_ind.
    + apply app_inj_tail in Q as [_ ->]. left. reflexivity.
    + right. apply Forall_app in F as [F1 F2]. inversion F2; subst. rewrite app_comm_cons, app_assoc in Q. apply app_inj_tail in Q as [-> ->]. split; [|assumption]. exists a, b. auto.
  - intros [->|[(a & b & -> & F) N]].
    + exists ops, []. split; [reflexivity|constructor].
    + exists a, (b ++ [op]). split; [rewrite <- app_assoc; reflexivity|]. apply Forall_app. split; [exact F|repeat constructor; exact N].
Qed.
Lemma absent_prefix : forall n l, existsb (fun m => name_eqb m n) l = false <-> ~ In n l.
Proof.
  intros n l. rewrite <- not_true_iff_false, existsb_exists. split; intros H Q; apply H.
  - exists n. split; [exact Q|apply name_eqb_refl].
  - destruct Q as (m & IN & M). apply name_eqb_eq in M. subst m. exact IN.
Qed.
Definition store_after (ops : list store_op) : list profile := fold_left store_do ops [].
Lemma store_inv : forall ops, NoDup (map p_prefix (store_after ops)) /\ forall p, In p (store_after ops) <-> last_added ops p.
Proof.
  intros ops. induction ops as [|op ops [ND IN]] using rev_ind.
  - split; [constructor|]. intros p. split; [intros []|]. intros ([|] & b & Q & _); discriminate.
  - unfold store_after in *. rewrite fold_left_app. cbn [fold_left]. set (l := fold_left store_do ops []) in *. destruct op as [p|n]; cbn [store_do].
    + split.
      * rewrite store_add_prefixes. destruct (existsb _ _) eqn:X; [exact ND|]. apply (Permutation_NoDup (Permutation_cons_append _ _)). constructor; [|exact ND]. apply absent_prefix, X.
      * intros q. rewrite store_add_in, IN, touch_add by exact ND. cbn [touches]. split; [intros [->|[A N]]|intros [Q|[A N]]]; auto. left. congruence.
    + split.
      * unfold store_remove. clear - ND. induction l as [|x l IH]; [constructor|]. inversion ND as [|? ? NI ND']; subst. cbn [filter]. destruct (negb (name_eqb (p_prefix x) n)); [|apply IH, ND'].
        cbn [map]. constructor; [|apply IH, ND']. intros Q. apply NI. apply in_map_iff in Q as (y & E1 & Y). apply filter_In in Y as [Y _]. rewrite <- E1. apply in_map, Y.
      * intros q. unfold store_remove. rewrite filter_In, IN, touch_add. cbn [touches]. rewrite negb_true_iff. split.
        -- intros [A B]. right. split; [exact A|]. intros ->. rewrite name_eqb_refl in B. discriminate.
        -- intros [Q|[A N]]; [discriminate|]. split; [exact A|]. destruct (name_eqb (p_prefix q) n) eqn:B; [apply name_eqb_eq in B; congruence|reflexivity].
Qed.
Lemma entered_more : forall ops n k op, entered ops n k -> op <> SRemove n -> entered (ops ++ [op]) n k.
Proof.
  intros ops n k op (a & p & b & -> & L & P & N & NR) D. exists a, p, (b ++ [op]). rewrite <- app_assoc. split; [reflexivity|]. repeat split; try assumption.
  intros IN. apply in_app_or in IN as [IN|[Q|[]]]; [exact (NR IN)|congruence].
Qed.
Lemma sorted_filter : forall (A : Type) (R : A -> nat -> Prop) (f : A -> bool) l ks, Forall2 R l ks -> StronglySorted lt ks ->
  exists ks', Forall2 R (filter f l) ks' /\ StronglySorted lt ks' /\ incl ks' ks.
Proof.
  intros A R f l ks H. induction H as [|x k l ks HX HF IH]; intros S; [exists []; repeat constructor; intros y []|]. inversion S as [|? ? S1 S2]; subst.
  destruct (IH S1) as (ks' & F & S' & I). cbn [filter]. destruct (f x).
  - exists (k :: ks'). split; [constructor; assumption|]. split; [constructor; [exact S'|]|].
    + rewrite Forall_forall in *. intros y IN. apply S2, I, IN.
    + intros y [<-|IN]; [left; reflexivity|right; apply I, IN].
  - exists ks'. split; [exact F|]. split; [exact S'|]. intros y IN. right. apply I, IN.
Qed.
Lemma sorted_snoc : forall ks k, StronglySorted lt ks -> Forall (fun j => (j < k)%nat) ks -> StronglySorted lt (ks ++ [k]).
Proof.
  intros ks k S. induction S as [|x ks S IH F]; intros B; cbn [app]; [repeat constructor|]. inversion B; subst. constructor; [apply IH; assumption|].
  apply Forall_app. split; [exact F|repeat constructor; assumption].
Qed.
Lemma store_order : forall ops, exists ks, Forall2 (entered ops) (map p_prefix (store_after ops)) ks /\ StronglySorted lt ks.
Proof.
  intros ops. cut (exists ks, Forall2 (entered ops) (map p_prefix (store_after ops)) ks /\ StronglySorted lt ks /\ Forall (fun k => (k < length ops)%nat) ks).
  { intros (ks & A & B & _). eauto. }
  induction ops as [|op ops (ks & F & S & B)] using rev_ind; [exists []; repeat constructor|].
  destruct (store_inv ops) as [ND IN]. unfold store_after in *. rewrite fold_left_app. cbn [fold_left]. set (l := fold_left store_do ops []) in *.
  assert (B' : Forall (fun k => (k < length (ops ++ [op]))%nat) ks) by (eapply Forall_impl; [|exact B]; intros k Q; rewrite app_length; cbn in *; lia).
  destruct op as [p|n]; cbn [store_do].
  - assert (F' : Forall2 (entered (ops ++ [SAdd p])) (map p_prefix l) ks).
    { clear - F. induction F as [|n k ns ks H F IH]; constructor; [apply entered_more; [exact H|discriminate]|exact IH]. }
    rewrite store_add_prefixes. destruct (existsb _ _) eqn:X; [exists ks; auto|].
    exists (ks ++ [length ops]). split; [|split].
    + apply Forall2_app; [exact F'|]. constructor; [|constructor]. exists ops, p, []. repeat split; try reflexivity; [|intros []].
      intros q LQ Q. apply IN in LQ. apply absent_prefix in X. apply X. rewrite <- Q. apply in_map, LQ.
    + apply sorted_snoc; [exact S|exact B].
    + apply Forall_app. split; [exact B'|]. constructor; [|constructor]. rewrite app_length. cbn. lia.
  - assert (M : map p_prefix (store_remove n l) = filter (fun m => negb (name_eqb m n)) (map p_prefix l)).
    { unfold store_remove. clear. induction l as [|x l IH]; [reflexivity|]. cbn [filter map]. destruct (negb (name_eqb (p_prefix x) n)); cbn [map]; rewrite IH; reflexivity. }
    rewrite M. destruct (sorted_filter _ _ (fun m => negb (name_eqb m n)) _ _ F S) as (ks' & F2 & S2 & I). exists ks'. split; [|split; [exact S2|]].
    + assert (NN : Forall (fun m => m <> n) (filter (fun m => negb (name_eqb m n)) (map p_prefix l))).
      { apply Forall_forall. intros m Q. apply filter_In in Q as [_ Q]. intros ->. rewrite name_eqb_refl in Q. discriminate. }
      clear - F2 NN. induction F2 as [|m k ms ks' H F2 IH]; constructor; inversion NN; subst; [apply entered_more; [exact H|congruence]|apply IH; assumption].
    + rewrite Forall_forall in *. intros k Q. apply B', I, Q.
Qed.
Lemma store_keyed : forall ops, let l := fold_left store_do ops [] in
  NoDup (map p_prefix l) /\ (forall p, In p l <-> last_added ops p) /\ exists ks, Forall2 (fun p k => entered ops (p_prefix p) k) l ks /\ StronglySorted lt ks.
Proof.
  intros ops. cbv zeta. destruct (store_inv ops) as [A B]. destruct (store_order ops) as (ks & F & S). split; [exact A|]. split; [exact B|]. exists ks. split; [|exact S].
  unfold store_after in F. clear - F. revert ks F. generalize (fold_left store_do ops []). induction l as [|p l IH]; intros ks F; inversion F; subst; constructor; [assumption|apply IH; assumption].
Qed.
Lemma redirect_ub : forall E l, redirect_items E l = UB -> exists k t cs ps, In (k, t) l /\ text t (bs "certificate") cs /\ cs <> [] /\ io_load E cs = None /\ text t (bs "ca-prefix") ps /\ ps <> [].
Proof.
  intros E l. induction l as [|[k t] l IH]; intros H; [discriminate|]. cbn [redirect_items] in H. destruct (redirect_item E t) as [rp| | |] eqn:R; try discriminate.
  - cbn [bind] in H. destruct (redirect_items E l) as [r| | |] eqn:Q; try discriminate. destruct (IH eq_refl) as (k1 & t1 & cs & ps & IN & X). exists k1, t1, cs, ps. split; [right; exact IN|exact X].
  - clear H IH. exists k, t, (pt_get K_CERTIFICATE [] t), (pt_get K_CA_PREFIX [] t). split; [left; reflexivity|]. split; [apply text_at|]. unfold redirect_item in R.
    destruct (pt_get K_CERTIFICATE [] t) as [|b s] eqn:C; [discriminate|]. split; [discriminate|].
    assert (NP : match pt_get K_POLICY_TYPE [] t with [] => Exn | ty => do p <- create_policy ty (pt_get K_POLICY_PARAM [] t); match p with None => Exn | Some p' => Ok (io_load E (b :: s), p') end end <> UB).
    { destruct (pt_get K_POLICY_TYPE [] t) as [|b1 ty]; [discriminate|]. unfold create_policy. destruct (bytes_eqb _ _); [|destruct (bytes_eqb _ _); discriminate].
      unfold redirect_param_ctor. destruct (pt_get K_POLICY_PARAM [] t) as [|b2 pp]; [discriminate|]. generalize (split_on AMP (b2 :: pp)), (@nil (bytes * bytes)).
      induction l0 as [|x l0 IH]; intros m; [discriminate|]. cbn [redirect_param_loop]. destruct (find_byte EQ x); [apply IH|discriminate]. }
    destruct (pt_get K_CA_PREFIX [] t) as [|b1 s1] eqn:P; [exfalso; apply NP; exact R|].
    destruct (io_load E (b :: s)) as [c|] eqn:IL.
    + exfalso. cbv zeta in R. destruct (of_opt (o_of_uri E (b1 :: s1))) as [n| | |] eqn:U; cbn [bind] in R; try discriminate.
      * destruct (name_eqb n (identity_of (c_name c))); [|discriminate]. apply NP. exact R.
      * unfold of_opt in U. destruct (o_of_uri E (b1 :: s1)); discriminate.
    + split; [reflexivity|]. split; [apply get_text, P|discriminate].
Qed.
Lemma config_ub : forall E file, config_load E file = UB -> exists j l k t cs ps, file = Some j /\ items j (bs "redirect-to") l /\
  In (k, t) l /\ text t (bs "certificate") cs /\ cs <> [] /\ io_load E cs = None /\ text t (bs "ca-prefix") ps /\ ps <> [].
Proof.
  intros E [j|] H; [|discriminate]. unfold config_load in H. cbn [of_opt bind] in H. rewrite (of_child _ (redirect_items E) K_REDIRECTION j eq_refl), (of_child _ assign_items K_NAME_ASSIGNMENT j eq_refl) in H.
  destruct (pt_children j); [discriminate|].
  assert (NP : profile_from_json E j <> UB).
  { unfold profile_from_json. destruct (of_opt (o_of_uri E (pt_get K_CA_PREFIX [] j))) as [[|c0 pre]| | |] eqn:U; cbn [bind]; try discriminate; [|unfold of_opt in U; destruct (o_of_uri _ _); discriminate].
    destruct (of_opt (o_of_uri E (pt_get K_FORWARDING_HINT [] j))) as [n| | |] eqn:U2; cbn [bind]; try discriminate; [|unfold of_opt in U2; destruct (o_of_uri E (pt_get K_FORWARDING_HINT [] j)); discriminate].
    assert (A : forall l, probe_keys_of l <> UB). { induction l0 as [|[k t] l' IH]; [discriminate|]. cbn. destruct (to_lower _); [discriminate|]. destruct (probe_keys_of l'); try discriminate. contradiction. }
    assert (B : forall l, challenges_of l <> UB). { induction l0 as [|[k t] l' IH]; [discriminate|]. cbn. destruct (to_lower _); [discriminate|]. destruct (supported _); [|discriminate]. destruct (challenges_of l'); try discriminate. contradiction. }
    rewrite (of_child _ probe_keys_of K_PROBE_PARAMETERS j eq_refl), (of_child _ challenges_of K_CHALLENGES j eq_refl).
    specialize (A (child_items K_PROBE_PARAMETERS j)). specialize (B (child_items K_CHALLENGES j)). destruct (probe_keys_of _); cbn [bind]; try discriminate; [|contradiction]. destruct (challenges_of _); cbn [bind]; try discriminate. contradiction. }
  destruct (profile_from_json E j) as [pr| | |]; cbn [bind] in H; try discriminate; [|contradiction]. destruct (p_challenges pr); [discriminate|].
  assert (A : forall l, assign_items l <> UB). { induction l1 as [|[k t] l' IH]; [discriminate|]. cbn. destruct (create_assign _ _); [|discriminate]. destruct (assign_items l'); try discriminate. contradiction. }
  destruct (redirect_items E (child_items K_REDIRECTION j)) as [rs| | |] eqn:R; cbn [bind] in H; try discriminate.
  - specialize (A (child_items K_NAME_ASSIGNMENT j)). destruct (assign_items _); try discriminate. contradiction.
  - destruct (redirect_ub E _ R) as (k & t & cs & ps & X). exists j, (child_items K_REDIRECTION j), k, t, cs, ps. split; [reflexivity|]. split; [apply get_items; reflexivity|exact X].
Qed.
