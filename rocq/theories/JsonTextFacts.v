(** Proofs about reading back written JSON. *)
From Verif Require Export Spec_JsonText Storage BytesFacts.
From Coq Require Import Lia.
Local Open Scope N_scope.

Fixpoint utf8b (s : bytes) : bool :=
  match s with
  | [] => true
  | c :: s' =>
      match js_trailing c, s' with
      | Some 0%nat, _ => utf8b s'
      | Some 1%nat, a :: s1 => js_is_trail a && utf8b s1
      | Some 2%nat, a :: b :: s1 => js_is_trail a && js_is_trail b && utf8b s1
      | Some 3%nat, a :: b :: d :: s1 => js_is_trail a && js_is_trail b && js_is_trail d && utf8b s1
      | _, _ => false
      end
  end.

Lemma trail_ok : forall a, js_is_trail a = true <-> trail_byte a.
Proof. intros a. unfold js_is_trail, trail_byte. rewrite andb_true_iff, !N.leb_le. lia. Qed.

Lemma utf8b_ok : forall s, utf8b s = true <-> utf8_text s.
Proof.
  intros s. split.
  - revert s. assert (H : forall n s, (length s <= n)%nat -> utf8b s = true -> utf8_text s); [|intros s; apply (H (length s) s (le_n _))].
    induction n as [|n IH]; intros [|c s] L; cbn [length] in L; [intros _; constructor|lia|intros _; constructor|].
    cbn [utf8b]. unfold js_trailing. destruct (Byte.to_N c <? 0x80) eqn:E1; [intros H; apply utf8_1; [apply N.ltb_lt; exact E1|apply IH; [lia|exact H]]|].
    destruct (Byte.to_N c <? 0xC0) eqn:E2; [discriminate|]. destruct (Byte.to_N c <? 0xE0) eqn:E3.
    { destruct s as [|a s]; [discriminate|]. rewrite andb_true_iff, trail_ok. intros [A B]. cbn [length] in L. apply utf8_2; [apply N.ltb_ge in E2; apply N.ltb_lt in E3; lia|exact A|apply IH; [lia|exact B]]. }
    destruct (Byte.to_N c <? 0xF0) eqn:E4.
    { destruct s as [|a [|b s]]; try discriminate. rewrite !andb_true_iff, !trail_ok. intros [[A A'] B]. cbn [length] in L. apply utf8_3; [apply N.ltb_ge in E3; apply N.ltb_lt in E4; lia|exact A|exact A'|apply IH; [lia|exact B]]. }
    destruct (Byte.to_N c <? 0xF8) eqn:E5; [|discriminate].
    destruct s as [|a [|b [|d s]]]; try discriminate. rewrite !andb_true_iff, !trail_ok. intros [[[A A'] A''] B]. cbn [length] in L. apply utf8_4; [apply N.ltb_ge in E4; apply N.ltb_lt in E5; lia|exact A|exact A'|exact A''|apply IH; [lia|exact B]].
  - assert (LT : forall a b, a < b -> (a <? b) = true) by (intros; apply N.ltb_lt; assumption). assert (GE : forall a b, b <= a -> (a <? b) = false) by (intros; apply N.ltb_ge; assumption).
    induction 1 as [|c s C _ IH|c a s C A _ IH|c a b s C A B _ IH|c a b d s C A B D _ IH]; [reflexivity|..]; cbn [utf8b]; unfold js_trailing.
    + rewrite LT by exact C. exact IH.
    + rewrite GE, GE, LT by lia. apply trail_ok in A. rewrite A, IH. reflexivity.
    + rewrite GE, GE, GE, LT by lia. apply trail_ok in A. apply trail_ok in B. rewrite A, B, IH. reflexivity.
    + rewrite GE, GE, GE, GE, LT by lia. apply trail_ok in A. apply trail_ok in B. apply trail_ok in D. rewrite A, B, D, IH. reflexivity.
Qed.

(** *** Strings *)
Lemma rest_ascii : forall c s, js_trailing c = Some 0%nat -> js_string_rest (js_escape1 c ++ s) = js_prepend [c] (js_string_rest s).
Proof. intros c s H. destruct c; (discriminate H) || reflexivity. Qed.
Definition js_high (c : byte) : bool := 0x80 <=? Byte.to_N c.
Lemma high_escape : forall c, js_high c = true -> js_escape1 c = [c].
Proof. intros c H. destruct c; (discriminate H) || reflexivity. Qed.
Lemma low_escape : forall c, js_high c = false -> exists x l, js_escape1 c = x :: l /\ js_is_trail x = false.
Proof. intros c H. destruct c; (discriminate H) || (eexists; eexists; split; reflexivity). Qed.
Lemma trail_high : forall c, js_is_trail c = true -> js_high c = true.
Proof. intros c. unfold js_is_trail, js_high. rewrite andb_true_iff. tauto. Qed.

Definition js_cut (n : nat) (c : byte) (s' : bytes) : option (bytes * bytes) :=
  match n, s' with
  | 1%nat, a :: s1 => if js_is_trail a then js_prepend [c; a] (js_string_rest s1) else None
  | 2%nat, a :: b :: s1 => if js_is_trail a && js_is_trail b then js_prepend [c; a; b] (js_string_rest s1) else None
  | 3%nat, a :: b :: d :: s1 => if js_is_trail a && js_is_trail b && js_is_trail d then js_prepend [c; a; b; d] (js_string_rest s1) else None
  | _, _ => None
  end.
Lemma rest_high : forall c s, js_high c = true -> js_string_rest (c :: s) = match js_trailing c with Some n => js_cut n c s | None => None end.
Proof. intros c s H. destruct c; (discriminate H) || reflexivity. Qed.

(** the head of an escaped text followed by a quote, when a trail byte is expected *)
Lemma esc_head : forall s rest, (exists a s', s = a :: s' /\ js_is_trail a = true) \/ (exists x l, flat_map js_escape1 s ++ x22 :: rest = x :: l /\ js_is_trail x = false /\ forall a s', s = a :: s' -> js_is_trail a = false).
Proof.
  intros [|a s] rest; [right; exists x22, rest; split; [reflexivity|split; [reflexivity|discriminate]]|].
  destruct (js_is_trail a) eqn:T; [left; exists a, s; auto|]. right. cbn [flat_map]. destruct (js_high a) eqn:H.
  - rewrite high_escape by exact H. exists a, (flat_map js_escape1 s ++ x22 :: rest). split; [reflexivity|]. split; [exact T|]. intros a' s' Q. injection Q as -> ->. exact T.
  - destruct (low_escape a H) as (x & l & Q & X). rewrite Q. exists x, (l ++ flat_map js_escape1 s ++ x22 :: rest). split; [cbn; rewrite <- app_assoc; reflexivity|]. split; [exact X|]. intros a' s' W. injection W as -> ->. exact T.
Qed.

Lemma text_back : forall n s rest, (length s <= n)%nat -> js_string_rest (flat_map js_escape1 s ++ x22 :: rest) = if utf8b s then Some (s, rest) else None.
Proof.
  induction n as [|n IH]; intros [|c s] rest L; cbn [length] in L; try reflexivity; try lia.
  cbn [flat_map]. rewrite <- app_assoc. destruct (js_high c) eqn:HC.
  2:{ assert (T : js_trailing c = Some 0%nat). { unfold js_trailing. unfold js_high in HC. apply N.leb_gt in HC. apply N.ltb_lt in HC. rewrite HC. reflexivity. }
      rewrite rest_ascii by exact T. rewrite IH by lia. cbn [utf8b]. rewrite T. destruct (utf8b s); reflexivity. }
  rewrite high_escape by exact HC. cbn [app]. rewrite rest_high by exact HC.
  assert (STEP : forall a t, js_is_trail a = true -> flat_map js_escape1 (a :: t) ++ x22 :: rest = a :: flat_map js_escape1 t ++ x22 :: rest).
  { intros a t T. cbn [flat_map]. rewrite high_escape by (apply trail_high; exact T). reflexivity. }
  cbn [utf8b]. destruct (js_trailing c) as [k|] eqn:TC; [|destruct s; reflexivity].
  destruct k as [|[|[|[|k]]]].
  - exfalso. revert TC. unfold js_trailing. unfold js_high in HC. apply N.leb_le in HC. rewrite (proj2 (N.ltb_ge _ _)) by exact HC. repeat (match goal with |- context [if ?b then _ else _] => destruct b end); discriminate.
  - unfold js_cut. destruct (esc_head s rest) as [(a & t & -> & T)|(x & l & Q & X & N)].
    + rewrite STEP by exact T. rewrite T. cbn [length] in L. rewrite IH by lia. cbn [andb]. destruct (utf8b t); reflexivity.
    + rewrite Q, X. destruct s as [|a t]; [reflexivity|]. rewrite (N a t eq_refl). reflexivity.
  - unfold js_cut. destruct (esc_head s rest) as [(a & t & -> & T)|(x & l & Q & X & N)].
    + rewrite STEP by exact T. destruct (esc_head t rest) as [(b & u & -> & U)|(x & l & Q & X & N)].
      * rewrite STEP by exact U. rewrite T, U. cbn [length] in L. rewrite IH by lia. cbn [andb]. destruct (utf8b u); reflexivity.
      * rewrite Q, X, andb_false_r. destruct t as [|b u]; [reflexivity|]. rewrite (N b u eq_refl), andb_false_r. reflexivity.
    + rewrite Q. destruct l as [|y l]; [|rewrite X; cbn [andb]]; (destruct s as [|a [|b t]]; [reflexivity|reflexivity|rewrite (N a _ eq_refl); reflexivity]).
  - unfold js_cut. destruct (esc_head s rest) as [(a & t & -> & T)|(x & l & Q & X & N)].
    + rewrite STEP by exact T. destruct (esc_head t rest) as [(b & u & -> & U)|(x & l & Q & X & N)].
      * rewrite STEP by exact U. destruct (esc_head u rest) as [(d & v & -> & V)|(x & l & Q & X & N)].
        -- rewrite STEP by exact V. rewrite T, U, V. cbn [length] in L. rewrite IH by lia. cbn [andb]. destruct (utf8b v); reflexivity.
        -- rewrite Q, X, andb_false_r. destruct u as [|d v]; [reflexivity|]. rewrite (N d v eq_refl), andb_false_r. reflexivity.
      * rewrite Q. destruct l as [|y l]; [|rewrite X, andb_false_r; cbn [andb]]; (destruct t as [|b [|d u]]; [reflexivity|reflexivity|rewrite (N b _ eq_refl), andb_false_r; reflexivity]).
    + rewrite Q. destruct l as [|y [|z l]]; [| |rewrite X; cbn [andb]]; (destruct s as [|a [|b [|d t]]]; [reflexivity|reflexivity|reflexivity|rewrite (N a _ eq_refl); reflexivity]).
  - exfalso. revert TC. unfold js_trailing. repeat (match goal with |- context [if ?b then _ else _] => destruct b end); discriminate.
Qed.
Lemma string_back : forall s rest, js_string_rest (flat_map js_escape1 s ++ x22 :: rest) = if utf8b s then Some (s, rest) else None.
Proof. intros s rest. apply (text_back (length s)). apply le_n. Qed.

(** *** Trees *)
Lemma ptree_ind' : forall P : ptree -> Prop, (forall d cs, Forall (fun kc => P (snd kc)) cs -> P (PT d cs)) -> forall t, P t.
Proof.
  intros P H. fix F 1. intros [d cs]. apply H. induction cs as [|[k c] cs IH]; constructor; [apply F|exact IH].
Qed.
Fixpoint treeb (t : ptree) : bool :=
  match t with PT d cs => utf8b d && forallb (fun kc => utf8b (fst kc) && treeb (snd kc)) cs end.
Lemma treeb_ok : forall t, treeb t = true <-> utf8_tree t.
Proof.
  induction t as [d cs IH] using ptree_ind'. cbn [treeb]. rewrite andb_true_iff, utf8b_ok, forallb_forall. rewrite Forall_forall in IH. split.
  - intros [A B]. constructor; [exact A|]. intros k c K. specialize (B _ K). cbn [fst snd] in B. rewrite andb_true_iff, utf8b_ok in B. destruct B as [B C]. split; [exact B|]. exact (proj1 (IH _ K) C).
  - intros H. inversion H as [? ? A B]. subst. split; [exact A|]. intros [k c] K. destruct (B k c K) as [C D]. cbn [fst snd]. rewrite andb_true_iff, utf8b_ok. split; [exact C|]. exact (proj2 (IH _ K) D).
Qed.
Lemma verify_ok : forall t, js_verify_node false t = true <-> value_or_children t.
Proof.
  induction t as [d cs IH] using ptree_ind'. cbn [js_verify_node negb orb andb]. rewrite andb_true_iff, orb_true_iff, forallb_forall. rewrite Forall_forall in IH. split.
  - intros [[A|A] B].
    + destruct d; [|discriminate]. apply voc_children. intros k c K. exact (proj1 (IH _ K) (B _ K)).
    + destruct cs; [|discriminate]. constructor.
  - intros H. inversion H as [d'|cs' A]; subst.
    + split; [right; reflexivity|intros kc []].
    + split; [left; reflexivity|]. intros [k c] K. exact (proj2 (IH _ K) (A k c K)).
Qed.
Lemma json_tree_ok : forall t, js_verify_node true t = true <-> json_tree t.
Proof.
  intros [d cs]. unfold json_tree. rewrite <- verify_ok. cbn [js_verify_node negb orb andb pt_data]. destruct d; cbn [is_nil andb]; [|split; [discriminate|intros [A _]; discriminate]]. split; [intros ->; split; reflexivity|intros [_ ->]; reflexivity].
Qed.

Lemma skip_indent : forall n s, js_skip_ws (js_indent n ++ s) = js_skip_ws s.
Proof. intros n s. unfold js_indent. induction (4 * n)%nat as [|m IH]; [reflexivity|exact IH]. Qed.
Lemma skip_nl : forall s, js_skip_ws (x0a :: s) = js_skip_ws s.
Proof. reflexivity. Qed.
Lemma value_ws : forall f s s', js_skip_ws s = js_skip_ws s' -> js_value f s = js_value f s'.
Proof. intros [|f] s s' H; [reflexivity|]. cbn [js_value]. rewrite H. reflexivity. Qed.
Lemma members_ws : forall f a s s', js_skip_ws s = js_skip_ws s' -> js_members f a s = js_members f a s'.
Proof. intros [|f] a s s' H; [reflexivity|]. cbn [js_members]. unfold js_have at 1. rewrite H. reflexivity. Qed.
Lemma items_ws : forall f a s s', js_skip_ws s = js_skip_ws s' -> js_items f a s = js_items f a s'.
Proof. intros [|f] a s s' H; [reflexivity|]. cbn [js_items]. rewrite (value_ws f s s' H). reflexivity. Qed.

Lemma have_ws : forall c s s', js_skip_ws s = js_skip_ws s' -> js_have c s = js_have c s'.
Proof. intros c s s' H. unfold js_have. rewrite H. reflexivity. Qed.
Lemma have_eq : forall c s x u, js_skip_ws s = x :: u -> js_have c s = if byte_eqb x c then Some u else None.
Proof. intros c s x u H. unfold js_have. rewrite H. reflexivity. Qed.
Lemma value_text : forall f s, js_value (S f) (x22 :: s) = js_leaf (js_string_rest s).
Proof. reflexivity. Qed.
Lemma value_object : forall f s u, js_skip_ws s = x22 :: u -> js_value (S f) (x7b :: s) = js_members f [] s.
Proof. intros f s u H. change (js_value (S f) (x7b :: s)) with (match js_have x7d s with Some s2 => Some (PT [] [], s2) | None => js_members f [] s end). rewrite (have_eq _ _ _ _ H). reflexivity. Qed.
Definition js_opens (c : byte) : Prop := c = x22 \/ c = x5b \/ c = x7b.
Lemma value_array : forall f s c u, js_skip_ws s = c :: u -> js_opens c -> js_value (S f) (x5b :: s) = js_items f [] s.
Proof. intros f s c u H O. change (js_value (S f) (x5b :: s)) with (match js_have x5d s with Some s2 => Some (PT [] [], s2) | None => js_items f [] s end). rewrite (have_eq _ _ _ _ H). destruct O as [->|[->| ->]]; reflexivity. Qed.
Lemma members_eq : forall f a s, js_members (S f) a (x22 :: s) =
  match js_string_rest s with
  | None => None
  | Some (k, s2) =>
      match js_have x3a s2 with
      | None => None
      | Some s3 =>
          match js_value f s3 with
          | None => None
          | Some (t, s4) =>
              match js_have x2c s4 with
              | Some s5 => js_members f (a ++ [(k, t)]) s5
              | None => option_map (fun s5 => (PT [] (a ++ [(k, t)]), s5)) (js_have x7d s4)
              end
          end
      end
  end.
Proof. reflexivity. Qed.
Lemma items_eq : forall f a s, js_items (S f) a s =
  match js_value f s with
  | None => None
  | Some (t, s1) =>
      match js_have x2c s1 with
      | Some s2 => js_items f (a ++ [([], t)]) s2
      | None => option_map (fun s2 => (PT [] (a ++ [([], t)]), s2)) (js_have x5d s1)
      end
  end.
Proof. reflexivity. Qed.

(** how much fuel a tree takes *)
Fixpoint js_need (t : ptree) : nat :=
  match t with PT _ cs => S (fold_right (fun kc n => S (js_need (snd kc) + n)) 0%nat cs) end.
Definition js_needs (cs : list (bytes * ptree)) : nat := fold_right (fun kc n => S (js_need (snd kc) + n)) 0%nat cs.
Definition array_text (d : nat) : list (bytes * ptree) -> bytes :=
  fix go l := match l with
              | [] => []
              | (_, c) :: l' => js_indent d ++ js_write_node d c ++ (if is_nil l' then [] else [x2c]) ++ x0a :: go l'
              end.
Definition object_text (d : nat) : list (bytes * ptree) -> bytes :=
  fix go l := match l with
              | [] => []
              | (k, c) :: l' => js_indent d ++ js_quoted k ++ [x3a; x20] ++ js_write_node d c ++ (if is_nil l' then [] else [x2c]) ++ x0a :: go l'
              end.
Lemma write_eq : forall d da cs, js_write_node d (PT da cs) =
  if Nat.ltb 0 d && is_nil cs then js_quoted da
  else if Nat.ltb 0 d && forallb (fun kv => is_nil (fst kv)) cs then x5b :: x0a :: array_text (S d) cs ++ js_indent d ++ [x5d]
  else x7b :: x0a :: object_text (S d) cs ++ js_indent d ++ [x7d].
Proof. reflexivity. Qed.
Lemma node_opens : forall d t, exists c l, js_write_node d t = c :: l /\ js_opens c.
Proof.
  intros d [da cs]. rewrite write_eq. destruct (Nat.ltb 0 d && is_nil cs); [eexists; eexists; split; [reflexivity|left; reflexivity]|].
  destruct (Nat.ltb 0 d && forallb (fun kv => is_nil (fst kv)) cs); eexists; eexists; (split; [reflexivity|]); [right; left|right; right]; reflexivity.
Qed.
Lemma skip_opens : forall c l, js_opens c -> js_skip_ws (c :: l) = c :: l.
Proof. intros c l [->|[->| ->]]; reflexivity. Qed.

Definition js_reads (d : nat) (t : ptree) : Prop :=
  forall f rest, (js_need t <= f)%nat -> js_value f (js_write_node d t ++ rest) = if treeb t then Some (t, rest) else None.

Lemma members_back : forall d cs, cs <> [] -> Forall (fun kc => js_reads d (snd kc)) cs -> forall f acc tail rest, (js_needs cs <= f)%nat -> js_skip_ws tail = x7d :: rest ->
  js_members f acc (object_text d cs ++ tail) = if forallb (fun kc => utf8b (fst kc) && treeb (snd kc)) cs then Some (PT [] (acc ++ cs), rest) else None.
Proof.
  intros d cs. induction cs as [|[k c] cs IH]; intros NE FA f acc tail rest F T; [destruct (NE eq_refl)|].
  cbn [js_needs fold_right snd] in F. destruct f as [|f]; [lia|]. inversion FA as [|? ? RC FA']; subst. cbn [snd] in RC.
  cbn [object_text forallb fst snd]. fold (object_text d). rewrite <- !app_assoc.
  rewrite (members_ws (S f) acc _ (js_quoted k ++ [x3a; x20] ++ js_write_node d c ++ (if is_nil cs then [] else [x2c]) ++ (x0a :: object_text d cs) ++ tail)) by apply skip_indent.
  unfold js_quoted. cbn [app]. rewrite <- app_assoc. cbn [app]. rewrite members_eq, string_back. destruct (utf8b k); [|reflexivity]. cbn [andb].
  change (js_have x3a (x3a :: x20 :: js_write_node d c ++ (if is_nil cs then [] else [x2c]) ++ x0a :: object_text d cs ++ tail)) with (Some (x20 :: js_write_node d c ++ (if is_nil cs then [] else [x2c]) ++ x0a :: object_text d cs ++ tail)).
  cbv iota beta. rewrite (value_ws f (x20 :: _) (js_write_node d c ++ (if is_nil cs then [] else [x2c]) ++ x0a :: object_text d cs ++ tail)) by reflexivity.
  rewrite RC by lia. destruct (treeb c); [|reflexivity]. cbn [andb].
  destruct cs as [|kc cs].
  - cbn [is_nil app object_text forallb]. rewrite !(have_eq _ (x0a :: tail) _ _ T). reflexivity.
  - cbn [is_nil app]. remember (kc :: cs) as l eqn:QL. change (js_have x2c (x2c :: x0a :: object_text d l ++ tail)) with (Some (x0a :: object_text d l ++ tail)). cbv iota beta.
    rewrite (members_ws f _ _ (object_text d l ++ tail)) by apply skip_nl. rewrite (IH ltac:(rewrite QL; discriminate) FA' f _ tail rest ltac:(unfold js_needs; lia) T). rewrite <- app_assoc. reflexivity.
Qed.
Lemma items_back : forall d cs, cs <> [] -> Forall (fun kc => js_reads d (snd kc)) cs -> forallb (fun kv => is_nil (fst kv)) cs = true -> forall f acc tail rest, (js_needs cs <= f)%nat -> js_skip_ws tail = x5d :: rest ->
  js_items f acc (array_text d cs ++ tail) = if forallb (fun kc => utf8b (fst kc) && treeb (snd kc)) cs then Some (PT [] (acc ++ cs), rest) else None.
Proof.
  intros d cs. induction cs as [|[k c] cs IH]; intros NE FA KE f acc tail rest F T; [destruct (NE eq_refl)|].
  cbn [js_needs fold_right snd] in F. destruct f as [|f]; [lia|]. inversion FA as [|? ? RC FA']; subst. cbn [snd] in RC.
  cbn [forallb fst] in KE. apply andb_true_iff in KE. destruct KE as [KE KS]. destruct k; [|discriminate].
  cbn [array_text forallb fst snd utf8b andb]. fold (array_text d). rewrite <- !app_assoc.
  rewrite (items_ws (S f) acc _ (js_write_node d c ++ (if is_nil cs then [] else [x2c]) ++ (x0a :: array_text d cs) ++ tail)) by apply skip_indent.
  rewrite items_eq, RC by lia. destruct (treeb c); [|reflexivity]. cbn [andb].
  destruct cs as [|kc cs].
  - cbn [is_nil app array_text forallb]. rewrite !(have_eq _ (x0a :: tail) _ _ T). reflexivity.
  - cbn [is_nil app]. remember (kc :: cs) as l eqn:QL. change (js_have x2c (x2c :: x0a :: array_text d l ++ tail)) with (Some (x0a :: array_text d l ++ tail)). cbv iota beta.
    rewrite (items_ws f _ _ (array_text d l ++ tail)) by apply skip_nl. rewrite (IH ltac:(rewrite QL; discriminate) FA' KS f _ tail rest ltac:(unfold js_needs; lia) T). rewrite <- app_assoc. reflexivity.
Qed.
Lemma skip_tail : forall d c rest, (c = x5d \/ c = x7d) -> js_skip_ws ((js_indent d ++ [c]) ++ rest) = c :: rest.
Proof. intros d c rest H. rewrite <- app_assoc, skip_indent. destruct H as [-> | ->]; reflexivity. Qed.

Lemma object_reads : forall d cs, cs <> [] -> Forall (fun kc => js_reads (S d) (snd kc)) cs -> forall f rest, (S (js_needs cs) <= f)%nat ->
  js_value f ((x7b :: x0a :: object_text (S d) cs ++ js_indent d ++ [x7d]) ++ rest) = if forallb (fun kc => utf8b (fst kc) && treeb (snd kc)) cs then Some (PT [] cs, rest) else None.
Proof.
  intros d cs NE FA f rest F. destruct f as [|f]; [lia|]. cbn [app]. rewrite <- app_assoc.
  assert (U : exists u, js_skip_ws (x0a :: object_text (S d) cs ++ (js_indent d ++ [x7d]) ++ rest) = x22 :: u).
  { destruct cs as [|[k c] cs]; [destruct (NE eq_refl)|]. rewrite skip_nl. cbn [object_text]. rewrite <- !app_assoc, skip_indent. eexists. reflexivity. }
  destruct U as [u U]. rewrite (value_object _ _ _ U). rewrite (members_ws f [] _ (object_text (S d) cs ++ (js_indent d ++ [x7d]) ++ rest)) by apply skip_nl.
  rewrite (members_back (S d) cs NE FA f [] _ rest); [reflexivity|lia|apply skip_tail; right; reflexivity].
Qed.
Lemma node_back : forall t, js_verify_node false t = true -> forall d, js_reads (S d) t.
Proof.
  induction t as [da cs IH] using ptree_ind'. intros V d f rest F. cbn [js_verify_node negb orb andb] in V. apply andb_true_iff in V. destruct V as [V1 V2].
  rewrite write_eq. change (Nat.ltb 0 (S d)) with true. cbn [andb]. destruct cs as [|kc cs].
  - cbn [is_nil]. unfold js_quoted. cbn [app]. rewrite <- app_assoc. cbn [app]. destruct f as [|f]; [cbn [js_need] in F; lia|]. rewrite value_text, string_back. cbn [treeb forallb]. rewrite andb_true_r. destruct (utf8b da); reflexivity.
  - cbn [is_nil]. rewrite orb_false_r in V1. destruct da; [|discriminate]. remember (kc :: cs) as l eqn:QL. assert (NE : l <> []) by (rewrite QL; discriminate). clear QL kc cs.
    assert (FA : forall n, Forall (fun kc => js_reads (S n) (snd kc)) l).
    { intros n. rewrite Forall_forall in IH |- *. rewrite forallb_forall in V2. intros kc K. exact (IH kc K (V2 kc K) n). }
    cbn [treeb utf8b andb]. cbn [js_need] in F. fold (js_needs l) in F. destruct (forallb (fun kv => is_nil (fst kv)) l) eqn:KE.
    + destruct f as [|f]; [lia|]. cbn [app]. rewrite <- app_assoc.
      assert (U : exists c u, js_skip_ws (x0a :: array_text (S (S d)) l ++ (js_indent (S d) ++ [x5d]) ++ rest) = c :: u /\ js_opens c).
      { destruct l as [|[k c] l]; [destruct (NE eq_refl)|]. rewrite skip_nl. cbn [array_text]. rewrite <- !app_assoc, skip_indent. destruct (node_opens (S (S d)) c) as (x & v & Q & O). rewrite Q. cbn [app]. rewrite (skip_opens _ _ O). eexists. eexists. split; [reflexivity|exact O]. }
      destruct U as (c & u & U & O). rewrite (value_array _ _ _ _ U O). rewrite (items_ws f [] _ (array_text (S (S d)) l ++ (js_indent (S d) ++ [x5d]) ++ rest)) by apply skip_nl.
      rewrite (items_back (S (S d)) l NE (FA (S d)) KE f [] _ rest); [reflexivity|lia|apply skip_tail; left; reflexivity].
    + apply (object_reads (S d) l NE (FA (S d))). exact F.
Qed.

(** the text is long enough to be its own fuel *)
Lemma need_len : forall t d, (js_need t <= length (js_write_node d t))%nat.
Proof.
  induction t as [da cs IH] using ptree_ind'. intros d. rewrite write_eq. cbn [js_need]. fold (js_needs cs).
  assert (A : forall n, (js_needs cs <= length (array_text n cs))%nat /\ (js_needs cs <= length (object_text n cs))%nat).
  { intros n. induction cs as [|[k c] cs IHc]; [split; apply le_n|]. inversion IH as [|? ? IC IR]; subst. cbn [snd] in IC. specialize (IHc IR). specialize (IC n). cbn [js_needs fold_right snd array_text object_text]. fold (js_needs cs). fold (array_text n). fold (object_text n).
    split; rewrite !app_length; cbn [length]; lia. }
  destruct (Nat.ltb 0 d && is_nil cs) eqn:B.
  - apply andb_true_iff in B. destruct cs; [|destruct B; discriminate]. unfold js_quoted. cbn [length js_needs fold_right]. rewrite app_length. cbn [length]. lia.
  - destruct (A (S d)) as [A1 A2]. destruct (Nat.ltb 0 d && forallb (fun kv => is_nil (fst kv)) cs); cbn [length]; rewrite app_length; lia.
Qed.

Lemma read_back : forall t, json_tree t -> exists text, write_json t = Ok text /\ read_json text = if treeb t then Some t else None.
Proof.
  intros t J. pose proof J as V. apply json_tree_ok in V. unfold write_json. rewrite V. eexists. split; [reflexivity|].
  unfold read_json. destruct t as [da cs]. destruct J as [D J]. cbn [pt_data] in D. subst da. destruct cs as [|kc cs]; [reflexivity|].
  remember (kc :: cs) as l eqn:QL. assert (NE : l <> []) by (rewrite QL; discriminate). clear QL kc cs.
  assert (FA : Forall (fun kc => js_reads 1 (snd kc)) l).
  { apply Forall_forall. intros [k c] K. apply node_back. apply verify_ok. inversion J as [d'|cs' A]; subst; [destruct K|exact (A k c K)]. }
  pose proof (need_len (PT [] l) 0) as L. cbn [js_need] in L. fold (js_needs l) in L. rewrite write_eq. change (Nat.ltb 0 0) with false. cbn [andb].
  rewrite write_eq in L. change (Nat.ltb 0 0) with false in L. cbn [andb] in L.
  rewrite (object_reads 0 l NE FA _ [x0a]) by (rewrite app_length; lia). cbn [treeb utf8b andb]. destruct (forallb (fun kc => utf8b (fst kc) && treeb (snd kc)) l); reflexivity.
Qed.
Lemma json_back : forall t, json_tree t -> exists text, write_json t = Ok text /\ (utf8_tree t -> read_json text = Some t) /\ (~ utf8_tree t -> read_json text = None).
Proof.
  intros t J. destruct (read_back t J) as (text & W & R). exists text. split; [exact W|]. rewrite R. destruct (treeb t) eqn:B.
  - apply treeb_ok in B. split; [reflexivity|intros N; destruct (N B)].
  - split; [|reflexivity]. intros U. apply treeb_ok in U. rewrite U in B. discriminate.
Qed.
Lemma json_refused : forall t, ~ json_tree t -> write_json t = Exn.
Proof. intros t N. unfold write_json. destruct (js_verify_node true t) eqn:V; [|reflexivity]. apply json_tree_ok in V. destruct (N V). Qed.

(** *** Secrets *)
Lemma secrets_json : forall l, json_tree (secrets_tree l).
Proof. intros l. split; [reflexivity|]. apply voc_children. intros k c K. apply in_map_iff in K. destruct K as ([a b] & Q & _). injection Q as <- <-. constructor. Qed.
Lemma secrets_utf8 : forall l, utf8_tree (secrets_tree l) <-> secret_texts l.
Proof.
  intros l. unfold secret_texts. rewrite Forall_forall. split.
  - intros H [a b] K. inversion H as [? ? _ A]; subst. destruct (A a (pt_leaf b)) as [B C]; [apply in_map_iff; exists (a, b); auto|]. inversion C; subst. split; assumption.
  - intros H. constructor; [constructor|]. intros k c K. apply in_map_iff in K. destruct K as ([a b] & Q & K). injection Q as <- <-. destruct (H _ K) as [A B]. split; [exact A|]. constructor; [exact B|intros ? ? []].
Qed.
Lemma secrets_inv : forall l, secrets_of_tree (secrets_tree l) = l.
Proof. intros l. unfold secrets_of_tree, secrets_tree. cbn [pt_children]. rewrite map_map. rewrite <- (map_id l) at 2. apply map_ext. intros [a b]. reflexivity. Qed.
Lemma secrets_back : forall l, secret_texts l -> text_secrets (secrets_text l) = Some l.
Proof.
  intros l H. destruct (json_back (secrets_tree l) (secrets_json l)) as (text & W & R & _). unfold secrets_text, text_secrets. rewrite W, (R (proj2 (secrets_utf8 l) H)). cbn [option_map]. rewrite secrets_inv. reflexivity.
Qed.
Lemma ascii_utf8 : forall s, Forall (fun c => Byte.to_N c < 0x80) s -> utf8_text s.
Proof. induction 1; constructor; assumption. Qed.
Lemma hex_utf8 : forall b, utf8_text (to_hex b).
Proof.
  intros b. apply ascii_utf8. induction b as [|x b IH]; [constructor|]. cbn [to_hex].
  assert (H : forall n, n < 16 -> Byte.to_N (hex_digit n) < 128).
  { intros n H. unfold hex_digit. destruct (n <? 10) eqn:Q; rewrite to_N_byte_of_N; apply N.ltb_lt in Q || apply N.ltb_ge in Q; rewrite N.mod_small by lia; lia. }
  constructor; [|constructor; [|exact IH]]; apply H; [|apply N.mod_lt; discriminate]. pose proof (to_N_bounded x). apply N.div_lt_upper_bound; lia.
Qed.
