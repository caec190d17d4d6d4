From Verif Require Export Spec_Reload ConfigFacts ClientFacts.
From Verif Require Import NameFacts.
Local Open Scope N_scope.

Lemma profile_calm : forall E t, calm (profile_from_json E t).
Proof.
  intros E t. pose proof (calm_store E (Some (PT [] [(bs "ca-list", PT [] [([], t)])]))) as [H1 H2].
  unfold store_load, store_load_json in H1, H2. cbn [of_opt bind pt_children] in H1, H2.
  change (pt_child (bs "ca-list") (PT [] [(bs "ca-list", PT [] [([], t)])])) with (Some (PT [] [(@nil byte, t)])) in H1, H2.
  cbn [pt_children load_items] in H1, H2. destruct (profile_from_json E t); cbn [bind] in H1, H2; split; congruence.
Qed.
Lemma gives_iff : forall E it p, item_gives E it p <-> profile_from_json E (snd it) = Ok p /\ p_cert p <> None.
Proof. intros E it p. unfold item_gives. rewrite <- profile_iff. tauto. Qed.

Lemma push_ok : forall E items l l', push_items E items l = (l', Ok tt) <-> exists r, l' = l ++ r /\ Forall2 (item_gives E) items r.
Proof.
  intros E items. induction items as [|[k t] items IH]; intros l l'; cbn [push_items].
  - split.
    + intros Q. injection Q as <-. exists []. rewrite app_nil_r. split; [reflexivity|constructor].
    + intros (r & -> & F). inversion F. rewrite app_nil_r. reflexivity.
  - split.
    + intros H. destruct (profile_from_json E t) as [p| | |] eqn:P; try discriminate. destruct (p_cert p) eqn:C; [|discriminate].
      apply IH in H as (r & -> & F). exists (p :: r). rewrite <- app_assoc. split; [reflexivity|]. constructor; [|exact F]. apply gives_iff. split; [exact P|congruence].
    + intros (r & -> & F). inversion F as [|? p ? r' G F']; subst. apply gives_iff in G as [P C]. cbn [snd] in P. rewrite P. destruct (p_cert p); [|contradiction].
      apply IH. exists r'. rewrite <- app_assoc. split; [reflexivity|exact F'].
Qed.
Lemma push_exn : forall E items l l', push_items E items l = (l', Exn) <->
  exists a it b r, items = a ++ it :: b /\ l' = l ++ r /\ Forall2 (item_gives E) a r /\ bad_item E it.
Proof.
  intros E items. induction items as [|[k t] items IH]; intros l l'; cbn [push_items].
  - split; [discriminate|]. intros (a & it & b & r & Q & _). destruct a; discriminate.
  - split.
    + intros H. destruct (profile_from_json E t) as [p| | |] eqn:P.
      * destruct (p_cert p) eqn:C.
        -- apply IH in H as (a & it & b & r & -> & -> & F & B). exists ((k, t) :: a), it, b, (p :: r). rewrite <- app_assoc.
           split; [reflexivity|]. split; [reflexivity|]. split; [|exact B]. constructor; [|exact F]. apply gives_iff. split; [exact P|congruence].
        -- injection H as <-. exists [], (k, t), items, []. rewrite app_nil_r. split; [reflexivity|]. split; [reflexivity|]. split; [constructor|].
           intros q G. apply gives_iff in G as [G1 G2]. cbn [snd] in G1. congruence.
      * injection H as <-. exists [], (k, t), items, []. rewrite app_nil_r. split; [reflexivity|]. split; [reflexivity|]. split; [constructor|].
        intros q G. apply gives_iff in G as [G1 G2]. cbn [snd] in G1. congruence.
      * discriminate.
      * discriminate.
    + intros (a & it & b & r & Q & -> & F & B). destruct a as [|x a]; injection Q as <- ->.
      * inversion F; subst. rewrite app_nil_r. destruct (profile_from_json E t) as [p| | |] eqn:P.
        -- destruct (p_cert p) eqn:C; [|reflexivity]. exfalso. apply (B p). apply gives_iff. split; [exact P|congruence].
        -- reflexivity.
        -- destruct (profile_calm E t) as [N _]. contradiction.
        -- destruct (profile_calm E t) as [_ N]. contradiction.
      * inversion F as [|? p ? r' G F']; subst. apply gives_iff in G as [P C]. cbn [snd] in P. rewrite P. destruct (p_cert p); [|contradiction].
        apply IH. exists a, it, b, r'. rewrite <- app_assoc. split; [reflexivity|]. split; [reflexivity|]. split; [exact F'|exact B].
Qed.
Lemma push_calm : forall E items l, calm (snd (push_items E items l)).
Proof.
  intros E items. induction items as [|[k t] items IH]; intros l; cbn [push_items]; [apply calm_ok|].
  pose proof (profile_calm E t) as [N1 N2]. destruct (profile_from_json E t) as [p| | |]; try contradiction; [|apply calm_exn].
  destruct (p_cert p); [apply IH|apply calm_exn].
Qed.

Lemma reload_calm : forall E file l, snd (reload E file l) = Ok tt \/ snd (reload E file l) = Exn.
Proof.
  intros E file l. assert (C : calm (snd (reload E file l))).
  { unfold reload, reload_json. destruct file as [j|]; [|apply calm_exn]. destruct (pt_children j); [apply calm_exn|]. destruct (pt_child _ j); [apply push_calm|apply calm_exn]. }
  destruct C as [C1 C2]. destruct (snd (reload E file l)) as [[]| | |]; auto; contradiction.
Qed.
Lemma reload_ok : forall E file l l', reload E file l = (l', Ok tt) <->
  exists j t, file = Some j /\ first_child j (bs "ca-list") t /\ Forall2 (item_gives E) (pt_children t) l'.
Proof.
  intros E file l l'. unfold reload, reload_json. split.
  - intros H. destruct file as [j|]; [|discriminate]. destruct (pt_children j) eqn:CH; [discriminate|]. destruct (pt_child (bs "ca-list") j) as [t|] eqn:C; [|discriminate].
    apply push_ok in H as (r & -> & F). exists j, t. split; [reflexivity|]. split; [apply child_first, C|exact F].
  - intros (j & t & -> & FC & F). apply child_first in FC as C. rewrite C. destruct (pt_children j) eqn:CH.
    + destruct FC as (a & b & Q & _). rewrite CH in Q. destruct a; discriminate.
    + apply push_ok. exists l'. split; [reflexivity|exact F].
Qed.
Lemma reload_exn : forall E file l l', reload E file l = (l', Exn) <->
  unreadable file /\ l' = l \/
  (~ unreadable file /\ exists j, file = Some j /\
    (no_child j (bs "ca-list") /\ l' = [] \/
     exists t a it b, first_child j (bs "ca-list") t /\ pt_children t = a ++ it :: b /\ Forall2 (item_gives E) a l' /\ bad_item E it)).
Proof.
  intros E file l l'. unfold reload, reload_json. split.
  - intros H. destruct file as [[d ch]|]; [|left; injection H as <-; split; [left; reflexivity|reflexivity]]. cbn [pt_children] in H. destruct ch as [|x ch].
    + left. injection H as <-. split; [right; exists d; reflexivity|reflexivity].
    + right. split; [intros [Q|[d' Q]]; discriminate|]. exists (PT d (x :: ch)). split; [reflexivity|]. destruct (pt_child (bs "ca-list") (PT d (x :: ch))) as [t|] eqn:C.
      * right. apply push_exn in H as (a & it & b & r & Q & -> & F & B). exists t, a, it, b. split; [apply child_first, C|]. auto.
      * left. injection H as <-. split; [apply child_none, C|reflexivity].
  - intros [[[->|[d ->]] ->]|(NU & j & -> & H)]; [reflexivity|reflexivity|]. destruct (pt_children j) eqn:CH.
    + exfalso. apply NU. right. destruct j as [d ch]. cbn [pt_children] in CH. subst ch. exists d. reflexivity.
    + destruct H as [[NC ->]|(t & a & it & b & FC & Q & F & B)].
      * apply child_none in NC. rewrite NC. reflexivity.
      * apply child_first in FC. rewrite FC. apply push_exn. exists a, it, b, l'. auto.
Qed.
(** The outcome is that of [store_load], which the client uses. *)
Lemma reload_load : forall E file l l', reload E file l = (l', Ok tt) <-> store_load E file = Ok l'.
Proof.
  intros E file l l'. rewrite reload_ok. split.
  - intros (j & t & -> & H). apply load_iff. exists t. exact H.
  - destruct file as [j|]; [|discriminate]. intros H. apply load_iff in H as (t & H). exists j, t. split; [reflexivity|exact H].
Qed.

(** ** One profile per CA *)
Lemma gives_nodup : forall E (items : list (bytes * ptree)) l, Forall2 (item_gives E) items l ->
  (forall a x b y c p q, items = a ++ x :: b ++ y :: c -> item_gives E x p -> item_gives E y q -> p_prefix p <> p_prefix q) -> NoDup (map p_prefix l).
Proof.
  intros E items l F. induction F as [|x p items l G F IH]; intros D; [constructor|]. cbn [map]. constructor.
  - intros IN. apply in_map_iff in IN as (q & Q & IN). apply in_split in IN as (l1 & l2 & ->).
    apply Forall2_app_inv_r in F as (b & r & F1 & F2 & ->). inversion F2 as [|y ? c ? G2 F3]; subst.
    apply (D [] x b y c p q eq_refl G G2). congruence.
  - apply IH. intros a x' b y c p' q ->. apply (D (x :: a) x' b y c p' q). reflexivity.
Qed.
Lemma store_remove_in : forall n l q, In q (store_remove n l) <-> In q l /\ p_prefix q <> n.
Proof.
  intros n l q. unfold store_remove. rewrite filter_In. split; intros [IN H]; (split; [exact IN|]).
  - intros Q. apply name_eqb_eq in Q. rewrite Q in H. discriminate.
  - destruct (name_eqb (p_prefix q) n) eqn:B; [|reflexivity]. apply name_eqb_eq in B. contradiction.
Qed.
Lemma remove_nodup : forall n l, NoDup (map p_prefix l) -> NoDup (map p_prefix (store_remove n l)).
Proof.
  intros n l. induction l as [|x l IH]; intros ND; [constructor|]. inversion ND as [|? ? NI ND']; subst. unfold store_remove. cbn [filter]. fold (store_remove n l).
  destruct (negb (name_eqb (p_prefix x) n)); [|apply IH, ND']. cbn [map]. constructor; [|apply IH, ND'].
  intros IN. apply in_map_iff in IN as (q & Q & IN). apply store_remove_in in IN as [IN _]. apply NI. rewrite <- Q. apply in_map, IN.
Qed.
Lemma add_nodup : forall p l, NoDup (map p_prefix l) -> NoDup (map p_prefix (store_add p l)).
Proof.
  intros p l ND. rewrite store_add_prefixes. destruct (existsb _ _) eqn:B; [exact ND|]. apply absent_prefix in B.
  apply NoDup_rev in ND. rewrite <- (rev_involutive (map p_prefix l)) in B |- *. apply NoDup_rev with (l := p_prefix p :: rev (map p_prefix l)).
  constructor; [|exact ND]. rewrite rev_involutive in B. intros IN. apply B, in_rev, IN.
Qed.
Lemma reload_nodup : forall E file l, NoDup (map p_prefix l) -> no_repeats E (CallLoad file) -> NoDup (map p_prefix (fst (reload E file l))).
Proof.
  intros E file l ND NR. destruct (reload E file l) as [l' o] eqn:R. cbn [fst]. pose proof (reload_calm E file l) as O. rewrite R in O. cbn [snd] in O. destruct O as [-> | ->].
  - apply reload_ok in R as (j & t & -> & FC & F). cbn [no_repeats] in NR. apply (gives_nodup E _ _ F). intros a x b y c p q Q. apply (NR t a x b y c p q FC Q).
  - apply reload_exn in R as [[_ ->]|(_ & j & -> & [[_ ->]|(t & a & it & b & FC & Q & F & _)])]; [exact ND|constructor|].
    cbn [no_repeats] in NR. apply (gives_nodup E _ _ F). intros a1 x b1 y c p q Q1. apply (NR t a1 x b1 y (c ++ it :: b) p q FC).
    rewrite Q, Q1, <- app_assoc. cbn [app]. rewrite <- app_assoc. reflexivity.
Qed.
Lemma calls_nodup : forall E calls l, Forall (no_repeats E) calls -> NoDup (map p_prefix l) -> NoDup (map p_prefix (fold_left (call_do E) calls l)).
Proof.
  intros E calls. induction calls as [|c calls IH]; intros l F ND; [exact ND|]. inversion F as [|? ? NR F']; subst. cbn [fold_left]. apply IH; [exact F'|].
  destruct c as [p|n|file]; cbn [call_do store_do]; [apply add_nodup, ND|apply remove_nodup, ND|apply reload_nodup; assumption].
Qed.
Lemma one_profile : forall E calls, Forall (no_repeats E) calls -> NoDup (map p_prefix (fold_left (call_do E) calls [])).
Proof. intros E calls F. apply calls_nodup; [exact F|constructor]. Qed.
Lemma added_alone : forall E calls p q, Forall (no_repeats E) calls ->
  (In q (fold_left (call_do E) (calls ++ [CallAdd p]) []) <-> q = p \/ In q (fold_left (call_do E) calls []) /\ p_prefix q <> p_prefix p).
Proof. intros E calls p q F. rewrite fold_left_app. cbn [fold_left call_do store_do]. apply store_add_in, one_profile, F. Qed.
Lemma removed_all : forall E l n q, In q (call_do E l (CallRemove n)) <-> In q l /\ p_prefix q <> n.
Proof. intros E l n q. apply store_remove_in. Qed.
