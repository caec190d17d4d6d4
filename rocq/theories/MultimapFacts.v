From Verif Require Export Multimap BytesFacts.

(** Appending an element that is not smaller than the ones before goes to the end. *)
Lemma mm_insert_last : forall m k v, (forall k' v', In (k', v') m -> bytes_ltb k k' = false) ->
  mm_insert k v m = m ++ [(k, v)].
Proof.
  induction m as [|[k1 v1] m IH]; intros k v H; cbn [mm_insert app]; [reflexivity|].
  rewrite (H k1 v1) by (left; reflexivity). f_equal. apply IH. intros k' v' Hin.
  apply (H k' v'). right. exact Hin.
Qed.

Lemma mm_sorted_tl : forall x m, mm_sorted (x :: m) -> mm_sorted m.
Proof. intros [k v] m H. exact (proj2 H). Qed.

Lemma mm_sorted_head : forall k v m, mm_sorted ((k, v) :: m) ->
  forall k' v', In (k', v') m -> bytes_ltb k' k = false.
Proof.
  intros k v m. revert k v. induction m as [|[k1 v1] m IH]; intros k v H k' v' Hin; [destruct Hin|].
  cbn [mm_sorted] in H. destruct H as [H1 H2]. destruct Hin as [E|Hin].
  - injection E as <- <-. exact H1.
  - pose proof (IH k1 v1 H2 k' v' Hin) as H3.
    destruct (bytes_ltb k' k) eqn:E; [|reflexivity].
    destruct (bytes_ltb k1 k) eqn:E1; [discriminate|].
    (* k' < k, not k1 < k so k <= k1; k' < k <= k1 contradicts k1 <= k' *)
    destruct (bytes_ltb k k1) eqn:E2.
    + rewrite (bytes_ltb_trans k' k k1 E E2) in H3. discriminate.
    + pose proof (bytes_ltb_total k1 k E1 E2). subst k1. congruence.
Qed.


Lemma mm_sorted_before : forall a k v b, mm_sorted (a ++ (k, v) :: b) ->
  forall k' v', In (k', v') a -> bytes_ltb k k' = false.
Proof.
  induction a as [|[k1 v1] a IH]; intros k v b H k' v' Hin; [destruct Hin|].
  cbn [app] in H. destruct Hin as [E|Hin].
  - injection E as <- <-. eapply (mm_sorted_head k1 v1 (a ++ (k, v) :: b) H k v).
    apply in_or_app. right. left. reflexivity.
  - apply (IH k v b (mm_sorted_tl _ _ H) k' v' Hin).
Qed.

Lemma mm_fold_sorted : forall b a, mm_sorted (a ++ b) ->
  fold_left (fun m kv => mm_insert (fst kv) (snd kv) m) b a = a ++ b.
Proof.
  induction b as [|[k v] b IH]; intros a H; cbn [fold_left]; [rewrite app_nil_r; reflexivity|].
  cbn [fst snd]. rewrite mm_insert_last.
  - rewrite IH; rewrite <- app_assoc; [reflexivity|exact H].
  - apply (mm_sorted_before a k v b H).
Qed.

Lemma mm_of_sorted : forall m, mm_sorted m -> mm_of m = m.
Proof. intros m H. unfold mm_of. rewrite (mm_fold_sorted m []); [reflexivity|exact H]. Qed.

Lemma mm_insert_head : forall k v m k0, (forall k' v', In (k', v') m -> bytes_ltb k' k0 = false) ->
  bytes_ltb k k0 = false -> forall k' v', In (k', v') (mm_insert k v m) -> bytes_ltb k' k0 = false.
Proof.
  induction m as [|[k1 v1] m IH]; intros k0 H Hk k' v' Hin; cbn [mm_insert] in Hin.
  - destruct Hin as [E|[]]. injection E as <- <-. exact Hk.
  - destruct (bytes_ltb k k1).
    + destruct Hin as [E|Hin]; [injection E as <- <-; exact Hk|]. exact (H k' v' Hin).
    + destruct Hin as [E|Hin].
      * injection E as <- <-. apply (H k1 v1). left. reflexivity.
      * apply (IH k0) with (v' := v'); auto. intros a b Hab. apply (H a b). right. exact Hab.
Qed.

Lemma mm_sorted_cons : forall k v m, mm_sorted m ->
  (forall k' v', In (k', v') m -> bytes_ltb k' k = false) -> mm_sorted ((k, v) :: m).
Proof.
  intros k v [|[k1 v1] m] H1 H2; cbn [mm_sorted]; [auto|]. split; [|exact H1].
  apply (H2 k1 v1). left. reflexivity.
Qed.

Lemma mm_insert_sorted : forall k v m, mm_sorted m -> mm_sorted (mm_insert k v m).
Proof.
  induction m as [|[k1 v1] m IH]; intros H; cbn [mm_insert]; [cbn; auto|].
  destruct (bytes_ltb k k1) eqn:E.
  - apply mm_sorted_cons; [exact H|]. intros k' v' Hin.
    assert (bytes_ltb k' k1 = false) as H1.
    { destruct Hin as [E1|Hin]; [injection E1 as <- <-; apply bytes_ltb_irrefl|].
      exact (mm_sorted_head k1 v1 m H k' v' Hin). }
    destruct (bytes_ltb k' k) eqn:E2; [|reflexivity].
    rewrite (bytes_ltb_trans k' k k1 E2 E) in H1. discriminate.
  - apply mm_sorted_cons.
    + apply IH. exact (mm_sorted_tl _ _ H).
    + apply mm_insert_head; [exact (mm_sorted_head k1 v1 m H)|exact E].
Qed.

Lemma mm_fold_inserts_sorted : forall l m, mm_sorted m ->
  mm_sorted (fold_left (fun m kv => mm_insert (fst kv) (snd kv) m) l m).
Proof. induction l as [|[k v] l IH]; intros m H; cbn [fold_left]; [exact H|]. apply IH. apply mm_insert_sorted. exact H. Qed.

Lemma mm_of_is_sorted : forall l, mm_sorted (mm_of l).
Proof. intros l. apply mm_fold_inserts_sorted. exact I. Qed.

(** The values of one key come out in insertion order. *)
Lemma mm_all_insert : forall k v m k', mm_sorted m ->
  mm_all k' (mm_insert k v m) = mm_all k' m ++ (if bytes_eqb k' k then [v] else []).
Proof.
  induction m as [|[k1 v1] m IH]; intros k' H; cbn [mm_insert mm_all].
  - destruct (bytes_eqb k' k); reflexivity.
  - destruct (bytes_ltb k k1) eqn:E; cbn [mm_all].
    + destruct (bytes_eqb k' k) eqn:E1.
      * apply bytes_eqb_eq in E1. subst k'.
        assert (forall l, (forall a b, In (a, b) l -> bytes_ltb a k1 = false) -> mm_all k l = []) as N.
        { induction l as [|[a b] l IHl]; intros Hl; cbn [mm_all]; [reflexivity|].
          destruct (bytes_eqb k a) eqn:Ea.
          - apply bytes_eqb_eq in Ea. subst a. rewrite (Hl k b) in E by (left; reflexivity). discriminate.
          - apply IHl. intros x y Hxy. apply (Hl x y). right. exact Hxy. }
        destruct (bytes_eqb k k1) eqn:Ek.
        { apply bytes_eqb_eq in Ek. subst k1. rewrite bytes_ltb_irrefl in E. discriminate. }
        rewrite N; [reflexivity|]. exact (mm_sorted_head k1 v1 m H).
      * rewrite app_nil_r. reflexivity.
    + rewrite IH by exact (mm_sorted_tl _ _ H). destruct (bytes_eqb k' k1); reflexivity.
Qed.

Lemma mm_all_of : forall l k, mm_all k (mm_of l) = mm_all k l.
Proof.
  assert (forall l m k, mm_sorted m ->
    mm_all k (fold_left (fun m kv => mm_insert (fst kv) (snd kv) m) l m) = mm_all k m ++ mm_all k l) as G.
  { induction l as [|[k1 v1] l IH]; intros m k H; cbn [fold_left mm_all fst snd].
    - rewrite app_nil_r. reflexivity.
    - rewrite IH by (apply mm_insert_sorted; exact H). rewrite mm_all_insert by exact H.
      rewrite <- app_assoc. destruct (bytes_eqb k k1); reflexivity. }
  intros l k. unfold mm_of. rewrite G by exact I. reflexivity.
Qed.

