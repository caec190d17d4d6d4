(** C101: names and keys of issued certificates. *)
From Verif Require Export Spec_Trace.
From Verif Require Import TlvFacts CaFacts TraceProps.
Local Open Scope N_scope.

Lemma issue_event : forall E g S (ops : store_ops S) tr st s c i x, ca_history E g ops (tr ++ [st]) s -> handles st i x -> In (EIssue c) (h_effs st) ->
  exists id r, pending ops (h_pre st) id = Some r /\ names_request g id x /\ signed_by E x (public_key (rq_cert r)) /\ rq_type r = RT_NEW /\
    issue_certificate E g (in_version i) r = Ok c /\ certifies E g (rq_cert r) c /\
    ca_history E g ops tr (h_pre st) /\ hd_error (h_effs st) = Some (EIssue c).
Proof.
  intros E g S ops tr st s c i x H HD IN. apply history_snoc in H as (H & ST & ->). pose proof (history_at _ _ _ _ _ _ H) as A.
  destruct (chal_event E g S ops _ _ _ _ _ A ST IN I) as (i' & x' & id & r & nrm & m & EV & N & P & IDR & LV & NO & CS & _).
  apply ev_handles in HD. rewrite HD in EV. injection EV as <- <-.
  destruct (step_issue _ _ _ _ _ _ _ _ _ CS IN) as (params & ty & dv & cs & (SB & _) & RT & IC & SH).
  assert (RN : rq_type r = RT_NEW). { destruct (pending_good E g S ops _ id r A P) as (_ & _ & (_ & _ & [Q|Q] & _)); [exact Q|]. destruct RT as [RT|RT]; [exact RT|]. rewrite Q in RT. discriminate. }
  exists id, r. split; [exact P|]. split; [exact N|]. split; [exact SB|]. split; [exact RN|]. split; [exact IC|].
  split; [exact (proj1 (issued_facts E g (in_version i) r c (proj2 (proj2 (pending_good E g S ops _ id r A P))) IC))|]. split; [exact H|].
  destruct SH as [[-> _]|[[tail ->] _]]; reflexivity.
Qed.

Lemma issued_name : forall E g v r c, issue_certificate E g v r = Ok c -> c_name c = key_name_of (c_name (rq_cert r)) ++ [gc (bs "NDNCERT"); version_comp v].
Proof. intros E g v r c H. unfold issue_certificate in H. destruct (c_validity (rq_cert r)); cbn [of_opt bind] in H; [|discriminate]. injection H as <-. reflexivity. Qed.

Lemma names_clock : forall E g S (ops : store_ops S) tr st s c i x, ca_history E g ops (tr ++ [st]) s -> handles st i x -> In (EIssue c) (h_effs st) ->
  exists id key c0 new keyname issuer0 version0, In new tr /\ accepts E g id RT_NEW new key c0 /\ names_request g id x /\ signed_by E x (public_key c0) /\
    c_name c0 = keyname ++ [issuer0; version0] /\ c_name c = keyname ++ [gc (bs "NDNCERT"); version_comp (in_version i)] /\ public_key c = public_key c0.
Proof.
  intros E g S ops tr st s c i x H HD IN. destruct (issue_event E g S ops tr st s c i x H HD IN) as (id & r & P & N & SB & RN & IC & CE & HT & _).
  destruct (has_origin S E g ops tr _ id r HT P) as (a1 & new & a2 & -> & AC & _ & _). rewrite RN in AC.
  destruct CE as (kn & is0 & v0 & v & Q0 & Q & C & _).
  exists id, (rq_key r), (rq_cert r), new, kn, is0, v0. split; [apply in_or_app; right; left; reflexivity|]. split; [exact AC|]. split; [exact N|]. split; [exact SB|].
  split; [exact Q0|]. split; [|unfold public_key; rewrite C; reflexivity].
  pose proof (issued_name E g _ r c IC) as Q2. rewrite Q in Q2.
  change [gc (bs "NDNCERT"); version_comp v] with ([gc (bs "NDNCERT")] ++ [version_comp v]) in *.
  change [gc (bs "NDNCERT"); version_comp (in_version i)] with ([gc (bs "NDNCERT")] ++ [version_comp (in_version i)]) in *.
  rewrite !app_assoc in *. apply app_inj_tail in Q2 as [_ V]. rewrite <- V. exact Q.
Qed.

Lemma one_issue : forall E g S (ops : store_ops S) tr st s c c', ca_history E g ops (tr ++ [st]) s -> In (EIssue c) (h_effs st) -> In (EIssue c') (h_effs st) -> c' = c.
Proof.
  intros E g S ops tr st s c c' H I1 I2. pose proof H as H'. apply history_snoc in H' as (H1 & ST & _). pose proof (history_at _ _ _ _ _ _ H1) as A.
  destruct (chal_event E g S ops _ _ _ _ _ A ST I1 I) as (i & x & id & r & nrm & m & EV & _). apply ev_handles in EV.
  destruct (issue_event E g S ops tr st s c i x H EV I1) as (? & ? & _ & _ & _ & _ & _ & _ & _ & Q1).
  destruct (issue_event E g S ops tr st s c' i x H EV I2) as (? & ? & _ & _ & _ & _ & _ & _ & _ & Q2). congruence.
Qed.

Lemma nni_inj : forall a b, a < 2 ^ 64 -> b < 2 ^ 64 -> nni_enc a = nni_enc b -> a = b.
Proof. intros a b A B Q. pose proof (nni_dec_enc a A) as D. rewrite Q, (nni_dec_enc b B) in D. congruence. Qed.

Lemma names_differ : forall E g S (ops : store_ops S) a st1 b st2 c s i1 x1 i2 x2 c1 c2, ca_history E g ops (a ++ st1 :: b ++ st2 :: c) s ->
  handles st1 i1 x1 -> In (EIssue c1) (h_effs st1) -> handles st2 i2 x2 -> In (EIssue c2) (h_effs st2) ->
  in_version i1 < 2 ^ 64 -> in_version i2 < 2 ^ 64 -> in_version i1 <> in_version i2 -> c_name c1 <> c_name c2.
Proof.
  intros E g S ops a st1 b st2 c s i1 x1 i2 x2 c1 c2 H H1 I1 H2 I2 V1 V2 NE Q.
  assert (P1 : exists s1, ca_history E g ops (a ++ [st1]) s1).
  { replace (a ++ st1 :: b ++ st2 :: c) with ((a ++ [st1]) ++ b ++ st2 :: c) in H by (rewrite <- app_assoc; reflexivity). destruct (history_cut _ _ _ _ _ _ _ H) as (m & Hm & _). eauto. }
  assert (P2 : exists s2, ca_history E g ops ((a ++ st1 :: b) ++ [st2]) s2).
  { replace (a ++ st1 :: b ++ st2 :: c) with (((a ++ st1 :: b) ++ [st2]) ++ c) in H by (rewrite <- !app_assoc; reflexivity). destruct (history_cut _ _ _ _ _ _ _ H) as (m & Hm & _). eauto. }
  destruct P1 as [s1 P1], P2 as [s2 P2].
  destruct (names_clock E g S ops _ _ _ _ _ _ P1 H1 I1) as (? & ? & ? & ? & k1 & ? & ? & _ & _ & _ & _ & _ & Q1 & _).
  destruct (names_clock E g S ops _ _ _ _ _ _ P2 H2 I2) as (? & ? & ? & ? & k2 & ? & ? & _ & _ & _ & _ & _ & Q2 & _).
  rewrite Q1, Q2 in Q. change [gc (bs "NDNCERT"); version_comp (in_version i1)] with ([gc (bs "NDNCERT")] ++ [version_comp (in_version i1)]) in Q.
  change [gc (bs "NDNCERT"); version_comp (in_version i2)] with ([gc (bs "NDNCERT")] ++ [version_comp (in_version i2)]) in Q. rewrite !app_assoc in Q.
  apply app_inj_tail in Q as [_ Q]. injection Q as Q. exact (NE (nni_inj _ _ V1 V2 Q)).
Qed.
