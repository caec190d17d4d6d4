(** Proofs about the files and texts ndncert reads and writes. *)
From Verif Require Export Spec_Files JsonTextFacts ConfigFacts OutcomeFacts.
From Coq Require Import Lia.
Local Open Scope N_scope.

Lemma anchors_iff : forall E j l, possession_anchors E (Some j) = Ok l <-> exists t, first_child j (bs "anchor-list") t /\ certificates_in E (pt_children t) l.
Proof.
  intros E j l.
  assert (LI : forall ch l, anchor_items E ch = l <-> certificates_in E ch l).
  { induction ch as [|[k t] ch IH]; intros l0; unfold anchor_items; cbn [flat_map snd].
    - split; [intros <-; constructor|]. intros H. inversion H. reflexivity.
    - fold (anchor_items E ch). destruct (io_load E (pt_get (bs "certificate") [] t)) as [c|] eqn:L; cbn [app].
      + split.
        * intros <-. apply (ci_some E k t (pt_get (bs "certificate") [] t)); [apply get_text; reflexivity|exact L|apply IH; reflexivity].
        * intros H. inversion H as [|? ? s c' ? cs T L' R|? ? s ? cs T L' R]; subst; apply get_text in T; subst s; rewrite L in L'; [|discriminate]. injection L' as <-. apply IH in R. rewrite R. reflexivity.
      + split.
        * intros <-. apply (ci_none E k t (pt_get (bs "certificate") [] t)); [apply get_text; reflexivity|exact L|apply IH; reflexivity].
        * intros H. inversion H as [|? ? s c' ? cs T L' R|? ? s ? cs T L' R]; subst; apply get_text in T; subst s; rewrite L in L'; [discriminate|]. apply IH in R. exact R. }
  unfold possession_anchors. cbn [of_opt bind]. split.
  - intros H. destruct (pt_children j) eqn:CH; [discriminate|]. destruct (pt_child (bs "anchor-list") j) as [t|] eqn:C; [|discriminate]. injection H as H. exists t. split; [apply child_first, C|apply LI, H].
  - intros (t & F & L). apply child_first in F as C. rewrite C. destruct (pt_children j) eqn:CH; [|f_equal; apply LI, L]. destruct F as (a & b & Q & _). rewrite CH in Q. destruct a; discriminate.
Qed.
Lemma anchors_throw : forall E file, (forall l, possession_anchors E file <> Ok l) -> possession_anchors E file = Exn.
Proof.
  intros E [j|] H; [|reflexivity]. unfold possession_anchors in *. cbn [of_opt bind] in *. destruct (pt_children j); [reflexivity|]. destruct (pt_child (bs "anchor-list") j); [destruct (H _ eq_refl)|reflexivity].
Qed.
Lemma certificates_listed : forall E l cs c, certificates_in E l cs -> In c cs -> exists k t s, In (k, t) l /\ text t (bs "certificate") s /\ io_load E s = Some c.
Proof.
  intros E l cs c H. induction H as [|k t s c' l cs T L _ IH|k t s l cs T L _ IH]; intros IN; [destruct IN| |].
  - destruct IN as [->|IN]; [exists k, t, s; split; [left; reflexivity|auto]|]. destruct (IH IN) as (k2 & t2 & s2 & A & B). exists k2, t2, s2. split; [right; exact A|exact B].
  - destruct (IH IN) as (k2 & t2 & s2 & A & B). exists k2, t2, s2. split; [right; exact A|exact B].
Qed.
Lemma anchor_from_file : forall E file l c, possession_anchors E (read_json file) = Ok l -> In c l -> lists_anchor E file c.
Proof.
  intros E file l c H IN. destruct (read_json file) as [j|] eqn:R; [|discriminate]. apply anchors_iff in H as (t & F & CI). destruct (certificates_listed E _ _ c CI IN) as (k & e & s & A & B & D).
  exists j, t, k, e, s. auto.
Qed.

(** A pending possession challenge goes back to a credential signed by an anchor of the file. *)
Lemma vouched : forall E g S (ops : store_ops S) tr s id r cs file, ca_history E g ops tr s -> cc_anchors (cf_chal g) = possession_anchors E (read_json file) ->
  pending ops s id = Some r -> rq_cs r = Some cs -> cs_status cs = bs "need-proof" ->
  exists c anchor loc, sec_get (bs "issued-cert") (cs_secrets cs) = Some (to_hex (enc_tlv (cert_tlv E c))) /\
    lists_anchor E file anchor /\ c_keyloc c = Some loc /\ (key_name_of (c_name anchor) = loc \/ c_name anchor = loc) /\ cert_signed_by E c (public_key anchor).
Proof.
  intros E g S ops tr s id r cs file H AN P C ST.
  destruct (has_origin S E g ops tr s id r H P) as (a1 & new & a2 & -> & AC & NA & CSO).
  destruct (CSO cs C) as (b1 & st1 & b2 & i0 & p0 & ty0 & cs0 & -> & (AK & r1 & em & STT & RC & RP & EM) & SE & SS & _).
  destruct STT as [code G|code addr G GA|c CI CC (anchors & anchor & loc & A & IN & KL & NM & SG)]; cbn [cs_status cs_secrets] in *.
  - rewrite ST in SS. destruct SS as [SS|[_ SS]]; discriminate SS.
  - rewrite ST in SS. destruct SS as [SS|[_ SS]]; discriminate SS.
  - exists c, anchor, loc. rewrite SE. split; [reflexivity|]. rewrite AN in A. split; [exact (anchor_from_file E file anchors anchor A IN)|]. auto.
Qed.

(** Secrets of pending requests can be written and read back. *)
Lemma secrets_readable : forall E g S (ops : store_ops S) tr s id r cs, ca_history E g ops tr s -> pending ops s id = Some r -> rq_cs r = Some cs ->
  exists text, write_json (secrets_tree (cs_secrets cs)) = Ok text /\ read_json text = Some (secrets_tree (cs_secrets cs)).
Proof.
  intros E g S ops tr s id r cs H P C. pose proof (history_at _ _ _ _ _ _ H) as A. destruct (pending_good E g S ops s id r A P) as (_ & (_ & _ & _ & _ & _ & _ & ST) & _).
  rewrite C in ST. destruct (rq_ctype r); [destruct ST|]. destruct ST as [_ ST]. destruct (json_back _ (secrets_json (cs_secrets cs))) as (text & W & R & _). exists text. split; [exact W|]. apply R. apply secrets_utf8. exact ST.
Qed.

(** The list of profiles as a text. *)
Lemma put_voc : forall k d t, pt_data t = [] -> (forall k c, In (k, c) (pt_children t) -> value_or_children c) -> (forall c, In (k, c) (pt_children t) -> pt_children c = []) ->
  pt_data (pt_put k d t) = [] /\ forall k' c, In (k', c) (pt_children (pt_put k d t)) -> value_or_children c.
Proof.
  intros k d [da cs] D V L. cbn [pt_put pt_data pt_children] in *. split; [exact D|]. induction cs as [|[k1 c1] cs IH]; intros k' c H; cbn [put_child] in H.
  - destruct H as [H|[]]. injection H as <- <-. constructor.
  - destruct (bytes_eqb k k1) eqn:B.
    + apply bytes_eqb_eq in B. subst k1. destruct H as [H|H]; [|apply (V k' c); right; exact H]. injection H as <- <-. rewrite (L c1) by (left; reflexivity). constructor.
    + destruct H as [H|H]; [apply (V k' c); left; exact H|]. apply (IH (fun k c H => V k c (or_intror H)) (fun c H => L c (or_intror H)) k' c H).
Qed.
Definition obj_ok (t : ptree) : Prop := pt_data t = [] /\ (forall k c, In (k, c) (pt_children t) -> value_or_children c) /\ forall k c, In (k, c) (pt_children t) -> k <> [] -> pt_children c = [].
Lemma obj_put : forall k d t, k <> [] -> obj_ok t -> obj_ok (pt_put k d t).
Proof.
  intros k d t NK (D & V & L). destruct (put_voc k d t D V (fun c H => L k c H NK)) as [D' V']. split; [exact D'|]. split; [exact V'|].
  intros k' c H N. destruct t as [da cs]. cbn [pt_put pt_children pt_data] in *. clear V V' D D'. induction cs as [|[k1 c1] cs IH]; cbn [put_child] in H.
  - destruct H as [H|[]]. injection H as <- <-. reflexivity.
  - destruct (bytes_eqb k k1) eqn:B.
    + destruct H as [H|H]; [|apply (L k' c); [right; exact H|exact N]]. injection H as <- <-. apply bytes_eqb_eq in B. subst k1. exact (L k c1 (or_introl eq_refl) N).
    + destruct H as [H|H]; [apply (L k' c); [left; exact H|exact N]|]. exact (IH (fun k c H => L k c (or_intror H)) H).
Qed.
Lemma obj_push : forall c t, value_or_children c -> obj_ok t -> obj_ok (pt_push [] c t).
Proof.
  intros c t VC (D & V & L). split; [exact D|]. split; intros k' c' H; [|intros N]; cbn [pt_push pt_children] in H; apply in_app_or in H; (destruct H as [H|[H|[]]]; [|injection H as <- <-]); [exact (V _ _ H)|exact VC|exact (L _ _ H N)|destruct (N eq_refl)].
Qed.
Lemma list_voc : forall k l, k <> [] -> value_or_children (list_json k l).
Proof.
  intros k l NK. apply voc_children. intros k' c H. apply in_map_iff in H as (v & Q & _). injection Q as <- <-. apply voc_children. intros k2 c2 H2. cbn in H2. destruct H2 as [H2|[]]. injection H2 as <- <-. constructor.
Qed.
Lemma obj_voc : forall t, obj_ok t -> value_or_children t.
Proof. intros [d cs] (D & V & _). cbn in D, V. subst d. apply voc_children. exact V. Qed.
Lemma profile_obj : forall E p, obj_ok (profile_to_json E p).
Proof.
  intros E p. unfold profile_to_json.
  assert (B : obj_ok pt_empty) by (split; [reflexivity|split; intros ? ? []]).
  assert (N : forall k d t, k <> [] -> obj_ok t -> obj_ok (pt_put k d t)) by exact obj_put.
  set (j0 := pt_put K_MAX_VALIDITY _ _). assert (J0 : obj_ok j0) by (unfold j0; apply N; [discriminate|]; apply N; [discriminate|]; apply N; [discriminate|exact B]).
  set (j1 := match p_maxsuffix p with Some _ => _ | None => _ end). assert (J1 : obj_ok j1) by (unfold j1; destruct (p_maxsuffix p); [apply N; [discriminate|exact J0]|exact J0]).
  set (j2 := match p_probe_keys p with [] => _ | _ => _ end). assert (J2 : obj_ok j2) by (unfold j2; destruct (p_probe_keys p); [exact J1|apply obj_push; [apply list_voc; discriminate|exact J1]]).
  set (j3 := match p_challenges p with [] => _ | _ => _ end). assert (J3 : obj_ok j3) by (unfold j3; destruct (p_challenges p); [exact J2|apply obj_push; [apply list_voc; discriminate|exact J2]]).
  destruct (p_cert p); [apply N; [discriminate|exact J3]|exact J3].
Qed.
Lemma saved_text : forall E l, exists text, write_json (store_save E l) = Ok text /\ store_load E (read_json text) = Exn.
Proof.
  intros E l. assert (J : json_tree (store_save E l)).
  { split; [reflexivity|]. apply voc_children. intros k c H. apply in_map_iff in H as (p & Q & _). injection Q as <- <-. apply obj_voc, profile_obj. }
  destruct (read_back _ J) as (text & W & R). exists text. split; [exact W|]. rewrite R. destruct (treeb (store_save E l)); [apply saved_not_loaded|reflexivity].
Qed.
