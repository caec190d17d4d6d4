(** The storage back ends behave like a finite map. *)
From Verif Require Export Spec_Storage NameFacts TlvFacts BytesFacts RequestFacts JsonTextFacts.
From Coq Require Import Sorted.
Local Open Scope N_scope.

(** ** Memory *)
Definition key_lt (a b : bytes * request) : Prop := bytes_ltb (fst a) (fst b) = true.
Definition mem_inv (P : request -> Prop) (m : mem) : Prop :=
  StronglySorted key_lt m /\ Forall (fun kr => fst kr = rq_id (snd kr) /\ P (snd kr)) m.

Lemma key_lt_neq : forall a b, key_lt a b -> fst a <> fst b.
Proof. intros a b H E. unfold key_lt in H. rewrite E, bytes_ltb_irrefl in H. discriminate. Qed.

Lemma mem_find_in : forall m id r, mem_find id m = Some r -> In (id, r) m.
Proof.
  induction m as [|[k r'] m IH]; intros id r H; cbn [mem_find] in H; [discriminate|].
  destruct (bytes_eqb id k) eqn:E.
  - apply bytes_eqb_eq in E. injection H as <-. subst. left. reflexivity.
  - right. apply IH. exact H.
Qed.
Lemma mem_in_find : forall m id r, StronglySorted key_lt m -> In (id, r) m -> mem_find id m = Some r.
Proof.
  induction m as [|[k r'] m IH]; intros id r S H; [destruct H|]. inversion S as [|? ? S' F]; subst. cbn [mem_find].
  destruct H as [H|H].
  - injection H as -> ->. rewrite bytes_eqb_refl. reflexivity.
  - rewrite Forall_forall in F. pose proof (key_lt_neq _ _ (F _ H)) as D. cbn [fst] in D.
    assert (bytes_eqb id k = false) as -> by (apply bytes_eqb_neq; congruence). apply IH; assumption.
Qed.
Lemma mem_set_forall : forall (Q : bytes * request -> Prop) id r m, Forall Q m -> Q (id, r) -> Forall Q (mem_set id r m).
Proof.
  intros Q id r. induction m as [|[k r'] m IH]; intros F H; cbn [mem_set]; [repeat constructor; exact H|].
  inversion F; subst. destruct (bytes_eqb id k); [constructor; assumption|].
  destruct (bytes_ltb id k); repeat constructor; auto.
Qed.
Lemma mem_set_sorted : forall id r m, StronglySorted key_lt m -> StronglySorted key_lt (mem_set id r m).
Proof.
  intros id r. induction m as [|[k r'] m IH]; intros S; cbn [mem_set]; [repeat constructor|].
  inversion S as [|? ? S' F]; subst. destruct (bytes_eqb id k) eqn:E.
  - apply bytes_eqb_eq in E. subst. constructor; [assumption|exact F].
  - destruct (bytes_ltb id k) eqn:L.
    + constructor; [exact S|]. constructor; [exact L|]. eapply Forall_impl; [|exact F].
      intros x Hx. unfold key_lt in *. cbn [fst] in *. eapply bytes_ltb_trans; eassumption.
    + constructor; [apply IH; exact S'|]. apply mem_set_forall; [exact F|]. unfold key_lt. cbn [fst].
      destruct (bytes_ltb k id) eqn:G; [reflexivity|].
      rewrite (bytes_ltb_total id k L G), bytes_eqb_refl in E. discriminate.
Qed.
Lemma mem_set_find : forall id r m id', mem_find id' (mem_set id r m) = if bytes_eqb id' id then Some r else mem_find id' m.
Proof.
  intros id r. induction m as [|[k r'] m IH]; intros id'; cbn [mem_set mem_find].
  - reflexivity.
  - destruct (bytes_eqb id k) eqn:E; cbn [mem_find].
    + apply bytes_eqb_eq in E. subst k. destruct (bytes_eqb id' id); reflexivity.
    + destruct (bytes_ltb id k); cbn [mem_find]; [reflexivity|]. rewrite IH.
      destruct (bytes_eqb id' k) eqn:E1, (bytes_eqb id' id) eqn:E2; try reflexivity.
      apply bytes_eqb_eq in E1, E2. subst. rewrite bytes_eqb_refl in E. discriminate.
Qed.
Lemma filter_sorted : forall (f : bytes * request -> bool) m, StronglySorted key_lt m -> StronglySorted key_lt (filter f m).
Proof.
  intros f. induction m as [|x m IH]; intros S; cbn [filter]; [constructor|]. inversion S as [|? ? S' F]; subst.
  destruct (f x); [|auto]. constructor; [auto|]. apply Forall_forall. intros y Hy. apply filter_In in Hy as [Hy _].
  rewrite Forall_forall in F. auto.
Qed.
Lemma mem_delete_find : forall id m id', mem_find id' (mem_delete m id) = if bytes_eqb id' id then None else mem_find id' m.
Proof.
  intros id. unfold mem_delete. induction m as [|[k r'] m IH]; intros id'; cbn [filter mem_find fst].
  - destruct (bytes_eqb id' id); reflexivity.
  - destruct (bytes_eqb id k) eqn:E; cbn [negb mem_find].
    + apply bytes_eqb_eq in E. subst k. rewrite IH. destruct (bytes_eqb id' id); reflexivity.
    + rewrite IH. destruct (bytes_eqb id' k) eqn:E1, (bytes_eqb id' id) eqn:E2; try reflexivity.
      apply bytes_eqb_eq in E1, E2. subst. rewrite bytes_eqb_refl in E. discriminate.
Qed.

Section Mem.
  Context (P : request -> Prop).
  Lemma mem_inv_nil : mem_inv P [].
  Proof. split; constructor. Qed.
  Lemma mem_inv_set : forall m r, mem_inv P m -> P r -> mem_inv P (mem_set (rq_id r) r m).
  Proof. intros m r [S F] H. split; [apply mem_set_sorted, S|apply mem_set_forall; [exact F|split; [reflexivity|exact H]]]. Qed.
  Lemma mem_inv_delete : forall m id, mem_inv P m -> mem_inv P (mem_delete m id).
  Proof.
    intros m id [S F]. split; [apply filter_sorted, S|]. apply Forall_forall. intros x H. apply filter_In in H as [H _].
    rewrite Forall_forall in F. auto.
  Qed.
  Lemma mem_inv_get : forall m id r, mem_inv P m -> mem_find id m = Some r -> rq_id r = id /\ P r.
  Proof.
    intros m id r [_ F] H. apply mem_find_in in H. rewrite Forall_forall in F. apply F in H. cbn in H.
    destruct H. split; [congruence|assumption].
  Qed.
  Lemma mem_ids : forall m, mem_inv P m -> map fst m = map rq_id (map snd m).
  Proof.
    intros m [_ F]. induction m as [|[k r] m IH]; [reflexivity|]. inversion F as [|? ? [H _] F']; subst. cbn in *.
    rewrite IH by exact F'. congruence.
  Qed.
  Lemma sorted_nodup : forall m, StronglySorted key_lt m -> NoDup (map fst m).
  Proof.
    induction m as [|x m IH]; intros S; cbn [map]; [constructor|]. inversion S as [|? ? S' F]; subst.
    constructor; [|auto]. intros H. apply in_map_iff in H as (y & E & Hy). rewrite Forall_forall in F.
    apply F, key_lt_neq in Hy. congruence.
  Qed.
  Lemma mem_in_values : forall m r, mem_inv P m -> (In r (map snd m) <-> mem_find (rq_id r) m = Some r).
  Proof.
    intros m r I. split; intros H.
    - apply in_map_iff in H as ([k r'] & E & H). cbn in E. subst r'. destruct I as [S F].
      pose proof F as F'. rewrite Forall_forall in F'. destruct (F' _ H) as [Hk _]. cbn in Hk. subst k.
      apply mem_in_find; assumption.
    - apply mem_find_in in H. change r with (snd (rq_id r, r)). apply in_map, H.
  Qed.
End Mem.

Lemma filter_nodup_map : forall {A B} (g : A -> B) f l, NoDup (map g l) -> NoDup (map g (filter f l)).
Proof.
  intros A B g f. induction l as [|x l IH]; intros H; cbn [filter map]; [constructor|]. cbn in H.
  inversion H as [|? ? H1 H2]; subst. destruct (f x); [|auto]. cbn [map]. constructor; [|auto].
  intros H'. apply H1. apply in_map_iff in H' as (y & E & Hy). apply filter_In in Hy as [Hy _].
  rewrite <- E. apply in_map, Hy.
Qed.

Lemma mem_sim_step : forall m f o, mem_inv (fun _ => True) m -> (forall id, mem_find id m = f id) ->
  exists f', map_step (fun r => r) f o (fst (op_step mem_ops m o)) f' /\
    mem_inv (fun _ => True) (snd (op_step mem_ops m o)) /\
    forall id, mem_find id (snd (op_step mem_ops m o)) = f' id.
Proof.
  intros m f o I H.
  assert (L : enumerates f (fun _ => True) (map snd m)).
  { split; [rewrite <- (mem_ids _ m I); apply sorted_nodup, I|]. intros r. rewrite (mem_in_values _ m r I), H. tauto. }
  destruct o as [r|r|id|id| |n]; cbn [op_step mem_ops s_add s_update s_delete s_get s_list s_list_ca].
  - unfold mem_add. rewrite H. destruct (f (rq_id r)) eqn:G; cbn [fst snd].
    + exists f. split; [constructor; congruence|]. split; assumption.
    + exists (f_put f (rq_id r) r). split; [exact (MS_add (fun r => r) f r G)|].
      split; [apply mem_inv_set; [exact I|exact Logic.I]|]. intros id. rewrite mem_set_find, H. reflexivity.
  - unfold mem_update. cbn [fst snd]. exists (f_put f (rq_id r) r). split; [exact (MS_update (fun r => r) f r)|].
    split; [apply mem_inv_set; [exact I|exact Logic.I]|]. intros id. rewrite mem_set_find, H. reflexivity.
  - cbn [fst snd]. exists (f_del f id). split; [constructor|]. split; [apply mem_inv_delete, I|].
    intros id'. rewrite mem_delete_find, H. reflexivity.
  - unfold mem_get. rewrite H. exists f. destruct (f id) eqn:G; cbn [fst snd]; (split; [constructor; exact G|split; assumption]).
  - cbn [mem_list fst snd]. exists f. split; [constructor; exact L|split; assumption].
  - cbn [mem_list_ca fst snd]. exists f. split; [|split; assumption]. constructor. destruct L as [L1 L2]. split.
    + apply filter_nodup_map, L1.
    + intros r. rewrite filter_In, L2, name_eqb_eq. tauto.
Qed.

Lemma mem_sim : forall l m f, mem_inv (fun _ => True) m -> (forall id, mem_find id m = f id) ->
  map_run (fun r => r) f l (op_run mem_ops m l).
Proof.
  induction l as [|o l IH]; intros m f I H; cbn [op_run]; [constructor|].
  destruct (mem_sim_step m f o I H) as (f' & S & I' & H').
  destruct (op_step mem_ops m o) as [x m']. cbn [fst snd] in *. econstructor; [exact S|apply IH; assumption].
Qed.

(** ** SQLite *)
Lemma find_app_ : forall {A} (f : A -> bool) a b, find f (a ++ b) = match find f a with Some x => Some x | None => find f b end.
Proof. intros A f a b. induction a as [|x a IH]; [reflexivity|]. cbn [app find]. destruct (f x); [reflexivity|exact IH]. Qed.
Lemma NoDup_snoc : forall {A} (l : list A) a, NoDup l -> ~ In a l -> NoDup (l ++ [a]).
Proof.
  intros A l a. induction l as [|x l IH]; intros N H; cbn [app]; [constructor; [intros []|constructor]|].
  inversion N as [|? ? N1 N2]; subst. constructor.
  - rewrite in_app_iff. intros [X|[X|[]]]; [contradiction|]. subst. apply H. left. reflexivity.
  - apply IH; [exact N2|]. intros X. apply H. right. exact X.
Qed.

Section Db.
  Context (E : env) (LC : codec_laws E).

  (** The row of a storable request. *)
  Definition row_of (r : request) : row :=
    let '(st, tp, tr, rt, se) :=
      match rq_cs r with
      | Some cs => (cs_status cs, Some (trunc_us (cs_time cs)), to_i32 (cs_tries cs),
                    i32_of_Z (cs_rtime cs), secrets_text (cs_secrets cs))
      | None => ([], None, 0%Z, 0%Z, [])
      end in
    Row (rq_id r) (name_wire (rq_prefix r)) (to_i32 (rq_status r)) (to_i32 (rq_type r))
        (enc_tlv (cert_tlv E (rq_cert r))) (rq_ctype r) st tp tr rt se (rq_key r) (rq_eiv r) (rq_div r).

  Lemma row_of_new_eq : forall r, storable E r -> row_of_new E r = row_of r.
  Proof.
    intros r (_ & _ & _ & _ & _ & _ & H). unfold row_of_new, row_of.
    destruct (rq_cs r), (rq_ctype r); try contradiction; reflexivity.
  Qed.
  Lemma row_update_eq : forall r r0, same_fixed r0 r -> row_update r (row_of r0) = row_of r.
  Proof.
    intros r r0 (H1 & H2 & H3 & H4 & H5). unfold row_update, row_of.
    destruct (rq_cs r0), (rq_cs r); cbn [r_id r_ca r_type r_cert r_key]; congruence.
  Qed.
  Lemma r_id_row_of : forall r, r_id (row_of r) = rq_id r.
  Proof. intros r. unfold row_of. destruct (rq_cs r); reflexivity. Qed.
  Lemma r_ca_row_of : forall r, r_ca (row_of r) = name_wire (rq_prefix r).
  Proof. intros r. unfold row_of. destruct (rq_cs r); reflexivity. Qed.

  Lemma dec_elem_enc : forall t, wf_tlv t -> dec_elem (enc_tlv t) = Some (t, []).
  Proof. intros t H. rewrite <- (app_nil_r (enc_tlv t)) at 1. apply dec_enc_elem, H. Qed.
  Lemma name_tlv_wf : forall n, name_fits n -> wf_tlv (name_tlv n).
  Proof.
    intros n [H1 H2]. unfold name_tlv. repeat split; cbn [t_type t_val]; try (unfold T_Name, max_type; lia).
    unfold fits, name_wire, enc_tlv, blen in *. cbn [t_type t_val name_tlv] in *. rewrite !app_length in H2. lia.
  Qed.
  Lemma cert_tlv_wf : forall c, fits (o_cert_wire E c) -> wf_tlv (cert_tlv E c).
  Proof. intros c H. repeat split; cbn [t_type t_val cert_tlv]; try (unfold T_Data, max_type; lia). exact H. Qed.

  Lemma to_i32_id : forall n, n < 2 ^ 31 -> to_i32 n = Z.of_N n.
  Proof.
    intros n H. unfold to_i32. rewrite Z.mod_small by lia. destruct (Z.ltb_spec (Z.of_N n) (2 ^ 31)); [reflexivity|lia].
  Qed.
  Lemma row_back : forall r, storable E r -> row_to_request E (row_of r) = Some (db_stored r).
  Proof.
    intros r (H1 & H2 & H3 & H4 & H5 & H6 & H7). unfold row_to_request. rewrite r_ca_row_of.
    assert (r_cert (row_of r) = enc_tlv (cert_tlv E (rq_cert r))) as -> by (unfold row_of; destruct (rq_cs r); reflexivity).
    unfold name_wire. rewrite (dec_elem_enc (name_tlv _)) by (apply name_tlv_wf, H1).
    rewrite dec_elem_enc by (apply cert_tlv_wf, H4). rewrite name_decode_tlv by (apply H1).
    assert (cert_decode E (cert_tlv E (rq_cert r)) = Some (rq_cert r)) as ->.
    { unfold cert_decode, data_decode, cert_tlv. cbn [t_type t_val]. rewrite N.eqb_refl, (l_cert_codec E LC) by exact H2.
      rewrite H3. reflexivity. }
    unfold db_stored. destruct r as [pf id ty st ce ke eiv div ct cs]. cbn [rq_prefix rq_id rq_type rq_status rq_cert rq_key rq_eiv rq_div rq_ctype rq_cs] in *.
    assert (A : to_u64 (to_i32 ty) = ty).
    { rewrite to_i32_id by lia. unfold to_u64. rewrite Z.mod_small by lia. lia. }
    assert (B : Z.to_N (to_i32 st mod 2 ^ 16) = st).
    { rewrite to_i32_id by lia. rewrite Z.mod_small by lia. lia. }
    unfold row_of, set_cs. destruct ct as [|b ct], cs as [[st' tm tr rt se]|]; try contradiction;
      cbn [rq_prefix rq_id rq_type rq_status rq_cert rq_key rq_eiv rq_div rq_ctype rq_cs cs_status cs_time cs_tries cs_rtime cs_secrets
           r_id r_ca r_status r_type r_cert r_ctype r_cstatus r_time r_tries r_rtime r_secrets r_key r_eiv r_div] in *.
    - rewrite A, B. reflexivity.
    - destruct H7 as [H7 H8]. rewrite (secrets_back se H8). rewrite A, B. do 4 f_equal. rewrite to_i32_id by exact H7. unfold to_u64.
      assert (2 ^ 31 < 2 ^ 64)%Z by (vm_compute; reflexivity). rewrite Z.mod_small by lia. lia.
  Qed.

  Definition db_inv (d : db) : Prop :=
    NoDup (map r_id d) /\ Forall (fun w => exists r, storable E r /\ w = row_of r) d.

  Lemma db_row_in : forall d id w, db_row d id = Some w -> In w d /\ r_id w = id.
  Proof.
    intros d id w H. unfold db_row in H. apply find_some in H as [H1 H2]. apply bytes_eqb_eq in H2. split; congruence.
  Qed.
  Lemma db_in_row : forall d w, NoDup (map r_id d) -> In w d -> db_row d (r_id w) = Some w.
  Proof.
    unfold db_row. induction d as [|x d IH]; intros w N H; [destruct H|]. cbn [map] in N. inversion N as [|? ? N1 N2]; subst.
    cbn [find]. destruct H as [->|H]; [rewrite bytes_eqb_refl; reflexivity|].
    destruct (bytes_eqb (r_id w) (r_id x)) eqn:Q; [|auto]. apply bytes_eqb_eq in Q. exfalso. apply N1. rewrite <- Q.
    apply in_map, H.
  Qed.
  Lemma db_get_none : forall d id, db_inv d -> db_get E d id = None -> db_row d id = None.
  Proof.
    intros d id [_ F] H. unfold db_get in H. destruct (db_row d id) as [w|] eqn:R; [|reflexivity].
    apply db_row_in in R as [R _]. rewrite Forall_forall in F. destruct (F _ R) as (r & S & ->).
    rewrite row_back in H by exact S. discriminate.
  Qed.
  Lemma storable_db_stored : forall r, storable E r -> storable E (db_stored r).
  Proof.
    intros r (H1 & H2 & H3 & H4 & H5 & H6 & H7). unfold storable, db_stored.
    destruct r as [pf id ty st ce ke eiv div ct cs]. cbn [rq_prefix rq_id rq_type rq_status rq_cert rq_key rq_eiv rq_div rq_ctype rq_cs set_cs] in *.
    do 6 (split; [assumption|]). destruct ct, cs; auto.
  Qed.
  Lemma db_get_some : forall d id r, db_inv d -> db_get E d id = Some r ->
    exists r0, storable E r0 /\ db_row d id = Some (row_of r0) /\ rq_id r0 = id /\ r = db_stored r0.
  Proof.
    intros d id r [_ F] H. unfold db_get in H. destruct (db_row d id) as [w|] eqn:R; [|discriminate].
    apply db_row_in in R as [R I]. rewrite Forall_forall in F. destruct (F _ R) as (r0 & S & ->).
    rewrite row_back in H by exact S. injection H as <-. exists r0. rewrite r_id_row_of in I. auto.
  Qed.

  Lemma db_add_ok : forall d r, db_inv d -> storable E r -> db_row d (rq_id r) = None ->
    db_inv (d ++ [row_of_new E r]) /\
    forall id, db_get E (d ++ [row_of_new E r]) id = if bytes_eqb id (rq_id r) then Some (db_stored r) else db_get E d id.
  Proof.
    intros d r [N F] S R. rewrite row_of_new_eq by exact S. split; [split|].
    - rewrite map_app. cbn [map]. apply NoDup_snoc; [exact N|]. intros H.
      apply in_map_iff in H as (w & Q & H). rewrite r_id_row_of in Q. pose proof (db_in_row d w N H) as X.
      rewrite Q in X. congruence.
    - apply Forall_app. split; [exact F|]. repeat constructor. exists r. auto.
    - intros id. unfold db_get, db_row. rewrite find_app_. cbn [find]. rewrite r_id_row_of.
      destruct (bytes_eqb id (rq_id r)) eqn:Q.
      + apply bytes_eqb_eq in Q. subst id. unfold db_row in R. rewrite R. apply row_back, S.
      + destruct (find (fun w => bytes_eqb id (r_id w)) d); reflexivity.
  Qed.

  Definition upd (r : request) (w : row) : row := if bytes_eqb (rq_id r) (r_id w) then row_update r w else w.
  Lemma upd_id : forall r w, r_id (upd r w) = r_id w.
  Proof.
    intros r w. unfold upd. destruct (bytes_eqb (rq_id r) (r_id w)); [|reflexivity]. unfold row_update.
    destruct (rq_cs r); reflexivity.
  Qed.
  Lemma find_upd : forall r d id, find (fun w => bytes_eqb id (r_id w)) (map (upd r) d) =
    option_map (upd r) (find (fun w => bytes_eqb id (r_id w)) d).
  Proof.
    intros r d id. induction d as [|w d IH]; [reflexivity|]. cbn [map find]. rewrite upd_id.
    destruct (bytes_eqb id (r_id w)); [reflexivity|exact IH].
  Qed.
  Lemma db_update_ok : forall d r r0, db_inv d -> storable E r -> db_get E d (rq_id r) = Some r0 -> same_fixed r0 r ->
    exists d', db_update d r = Some d' /\ db_inv d' /\ forall id, db_get E d' id = if bytes_eqb id (rq_id r) then Some (db_stored r) else db_get E d id.
  Proof.
    intros d r r0 I S G X. exists (map (upd r) d). split; [reflexivity|].
    destruct (db_get_some d _ _ I G) as (r1 & S1 & R & Q & ->).
    assert (X' : same_fixed r1 r) by (destruct r1; exact X). destruct I as [N F].
    assert (K : forall w, In w d -> bytes_eqb (rq_id r) (r_id w) = true -> w = row_of r1).
    { intros w H B. apply bytes_eqb_eq in B. pose proof (db_in_row d w N H) as P. rewrite <- B in P. congruence. }
    split; [split|].
    - rewrite map_map. erewrite map_ext; [exact N|]. intros w. apply upd_id.
    - apply Forall_forall. intros w H. apply in_map_iff in H as (w0 & <- & H). unfold upd.
      destruct (bytes_eqb (rq_id r) (r_id w0)) eqn:B.
      + rewrite (K w0 H B). exists r. split; [exact S|]. apply row_update_eq, X'.
      + rewrite Forall_forall in F. apply F, H.
    - intros id. unfold db_get, db_row. rewrite find_upd. destruct (bytes_eqb id (rq_id r)) eqn:B.
      + apply bytes_eqb_eq in B. subst id. unfold db_row in R. rewrite R. cbn [option_map]. unfold upd.
        rewrite r_id_row_of, Q, bytes_eqb_refl, row_update_eq by exact X'. apply row_back, S.
      + destruct (find (fun w => bytes_eqb id (r_id w)) d) as [w|] eqn:W; [|reflexivity]. cbn [option_map]. unfold upd.
        apply find_some in W as [_ W]. apply bytes_eqb_eq in W. subst id.
        destruct (bytes_eqb (rq_id r) (r_id w)) eqn:B2; [|reflexivity]. apply bytes_eqb_eq in B2.
        rewrite B2, bytes_eqb_refl in B. discriminate.
  Qed.
  Lemma db_delete_ok : forall d id, db_inv d ->
    db_inv (db_delete d id) /\ forall id', db_get E (db_delete d id) id' = if bytes_eqb id' id then None else db_get E d id'.
  Proof.
    intros d id [N F]. split; [split|].
    - apply filter_nodup_map, N.
    - apply Forall_forall. intros w H. apply filter_In in H as [H _]. rewrite Forall_forall in F. auto.
    - intros id'. unfold db_get, db_row, db_delete. clear N F. induction d as [|w d IH]; cbn [filter find].
      + destruct (bytes_eqb id' id); reflexivity.
      + destruct (bytes_eqb id (r_id w)) eqn:B1; cbn [negb find]; destruct (bytes_eqb id' (r_id w)) eqn:B2; rewrite ?IH; try reflexivity.
        * apply bytes_eqb_eq in B1, B2. subst. rewrite bytes_eqb_refl. reflexivity.
        * apply bytes_eqb_eq in B2. subst. destruct (bytes_eqb (r_id w) id) eqn:B3; [|reflexivity].
          apply bytes_eqb_eq in B3. subst. rewrite bytes_eqb_refl in B1. discriminate.
  Qed.

  Lemma all_some_rows : forall d, Forall (fun w => exists r, storable E r /\ w = row_of r) d ->
    exists l, all_some (map (row_to_request E) d) = Some l /\ map rq_id l = map r_id d /\
              forall r, In r l <-> exists w, In w d /\ row_to_request E w = Some r.
  Proof.
    induction d as [|w d IH]; intros F.
    - exists []. split; [reflexivity|]. split; [reflexivity|]. intros r. split; [intros []|intros (w & [] & _)].
    - inversion F as [|? ? (r0 & S & ->) F']; subst. destruct (IH F') as (l & A & B & C). exists (db_stored r0 :: l).
      cbn [map all_some]. rewrite row_back by exact S. rewrite A. split; [reflexivity|]. split.
      + cbn [map]. rewrite B, r_id_row_of. destruct r0; reflexivity.
      + intros r. split.
        * intros [<-|H]; [exists (row_of r0); split; [left; reflexivity|apply row_back, S]|].
          apply C in H as (w & H1 & H2). exists w. split; [right; exact H1|exact H2].
        * intros (w & [<-|H1] & H2); [rewrite row_back in H2 by exact S; injection H2 as <-; left; reflexivity|].
          right. apply C. exists w. auto.
  Qed.
  Lemma row_request_id : forall w r, (exists r, storable E r /\ w = row_of r) -> row_to_request E w = Some r ->
    rq_id r = r_id w /\ r_ca w = name_wire (rq_prefix r) /\ name_fits (rq_prefix r).
  Proof.
    intros w r (r0 & S & ->) H. rewrite row_back in H by exact S. injection H as <-. rewrite r_id_row_of, r_ca_row_of.
    split; [destruct r0; reflexivity|]. split; [destruct r0; reflexivity|]. destruct r0; apply S.
  Qed.
  Lemma db_list_ok : forall d, db_inv d ->
    exists l, db_list E d = Some l /\ enumerates (db_get E d) (fun _ => True) l.
  Proof.
    intros d [N F]. destruct (all_some_rows d F) as (l & A & B & C). exists l. split; [exact A|]. split; [rewrite B; exact N|].
    intros r. rewrite C. split.
    - intros (w & H1 & H2). split; [|exact Logic.I]. rewrite Forall_forall in F. destruct (row_request_id w r (F _ H1) H2) as (X & _).
      unfold db_get. rewrite X, (db_in_row d w N H1). exact H2.
    - intros [H _]. unfold db_get in H. destruct (db_row d (rq_id r)) as [w|] eqn:R; [|discriminate].
      exists w. split; [apply db_row_in in R; apply R|exact H].
  Qed.
  Lemma name_wire_inj : forall a b, name_fits a -> name_fits b -> name_wire a = name_wire b -> a = b.
  Proof.
    intros a b Ha Hb H. pose proof (dec_elem_enc _ (name_tlv_wf a Ha)) as A. pose proof (dec_elem_enc _ (name_tlv_wf b Hb)) as B.
    unfold name_wire in H. rewrite H, B in A. injection A as A. unfold name_tlv in A.
    symmetry. apply enc_tlvs_inj; [apply Hb|apply Ha|congruence].
  Qed.
  Lemma db_list_ca_ok : forall d n, db_inv d -> name_fits n ->
    exists l, db_list_ca E d n = Some l /\ enumerates (db_get E d) (fun r => rq_prefix r = n) l.
  Proof.
    intros d n [N F] Hn. set (d' := filter (fun w => bytes_eqb (r_ca w) (name_wire n)) d).
    assert (F' : Forall (fun w => exists r, storable E r /\ w = row_of r) d').
    { apply Forall_forall. intros w H. apply filter_In in H as [H _]. rewrite Forall_forall in F. auto. }
    destruct (all_some_rows d' F') as (l & A & B & C). exists l. split; [exact A|].
    split; [rewrite B; apply filter_nodup_map, N|]. rewrite Forall_forall in F. intros r. rewrite C. split.
    - intros (w & H1 & H2). apply filter_In in H1 as [H1 H3]. destruct (row_request_id w r (F _ H1) H2) as (X & Y & Z).
      apply bytes_eqb_eq in H3. rewrite Y in H3. apply name_wire_inj in H3; [|assumption|assumption].
      split; [|exact H3]. unfold db_get. rewrite X, (db_in_row d w N H1). exact H2.
    - intros [H H3]. unfold db_get in H. destruct (db_row d (rq_id r)) as [w|] eqn:R; [|discriminate].
      apply db_row_in in R as [R _]. destruct (row_request_id w r (F _ R) H) as (X & Y & Z).
      exists w. split; [|exact H]. apply filter_In. split; [exact R|]. apply bytes_eqb_eq. congruence.
  Qed.

  Lemma enumerates_ext : forall f g K l, (forall id, f id = g id) -> enumerates f K l -> enumerates g K l.
  Proof. intros f g K l H [A B]. split; [exact A|]. intros r. rewrite B, H. reflexivity. Qed.

  Lemma db_sim : forall l d f m, db_inv d -> (forall id, db_get E d id = f id) ->
    (forall id, f id = option_map db_stored (m id)) -> (forall id r, m id = Some r -> rq_id r = id) ->
    ca_calls E m l -> map_run db_stored f l (op_run (db_ops E) d l).
  Proof.
    induction l as [|o l IH]; intros d f m I H M Id C; cbn [op_run]; [constructor|].
    destruct o as [r|r|id|id| |n]; cbn [op_step db_ops s_add s_update s_delete s_get s_list s_list_ca]; cbn [ca_calls] in C.
    - destruct C as [S C]. unfold db_add. destruct (m (rq_id r)) as [r0|] eqn:G.
      + destruct (db_row d (rq_id r)) eqn:R.
        * apply MR_cons with (m' := f); [apply MS_dup; rewrite M, G; discriminate|]. eapply IH; eassumption.
        * exfalso. specialize (H (rq_id r)). unfold db_get in H. rewrite R, M, G in H. discriminate.
      + assert (R : db_row d (rq_id r) = None) by (apply db_get_none; [exact I|rewrite H, M, G; reflexivity]). rewrite R.
        destruct (db_add_ok d r I S R) as [I' A].
        apply MR_cons with (m' := f_put f (rq_id r) (db_stored r)); [apply MS_add; rewrite M, G; reflexivity|].
        apply (IH _ _ (f_put m (rq_id r) r)); [exact I'| | | |exact C].
        * intros id. rewrite A, H. reflexivity.
        * intros id. unfold f_put. rewrite M. destruct (bytes_eqb id (rq_id r)); reflexivity.
        * intros id r1. unfold f_put. destruct (bytes_eqb id (rq_id r)) eqn:B; [|apply Id].
          intros Q. injection Q as <-. apply bytes_eqb_eq in B. congruence.
    - destruct C as (S & (r0 & G & X) & C).
      assert (G' : db_get E d (rq_id r) = Some (db_stored r0)) by (rewrite H, M, G; reflexivity).
      destruct (db_update_ok d r _ I S G' ltac:(destruct r0; exact X)) as (d' & U & I' & A). rewrite U.
      apply MR_cons with (m' := f_put f (rq_id r) (db_stored r)); [apply MS_update|].
      apply (IH _ _ (f_put m (rq_id r) r)); [exact I'| | | |exact C].
      * intros id. rewrite A, H. reflexivity.
      * intros id. unfold f_put. rewrite M. destruct (bytes_eqb id (rq_id r)); reflexivity.
      * intros id r1. unfold f_put. destruct (bytes_eqb id (rq_id r)) eqn:B; [|apply Id].
        intros Q. injection Q as <-. apply bytes_eqb_eq in B. congruence.
    - destruct (db_delete_ok d id I) as [I' A]. apply MR_cons with (m' := f_del f id); [apply MS_delete|].
      apply (IH _ _ (f_del m id)); [exact I'| | | |exact C].
      * intros id'. rewrite A, H. reflexivity.
      * intros id'. unfold f_del. rewrite M. destruct (bytes_eqb id' id); reflexivity.
      * intros id' r1. unfold f_del. destruct (bytes_eqb id' id); [discriminate|apply Id].
    - rewrite H. apply MR_cons with (m' := f); [|eapply IH; eassumption].
      destruct (f id) eqn:G; constructor; exact G.
    - destruct (db_list_ok d I) as (ls & A & B). rewrite A. apply MR_cons with (m' := f); [|eapply IH; eassumption].
      constructor. eapply enumerates_ext; eassumption.
    - destruct C as [Hn C]. destruct (db_list_ca_ok d n I Hn) as (ls & A & B). rewrite A.
      apply MR_cons with (m' := f); [|eapply IH; eassumption]. constructor. eapply enumerates_ext; eassumption.
  Qed.
End Db.

(** ** What the CA's histories need from a back end *)
Record store_laws {S} (E : env) (ops : store_ops S) (inv : S -> Prop) (nrm : request -> request) : Prop := {
  sl_nrm : forall r, nrm r = r \/ nrm r = db_stored r;
  sl_empty_inv : inv (s_empty ops);
  sl_empty : forall id, s_get ops (s_empty ops) id = None;
  sl_get : forall s id r, inv s -> s_get ops s id = Some r -> rq_id r = id /\ storable E r /\ nrm r = r;
  sl_add : forall s r, inv s -> storable E r -> s_get ops s (rq_id r) = None ->
    exists s', s_add ops s r = Some s' /\ inv s' /\
      forall id, s_get ops s' id = if bytes_eqb id (rq_id r) then Some (nrm r) else s_get ops s id;
  sl_dup : forall s r, inv s -> s_get ops s (rq_id r) <> None -> s_add ops s r = None;
  sl_update : forall s r r0, inv s -> storable E r -> s_get ops s (rq_id r) = Some r0 -> same_fixed r0 r ->
    exists s', s_update ops s r = Some s' /\ inv s' /\
      forall id, s_get ops s' id = if bytes_eqb id (rq_id r) then Some (nrm r) else s_get ops s id;
  sl_delete : forall s id, inv s -> inv (s_delete ops s id) /\
      forall id', s_get ops (s_delete ops s id) id' = if bytes_eqb id' id then None else s_get ops s id';
  sl_restart : forall s, inv s -> inv (s_restart ops s) /\
      ((forall id, s_get ops (s_restart ops s) id = s_get ops s id) \/ (forall id, s_get ops (s_restart ops s) id = None))
}.

Lemma mem_laws : forall E, store_laws E mem_ops (mem_inv (storable E)) (fun r => r).
Proof.
  intros E. constructor; cbn [mem_ops s_empty s_get s_add s_update s_delete s_restart].
  - intros r. left. reflexivity.
  - apply mem_inv_nil.
  - reflexivity.
  - intros s id r I H. destruct (mem_inv_get _ s id r I H). auto.
  - intros s r I H G. unfold mem_add, mem_get in *. rewrite G. eexists. split; [reflexivity|].
    split; [apply mem_inv_set; assumption|]. intros id. apply mem_set_find.
  - intros s r I H. unfold mem_add, mem_get in *. destruct (mem_find (rq_id r) s); [reflexivity|contradiction].
  - intros s r r0 I H G F. eexists. split; [reflexivity|]. split; [apply mem_inv_set; assumption|]. intros id. apply mem_set_find.
  - intros s id I. split; [apply mem_inv_delete, I|]. intros id'. apply mem_delete_find.
  - intros s I. split; [apply mem_inv_nil|]. right. reflexivity.
Qed.

Lemma trunc_us_idem : forall t, trunc_us (trunc_us t) = trunc_us t.
Proof. intros t. unfold trunc_us. rewrite Z.quot_mul by lia. reflexivity. Qed.
Lemma i32_of_Z_idem : forall t, i32_of_Z (i32_of_Z t) = i32_of_Z t.
Proof.
  intros t. unfold i32_of_Z. set (w := (t mod 2 ^ 32)%Z). assert (0 <= w < 2 ^ 32)%Z by (apply Z.mod_pos_bound; lia).
  destruct (Z.ltb_spec w (2 ^ 31)).
  - rewrite (Z.mod_small w) by lia. destruct (Z.ltb_spec w (2 ^ 31)); lia.
  - replace ((w - 2 ^ 32) mod 2 ^ 32)%Z with w; [destruct (Z.ltb_spec w (2 ^ 31)); lia|].
    rewrite <- (Z.mod_small w (2 ^ 32)) at 1 by lia. rewrite <- (Z_mod_plus_full (w - 2 ^ 32) 1). f_equal. lia.
Qed.
Lemma db_stored_idem : forall r, db_stored (db_stored r) = db_stored r.
Proof.
  intros [pf id ty st ce ke eiv div ct [[a b c d e]|]]; unfold db_stored, set_cs;
    cbn [rq_prefix rq_id rq_type rq_status rq_cert rq_key rq_eiv rq_div rq_ctype rq_cs cs_status cs_time cs_tries cs_rtime cs_secrets];
    [|reflexivity]. rewrite trunc_us_idem, i32_of_Z_idem. reflexivity.
Qed.

Lemma db_laws : forall E, codec_laws E -> store_laws E (db_ops E) (db_inv E) db_stored.
Proof.
  intros E LC. constructor; cbn [db_ops s_empty s_get s_add s_update s_delete s_restart].
  - intros r. right. reflexivity.
  - split; constructor.
  - reflexivity.
  - intros s id r I H. destruct (db_get_some E LC s id r I H) as (r0 & S & R & Q & ->).
    split; [destruct r0; exact Q|]. split; [apply storable_db_stored, S|apply db_stored_idem].
  - intros s r I S G. pose proof (db_get_none E LC s _ I G) as R. destruct (db_add_ok E LC s r I S R) as [I' A].
    unfold db_add. rewrite R. eexists. split; [reflexivity|]. auto.
  - intros s r I H. unfold db_add. destruct (db_row s (rq_id r)) eqn:R; [reflexivity|].
    exfalso. apply H. unfold db_get. rewrite R. reflexivity.
  - intros s r r0 I S G X. apply (db_update_ok E LC s r r0 I S G X).
  - intros s id I. apply db_delete_ok, I.
  - intros s I. split; [exact I|]. left. reflexivity.
Qed.
