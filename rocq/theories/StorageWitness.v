(** Concrete requests and the cases where SQLite is not a map. *)
From Verif Require Export StorageFacts Samples.
Local Open Scope N_scope.

(** The sample request after NEW, after the pin challenge has started, and after a wrong code. *)
Definition x_stored (s : ca_state db) : request :=
  match db_list toy (ca_store s) with Some (r :: _) => r | _ => Request [] [] 0 0 x_ca_cert [] [] [] [] None end.
Definition x_r1 : request := Eval vm_compute in x_stored (fst x_ca1).
Definition x_r2 : request := Eval vm_compute in x_stored (fst x_ca2).
Definition x_r3 : request := Eval vm_compute in x_stored (fst x_ca3).
(** A request of another CA. *)
Definition x_other : request := Eval vm_compute in
  Request [gc (bs "other")] (bs "ID-other") RT_REVOKE ST_BEFORE x_cred (bs "key") [] [] [] None.

(** Discharges [storable toy] of a concrete request. *)
Ltac meets_storable := unfold storable; split; [meets|]; do 5 (split; [meets|]); first [exact I|split; [reflexivity|]; unfold secret_texts; vm_compute; repeat constructor; reflexivity].

Definition x_calls : list sop :=
  [OAdd x_r1; OAdd x_other; OUpdate x_r2; OGet (rq_id x_r1); OAdd x_r1; OListCa x_prefix; OUpdate x_r3; OList;
   ODelete (rq_id x_r1); OGet (rq_id x_r1)].

Lemma x_calls_ok : ca_calls toy f_empty x_calls.
Proof.
  unfold x_calls. cbn [ca_calls].
  assert (S1 : storable toy x_r1) by meets_storable.
  assert (S2 : storable toy x_r2) by meets_storable.
  assert (S3 : storable toy x_r3) by meets_storable.
  assert (S4 : storable toy x_other) by meets_storable.
  split; [exact S1|]. split; [exact S4|]. split; [exact S2|].
  split; [exists x_r1; split; [vm_compute; reflexivity|]; unfold same_fixed; meets|]. split; [exact S1|].
  split; [meets|]. split; [exact S3|].
  split; [exists x_r2; split; [vm_compute; reflexivity|]; unfold same_fixed; meets|]. exact I.
Qed.
Lemma x_calls_run : op_run (db_ops toy) [] x_calls =
  [RDone; RDone; RDone; RReq x_r2; RThrow; RList [x_r2]; RDone; RList [x_r3; x_other]; RDone; RThrow] /\
  op_run mem_ops [] x_calls =
  [RDone; RDone; RDone; RReq x_r2; RThrow; RList [x_r2]; RDone; RList [x_r3; x_other]; RDone; RThrow].
Proof. split; vm_compute; reflexivity. Qed.

Lemma map_get_after_put : forall stored m r x xs,
  map_run stored m [OUpdate r; OGet (rq_id r)] (x :: xs) -> xs = [RReq (stored r)].
Proof.
  intros stored m r x xs H. inversion H as [|? ? ? m' ? ? S R]; subst. inversion S; subst.
  inversion R as [|? ? ? m'' ? ? S2 R2]; subst. inversion R2; subst.
  inversion S2 as [| | | |? ? Q|? Q| |]; subst; unfold f_put in Q; rewrite bytes_eqb_refl in Q; congruence.
Qed.

Lemma update_absent_lost :
  storable toy x_r2 /\ op_run (db_ops toy) [] [OUpdate x_r2; OGet (rq_id x_r2)] = [RDone; RThrow] /\
  ~ exists stored, map_run stored f_empty [OUpdate x_r2; OGet (rq_id x_r2)]
                           (op_run (db_ops toy) [] [OUpdate x_r2; OGet (rq_id x_r2)]).
Proof.
  assert (Q : op_run (db_ops toy) [] [OUpdate x_r2; OGet (rq_id x_r2)] = [RDone; RThrow]) by (vm_compute; reflexivity).
  split; [meets_storable|]. split; [exact Q|]. intros [stored H]. rewrite Q in H.
  apply map_get_after_put in H. discriminate.
Qed.

(** Also a present request: the certificate column is not written. *)
Definition x_r2' : request := Eval vm_compute in set_cert x_cred x_r2.
Lemma update_fixed_lost : storable toy x_r1 /\ storable toy x_r2' /\ rq_id x_r1 = rq_id x_r2' /\ rq_cert x_r2' = x_cred /\
  op_run (db_ops toy) [] [OAdd x_r1; OUpdate x_r2'; OGet (rq_id x_r2')] = [RDone; RDone; RReq x_r2] /\ rq_cert x_r2 <> x_cred.
Proof. split; [meets_storable|]. split; [meets_storable|]. meets. Qed.

Lemma memory_is_map : forall l, map_run (fun r => r) f_empty l (op_run mem_ops (s_empty mem_ops) l).
Proof. intros l. apply mem_sim; [apply mem_inv_nil|reflexivity]. Qed.
Lemma sqlite_is_map : forall E l, codec_laws E -> ca_calls E f_empty l ->
  map_run db_stored f_empty l (op_run (db_ops E) (s_empty (db_ops E)) l).
Proof.
  intros E l L H. apply (db_sim E L l [] f_empty f_empty); try reflexivity; [split; constructor|discriminate|exact H].
Qed.
Lemma update_absent_refuted : exists E r, codec_laws E /\ storable E r /\
  op_run (db_ops E) (s_empty (db_ops E)) [OUpdate r; OGet (rq_id r)] = [RDone; RThrow] /\
  ~ exists stored, map_run stored f_empty [OUpdate r; OGet (rq_id r)]
                           (op_run (db_ops E) (s_empty (db_ops E)) [OUpdate r; OGet (rq_id r)]).
Proof. exists toy, x_r2. split; [exact (laws_codec _ toy_laws)|exact update_absent_lost]. Qed.
Lemma update_fixed_refuted : exists E r r' got, codec_laws E /\ storable E r /\ storable E r' /\ rq_id r = rq_id r' /\
  op_run (db_ops E) (s_empty (db_ops E)) [OAdd r; OUpdate r'; OGet (rq_id r')] = [RDone; RDone; RReq got] /\
  rq_cert got <> rq_cert r'.
Proof.
  exists toy, x_r1, x_r2', x_r2. split; [exact (laws_codec _ toy_laws)|].
  destruct update_fixed_lost as (A & B & C & D & F & G). rewrite D. auto 10.
Qed.
