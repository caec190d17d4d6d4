(** C40, C41: the storage back ends. *)
From Verif Require Import StorageFacts StorageWitness.
From Verif Require Import Spec_Codec.
From Verif Require NarrowFacts.
Local Open Scope N_scope.

(** ** C40: in-memory storage is a map *)
Theorem C40_memory_is_map : forall l, map_run (fun r => r) f_empty l (op_run mem_ops (s_empty mem_ops) l).
Proof. exact memory_is_map. Qed.
Print Assumptions C40_memory_is_map.
Example C40_case : op_run mem_ops (s_empty mem_ops) x_calls =
  [RDone; RDone; RDone; RReq x_r2; RThrow; RList [x_r2]; RDone; RList [x_r3; x_other]; RDone; RThrow].
Proof. exact (proj2 x_calls_run). Qed.

(** ** C41: SQLite storage is a map *)
(** For storable requests and updates that hit a stored request and change no fixed column. *)
Theorem C41_sqlite_is_map_partial : forall E l, codec_laws E -> ca_calls E f_empty l ->
  map_run db_stored f_empty l (op_run (db_ops E) (s_empty (db_ops E)) l).
Proof. exact sqlite_is_map. Qed.
Print Assumptions C41_sqlite_is_map_partial.
Example C41_case : codec_laws toy /\ ca_calls toy f_empty x_calls /\ op_run (db_ops toy) (s_empty (db_ops toy)) x_calls =
  [RDone; RDone; RDone; RReq x_r2; RThrow; RList [x_r2]; RDone; RList [x_r3; x_other]; RDone; RThrow].
Proof. exact (conj (laws_codec _ toy_laws) (conj x_calls_ok (proj1 x_calls_run))). Qed.
(** What the database keeps of a request: all but the sub-microsecond part of the challenge's time and the high bits of the remaining seconds. *)
Theorem C41_kept : forall r, rq_prefix (db_stored r) = rq_prefix r /\ rq_id (db_stored r) = rq_id r /\ rq_type (db_stored r) = rq_type r /\ rq_status (db_stored r) = rq_status r /\
  rq_cert (db_stored r) = rq_cert r /\ rq_key (db_stored r) = rq_key r /\ rq_eiv (db_stored r) = rq_eiv r /\ rq_div (db_stored r) = rq_div r /\ rq_ctype (db_stored r) = rq_ctype r /\
  match rq_cs r with
  | None => rq_cs (db_stored r) = None
  | Some cs => exists cs', rq_cs (db_stored r) = Some cs' /\ cs_status cs' = cs_status cs /\ cs_tries cs' = cs_tries cs /\ cs_secrets cs' = cs_secrets cs /\
      held 32 (cs_rtime cs) (cs_rtime cs') /\ (exists us, cs_time cs' = us * 1000)%Z /\ (0 <= cs_time cs -> cs_time cs - 1000 < cs_time cs' <= cs_time cs)%Z
  end.
Proof. exact NarrowFacts.db_stored_loses. Qed.
Print Assumptions C41_kept.
Example C41_kept_case : exists r cs cs', rq_cs r = Some cs /\ rq_cs (db_stored r) = Some cs' /\ (cs_time cs = 1234567 /\ cs_time cs' = 1234000 /\ cs_rtime cs = 2 ^ 31 /\ cs_rtime cs' = - 2 ^ 31)%Z.
Proof. exists (set_cs (Some (CState [] 1234567 3 (2 ^ 31) [])) x_r1). eexists _, _. split; [reflexivity|]. split; [reflexivity|]. vm_compute. auto. Qed.
(** Updating a request that is not stored reports success and stores nothing. *)
Theorem C41_update_absent_refuted : exists E r, codec_laws E /\ storable E r /\
  op_run (db_ops E) (s_empty (db_ops E)) [OUpdate r; OGet (rq_id r)] = [RDone; RThrow] /\
  ~ exists stored, map_run stored f_empty [OUpdate r; OGet (rq_id r)]
                           (op_run (db_ops E) (s_empty (db_ops E)) [OUpdate r; OGet (rq_id r)]).
Proof. exact update_absent_refuted. Qed.
Print Assumptions C41_update_absent_refuted.
(** Updating a stored request does not store its new certificate. *)
Theorem C41_update_fixed_refuted : exists E r r' got, codec_laws E /\ storable E r /\ storable E r' /\ rq_id r = rq_id r' /\
  op_run (db_ops E) (s_empty (db_ops E)) [OAdd r; OUpdate r'; OGet (rq_id r')] = [RDone; RDone; RReq got] /\
  rq_cert got <> rq_cert r'.
Proof. exact update_fixed_refuted. Qed.
Print Assumptions C41_update_fixed_refuted.
