(** Vocabulary for the statements about the storage back ends: a finite map from request IDs. *)
From Verif Require Export Storage Spec_Codec Spec_JsonText.
Local Open Scope N_scope.

(** Calls and what they return. *)
Inductive sop : Type :=
| OAdd (r : request) | OUpdate (r : request) | ODelete (id : bytes) | OGet (id : bytes) | OList | OListCa (n : name).
Inductive sres : Type := RDone | RThrow | RReq (r : request) | RList (l : list request).

(** A sequence of calls on a back end. *)
Definition op_step {S} (ops : store_ops S) (s : S) (o : sop) : sres * S :=
  match o with
  | OAdd r => match s_add ops s r with Some s' => (RDone, s') | None => (RThrow, s) end
  | OUpdate r => match s_update ops s r with Some s' => (RDone, s') | None => (RThrow, s) end
  | ODelete id => (RDone, s_delete ops s id)
  | OGet id => (match s_get ops s id with Some r => RReq r | None => RThrow end, s)
  | OList => (match s_list ops s with Some l => RList l | None => RThrow end, s)
  | OListCa n => (match s_list_ca ops s n with Some l => RList l | None => RThrow end, s)
  end.
Fixpoint op_run {S} (ops : store_ops S) (s : S) (l : list sop) : list sres :=
  match l with
  | [] => []
  | o :: l' => let (r, s') := op_step ops s o in r :: op_run ops s' l'
  end.

(** The specification: a finite map.  [stored] says what is kept of a request. *)
Definition fmap : Type := bytes -> option request.
Definition f_empty : fmap := fun _ => None.
Definition f_put (m : fmap) (id : bytes) (r : request) : fmap := fun id' => if bytes_eqb id' id then Some r else m id'.
Definition f_del (m : fmap) (id : bytes) : fmap := fun id' => if bytes_eqb id' id then None else m id'.
(** [l] lists each request of [m] that satisfies [keep] exactly once. *)
Definition enumerates (m : fmap) (keep : request -> Prop) (l : list request) : Prop :=
  NoDup (map rq_id l) /\ forall r, In r l <-> m (rq_id r) = Some r /\ keep r.
Inductive map_step (stored : request -> request) (m : fmap) : sop -> sres -> fmap -> Prop :=
| MS_add : forall r, m (rq_id r) = None -> map_step stored m (OAdd r) RDone (f_put m (rq_id r) (stored r))
| MS_dup : forall r, m (rq_id r) <> None -> map_step stored m (OAdd r) RThrow m
| MS_update : forall r, map_step stored m (OUpdate r) RDone (f_put m (rq_id r) (stored r))
| MS_delete : forall id, map_step stored m (ODelete id) RDone (f_del m id)
| MS_get : forall id r, m id = Some r -> map_step stored m (OGet id) (RReq r) m
| MS_absent : forall id, m id = None -> map_step stored m (OGet id) RThrow m
| MS_list : forall l, enumerates m (fun _ => True) l -> map_step stored m OList (RList l) m
| MS_list_ca : forall n l, enumerates m (fun r => rq_prefix r = n) l -> map_step stored m (OListCa n) (RList l) m.
Inductive map_run (stored : request -> request) : fmap -> list sop -> list sres -> Prop :=
| MR_nil : forall m, map_run stored m [] []
| MR_cons : forall m o x m' l xs, map_step stored m o x m' -> map_run stored m' l xs -> map_run stored m (o :: l) (x :: xs).

(** ** What the SQLite back end can keep *)
(** The requests a CA stores: encodable prefix and certificate, small enumeration values, and a challenge
    state exactly when a challenge type is set. *)
Definition storable (E : env) (r : request) : Prop :=
  name_fits (rq_prefix r) /\ wf_cert (rq_cert r) /\ cert_ok (rq_cert r) = true /\ fits (o_cert_wire E (rq_cert r)) /\
  rq_type r <= 3 /\ rq_status r <= 4 /\
  match rq_ctype r, rq_cs r with
  | [], None => True
  | _ :: _, Some cs => cs_tries cs < 2 ^ 31 /\ secret_texts (cs_secrets cs)
  | _, _ => False
  end.
(** The challenge timestamp is kept in whole microseconds, the remaining seconds in 32 bits. *)
Definition db_stored (r : request) : request :=
  set_cs (match rq_cs r with
          | Some cs => Some (CState (cs_status cs) (trunc_us (cs_time cs)) (cs_tries cs) (i32_of_Z (cs_rtime cs)) (cs_secrets cs))
          | None => None
          end) r.
(** The columns [updateRequest] does not write. *)
Definition same_fixed (a b : request) : Prop :=
  rq_prefix a = rq_prefix b /\ rq_id a = rq_id b /\ rq_type a = rq_type b /\ rq_cert a = rq_cert b /\ rq_key a = rq_key b.
(** Sequences of calls a CA makes: storable requests, updates of a request that is there. *)
Fixpoint ca_calls (E : env) (m : fmap) (l : list sop) : Prop :=
  match l with
  | [] => True
  | OAdd r :: l' => storable E r /\ ca_calls E (match m (rq_id r) with None => f_put m (rq_id r) r | Some _ => m end) l'
  | OUpdate r :: l' => storable E r /\ (exists r0, m (rq_id r) = Some r0 /\ same_fixed r0 r) /\ ca_calls E (f_put m (rq_id r) r) l'
  | ODelete id :: l' => ca_calls E (f_del m id) l'
  | OListCa n :: l' => name_fits n /\ ca_calls E m l'
  | _ :: l' => ca_calls E m l'
  end.
