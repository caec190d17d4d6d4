(** C104: why a pending request is given up. *)
From Verif Require Import VerdictFacts VerdictWitness.
Local Open Scope N_scope.

(** ** C104: a pending request is given up for a stated reason, and for each of them *)
(** When a CHALLENGE Interest that the request's key signed gives one of the reasons, the request is gone and the reply carries the reason's code. *)
Theorem C104_drops : forall E g S (ops : store_ops S) s i x id r code, ca_at E g ops s -> names_request g id x -> pending ops s id = Some r ->
  signed_by E x (public_key (rq_cert r)) -> gives_up E (cf_chal g) i x r code ->
  exists s' d, step E g ops s (EvInterest i x) = Some (s', [EDelete id; EPut d]) /\ error_reply E g x code d /\ pending ops s' id = None.
Proof. exact @gives_up_drops. Qed.
Print Assumptions C104_drops.
Example C104_drops_case : ca_at toy w_cfg mem_ops (fst n_ca4) /\ names_request w_cfg z_id (fst n_chal4) /\ pending mem_ops (fst n_ca4) z_id = Some u_r4 /\ signed_by toy (fst n_chal4) (public_key (rq_cert u_r4)) /\
    gives_up toy (cf_chal w_cfg) (x_inputs (x_now + sec 3700) 5) (fst n_chal4) u_r4 7 /\
  ca_at toy w_cfg mem_ops (fst p_ca2) /\ names_request w_cfg z_id (fst u_chal) /\ pending mem_ops (fst p_ca2) z_id = Some p_r2 /\ signed_by toy (fst u_chal) (public_key (rq_cert p_r2)) /\
    gives_up toy (cf_chal w_cfg) (x_inputs (x_now + sec 20) 3) (fst u_chal) p_r2 4 /\
  names_request w_cfg z_id u_junk /\ signed_by toy u_junk (public_key (rq_cert p_r2)) /\ gives_up toy (cf_chal w_cfg) (x_inputs (x_now + sec 20) 3) u_junk p_r2 4.
Proof. exact u_drops. Qed.
(** A request that an Interest removes was named by it and the Interest was signed by the request's key; either it gave one of the reasons, was told so
    and nothing else happened, or the challenge was passed. *)
Theorem C104_ends : forall E g S (ops : store_ops S) s i x id r s' es, ca_at E g ops s -> pending ops s id = Some r ->
  step E g ops s (EvInterest i x) = Some (s', es) -> pending ops s' id = None ->
  names_request g id x /\ signed_by E x (public_key (rq_cert r)) /\
  ((exists code d, es = [EDelete id; EPut d] /\ gives_up E (cf_chal g) i x r code /\ error_reply E g x code d) \/
   (exists params ty cs, contains E r x params /\ selects params ty /\ rq_status r <> ST_BEFORE /\ rq_cs r = Some cs /\ passes E i params cs ty)).
Proof. exact @ended. Qed.
Print Assumptions C104_ends.
(** A request removed with a reply and no status report was given up for one of the reasons, with its code. *)
Theorem C104_reasons : forall E g S (ops : store_ops S) s i x id r s' d, ca_at E g ops s -> names_request g id x -> pending ops s id = Some r ->
  step E g ops s (EvInterest i x) = Some (s', [EDelete id; EPut d]) ->
  signed_by E x (public_key (rq_cert r)) /\ exists code, gives_up E (cf_chal g) i x r code /\ error_reply E g x code d.
Proof. exact @drops_given_up. Qed.
Print Assumptions C104_reasons.
Example C104_case : exists d s', ca_at toy w_cfg mem_ops (fst n_ca4) /\ names_request w_cfg z_id (fst n_chal4) /\ pending mem_ops (fst n_ca4) z_id = Some u_r4 /\
  step toy w_cfg mem_ops (fst n_ca4) (EvInterest (x_inputs (x_now + sec 3700) 5) (fst n_chal4)) = Some (s', [EDelete z_id; EPut d]) /\ pending mem_ops s' z_id = None.
Proof. exact u_reasons. Qed.
