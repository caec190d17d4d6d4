(** The order in which Interests about different requests arrive: theorem C133.  Vocabulary in Spec_Commute.v:
    [only_about]: an Interest about one request (a NEW or REVOKE Interest that gets its ID, or a CHALLENGE Interest that
    names it); [seen]: the event of a step and all its effects; [of_request]: the part of a run that is about a request. *)
From Verif Require Import IsolationWitness CommuteFacts CommuteWitness.
Local Open Scope N_scope.

(** ** C133: the order of Interests about different requests does not matter *)
(** Two Interests about different requests that come one after the other can come in the other order: both have the
    effects they had, so has everything that comes afterwards, and the same requests are pending in the end. *)
Theorem C133_commute : forall E g S (ops : store_ops S) s a st st' b s2 id id', ca_at E g ops s -> steps E g ops s (a ++ st :: st' :: b) s2 ->
  only_about E g id st -> only_about E g id' st' -> id <> id' ->
  exists tr s2', steps E g ops s tr s2' /\ map seen tr = map seen (a ++ st' :: st :: b) /\ forall id0, pending ops s2' id0 = pending ops s2 id0.
Proof. exact commute. Qed.
Print Assumptions C133_commute.
(** A NEW request of one customer, and the start of the challenge of another. *)
Example C133_case : ca_at toy w_cfg mem_ops v_ca0 /\ steps toy w_cfg mem_ops v_ca0 ([i_e1] ++ i_e2 :: i_e3 :: []) (fst u_ca2) /\
  only_about toy w_cfg u_id i_e2 /\ only_about toy w_cfg v_id i_e3 /\ u_id <> v_id /\
  puts (h_effs i_e2) <> [] /\ puts (h_effs i_e3) <> [] /\ pending mem_ops (fst u_ca2) u_id <> None /\ pending mem_ops (fst u_ca2) v_id <> None.
Proof. split; [exact v_at0|]. split; [exact i_steps|]. split; [exact cm_new|]. split; [exact cm_chal|exact cm_differ]. Qed.
(** So any interleaving of the same requests, with the Interests of each in their order, has the same effects, and the
    same requests are pending in the end. *)
Theorem C133_any_order : forall E g S (ops : store_ops S) s tr s2 l l', ca_at E g ops s -> steps E g ops s tr s2 -> map seen tr = map snd l ->
  Forall (fun p => interest_about E g (ca_idkey s) (fst p) (fst (snd p))) l -> (forall id, of_request id l' = of_request id l) ->
  exists tr' s2', steps E g ops s tr' s2' /\ map seen tr' = map snd l' /\ forall id, pending ops s2' id = pending ops s2 id.
Proof. exact any_order. Qed.
Print Assumptions C133_any_order.
(** The NEW request of the one customer comes before all that the other sends. *)
Example C133_order_case : ca_at toy w_cfg mem_ops v_ca0 /\ steps toy w_cfg mem_ops v_ca0 [i_e1; i_e2; i_e3] (fst u_ca2) /\ map seen [i_e1; i_e2; i_e3] = map snd cm_l /\
  Forall (fun p => interest_about toy w_cfg (ca_idkey v_ca0) (fst p) (fst (snd p))) cm_l /\ (forall id, of_request id cm_l' = of_request id cm_l) /\ cm_l' <> cm_l.
Proof.
  split; [exact v_at0|]. split; [exact i_steps|]. split; [reflexivity|]. split; [exact cm_labels|]. split; [exact cm_order|].
  intros Q. apply (f_equal (fun l => map fst l)) in Q. vm_compute in Q. discriminate Q.
Qed.
