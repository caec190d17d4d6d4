(** A history in which a certificate reaches the cache. *)
From Verif Require Import ServerFacts TraceWitness.
Local Open Scope N_scope.

Lemma sv_quiet : forall e, In e [x_e1; x_e2; x_e3] -> forall c, ~ announces e c.
Proof.
  intros e IN c (H & _). destruct IN as [<-|[<-|[<-|[]]]]; revert H; cbn; intros H; repeat destruct H as [H|H]; try discriminate H; exact H.
Qed.
Lemma sv_said : announces x_e4 x_cert.
Proof. split; [left; reflexivity|]. vm_compute. discriminate. Qed.
Lemma sv_announced : announced ([] ++ [x_e1; x_e2; x_e3; x_e4]) ([] ++ [x_cert]).
Proof.
  apply an_no; [apply sv_quiet; cbn; auto|]. apply an_no; [apply sv_quiet; cbn; auto|]. apply an_no; [apply sv_quiet; cbn; auto|].
  apply an_yes; [exact sv_said|constructor].
Qed.
Lemma sv_case : ca_history toy x_cfg (db_ops toy) ([] ++ [x_e1; x_e2; x_e3; x_e4]) (fst x_ca4) /\
  Forall (fun st => ~ restarts (h_ev st)) [x_e1; x_e2; x_e3; x_e4] /\ announced [x_e1; x_e2; x_e3; x_e4] ([] ++ x_cert :: []).
Proof. split; [exact x_h4|]. split; [repeat constructor; intros []|exact sv_announced]. Qed.
