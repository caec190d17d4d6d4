(** Numbers narrowed to the C++ types. *)
From Coq Require Import Lia.
From Verif Require Export Spec_Accept Spec_Storage.
Local Open Scope Z_scope.

Lemma wrap_held : forall k n, 0 < k -> let z := n mod 2 ^ k in held k n (if z <? 2 ^ (k - 1) then z else z - 2 ^ k).
Proof.
  intros k n K z. assert (P : 2 ^ k = 2 * 2 ^ (k - 1)) by (rewrite <- Z.pow_succ_r by lia; f_equal; lia).
  assert (B : 0 <= z < 2 ^ k) by (apply Z.mod_pos_bound; apply Z.pow_pos_nonneg; lia).
  pose proof (Z.div_mod n (2 ^ k) ltac:(lia)) as D. fold z in D. unfold held.
  destruct (Z.ltb_spec z (2 ^ (k - 1))); (split; [lia|]).
  - exists (- (n / 2 ^ k)). nia.
  - exists (- (n / 2 ^ k) - 1). nia.
Qed.
Lemma i32_held : forall n, held 32 (Z.of_N n) (to_i32 n).
Proof. intros n. exact (wrap_held 32 (Z.of_N n) ltac:(lia)). Qed.
Lemma i64_held : forall n, held 64 (Z.of_N n) (to_i64 n).
Proof. intros n. exact (wrap_held 64 (Z.of_N n) ltac:(lia)). Qed.
Lemma i32_of_Z_held : forall z, held 32 z (i32_of_Z z).
Proof. intros z. exact (wrap_held 32 z ltac:(lia)). Qed.
Lemma held_one : forall k n a b, 0 < k -> held k n a -> held k n b -> a = b.
Proof.
  intros k n a b K [A (q & Q)] [B (p & P)]. assert (2 ^ k = 2 * 2 ^ (k - 1)) by (rewrite <- Z.pow_succ_r by lia; f_equal; lia).
  assert (q = p) by nia. subst. reflexivity.
Qed.
Lemma as_held : forall v, (forall z, as_i32 v z <-> exists n, nni_dec v = Some n /\ held 32 (Z.of_N n) z) /\ (forall z, as_i64 v z <-> exists n, nni_dec v = Some n /\ held 64 (Z.of_N n) z).
Proof.
  intros v. split; intros z; (split; [intros (n & N & ->); exists n; split; [exact N|]; first [apply i32_held|apply i64_held]|intros (n & N & H); exists n; split; [exact N|]]).
  - exact (held_one 32 _ _ _ ltac:(lia) H (i32_held n)).
  - exact (held_one 64 _ _ _ ltac:(lia) H (i64_held n)).
Qed.
Lemma suffix_held : forall k, held 32 (Z.of_N k) (narrow_suffix (Some k)).
Proof. exact i32_held. Qed.

Lemma db_stored_loses : forall r, rq_prefix (db_stored r) = rq_prefix r /\ rq_id (db_stored r) = rq_id r /\ rq_type (db_stored r) = rq_type r /\ rq_status (db_stored r) = rq_status r /\
  rq_cert (db_stored r) = rq_cert r /\ rq_key (db_stored r) = rq_key r /\ rq_eiv (db_stored r) = rq_eiv r /\ rq_div (db_stored r) = rq_div r /\ rq_ctype (db_stored r) = rq_ctype r /\
  match rq_cs r with
  | None => rq_cs (db_stored r) = None
  | Some cs => exists cs', rq_cs (db_stored r) = Some cs' /\ cs_status cs' = cs_status cs /\ cs_tries cs' = cs_tries cs /\ cs_secrets cs' = cs_secrets cs /\
      held 32 (cs_rtime cs) (cs_rtime cs') /\ (exists us, cs_time cs' = us * 1000) /\ (0 <= cs_time cs -> cs_time cs - 1000 < cs_time cs' <= cs_time cs)
  end.
Proof.
  intros r. do 9 (split; [reflexivity|]). unfold db_stored. destruct (rq_cs r) as [cs|]; [|reflexivity]. eexists. split; [reflexivity|]. do 3 (split; [reflexivity|]).
  split; [apply i32_of_Z_held|]. cbn [cs_time]. unfold trunc_us. split; [eexists; reflexivity|]. intros P. pose proof (Z.quot_rem (cs_time cs) 1000 ltac:(lia)) as Q. pose proof (Z.rem_bound_pos (cs_time cs) 1000 P ltac:(lia)). lia.
Qed.
