(** Vocabulary for the statements about configuration files and stored profiles. *)
From Verif Require Export Spec_Policy CaConfig ProfileStorage.
Local Open Scope N_scope.

(** ** Reading a JSON tree *)
(** The first child with key [k]. *)
Definition first_child (j : ptree) (k : bytes) (t : ptree) : Prop :=
  exists a b, pt_children j = a ++ (k, t) :: b /\ ~ In k (map fst a).
Definition no_child (j : ptree) (k : bytes) : Prop := ~ In k (map fst (pt_children j)).
(** The text at key [k], empty if there is no such key. *)
Definition text (j : ptree) (k s : bytes) : Prop :=
  (exists t, first_child j k t /\ pt_data t = s) \/ (no_child j k /\ s = []).
(** The (key, value) list at key [k], empty if there is no such key. *)
Definition items (j : ptree) (k : bytes) (l : list (bytes * ptree)) : Prop :=
  (exists t, first_child j k t /\ pt_children t = l) \/ (no_child j k /\ l = []).

(** [b] is [a] with the letters A-Z (65-90) replaced by a-z. *)
Definition lower_of (a b : bytes) : Prop :=
  Forall2 (fun x y => Byte.to_N y = if (65 <=? Byte.to_N x) && (Byte.to_N x <=? 90) then Byte.to_N x + 32 else Byte.to_N x) a b.

(** Decimal numbers. *)
Inductive decimal : bytes -> N -> Prop :=
| dec_one : forall c d, Byte.to_N c = 48 + d -> d < 10 -> decimal [c] d
| dec_more : forall s n c d, decimal s n -> Byte.to_N c = 48 + d -> d < 10 -> decimal (s ++ [c]) (10 * n + d).
Definition PLUS : byte := x2b.
Definition MINUS : byte := x2d.
Definition int_text (s : bytes) (z : Z) : Prop :=
  (- 2 ^ 31 <= z < 2 ^ 31)%Z /\ exists ds n, decimal ds n /\ ((s = ds \/ s = PLUS :: ds) /\ z = Z.of_N n \/ s = MINUS :: ds /\ z = (- Z.of_N n)%Z).
(** Streams accept a minus sign for unsigned numbers, too, and negate modulo 2^64. *)
Definition size_text (s : bytes) (k : N) : Prop :=
  exists ds n, decimal ds n /\ n < 2 ^ 64 /\ ((s = ds \/ s = PLUS :: ds) /\ k = n \/ s = MINUS :: ds /\ (k + n) mod 2 ^ 64 = 0 /\ k < 2 ^ 64).

(** ** The fields of a CA profile *)
Record profile_read (E : env) (j : ptree) (p : profile) : Prop := {
  pr_prefix : exists s, text j (bs "ca-prefix") s /\ o_of_uri E s = Some (p_prefix p) /\ p_prefix p <> [];
  pr_fwd : exists s n, text j (bs "forwarding-hint") s /\ o_of_uri E s = Some n /\
    (n <> [] /\ p_fwd p = n \/ n = [] /\ p_fwd p = p_prefix p ++ [gc (bs "CA")]);
  pr_info : text j (bs "ca-info") (p_info p);
  pr_maxvalid : exists s, text j (bs "max-validity-period") s /\
    (int_text s (p_maxvalid p) \/ (forall z, ~ int_text s z) /\ p_maxvalid p = 86400%Z);
  pr_maxsuffix : exists s, text j (bs "max-suffix-length") s /\
    ((exists k, size_text s k /\ p_maxsuffix p = Some k) \/ (forall k, ~ size_text s k) /\ p_maxsuffix p = None);
  pr_keys : exists l, items j (bs "probe-parameters") l /\
    Forall2 (fun it k => exists s, text (snd it) (bs "probe-parameter-key") s /\ lower_of s k /\ k <> []) l (p_probe_keys p);
  pr_challenges : exists l, items j (bs "supported-challenges") l /\
    Forall2 (fun it k => exists s, text (snd it) (bs "challenge") s /\ lower_of s k /\ In k [bs "pin"; bs "email"; bs "possession"]) l (p_challenges p);
  pr_cert : exists s, text j (bs "certificate") s /\ (s = [] /\ p_cert p = None \/ s <> [] /\ p_cert p = io_load E s)
}.

(** ** The other sections of a CA configuration *)
Inductive policy_read : bytes -> bytes -> policy -> Prop :=
| pol_email : forall dom, policy_read (bs "email") dom (PEmail dom)
| pol_any : policy_read (bs "param") [] (PParam [])
| pol_param : forall pairs, pairs <> [] -> Forall (fun kv => free "="%byte (fst kv) /\ free "&"%byte (fst kv) /\ free "&"%byte (snd kv)) pairs ->
    policy_read (bs "param") (join "&"%byte (map (fun kv => fst kv ++ ["="%byte] ++ snd kv) pairs)) (PParam (mm_of pairs)).
(** The certificate is [None] if its text cannot be decoded. *)
Definition redirection_read (E : env) (t : ptree) (oc : option cert) (p : policy) : Prop :=
  (exists s, text t (bs "certificate") s /\ s <> [] /\ oc = io_load E s) /\
  (text t (bs "ca-prefix") [] \/
   exists s c n key, text t (bs "ca-prefix") s /\ s <> [] /\ oc = Some c /\ o_of_uri E s = Some n /\ c_name c = n ++ key /\ length key = 4%nat) /\
  (exists ty pa, text t (bs "policy-type") ty /\ text t (bs "policy-param") pa /\ policy_read ty pa p).
Inductive assign_read : bytes -> bytes -> assign -> Prop :=
| asg : forall type kind pieces, pieces <> [] -> Forall (free "/"%byte) pieces ->
    In (type, kind) [(bs "param", AParam); (bs "hash", AHash); (bs "email", AEmail); (bs "random", ARandom)] ->
    assign_read type (join "/"%byte pieces) (Assign kind (filter (fun p => negb (bytes_eqb p [])) pieces)).
Record config_read (E : env) (j : ptree) (c : config) : Prop := {
  cr_profile : profile_read E j (cf_profile c);
  cr_challenges : p_challenges (cf_profile c) <> [];
  cr_redirect : exists l, items j (bs "redirect-to") l /\ Forall2 (fun it rp => redirection_read E (snd it) (fst rp) (snd rp)) l (cf_redirect c);
  cr_assign : exists l, items j (bs "name-assignment") l /\ Forall2 (fun it a => assign_read (fst it) (pt_data (snd it)) a) l (cf_assign c)
}.

(** ** The requester's list of known CAs *)
Inductive store_op : Type := SAdd (p : profile) | SRemove (n : name).
Definition store_do (l : list profile) (op : store_op) : list profile :=
  match op with SAdd p => store_add p l | SRemove n => store_remove n l end.
Definition touches (n : name) (op : store_op) : Prop :=
  match op with SAdd p => p_prefix p = n | SRemove m => m = n end.
(** [p] is the last profile added for its prefix, and has not been removed since. *)
Definition last_added (ops : list store_op) (p : profile) : Prop :=
  exists a b, ops = a ++ SAdd p :: b /\ Forall (fun op => ~ touches (p_prefix p) op) b.
(** The call number [k] put prefix [n], then unknown, into the list, and it has stayed there. *)
Definition entered (ops : list store_op) (n : name) (k : nat) : Prop :=
  exists a p b, ops = a ++ SAdd p :: b /\ length a = k /\ p_prefix p = n /\
    (forall q, last_added a q -> p_prefix q <> n) /\ ~ In (SRemove n) b.
