(** Vocabulary for what the client does with the choices the user types. *)
From Verif Require Export Spec_ClientEnd Spec_ClientSession Spec_Accept.
Local Open Scope N_scope.

(** The line typed after [j] others; empty at the end of the input. *)
Definition typed (ls : list bytes) (j : nat) : bytes := nth j ls [].
(** Of the next [tries] lines the one after [j] others is the first with an admissible number, [v]. *)
Definition settles (ls : list bytes) (tries : nat) (admissible : N -> Prop) (j : nat) (v : N) : Prop :=
  (j < tries)%nat /\ number_line (typed ls j) v /\ admissible v /\ forall i w, (i < j)%nat -> number_line (typed ls i) w -> ~ admissible w.
(** None of them has. *)
Definition unsettled (ls : list bytes) (tries : nat) (admissible : N -> Prop) : Prop :=
  forall i w, (i < tries)%nat -> number_line (typed ls i) w -> ~ admissible w.
Definition below (n : nat) (v : N) : Prop := v < N.of_nat n.
Definition any (v : N) : Prop := True.

(** The only item of a list, or the one whose number is typed; the lines that are left. *)
Inductive picked {A : Type} (ls : list bytes) : list A -> A -> list bytes -> Prop :=
| pd_only : forall a, picked ls [a] a ls
| pd_typed : forall l a v, (1 < length l)%nat -> number_line (typed ls 0) v -> nth_error l (N.to_nat v) = Some a -> picked ls l a (skipn 1 ls).

(** The keys of an identity that the user can choose from: one is created if there is no default key. *)
Definition keys_shown (ci : cinputs) (i : ident) : list (name * bytes) :=
  id_keys i ++ match id_default i with Some _ => [] | None => [(id_name i ++ [gc (bs "KEY"); fst (ci_key1 ci)], snd (ci_key1 ci))] end.
(** The key of the identity, in the key chain [pb]: the first one of a new identity, or as the user types "new" or
    the number of a key. *)
Inductive key_picked (pb : pib) (ci : cinputs) (ls : list bytes) (identity : name) : name -> bytes -> Prop :=
| kp_identity : pib_get identity pb = None -> key_picked pb ci ls identity (identity ++ [gc (bs "KEY"); fst (ci_key1 ci)]) (snd (ci_key1 ci))
| kp_new : forall i, pib_get identity pb = Some i -> lower_of (typed ls 0) (bs "new") ->
    key_picked pb ci ls identity (identity ++ [gc (bs "KEY"); fst (ci_key2 ci)]) (snd (ci_key2 ci))
| kp_listed : forall i v kn sk, pib_get identity pb = Some i -> number_line (typed ls 0) v -> nth_error (keys_shown ci i) (N.to_nat v) = Some (kn, sk) ->
    key_picked pb ci ls identity kn sk.

(** The Interest that discovers the profile of a CA. *)
Definition discovers (ca : name) (x : interest) : Prop :=
  exists ca0 last, ca = ca0 ++ [last] /\
    (t_val last = bs "CA" -> i_name x = ca ++ [gc (bs "INFO"); Tlv 32 (bs "metadata")]) /\
    (t_val last <> bs "CA" -> i_name x = ca ++ [gc (bs "CA"); gc (bs "INFO"); Tlv 32 (bs "metadata")]).
(** The full name of a certificate of the CA. *)
Definition full_of (ca full : name) : Prop := exists kid issuer version digest, full = ca ++ [gc (bs "KEY"); kid; issuer; version; digest].

(** A reply that verifies and carries no error. *)
Definition good_reply (E : env) (p : profile) (d : data) : Prop := exists k, p_cert p = Some k /\ ~ bad_reply E k d.

(** The replies and lines that make the client give up. *)
Inductive gives_up (E : env) (pb : pib) (c : client) (ci : cinputs) (d : data) : waiting -> Prop :=
| gu_nothing : forall p, good_reply E p d -> probe_reads (d_content d) [] [] -> gives_up E pb c ci d (WProbe p)
| gu_redirect : forall p names redirects, good_reply E p d -> probe_reads (d_content d) names redirects -> (1 < length redirects)%nat ->
    Forall (fun full => exists ca, full_of ca full) redirects -> unsettled (ci_lines ci) 1 (below (length redirects)) -> gives_up E pb c ci d (WProbe p)
| gu_name : forall p names, good_reply E p d -> probe_reads (d_content d) names [] -> (1 < length names)%nat ->
    unsettled (ci_lines ci) 1 (below (length names)) -> gives_up E pb c ci d (WProbe p)
| gu_hours : forall p names n z ls, good_reply E p d -> probe_reads (d_content d) names [] -> picked (ci_lines ci) names (n, z) ls ->
    unsettled ls 3 any -> gives_up E pb c ci d (WProbe p)
| gu_key : forall p names n z ls j v i, good_reply E p d -> probe_reads (d_content d) names [] -> picked (ci_lines ci) names (n, z) ls ->
    settles ls 3 any j v -> pib_get n pb = Some i -> ~ lower_of (typed (skipn (S j) ls) 0) (bs "new") ->
    unsettled (skipn (S j) ls) 1 (below (length (keys_shown ci i))) -> gives_up E pb c ci d (WProbe p)
| gu_challenge : forall s chals s', cl_req c = Some s -> on_new_response E s (ci_ri ci) d = (Ok chals, s') -> ~ In (bs "email") chals ->
    unsettled (ci_lines ci) 3 (below (length chals)) -> gives_up E pb c ci d WNew.
