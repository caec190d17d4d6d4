(** tools/ndncert-client.cpp: the callbacks of the command line client as a state machine. *)
From Verif Require Export Requester ProfileStorage.
Local Open Scope N_scope.

(** ** Key chain *)
(** An identity in the PIB of ndn-cxx (used at ndncert-client.cpp:112-163, 516-558, 590-617): its keys (name and private key) in iteration order, and its default key.  New keys
    are put last; the real order is by name, which only matters for the index the user reads and types. *)
Record ident : Type := Ident { id_name : name; id_keys : list (name * bytes); id_default : option name }.
Definition pib : Type := list ident.
(** [Pib::getIdentity]; [None]: throws. *)
Fixpoint pib_get (n : name) (p : pib) : option ident :=
  match p with
  | [] => None
  | i :: p' => if name_eqb (id_name i) n then Some i else pib_get n p'
  end.
(** Replaces the identity of that name. *)
Fixpoint pib_set (i : ident) (p : pib) : pib :=
  match p with
  | [] => []
  | j :: p' => if name_eqb (id_name j) (id_name i) then i :: p' else j :: pib_set i p'
  end.
(** [KeyChain::deleteIdentity], [KeyChain::deleteKey] *)
Definition pib_drop (n : name) (p : pib) : pib := filter (fun i => negb (name_eqb (id_name i) n)) p.
Definition drop_key (k : name) (i : ident) : ident :=
  Ident (id_name i) (filter (fun kv => negb (name_eqb (fst kv) k)) (id_keys i))
        (match id_default i with Some d => if name_eqb d k then None else Some d | None => None end).
(** [KeyChain::createKey]: the first key of an identity becomes its default. *)
Definition add_key (k : name * bytes) (i : ident) : ident :=
  Ident (id_name i) (id_keys i ++ [k]) (match id_default i with Some d => Some d | None => Some (fst k) end).
Definition find_key (n : name) (i : ident) : option (name * bytes) :=
  find (fun kv => name_eqb (fst kv) n) (id_keys i).

(** ** State *)
(** The static variables of ndncert-client.cpp:49-57; [cl_installed]: the certificates put into the key chain,
    newest first. *)
Record client : Type := Client {
  cl_trusted : option cert;
  cl_probe : option mmap;
  cl_req : option rstate;
  cl_pib : pib;
  cl_newid : name;
  cl_newkey : name;
  cl_installed : list cert
}.
Definition up_trusted v c := Client v (cl_probe c) (cl_req c) (cl_pib c) (cl_newid c) (cl_newkey c) (cl_installed c).
Definition up_probe v c := Client (cl_trusted c) v (cl_req c) (cl_pib c) (cl_newid c) (cl_newkey c) (cl_installed c).
Definition up_req v c := Client (cl_trusted c) (cl_probe c) v (cl_pib c) (cl_newid c) (cl_newkey c) (cl_installed c).
Definition up_pib v c := Client (cl_trusted c) (cl_probe c) (cl_req c) v (cl_newid c) (cl_newkey c) (cl_installed c).
Definition up_newid v c := Client (cl_trusted c) (cl_probe c) (cl_req c) (cl_pib c) v (cl_newkey c) (cl_installed c).
Definition up_newkey v c := Client (cl_trusted c) (cl_probe c) (cl_req c) (cl_pib c) (cl_newid c) v (cl_installed c).
Definition up_installed v c := Client (cl_trusted c) (cl_probe c) (cl_req c) (cl_pib c) (cl_newid c) (cl_newkey c) v.
Definition client_init (p : pib) : client := Client None None None p [] [] [].

(** Which callback the outstanding Interest has (ndncert-client.cpp:178, 193, 214, 278, 325, 374-384, 483-493); [full]: the name captured by the lambdas that call [infoCb]. *)
Inductive waiting : Type :=
| WMeta (full : name)
| WInfo (full : name)
| WProbe (p : profile)
| WNew
| WChallenge
| WCert.
(** What the process does next (ndncert-client.cpp:165-176, 590-617).  [NIdle]: nothing is outstanding, the event loop only waits for a signal;
    [NDone]: the event loop was stopped; [NExit]: [exit] was called; [NAbort]: an exception left [main]. *)
Inductive cnext : Type :=
| NWait (i : interest) (w : waiting)
| NIdle
| NDone
| NExit (code : N)
| NAbort
| NUB
| NHang.

(** Lines the user types, clock, random draws: [ci_key1], [ci_key2]: key ID and private key of the keys the
    key chain creates, in order; [ci_ecdh], [ci_id0]: see [request_init]. *)
Record cinputs : Type := CIn {
  ci_lines : list bytes;
  ci_now : Z;
  ci_ri : rinputs;
  ci_ecdh : bytes;
  ci_id0 : bytes;
  ci_key1 : comp * bytes;
  ci_key2 : comp * bytes
}.

(** ** User input *)
(** [getline] (ndncert-client.cpp:66, 98, 133, 250, 308, 359, 403, 447, 455): an empty line at the end of the input. *)
Definition next_line (ls : list bytes) : bytes * list bytes :=
  match ls with [] => ([], []) | l :: ls' => (l, ls') end.

(** [captureParams(multimap&)] (ndncert-client.cpp:59-73) *)
Fixpoint capture (m : mmap) (ls : list bytes) : mmap * list bytes :=
  match m with
  | [] => ([], ls)
  | (k, _) :: m' =>
      let (l, ls1) := next_line ls in
      let (r, ls2) := capture m' ls1 in ((k, l) :: r, ls2)
  end.
(** [captureParams(const std::vector&)] (ndncert-client.cpp:75-84) *)
Definition capture_list (keys : list bytes) (ls : list bytes) : mmap * list bytes :=
  capture (mm_of (map (fun k => (k, bs "Please input: " ++ k)) keys)) ls.

(** [std::stoul] (ndncert-client.cpp:100, 145, 252, 360, 404, 467): white space, a sign, digits; anything may follow.  [None]: throws. *)
Definition is_space (b : byte) : bool := let n := Byte.to_N b in (n =? 32) || ((9 <=? n) && (n <=? 13)).
Definition digit_of (b : byte) : option N :=
  let n := Byte.to_N b in if (48 <=? n) && (n <=? 57) then Some (n - 48) else None.
Fixpoint read_digits (acc : N) (s : bytes) : N :=
  match s with
  | [] => acc
  | b :: s' => match digit_of b with Some d => read_digits (10 * acc + d) s' | None => acc end
  end.
Fixpoint skip_space (s : bytes) : bytes :=
  match s with
  | [] => []
  | b :: s' => if is_space b then skip_space s' else s
  end.
Definition read_number (s : bytes) : option N :=
  match s with
  | [] => None
  | b :: _ => match digit_of b with
              | Some _ => let n := read_digits 0 s in if n <? 2 ^ 64 then Some n else None
              | None => None
              end
  end.
Definition stoul (s : bytes) : option N :=
  match skip_space s with
  | [] => None
  | b :: s' =>
      if Byte.to_N b =? 43 then read_number s'
      else if Byte.to_N b =? 45 then
        match read_number s' with Some n => Some (if n =? 0 then 0 else 2 ^ 64 - n) | None => None end
      else read_number (b :: s')
  end.

(** [captureValidityPeriod] (ndncert-client.cpp:86-109): three attempts; the unsigned long is narrowed to an
    [int].  [None]: exit(1). *)
Fixpoint capture_validity (n : nat) (ls : list bytes) : option Z * list bytes :=
  match n with
  | O => (None, ls)
  | S n' =>
      let (l, ls') := next_line ls in
      match stoul l with
      | Some v => (Some (to_i32 v), ls')
      | None => capture_validity n' ls'
      end
  end.

(** The loop that reads the index of a challenge (ndncert-client.cpp:248-269). *)
Fixpoint capture_index (n : nat) (count : nat) (ls : list bytes) : option nat * list bytes :=
  match n with
  | O => (None, ls)
  | S n' =>
      let (l, ls') := next_line ls in
      match stoul l with
      | Some v => if v <? N.of_nat count then (Some (N.to_nat v), ls') else capture_index n' count ls'
      | None => capture_index n' count ls'
      end
  end.
(** One attempt (ndncert-client.cpp:356-369, 400-413). *)
Definition capture_one (count : nat) (ls : list bytes) : option nat * list bytes := capture_index 1 count ls.

(** [int64_t] nanoseconds; [None]: signed overflow. *)
Definition i64_fits (z : Z) : bool := ((- 2 ^ 63 <=? z) && (z <? 2 ^ 63))%Z.

Section WithEnv.
  Context (E : env).

  (** [exit] (ndncert-client.cpp:108, 149, 169, 201, ...) *)
  Definition exits (c : client) (code : N) : client * cnext := (c, NExit code).
  (** An exception, undefined behaviour or endless loop that nothing catches. *)
  Definition falls {A} (c : client) (o : res A) : client * cnext :=
    (c, match o with Ok _ => NIdle | Exn => NAbort | UB => NUB | Hang => NHang end).

  (** [runChallenge] (ndncert-client.cpp:561-588).  [find(..)->second] of an absent key is undefined. *)
  Definition run_challenge (c : client) (s : rstate) (ci : cinputs) (ls : list bytes) (ctype : bytes) : client * cnext :=
    match select_challenge s ctype with
    | (Exn, s1) => exits (up_req (Some s1) c) 1
    | (Ok req, s1) =>
        let params : res mmap :=
          match req with
          | [] => Ok []
          | _ :: _ =>
              if (rs_status s1 =? ST_BEFORE) && bytes_eqb ctype K_EMAIL then
                match mm_find ctype req, (match cl_probe c with Some m => mm_find K_EMAIL m | None => None end) with
                | Some _, Some v => Ok (map (fun kv => if bytes_eqb (fst kv) ctype then (fst kv, v) else kv) req)
                | _, _ => UB
                end
              else Ok (fst (capture req ls))
          end in
        match params with
        | Ok ps =>
            match gen_challenge E s1 (ci_ri ci) ps with
            | (Ok i, s2) => (up_req (Some s2) c, NWait i WChallenge)
            | (o, s2) => falls (up_req (Some s2) c) o
            end
        | o => falls (up_req (Some s1) c) o
        end
    | (o, s1) => falls (up_req (Some s1) c) o
    end.

  (** [captureKeyName] (ndncert-client.cpp:111-163) for the identity [i]: the key and the changed state, or
      [None]: exit(1). *)
  Definition capture_key (c : client) (i : ident) (k2 : name * bytes) (ls : list bytes) : option (name * bytes) * client :=
    let (l, _) := next_line ls in
    if bytes_eqb (to_lower l) (bs "new") then
      (Some k2, up_newkey (fst k2) (up_pib (pib_set (add_key k2 i) (cl_pib c)) c))
    else match stoul l with
         | None => (None, c)
         | Some v => if N.of_nat (length (id_keys i)) <=? v then (None, c) else (nth_error (id_keys i) (N.to_nat v), c)
         end.

  (** [runNew] (ndncert-client.cpp:515-559) *)
  Definition run_new (c : client) (ci : cinputs) (ls : list bytes) (p : profile) (idn : name) : client * cnext :=
    match capture_validity 3 ls with
    | (None, _) => exits c 1
    | (Some hours, ls1) =>
        let c1 := up_req (Some (request_init p RT_NEW (ci_ecdh ci) (ci_id0 ci))) c in
        let s := request_init p RT_NEW (ci_ecdh ci) (ci_id0 ci) in
        let k1 := (idn ++ [c_KEY; fst (ci_key1 ci)], snd (ci_key1 ci)) in
        let k2 := (idn ++ [c_KEY; fst (ci_key2 ci)], snd (ci_key2 ci)) in
        (* the identity, created with a default key if it does not exist *)
        let (c2, i) :=
          match pib_get idn (cl_pib c1) with
          | Some i => (c1, i)
          | None => let i := Ident idn [k1] (Some (fst k1)) in (up_newid idn (up_pib (cl_pib c1 ++ [i]) c1), i)
          end in
        (* its default key *)
        let (c3, i2) :=
          match id_default i with
          | Some _ => (c2, i)
          | None => let i2 := add_key k1 i in (up_newkey (fst k1) (up_pib (pib_set i2 (cl_pib c2)) c2), i2)
          end in
        let (ok, c4) :=
          match cl_newid c3 with
          | [] => capture_key c3 i2 k2 ls1
          | _ :: _ => (match id_default i2 with Some d => find_key d i2 | None => None end, c3)
          end in
        match ok with
        | None => exits c4 1
        | Some (kn, sk) =>
            let na := (ci_now ci + sec (hours * 3600))%Z in
            if i64_fits (sec (hours * 3600)) && i64_fits na then
              match gen_new E s (ci_ri ci) kn sk (ci_now ci) na with
              | (Ok (Some x), s1) => (up_req (Some s1) c4, NWait x WNew)
              | (Ok None, s1) => (up_req (Some s1) c4, NIdle)
              | (o, s1) => falls (up_req (Some s1) c4) o
              end
            else (c4, NUB)
        end
    end.

  (** [runProbe] (ndncert-client.cpp:496-513): the parameters are asked for once, in the first call. *)
  Definition lower_first (k : bytes) : mmap -> mmap :=
    fix go m := match m with
                | [] => []
                | (k', v) :: m' => if bytes_eqb k k' then (k', to_lower v) :: m' else (k', v) :: go m'
                end.
  Definition run_probe (c : client) (ls : list bytes) (p : profile) : client * cnext :=
    let m := match cl_probe c with
             | Some m => m
             | None => lower_first K_EMAIL (fst (capture_list (p_probe_keys p) ls))
             end in
    (up_probe (Some m) c, NWait (gen_probe E p m) (WProbe p)).

  (** The Interest for profile discovery (ndncert-client.cpp:375, 484); called outside any [try]. *)
  Definition discover (c : client) (ca full : name) : client * cnext :=
    match gen_discovery ca with
    | Ok i => (c, NWait i (WMeta full))
    | o => falls c o
    end.

  (** [selectCaProfile] (ndncert-client.cpp:425-494); [file]: the tree in the configuration file. *)
  Definition client_start (file : option ptree) (p : pib) (ci : cinputs) : client * cnext :=
    let c := client_init p in
    match store_load E file with
    | Ok known =>
        let (l, ls) := next_line (ci_lines ci) in
        if bytes_eqb (to_lower l) (bs "none") then
          match o_of_uri E (fst (next_line ls)) with
          | Some n => discover c n []
          | None => exits c 1
          end
        else match stoul l with
             | None => exits c 1
             | Some v =>
                 if N.of_nat (length known) <=? v then exits c 1
                 else match nth_error known (N.to_nat v) with
                      | Some q => discover (up_trusted (p_cert q) c) (p_prefix q) []
                      | None => exits c 1
                      end
             end
    | Exn => exits c 1
    | o => falls c o
    end.

  (** The lambda that gets the metadata (ndncert-client.cpp:376-382, 485-491): no signature is checked. *)
  Definition meta_cb (c : client) (full : name) (d : data) : client * cnext :=
    match gen_profile_interest d with
    | Ok i => (c, NWait i (WInfo full))
    | o => falls c o
    end.

  (** [infoCb] (ndncert-client.cpp:278-323) *)
  Definition info_cb (c : client) (ci : cinputs) (full : name) (d : data) : client * cnext :=
    let o := match full with
             | [] => match cl_trusted c with
                     | Some t => if verify_data E d t then on_profile E d else Exn
                     | None => on_profile E d
                     end
             | _ :: _ => on_profile_redirected E d full
             end in
    match o with
    | Ok p =>
        match cl_trusted c with
        | None =>
            let (l, ls) := next_line (ci_lines ci) in
            if bytes_eqb (to_lower l) (bs "yes") then run_probe (up_trusted (p_cert p) c) ls p else exits c 0
        | Some _ => run_probe c (ci_lines ci) p
        end
    | Exn => (c, NIdle)
    | o => falls c o
    end.

  (** [security::extractIdentityFromCertName(full.getPrefix(-1))] (ndncert-client.cpp:372); throws unless it is a certificate name. *)
  Definition ca_of_full (full : name) : res name :=
    let n := prefix_neg 1 full in if valid_cert_name n then Ok (identity_of n) else Exn.
  (** The list of redirections is printed before one is chosen. *)
  Fixpoint all_cas (l : list name) : res unit :=
    match l with
    | [] => Ok tt
    | f :: l' => do _ <- ca_of_full f; all_cas l'
    end.
  (** ndncert-client.cpp:372-384 *)
  Definition redirect_to (c : client) (full : name) : client * cnext :=
    match ca_of_full full with
    | Ok ca => discover c ca full
    | o => falls c o
    end.

  (** [probeCb] (ndncert-client.cpp:325-423) *)
  Definition probe_cb (c : client) (ci : cinputs) (p : profile) (d : data) : client * cnext :=
    match on_probe_response E d p with
    | Ok (names, redirects) =>
        match redirects with
        | [f] => redirect_to c f
        | _ :: _ :: _ =>
            match all_cas redirects with
            | Ok _ =>
                match capture_one (length redirects) (ci_lines ci) with
                | (None, _) => exits c 1
                | (Some k, _) => match nth_error redirects k with Some f => redirect_to c f | None => (c, NUB) end
                end
            | o => falls c o
            end
        | [] =>
            match names with
            | [] => exits c 1
            | [(n, _)] => run_new c ci (ci_lines ci) p n
            | _ :: _ :: _ =>
                match capture_one (length names) (ci_lines ci) with
                | (None, _) => exits c 1
                | (Some k, ls) => match nth_error names k with Some (n, _) => run_new c ci ls p n | None => (c, NUB) end
                end
            end
        end
    | Exn => exits c 1
    | o => falls c o
    end.

  (** [newCb] (ndncert-client.cpp:214-276) *)
  Definition new_cb (c : client) (ci : cinputs) (d : data) : client * cnext :=
    match cl_req c with
    | None => (c, NUB)
    | Some s =>
        match on_new_response E s (ci_ri ci) d with
        | (Ok chals, s1) =>
            let c1 := up_req (Some s1) c in
            match chals with
            | [] => exits c1 1
            | _ :: _ =>
                if existsb (bytes_eqb K_EMAIL) chals then run_challenge c1 s1 ci (ci_lines ci) K_EMAIL
                else match capture_index 3 (length chals) (ci_lines ci) with
                     | (None, _) => exits c1 1
                     | (Some k, ls) =>
                         match nth_error chals k with
                         | Some t => run_challenge c1 s1 ci ls t
                         | None => (c1, NUB)
                         end
                     end
            end
        | (Exn, s1) => exits (up_req (Some s1) c) 1
        | (o, s1) => falls (up_req (Some s1) c) o
        end
    end.

  (** [challengeCb] (ndncert-client.cpp:193-212); the forwarding hint of the Interest is left out. *)
  Definition challenge_cb (c : client) (ci : cinputs) (d : data) : client * cnext :=
    match cl_req c with
    | None => (c, NUB)
    | Some s =>
        match on_challenge_response E s (ci_ri ci) d with
        | (Ok _, s1) =>
            let c1 := up_req (Some s1) c in
            if rs_status s1 =? ST_SUCCESS then (c1, NWait (fst (gen_cert_fetch s1)) WCert)
            else run_challenge c1 s1 ci (ci_lines ci) (rs_ctype s1)
        | (Exn, s1) => exits (up_req (Some s1) c) 1
        | (o, s1) => falls (up_req (Some s1) c) o
        end
    end.

  (** [certFetchCb] (ndncert-client.cpp:178-191).  [KeyChain::addCertificate] throws unless the certificate is
      for the name and the public key of the key; nothing is caught. *)
  Definition cert_cb (c : client) (d : cert) : client * cnext :=
    match on_cert_fetch d with
    | Ok item =>
        match pib_get (identity_of (c_name item)) (cl_pib c) with
        | None => (c, NAbort)
        | Some i =>
            match find_key (key_name_of (c_name item)) i with
            | None => (c, NAbort)
            | Some (_, sk) =>
                if bytes_eqb (public_key item) (o_pub E sk) then (up_installed (item :: cl_installed c) c, NDone)
                else (c, NAbort)
            end
        end
    | o => falls c o
    end.

  (** [handleSignal] (ndncert-client.cpp:590-617) *)
  Definition handle_signal (c : client) : client * cnext :=
    match cl_req c with
    | None => exits c 1
    | Some _ =>
        match cl_newid c, cl_newkey c with
        | _ :: _, _ => match pib_get (cl_newid c) (cl_pib c) with
                       | Some _ => exits (up_pib (pib_drop (cl_newid c) (cl_pib c)) c) 1
                       | None => (c, NAbort)
                       end
        | [], _ :: _ => match pib_get (prefix_neg 2 (cl_newkey c)) (cl_pib c) with
                        | Some i => exits (up_pib (pib_set (drop_key (cl_newkey c) i) (cl_pib c)) c) 1
                        | None => (c, NAbort)
                        end
        | [], [] => exits c 1
        end
    end.

  (** ** Runs *)
  (** [CData], [CCert]: the Data packet for the outstanding Interest; the face hands over only packets with a
      matching name. *)
  Inductive clevent : Type :=
  | CData (d : data)
  | CCert (d : cert)
  | CNack
  | CTimeout
  | CSignal.
  Definition matches (i : interest) (w : waiting) (ev : clevent) : Prop :=
    match ev, w with
    | CData d, WMeta _ => is_prefix (i_name i) (d_name d) = true
    | CData d, (WInfo _ | WProbe _ | WNew | WChallenge) => d_name d = i_name i
    | CCert d, WCert => c_name d = i_name i \/ full_name E d = i_name i
    | (CNack | CTimeout | CSignal), _ => True
    | _, _ => False
    end.
  (** [onNackCb], [timeoutCb] (ndncert-client.cpp:165-176) *)
  Definition client_step (c : client) (w : waiting) (ci : cinputs) (ev : clevent) : client * cnext :=
    match ev, w with
    | CData d, WMeta full => meta_cb c full d
    | CData d, WInfo full => info_cb c ci full d
    | CData d, WProbe p => probe_cb c ci p d
    | CData d, WNew => new_cb c ci d
    | CData d, WChallenge => challenge_cb c ci d
    | CData _, WCert => (c, NAbort)
    | CCert d, WCert => cert_cb c d
    | CCert _, _ => (c, NAbort)
    | CNack, _ => exits c 1
    | CTimeout, _ => (c, NIdle)
    | CSignal, _ => handle_signal c
    end.
  (** A run: newest event first. *)
  Inductive client_run (file : option ptree) (p : pib) : list (cinputs * option clevent) -> client -> cnext -> Prop :=
  | run_start : forall ci c nx, client_start file p ci = (c, nx) -> client_run file p [(ci, None)] c nx
  | run_event : forall h c i w ci ev c' nx, client_run file p h c (NWait i w) -> matches i w ev -> client_step c w ci ev = (c', nx) ->
      client_run file p ((ci, Some ev) :: h) c' nx
  | run_idle_signal : forall h c ci c' nx, client_run file p h c NIdle -> handle_signal c = (c', nx) ->
      client_run file p ((ci, Some CSignal) :: h) c' nx.
End WithEnv.
