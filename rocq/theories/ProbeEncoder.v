(** src/detail/probe-encoder.cpp *)
From Verif Require Export Types.
Local Open Scope N_scope.

(** [probetlv::encodeApplicationParameters] (probe-encoder.cpp:25-35): the value of the
    ApplicationParameters block. *)
Definition probe_params_encode (m : mmap) : bytes :=
  enc_tlvs (flat_map (fun kv => [Tlv T_ParameterKey (fst kv); Tlv T_ParameterValue (snd kv)]) m).

(** [probetlv::decodeApplicationParameters] (probe-encoder.cpp:37-57) *)
Fixpoint probe_params_loop (l : list tlv) (m : mmap) : res mmap :=
  match l with
  | [] => Ok m
  | a :: l1 =>
      match l1 with
      | b :: l2 =>
          if (t_type a =? T_ParameterKey) && (t_type b =? T_ParameterValue)
          then probe_params_loop l2 (mm_insert (t_val a) (t_val b) m)
          else if is_critical (t_type a) then Exn
          else probe_params_loop l1 m
      | [] => if is_critical (t_type a) then Exn else Ok m
      end
  end.
Definition probe_params_decode (b : bytes) : res mmap :=
  do els <- of_opt (parse b); probe_params_loop els [].

(** [probetlv::encodeDataContent] (probe-encoder.cpp:59-79) *)
Definition probe_encode (ids : list name) (max : option N) (redirects : list name) : bytes :=
  enc_tlvs (map (fun n => Tlv T_ProbeResponse
                            (enc_tlvs (name_tlv n ::
                               match max with
                               | Some k => [Tlv T_MaxSuffixLength (nni_enc k)]
                               | None => []
                               end))) ids
            ++ map (fun n => Tlv T_ProbeRedirect (name_wire n)) redirects).

(** The inner loop of [probetlv::decodeDataContent] (probe-encoder.cpp:91-107). *)
Fixpoint probe_item_loop (l : list tlv) (st : name * Z) : res (name * Z) :=
  match l with
  | [] => Ok st
  | t :: l' =>
      if t_type t =? T_Name then
        match fst st with
        | [] => do n <- of_opt (name_decode t); probe_item_loop l' (n, snd st)
        | _ :: _ => Exn
        end
      else if t_type t =? T_MaxSuffixLength then
        do k <- of_opt (nni_dec (t_val t)); probe_item_loop l' (fst st, to_i32 k)
      else if is_critical (t_type t) then Exn
      else probe_item_loop l' st
  end.

(** [probetlv::decodeDataContent] (probe-encoder.cpp:81-123); the result is what is appended to
    [availableNames] and [availableRedirection]. *)
Fixpoint probe_loop (l : list tlv) (st : list (name * Z) * list name) : res (list (name * Z) * list name) :=
  match l with
  | [] => Ok st
  | t :: l' =>
      if t_type t =? T_ProbeResponse then
        do els <- of_opt (parse (t_val t));
        do nz <- probe_item_loop els ([], 0%Z);
        match fst nz with
        | [] => Exn
        | _ :: _ => probe_loop l' (fst st ++ [nz], snd st)
        end
      else if t_type t =? T_ProbeRedirect then
        do blk <- of_opt (block_from_value (t_val t));
        do n <- of_opt (name_decode blk);
        probe_loop l' (fst st, snd st ++ [n])
      else if is_critical (t_type t) then Exn
      else probe_loop l' st
  end.
Definition probe_decode (b : bytes) : res (list (name * Z) * list name) :=
  do els <- of_opt (parse b); probe_loop els ([], []).
