(** Vocabulary for the statements about the encrypted payloads and secret codes. *)
From Verif Require Export CryptoHelpers Challenge Spec_Codec.
Local Open Scope N_scope.

(** The initialization vector an encrypted block shows on the wire; its random and counter parts. *)
Definition wire_iv (block : bytes) : option bytes :=
  match parse block with
  | Some els => match get T_InitializationVector els with Some t => Some (t_val t) | None => None end
  | None => None
  end.
Definition rand_part (iv : bytes) : bytes := firstn 8 iv.
Definition ctr_part (iv : bytes) : N := be_dec (firstn 4 (skipn 8 iv)).
(** Number of 16-byte blocks of a payload. *)
Definition blocks16 (payload : bytes) : N := (blen payload + 15) / 16.

(** One sender: a list of encryptions through one encryption-IV state.  Result: what each one put on the
    wire (nothing when it threw), and the final IV. *)
Record send : Type := Send { sd_key : bytes; sd_payload : bytes; sd_ad : bytes; sd_rnd : bytes }.
Fixpoint sends (E : env) (l : list send) (iv : bytes) : list (option bytes) * bytes :=
  match l with
  | [] => ([], iv)
  | s :: l' =>
      let (o, iv') := encode_aes E (sd_key s) (sd_payload s) (sd_ad s) iv (sd_rnd s) in
      let (os, ivf) := sends E l' iv' in
      ((match o with Ok b => Some b | _ => None end) :: os, ivf)
  end.
Definition emitted (E : env) (l : list send) (iv : bytes) : list bytes :=
  flat_map (fun o => match o with Some b => [b] | None => [] end) (fst (sends E l iv)).

(** One receiver: any blocks, in any order, presented to one decryption-IV state.  The receiver's own
    encryption IV may change between any two of them.  Result: the accepted blocks with their payloads. *)
Record recv : Type := Recv { rc_key : bytes; rc_block : bytes; rc_ad : bytes; rc_encIv : bytes }.
Fixpoint accepted (E : env) (l : list recv) (iv : bytes) : list (bytes * bytes) :=
  match l with
  | [] => []
  | r :: l' =>
      let (o, iv') := decode_aes E (rc_key r) (rc_block r) (rc_ad r) iv (rc_encIv r) in
      match o with
      | Ok pt => (rc_block r, pt) :: accepted E l' iv'
      | _ => accepted E l' iv'
      end
  end.

(** A conversation of two peers over a channel that delivers each direction in order: at any time either
    peer may send a payload (with any associated data both know), or receive the oldest undelivered block
    sent to it.  [cv_log]: for each received block the payload that was sent and what decryption gave. *)
Inductive cevent : Type := CSend (fromA : bool) (payload ad : bytes) | CRecv (atA : bool).
Record conv : Type := Conv {
  cv_eA : bytes; cv_dA : bytes; cv_eB : bytes; cv_dB : bytes;
  cv_toA : list (bytes * bytes * bytes); cv_toB : list (bytes * bytes * bytes);
  cv_log : list (bytes * res bytes)
}.
Definition conv0 : conv := Conv [] [] [] [] [] [] [].
(** [rA], [rB]: the random component each peer draws when it sends its first block. *)
Definition cstep (E : env) (key rA rB : bytes) (s : conv) (e : cevent) : conv :=
  match e with
  | CSend true p ad =>
      let (o, iv) := encode_aes E key p ad (cv_eA s) rA in
      Conv iv (cv_dA s) (cv_eB s) (cv_dB s) (cv_toA s)
           (cv_toB s ++ match o with Ok b => [(b, ad, p)] | _ => [] end) (cv_log s)
  | CSend false p ad =>
      let (o, iv) := encode_aes E key p ad (cv_eB s) rB in
      Conv (cv_eA s) (cv_dA s) iv (cv_dB s)
           (cv_toA s ++ match o with Ok b => [(b, ad, p)] | _ => [] end) (cv_toB s) (cv_log s)
  | CRecv true =>
      match cv_toA s with
      | [] => s
      | (b, ad, p) :: q =>
          let (o, iv) := decode_aes E key b ad (cv_dA s) (cv_eA s) in
          Conv (cv_eA s) iv (cv_eB s) (cv_dB s) q (cv_toB s) (cv_log s ++ [(p, o)])
      end
  | CRecv false =>
      match cv_toB s with
      | [] => s
      | (b, ad, p) :: q =>
          let (o, iv) := decode_aes E key b ad (cv_dB s) (cv_eB s) in
          Conv (cv_eA s) (cv_dA s) (cv_eB s) iv (cv_toA s) q (cv_log s ++ [(p, o)])
      end
  end.
Definition converse (E : env) (key rA rB : bytes) (l : list cevent) : conv := fold_left (cstep E key rA rB) l conv0.

(** The six decimal digits of a number below 10^6, most significant first. *)
Definition six_digits (k : N) : bytes :=
  map (fun d => byte_of_N (48 + d))
      [(k / 100000) mod 10; (k / 10000) mod 10; (k / 1000) mod 10; (k / 100) mod 10; (k / 10) mod 10; k mod 10].

(** Initialization vectors have 12 bytes. *)
Definition iv12 (iv : bytes) : Prop := length iv = 12%nat.

(** Payloads of less than about 64 GiB: the number of 16-byte blocks fits in 32 bits. *)
Definition small_payload (p : bytes) : Prop := blen p < 2 ^ 36 - 15.
Definition payload_fits (e : cevent) : Prop := match e with CSend _ p _ => fits p | CRecv _ => True end.
(** The payloads a peer sends in a conversation, and their total number of 16-byte blocks. *)
Definition sent_by (fromA : bool) (l : list cevent) : list bytes :=
  flat_map (fun e => match e with CSend a p _ => if Bool.eqb a fromA then [p] else [] | CRecv _ => [] end) l.
Definition total16 (ps : list bytes) : N := fold_right (fun p n => blocks16 p + n) 0 ps.

(** Order of two accepted blocks, each given with its payload: the later one carries the same random part,
    and a counter that leaves room for the blocks of the earlier one. *)
Definition after (x y : bytes * bytes) : Prop :=
  exists i j, wire_iv (fst x) = Some i /\ wire_iv (fst y) = Some j /\
    rand_part j = rand_part i /\ ctr_part i + blocks16 (snd x) mod 2 ^ 32 <= ctr_part j.
