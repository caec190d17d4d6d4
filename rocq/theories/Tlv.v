(** NDN TLV, as implemented by ndn-cxx ([ndn/encoding/tlv.hpp], [block.hpp], [block-helpers.hpp]);
    external to /repo.  ndncert reaches it through [Block], [Block::parse], [Block::get],
    [makeStringBlock], [makeBinaryBlock], [makeNonNegativeIntegerBlock], [makeNestedBlock],
    [readString], [readNonNegativeInteger]. *)
From Verif Require Export Outcome.
Local Open Scope N_scope.

(** A TLV element: TLV-TYPE and TLV-VALUE.  (The length encoding used on the wire is not kept.) *)
Record tlv : Type := Tlv { t_type : N; t_val : bytes }.

(** [tlv::writeVarNumber] *)
Definition enc_var (n : N) : bytes :=
  if n <? 253 then [byte_of_N n]
  else if n <=? 65535 then byte_of_N 253 :: be_enc 2 n
  else if n <=? 4294967295 then byte_of_N 254 :: be_enc 4 n
  else byte_of_N 255 :: be_enc 8 n.

Definition take_be (k : nat) (b : bytes) : option (N * bytes) :=
  if Nat.leb k (length b) then Some (be_dec (firstn k b), skipn k b) else None.

(** [tlv::readVarNumber]; [None] = throws.  No minimality check. *)
Definition dec_var (b : bytes) : option (N * bytes) :=
  match b with
  | [] => None
  | x :: b' =>
      let n := Byte.to_N x in
      if n <? 253 then Some (n, b')
      else if n =? 253 then take_be 2 b'
      else if n =? 254 then take_be 4 b'
      else take_be 8 b'
  end.

Definition max_type : N := 4294967295.

(** One TLV at the head of a buffer: [tlv::readType] (rejects 0 and anything above 32 bits),
    [tlv::readVarNumber], and the check that the length does not exceed the buffer. *)
Definition dec_elem (b : bytes) : option (tlv * bytes) :=
  match dec_var b with
  | None => None
  | Some (ty, b1) =>
      if (ty =? 0) || (max_type <? ty) then None
      else match dec_var b1 with
           | None => None
           | Some (len, b2) =>
               if blen b2 <? len then None
               else Some (Tlv ty (firstn (N.to_nat len) b2), skipn (N.to_nat len) b2)
           end
  end.

(** [Block::parse]: the sub-elements of a TLV-VALUE ([None] = throws).  An element takes at least two
    bytes, so [length b] is enough fuel ([TlvFacts.parse_step]). *)
Fixpoint parse_fuel (fuel : nat) (b : bytes) : option (list tlv) :=
  match b with
  | [] => Some []
  | _ :: _ =>
      match fuel with
      | O => None
      | S f =>
          match dec_elem b with
          | None => None
          | Some (t, rest) =>
              match parse_fuel f rest with
              | None => None
              | Some l => Some (t :: l)
              end
          end
      end
  end.
Definition parse (b : bytes) : option (list tlv) := parse_fuel (length b) b.

(** [Block::encode] / [wireEncode] *)
Definition enc_tlv (t : tlv) : bytes :=
  enc_var (t_type t) ++ enc_var (blen (t_val t)) ++ t_val t.
Fixpoint enc_tlvs (l : list tlv) : bytes :=
  match l with [] => [] | t :: l' => enc_tlv t ++ enc_tlvs l' end.

(** [Block::get(type)]: first sub-element of that type, throws if there is none. *)
Fixpoint get (ty : N) (l : list tlv) : option tlv :=
  match l with
  | [] => None
  | t :: l' => if t_type t =? ty then Some t else get ty l'
  end.

(** [Block::blockFromValue]: the TLV-VALUE must be exactly one TLV. *)
Definition block_from_value (b : bytes) : option tlv :=
  match dec_elem b with
  | Some (t, []) => Some t
  | _ => None
  end.

(** [makeNonNegativeIntegerBlock]: shortest of 1, 2, 4, 8 bytes. *)
Definition nni_enc (n : N) : bytes :=
  if n <=? 255 then be_enc 1 n
  else if n <=? 65535 then be_enc 2 n
  else if n <=? 4294967295 then be_enc 4 n
  else be_enc 8 n.
(** [readNonNegativeInteger] *)
Definition nni_dec (b : bytes) : option N :=
  match length b with
  | 1%nat | 2%nat | 4%nat | 8%nat => Some (be_dec b)
  | _ => None
  end.

(** [ndn::tlv::isCriticalType] *)
Definition is_critical (ty : N) : bool := (ty <=? 31) || N.odd ty.

(** Encodable elements: type in range and length below 2^64. *)
Definition wf_tlv (t : tlv) : Prop :=
  0 < t_type t /\ t_type t <= max_type /\ blen (t_val t) < 2 ^ 64.

(** ndn-cxx TLV numbers used by ndncert *)
Definition T_ImplicitDigest := 1.
Definition T_ParamsDigest := 2.
Definition T_Data := 6.
Definition T_Name := 7.
Definition T_Generic := 8.
Definition T_Content := 21.
Definition T_ForwardingHint := 30.
Definition T_Keyword := 32.
Definition T_AppParams := 36.
Definition T_Segment := 50.
Definition T_Version := 54.

(** src/detail/ndncert-common.hpp:73-100 *)
Definition T_CaPrefix := 129.
Definition T_CaInfo := 131.
Definition T_ParameterKey := 133.
Definition T_ParameterValue := 135.
Definition T_CaCertificate := 137.
Definition T_MaxValidityPeriod := 139.
Definition T_ProbeResponse := 141.
Definition T_MaxSuffixLength := 143.
Definition T_EcdhPub := 145.
Definition T_CertRequest := 147.
Definition T_Salt := 149.
Definition T_RequestId := 151.
Definition T_Challenge := 153.
Definition T_Status := 155.
Definition T_InitializationVector := 157.
Definition T_EncryptedPayload := 159.
Definition T_SelectedChallenge := 161.
Definition T_ChallengeStatus := 163.
Definition T_RemainingTries := 165.
Definition T_RemainingTime := 167.
Definition T_IssuedCertName := 169.
Definition T_ErrorCode := 171.
Definition T_ErrorInfo := 173.
Definition T_AuthenticationTag := 175.
Definition T_CertToRevoke := 177.
Definition T_ProbeRedirect := 179.
