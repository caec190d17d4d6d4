(** NDN names, components and certificate names, as implemented by ndn-cxx ([ndn::Name],
    [ndn::name::Component], [ndn::security::Certificate]); external to /repo. *)
From Verif Require Export Tlv.
Local Open Scope N_scope.

(** A component is a TLV (its type and value); a name is the list of its components. *)
Definition comp : Type := tlv.
Definition name : Type := list comp.

(** [name::Component(string)] / [Name::append] of a string or of bytes:
    a GenericNameComponent with that value. *)
Definition gc (v : bytes) : comp := Tlv T_Generic v.

Definition comp_eqb (a b : comp) : bool := (t_type a =? t_type b) && bytes_eqb (t_val a) (t_val b).

(** [Name::operator==] *)
Fixpoint name_eqb (a b : name) : bool :=
  match a, b with
  | [], [] => true
  | x :: a', y :: b' => comp_eqb x y && name_eqb a' b'
  | _, _ => false
  end.

(** [Name::isPrefixOf] *)
Fixpoint is_prefix (a b : name) : bool :=
  match a, b with
  | [], _ => true
  | x :: a', y :: b' => comp_eqb x y && is_prefix a' b'
  | _ :: _, [] => false
  end.

(** The Name TLV. *)
Definition name_tlv (n : name) : tlv := Tlv T_Name (enc_tlvs n).
Definition name_wire (n : name) : bytes := enc_tlv (name_tlv n).

(** [Name(const Block&)] / [Name::wireDecode]: type must be 7, the components are parsed. *)
Definition name_decode (t : tlv) : option name :=
  if t_type t =? T_Name then parse (t_val t) else None.

(** [Name::getPrefix(-k)]: drops the last [k] components.  For a shorter name [size()-k] wraps to a
    huge [size_t] and [getSubName] returns the whole name. *)
Definition prefix_neg (k : nat) (n : name) : name :=
  if Nat.leb k (length n) then firstn (length n - k) n else n.

(** [Name::get(-k)]; [None] when out of range. *)
Definition get_neg (k : nat) (n : name) : option comp :=
  if Nat.leb k (length n) then nth_error n (length n - k) else None.

Definition c_KEY : comp := gc (bs "KEY").

(** [Certificate::isValidName]: /<identity>/KEY/<key id>/<issuer>/<version>. *)
Definition valid_cert_name (n : name) : bool :=
  match get_neg 4 n with Some c => comp_eqb c c_KEY | None => false end.

(** [security::extractIdentityFromKeyName] is [getPrefix(-2)] after a check; certificate key name
    and identity are prefixes of the certificate name ([Certificate::getKeyName/getIdentity]). *)
Definition key_name_of (n : name) : name := prefix_neg 2 n.
Definition identity_of (n : name) : name := prefix_neg 4 n.

(** A component as a version: [Component::fromVersion]. *)
Definition version_comp (v : N) : comp := Tlv T_Version (nni_enc v).

Definition wf_name (n : name) : Prop := Forall wf_tlv n.
