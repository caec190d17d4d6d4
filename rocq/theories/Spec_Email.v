(** Vocabulary for the statements about the email challenge's helpers. *)
From Verif Require Export EmailScript Spec_Policy.
Local Open Scope N_scope.

Definition letter_or_digit (c : byte) : Prop :=
  97 <= Byte.to_N c <= 122 \/ 65 <= Byte.to_N c <= 90 \/ 48 <= Byte.to_N c <= 57.
(** Letters, digits and the characters of [extra]. *)
Definition address_char (extra : bytes) (c : byte) : Prop := letter_or_digit c \/ In c extra.
(** local\@label.label..., with at least two labels. *)
Definition well_formed_address (s : bytes) : Prop :=
  exists local labels, s = local ++ bs "@" ++ join x2e labels /\ local <> [] /\ Forall (address_char (bs "_.+-")) local /\
    (2 <= length labels)%nat /\ Forall (fun l => l <> [] /\ Forall (address_char (bs "-")) l) labels.
