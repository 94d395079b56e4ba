(** Specifications for C14-C16, independent of the model: the RFC 4034 key tag, the RFC 3110 RSA key
    layout and RFC 4648 base32hex. *)
From Coq Require Import List NArith Bool String.
From Verif Require Import Base RecSpec.
Import ListNotations.
Local Open Scope N_scope.

(** ** RFC 4034 Appendix B: the sum of the RDATA as 16-bit big-endian words (an odd last octet is the
    high half of a word), the carries out of 16 bits added back once, truncated to 16 bits. *)
Fixpoint word_sum (l : list N) : N :=
  match l with
  | hi :: lo :: t => hi * 256 + lo + word_sum t
  | [hi] => hi * 256
  | [] => 0
  end.
Definition rfc4034_tag (rdata : list N) : N :=
  let ac := word_sum rdata in (ac + (ac / 65536) mod 65536) mod 65536.

(** ** RFC 3110 section 2: exponent length on one octet, or zero then two octets; exponent; modulus. *)
Inductive RsaLayout : list N -> list N -> list N -> Prop :=  (* key, modulus, exponent *)
| RL_short ex md : 1 <= length_of ex <= 255 -> RsaLayout (length_of ex :: ex ++ md) md ex
| RL_long ex md : length_of ex <= 65535 -> RsaLayout (0 :: u16 (length_of ex) ++ ex ++ md) md ex.
(** The form RFC 3110 prescribes: the long form only for exponents above 255 octets. *)
Inductive RsaStrict : list N -> list N -> list N -> Prop :=
| RS_short ex md : 1 <= length_of ex <= 255 -> RsaStrict (length_of ex :: ex ++ md) md ex
| RS_long ex md : 256 <= length_of ex <= 65535 -> RsaStrict (0 :: u16 (length_of ex) ++ ex ++ md) md ex.

(** ** RFC 4648 section 7: the bits of the data, padded with less than one character of zero bits, cut
    in groups of five, each written as its digit, either case. *)
Definition bits_of (width v : N) : list bool :=
  map (fun i => N.testbit v (N.of_nat i)) (rev (seq 0 (N.to_nat width))).
Definition hex_digit (c v : N) : Prop :=
  (48 <= c <= 57 /\ v = c - 48) \/ (65 <= c <= 86 /\ v = c - 55) \/ (97 <= c <= 118 /\ v = c - 87).
Definition Base32Hex (text data : list N) : Prop :=
  exists values pad, Forall2 hex_digit text values /\ (pad < 5)%nat /\ is_bytes data /\
    flat_map (bits_of 5) values = flat_map (bits_of 8) data ++ repeat false pad.
