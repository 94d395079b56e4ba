(** The signed data of RFC 4034 3.1.8.1 byte by byte, without any function of the model: names as
    length-prefixed lower-case labels, RDATA by the grammar of [RecSpec], in canonical form. *)
From Coq Require Import List NArith Sorted.
From Verif Require Import NameSpec WireSpec RecSpec RRM.
Import ListNotations.
Local Open Scope N_scope.

(** The owner as signed: itself, or "*" and the rightmost [labels] labels (never for NSEC). *)
Definition OwnerWire (s : rrsig) (r : RR) (b : list N) : Prop :=
  exists ls, proper ls /\ rr_name r = dotted ls /\
    (((N.of_nat (length ls) = rs_labels s \/ rr_ty r = 47) /\ b = wire_name ls) \/
     (rr_ty r <> 47 /\ exists pre suf, ls = pre ++ suf /\ pre <> [] /\
        N.of_nat (length suf) = rs_labels s /\ b = 1 :: 42 :: wire_name suf)).

Definition RecordWire (s : rrsig) (r : RR) (b : list N) : Prop :=
  exists owner data, OwnerWire s r owner /\
    RData CanonName false (rr_ty r) (rr_name r) r data /\ CanonRData (rr_ty r) data /\
    b = owner ++ u16 (rr_ty r) ++ u16 1 ++ u32 (rs_orig_ttl s) ++ u16 (length_of data) ++ data.

Definition SignedWire (s : rrsig) (rs : list RR) (msg : list N) : Prop :=
  exists signer pieces, CanonName signer (rs_key_name s) /\ Forall2 (RecordWire s) rs pieces /\
    msg = u16 (rs_ty s) ++ rs_alg s :: rs_labels s :: u32 (rs_orig_ttl s) ++ u32 (rs_expiration s)
          ++ u32 (rs_inception s) ++ u16 (rs_key_tag s) ++ signer ++ concat pieces.

(** RFC 4034 6.3: order by canonical RDATA as left-justified unsigned octet strings. *)
Definition RDataOf (r : RR) (data : list N) : Prop :=
  RData CanonName false (rr_ty r) (rr_name r) r data /\ CanonRData (rr_ty r) data.
Definition RDataLe (a b : RR) : Prop :=
  exists da db, RDataOf a da /\ RDataOf b db /\ (da = db \/ lex N.lt da db).
Definition CanonicalOrder (rs : list RR) : Prop := StronglySorted RDataLe rs.
(** A, AAAA, TXT, TLSA, DNSKEY, DS: the types whose RDATA contains neither names nor bitmaps. *)
Definition plain_type (ty : N) : Prop := In ty [1; 28; 16; 52; 48; 43].
