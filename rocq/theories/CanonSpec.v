(** RRsets as they are on the wire, with names in upper or lower case, and the octets which their zone
    signs: RFC 4034 3.1.8.1, 6.2 and 6.3, section 6.2 as corrected by RFC 6840 5.1 (the next name of an
    NSEC record is not put in lower case). *)
From Coq Require Import List NArith Sorted Permutation.
From Verif Require Import Base NameSpec WireSpec BitmapSpec RecSpec RRM ValM ValSpec SignedSpec.
Import ListNotations.
Local Open Scope N_scope.

(** A record: the labels of its owner, its type (the class is IN), TTL and RDATA. *)
Record wire_rr := { wr_owner : list (list N); wr_type : N; wr_ttl : N; wr_data : list N }.
Definition wr_octets (w : wire_rr) : list N :=
  wire_name (wr_owner w) ++ u16 (wr_type w) ++ u16 1 ++ u32 (wr_ttl w) ++ u16 (length_of (wr_data w)) ++ wr_data w.

Definition strings (strs : list (list N)) : list N := flat_map (fun s => length_of s :: s) strs.
(** Type, RDATA as the RFCs allow it, and its canonical form. (RRSIG records are not signed.) *)
Inductive CanonicalRData : N -> list N -> list N -> Prop :=
| CF_a d : length_of d = 4 -> CanonicalRData 1 d d
| CF_aaaa d : length_of d = 16 -> CanonicalRData 28 d d
| CF_tlsa d : 3 <= length_of d -> CanonicalRData 52 d d
| CF_ds d : 4 <= length_of d -> CanonicalRData 43 d d
| CF_dnskey d : 4 <= length_of d -> CanonicalRData 48 d d
| CF_name ty ls : In ty [2; 5; 39] -> proper ls -> CanonicalRData ty (wire_name ls) (wire_name (map lower ls))
| CF_txt strs : strs <> [] -> Forall (fun s => length_of s <= 255) strs -> CanonicalRData 16 (strings strs) (strings strs)
| CF_nsec ls bits : proper ls -> canonical_bitmap bits -> CanonicalRData 47 (wire_name ls ++ bits) (wire_name ls ++ bits)
| CF_nsec3 h salt nh bits : length_of h = 4 -> canonical_bitmap bits ->
    let d := h ++ length_of salt :: salt ++ length_of nh :: nh ++ bits in CanonicalRData 50 d d.

(** The owner: in lower case; if there are more labels than the RRSIG says, "*" and the last of them. *)
Definition OwnerForm (labels : N) (ls : list (list N)) (b : list N) : Prop :=
  (N.of_nat (length ls) = labels /\ b = wire_name (map lower ls)) \/
  (exists pre suf, ls = pre ++ suf /\ pre <> [] /\ N.of_nat (length suf) = labels /\ b = 1 :: 42 :: wire_name (map lower suf)).
Definition CanonicalForm (s : rrsig) (w : wire_rr) (b : list N) : Prop :=
  exists owner data, OwnerForm (rs_labels s) (wr_owner w) owner /\ CanonicalRData (wr_type w) (wr_data w) data /\
    b = owner ++ u16 (wr_type w) ++ u16 1 ++ u32 (rs_orig_ttl s) ++ u16 (length_of data) ++ data.
Definition SignedOctets (s : rrsig) (ws : list wire_rr) (msg : list N) : Prop :=
  exists signer pieces, CanonName signer (rs_key_name s) /\ Forall2 (CanonicalForm s) ws pieces /\
    msg = u16 (rs_ty s) ++ rs_alg s :: rs_labels s :: u32 (rs_orig_ttl s) ++ u32 (rs_expiration s)
          ++ u32 (rs_inception s) ++ u16 (rs_key_tag s) ++ signer ++ concat pieces.
Definition InCanonicalOrder (ws : list wire_rr) : Prop :=
  StronglySorted (fun a b => exists da db, CanonicalRData (wr_type a) (wr_data a) da /\ CanonicalRData (wr_type b) (wr_data b) db /\
    (da = db \/ lex N.lt da db)) ws.

(** An RRset as the RFCs allow it. *)
Definition LegalSet (ws : list wire_rr) : Prop :=
  Forall (fun w => is_bytes (wr_octets w) /\ proper (wr_owner w) /\ exists d, CanonicalRData (wr_type w) (wr_data w) d) ws /\
  exists o ty, Forall (fun w => map lower (wr_owner w) = o /\ wr_type w = ty) ws.
(** The signature is valid. *)
Definition RfcValid (e : env) (s : rrsig) (keys : list dnskey) (ws : list wire_rr) : Prop :=
  Forall (fun w => wr_type w = rs_ty s) ws /\
  exists k msg ordered, FirstKey s keys k /\ Permutation ws ordered /\ InCanonicalOrder ordered /\ SignedOctets s ordered msg /\ CryptoOk e s k msg.

(** What the validator needs: *)
(** the strings of a TXT record are full, but for the last one, which is not empty; *)
Definition FullStrings (w : wire_rr) : Prop := wr_type w = 16 -> exists strs, full_strings strs /\ wr_data w = strings strs.
(** the next name of an NSEC record is in lower case; *)
Definition LowerNext (w : wire_rr) : Prop := wr_type w = 47 -> exists ls bits, proper ls /\ map lower ls = ls /\ canonical_bitmap bits /\ wr_data w = wire_name ls ++ bits.
(** an NSEC record is not from a wildcard, and its RRSIG has the right number of labels; *)
Definition NsecOwner (s : rrsig) (w : wire_rr) : Prop := wr_type w = 47 -> OwnerForm (rs_labels s) (wr_owner w) (wire_name (map lower (wr_owner w))).
(** there is one record only, or no names in the RDATA, or the names, in lower case, are in one order as texts and as octets. *)
Definition SameOrder (a b : list (list N)) : Prop := lex N.lt (dotted a) (dotted b) <-> lex N.lt (wire_name a) (wire_name b).
Definition Orderly (ws : list wire_rr) : Prop := (length ws <= 1)%nat \/ Forall (fun w => plain_type (wr_type w)) ws \/
  forall w w', In w ws -> In w' ws -> In (wr_type w) [2; 5; 39] /\
    forall ls ls', proper ls -> proper ls' -> wr_data w = wire_name ls -> wr_data w' = wire_name ls' -> SameOrder (map lower ls) (map lower ls').
(** The name in the RDATA of NS, CNAME and DNAME records, as text. *)
Definition target (r : RR) : list N := match r with RR_NS x => nr_server x | RR_CName x => cn_canonical x | RR_DName x => dn_delegation x | _ => [] end.
