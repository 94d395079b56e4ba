(** Specification of the record wire grammar (RFC 1035 3.2.1 and the RDATA formats of RFC 1035, 3596,
    4034, 5155, 6672, 6698), independent of the parser and writer. Only the record data types of
    [RRM.v] are used. *)
From Coq Require Import List NArith.
From Verif Require Import NameSpec WireSpec BitmapSpec RRM.
Import ListNotations.
Local Open Scope N_scope.

Definition u16 (n : N) : list N := [n / 256; n mod 256].
Definition u32 (n : N) : list N := [n / 16777216; (n / 65536) mod 256; (n / 256) mod 256; n mod 256].
Definition length_of (l : list N) : N := N.of_nat (length l).

(** [b] is exactly the encoding of the name [n] at some place of packet [pkt]. *)
Definition NameIn (pkt : list N) (b n : list N) : Prop :=
  exists text, NameEnc pkt 255 b text [] /\ acceptable (text_or_root text) /\ n = lower (text_or_root text).
(** [b] is exactly an uncompressed encoding of [n]: length-prefixed labels up to the root label. *)
Definition NamePlain (b n : list N) : Prop :=
  exists ls, Forall (fun l => (1 <= length l <= 191)%nat) ls /\ b = wire_name ls /\
    acceptable (text_or_root (dots ls)) /\ n = lower (text_or_root (dots ls)).

Section Grammar.
  (** How embedded names are encoded, and whether bytes after the name in NS, CNAME and DNAME RDATA
      are tolerated. *)
  Variable Nm : list N -> list N -> Prop.
  Variable lax : bool.

  (** [RData ty owner r data]: the RDATA [data] of a record of type [ty] owned by [owner] means [r]. *)
  Inductive RData : N -> list N -> RR -> list N -> Prop :=
  | RD_A o a : length_of a = 4 -> RData 1 o (RR_A {| a_name := o; a_addr := a |}) a
  | RD_AAAA o a : length_of a = 16 -> RData 28 o (RR_AAAA {| a6_name := o; a6_addr := a |}) a
  | RD_NS o b n extra : Nm b n -> lax = true \/ extra = [] ->
      RData 2 o (RR_NS {| nr_name := o; nr_server := n |}) (b ++ extra)
  | RD_CName o b n extra : Nm b n -> lax = true \/ extra = [] ->
      RData 5 o (RR_CName {| cn_name := o; cn_canonical := n |}) (b ++ extra)
  | RD_DName o b n extra : Nm b n -> lax = true \/ extra = [] ->
      RData 39 o (RR_DName {| dn_name := o; dn_delegation := n |}) (b ++ extra)
  | RD_Txt o strs :
      RData 16 o (RR_Txt {| tx_name := o; tx_data := concat strs |})
                 (flat_map (fun s => length_of s :: s) strs)
  | RD_TLSA o u s t d :
      RData 52 o (RR_TLSA {| tl_name := o; tl_usage := u; tl_selector := s; tl_data_ty := t; tl_data := d |})
                 (u :: s :: t :: d)
  | RD_DnsKey o f p a k :
      RData 48 o (RR_DnsKey {| dk_name := o; dk_flags := f; dk_protocol := p; dk_alg := a; dk_pubkey := k |})
                 (u16 f ++ p :: a :: k)
  | RD_DS o t a y d :
      RData 43 o (RR_DS {| ds_name := o; ds_key_tag := t; ds_alg := a; ds_digest_type := y; ds_digest := d |})
                 (u16 t ++ a :: y :: d)
  | RD_RRSig o ty a l ttl ex inc tag b n s : Nm b n ->
      RData 46 o (RR_RRSig {| rs_name := o; rs_ty := ty; rs_alg := a; rs_labels := l; rs_orig_ttl := ttl;
                              rs_expiration := ex; rs_inception := inc; rs_key_tag := tag;
                              rs_key_name := n; rs_signature := s |})
                 (u16 ty ++ a :: l :: u32 ttl ++ u32 ex ++ u32 inc ++ u16 tag ++ b ++ s)
  | RD_NSec o b n bits mask : Nm b n -> BitmapEnc bits mask ->
      RData 47 o (RR_NSec {| ns_name := o; ns_next := n; ns_types := mask |}) (b ++ bits)
  | RD_NSec3 o al fl it salt nh bits mask : BitmapEnc bits mask ->
      RData 50 o (RR_NSec3 {| n3_name := o; n3_algo := al; n3_flags := fl; n3_iters := it; n3_salt := salt;
                              n3_next_hash := nh; n3_types := mask |})
                 (al :: fl :: u16 it ++ length_of salt :: salt ++ length_of nh :: nh ++ bits).

  (** A whole record: owner, type, class IN, TTL, RDLENGTH, RDATA. *)
  Inductive RecordEnc : list N -> RR -> N -> Prop :=
  | RecordEnc_intro nb owner ty ttl r data :
      Nm nb owner -> RData ty owner r data ->
      RecordEnc (nb ++ u16 ty ++ u16 1 ++ u32 ttl ++ u16 (length_of data) ++ data) r ttl.

  Inductive StreamEnc : list N -> list RR -> Prop :=
  | SE_nil : StreamEnc [] []
  | SE_cons rec r ttl rest rs : RecordEnc rec r ttl -> StreamEnc rest rs -> StreamEnc (rec ++ rest) (r :: rs).

  (** RDATA on which the type bitmap has, after blocks which fit, a block beyond type 65535. *)
  Definition BadBitmap (bits : list N) : Prop :=
    exists bl wb rest, bits = enc_blocks (bl ++ [wb]) ++ rest /\ Forall block_fits bl /\ ~ block_fits wb.
  Inductive OverlongBitmap : N -> list N -> Prop :=
  | OB_NSec b n bits : Nm b n -> BadBitmap bits -> OverlongBitmap 47 (b ++ bits)
  | OB_NSec3 al fl it salt nh bits : BadBitmap bits ->
      OverlongBitmap 50 (al :: fl :: u16 it ++ length_of salt :: salt ++ length_of nh :: nh ++ bits).
  (** RDATA of NS, CNAME or DNAME with bytes after the name. *)
  Inductive TrailingRData : N -> list N -> Prop :=
  | TR_intro ty b n x extra : Nm b n -> ty = 2 \/ ty = 5 \/ ty = 39 -> TrailingRData ty (b ++ x :: extra).

  (** A record, or a stream reaching such a record, with RDATA of one of the two kinds above (the
      second only in debug builds). *)
  Definition BadData (dbg : bool) (ty : N) (data : list N) : Prop :=
    (dbg = true /\ TrailingRData ty data) \/ OverlongBitmap ty data.
  Inductive BadRecord (dbg : bool) : list N -> Prop :=
  | BadRecord_intro nb owner ty ttl data : Nm nb owner -> BadData dbg ty data ->
      BadRecord dbg (nb ++ u16 ty ++ u16 1 ++ u32 ttl ++ u16 (length_of data) ++ data).
  Definition BadStream (dbg : bool) (inp : list N) : Prop :=
    exists s rs rec rest, StreamEnc s rs /\ BadRecord dbg rec /\ inp = s ++ rec ++ rest.
End Grammar.

(** ** Records as held by the API *)

Definition is_u8 (n : N) : Prop := n < 256.
Definition is_u16 (n : N) : Prop := n < 65536.
Definition is_u32 (n : N) : Prop := n < 4294967296.
Definition is_bytes (l : list N) : Prop := Forall is_u8 l.
Definition is_mask (m : list N) : Prop := length m = N.to_nat 8192 /\ is_bytes m.

(** Octets taken by a name on the wire. *)
Definition name_octets (n : list N) : N := if list_eq_dec N.eq_dec n [46] then 1 else length_of n + 1.

(** The Rust field types, parametrised by what names may be. *)
Definition typed_rr (nameP : list N -> Prop) (r : RR) : Prop :=
  match r with
  | RR_A x => nameP (a_name x) /\ length_of (a_addr x) = 4 /\ is_bytes (a_addr x)
  | RR_AAAA x => nameP (a6_name x) /\ length_of (a6_addr x) = 16 /\ is_bytes (a6_addr x)
  | RR_NS x => nameP (nr_name x) /\ nameP (nr_server x)
  | RR_Txt x => nameP (tx_name x) /\ is_bytes (tx_data x)
  | RR_TLSA x => nameP (tl_name x) /\ is_u8 (tl_usage x) /\ is_u8 (tl_selector x) /\ is_u8 (tl_data_ty x)
                 /\ is_bytes (tl_data x)
  | RR_CName x => nameP (cn_name x) /\ nameP (cn_canonical x)
  | RR_DName x => nameP (dn_name x) /\ nameP (dn_delegation x)
  | RR_DnsKey x => nameP (dk_name x) /\ is_u16 (dk_flags x) /\ is_u8 (dk_protocol x) /\ is_u8 (dk_alg x)
                   /\ is_bytes (dk_pubkey x)
  | RR_DS x => nameP (ds_name x) /\ is_u16 (ds_key_tag x) /\ is_u8 (ds_alg x) /\ is_u8 (ds_digest_type x)
               /\ is_bytes (ds_digest x)
  | RR_RRSig x => nameP (rs_name x) /\ is_u16 (rs_ty x) /\ is_u8 (rs_alg x) /\ is_u8 (rs_labels x)
                  /\ is_u32 (rs_orig_ttl x) /\ is_u32 (rs_expiration x) /\ is_u32 (rs_inception x)
                  /\ is_u16 (rs_key_tag x) /\ nameP (rs_key_name x) /\ is_bytes (rs_signature x)
  | RR_NSec x => nameP (ns_name x) /\ nameP (ns_next x) /\ is_mask (ns_types x)
  | RR_NSec3 x => nameP (n3_name x) /\ is_u8 (n3_algo x) /\ is_u8 (n3_flags x) /\ is_u16 (n3_iters x)
                  /\ is_bytes (n3_salt x) /\ is_bytes (n3_next_hash x) /\ is_mask (n3_types x)
  end.
(** RDATA whose lengths fit their 8- and 16-bit length fields. (NSEC and NSEC3 RDATA always fit.) *)
Definition fits_rr (r : RR) : Prop :=
  match r with
  | RR_Txt x => length_of (tx_data x) + (length_of (tx_data x) + 254) / 255 <= 65535
  | RR_TLSA x => 3 + length_of (tl_data x) <= 65535
  | RR_DnsKey x => 4 + length_of (dk_pubkey x) <= 65535
  | RR_DS x => 4 + length_of (ds_digest x) <= 65535
  | RR_RRSig x => 18 + name_octets (rs_key_name x) + length_of (rs_signature x) <= 65535
  | RR_NSec3 x => length_of (n3_salt x) <= 255 /\ length_of (n3_next_hash x) <= 255
  | _ => True
  end.
(** Not an empty TXT record. *)
Definition nonempty_txt (r : RR) : Prop :=
  match r with RR_Txt x => tx_data x <> [] | _ => True end.

Definition wf_rr (r : RR) : Prop := typed_rr proper_name r /\ fits_rr r /\ nonempty_txt r.

(** ** Canonical RDATA (RFC 4034 6.2 lower case; minimal encodings) *)

(** Names: proper labels, lower case, no compression. *)
Definition CanonName (b : list N) (n : list N) : Prop :=
  exists ls, proper ls /\ b = wire_name ls /\ n = dotted ls /\ lower n = n.
(** TXT: every string but the last is full, and the last is not empty. *)
Definition full_strings (strs : list (list N)) : Prop :=
  exists full last, strs = full ++ [last] /\ Forall (fun s => length_of s = 255) full /\ 1 <= length_of last <= 255.
Inductive CanonRData : N -> list N -> Prop :=
| CR_plain ty data : In ty [1; 28; 52; 48; 43] -> CanonRData ty data
| CR_name ty b n : In ty [2; 5; 39] -> CanonName b n -> CanonRData ty b
| CR_txt strs : full_strings strs -> CanonRData 16 (flat_map (fun s => length_of s :: s) strs)
| CR_sig h b n s : length_of h = 18 -> CanonName b n -> CanonRData 46 (h ++ b ++ s)
| CR_nsec b n bits : CanonName b n -> canonical_bitmap bits -> CanonRData 47 (b ++ bits)
| CR_nsec3 h salt nh bits : length_of h = 4 -> canonical_bitmap bits ->
    CanonRData 50 (h ++ length_of salt :: salt ++ length_of nh :: nh ++ bits).
