(** Model of the resource records of src/rr.rs. Integer fields are [N] (their Rust ranges are
    the hypotheses [wf_rr] of the theorems); [Vec<u8>] and fixed arrays are [bytes]. *)
From Verif Require Import Base NameM WireM.
Local Open Scope N_scope.

(** src/rr.rs:248-256 *)
Record txt := { tx_name : name; tx_data : bytes }.
(** src/rr.rs:321-333 *)
Record tlsa := { tl_name : name; tl_usage : N; tl_selector : N; tl_data_ty : N; tl_data : bytes }.
(** src/rr.rs:368-375 *)
Record cname := { cn_name : name; cn_canonical : name }.
(** src/rr.rs:398-406 *)
Record dname := { dn_name : name; dn_delegation : name }.
(** src/rr.rs:429-440 *)
Record dnskey := { dk_name : name; dk_flags : N; dk_protocol : N; dk_alg : N; dk_pubkey : bytes }.
(** src/rr.rs:493-511 *)
Record ds := { ds_name : name; ds_key_tag : N; ds_alg : N; ds_digest_type : N; ds_digest : bytes }.
(** src/rr.rs:547-586 *)
Record rrsig := { rs_name : name; rs_ty : N; rs_alg : N; rs_labels : N; rs_orig_ttl : N;
                  rs_expiration : N; rs_inception : N; rs_key_tag : N; rs_key_name : name;
                  rs_signature : bytes }.
(** src/rr.rs:680-689; [types] is the 8192-byte [NSecTypeMask] (rr.rs:631). *)
Record nsec := { ns_name : name; ns_next : name; ns_types : bytes }.
(** src/rr.rs:722-745 *)
Record nsec3 := { n3_name : name; n3_algo : N; n3_flags : N; n3_iters : N; n3_salt : bytes;
                  n3_next_hash : bytes; n3_types : bytes }.
(** src/rr.rs:786-791, 814-819 *)
Record arec := { a_name : name; a_addr : bytes }.
(** src/rr.rs:814-819 [AAAA]. *)
Record aaaarec := { a6_name : name; a6_addr : bytes }.
(** src/rr.rs:843-852 *)
Record nsrec := { nr_name : name; nr_server : name }.

(** src/rr.rs:83-108 [enum RR], variants in declaration order. *)
Inductive RR :=
| RR_A (r : arec)
| RR_AAAA (r : aaaarec)
| RR_NS (r : nsrec)
| RR_Txt (r : txt)
| RR_TLSA (r : tlsa)
| RR_CName (r : cname)
| RR_DName (r : dname)
| RR_DnsKey (r : dnskey)
| RR_DS (r : ds)
| RR_RRSig (r : rrsig)
| RR_NSec (r : nsec)
| RR_NSec3 (r : nsec3).

(** The wire type constants (src/rr.rs:258, 335, 377, 408, 442, 513, 588, 691, 747, 793, 821, 854). *)
Definition T_A := 1.
(** src/rr.rs:854. *)
Definition T_NS := 2.
(** src/rr.rs:377. *)
Definition T_CNAME := 5.
(** src/rr.rs:258. *)
Definition T_TXT := 16.
(** src/rr.rs:821. *)
Definition T_AAAA := 28.
(** src/rr.rs:408. *)
Definition T_DNAME := 39.
(** src/rr.rs:513. *)
Definition T_DS := 43.
(** src/rr.rs:588. *)
Definition T_RRSIG := 46.
(** src/rr.rs:691. *)
Definition T_NSEC := 47.
(** src/rr.rs:442. *)
Definition T_DNSKEY := 48.
(** src/rr.rs:747. *)
Definition T_NSEC3 := 50.
(** src/rr.rs:335. *)
Definition T_TLSA := 52.

(** src/rr.rs:111-126 [RR::name]. *)
Definition rr_name (r : RR) : name :=
  match r with
  | RR_A r => a_name r | RR_AAAA r => a6_name r | RR_NS r => nr_name r | RR_Txt r => tx_name r
  | RR_TLSA r => tl_name r | RR_CName r => cn_name r | RR_DName r => dn_name r
  | RR_DnsKey r => dk_name r | RR_DS r => ds_name r | RR_RRSig r => rs_name r
  | RR_NSec r => ns_name r | RR_NSec3 r => n3_name r
  end.

(** src/rr.rs:144-159 [RR::ty]. *)
Definition rr_ty (r : RR) : N :=
  match r with
  | RR_A _ => T_A | RR_AAAA _ => T_AAAA | RR_NS _ => T_NS | RR_Txt _ => T_TXT
  | RR_TLSA _ => T_TLSA | RR_CName _ => T_CNAME | RR_DName _ => T_DNAME
  | RR_DnsKey _ => T_DNSKEY | RR_DS _ => T_DS | RR_RRSig _ => T_RRSIG
  | RR_NSec _ => T_NSEC | RR_NSec3 _ => T_NSEC3
  end.

(** ** [read_from_data] of each record type. [dbg]: debug build, [debug_assert!] active. *)

(** src/rr.rs:287-297 [Txt::read_from_data]: the while loop; one byte eaten per iteration. *)
Fixpoint txt_read_loop (fuel : nat) (data parsed : bytes) : outcome unit bytes :=
  match data with
  | [] => Ok parsed
  | l :: t =>
      match fuel with
      | O => Loop
      | S f => if len t <? l then Err tt
               else txt_read_loop f (dropN l t) (parsed ++ takeN l t)
      end
  end.
(** src/rr.rs:287-297 [Txt::read_from_data]. *)
Definition txt_read (nm : name) (data : bytes) : outcome unit txt :=
  d <- txt_read_loop (List.length data) data [] ;;
  Ok {| tx_name := nm; tx_data := d |}.

(** src/rr.rs:352-357 [TLSA::read_from_data]. *)
Definition tlsa_read (nm : name) (data : bytes) : outcome unit tlsa :=
  '(u, d) <- read_u8 data ;;
  '(s, d) <- read_u8 d ;;
  '(t, d) <- read_u8 d ;;
  Ok {| tl_name := nm; tl_usage := u; tl_selector := s; tl_data_ty := t; tl_data := d |}.

(** src/rr.rs:383-387, 414-418, 859-863: a name followed by [debug_assert!(data.is_empty())]. *)
Definition read_single_name (dbg : bool) (data wire : bytes) : outcome unit name :=
  '(n, d) <- read_wire_packet_name data wire ;;
  if dbg && negb (is_nil d) then Panic else Ok n.
(** src/rr.rs:383-387 [CName::read_from_data]. *)
Definition cname_read (dbg : bool) (nm : name) (data wire : bytes) : outcome unit cname :=
  c <- read_single_name dbg data wire ;; Ok {| cn_name := nm; cn_canonical := c |}.
(** src/rr.rs:414-418 [DName::read_from_data]. *)
Definition dname_read (dbg : bool) (nm : name) (data wire : bytes) : outcome unit dname :=
  c <- read_single_name dbg data wire ;; Ok {| dn_name := nm; dn_delegation := c |}.
(** src/rr.rs:859-863 [NS::read_from_data]. *)
Definition ns_read (dbg : bool) (nm : name) (data wire : bytes) : outcome unit nsrec :=
  c <- read_single_name dbg data wire ;; Ok {| nr_name := nm; nr_server := c |}.

(** src/rr.rs:457-462 [DnsKey::read_from_data]. *)
Definition dnskey_read (nm : name) (data : bytes) : outcome unit dnskey :=
  '(f, d) <- read_u16 data ;;
  '(p, d) <- read_u8 d ;;
  '(a, d) <- read_u8 d ;;
  Ok {| dk_name := nm; dk_flags := f; dk_protocol := p; dk_alg := a; dk_pubkey := d |}.

(** src/rr.rs:528-533 [DS::read_from_data]. *)
Definition ds_read (nm : name) (data : bytes) : outcome unit ds :=
  '(k, d) <- read_u16 data ;;
  '(a, d) <- read_u8 d ;;
  '(t, d) <- read_u8 d ;;
  Ok {| ds_name := nm; ds_key_tag := k; ds_alg := a; ds_digest_type := t; ds_digest := d |}.

(** src/rr.rs:603-612 [RRSig::read_from_data]. *)
Definition rrsig_read (nm : name) (data wire : bytes) : outcome unit rrsig :=
  '(ty, d) <- read_u16 data ;;
  '(alg, d) <- read_u8 d ;;
  '(lab, d) <- read_u8 d ;;
  '(ttl, d) <- read_u32 d ;;
  '(ex, d) <- read_u32 d ;;
  '(inc, d) <- read_u32 d ;;
  '(tag, d) <- read_u16 d ;;
  '(kn, d) <- read_wire_packet_name d wire ;;
  Ok {| rs_name := nm; rs_ty := ty; rs_alg := alg; rs_labels := lab; rs_orig_ttl := ttl;
        rs_expiration := ex; rs_inception := inc; rs_key_tag := tag; rs_key_name := kn;
        rs_signature := d |}.

(** src/rr.rs:703-710 [NSec::read_from_data] (the bitmap reader always consumes everything). *)
Definition nsec_read (nm : name) (data wire : bytes) : outcome unit nsec :=
  '(nx, d) <- read_wire_packet_name data wire ;;
  m <- read_nsec_types_bitmap d ;;
  Ok {| ns_name := nm; ns_next := nx; ns_types := m |}.

(** src/rr.rs:759-768 [NSec3::read_from_data]. *)
Definition nsec3_read (nm : name) (data : bytes) : outcome unit nsec3 :=
  '(al, d) <- read_u8 data ;;
  '(fl, d) <- read_u8 d ;;
  '(it, d) <- read_u16 d ;;
  '(salt, d) <- read_u8_len_prefixed_bytes d ;;
  '(nh, d) <- read_u8_len_prefixed_bytes d ;;
  m <- read_nsec_types_bitmap d ;;
  Ok {| n3_name := nm; n3_algo := al; n3_flags := fl; n3_iters := it; n3_salt := salt;
        n3_next_hash := nh; n3_types := m |}.

(** src/rr.rs:800-805, 828-833 [A::read_from_data], [AAAA::read_from_data]. *)
Definition a_read (nm : name) (data : bytes) : outcome unit arec :=
  if negb (len data =? 4) then Err tt else Ok {| a_name := nm; a_addr := data |}.
(** src/rr.rs:828-833 [AAAA::read_from_data]. *)
Definition aaaa_read (nm : name) (data : bytes) : outcome unit aaaarec :=
  if negb (len data =? 16) then Err tt else Ok {| a6_name := nm; a6_addr := data |}.

(** ** [write_u16_len_prefixed_data] of each record type (release arithmetic: [as u16] and wrapping
    u16 additions). *)

(** src/rr.rs:302-311: first length byte, then the while loop. [try_into().unwrap_or(255)] is
    [min 255]. The loop drops at least one byte per iteration. *)
Fixpoint txt_write_loop (fuel : nat) (d : bytes) : bytes :=
  match fuel with
  | O => []
  | S f =>
      if is_nil d then []
      else let sp := N.min 255 (len d) in
           let r := dropN sp d in
           takeN sp d ++ (if is_nil r then [] else [N.min 255 (len r)]) ++ txt_write_loop f r
  end.
(** src/rr.rs:298-312 [Txt::write_u16_len_prefixed_data]. *)
Definition txt_write (r : txt) : bytes :=
  let d := tx_data r in
  be16 (as_u16 (len d + (len d + 254) / 255))
  ++ [N.min 255 (len d)] ++ txt_write_loop (List.length d) d.

(** src/rr.rs:358-363 *)
Definition tlsa_write (r : tlsa) : bytes :=
  be16 (as_u16 (3 + len (tl_data r))) ++ [tl_usage r; tl_selector r; tl_data_ty r] ++ tl_data r.
(** src/rr.rs:388-392, 419-423, 864-867 *)
Definition name_write (n : name) : bytes := be16 (name_len n) ++ write_name n.
(** src/rr.rs:463-470 *)
Definition dnskey_write (r : dnskey) : bytes :=
  be16 (as_u16 (4 + len (dk_pubkey r))) ++ be16 (dk_flags r) ++ [dk_protocol r; dk_alg r] ++ dk_pubkey r.
(** src/rr.rs:534-541 *)
Definition ds_write (r : ds) : bytes :=
  be16 (as_u16 (4 + len (ds_digest r))) ++ be16 (ds_key_tag r) ++ [ds_alg r; ds_digest_type r] ++ ds_digest r.
(** src/rr.rs:613-625. In a debug build the additions at line 614 panic on overflow: see
    [write_data_overflows]. *)
Definition rrsig_write (r : rrsig) : bytes :=
  be16 (as_u16 (18 + name_len (rs_key_name r) + as_u16 (len (rs_signature r))))
  ++ be16 (rs_ty r) ++ [rs_alg r; rs_labels r] ++ be32 (rs_orig_ttl r) ++ be32 (rs_expiration r)
  ++ be32 (rs_inception r) ++ be16 (rs_key_tag r) ++ write_name (rs_key_name r) ++ rs_signature r.
(** src/rr.rs:711-716 *)
Definition nsec_write (r : nsec) : bytes :=
  be16 (as_u16 (name_len (ns_next r) + nsec_types_bitmap_len (ns_types r)))
  ++ write_name (ns_next r) ++ write_nsec_types_bitmap (ns_types r).
(** src/rr.rs:769-781 *)
Definition nsec3_write (r : nsec3) : bytes :=
  be16 (as_u16 (6 + as_u16 (len (n3_salt r)) + as_u16 (len (n3_next_hash r)) + nsec_types_bitmap_len (n3_types r)))
  ++ [n3_algo r; n3_flags r] ++ be16 (n3_iters r)
  ++ [as_u8 (len (n3_salt r))] ++ n3_salt r
  ++ [as_u8 (len (n3_next_hash r))] ++ n3_next_hash r
  ++ write_nsec_types_bitmap (n3_types r).
(** src/rr.rs:806-809, 834-837 *)
Definition a_write (r : arec) : bytes := be16 4 ++ a_addr r.
(** src/rr.rs:834-837 [AAAA::write_u16_len_prefixed_data]. *)
Definition aaaa_write (r : aaaarec) : bytes := be16 16 ++ a6_addr r.

(** src/rr.rs:160-175 [RR::write_u16_len_prefixed_data]. *)
Definition write_data (r : RR) : bytes :=
  match r with
  | RR_A r => a_write r | RR_AAAA r => aaaa_write r
  | RR_NS r => name_write (nr_server r) | RR_Txt r => txt_write r | RR_TLSA r => tlsa_write r
  | RR_CName r => name_write (cn_canonical r) | RR_DName r => name_write (dn_delegation r)
  | RR_DnsKey r => dnskey_write r | RR_DS r => ds_write r | RR_RRSig r => rrsig_write r
  | RR_NSec r => nsec_write r | RR_NSec3 r => nsec3_write r
  end.

(** The u16 additions of [write_data] overflow (panic in a debug build): src/rr.rs:614, 712, 770. *)
Definition write_data_overflows (r : RR) : bool :=
  match r with
  | RR_RRSig r => 65535 <? 18 + name_len (rs_key_name r) + as_u16 (len (rs_signature r))
  | RR_NSec r => 65535 <? name_len (ns_next r) + nsec_types_bitmap_len (ns_types r)
  | RR_NSec3 r => 65535 <? 6 + as_u16 (len (n3_salt r)) + as_u16 (len (n3_next_hash r))
                           + nsec_types_bitmap_len (n3_types r)
  | _ => false
  end.

(** ** Ordering *)

(** src/rr.rs:259-275 [PartialOrd for Txt]. [slice] is [v[start..stop]]; the indices are in range
    whenever the code reaches them (lemma [txt_cmp_slices_in_range]). *)
Definition slice (v : bytes) (start stop : N) : bytes := dropN start (takeN stop v).
(** src/rr.rs:264-271: the loop over the chunks. *)
Fixpoint txt_cmp_loop (idxs : list nat) (a b : bytes) : comparison :=
  match idxs with
  | [] => Eq
  | i :: t =>
      let start := (N.of_nat i - 1) * 255 in
      let self_len := N.min (N.of_nat i * 255) (len a) in
      let o_len := N.min (N.of_nat i * 255) (len b) in
      match then_cmp (self_len ?= o_len) (bytes_cmp (slice a start self_len) (slice b start o_len)) with
      | Eq => txt_cmp_loop t a b
      | c => c
      end
  end.
(** src/rr.rs:262-273: all but the names. *)
Definition txt_data_cmp (a b : bytes) : comparison :=
  txt_cmp_loop (seq 1 (N.to_nat (len a / 255 + 1))) a b.

(** Field-wise derived comparison of [[u8; 8192]], integers, vectors.
    src/rr.rs:259-275 [PartialOrd for Txt]. *)
Definition txt_cmp (a b : txt) : comparison :=
  then_cmp (bytes_cmp (tx_name a) (tx_name b)) (txt_data_cmp (tx_data a) (tx_data b)).
(** src/rr.rs:315: derived [Ord] of [TLSA]. *)
Definition tlsa_cmp (a b : tlsa) : comparison :=
  then_cmp (bytes_cmp (tl_name a) (tl_name b))
  (then_cmp (tl_usage a ?= tl_usage b)
  (then_cmp (tl_selector a ?= tl_selector b)
  (then_cmp (tl_data_ty a ?= tl_data_ty b) (bytes_cmp (tl_data a) (tl_data b))))).
(** src/rr.rs:427: derived [Ord] of [DnsKey]. *)
Definition dnskey_cmp (a b : dnskey) : comparison :=
  then_cmp (bytes_cmp (dk_name a) (dk_name b))
  (then_cmp (dk_flags a ?= dk_flags b)
  (then_cmp (dk_protocol a ?= dk_protocol b)
  (then_cmp (dk_alg a ?= dk_alg b) (bytes_cmp (dk_pubkey a) (dk_pubkey b))))).
(** src/rr.rs:490: derived [Ord] of [DS]. *)
Definition ds_cmp (a b : ds) : comparison :=
  then_cmp (bytes_cmp (ds_name a) (ds_name b))
  (then_cmp (ds_key_tag a ?= ds_key_tag b)
  (then_cmp (ds_alg a ?= ds_alg b)
  (then_cmp (ds_digest_type a ?= ds_digest_type b) (bytes_cmp (ds_digest a) (ds_digest b))))).
(** src/rr.rs:544: derived [Ord] of [RRSig]. *)
Definition rrsig_cmp (a b : rrsig) : comparison :=
  then_cmp (bytes_cmp (rs_name a) (rs_name b))
  (then_cmp (rs_ty a ?= rs_ty b)
  (then_cmp (rs_alg a ?= rs_alg b)
  (then_cmp (rs_labels a ?= rs_labels b)
  (then_cmp (rs_orig_ttl a ?= rs_orig_ttl b)
  (then_cmp (rs_expiration a ?= rs_expiration b)
  (then_cmp (rs_inception a ?= rs_inception b)
  (then_cmp (rs_key_tag a ?= rs_key_tag b)
  (then_cmp (bytes_cmp (rs_key_name a) (rs_key_name b))
            (bytes_cmp (rs_signature a) (rs_signature b)))))))))).
(** src/rr.rs:628, 677: derived [Ord] of [NSec]. *)
Definition nsec_cmp (a b : nsec) : comparison :=
  then_cmp (bytes_cmp (ns_name a) (ns_name b))
  (then_cmp (bytes_cmp (ns_next a) (ns_next b)) (bytes_cmp (ns_types a) (ns_types b))).
(** src/rr.rs:628, 719: derived [Ord] of [NSec3]. *)
Definition nsec3_cmp (a b : nsec3) : comparison :=
  then_cmp (bytes_cmp (n3_name a) (n3_name b))
  (then_cmp (n3_algo a ?= n3_algo b)
  (then_cmp (n3_flags a ?= n3_flags b)
  (then_cmp (n3_iters a ?= n3_iters b)
  (then_cmp (bytes_cmp (n3_salt a) (n3_salt b))
  (then_cmp (bytes_cmp (n3_next_hash a) (n3_next_hash b)) (bytes_cmp (n3_types a) (n3_types b))))))).
(** src/rr.rs:366, 395, 784, 812, 840: derived [Ord] of the structs of a name and one more field. *)
Definition pair_cmp (n1 d1 n2 d2 : bytes) : comparison := then_cmp (bytes_cmp n1 n2) (bytes_cmp d1 d2).

(** Position of the variant in the [enum RR] declaration (src/rr.rs:83-108), the first key of the
    derived order (src/rr.rs:78). *)
Definition rr_variant (r : RR) : N :=
  match r with
  | RR_A _ => 0 | RR_AAAA _ => 1 | RR_NS _ => 2 | RR_Txt _ => 3 | RR_TLSA _ => 4 | RR_CName _ => 5
  | RR_DName _ => 6 | RR_DnsKey _ => 7 | RR_DS _ => 8 | RR_RRSig _ => 9 | RR_NSec _ => 10
  | RR_NSec3 _ => 11
  end.
(** Derived [PartialOrd for RR] (src/rr.rs:78); this is what [sort_unstable] on [Vec<&RR>] uses
    ([T::lt], i.e. [PartialOrd], so TXT records use the hand-written comparison). On [Vec<&DnsKey>]
    the same function is used through [RR_DnsKey]. *)
Definition rr_cmp (a b : RR) : comparison :=
  match a, b with
  | RR_A x, RR_A y => pair_cmp (a_name x) (a_addr x) (a_name y) (a_addr y)
  | RR_AAAA x, RR_AAAA y => pair_cmp (a6_name x) (a6_addr x) (a6_name y) (a6_addr y)
  | RR_NS x, RR_NS y => pair_cmp (nr_name x) (nr_server x) (nr_name y) (nr_server y)
  | RR_Txt x, RR_Txt y => txt_cmp x y
  | RR_TLSA x, RR_TLSA y => tlsa_cmp x y
  | RR_CName x, RR_CName y => pair_cmp (cn_name x) (cn_canonical x) (cn_name y) (cn_canonical y)
  | RR_DName x, RR_DName y => pair_cmp (dn_name x) (dn_delegation x) (dn_name y) (dn_delegation y)
  | RR_DnsKey x, RR_DnsKey y => dnskey_cmp x y
  | RR_DS x, RR_DS y => ds_cmp x y
  | RR_RRSig x, RR_RRSig y => rrsig_cmp x y
  | RR_NSec x, RR_NSec y => nsec_cmp x y
  | RR_NSec3 x, RR_NSec3 y => nsec3_cmp x y
  | _, _ => rr_variant a ?= rr_variant b
  end.

(** Derived [PartialEq] (src/rr.rs:78 and each struct): decided by structural equality. *)
Definition bytes_eq_dec : forall a b : bytes, {a = b} + {a <> b} := list_eq_dec N.eq_dec.
(** src/rr.rs:78: derived [PartialEq], [Eq] of [RR]. *)
Definition rr_eq_dec (a b : RR) : {a = b} + {a <> b}.
Proof.
  decide equality; decide equality; (apply bytes_eq_dec || apply N.eq_dec).
Defined.
(** src/rr.rs:78: derived [PartialEq] of [RR]. *)
Definition rr_eqb (a b : RR) : bool := if rr_eq_dec a b then true else false.

(** [slice::sort_unstable] for an order whose [Equal] is equality: the sorted permutation is unique
    (lemma [sort_unique]), so any sorting algorithm models it; insertion sort here. *)
Section Sort.
  Context {A : Type} (cmp : A -> A -> comparison).
  (** src/validation.rs:95: [sort_unstable]. *)
  Fixpoint insert_by (x : A) (l : list A) : list A :=
    match l with
    | [] => [x]
    | y :: t => match cmp x y with Gt => y :: insert_by x t | _ => x :: l end
    end.
  (** src/validation.rs:95: [sort_unstable]. *)
  Fixpoint sort_by (l : list A) : list A :=
    match l with
    | [] => []
    | x :: t => insert_by x (sort_by t)
    end.
End Sort.

(** ** [DnsKey::key_tag] (src/rr.rs:474-487), with the u32 accumulator wrapping (release). *)
Fixpoint key_tag_loop (idx : N) (l : bytes) (res : N) : N :=
  match l with
  | [] => res
  | b :: t =>
      key_tag_loop (idx + 1) t
        ((res + (if idx mod 2 =? 0 then N.shiftl b 8 else b)) mod 2 ^ 32)
  end.
(** src/rr.rs:474-487 [DnsKey::key_tag]. *)
Definition key_tag (k : dnskey) : N :=
  let res := dk_flags k in
  let res := (res + N.shiftl (dk_protocol k) 8) mod 2 ^ 32 in
  let res := (res + dk_alg k) mod 2 ^ 32 in
  let res := key_tag_loop 0 (dk_pubkey k) res in
  let res := (res + N.land (N.shiftr res 16) 65535) mod 2 ^ 32 in
  N.land res 65535.

(** The same function in a debug build, where each [+=] of src/rr.rs:476-485 panics on u32 overflow. *)
Definition add_u32 (a b : N) : outcome unit N := if a + b <? 2 ^ 32 then Ok (a + b) else Panic.
(** src/rr.rs:478-484 with overflow checks. *)
Fixpoint key_tag_dbg_loop (idx : N) (l : bytes) (res : N) : outcome unit N :=
  match l with
  | [] => Ok res
  | b :: t => res' <- add_u32 res (if idx mod 2 =? 0 then N.shiftl b 8 else b) ;;
              key_tag_dbg_loop (idx + 1) t res'
  end.
(** src/rr.rs:474-487 with overflow checks. *)
Definition key_tag_dbg (k : dnskey) : outcome unit N :=
  res <- add_u32 (dk_flags k) (N.shiftl (dk_protocol k) 8) ;;
  res <- add_u32 res (dk_alg k) ;;
  res <- key_tag_dbg_loop 0 (dk_pubkey k) res ;;
  res <- add_u32 res (N.land (N.shiftr res 16) 65535) ;;
  Ok (N.land res 65535).

(** ** [NSecTypeMask] (src/rr.rs:631-653) *)
Fixpoint update_nth (i : nat) (f : N -> N) (l : bytes) : bytes :=
  match l, i with
  | [], _ => []
  | x :: t, O => f x :: t
  | x :: t, S i' => x :: update_nth i' f t
  end.
(** src/rr.rs:634 *)
Definition mask_new : bytes := zero_mask.
(** src/rr.rs:636-646. The shift amount is [7 - t % 8], the index [t >> 3]. *)
Definition mask_from_types (types : list N) : bytes :=
  fold_left (fun flags t =>
    update_nth (N.to_nat (N.shiftr t 3)) (fun f => N.lor f (N.shiftl 1 (7 - t mod 8))) flags)
    types zero_mask.
(** src/rr.rs:649-653 *)
Definition mask_contains (mask : bytes) (ty : N) : bool :=
  negb (N.land (nth (N.to_nat (N.shiftr ty 3)) mask 0) (N.shiftl 1 (7 - ty mod 8)) =? 0).
