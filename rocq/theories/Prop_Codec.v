(** Properties C14-C16: key tags, RSA keys, base32hex. *)
From Verif Require Import Base NameM WireM RRM Base32M ValM RecSpec CodecSpec CodecP.
From Coq Require Import String.
Local Open Scope N_scope.

(** C14. The DNSKEY RDATA is flags, protocol, algorithm, key; it fits a record when the key has at most
    65531 bytes. [key_tag_dbg] is the same computation panicking on u32 overflow. *)
Theorem C14_key_tag_rfc4034 : forall k,
  is_u16 (dk_flags k) -> is_u8 (dk_protocol k) -> is_u8 (dk_alg k) ->
  key_tag k = rfc4034_tag (u16 (dk_flags k) ++ [dk_protocol k; dk_alg k] ++ dk_pubkey k).
Proof. exact (fun k a b c => proj1 (key_tag_any k a b c)). Qed.
Print Assumptions C14_key_tag_rfc4034.
Theorem C14_no_overflow : forall k,
  is_u16 (dk_flags k) -> is_u8 (dk_protocol k) -> is_u8 (dk_alg k) -> is_bytes (dk_pubkey k) ->
  length_of (dk_pubkey k) <= 65531 -> key_tag_dbg k = Ok (key_tag k).
Proof. exact (fun k a b c d e => proj2 (key_tag_spec k a b c d e)). Qed.
Print Assumptions C14_no_overflow.
(** A longer key can be put together, but not read: then a debug build panics just if the sum with its
    carries takes more than 32 bits. *)
Theorem C14_debug_exact : forall k,
  is_u16 (dk_flags k) -> is_u8 (dk_protocol k) -> is_u8 (dk_alg k) ->
  let s := word_sum (u16 (dk_flags k) ++ [dk_protocol k; dk_alg k] ++ dk_pubkey k) in
  key_tag_dbg k = if s + s / 65536 <? 2 ^ 32 then Ok (key_tag k) else Panic.
Proof. exact (fun k a b c => proj2 (key_tag_any k a b c)). Qed.
Print Assumptions C14_debug_exact.
Example C14_debug_example :
  let k n := {| dk_name := bs "a."; dk_flags := 257; dk_protocol := 3; dk_alg := 8; dk_pubkey := repeat 255 (N.to_nat n) |} in
  key_tag_dbg (k 131070) = Ok (key_tag (k 131070)) /\ key_tag_dbg (k 131072) = Panic.
Proof. split; vm_compute; reflexivity. Qed.
(** A 50-byte key. *)
Definition example_key : bytes :=
  [1; 3; 157; 92; 168; 105; 112; 100; 145; 63] ++ repeat 255 40.
Example C14_example :
  let k := {| dk_name := bs "a."; dk_flags := 257; dk_protocol := 3; dk_alg := 8; dk_pubkey := example_key |} in
  is_bytes (dk_pubkey k) /\ key_tag k = rfc4034_tag ([1; 1; 3; 8] ++ example_key) /\ key_tag k <> 0.
Proof.
  cbv zeta. split; [|split; [reflexivity|vm_compute; discriminate]].
  apply Forall_forall. intros x Hx. vm_compute in Hx.
  repeat (destruct Hx as [<-|Hx]; [reflexivity|]). destruct Hx.
Qed.

(** C15. *)
Theorem C15_split_exact_partial : forall pk md ex, is_bytes pk ->
  (bytes_to_rsa_pk pk = Some (md, ex) <-> RsaLayout pk md ex /\ md <> [] /\ 4 <= length_of pk).
Proof. exact rsa_spec. Qed.
Print Assumptions C15_split_exact_partial.
Theorem C15_nothing_lost : forall pk md ex, is_bytes pk -> bytes_to_rsa_pk pk = Some (md, ex) ->
  md <> [] /\ exists hdr, pk = hdr ++ ex ++ md
    /\ (hdr = [length_of ex] \/ hdr = [0; length_of ex / 256; length_of ex mod 256]).
Proof. exact rsa_no_loss. Qed.
Print Assumptions C15_nothing_lost.
Theorem C15_rfc3110_accepted : forall pk md ex, is_bytes pk -> RsaStrict pk md ex -> md <> [] ->
  4 <= length_of pk -> bytes_to_rsa_pk pk = Some (md, ex).
Proof. exact rsa_strict. Qed.
Print Assumptions C15_rfc3110_accepted.
(** Missing from exactness: a three-byte key (one-byte exponent, one-byte modulus) is rejected. *)
Theorem C15_three_byte_key_refuted : ~ (forall pk md ex, is_bytes pk -> md <> [] ->
  (bytes_to_rsa_pk pk = Some (md, ex) <-> RsaLayout pk md ex)).
Proof. exact rsa_short_false. Qed.
Print Assumptions C15_three_byte_key_refuted.
Example C15_example :
  bytes_to_rsa_pk [3; 1; 0; 1; 200; 100; 50] = Some ([200; 100; 50], [1; 0; 1]) /\
  bytes_to_rsa_pk [0; 0; 2; 1; 1; 99] = Some ([99], [1; 1]) /\ bytes_to_rsa_pk [5; 1; 0; 1; 200] = None.
Proof. vm_compute. auto. Qed.

(** C16. *)
Theorem C16_decode_exact : forall s d, is_bytes s -> (b32_decode s = Some d <-> Base32Hex s d).
Proof. exact decode_spec. Qed.
Print Assumptions C16_decode_exact.
Theorem C16_inverts_encode : forall d, is_bytes d -> b32_decode (b32_encode d) = Some d.
Proof. exact decode_encode. Qed.
Print Assumptions C16_inverts_encode.
Theorem C16_unique_up_to_case : forall s1 s2 d, is_bytes s1 -> is_bytes s2 ->
  b32_decode s1 = Some d -> b32_decode s2 = Some d -> uppercase s1 = uppercase s2.
Proof. exact base32_case. Qed.
Print Assumptions C16_unique_up_to_case.
(** RFC 4648 section 10 vectors, a bad length, a bad character and non-zero spare bits. *)
Example C16_example :
  b32_decode (bs "CPNMUOJ1E8") = Some (bs "foobar") /\ b32_decode (bs "cpnmuoj1e8") = Some (bs "foobar") /\
  b32_decode (bs "CPN") = None /\ b32_decode (bs "CPNMUOJW") = None /\ b32_decode (bs "CP") = None.
Proof. vm_compute. auto. Qed.
