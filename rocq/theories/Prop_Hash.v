(** Property C80: the hasher hashes what it was given, in one piece or many. *)
From Verif Require Import Base Base32M WireM RRM ValM ValSpec ShaW HashM HashSpec HashP HashW.
From Coq Require Import String.
Local Open Scope N_scope.

(** C80. Given engines which compute hash functions of their input, the keys which the loop over DNSKEY and DS records picks, feeding
    names and fields to an engine, are exactly those which RFC 4034 5.1.4 says are delegated to, in terms of hashes of whole texts, ... *)
Theorem C80_keys : forall L e, Provides L e -> forall dses ks, Forall (fun k => dk_flags k < 65536) ks ->
  forall k, In k (dnskey_loop L dses ks) <-> In k ks /\ DelegatedKey e dses k.
Proof. exact dnskey_loop_delegated. Qed.
Print Assumptions C80_keys.

Example C80_keys_example : Provides fips fips_env /\ Forall (fun k => dk_flags k < 65536) com_keys /\
  List.length com_keys = 2%nat /\ List.length com_ds = 1%nat /\ dnskey_loop fips com_ds com_keys = skipn 1 com_keys.
Proof. split; [exact fips_provides | split; [exact com_flags | exact com_delegated]]. Qed.

(** ... in the order and number in which the rest of the model takes them; ... *)
Theorem C80_refines : forall L e, Provides L e -> forall dses ks, dnskey_loop L dses ks = validated_dnskeys e dses ks.
Proof. exact dnskey_loop_ok. Qed.
Print Assumptions C80_refines.

(** ... the iterated hash of a name is that of RFC 5155 section 5, a SHA-1 hash; ... *)
Theorem C80_iterated : forall L e, Provides L e -> forall nm salt it, nsec3_hasher L nm salt it = R_Sha1 (n3_hash e salt (write_name nm) (N.to_nat it)).
Proof. exact nsec3_hasher_ok. Qed.
Print Assumptions C80_iterated.

Example C80_iterated_example : Some (hash_as_ref (nsec3_hasher fips (bs "example.") [170; 187; 204; 221] 12)) = b32_decode (bs "0p9mhaveqvm6t7vbl5lop2u3t2rp3tom").
Proof. exact example_hash. Qed.

(** ... and how the input is cut into pieces makes no difference to any of the three kinds of hashers. *)
Theorem C80_pieces : forall L h pieces pieces', (exists f, Computes (l_sha1 L) f) -> (exists f, Computes (l_sha256 L) f) -> (exists f, Computes (l_sha512 L) f) ->
  In h [hasher_sha1 L; hasher_sha256 L; hasher_sha512 L] -> List.concat pieces = List.concat pieces' ->
  hasher_finish (fold_left hasher_update pieces h) = hasher_finish (fold_left hasher_update pieces' h).
Proof. exact pieces_agree. Qed.
Print Assumptions C80_pieces.

Example C80_pieces_example : Computes fips1 sha1 /\ Computes fips256 sha256 /\
  hasher_finish (fold_left hasher_update [bs "a"; []; bs "bc"] (hasher_sha1 fips)) = R_Sha1 (sha1 (bs "abc")).
Proof. split; [exact fips1_computes | split; [exact fips256_computes | exact abc_pieces]]. Qed.
