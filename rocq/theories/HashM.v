(** Model of src/crypto/hash.rs and of its uses in src/validation.rs. Elsewhere in the model a hash is a function of all of its input
    ([e_sha1], [e_sha256]); here it is computed as in the code, by an engine which is given the input piece by piece. *)
From Verif Require Import Base NameM WireM RRM ValM.
Local Open Scope N_scope.

(** The engine of one hash function of [bitcoin_hashes] (src/crypto/hash.rs:4-8): [engine], [input] and [from_engine]. Library code: an argument. *)
Record engine := { eng : Type; eng_new : eng; eng_input : eng -> bytes -> eng; eng_hash : eng -> bytes }.
(** src/crypto/hash.rs:6-8: the three of them. *)
Record hashlib := { l_sha1 : engine; l_sha256 : engine; l_sha512 : engine }.

(** src/crypto/hash.rs:10-15 [Hasher]. *)
Inductive hasher (L : hashlib) : Type :=
| H_Sha1 (x : eng (l_sha1 L)) | H_Sha256 (x : eng (l_sha256 L)) | H_Sha512 (x : eng (l_sha512 L)).
Arguments H_Sha1 {L}. Arguments H_Sha256 {L}. Arguments H_Sha512 {L}.
(** src/crypto/hash.rs:17-21 [HashResult]. *)
Inductive hash_result := R_Sha1 (h : bytes) | R_Sha256 (h : bytes) | R_Sha512 (h : bytes).
(** src/crypto/hash.rs:23-31 [as_ref]. *)
Definition hash_as_ref (r : hash_result) : bytes := match r with R_Sha1 h => h | R_Sha256 h => h | R_Sha512 h => h end.
(** src/crypto/hash.rs:34 [Hasher::sha1]. *)
Definition hasher_sha1 (L : hashlib) : hasher L := H_Sha1 (eng_new (l_sha1 L)).
(** src/crypto/hash.rs:35 [Hasher::sha256]. *)
Definition hasher_sha256 (L : hashlib) : hasher L := H_Sha256 (eng_new (l_sha256 L)).
(** src/crypto/hash.rs:37 [Hasher::sha512]. *)
Definition hasher_sha512 (L : hashlib) : hasher L := H_Sha512 (eng_new (l_sha512 L)).
(** src/crypto/hash.rs:39-45 [update]; src/ser.rs:112 [write]. *)
Definition hasher_update {L} (h : hasher L) (buf : bytes) : hasher L :=
  match h with
  | H_Sha1 x => H_Sha1 (eng_input _ x buf)
  | H_Sha256 x => H_Sha256 (eng_input _ x buf)
  | H_Sha512 x => H_Sha512 (eng_input _ x buf)
  end.
(** src/crypto/hash.rs:47-53 [finish]. *)
Definition hasher_finish {L} (h : hasher L) : hash_result :=
  match h with
  | H_Sha1 x => R_Sha1 (eng_hash _ x)
  | H_Sha256 x => R_Sha256 (eng_hash _ x)
  | H_Sha512 x => R_Sha512 (eng_hash _ x)
  end.
(** src/ser.rs:113-123 [write_name] into a hasher. *)
Definition hasher_name {L} (h : hasher L) (nm : bytes) : hasher L := fold_left hasher_update (write_name_calls nm) h.

(** src/validation.rs:202-207: the hasher for a DS record, if its digest type is one to use. *)
Definition ds_hasher (L : hashlib) (tsha1 : bool) (d : ds) : option (hasher L) :=
  if (ds_digest_type d =? 1) && tsha1 then Some (hasher_sha1 L)
  else if ds_digest_type d =? 2 then Some (hasher_sha256 L) else None.
(** src/validation.rs:208-213. *)
Definition hash_dnskey {L} (ctx : hasher L) (k : dnskey) : hash_result :=
  let ctx := hasher_name ctx (dk_name k) in
  let ctx := hasher_update ctx (be16 (dk_flags k)) in
  let ctx := hasher_update ctx [dk_protocol k] in
  let ctx := hasher_update ctx [dk_alg k] in
  let ctx := hasher_update ctx (dk_pubkey k) in
  hasher_finish ctx.
(** src/validation.rs:199-219: the loop over the DS records: is the key pushed? *)
Fixpoint ds_loop (L : hashlib) (tsha1 : bool) (k : dnskey) (dses : list ds) : bool :=
  match dses with
  | [] => false
  | d :: t =>
      if negb (ds_alg d =? dk_alg k) then ds_loop L tsha1 k t
      else if key_tag k =? ds_key_tag d then
        match ds_hasher L tsha1 d with
        | None => ds_loop L tsha1 k t
        | Some ctx => if bytes_eqb (hash_as_ref (hash_dnskey ctx k)) (ds_digest d) then true else ds_loop L tsha1 k t
        end
      else ds_loop L tsha1 k t
  end.
(** src/validation.rs:196-220. *)
Fixpoint dnskey_loop (L : hashlib) (dses : list ds) (records : list dnskey) : list dnskey :=
  match records with
  | [] => []
  | k :: t => if ds_loop L (trust_sha1 dses) k dses then k :: dnskey_loop L dses t else dnskey_loop L dses t
  end.

(** src/validation.rs:480-485: the rounds of NSEC3. *)
Fixpoint nsec3_rounds {L} (salt : bytes) (n : nat) (h : hasher L) : hasher L :=
  match n with
  | O => h
  | S n' =>
      let res := hasher_finish h in
      let h := hasher_sha1 L in
      let h := hasher_update h (hash_as_ref res) in
      let h := hasher_update h salt in
      nsec3_rounds salt n' h
  end.
(** src/validation.rs:477-486: the entry's hash. *)
Definition nsec3_hasher (L : hashlib) (nm salt : bytes) (iters : N) : hash_result :=
  hasher_finish (nsec3_rounds salt (N.to_nat iters) (hasher_update (hasher_name (hasher_sha1 L) nm) salt)).
