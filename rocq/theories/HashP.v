(** Proofs for C80. *)
From Verif Require Import Base BaseP NameM WireM RRM ValM NameSpec ValSpec ValP ValP2 ValP3 HashM HashSpec.
Local Open Scope N_scope.

Section Hash.
  Variables (L : hashlib) (e : env).
  Hypothesis P : Provides L e.
  Definition fed (h : hasher L) (pieces : list (list N)) : hasher L := fold_left hasher_update pieces h.
  Lemma fed1 x pieces : fed (H_Sha1 x) pieces = H_Sha1 (fold_left (eng_input (l_sha1 L)) pieces x).
  Proof. revert x. induction pieces as [| p t IH]; intros x; [reflexivity | apply IH]. Qed.
  Lemma fed2 x pieces : fed (H_Sha256 x) pieces = H_Sha256 (fold_left (eng_input (l_sha256 L)) pieces x).
  Proof. revert x. induction pieces as [| p t IH]; intros x; [reflexivity | apply IH]. Qed.
  Lemma fed5 x pieces : fed (H_Sha512 x) pieces = H_Sha512 (fold_left (eng_input (l_sha512 L)) pieces x).
  Proof. revert x. induction pieces as [| p t IH]; intros x; [reflexivity | apply IH]. Qed.
  Lemma sha1_fed pieces : hasher_finish (fed (hasher_sha1 L) pieces) = R_Sha1 (e_sha1 e (concat pieces)).
  Proof. unfold hasher_sha1. rewrite fed1. cbn. f_equal. apply P. Qed.
  Lemma sha256_fed pieces : hasher_finish (fed (hasher_sha256 L) pieces) = R_Sha256 (e_sha256 e (concat pieces)).
  Proof. unfold hasher_sha256. rewrite fed2. cbn. f_equal. apply P. Qed.

  Lemma key_pieces (h : hasher L) k : exists pieces, hash_dnskey h k = hasher_finish (fed h pieces) /\ concat pieces = dnskey_digest_input k.
  Proof.
    exists (write_name_calls (dk_name k) ++ [be16 (dk_flags k); [dk_protocol k]; [dk_alg k]; dk_pubkey k]). split.
    - unfold hash_dnskey, hasher_name, fed. rewrite fold_left_app. reflexivity.
    - rewrite concat_app. unfold dnskey_digest_input, write_name. cbn [concat]. rewrite app_nil_r. reflexivity.
  Qed.
  Lemma ds_loop_ok t k dses : ds_loop L t k dses = existsb (ds_matches e t k) dses.
  Proof.
    induction dses as [| d l IH]; [reflexivity |]. cbn [ds_loop existsb]. unfold ds_matches at 1. rewrite IH. destruct (ds_alg d =? dk_alg k); cbn [negb andb orb]; [| reflexivity].
    destruct (key_tag k =? ds_key_tag d); cbn [andb orb]; [| reflexivity]. unfold ds_hasher. destruct ((ds_digest_type d =? 1) && t).
    - destruct (key_pieces (hasher_sha1 L) k) as (ps & -> & C). rewrite sha1_fed, C. cbn [hash_as_ref]. destruct (bytes_eqb _ _); reflexivity.
    - destruct (ds_digest_type d =? 2); [| reflexivity].
      destruct (key_pieces (hasher_sha256 L) k) as (ps & -> & C). rewrite sha256_fed, C. cbn [hash_as_ref]. destruct (bytes_eqb _ _); reflexivity.
  Qed.
  Lemma dnskey_loop_ok dses ks : dnskey_loop L dses ks = validated_dnskeys e dses ks.
  Proof.
    induction ks as [| k t IH]; [reflexivity |]. cbn [dnskey_loop]. unfold validated_dnskeys. cbn [filter]. rewrite ds_loop_ok, IH. reflexivity.
  Qed.
  Lemma dnskey_loop_delegated dses ks : Forall (fun k => dk_flags k < 65536) ks -> forall k, In k (dnskey_loop L dses ks) <-> In k ks /\ DelegatedKey e dses k.
  Proof.
    intros F k. rewrite dnskey_loop_ok. unfold validated_dnskeys. rewrite filter_In. rewrite Forall_forall in F. split; intros [H1 H2]; (split; [exact H1 |]); apply (ds_matches_spec e dses k (F k H1)); exact H2.
  Qed.
  Lemma rounds_ok salt n pieces : exists pieces', nsec3_rounds salt n (fed (hasher_sha1 L) pieces) = fed (hasher_sha1 L) pieces' /\
    e_sha1 e (concat pieces') = nsec3_iter e salt n (e_sha1 e (concat pieces)).
  Proof.
    revert pieces. induction n as [| n IH]; intros pieces; [exists pieces; auto |]. cbn [nsec3_rounds nsec3_iter]. rewrite sha1_fed. cbn [hash_as_ref].
    destruct (IH [e_sha1 e (concat pieces); salt]) as (ps & E1 & E2). exists ps. split; [exact E1 |]. rewrite E2. cbn [concat]. rewrite app_nil_r. reflexivity.
  Qed.
  Lemma nsec3_hasher_ok nm salt it : nsec3_hasher L nm salt it = R_Sha1 (n3_hash e salt (write_name nm) (N.to_nat it)).
  Proof.
    unfold nsec3_hasher. destruct (rounds_ok salt (N.to_nat it) (write_name_calls nm ++ [salt])) as (ps & E1 & E2).
    replace (hasher_update (hasher_name (hasher_sha1 L) nm) salt) with (fed (hasher_sha1 L) (write_name_calls nm ++ [salt])) by (unfold fed, hasher_name; rewrite fold_left_app; reflexivity).
    rewrite E1, sha1_fed, E2, <- nsec3_hash_spec. f_equal. unfold nsec3_hash, write_name. rewrite concat_app. cbn [concat]. rewrite app_nil_r. reflexivity.
  Qed.
End Hash.

Lemma pieces_agree L h pieces pieces' : (exists f, Computes (l_sha1 L) f) -> (exists f, Computes (l_sha256 L) f) -> (exists f, Computes (l_sha512 L) f) ->
  In h [hasher_sha1 L; hasher_sha256 L; hasher_sha512 L] -> concat pieces = concat pieces' ->
  hasher_finish (fold_left hasher_update pieces h) = hasher_finish (fold_left hasher_update pieces' h).
Proof.
  intros (f1 & F1) (f2 & F2) (f5 & F5) H E.
  assert (X : hasher_finish (fed L h pieces) = hasher_finish (fed L h pieces')); [| exact X].
  destruct H as [<- | [<- | [<- | []]]]; unfold hasher_sha1, hasher_sha256, hasher_sha512; rewrite ?fed1, ?fed2, ?fed5; cbn [hasher_finish]; f_equal; rewrite ?F1, ?F2, ?F5, E; reflexivity.
Qed.
