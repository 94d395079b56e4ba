(** Witnesses for Prop_Hash: engines for SHA-1 and SHA-256 which keep less than a block of the input, like those of [bitcoin_hashes]. *)
From Verif Require Import Base BaseP RRM ValM ValSpec ValP2 ShaW RepoVecW Base32M HashM HashSpec HashP.
From Coq Require Import String Arith.
Local Open Scope N_scope.

Definition padding (n : N) : list N := 128 :: repeat 0 (N.to_nat ((119 - n mod 64) mod 64)) ++ be32 (n / 536870912) ++ be32 (n * 8).
Section Engine.
  Variables (block : list N -> list N -> list N) (iv : list N).
  Definition run (h : list N) (l : list N) : list N := fold_left block (chunks 64 l) h.
  Fixpoint absorb (fuel : nat) (h l : list N) : list N * list N :=
    match fuel with
    | O => (h, l)
    | Datatypes.S f => if (List.length l <? 64)%nat then (h, l) else absorb f (block h (firstn 64 l)) (skipn 64 l)
    end.
  Definition stage : Type := list N * list N * N.
  Definition input (s : stage) (b : list N) : stage :=
    let '(h, buf, n) := s in (absorb (List.length (buf ++ b)) h (buf ++ b), n + len b).
  Definition block_engine : engine :=
    {| eng := stage; eng_new := (iv, [], 0); eng_input := input; eng_hash := fun '(h, buf, n) => digest (run h (buf ++ padding n)) |}.

  Lemma chunks_fuel {A} f n (l : list A) : (0 < n)%nat -> (List.length l <= f)%nat -> chunks_aux f n l = chunks n l.
  Proof.
    intros Hn. change (chunks n l) with (chunks_aux (List.length l) n l). enough (G : forall f' , (List.length l <= f)%nat -> (List.length l <= f')%nat -> chunks_aux f n l = chunks_aux f' n l) by (intros H; apply G; auto).
    revert l. induction f as [| f IH]; intros l f' H H'; (destruct l as [| a l]; [destruct f'; reflexivity |]).
    - cbn in H. lia.
    - destruct f' as [| f']; [cbn in H'; lia |]. cbn [chunks_aux]. f_equal. apply IH; rewrite skipn_length; cbn [List.length] in *; lia.
  Qed.
  Lemma chunks_step (l t : list N) : (64 <= List.length l)%nat -> chunks 64 (l ++ t) = firstn 64 l :: chunks 64 (skipn 64 l ++ t).
  Proof.
    intros H. change (chunks 64 (l ++ t)) with (chunks_aux (List.length (l ++ t)) 64 (l ++ t)). assert (E : exists k, List.length (l ++ t) = Datatypes.S k) by (rewrite app_length; exists (List.length l + List.length t - 1)%nat; lia). destruct E as (k & E).
    rewrite E. cbn [chunks_aux]. destruct (l ++ t) eqn:Q; [discriminate |]. rewrite <- Q in *. f_equal.
    - rewrite firstn_app. replace (64 - List.length l)%nat with 0%nat by lia. cbn [firstn]. apply app_nil_r.
    - rewrite (chunks_fuel k 64 (skipn 64 (l ++ t))); [| lia | rewrite skipn_length; lia]. rewrite skipn_app. replace (64 - List.length l)%nat with 0%nat by lia. reflexivity.
  Qed.
  Lemma absorb_run f h l h' l' t : absorb f h l = (h', l') -> run h (l ++ t) = run h' (l' ++ t).
  Proof.
    revert h l. induction f as [| f IH]; intros h l E; cbn [absorb] in E; [injection E as <- <-; reflexivity |].
    destruct (List.length l <? 64)%nat eqn:Q; [injection E as <- <-; reflexivity |]. apply Nat.ltb_ge in Q. unfold run at 1. rewrite chunks_step by exact Q. cbn [fold_left]. apply IH. exact E.
  Qed.
  Lemma engine_inv pieces m h buf n : n = len m -> (forall t, run iv (m ++ t) = run h (buf ++ t)) ->
    eng_hash block_engine (fold_left input pieces (h, buf, n)) = digest (run iv ((m ++ List.concat pieces) ++ padding (len (m ++ List.concat pieces)))).
  Proof.
    revert m h buf n. induction pieces as [| p ps IH]; intros m h buf n Hn H; cbn [fold_left List.concat].
    - rewrite app_nil_r. cbn. rewrite H, Hn. reflexivity.
    - cbn [input]. destruct (absorb (List.length (buf ++ p)) h (buf ++ p)) as [h' buf'] eqn:E. rewrite (IH (m ++ p)); [rewrite <- !app_assoc; reflexivity | unfold len in *; rewrite app_length; lia |].
      intros t. rewrite <- app_assoc, H, app_assoc. apply (absorb_run _ _ _ _ _ _ E).
  Qed.
  Lemma engine_computes : Computes block_engine (fun m => digest (run iv (m ++ padding (len m)))).
  Proof. intros pieces. apply (engine_inv pieces [] iv [] 0); reflexivity. Qed.
End Engine.

Definition fips1 : engine := block_engine block1 [1732584193; 4023233417; 2562383102; 271733878; 3285377520].
Definition fips256 : engine := block_engine block256 [1779033703; 3144134277; 1013904242; 2773480762; 1359893119; 2600822924; 528734635; 1541459225].
Lemma fips1_computes : Computes fips1 sha1.
Proof. intros pieces. apply (engine_computes block1). Qed.
Lemma fips256_computes : Computes fips256 sha256.
Proof. intros pieces. apply (engine_computes block256). Qed.
Definition fips : hashlib := {| l_sha1 := fips1; l_sha256 := fips256; l_sha512 := fips256 |}.
Definition fips_env : env := {| e_sha1 := sha1; e_sha256 := sha256; e_sig := fun _ _ _ _ => false; e_sort_needs := fun l => l |}.
Lemma fips_provides : Provides fips fips_env.
Proof. split; [exact fips1_computes | exact fips256_computes]. Qed.

(** The keys of com., of which the second is the one delegated to (test vectors of src/validation.rs), in the engine. *)
Definition com_keys : list dnskey := flat_map as_dnskey r_com_dnskey.
Definition com_ds : list ds := flat_map as_ds r_com_dnskey.
Lemma com_delegated : List.length com_keys = 2%nat /\ List.length com_ds = 1%nat /\ dnskey_loop fips com_ds com_keys = skipn 1 com_keys.
Proof. vm_compute. repeat split. Qed.
Lemma com_flags : Forall (fun k => dk_flags k < 65536) com_keys.
Proof. repeat constructor. Qed.
(** RFC 5155 appendix A: the hash of example. with salt aabbccdd and 12 iterations. *)
Lemma example_hash : Some (hash_as_ref (nsec3_hasher fips (bs "example.") [170; 187; 204; 221] 12)) = b32_decode (bs "0p9mhaveqvm6t7vbl5lop2u3t2rp3tom").
Proof. vm_compute. reflexivity. Qed.
Lemma abc_pieces : hasher_finish (fold_left hasher_update [bs "a"; []; bs "bc"] (hasher_sha1 fips)) = R_Sha1 (sha1 (bs "abc")).
Proof. vm_compute. reflexivity. Qed.
