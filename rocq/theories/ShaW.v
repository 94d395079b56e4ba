(** SHA-1 and SHA-256 (FIPS 180-4), for running the model on the repository's own test vectors
    ([RepoW.v]). Not part of the model: no theorem mentions them. *)
From Verif Require Import Base.
From Coq Require Import String.
Local Open Scope N_scope.

Definition mask32 : N := 4294967295.
Definition add32 (a b : N) : N := N.land (a + b) mask32.
Definition rotl (n a : N) : N := N.lor (N.land (N.shiftl a n) mask32) (N.shiftr a (32 - n)).
Definition rotr (n a : N) : N := rotl (32 - n) a.
Definition xor3 (a b c : N) : N := N.lxor (N.lxor a b) c.
Definition ch (a b c : N) : N := N.lxor (N.land a b) (N.land (N.lxor a mask32) c).
Definition maj (a b c : N) : N := xor3 (N.land a b) (N.land a c) (N.land b c).

(** Padding, words and blocks (sections 5.1.1 and 5.2.1). *)
Definition pad (m : bytes) : bytes :=
  m ++ 128 :: repeat 0 (N.to_nat ((119 - len m mod 64) mod 64)) ++ be32 (len m / 536870912) ++ be32 (len m * 8).
Fixpoint words (m : bytes) : list N :=
  match m with
  | a :: b :: c :: d :: t => ((a * 256 + b) * 256 + c) * 256 + d :: words t
  | _ => []
  end.
(** The message schedule, backwards: [next] makes a word out of the ones before it. *)
Fixpoint extend (next : list N -> N) (n : nat) (w : list N) : list N :=
  match n with O => w | Datatypes.S k => extend next k (next w :: w) end.
Definition sums (h s : list N) : list N := map (fun p => add32 (fst p) (snd p)) (combine h s).
Definition digest (h : list N) : bytes := flat_map be32 h.

(** Section 6.1. *)
Definition next1 (w : list N) : N :=
  rotl 1 (N.lxor (N.lxor (nth 2 w 0) (nth 7 w 0)) (N.lxor (nth 13 w 0) (nth 15 w 0))).
Definition f1 (t b c d : N) : N := if t <? 20 then ch b c d else if t <? 40 then xor3 b c d else if t <? 60 then maj b c d else xor3 b c d.
Definition k1 (t : N) : N := if t <? 20 then 1518500249 else if t <? 40 then 1859775393 else if t <? 60 then 2400959708 else 3395469782.
Definition round1 (s : N * list N) (w : N) : N * list N :=
  match s with
  | (t, [a; b; c; d; e]) => (t + 1, [add32 (add32 (add32 (rotl 5 a) (f1 t b c d)) (add32 e (k1 t))) w; a; rotl 30 b; c; d])
  | _ => s
  end.
Definition block1 (h : list N) (b : bytes) : list N :=
  sums h (snd (fold_left round1 (rev (extend next1 64 (rev (words b)))) (0, h))).
Definition sha1 (m : bytes) : bytes :=
  digest (fold_left block1 (chunks 64 (pad m)) [1732584193; 4023233417; 2562383102; 271733878; 3285377520]).

(** Section 6.2. *)
Definition next256 (w : list N) : N :=
  let s0 x := xor3 (rotr 7 x) (rotr 18 x) (N.shiftr x 3) in
  let s1 x := xor3 (rotr 17 x) (rotr 19 x) (N.shiftr x 10) in
  add32 (add32 (s1 (nth 1 w 0)) (nth 6 w 0)) (add32 (s0 (nth 14 w 0)) (nth 15 w 0)).
Definition k256 : list N :=
  [1116352408; 1899447441; 3049323471; 3921009573; 961987163; 1508970993; 2453635748; 2870763221;
   3624381080; 310598401; 607225278; 1426881987; 1925078388; 2162078206; 2614888103; 3248222580;
   3835390401; 4022224774; 264347078; 604807628; 770255983; 1249150122; 1555081692; 1996064986;
   2554220882; 2821834349; 2952996808; 3210313671; 3336571891; 3584528711; 113926993; 338241895;
   666307205; 773529912; 1294757372; 1396182291; 1695183700; 1986661051; 2177026350; 2456956037;
   2730485921; 2820302411; 3259730800; 3345764771; 3516065817; 3600352804; 4094571909; 275423344;
   430227734; 506948616; 659060556; 883997877; 958139571; 1322822218; 1537002063; 1747873779;
   1955562222; 2024104815; 2227730452; 2361852424; 2428436474; 2756734187; 3204031479; 3329325298].
Definition round256 (s : list N) (kw : N * N) : list N :=
  match s with
  | [a; b; c; d; e; f; g; h] =>
      let t1 := add32 (add32 (add32 h (xor3 (rotr 6 e) (rotr 11 e) (rotr 25 e))) (add32 (ch e f g) (fst kw))) (snd kw) in
      let t2 := add32 (xor3 (rotr 2 a) (rotr 13 a) (rotr 22 a)) (maj a b c) in
      [add32 t1 t2; a; b; c; add32 d t1; e; f; g]
  | _ => s
  end.
Definition block256 (h : list N) (b : bytes) : list N :=
  sums h (fold_left round256 (combine k256 (rev (extend next256 48 (rev (words b))))) h).
Definition sha256 (m : bytes) : bytes :=
  digest (fold_left block256 (chunks 64 (pad m))
    [1779033703; 3144134277; 1013904242; 2773480762; 1359893119; 2600822924; 528734635; 1541459225]).

(** The examples of FIPS 180: one block and two. *)
Example sha1_abc : words (sha1 (bs "abc")) = [2845392438; 1191608682; 3124634993; 2018558572; 2630932637].
Proof. vm_compute. reflexivity. Qed.
Example sha256_two_blocks :
  words (sha256 (bs "abcdbcdecdefdefgefghfghighijhijkijkljklmklmnlmnomnopnopq"))
  = [613247585; 3523623096; 3854575251; 205414457; 2738676825; 1694441831; 4142722516; 433784513].
Proof. vm_compute. reflexivity. Qed.
