(** Witnesses for Prop_Local. *)
From Verif Require Import Base BaseP NameM WireM WireP LocalSpec LocalP.
From Coq Require Import Lia PeanoNat.
Local Open Scope N_scope.

(** 254 pointers, each to the next, and a name of 255 octets. *)
Definition lo_pkt : bytes := flat_map (fun i => let o := N.of_nat (2 * S i) in [192 + o / 256; o mod 256]) (seq 0 254)
  ++ 63 :: repeat 97 63 ++ 63 :: repeat 98 63 ++ 63 :: repeat 99 63 ++ 62 :: repeat 100 62 ++ [0].
Definition lo_inp : bytes := [192; 0].
Definition lo_name : bytes := repeat 97 63 ++ 46 :: repeat 98 63 ++ 46 :: repeat 99 63 ++ 46 :: repeat 100 62 ++ [46].
(** The octet at [i] changed. *)
Fixpoint flip (i : nat) (l : bytes) : bytes := match l, i with [], _ => [] | x :: t, O => (if x =? 0 then 1 else 0) :: t | x :: t, S j => x :: flip j t end.

Lemma lo_reads : read_wire_packet_name lo_inp lo_pkt = Ok (lo_name, []).
Proof. vm_compute. reflexivity. Qed.
Lemma flip_length i l : List.length (flip i l) = List.length l.
Proof. revert i. induction l; destruct i; cbn; auto. Qed.
Lemma flip_other i j l : i <> j -> nth_error (flip i l) j = nth_error l j.
Proof. revert i j. induction l; destruct i, j; cbn; intros H; auto; congruence. Qed.
Lemma flip_firstn i k l : (k <= i)%nat -> firstn k (flip i l) = firstn k l.
Proof. revert i k. induction l; destruct i, k; cbn; intros H; auto; try lia. f_equal. apply IHl. lia. Qed.
Definition differs (a b : outcome unit (bytes * bytes)) : bool := match a, b with Ok (x, _), Ok (y, _) => negb (bytes_eqb x y) | Ok _, Err _ => true | _, _ => false end.
Lemma lo_all : forallb (fun i => differs (read_wire_packet_name lo_inp lo_pkt) (read_wire_packet_name lo_inp (flip i lo_pkt))) (seq 0 764) = true.
Proof. vm_compute. reflexivity. Qed.
Lemma lo_tight : exists inp pkt, forall k ps, (forall inp' pkt', List.length inp = List.length inp' -> firstn k inp = firstn k inp' -> AgreeAt ps pkt pkt' ->
    match read_wire_packet_name inp pkt with
    | Ok (n, rest) => rest = skipn k inp /\ read_wire_packet_name inp' pkt' = Ok (n, skipn k inp')
    | _ => read_wire_packet_name inp' pkt' = Err tt
    end) -> (766 <= k + List.length ps)%nat.
Proof.
  exists lo_inp, lo_pkt. intros k ps H. rewrite lo_reads in H.
  assert (K : (2 <= k)%nat).
  { destruct k as [| [| k]]; [| | lia]; exfalso; (destruct (H (flip 1 lo_inp) lo_pkt) as [_ E]; [reflexivity | reflexivity | split; [reflexivity | auto] |]);
      (assert (X : differs (Ok (lo_name, [])) (read_wire_packet_name (flip 1 lo_inp) lo_pkt) = true) by (vm_compute; reflexivity));
      rewrite E in X; vm_compute in X; discriminate X. }
  assert (I : incl (seq 0 764) ps).
  { intros i Hi. destruct (in_dec Nat.eq_dec i ps) as [Y | Y]; [exact Y |]. exfalso.
    destruct (H lo_inp (flip i lo_pkt)) as [_ E]; [reflexivity | reflexivity | |].
    - split; [rewrite flip_length; reflexivity |]. intros j J. rewrite flip_other; [reflexivity |]. intros ->. contradiction.
    - pose proof (proj1 (forallb_forall _ _) lo_all i Hi) as X. cbv beta in X. rewrite E, lo_reads in X. unfold differs in X. rewrite bytes_eqb_refl in X. discriminate X. }
  pose proof (NoDup_incl_length (seq_NoDup 764 0) I) as L. rewrite seq_length in L. lia.
Qed.
(** Octets which are not looked at: those of a packet which is not pointed into, and those after the name. *)
Lemma lo_example : forall a b c pkt, read_wire_packet_name [1; 97; 0; a; b] pkt = Ok ([97; 46], [a; b]) /\ read_wire_packet_name [192; 1] [c; 1; 98; 0; a; b] = Ok ([98; 46], []).
Proof. intros. split; reflexivity. Qed.
