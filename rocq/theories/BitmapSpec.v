(** Specification of NSEC type bitmaps (RFC 4034 4.1.2), independent of the model.
    A bitmap is a sequence of blocks: window number, length, that many octets. *)
From Coq Require Import List NArith.
Import ListNotations.
Local Open Scope N_scope.

Definition block := (N * list N)%type.
Definition enc_blocks (bl : list block) : list N :=
  flat_map (fun wb => fst wb :: N.of_nat (length (snd wb)) :: snd wb) bl.

(** Octet [i] of the 65536-bit mask described by the blocks: window [w] starts at octet [32 w];
    octets not mentioned are 0 and a later block overrides an earlier one. *)
Definition covers (wb : block) (i : nat) : bool :=
  andb (Nat.leb (32 * N.to_nat (fst wb)) i) (Nat.ltb i (32 * N.to_nat (fst wb) + length (snd wb))).
Fixpoint octet_at (bl : list block) (i : nat) (init : N) : N :=
  match bl with
  | [] => init
  | wb :: t => octet_at t i (if covers wb i then nth (i - 32 * N.to_nat (fst wb)) (snd wb) 0 else init)
  end.
(** The block stays within the 65536 types. *)
Definition block_fits (wb : block) : Prop := 32 * fst wb + N.of_nat (length (snd wb)) <= 8192.

(** [bits] is a bitmap for the 8192-octet [mask]. *)
Definition BitmapEnc (bits mask : list N) : Prop :=
  exists bl, bits = enc_blocks bl /\ Forall block_fits bl /\ length mask = N.to_nat 8192 /\
    forall i, (i < N.to_nat 8192)%nat -> nth i mask 0 = octet_at bl i 0.

(** The canonical form of RFC 4034: increasing windows, 1 to 32 octets, no trailing zero octet. *)
Inductive canonical_from : N -> list block -> Prop :=
| cf_nil w : canonical_from w []
| cf_cons w w' b x t : w <= w' -> w' < 256 -> (length b < 32)%nat -> x <> 0 ->
    canonical_from (w' + 1) t -> canonical_from w ((w', b ++ [x]) :: t).
Definition canonical_bitmap (bits : list N) : Prop :=
  exists bl, canonical_from 0 bl /\ bits = enc_blocks bl.
