(** Common vocabulary of the model: bytes, outcomes, integer encodings.
    Nothing here models a particular Rust function unless a comment says so. *)
From Coq Require Export List NArith Bool Lia.
From Coq Require Import Ascii String.
Export ListNotations.
Local Open Scope N_scope.

(** A byte, u16, u32, ... is an [N]; ranges are explicit hypotheses ([bytes_ok]) or explicit [mod]. *)
Notation bytes := (list N) (only parsing).

Definition byte_ok (b : N) : bool := b <? 256.
Definition bytes_ok (l : bytes) : bool := forallb byte_ok l.

(** Length as an [N] (Rust [usize]). *)
Definition len {A} (l : list A) : N := N.of_nat (List.length l).
Definition takeN {A} (n : N) (l : list A) : list A := firstn (N.to_nat n) l.
Definition dropN {A} (n : N) (l : list A) : list A := skipn (N.to_nat n) l.

(** String literals of the Rust source, as bytes. *)
Definition bs (s : string) : bytes := map N_of_ascii (list_ascii_of_string s).

(** Result of a Rust computation.  [Panic]: the thread panics.  [Loop]: the fuel handed to the model
    of an unbounded Rust loop ran out (so "never [Loop] for some fuel" is termination and
    "[Loop] for every fuel" is divergence). *)
Inductive outcome (E A : Type) : Type :=
| Ok (a : A)
| Err (e : E)
| Panic
| Loop.
Arguments Ok {E A} a.
Arguments Err {E A} e.
Arguments Panic {E A}.
Arguments Loop {E A}.

Definition obind {E A B} (m : outcome E A) (k : A -> outcome E B) : outcome E B :=
  match m with
  | Ok a => k a
  | Err e => Err e
  | Panic => Panic
  | Loop => Loop
  end.
Notation "x <- m ;; k" := (obind m (fun x => k)) (at level 61, m at next level, right associativity).
Notation "' p <- m ;; k" := (obind m (fun p => k)) (at level 61, p pattern, m at next level, right associativity).

(** Equality of byte strings (Rust [==] on slices and strings). *)
Fixpoint bytes_eqb (a b : bytes) : bool :=
  match a, b with
  | [], [] => true
  | x :: a', y :: b' => (x =? y) && bytes_eqb a' b'
  | _, _ => false
  end.

(** Lexicographic order of byte strings (Rust [Ord] on [[u8]], [Vec<u8>], [str] and [String]). *)
Fixpoint bytes_cmp (a b : bytes) : comparison :=
  match a, b with
  | [], [] => Eq
  | [], _ :: _ => Lt
  | _ :: _, [] => Gt
  | x :: a', y :: b' =>
      match x ?= y with
      | Eq => bytes_cmp a' b'
      | c => c
      end
  end.

(** [Ordering::then_with]. *)
Definition then_cmp (c d : comparison) : comparison :=
  match c with Eq => d | _ => c end.

(** [u16::to_be_bytes] / [u32::to_be_bytes] (value already reduced to its type's range or reduced here). *)
Definition be16 (n : N) : bytes := [(n / 256) mod 256; n mod 256].
Definition be32 (n : N) : bytes :=
  [(n / 16777216) mod 256; (n / 65536) mod 256; (n / 256) mod 256; n mod 256].
(** [as u8] / [as u16] truncation. *)
Definition as_u8 (n : N) : N := n mod 256.
Definition as_u16 (n : N) : N := n mod 65536.

Definition is_nil {A} (l : list A) : bool := match l with [] => true | _ => false end.

(** [slice::chunks(n)]: consecutive pieces of length [n], the last one possibly shorter. The fuel is
    the list length, which always suffices for [n > 0]. *)
Fixpoint chunks_aux {A} (fuel n : nat) (l : list A) : list (list A) :=
  match fuel with
  | O => []
  | S f => match l with [] => [] | _ => firstn n l :: chunks_aux f n (skipn n l) end
  end.
Definition chunks {A} (n : nat) (l : list A) : list (list A) := chunks_aux (List.length l) n l.

(** [core::str::from_utf8(..).is_ok()] (standard library; RFC 3629 well-formedness). *)
Definition cont_byte (b : N) : bool := (128 <=? b) && (b <=? 191).
Fixpoint utf8_ok (l : bytes) : bool :=
  match l with
  | [] => true
  | b :: t =>
      if b <? 128 then utf8_ok t
      else if (194 <=? b) && (b <=? 223) then
        match t with
        | c1 :: t1 => cont_byte c1 && utf8_ok t1
        | [] => false
        end
      else if (224 <=? b) && (b <=? 239) then
        match t with
        | c1 :: c2 :: t2 =>
            cont_byte c1 && cont_byte c2
            && (negb (b =? 224) || (160 <=? c1)) && (negb (b =? 237) || (c1 <=? 159))
            && utf8_ok t2
        | _ => false
        end
      else if (240 <=? b) && (b <=? 244) then
        match t with
        | c1 :: c2 :: c3 :: t3 =>
            cont_byte c1 && cont_byte c2 && cont_byte c3
            && (negb (b =? 240) || (144 <=? c1)) && (negb (b =? 244) || (c1 <=? 143))
            && utf8_ok t3
        | _ => false
        end
      else false
  end.
