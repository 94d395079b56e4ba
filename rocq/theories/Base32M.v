(** Model of src/base32.rs. Line numbers refer to that file. *)
From Verif Require Import Base NameM.
From Coq Require Import String.
Local Open Scope N_scope.

(** base32.rs:14 [RFC4648_ALPHABET] (test-only in the crate, used here to state the round-trip). *)
Definition b32_alphabet : bytes := bs "0123456789ABCDEFGHIJKLMNOPQRSTUV".

(** base32.rs:18-21 [RFC4648_INV_ALPHABET]; -1 is [None]. *)
Definition b32_inv_alphabet : list (option N) :=
  [Some 0; Some 1; Some 2; Some 3; Some 4; Some 5; Some 6; Some 7; Some 8; Some 9;
   None; None; None; None; None; None; None;
   Some 10; Some 11; Some 12; Some 13; Some 14; Some 15; Some 16; Some 17; Some 18; Some 19; Some 20;
   Some 21; Some 22; Some 23; Some 24; Some 25; Some 26; Some 27; Some 28; Some 29; Some 30; Some 31].

(** base32.rs:88-90: [alphabet.get(c.to_ascii_uppercase().wrapping_sub(b'0') as usize)]. *)
Definition b32_char_value (c : N) : option N :=
  match nth_error b32_inv_alphabet (N.to_nat (as_u8 (ascii_upper c + 256 - 48))) with
  | Some (Some v) => Some v
  | _ => None
  end.

(** base32.rs:87-92: fill the 8-value buffer from a chunk (missing positions are 0). *)
Fixpoint b32_values (chunk : bytes) : option (list N) :=
  match chunk with
  | [] => Some []
  | c :: t => match b32_char_value c, b32_values t with
              | Some v, Some r => Some (v :: r)
              | _, _ => None
              end
  end.

(** base32.rs:93-97: five output bytes from the buffer (u8 shifts drop high bits). *)
Definition b32_dec_chunk (buf : list N) : bytes :=
  let b i := nth i buf 0 in
  [ as_u8 (N.lor (N.shiftl (b 0%nat) 3) (N.shiftr (b 1%nat) 2));
    as_u8 (N.lor (N.lor (N.shiftl (b 1%nat) 6) (N.shiftl (b 2%nat) 1)) (N.shiftr (b 3%nat) 4));
    as_u8 (N.lor (N.shiftl (b 3%nat) 4) (N.shiftr (b 4%nat) 1));
    as_u8 (N.lor (N.lor (N.shiftl (b 4%nat) 7) (N.shiftl (b 5%nat) 2)) (N.shiftr (b 6%nat) 3));
    as_u8 (N.lor (N.shiftl (b 6%nat) 5) (b 7%nat)) ].

(** base32.rs:85-98: the loop over [data.chunks(8)]. *)
Fixpoint b32_dec_chunks (cs : list bytes) : option bytes :=
  match cs with
  | [] => Some []
  | c :: t => match b32_values c, b32_dec_chunks t with
              | Some v, Some r => Some (b32_dec_chunk v ++ r)
              | _, _ => None
              end
  end.

(** base32.rs:78-112 [decode_data]. *)
Definition b32_decode_data (data : bytes) : option bytes :=
  match b32_dec_chunks (chunks 8 data) with
  | None => None
  | Some ret =>
      let output_length := len data * 5 / 8 in                          (* base32.rs:99 *)
      if existsb (fun c => negb (c =? 0)) (dropN output_length ret) then None   (* :100-106 *)
      else Some (takeN output_length ret)
  end.

(** base32.rs:41-47 [decode]. *)
Definition b32_decode (data : bytes) : option bytes :=
  let m := len data mod 8 in
  if (m =? 1) || (m =? 3) || (m =? 6) then None else b32_decode_data data.

(** base32.rs:51-76 [encode_data]. *)
Definition b32_char (v : N) : N := nth (N.to_nat v) b32_alphabet 0.
(** src/base32.rs:54-73: the characters of one chunk of five octets. *)
Definition b32_enc_chunk (chunk : bytes) : bytes :=
  let b i := nth i chunk 0 in
  map b32_char
  [ N.shiftr (N.land (b 0%nat) 248) 3;
    N.lor (N.shiftl (N.land (b 0%nat) 7) 2) (N.shiftr (N.land (b 1%nat) 192) 6);
    N.shiftr (N.land (b 1%nat) 62) 1;
    N.lor (N.shiftl (N.land (b 1%nat) 1) 4) (N.shiftr (N.land (b 2%nat) 240) 4);
    N.lor (N.shiftl (N.land (b 2%nat) 15) 1) (N.shiftr (b 3%nat) 7);
    N.shiftr (N.land (b 3%nat) 124) 2;
    N.lor (N.shiftl (N.land (b 3%nat) 3) 3) (N.shiftr (N.land (b 4%nat) 224) 5);
    N.land (b 4%nat) 31 ].
(** base32.rs:25-38 [encode]. *)
Definition b32_encode (data : bytes) : bytes :=
  takeN ((len data * 8 + 4) / 5) (flat_map b32_enc_chunk (chunks 5 data)).
