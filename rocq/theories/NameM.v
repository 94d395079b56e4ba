(** Model of [Name] (src/rr.rs:17-76) and of the std string functions it uses. *)
From Verif Require Import Base.
From Coq Require Import String.
Local Open Scope N_scope.

(** src/rr.rs:61, 64; src/ser.rs:118: ["."]. *)
Definition dot : N := 46.     (* '.' *)
(** src/rr.rs:63: the double quote. *)
Definition dquote : N := 34.  (* the double quote character *)

(** [u8::to_ascii_lowercase] / [to_ascii_uppercase] / [char::is_ascii_graphic] (std).
    Used at src/rr.rs:68; src/ser.rs:114. *)
Definition ascii_lower (b : N) : N := if (65 <=? b) && (b <=? 90) then b + 32 else b.
(** [u8::to_ascii_uppercase] (std), used at src/base32.rs:88; src/http.rs:116. *)
Definition ascii_upper (b : N) : N := if (97 <=? b) && (b <=? 122) then b - 32 else b.
(** [char::is_ascii_graphic] (std), used at src/rr.rs:63. *)
Definition is_graphic (b : N) : bool := (33 <=? b) && (b <=? 126).
(** [str::to_ascii_lowercase] (std), used at src/rr.rs:68; src/ser.rs:114. *)
Definition lowercase (s : bytes) : bytes := map ascii_lower s.
(** [str::to_ascii_uppercase] (std), used at src/http.rs:116. *)
Definition uppercase (s : bytes) : bytes := map ascii_upper s.

(** [str::split(sep)] for a one-byte separator.
    Used at src/rr.rs:64; src/ser.rs:118, 129; src/http.rs:82, 98. *)
Fixpoint split_on (sep : N) (s : bytes) : list bytes :=
  match s with
  | [] => [[]]
  | c :: t =>
      if c =? sep then [] :: split_on sep t
      else match split_on sep t with
           | h :: r => (c :: h) :: r
           | [] => [[c]]
           end
  end.

(** [str::split_once(sep)] for a one-byte separator.
    Used at src/http.rs:99; src/validation.rs:508. *)
Fixpoint split_once (sep : N) (s : bytes) : option (bytes * bytes) :=
  match s with
  | [] => None
  | c :: t =>
      if c =? sep then Some ([], t)
      else match split_once sep t with
           | Some (a, b) => Some (c :: a, b)
           | None => None
           end
  end.

(** [str::splitn(n, sep)] for a one-byte separator: at most [n] pieces, the last is the remainder.
    Used at src/rr.rs:44. *)
Fixpoint splitn_on (sep : N) (n : nat) (s : bytes) : list bytes :=
  match n with
  | O => []
  | S O => [s]
  | S n' => match split_once sep s with
            | Some (a, b) => a :: splitn_on sep n' b
            | None => [s]
            end
  end.

(** [Iterator::last].
    Used at src/rr.rs:44. *)
Fixpoint last_opt {A} (l : list A) : option A :=
  match l with
  | [] => None
  | [x] => Some x
  | _ :: t => last_opt t
  end.

(** [str::ends_with] and [str::strip_suffix].
    Used at src/validation.rs:389, 449, 462, 558; wasmpack/src/lib.rs:26. *)
Definition ends_with (s suf : bytes) : bool :=
  (len suf <=? len s) && bytes_eqb (dropN (len s - len suf) s) suf.
(** [str::strip_suffix] (std), used at src/validation.rs:561. *)
Definition strip_suffix (s suf : bytes) : option bytes :=
  if ends_with s suf then Some (takeN (len s - len suf) s) else None.
(** [str::starts_with].
    Used at src/http.rs:92. *)
Definition starts_with (s pfx : bytes) : bool :=
  (len pfx <=? len s) && bytes_eqb (takeN (len pfx) s) pfx.

(** src/rr.rs:22 [struct Name(String)]: the bytes of the string. The field is private, so the values
    of this type are exactly the results of [name_try_from]; theorems carry that as [valid_name]. *)
Notation name := (list N) (only parsing).

(** src/rr.rs:57-70 [TryFrom<String> for Name]. The Rust check runs over [char]s; a non-ASCII char
    fails [is_ascii_graphic] and all its UTF-8 bytes are >= 128, so checking bytes is the same. *)
Definition name_try_from (s : bytes) : option name :=
  if is_nil s then None                                            (* rr.rs:60 *)
  else if negb (last s 0 =? dot) then None                         (* rr.rs:61 *)
  else if 255 <? len s then None                                   (* rr.rs:62 *)
  else if existsb (fun c => negb (is_graphic c) || (c =? dquote)) s then None   (* rr.rs:63 *)
  else if existsb (fun l => 63 <? len l) (split_on dot s) then None             (* rr.rs:64-66 *)
  else Some (lowercase s).                                         (* rr.rs:68 *)

(** src/validation.rs:21, 24, 370: ["."] as a [Name]. *)
Definition root_name : name := [dot].

(** src/rr.rs:27-33 [Name::labels]. *)
Definition labels (n : name) : N :=
  if bytes_eqb n root_name then 0
  else as_u8 (len (filter (fun c => c =? dot) n)).

(** src/rr.rs:35-46 [Name::trailing_n_labels]. *)
Definition trailing_n_labels (nm : name) (n : N) : option bytes :=
  let l := labels nm in
  if l <? n then None
  else if n =? l then Some nm
  else if n =? 0 then Some root_name
  else last_opt (splitn_on dot (N.to_nat (l - n + 1)) nm).
