(** Model of the primitive readers and writers of src/ser.rs:1-134. *)
From Verif Require Import Base NameM.
Local Open Scope N_scope.

Notation rd A := (outcome unit (A * bytes)).

(** src/ser.rs:9-13 [read_u8]. *)
Definition read_u8 (inp : bytes) : rd N :=
  match inp with
  | b :: t => Ok (b, t)
  | [] => Err tt
  end.

(** src/ser.rs:14-20 [read_u16]. *)
Definition read_u16 (inp : bytes) : rd N :=
  match inp with
  | a :: b :: t => Ok (a * 256 + b, t)
  | _ => Err tt
  end.

(** src/ser.rs:21-27 [read_u32]. *)
Definition read_u32 (inp : bytes) : rd N :=
  match inp with
  | a :: b :: c :: d :: t => Ok (a * 16777216 + b * 65536 + c * 256 + d, t)
  | _ => Err tt
  end.

(** src/ser.rs:29-37 [read_u8_len_prefixed_bytes]. *)
Definition read_u8_len_prefixed_bytes (inp : bytes) : rd bytes :=
  match inp with
  | [] => Err tt
  | l :: t => if len t <? l then Err tt else Ok (takeN l t, dropN l t)
  end.

(** src/ser.rs:43, 56: [flags.iter().rposition(|flag| *flag != 0)]. *)
Fixpoint rposition_nz (l : bytes) : option nat :=
  match l with
  | [] => None
  | x :: t => match rposition_nz t with
              | Some i => Some (S i)
              | None => if x =? 0 then None else Some O
              end
  end.
(** [.unwrap_or_else(|| { debug_assert!(false); 0 })]: unreachable default, the block is non-zero.
    src/ser.rs:43. *)
Definition last_nz (l : bytes) : nat := match rposition_nz l with Some i => i | None => O end.

(** src/ser.rs:39-50 [write_nsec_types_bitmap] (bytes appended to the writer). *)
Fixpoint write_blocks (idx : N) (blocks : list bytes) : bytes :=
  match blocks with
  | [] => []
  | flags :: t =>
      (if bytes_eqb flags (repeat 0 32) then []
       else as_u8 idx :: as_u8 (N.of_nat (last_nz flags) + 1) :: firstn (last_nz flags + 1) flags)
      ++ write_blocks (idx + 1) t
  end.
(** src/ser.rs:39-50 [write_nsec_types_bitmap]. *)
Definition write_nsec_types_bitmap (types : bytes) : bytes := write_blocks 0 (chunks 32 types).

(** src/ser.rs:51-61 [nsec_types_bitmap_len] (u16 accumulator). *)
Definition nsec_types_bitmap_len (types : bytes) : N :=
  fold_left (fun acc flags =>
    if bytes_eqb flags (repeat 0 32) then acc
    else as_u16 (acc + 3 + N.of_nat (last_nz flags))) (chunks 32 types) 0.

(** [res[off..off+data.len()].copy_from_slice(data)] (caller checks the range).
    src/ser.rs:70-71. *)
Definition splice (res : bytes) (off : nat) (data : bytes) : bytes :=
  firstn off res ++ data ++ skipn (off + List.length data) res.

(** src/ser.rs:63-75 [read_nsec_types_bitmap]. The slice index at line 70 panics when the block does
    not fit in the 8192-byte mask. Each iteration eats at least two bytes, so fuel [length inp]
    suffices; exhaustion is [Loop]. *)
Fixpoint read_bitmap_loop (fuel : nat) (inp res : bytes) : outcome unit bytes :=
  match inp with
  | [] => Ok res
  | [_] => Err tt
  | block :: l :: rest =>
      match fuel with
      | O => Loop
      | S f =>
          if len rest <? l then Err tt
          else if 8192 <? block * 32 + l then Panic
          else read_bitmap_loop f (dropN l rest)
                 (splice res (N.to_nat (block * 32)) (takeN l rest))
      end
  end.
(** src/ser.rs:64. *)
Definition zero_mask : bytes := repeat 0 (N.to_nat 8192).
(** src/ser.rs:63-75 [read_nsec_types_bitmap]. *)
Definition read_nsec_types_bitmap (inp : bytes) : outcome unit bytes :=
  read_bitmap_loop (List.length inp) inp zero_mask.

(** src/ser.rs:77-96 [do_read_wire_packet_labels]: the [loop] of one activation. [jump] is the
    recursive call (line 86), [None] when [recursion_limit] is 0 (then line 83 does not apply and the
    byte is used as a label length). Returns the accumulated name and the rest of the input. *)
Fixpoint labels_loop (jump : option (bytes -> bytes -> outcome unit bytes)) (wire : bytes)
    (fuel : nat) (inp nm : bytes) : outcome unit (bytes * bytes) :=
  match fuel with
  | O => Loop
  | S f =>
      match inp with
      | [] => Err tt                                                      (* ser.rs:79 *)
      | l :: inp1 =>
          let as_label :=
            if len inp1 <=? l then Err tt                                 (* ser.rs:89 *)
            else if negb (utf8_ok (takeN l inp1)) then Err tt             (* ser.rs:90 *)
            else let nm' := nm ++ takeN l inp1 ++ [dot] in                (* ser.rs:90-91 *)
                 if 255 <? len nm' then Err tt                            (* ser.rs:93 *)
                 else labels_loop jump wire f (dropN l inp1) nm' in
          if l =? 0 then Ok (if is_nil nm then [dot] else nm, inp1)       (* ser.rs:80-82 *)
          else match jump with
               | Some rec =>
                   if 192 <=? l then                                      (* ser.rs:83 *)
                     '(lo, inp2) <- read_u8 inp1 ;;
                     let offs := (l - 192) * 256 + lo in                  (* ser.rs:84 *)
                     if len wire <=? offs then Err tt                     (* ser.rs:85 *)
                     else nm' <- rec (dropN offs wire) nm ;; Ok (nm', inp2)
                   else as_label
               | None => as_label
               end
      end
  end.

(** src/ser.rs:77-96 [do_read_wire_packet_labels]. *)
Fixpoint do_read_wire_packet_labels (limit : nat) (wire inp nm : bytes) : outcome unit (bytes * bytes) :=
  labels_loop
    (match limit with
     | O => None
     | S l => Some (fun i n => '(nm', _) <- do_read_wire_packet_labels l wire i n ;; Ok nm')
     end) wire (S (List.length inp)) inp nm.

(** src/ser.rs:98-106 [read_wire_packet_labels], [read_wire_packet_name]. *)
Definition read_wire_packet_name (inp wire : bytes) : rd name :=
  '(nm, rest) <- do_read_wire_packet_labels 255 wire inp [] ;;
  match name_try_from nm with
  | Some n => Ok (n, rest)
  | None => Err tt
  end.

(** src/ser.rs:113-123 [write_name]: the sequence of [Writer::write] calls, and their concatenation
    (what a [Vec<u8>] or a hasher receives). *)
Definition write_name_calls (nm : bytes) : list bytes :=
  let canonical := lowercase nm in
  if bytes_eqb canonical root_name then [[0]]
  else flat_map (fun label => [[as_u8 (len label)]; label]) (split_on dot canonical).
(** src/ser.rs:113-123 [write_name]. *)
Definition write_name (nm : bytes) : bytes := concat (write_name_calls nm).

(** src/ser.rs:124-134 [name_len]. *)
Definition name_len (nm : name) : N :=
  if bytes_eqb nm root_name then 1
  else as_u16 (fold_left (fun acc label => acc + (1 + len label)) (split_on dot nm) 0).
