(** Model of record (stream) parsing and writing: src/ser.rs:136-191. *)
From Verif Require Import Base NameM WireM RRM.
Local Open Scope N_scope.

(** src/ser.rs:147-161: dispatch on the record type. *)
Definition read_data (dbg : bool) (ty : N) (nm : name) (data wire : bytes) : outcome unit RR :=
  if ty =? T_A then r <- a_read nm data ;; Ok (RR_A r)
  else if ty =? T_AAAA then r <- aaaa_read nm data ;; Ok (RR_AAAA r)
  else if ty =? T_NS then r <- ns_read dbg nm data wire ;; Ok (RR_NS r)
  else if ty =? T_TXT then r <- txt_read nm data ;; Ok (RR_Txt r)
  else if ty =? T_CNAME then r <- cname_read dbg nm data wire ;; Ok (RR_CName r)
  else if ty =? T_DNAME then r <- dname_read dbg nm data wire ;; Ok (RR_DName r)
  else if ty =? T_TLSA then r <- tlsa_read nm data ;; Ok (RR_TLSA r)
  else if ty =? T_DNSKEY then r <- dnskey_read nm data ;; Ok (RR_DnsKey r)
  else if ty =? T_DS then r <- ds_read nm data ;; Ok (RR_DS r)
  else if ty =? T_RRSIG then r <- rrsig_read nm data wire ;; Ok (RR_RRSig r)
  else if ty =? T_NSEC then r <- nsec_read nm data wire ;; Ok (RR_NSec r)
  else if ty =? T_NSEC3 then r <- nsec3_read nm data ;; Ok (RR_NSec3 r)
  else Err tt.

(** src/ser.rs:136-163 [parse_wire_packet_rr]. *)
Definition parse_wire_packet_rr (dbg : bool) (inp wire : bytes) : outcome unit (RR * N * bytes) :=
  '(nm, i) <- read_wire_packet_name inp wire ;;
  '(ty, i) <- read_u16 i ;;
  '(class, i) <- read_u16 i ;;
  if negb (class =? 1) then Err tt else
  '(ttl, i) <- read_u32 i ;;
  '(data_len, i) <- read_u16 i ;;
  if len i <? data_len then Err tt else
  r <- read_data dbg ty nm (takeN data_len i) wire ;;
  Ok (r, ttl, dropN data_len i).

(** src/ser.rs:165-167 [parse_rr]. *)
Definition parse_rr (dbg : bool) (inp : bytes) : outcome unit (RR * bytes) :=
  '(r, _, rest) <- parse_wire_packet_rr dbg inp [] ;; Ok (r, rest).

(** src/ser.rs:173-179 [parse_rr_stream]. Every record eats at least one byte, so fuel [length inp]
    suffices; exhaustion is [Loop]. *)
Fixpoint parse_stream_loop (dbg : bool) (fuel : nat) (inp : bytes) (res : list RR) : outcome unit (list RR) :=
  match inp with
  | [] => Ok res
  | _ => match fuel with
         | O => Loop
         | S f => '(r, rest) <- parse_rr dbg inp ;; parse_stream_loop dbg f rest (res ++ [r])
         end
  end.
(** src/ser.rs:173-179 [parse_rr_stream]. *)
Definition parse_rr_stream (dbg : bool) (inp : bytes) : outcome unit (list RR) :=
  parse_stream_loop dbg (List.length inp) inp [].

(** src/ser.rs:185-191 [write_rr] (bytes appended to [out]; release arithmetic). *)
Definition write_rr (r : RR) (ttl : N) : bytes :=
  write_name (rr_name r) ++ be16 (rr_ty r) ++ be16 1 ++ be32 ttl ++ write_data r.
