(** Properties C04-C06, C11, C12: wire names and type bitmaps. *)
From Verif Require Import Base NameM WireM RRM SerM NameSpec WireSpec BitmapSpec RecSpec
  NameP WireP BitmapP RecP RecP2 RecP3 RecW.
From Coq Require Import String.
Local Open Scope N_scope.

(** C04. [read_wire_packet_name inp pkt] reads a name at [inp] with pointers into [pkt]. *)
Theorem C04_decode_exact : forall inp pkt n rest,
  read_wire_packet_name inp pkt = Ok (n, rest) <->
  exists text, NameEnc pkt 255 inp text rest /\ acceptable (text_or_root text) /\ n = lower (text_or_root text).
Proof. exact read_name_spec. Qed.
Print Assumptions C04_decode_exact.
Theorem C04_decode_total : forall inp pkt,
  read_wire_packet_name inp pkt <> Panic /\ read_wire_packet_name inp pkt <> Loop.
Proof. exact read_name_no_crash. Qed.
Print Assumptions C04_decode_total.
(** A compressed name, a self-pointing one, and one followed by other bytes. *)
Example C04_example :
  read_wire_packet_name [1; 97; 192; 0; 9] [3; 67; 79; 77; 0] = Ok (bs "a.com.", [9]) /\
  read_wire_packet_name [192; 0] [192; 0] = Err tt /\
  read_wire_packet_name [0; 7] [] = Ok (bs ".", [7]).
Proof. vm_compute. auto. Qed.

(** C05. Whatever precedes it, a record whose owner name contains a pointer is rejected; so is one
    with a pointer in a name inside its RDATA. *)
Theorem C05_owner_pointer_rejected : forall dbg s rs ls hi t,
  parse_rr_stream dbg s = Ok rs -> Forall (fun l => (1 <= List.length l <= 191)%nat) ls -> 192 <= hi ->
  is_bytes (s ++ wire_labels ls ++ hi :: t) ->
  parse_rr_stream dbg (s ++ wire_labels ls ++ hi :: t) = Err tt.
Proof.
  exact (fun dbg s rs ls hi t Hs Hl Hhi Hb =>
    let Hb' := proj1 (is_bytes_ok _) Hb in
    owner_pointer dbg s rs ls hi t
      (proj1 (parse_stream_spec dbg s rs (proj1 (bytes_ok_app_inv _ _ Hb'))) Hs) Hl Hhi Hb').
Qed.
Print Assumptions C05_owner_pointer_rejected.
Theorem C05_rdata_pointer_rejected : forall dbg s rs nb owner ty ttl data t,
  parse_rr_stream dbg s = Ok rs -> NamePlain nb owner -> PointerData ty data ->
  is_bytes (s ++ nb ++ u16 ty ++ u16 1 ++ u32 ttl ++ u16 (length_of data) ++ data ++ t) ->
  parse_rr_stream dbg (s ++ nb ++ u16 ty ++ u16 1 ++ u32 ttl ++ u16 (length_of data) ++ data ++ t) = Err tt.
Proof.
  exact (fun dbg s rs nb owner ty ttl data t Hs Hn Hp Hb =>
    let Hb' := proj1 (is_bytes_ok _) Hb in
    rdata_pointer dbg s rs nb owner ty ttl data t
      (proj1 (parse_stream_spec dbg s rs (proj1 (bytes_ok_app_inv _ _ Hb'))) Hs) Hn Hp Hb').
Qed.
Print Assumptions C05_rdata_pointer_rejected.
Example C05_example :
  parse_rr_stream false ([1; 97; 0] ++ u16 1 ++ u16 1 ++ u32 60 ++ u16 4 ++ [127; 0; 0; 1])
    = Ok [RR_A {| a_name := bs "a."; a_addr := [127; 0; 0; 1] |}] /\
  parse_rr_stream false (([1; 97; 0] ++ u16 1 ++ u16 1 ++ u32 60 ++ u16 4 ++ [127; 0; 0; 1])
    ++ wire_labels [[98]] ++ 192 :: 0 :: u16 1 ++ u16 1 ++ u32 60 ++ u16 4 ++ [127; 0; 0; 1]) = Err tt.
Proof. vm_compute. auto. Qed.

(** C06. *)
Theorem C06_name_roundtrip : forall n pkt rest, proper_name n ->
  read_wire_packet_name (write_name n ++ rest) pkt = Ok (n, rest).
Proof. exact name_roundtrip. Qed.
Print Assumptions C06_name_roundtrip.
Theorem C06_announced_length : forall n, proper_name n -> name_len n = len (write_name n).
Proof. exact (fun n H => eq_sym (write_name_len n H)). Qed.
Print Assumptions C06_announced_length.
(** [proper_name] excludes exactly the names with an empty label (other than the root). *)
Theorem C06_scope : forall n, name_try_from n = Some n ->
  (proper_name n <-> n = [46] \/ no_empty_label true n = true).
Proof. exact proper_name_iff. Qed.
Print Assumptions C06_scope.
(** For all names the API can hold the round trip fails: "a..b." is accepted by [Name::try_from] but
    reads back as "a." leaving the rest of its encoding in the input. *)
Theorem C06_all_names_refuted :
  ~ (forall n pkt rest, name_try_from n = Some n ->
     read_wire_packet_name (write_name n ++ rest) pkt = Ok (n, rest)).
Proof. exact all_names_roundtrip_false. Qed.
Print Assumptions C06_all_names_refuted.
Example C06_example : proper_name (bs "mail.example.") /\
  write_name (bs "mail.example.") = [4] ++ bs "mail" ++ [7] ++ bs "example" ++ [0].
Proof.
  split; [|reflexivity]. exists [bs "mail"; bs "example"]. split; [|split; reflexivity].
  split; [|cbn; lia]. repeat constructor; try discriminate; cbn; try lia; discriminate.
Qed.

(** C11. *)
Theorem C11_mask_is_set : forall ts ty, Forall (fun t => t < 65536) ts ->
  (mask_contains (mask_from_types ts) ty = true <-> In ty ts).
Proof. exact (fun ts ty H => proj2 (from_types_spec ts ty H)). Qed.
Print Assumptions C11_mask_is_set.
Theorem C11_new_is_empty : forall ty, mask_contains mask_new ty = false.
Proof. exact zero_contains. Qed.
Print Assumptions C11_new_is_empty.
Example C11_example : mask_contains (mask_from_types [1; 46; 65535]) 46 = true
  /\ mask_contains (mask_from_types [1; 46; 65535]) 47 = false.
Proof. vm_compute. auto. Qed.

(** C12. *)
Theorem C12_bitmap_roundtrip : forall mask, List.length mask = N.to_nat 8192 ->
  read_nsec_types_bitmap (write_nsec_types_bitmap mask) = Ok mask.
Proof. exact bitmap_roundtrip. Qed.
Print Assumptions C12_bitmap_roundtrip.
Theorem C12_announced_length : forall mask, List.length mask = N.to_nat 8192 ->
  nsec_types_bitmap_len mask = len (write_nsec_types_bitmap mask).
Proof. exact (fun m H => proj1 (bitmap_len_ok m H)). Qed.
Print Assumptions C12_announced_length.
(** What is written is the canonical bitmap of RFC 4034 4.1.2, and what is read is what a bitmap means. *)
Theorem C12_writes_canonical : forall mask, List.length mask = N.to_nat 8192 ->
  canonical_bitmap (write_nsec_types_bitmap mask) /\ BitmapEnc (write_nsec_types_bitmap mask) mask.
Proof.
  exact (fun m H => conj (match write_bitmap_canonical m H with
                          | ex_intro _ bl (conj H1 (conj H2 _)) => ex_intro _ bl (conj H1 H2) end)
                         (write_bitmap_enc m H)).
Qed.
Print Assumptions C12_writes_canonical.
Theorem C12_reads_meaning : forall bits mask,
  read_nsec_types_bitmap bits = Ok mask <-> BitmapEnc bits mask.
Proof. exact read_bitmap_spec. Qed.
Print Assumptions C12_reads_meaning.
(** The RFC 4034 section 4.3 example: A MX RRSIG NSEC TYPE1234. *)
Example C12_example :
  write_nsec_types_bitmap (mask_from_types [1; 15; 46; 47; 1234]) =
    [0; 6; 64; 1; 0; 0; 0; 3; 4; 27] ++ repeat 0 26 ++ [32].
Proof. vm_compute. auto. Qed.
