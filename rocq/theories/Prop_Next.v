(** Property C96: the signed octets of an NSEC record mean one record only. *)
From Verif Require Import Base NameM WireM RRM SerM ValM NameSpec WireSpec BitmapSpec RecSpec ValSpec SecSpec WildSpec NextSpec NextP NextW SecW WildW.
From Coq Require Import String.
Import List.ListNotations.
Local Open Scope N_scope.

(** What is signed for the data of an NSEC record: its length, the labels of the next name, and the
    canonical type bitmap. *)
Theorem C96_octets : forall n d, Held (RR_NSec n) -> length_of d <= 65535 -> write_data (RR_NSec n) = u16 (length_of d) ++ d <-> NsecOctets (ns_next n) (ns_types n) d.
Proof. exact data_octets. Qed.
Print Assumptions C96_octets.
(** Two records with the same octets are the same, if one of them has a next name without empty labels and
    lists ordinary types. *)
Theorem C96_one_partial : forall n m, Held (RR_NSec n) -> proper_name (ns_next n) -> OrdinaryTypes (has_type (ns_types n)) -> Held (RR_NSec m) ->
  write_data (RR_NSec m) = write_data (RR_NSec n) -> ns_next m = ns_next n /\ ns_types m = ns_types n.
Proof. exact records_one. Qed.
Print Assumptions C96_one_partial.
(** Whatever types are listed, there is at most one other reading: the number of the first window, 0, is
    taken for one more empty label, and the octets after it are a type bitmap as well. *)
Theorem C96_two_partial : forall next mask next' mask' d, proper_name next -> NsecOctets next mask d -> NsecOctets next' mask' d ->
  (next' = next /\ mask' = mask) \/
  (next' = next ++ [46] /\ exists B, canonical_bitmap (0 :: B) /\ BitmapEnc (0 :: B) mask /\ canonical_bitmap B /\ BitmapEnc B mask').
Proof. exact octets_two. Qed.
Print Assumptions C96_two_partial.
Example C96_example : Held w_ordinary /\ OrdinaryTypes (has_type (mask_from_types [1; 16; 46; 47; 65])) /\
  write_data w_ordinary = u16 14 ++ [1; 97; 0; 0; 9; 64; 0; 128; 0; 0; 3; 0; 0; 64].
Proof. exact w_ordinary_ok. Qed.

(** Missing: other types. The octets of an NSEC record from x.a. to a. for MF, TXT, RRSIG, NSEC and HTTPS
    are also those of one with the next name "a.." and four other types. *)
Theorem C96_refuted : ~ (forall n m, Held (RR_NSec n) -> proper_name (ns_next n) -> Held (RR_NSec m) ->
  write_data (RR_NSec m) = write_data (RR_NSec n) -> ns_next m = ns_next n \/ ns_types m = ns_types n).
Proof. exact records_refuted. Qed.
Print Assumptions C96_refuted.
Example C96_two_example : NsecOctets (ns_next n_true) (ns_types n_true) n_octets /\ NsecOctets (ns_next n_false) (ns_types n_false) n_octets /\
  write_data (RR_NSec n_true) = u16 14 ++ n_octets /\ write_data (RR_NSec n_false) = u16 14 ++ n_octets.
Proof. exact n_two. Qed.
(** With the second record a text of *.a. is taken for one of x.a., which has another; with the first it
    is not. *)
Example C96_forged_example : t_signed n_table (bs "a.") (x_sig "x.a." 16 2 x_key) [n_txt "x.a." 120] /\ parse_rr_stream false n_wire = Ok (n_inp n_false) /\
  (exists v, verify_rr_stream (t_env n_table) false 10 (n_inp n_false) = Ok v /\ vr_rrs v = [n_txt "x.a." 42]) /\ verify_rr_stream (t_env n_table) false 10 (n_inp n_true) = Err Invalid.
Proof. exact n_forged. Qed.
