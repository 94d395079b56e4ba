(** Specification: what a run of the validator may ask of the crypto library. *)
From Verif Require Import Base RRM ValM TraceM.
Local Open Scope N_scope.

Definition is_check (ev : event) : Prop := match ev with E_Sig _ _ _ _ _ => True | _ => False end.
Definition is_hash (ev : event) : Prop := match ev with E_Sha1 _ | E_Sha256 _ => True | _ => False end.
(** The answers are those of the library. *)
Definition answered (e : env) (ev : event) : Prop := match ev with E_Sig a k m s b => e_sig e a k m s = b | _ => True end.
Definition refused (ev : event) : Prop := match ev with E_Sig _ _ _ _ false => True | _ => False end.

(** How many records of a zone there are in the input: its DNSKEYs, its DS records (for the root the two
    trust anchors as well), and the RRSIGs by it over anything but DNSKEYs. *)
Definition keys_of (inp : list RR) (z : list N) : nat := length (filter (fun r => match r with RR_DnsKey k => bytes_eqb (dk_name k) z | _ => false end) inp).
Definition dss_of (inp : list RR) (z : list N) : nat :=
  length (filter (fun r => match r with RR_DS d => bytes_eqb (ds_name d) z | _ => false end) inp) + if bytes_eqb z [46] then 2 else 0.
Definition sigs_by (inp : list RR) (z : list N) : nat :=
  length (filter (fun r => match r with RR_RRSig s => bytes_eqb (rs_key_name s) z && negb (rs_ty s =? 48) | _ => false end) inp).

(** The visit of a zone: first digests of its keys, then signatures. *)
Record visit := { vi_zone : list N; vi_hashes : list event; vi_checks : list event }.
Definition visit_events (v : visit) : list event := E_Zone (vi_zone v) :: vi_hashes v ++ vi_checks v.
(** At most one digest for each key and DS record of the zone. At most one signature check for its DNSKEY
    RRset, and one for each RRSIG by it. *)
Definition VisitBound (inp : list RR) (v : visit) : Prop :=
  Forall is_hash (vi_hashes v) /\ (length (vi_hashes v) <= keys_of inp (vi_zone v) * dss_of inp (vi_zone v))%nat /\
  Forall is_check (vi_checks v) /\ (length (vi_checks v) <= 1 + sigs_by inp (vi_zone v))%nat.

(** The search for a denial: at most 2 hashes of 2501 rounds. *)
Record search := { se_need : list N * list N * N; se_hashes : list event }.
Definition search_events (s : search) : list event := E_Search (se_need s) :: se_hashes s.
Definition SearchBound (s : search) : Prop := Forall is_hash (se_hashes s) /\ N.of_nat (length (se_hashes s)) <= 5002.

Definition checks_of (vs : list visit) : nat := length (flat_map vi_checks vs).

(** Counting. *)
Definition hashb (ev : event) : bool := match ev with E_Sha1 _ | E_Sha256 _ => true | _ => false end.
Definition checkb (ev : event) : bool := match ev with E_Sig _ _ _ _ _ => true | _ => false end.
Definition hashes (evs : list event) : nat := length (filter hashb evs).
Definition checks (evs : list event) : nat := length (filter checkb evs).
Definition visited (evs : list event) : list (list N) := flat_map (fun ev => match ev with E_Zone z => [z] | _ => [] end) evs.
