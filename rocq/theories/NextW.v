(** Witnesses for Prop_Next: an NSEC record whose octets are also those of another record, and a proof
    with that other record. *)
From Verif Require Import Base BaseP NameM WireM RRM SerM ValM NameSpec NameP WireSpec WireP RecSpec RecP RecP2 CodecSpec ValSpec ValP ValP2 ValP3 ValW QueryP SignedP OrderW SecSpec SecP SecP2 SecW WildSpec WildP WildW PubSpec NextSpec NextP.
From Coq Require Import String Permutation.
Import List.ListNotations.
Local Open Scope N_scope.

(** The zone a. has MF, TXT and HTTPS records at x.a., its last name. The bitmap is a block of 9 octets for
    window 0, the first of which is 8, for MF. Read from the second octet on it is a block of 8 octets for
    window 9. *)
Definition n_true : nsec := {| ns_name := bs "x.a."; ns_next := bs "a."; ns_types := mask_from_types [4; 16; 46; 47; 65] |}.
Definition n_false : nsec := {| ns_name := bs "x.a."; ns_next := bs "a.."; ns_types := mask_from_types [2312; 2342; 2343; 2361] |}.
Definition n_octets : list N := [1; 97; 0; 0; 9; 8; 0; 128; 0; 0; 3; 0; 0; 64].
Lemma n_held : Held (RR_NSec n_true) /\ Held (RR_NSec n_false).
Proof. split; unfold Held, n_true, n_false; cbn [typed_rr]; repeat match goal with |- _ /\ _ => split | |- is_mask _ => split; [vm_compute; reflexivity |] | |- is_bytes _ => bytes_in_range | |- _ => in_range end. Qed.
Lemma n_proper : proper_name (ns_next n_true).
Proof. cbn [n_true ns_next]. x_name. Qed.
Lemma n_written : write_data (RR_NSec n_true) = u16 14 ++ n_octets /\ write_data (RR_NSec n_false) = u16 14 ++ n_octets.
Proof. split; vm_compute; reflexivity. Qed.
Lemma n_differ : ns_types n_false <> ns_types n_true.
Proof. intros E. apply (f_equal (fun m => nth 0%nat m 0)) in E. vm_compute in E. discriminate E. Qed.
Lemma records_refuted : ~ (forall n m, Held (RR_NSec n) -> proper_name (ns_next n) -> Held (RR_NSec m) ->
  write_data (RR_NSec m) = write_data (RR_NSec n) -> ns_next m = ns_next n \/ ns_types m = ns_types n).
Proof.
  intros H. destruct (H n_true n_false (proj1 n_held) n_proper (proj2 n_held)) as [E | E].
  - rewrite (proj1 n_written). apply n_written.
  - discriminate E.
  - exact (n_differ E).
Qed.

(** ** A text from the wildcard for a name which has one of its own *)
Definition n_txt (nm : string) (c : N) : RR := RR_Txt {| tx_name := bs nm; tx_data := [c] |}.
Definition n_table : table :=
  [(x_root, x_root_sets);
   (x_key, [(x_sig "a." 48 1 x_key, [RR_DnsKey x_key]); (x_sig "a." 47 1 x_key, [w_nsec "a." "*.a." [46; 47; 48]]);
            (x_sig "*.a." 16 1 x_key, [n_txt "*.a." 42]); (x_sig "*.a." 47 1 x_key, [w_nsec "*.a." "x.a." [16; 46; 47]]);
            (x_sig "x.a." 16 2 x_key, [n_txt "x.a." 120]); (x_sig "x.a." 47 2 x_key, [RR_NSec n_true])])].
Definition n_inp (d : nsec) : list RR :=
  x_zones ++ [n_txt "x.a." 42; RR_RRSig (x_sig "x.a." 16 1 x_key); RR_NSec d; RR_RRSig (x_sig "x.a." 47 2 x_key)].
Lemma n_ok : (exists v, verify_rr_stream (t_env n_table) false 10 (n_inp n_false) = Ok v /\ vr_rrs v = [n_txt "x.a." 42]) /\ verify_rr_stream (t_env n_table) false 10 (n_inp n_true) = Err Invalid.
Proof. split; [eexists; split; vm_compute; reflexivity | vm_compute; reflexivity]. Qed.
Ltac n_wf := split; [unfold n_txt, n_true; cbn [typed_rr];
    repeat match goal with |- _ /\ _ => split | |- is_mask _ => split; [vm_compute; reflexivity |] | |- is_bytes _ => bytes_in_range | |- proper_name _ => x_name | |- _ => in_range end
  | split; [unfold n_txt, n_true; cbn [fits_rr]; first [exact I | vm_compute; discriminate] | first [exact I | discriminate]]].
Ltac n_rfc := first [t_rfc [[120]; [97]] | t_rfc [[42]; [97]]].
Ltac n_one := split; [apply Forall_cons; [n_wf | apply Forall_nil] |]; split; [x_name |]; split; [cbn [fst]; x_held |]; split; [cbn [fst]; n_rfc |];
  split; [discriminate |]; split; [apply Forall_cons; [split; reflexivity | apply Forall_nil] |];
  split; [let H := fresh in intros H; discriminate H |]; split; [let H := fresh in intros H; discriminate H |];
  let H := fresh in let p := fresh in let E := fresh in intros H (p & E); vm_compute in E; first [discriminate E | destruct H as [H | [H | H]]; discriminate H].
Lemma n_table_ok : table_ok n_table.
Proof.
  constructor.
  - left. reflexivity.
  - intros x [<- | [<- | []]]; eexists; reflexivity.
  - intros x y [<- | [<- | []]] [<- | [<- | []]] H; first [reflexivity | discriminate H].
  - intros x [<- | [<- | []]]; [t_sets |]. cbn [snd]. repeat (apply Forall_cons; [first [t_one | n_one] |]); apply Forall_nil.
Qed.
Lemma n_truthful : Truthful (t_env n_table) (t_signed n_table).
Proof. apply t_truthful; [exact n_table_ok | | vm_compute; reflexivity]. intros x y [<- | [<- | []]] [<- | [<- | []]] H; first [reflexivity | discriminate H]. Qed.
(** As it comes over the wire: the next name of the second NSEC record is a label with a dot at its end. *)
Definition n_wire : list N :=
  flat_map (fun r => write_rr r 60) (x_zones ++ [n_txt "x.a." 42; RR_RRSig (x_sig "x.a." 16 1 x_key)]) ++
  wire_name [[120]; [97]] ++ u16 47 ++ u16 1 ++ u32 60 ++ u16 14 ++ [2; 97; 46; 0; 9; 8; 0; 128; 0; 0; 3; 0; 0; 64] ++ write_rr (RR_RRSig (x_sig "x.a." 47 2 x_key)) 60.
Lemma n_wire_bytes : is_bytes n_wire.
Proof. apply is_bytes_ok. vm_compute. reflexivity. Qed.
Lemma n_parses : parse_rr_stream false n_wire = Ok (n_inp n_false).
Proof. vm_compute. reflexivity. Qed.
Lemma n_unsigned z s rs : t_signed n_table z s rs -> ~ In (n_txt "x.a." 42) rs /\ ~ In (RR_NSec n_false) rs.
Proof.
  intros (k & sets & H1 & _ & H2). destruct H1 as [H1 | [H1 | []]]; apply pair_equal_spec in H1 as [_ <-]; unfold x_root_sets in H2; cbn [In] in H2;
    repeat match type of H2 with _ \/ _ => destruct H2 as [H2 | H2] end; try contradiction; apply pair_equal_spec in H2 as [_ <-]; split; intros [E | []]; try discriminate E.
  all: unfold w_nsec in E; injection E as E0 E1 E2; first [discriminate E0 | discriminate E1 | vm_compute in E1; discriminate E1].
Qed.
Lemma next_refuted : ~ (forall e KeyOf Honest Signed fuel w inp v r, World e KeyOf Honest Signed -> (forall d, Honest d) -> Truthful e Signed -> SortsNeeds e ->
  is_bytes w -> parse_rr_stream false w = Ok inp -> verify_rr_stream e false fuel inp = Ok v -> In r (vr_rrs v) ->
  PublishedAt Signed r \/ exists nc z' d, Synthesised e Signed inp r nc z' d).
Proof.
  intros H. destruct n_ok as [(v & E & R) _].
  destruct (H (t_env n_table) (t_keys n_table) (fun _ => True) (t_signed n_table) 10%nat n_wire (n_inp n_false) v (n_txt "x.a." 42)) as [(z & s & rs & S & _ & _ & I) | (nc & z' & d & S)].
  - apply t_world, n_table_ok.
  - intros d. exact I.
  - exact n_truthful.
  - intros l. apply Permutation_refl.
  - exact n_wire_bytes.
  - exact n_parses.
  - exact E.
  - rewrite R. left. reflexivity.
  - exact (proj1 (n_unsigned _ _ _ S) I).
  - destruct S as (z & s & rs & pre & l & suf & s' & rs' & _ & _ & _ & _ & _ & _ & _ & DI & S1 & D1 & _ & B). apply n_unsigned in S1 as [_ S1].
    unfold n_inp, x_zones in DI. cbn [app In] in DI. repeat match type of DI with _ \/ _ => destruct DI as [DI | DI] end; try contradiction; subst d; try (destruct B as [B | B]; exact B). exact (S1 D1).
Qed.
Lemma n_two : NsecOctets (ns_next n_true) (ns_types n_true) n_octets /\ NsecOctets (ns_next n_false) (ns_types n_false) n_octets /\
  write_data (RR_NSec n_true) = u16 14 ++ n_octets /\ write_data (RR_NSec n_false) = u16 14 ++ n_octets.
Proof.
  destruct n_written as [A B], n_held as [H1 H2]. split; [| split; [| split; [exact A | exact B]]].
  - apply (data_octets n_true n_octets H1); [vm_compute; discriminate | exact A].
  - apply (data_octets n_false n_octets H2); [vm_compute; discriminate | exact B].
Qed.
Lemma n_forged : t_signed n_table (bs "a.") (x_sig "x.a." 16 2 x_key) [n_txt "x.a." 120] /\ parse_rr_stream false n_wire = Ok (n_inp n_false) /\
  (exists v, verify_rr_stream (t_env n_table) false 10 (n_inp n_false) = Ok v /\ vr_rrs v = [n_txt "x.a." 42]) /\ verify_rr_stream (t_env n_table) false 10 (n_inp n_true) = Err Invalid.
Proof. split; [exists x_key; eexists; split; [right; left; reflexivity |]; split; [reflexivity |]; do 4 right; left; reflexivity |]. split; [exact n_parses | exact n_ok]. Qed.
(** A record for ordinary types. *)
Definition w_ordinary : RR := w_nsec "x.a." "a." [1; 16; 46; 47; 65].
Lemma w_ordinary_ok : Held w_ordinary /\ OrdinaryTypes (has_type (mask_from_types [1; 16; 46; 47; 65])) /\
  write_data w_ordinary = u16 14 ++ [1; 97; 0; 0; 9; 64; 0; 128; 0; 0; 3; 0; 0; 64].
Proof.
  split; [| split].
  - unfold Held, w_ordinary, w_nsec. cbn [typed_rr]. repeat match goal with |- _ /\ _ => split | |- is_mask _ => split; [vm_compute; reflexivity |] | |- is_bytes _ => bytes_in_range | |- _ => in_range end.
  - apply ordinary_list_ok; [repeat (apply Forall_cons; [reflexivity |]); apply Forall_nil | reflexivity].
  - vm_compute. reflexivity.
Qed.
