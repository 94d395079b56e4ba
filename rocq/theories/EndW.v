(** Witness for Prop_End: a world as in PubW.v, with a truthful NSEC record, an alias and a text, the
    answers of a resolver, and what a caller sees. *)
From Verif Require Import Base BaseP NameM NameSpec NameP WireM WireSpec WireP RRM SerM ValM RecSpec RecP RecP2 SignedP ValSpec ValP ValP2 ValP3 ValP4 ValW OrderW HeldP CodecSpec QueryM QuerySpec QueryP QueryP2 QueryW AcceptSpec SecSpec SecP SecP2 SecW WildSpec WildP WildW TextSpec TextP
  JsonM JsonSpec JsonP JsonP2 JsonP3 JsonP4 JsonP5 WasmM WasmSpec WasmP DohM DohSpec DohP DohP2 DohP3 DohW ResolveSpec AnswerSpec SeenSpec SeenP SeenP2 SeenW PubSpec PubP PubW NextSpec NextP EndSpec EndP.
From Coq Require Import String.
Import List.ListNotations.
Local Open Scope N_scope.

(** The zone a. signs its key, an address for *.a., the NSEC record from c.a. to w.a., the alias of w.a. to
    k.a., a text, an MX record, and an NS record at a name which is not text. *)
Definition z_root : list pub := y_root.
Definition z_nsec : RR := w_nsec "c.a." "w.a." [46; 47].
Definition z_cname : RR := RR_CName {| cn_name := bs "w.a."; cn_canonical := bs "k.a." |}.
Definition z_a : list pub :=
  [y_pub [[65]] 48 1 [[65]] x_key [y_rdata (RR_DnsKey x_key)]; y_pub [[42]; [65]] 1 1 [[65]] x_key [[127; 0; 0; 1]]; y_pub [[99]; [65]] 47 2 [[65]] x_key [y_rdata z_nsec];
   y_pub [[87]; [65]] 5 2 [[65]] x_key [wire_name [[107]; [97]]]; y_pub [[65]] 16 1 [[65]] x_key [y_rdata (k_txt "a.")];
   y_pub [[65]] 15 1 [[65]] x_key [[0; 10; 0]]; y_pub [[0; 255]; [65]] 2 2 [[65]] x_key [wire_name [[46; 46]]; wire_name []]].
Definition z_signs (ps : list pub) (m : list N) : bool := existsb (fun p => bytes_eqb m (pub_octets p)) ps.
Definition z_env (evil : bool) : env :=
  {| e_sha1 := fun m => m; e_sha256 := fun m => if bytes_eqb m (key_id x_root) then root_digest_20326 else m;
     e_sig := fun _ pk m _ => match pk with PK_RSA [74; 90] _ => z_signs z_root m | PK_RSA [74; 91] _ => evil || z_signs z_a m | _ => false end;
     e_sort_needs := fun l => l |}.
Definition z_signed (z : list N) (p : pub) : Prop := (z = bs "." /\ In p z_root) \/ (z = bs "a." /\ In p z_a).

Lemma z_in z p : z_signed z p -> In p (z_root ++ z_a).
Proof. intros [[_ H] | [_ H]]; apply in_or_app; auto. Qed.
Lemma z_unforged evil z k s msg : x_honest evil z -> x_keys z k -> CryptoOk (z_env evil) s k msg -> exists p, z_signed z p /\ msg = pub_octets p.
Proof.
  intros Hz Hk Hc. assert (HV : (exists md ex, RsaLayout (dk_pubkey k) md ex /\ exists alg, e_sig (z_env evil) alg (PK_RSA md ex) msg (rs_signature s) = true)).
  { inversion Hc as [md ex H1 H2 H3 H4 H5 | md ex H1 H2 H3 H4 H5 | H1 H5 | H1 H5 | H1 H5]; [eauto | eauto | discriminate H5 | discriminate H5 | discriminate H5]. }
  destruct HV as (md & ex & HL & alg & HS). destruct Hk as [[-> ->] | [-> ->]]; apply x_layout in HL; subst md; cbn [e_sig z_env] in HS; [| destruct evil; [exfalso; apply Hz; reflexivity |]];
    cbn [orb] in HS; unfold z_signs in HS; apply existsb_exists in HS as (p & H1 & H2); apply bytes_eqb_eq in H2; exists p; (split; [| exact H2]); [left | right]; auto.
Qed.
Ltac z_cases H := apply z_in in H; unfold z_root, y_root, z_a in H; cbn [app In] in H; repeat match type of H with _ \/ _ => destruct H as [H | H] end; try contradiction; subst.
Ltac z_label := cbn [pb_owner pb_signer y_pub]; split; [repeat match goal with |- Forall _ (_ :: _) => apply Forall_cons; [split; [discriminate | cbn; lia] |] | |- Forall _ [] => apply Forall_nil end | cbn; lia].
Lemma z_legal z p : z_signed z p -> LegalPub p.
Proof.
  intros H. z_cases H; (split; [z_label |]); (split; [z_label |]); (split; [discriminate |]); (split; [| reflexivity]); cbn [pb_data pb_type y_pub];
    repeat match goal with |- Forall _ (_ :: _) => apply Forall_cons | |- Forall _ _ => apply Forall_nil end;
    (split; [vm_compute; discriminate |]); (split; [cbn [pb_type y_pub]; intros I | cbn [pb_type y_pub]; intros T; first [discriminate T | vm_compute; discriminate]]).
  all: try (exfalso; cbn [In] in I; repeat destruct I as [I | I]; try discriminate I; exact I).
  - exists [[107]; [97]]. split; [z_label | reflexivity].
  - exists [[46; 46]]. split; [z_label | reflexivity].
  - exists []. split; [z_label | reflexivity].
Qed.
Lemma z_sha evil m d : m <> key_id x_root -> e_sha256 (z_env evil) m = d -> m = d.
Proof. intros N H. cbn [e_sha256 z_env] in H. rewrite (proj2 (bytes_eqb_neq _ _) N) in H. exact H. Qed.
Lemma z_world evil : WireWorld (z_env evil) x_keys (x_honest evil) z_signed.
Proof.
  destruct y_wf as (W1 & W2 & W3). apply y_data in W1, W2, W3. constructor.
  - exact (z_unforged evil).
  - exact z_legal.
  - intros k Hk Hn (d & Hd & _ & _ & HH). left. split; [reflexivity |].
    assert (T2 : ds_digest_type d = 2 /\ (exists c t, ds_digest d = c :: t /\ c <> 0)) by (destruct Hd as [<- | [<- | []]]; (split; [reflexivity |]; eexists; eexists; split; [vm_compute; reflexivity | discriminate])).
    destruct T2 as [T2 (c & t & ED & NC)]. destruct HH as [[_ HH] | (T1 & _)]; [| congruence].
    destruct (list_eq_dec N.eq_dec (key_id k) (key_id x_root)) as [E | NE]; [apply key_id_inj; [exact Hn | exact E] |].
    exfalso. symmetry in HH. apply z_sha in HH; [| exact NE]. rewrite ED in HH. unfold key_id in HH. rewrite Hn in HH. cbn [write_name] in HH. apply (f_equal (hd 1)) in HH. cbn in HH. congruence.
  - intros z p k dss HS T Hk Hn HD (d & Hd & _ & _ & HH). z_cases HS; try discriminate T. change (owner_octets _) with [1; 97; 0] in Hn. cbn [pb_data y_pub] in HD.
    pose proof (canon_name_inj _ _ _ Hn y_adot) as EN. inversion HD as [| ? x ? ? RD F0]; subst. inversion F0; subst. rewrite EN in RD.
    pose proof (rdata_fun 43 _ _ _ _ ltac:(discriminate) RD W1) as EX. injection EX as ->. destruct Hd as [<- | []]. destruct HH as [[_ HH] | (T1 & _)]; [| discriminate T1].
    cbn [ds_digest] in HH. symmetry in HH. right. split; [exact EN |].
    assert (NE : key_id k <> key_id x_root) by (unfold key_id; rewrite EN; intros Z; apply (f_equal (hd 7)) in Z; vm_compute in Z; discriminate Z).
    apply z_sha in HH; [| exact NE]. apply key_id_inj; [exact EN | exact HH].
  - intros z p k d HS T Hn Hd RD. z_cases HS; try discriminate T; cbn [pb_data y_pub] in Hd; destruct Hd as [<- | []].
    + change (owner_octets _) with [0] in Hn. pose proof (canon_name_inj _ _ _ Hn y_dot) as EN. rewrite EN in RD. pose proof (rdata_fun 48 _ _ _ _ ltac:(discriminate) RD W2) as EX. injection EX as ->. left. auto.
    + change (owner_octets _) with [1; 97; 0] in Hn. pose proof (canon_name_inj _ _ _ Hn y_adot) as EN. rewrite EN in RD. pose proof (rdata_fun 48 _ _ _ _ ltac:(discriminate) RD W3) as EX. injection EX as ->. right. auto.
  - intros z p HS T. z_cases HS; cbn [pb_owner pb_type y_pub hd] in *; try discriminate; destruct T as [T | T]; discriminate T.
Qed.


(** ** The NSEC record is true *)
Lemma z_nsec_wf : wf_rr z_nsec.
Proof. unfold z_nsec. t_wf. Qed.
Lemma z_cadot : CanonName [1; 99; 1; 97; 0] (bs "c.a.").
Proof. exists [[99]; [97]]. split; [split; [x_labels | cbn; lia] | repeat split; reflexivity]. Qed.
(** What is not a record of the NSEC RRset denies nothing. *)
Lemma z_denial z d : WireDenial z_signed z d -> d = z_nsec /\ z = bs "a." \/ match d with RR_NSec _ | RR_NSec3 _ => False | _ => True end.
Proof.
  intros (p & x & HS & CO & HI & RD). destruct HS as [[Ez HS] | [Ez HS]]; unfold z_root, y_root, z_a in HS; cbn [In] in HS; repeat match type of HS with _ \/ _ => destruct HS as [HS | HS] end; try contradiction; subst p;
    cbn [pb_type pb_data y_pub] in *; try (right; inversion RD; exact I).
  left. destruct HI as [<- | []]. split; [| exact Ez]. change (owner_octets _) with [1; 99; 1; 97; 0] in CO. rewrite (canon_name_inj _ _ _ CO z_cadot) in RD.
  exact (rdata_fun 47 _ _ _ _ ltac:(discriminate) RD (y_data z_nsec z_nsec_wf)).
Qed.
(** The names at which something is signed, which are names here. *)
Lemma z_names z p n : z_signed z p -> CanonName (owner_octets p) n -> In (n, pb_type p) [(bs ".", 48); (bs "a.", 43); (bs ".", 6); (bs "a.", 48); (bs "*.a.", 1); (bs "c.a.", 47); (bs "w.a.", 5); (bs "a.", 16); (bs "a.", 15)].
Proof.
  intros HS (ls & P & EB & EN & _). unfold owner_octets in EB. rewrite !wire_name_labels in EB. apply wl_whole, app_inj_tail in EB as [<- _].
  z_cases HS; cbn [pb_type pb_owner y_pub] in *; try (vm_compute; auto 12; fail).
  exfalso. destruct P as [P _]. apply Forall_inv in P. destruct P as [_ [_ P0]]. apply Forall_inv in P0. assert (C : label_char 0) by exact P0. unfold label_char in C. lia.
Qed.
Lemma z_truthful : WireTruthful z_signed (z_env false).
Proof.
  assert (V1 : valid_name (bs "c.a.")) by reflexivity. assert (V2 : valid_name (bs "w.a.")) by reflexivity.
  constructor.
  - intros z d p n WD HS _ CO B. destruct (z_denial z d WD) as [[-> _] | N]; [| destruct d; try contradiction N; exact B]. cbn [Between z_nsec w_nsec] in B. destruct B as [B1 B2].
    pose proof (z_names z p n HS CO) as I. pose proof (canon_valid _ _ CO) as V.
    apply (proj1 (nsec_ord_names _ _ V1 V)) in B1. apply (proj1 (nsec_ord_names _ _ V V2)) in B2.
    cbn [In] in I. repeat match type of I with _ \/ _ => destruct I as [I | I] end; try contradiction I; injection I as <- _; first [vm_compute in B1; discriminate B1 | vm_compute in B2; discriminate B2].
  - intros z d p n WD HS _ CO O. destruct (z_denial z d WD) as [[-> _] | N]; [| destruct d; contradiction]. cbn [OwnRecord z_nsec w_nsec ns_name] in O. subst n.
    pose proof (z_names z p _ HS CO) as I. cbn [In] in I. repeat match type of I with _ \/ _ => destruct I as [I | I] end; try contradiction I; apply pair_equal_spec in I as [E1 E2]; try discriminate E1.
    rewrite <- E2. apply has_type_spec. vm_compute. reflexivity.
  - intros z p HS T. z_cases HS; discriminate T.
Qed.

(** ** A proof for the alias of w.a., and what it resolves to *)
Definition z_addr : RR := w_a "k.a.".
Definition z_inp : list RR :=
  x_zones ++ [z_cname; RR_RRSig (x_sig "w.a." 5 2 x_key); z_addr; RR_RRSig (x_sig "k.a." 1 1 x_key); z_nsec; RR_RRSig (x_sig "c.a." 47 2 x_key)].
Definition z_result : verified := {| vr_rrs := [z_cname; z_addr]; vr_valid_from := 1000000000; vr_expires := 2000000000; vr_max_cache_ttl := 3600 |}.
Lemma z_parses : parse_rr_stream false (y_wire z_inp) = Ok z_inp.
Proof. vm_compute. reflexivity. Qed.
Lemma z_ok : verify_rr_stream (z_env false) false 10 z_inp = Ok z_result.
Proof. vm_compute. reflexivity. Qed.
Lemma z_bytes : is_bytes (y_wire z_inp).
Proof. apply is_bytes_ok. vm_compute. reflexivity. Qed.
Lemma z_leads : WireLeads z_signed redirect_labels (bs "w.a.") (bs "k.a.").
Proof.
  apply (WL_on _ _ _ (bs "k.a.")); [| apply WL_here]. apply WA_cname. assert (W : wf_rr z_cname).
  { unfold z_cname. split; [cbn [typed_rr]; repeat match goal with |- _ /\ _ => split | |- proper_name _ => x_name | |- _ => in_range end | split; exact I]. }
  assert (C : CanonName [1; 119; 1; 97; 0] (bs "w.a.")) by (exists [[119]; [97]]; split; [split; [x_labels | cbn; lia] | repeat split; reflexivity]).
  do 4 eexists. split; [right; split; [reflexivity |]; do 3 right; left; reflexivity |]. split; [reflexivity |]. split; [exact C |]. split; [left; reflexivity |]. split; [left; reflexivity |].
  exact (y_data z_cname W).
Qed.
Lemma z_no_dname o d : ~ WireIssued z_signed (RR_DName {| dn_name := o; dn_delegation := d |}).
Proof. intros (z & p & o' & x & HS & T & _). z_cases HS; discriminate T. Qed.
Lemma z_example : WireWorld (z_env false) x_keys (x_honest false) z_signed /\ (forall d, x_honest false d) /\ WireTruthful z_signed (z_env false) /\
  parse_rr_stream false (y_wire z_inp) = Ok z_inp /\ verify_rr_stream (z_env false) false 10 z_inp = Ok z_result /\
  resolve_name (vr_rrs z_result) 5 (bs "w.a.") = Ok [z_addr] /\ WireLeads z_signed redirect_labels (bs "w.a.") (rr_name z_addr) /\
  (exists z, WirePublished z_signed z z_result z_addr) /\ (forall o d, ~ WireIssued z_signed (RR_DName {| dn_name := o; dn_delegation := d |})).
Proof.
  assert (A : forall d, x_honest false d) by (intros d HD; discriminate HD).
  split; [apply z_world |]. split; [exact A |]. split; [exact z_truthful |]. split; [exact z_parses |]. split; [exact z_ok |].
  assert (R : resolve_name (vr_rrs z_result) 5 (bs "w.a.") = Ok [z_addr]) by (vm_compute; reflexivity). split; [exact R |]. split; [exact z_leads |]. split; [| exact z_no_dname].
  destruct (wire_dns _ _ _ _ false 10%nat (y_wire z_inp) z_inp z_result 5%nat (bs "w.a.") [z_addr] z_addr (z_world false) z_bytes z_parses z_ok) as (_ & z & p & _ & _ & P); auto; try x_name.
  - intros m _ d p _ _. apply A.
  - intros o d H. exfalso. exact (z_no_dname _ _ H).
  - intros m o d p _ H. exfalso. exact (z_no_dname _ _ H).
  - left. reflexivity.
  - exists z. exact P.
Qed.
(** The address comes from the wildcard, and the NSEC record says that there is no k.a. *)
Lemma z_ordinary : WireOrdinary z_signed.
Proof.
  intros z p H T. z_cases H; try discriminate T. cbn [pb_data y_pub]. apply Forall_cons; [| apply Forall_nil]. unfold y_rdata, z_nsec, w_nsec. apply (written_ordinary _ _ _ [[119]; [97]]).
  - repeat (apply Forall_cons; [reflexivity |]). apply Forall_nil.
  - reflexivity.
  - split; [repeat (apply Forall_cons; [split; [discriminate | cbn; lia] |]); apply Forall_nil | cbn; lia].
  - apply wf_held. exact z_nsec_wf.
  - split; [reflexivity |]. split; [x_labels | discriminate].
Qed.
Lemma z_wild : WireOrdinary z_signed /\ SortsNeeds (z_env false) /\ ~ WireIssuedAt z_signed z_addr /\ exists nc z' d, WireSynthesised z_signed (z_env false) z_inp z_addr nc z' d /\
  nc = bs "k.a." /\ z' = bs "a." /\ d = z_nsec /\ (forall p, z_signed z' p -> pb_type p <> 50 -> ~ CanonName (owner_octets p) nc).
Proof.
  pose proof z_ordinary as PN.
  assert (SN : SortsNeeds (z_env false)) by (intros l; apply Permutation.Permutation_refl).
  split; [exact PN |]. split; [exact SN |].
  assert (NI : ~ WireIssuedAt z_signed z_addr).
  { intros (z & p & x & HS & T & CO & _). pose proof (z_names z p _ HS CO) as I. rewrite T in I. cbn [In] in I. repeat match type of I with _ \/ _ => destruct I as [I | I] end; try contradiction I; discriminate I. }
  split; [exact NI |]. assert (A : forall d, x_honest false d) by (intros d HD; discriminate HD).
  destruct (wire_origin _ _ _ _ false 10%nat (y_wire z_inp) z_inp z_result z_addr (z_world false) A z_truthful SN z_bytes z_parses (or_intror PN) z_ok (or_intror (or_introl eq_refl))) as [H | (nc & z' & d & S & F)]; [contradiction (NI H) |].
  exists nc, z', d. split; [exact S |]. destruct S as (z & p & x & pre & l & suf & _ & _ & _ & _ & _ & L & EN & (s & S1 & S2 & S3 & S4) & DI & WD & _ & BO).
  assert (LK : LabelsOf (rr_name z_addr) [[107]; [97]]) by (split; [reflexivity |]; split; [x_labels | discriminate]). pose proof (labelsof_inj _ _ _ L LK) as EL.
  assert (LS : rs_labels s = 1). { unfold z_inp, x_zones in S1. cbn [app In] in S1. repeat match type of S1 with _ \/ _ => destruct S1 as [S1 | S1] end; try discriminate S1; try contradiction; injection S1 as <-; first [discriminate S2 | reflexivity]. }
  rewrite LS in S4. destruct suf as [| q [| ? ?]]; try discriminate S4; [| cbn [List.length] in S4; lia]. destruct pre as [| ? [| ? [| ? ?]]]; try discriminate EL. injection EL as -> ->.
  split; [exact EN |]. destruct (z_denial z' d WD) as [[-> ->] | N]; [| exfalso; destruct d; try contradiction N; destruct BO as [BO | BO]; exact BO]. split; [reflexivity |]. split; [reflexivity |].
  destruct F as [F | F]; [exact F | rewrite EN in F; vm_compute in F; discriminate F].
Qed.

(** ** What a caller sees *)
Definition z_fetch (i : nat) (u : list N) : fetched :=
  Body (match i with
        | 0%nat => k_body [k_txt "a."; RR_RRSig (x_sig "a." 16 1 x_key)]
        | 1%nat => k_body [RR_DnsKey x_key; RR_RRSig (x_sig "a." 48 1 x_key)]
        | 2%nat => k_body [x_ds; RR_RRSig (x_sig "a." 43 1 x_root)]
        | _ => k_body [RR_DnsKey x_root; RR_RRSig (x_sig "." 48 0 x_root)]
        end).
Lemma z_fetch_bytes i u b : z_fetch i u = Body b -> is_bytes b.
Proof. intros E. injection E as <-. do 3 (destruct i as [| i]; [apply is_bytes_ok; vm_compute; reflexivity |]). apply is_bytes_ok. vm_compute. reflexivity. Qed.
Definition z_urls := Eval vm_compute in snd (lookup_doh (z_env false) false 10 Some [] z_fetch (bs "https://r/") 11 (bs "a") (TyText (bs "TXT"))).
Lemma z_run : lookup_doh (z_env false) false 10 Some [] z_fetch (bs "https://r/") 11 (bs "a") (TyText (bs "TXT")) = (JText (verified_json (k_result "a.")), z_urls).
Proof. vm_compute. reflexivity. Qed.
Lemma z_seen : exists s urls j v r0 z, Reformats Some /\ (forall i u b, z_fetch i u = Body b -> is_bytes b) /\
  lookup_doh (z_env false) false 10 Some [] z_fetch (bs "https://r/") 11 (bs "a") (TyText (bs "TXT")) = (JText s, urls) /\ Json s j /\ DescribesResult (k_result "a.") j /\
  Forall Held (vr_rrs (k_result "a.")) /\ vr_rrs v = [r0] /\ Spelled r0 (k_txt "a.") /\ WirePublished z_signed z v r0.
Proof.
  destruct (wire_seen _ _ _ _ false 10%nat Some [] z_fetch (bs "https://r/") 11%nat (bs "a") (bs "TXT") _ _ _ _ (z_world false) some_reformats z_fetch_bytes (le_n _) z_run k_json_a k_describes (k_held "a." eq_refl)) as (v & _ & _ & _ & F).
  inversion F as [| r0 r1 l0 l1 [SP PB] F0 E1 E2]; subst. inversion F0; subst. destruct PB as (z & p & _ & _ & PB); [intros raw _ d q _ _ HD; discriminate HD |].
  do 6 eexists. split; [exact some_reformats |]. split; [exact z_fetch_bytes |]. split; [exact z_run |]. split; [exact k_json_a |]. split; [exact k_describes |]. split; [exact (k_held "a." eq_refl) |].
  split; [symmetry; exact E1 |]. split; [exact SP | exact PB].
Qed.

(** ** The zone a. answers for ba. *)
Lemma end_boundary_refuted : ~ (forall e KeyOf Honest Signs dbg fuel proof inp v k n l r, WireWorld e KeyOf Honest Signs -> is_bytes proof ->
  parse_rr_stream dbg proof = Ok inp -> verify_rr_stream e dbg fuel inp = Ok v -> proper_name n ->
  (forall m d, WireLeads Signs redirect_labels n m -> Subdomain m d -> Honest d) ->
  (forall o d, ~ WireIssued Signs (RR_DName {| dn_name := o; dn_delegation := d |})) ->
  resolve_name (vr_rrs v) k n = Ok l -> In r l -> exists z, WirePublished Signs z v r).
Proof.
  intros H. destruct y_sibling_ok as (P & v & E & R).
  assert (NI : forall r, WireIssued y_signed r -> rr_ty r <> 5 /\ rr_ty r <> 39) by (intros r (z & p & o & d & HS & T & _); rewrite <- T; y_cases HS; split; discriminate).
  destruct (H _ _ _ _ false 10%nat (y_wire x_sibling) x_sibling v 5%nat (bs "ba.") [w_a "ba."] (w_a "ba.") (y_world true) (proj2 y_bytes) P E) as (z & p & o & HS & _ & HT & CO & HC & _).
  - x_name.
  - intros m d L. inversion L as [| n m' e AL]; subst; [exact (x_sub d) |]. exfalso. inversion AL as [n t I | n o d' t I]; subst; apply NI in I as [I1 I2]; [apply I1 | apply I2]; reflexivity.
  - intros o d I. apply NI in I as [_ I]. apply I. reflexivity.
  - rewrite R. vm_compute. reflexivity.
  - left. reflexivity.
  - y_cases HS; try discriminate HT. change (owner_octets _) with [1; 42; 1; 97; 0] in CO.
    assert (CS : CanonName [1; 42; 1; 97; 0] (bs "*.a.")) by (exists [[42]; [97]]; split; [split; [x_labels | cbn; lia] | repeat split; reflexivity]).
    rewrite (canon_name_inj _ _ _ CO CS) in HC. destruct HC as [HC | (pre & suf & NP & L & E2)]; [discriminate HC |].
    assert (A : LabelsOf (bs "ba.") [[98; 97]]) by (split; [reflexivity |]; split; [x_labels | discriminate]).
    pose proof (labelsof_inj _ _ _ L A) as E3. destruct pre as [| x pre]; [congruence |]. injection E3 as _ E3. apply app_eq_nil in E3 as [_ ->]. discriminate E2.
Qed.
