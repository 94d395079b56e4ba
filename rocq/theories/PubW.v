(** Witness for Prop_Pub: the world of SecW.v, in which the zones sign other types and names as well. *)
From Verif Require Import Base BaseP NameM WireM RRM SerM ValM NameSpec NameP WireSpec WireP RecSpec RecP RecP2 CodecSpec ValSpec ValP ValP2 ValW QueryP SignedP OrderW SecSpec SecP SecP2 SecW PubSpec PubP.
From Coq Require Import String.
Import List.ListNotations.
Local Open Scope N_scope.

Definition y_pub (owner : list (list N)) (ty labels : N) (signer : list (list N)) (k : dnskey) (data : list (list N)) : pub :=
  {| pb_owner := owner; pb_type := ty; pb_alg := 8; pb_labels := labels; pb_ttl := 3600; pb_expiration := 2000000000; pb_inception := 1000000000;
     pb_tag := key_tag k; pb_signer := signer; pb_data := data |}.
Definition y_rdata (r : RR) : list N := skipn 2 (write_data r).
(** Besides its key and the DS record of a. the root signs an SOA record, and the zone a. an MX record and
    an NS record at a name of two octets which are not characters; it writes its name in upper case. *)
Definition y_root : list pub :=
  [y_pub [] 48 0 [] x_root [y_rdata (RR_DnsKey x_root)]; y_pub [[97]] 43 1 [] x_root [y_rdata x_ds]; y_pub [] 6 0 [] x_root [[0; 0; 0; 0; 0; 1; 0; 0; 0; 2; 0; 0; 0; 3; 0; 0; 0; 4; 0; 0; 0; 5]]].
Definition y_a : list pub :=
  [y_pub [[65]] 48 1 [[65]] x_key [y_rdata (RR_DnsKey x_key)]; y_pub [[42]; [65]] 1 1 [[65]] x_key [[127; 0; 0; 1]]; y_pub [[99]; [65]] 47 2 [[65]] x_key [y_rdata (w_nsec "c.a." "z.a." [1])];
   y_pub [[65]] 15 1 [[65]] x_key [[0; 10; 0]]; y_pub [[0; 255]; [65]] 2 2 [[65]] x_key [wire_name [[46; 46]]; wire_name []]].
Definition y_signs (ps : list pub) (m : list N) : bool := existsb (fun p => bytes_eqb m (pub_octets p)) ps.
(** If [evil], the zone a. signs anything. *)
Definition y_env (evil : bool) : env :=
  {| e_sha1 := fun m => m; e_sha256 := fun m => if bytes_eqb m (key_id x_root) then root_digest_20326 else m;
     e_sig := fun _ pk m _ => match pk with PK_RSA [74; 90] _ => y_signs y_root m | PK_RSA [74; 91] _ => evil || y_signs y_a m | _ => false end;
     e_sort_needs := fun l => l |}.
Definition y_signed (z : list N) (p : pub) : Prop := (z = bs "." /\ In p y_root) \/ (z = bs "a." /\ In p y_a).

Lemma y_in z p : y_signed z p -> In p (y_root ++ y_a).
Proof. intros [[_ H] | [_ H]]; apply in_or_app; auto. Qed.
Lemma y_data r : wf_rr r -> RData CanonName false (rr_ty r) (rr_name r) r (y_rdata r).
Proof. intros H. destruct (write_data_canon r H) as (d & W1 & _ & _ & W4 & _). unfold y_rdata. rewrite W1. unfold u16. cbn [app skipn]. exact W4. Qed.
Lemma y_unforged evil z k s msg : x_honest evil z -> x_keys z k -> CryptoOk (y_env evil) s k msg -> exists p, y_signed z p /\ msg = pub_octets p.
Proof.
  intros Hz Hk Hc. assert (HV : (exists md ex, RsaLayout (dk_pubkey k) md ex /\ exists alg, e_sig (y_env evil) alg (PK_RSA md ex) msg (rs_signature s) = true)).
  { inversion Hc as [md ex H1 H2 H3 H4 H5 | md ex H1 H2 H3 H4 H5 | H1 H5 | H1 H5 | H1 H5]; [eauto | eauto | discriminate H5 | discriminate H5 | discriminate H5]. }
  destruct HV as (md & ex & HL & alg & HS). destruct Hk as [[-> ->] | [-> ->]]; apply x_layout in HL; subst md; cbn [e_sig y_env] in HS; [| destruct evil; [exfalso; apply Hz; reflexivity |]];
    cbn [orb] in HS; unfold y_signs in HS; apply existsb_exists in HS as (p & H1 & H2); apply bytes_eqb_eq in H2; exists p; (split; [| exact H2]); [left | right]; auto.
Qed.
Ltac y_cases H := apply y_in in H; unfold y_root, y_a in H; cbn [app In] in H; repeat match type of H with _ \/ _ => destruct H as [H | H] end; try contradiction; subst.
Ltac y_label := cbn [pb_owner pb_signer y_pub]; split; [repeat match goal with |- Forall _ (_ :: _) => apply Forall_cons; [split; [discriminate | cbn; lia] |] | |- Forall _ [] => apply Forall_nil end | cbn; lia].
Lemma y_legal z p : y_signed z p -> LegalPub p.
Proof.
  intros H. y_cases H; (split; [y_label |]); (split; [y_label |]); (split; [discriminate |]); (split; [| reflexivity]); cbn [pb_data pb_type y_pub];
    repeat match goal with |- Forall _ (_ :: _) => apply Forall_cons | |- Forall _ _ => apply Forall_nil end;
    (split; [vm_compute; discriminate |]); (split; [cbn [pb_type y_pub]; intros I | cbn [pb_type y_pub]; intros T; discriminate T]).
  all: try (exfalso; cbn [In] in I; repeat destruct I as [I | I]; try discriminate I; exact I).
  - exists [[46; 46]]. split; [y_label | reflexivity].
  - exists []. split; [y_label | reflexivity].
Qed.
Lemma y_dot : CanonName [0] (bs ".").
Proof. exists []. repeat split; try constructor. cbn. lia. Qed.
Lemma y_adot : CanonName [1; 97; 0] (bs "a.").
Proof. exists [[97]]. split; [split; [x_labels | cbn; lia] | repeat split; reflexivity]. Qed.
Lemma y_sha evil m d : m <> key_id x_root -> e_sha256 (y_env evil) m = d -> m = d.
Proof. intros N H. cbn [e_sha256 y_env] in H. rewrite (proj2 (bytes_eqb_neq _ _) N) in H. exact H. Qed.
Lemma y_wf : wf_rr x_ds /\ wf_rr (RR_DnsKey x_root) /\ wf_rr (RR_DnsKey x_key).
Proof. split; [| split]; unfold x_root, x_key; x_wf. Qed.
Lemma y_world evil : WireWorld (y_env evil) x_keys (x_honest evil) y_signed.
Proof.
  destruct y_wf as (W1 & W2 & W3). apply y_data in W1, W2, W3. constructor.
  - exact (y_unforged evil).
  - exact y_legal.
  - intros k Hk Hn (d & Hd & _ & _ & HH). left. split; [reflexivity |].
    assert (T2 : ds_digest_type d = 2 /\ (exists c t, ds_digest d = c :: t /\ c <> 0)) by (destruct Hd as [<- | [<- | []]]; (split; [reflexivity |]; eexists; eexists; split; [vm_compute; reflexivity | discriminate])).
    destruct T2 as [T2 (c & t & ED & NC)]. destruct HH as [[_ HH] | (T1 & _)]; [| congruence].
    destruct (list_eq_dec N.eq_dec (key_id k) (key_id x_root)) as [E | NE]; [apply key_id_inj; [exact Hn | exact E] |].
    exfalso. symmetry in HH. apply y_sha in HH; [| exact NE]. rewrite ED in HH. unfold key_id in HH. rewrite Hn in HH. cbn [write_name] in HH. apply (f_equal (hd 1)) in HH. cbn in HH. congruence.
  - intros z p k dss HS T Hk Hn HD (d & Hd & _ & _ & HH). y_cases HS; try discriminate T. change (owner_octets _) with [1; 97; 0] in Hn. cbn [pb_data y_pub] in HD.
    pose proof (canon_name_inj _ _ _ Hn y_adot) as EN. inversion HD as [| ? x ? ? RD F0]; subst. inversion F0; subst. rewrite EN in RD.
    pose proof (rdata_fun 43 _ _ _ _ ltac:(discriminate) RD W1) as EX. injection EX as ->. destruct Hd as [<- | []]. destruct HH as [[_ HH] | (T1 & _)]; [| discriminate T1].
    cbn [ds_digest] in HH. symmetry in HH. right. split; [exact EN |].
    assert (NE : key_id k <> key_id x_root) by (unfold key_id; rewrite EN; intros Z; apply (f_equal (hd 7)) in Z; vm_compute in Z; discriminate Z).
    apply y_sha in HH; [| exact NE]. apply key_id_inj; [exact EN | exact HH].
  - intros z p k d HS T Hn Hd RD. y_cases HS; try discriminate T; cbn [pb_data y_pub] in Hd; destruct Hd as [<- | []].
    + change (owner_octets _) with [0] in Hn. pose proof (canon_name_inj _ _ _ Hn y_dot) as EN. rewrite EN in RD. pose proof (rdata_fun 48 _ _ _ _ ltac:(discriminate) RD W2) as EX. injection EX as ->. left. auto.
    + change (owner_octets _) with [1; 97; 0] in Hn. pose proof (canon_name_inj _ _ _ Hn y_adot) as EN. rewrite EN in RD. pose proof (rdata_fun 48 _ _ _ _ ltac:(discriminate) RD W3) as EX. injection EX as ->. right. auto.
  - intros z p HS T. y_cases HS; cbn [pb_owner pb_type y_pub hd] in *; try discriminate; destruct T as [T | T]; discriminate T.
Qed.

Definition y_wire (inp : list RR) : list N := flat_map (fun r => write_rr r 3600) inp.
Lemma y_parses : parse_rr_stream false (y_wire x_wild) = Ok x_wild.
Proof. vm_compute. reflexivity. Qed.
Lemma y_ok : exists v, verify_rr_stream (y_env false) false 10 x_wild = Ok v /\ vr_rrs v = [w_a "x.a."].
Proof. eexists. split; vm_compute; reflexivity. Qed.
Lemma y_bad : parse_rr_stream false (y_wire x_forged) = Ok x_forged /\ verify_rr_stream (y_env false) false 10 x_forged = Err Invalid.
Proof. split; vm_compute; reflexivity. Qed.
Lemma y_bytes : is_bytes (y_wire x_wild) /\ is_bytes (y_wire x_sibling).
Proof. split; apply is_bytes_ok; vm_compute; reflexivity. Qed.
Definition y_soa : pub := nth 2 y_root (y_pub [] 0 0 [] x_root []).
Definition y_odd : pub := nth 4 y_a (y_pub [] 0 0 [] x_root []).
Lemma y_example : WireWorld (y_env false) x_keys (x_honest false) y_signed /\ (forall d, x_honest false d) /\
  (y_signed (bs ".") y_soa /\ pb_type y_soa = 6) /\ (y_signed (bs "a.") y_odd /\ pb_owner y_odd = [[0; 255]; [65]]) /\
  parse_rr_stream false (y_wire x_wild) = Ok x_wild /\
  (exists v, verify_rr_stream (y_env false) false 10 x_wild = Ok v /\ vr_rrs v = [w_a "x.a."] /\ exists z, WirePublished y_signed z v (w_a "x.a.")) /\
  parse_rr_stream false (y_wire x_forged) = Ok x_forged /\ verify_rr_stream (y_env false) false 10 x_forged = Err Invalid.
Proof.
  assert (A : forall d, x_honest false d) by (intros d HD; discriminate HD).
  split; [apply y_world |]. split; [exact A |]. split; [split; [left; split; [reflexivity | right; right; left; reflexivity] | reflexivity] |].
  split; [split; [right; split; [reflexivity | right; right; right; right; left; reflexivity] | reflexivity] |]. split; [exact y_parses |]. split; [| exact y_bad].
  destruct y_ok as (v & E & R). exists v. split; [exact E |]. split; [exact R |].
  destruct (proof_wire _ _ _ _ false 10%nat (y_wire x_wild) x_wild v (w_a "x.a.") (y_world false) (proj1 y_bytes) y_parses E) as (z & p & _ & _ & P); [rewrite R; left; reflexivity | auto | exists z; exact P].
Qed.

(** The zone a. answers for ba. *)
Lemma y_sibling_ok : parse_rr_stream false (y_wire x_sibling) = Ok x_sibling /\ exists v, verify_rr_stream (y_env true) false 10 x_sibling = Ok v /\ vr_rrs v = [w_a "ba."].
Proof. split; [vm_compute; reflexivity |]. eexists. split; vm_compute; reflexivity. Qed.
Lemma wire_boundary_refuted : ~ (forall e KeyOf Honest Signs dbg fuel proof inp v r, WireWorld e KeyOf Honest Signs -> is_bytes proof -> parse_rr_stream dbg proof = Ok inp ->
  verify_rr_stream e dbg fuel inp = Ok v -> In r (vr_rrs v) -> (forall d, Subdomain (rr_name r) d -> Honest d) -> exists z, WirePublished Signs z v r).
Proof.
  intros H. destruct y_sibling_ok as (P & v & E & R).
  destruct (H _ _ _ _ false 10%nat (y_wire x_sibling) x_sibling v (w_a "ba.") (y_world true) (proj2 y_bytes) P E) as (z & p & o & HS & _ & HT & CO & HC & _).
  - rewrite R. left. reflexivity.
  - exact x_sub.
  - y_cases HS; try discriminate HT. change (owner_octets _) with [1; 42; 1; 97; 0] in CO.
    assert (CS : CanonName [1; 42; 1; 97; 0] (bs "*.a.")) by (exists [[42]; [97]]; split; [split; [x_labels | cbn; lia] | repeat split; reflexivity]).
    rewrite (canon_name_inj _ _ _ CO CS) in HC.
    destruct HC as [HC | (pre & suf & NP & L & E2)]; [discriminate HC |].
    assert (A : LabelsOf (bs "ba.") [[98; 97]]) by (split; [reflexivity |]; split; [x_labels | discriminate]).
    pose proof (labelsof_inj _ _ _ L A) as E3. destruct pre as [| x pre]; [congruence |]. injection E3 as _ E3. apply app_eq_nil in E3 as [_ ->]. discriminate E2.
Qed.
