(** Witnesses for Prop_Unsup: the zone a. has a key of algorithm 8 and one of algorithm 12, which the
    validator does not implement. *)
From Verif Require Import Base BaseP NameM WireM RRM SerM ValM NameSpec NameP WireSpec WireP RecSpec RecP RecP2 CodecSpec ValSpec ValP ValP2 ValP3 ValW QueryP SignedP OrderW AcceptSpec SecSpec SecP SecP2 SecW UnsupSpec UnsupP.
From Coq Require Import String Permutation.
Import List.ListNotations.
Local Open Scope N_scope.

Definition u_key : dnskey := {| dk_name := bs "a."; dk_flags := 257; dk_protocol := 3; dk_alg := 12; dk_pubkey := [1; 3; 74; 93] |}.
Definition u_dsrec : ds := {| ds_name := bs "a."; ds_key_tag := key_tag u_key; ds_alg := 12; ds_digest_type := 2; ds_digest := key_id u_key |}.
Definition u_ds : RR := RR_DS u_dsrec.
Definition u_root_sets : list (rrsig * list RR) :=
  [(x_sig "." 48 0 x_root, [RR_DnsKey x_root]); (x_sig "a." 43 1 x_root, [x_ds; u_ds])].
Definition u_a_sets : list (rrsig * list RR) :=
  [(x_sig "a." 48 1 x_key, [RR_DnsKey x_key; RR_DnsKey u_key]); (x_sig "x.a." 1 2 x_key, [x_other])].
Definition u_env : env :=
  {| e_sha1 := fun m => m; e_sha256 := fun m => if bytes_eqb m (key_id x_root) then root_digest_20326 else m;
     e_sig := fun _ pk m _ => match pk with PK_RSA [74; 90] _ => signs u_root_sets m | PK_RSA [74; 91] _ => signs u_a_sets m | _ => false end;
     e_sort_needs := fun l => l |}.
Definition u_keys (z : list N) (k : dnskey) : Prop := (z = bs "." /\ k = x_root) \/ (z = bs "a." /\ (k = x_key \/ k = u_key)).
Definition u_signed (z : list N) (s : rrsig) (rs : list RR) : Prop := (z = bs "." /\ In (s, rs) u_root_sets) \/ (z = bs "a." /\ In (s, rs) u_a_sets).

Ltac u_wf := split; [unfold x_ds, u_ds, u_dsrec, x_other, x_key, u_key, x_root; cbn [typed_rr];
    repeat match goal with |- _ /\ _ => split | |- is_bytes _ => bytes_in_range | |- proper_name _ => x_name | |- _ => in_range end
  | split; [unfold x_ds, u_ds, u_dsrec, x_other; cbn [fits_rr]; first [exact I | vm_compute; discriminate] | exact I]].
Ltac u_cases H := unfold u_root_sets, u_a_sets in H; cbn [app In] in H;
  repeat match type of H with _ \/ _ => destruct H as [H | H] end; try contradiction; apply pair_equal_spec in H as [<- <-].
Lemma u_sets_wf s rs : In (s, rs) (u_root_sets ++ u_a_sets) -> Forall wf_rr rs /\ proper_name (rs_key_name s).
Proof. intros H. u_cases H; (split; [repeat (apply Forall_cons; [u_wf |]); apply Forall_nil | x_name]). Qed.
Lemma u_sets_rrset s rs : In (s, rs) (u_root_sets ++ u_a_sets) -> Held (RR_RRSig s) /\ RfcLabels s /\ rs <> [] /\
  Forall (fun r => rr_name r = rs_name s /\ rr_ty r = rs_ty s) rs.
Proof.
  intros H. u_cases H; (split; [x_held |]); (split; [| split; [discriminate | repeat (apply Forall_cons; [split; reflexivity |]); apply Forall_nil]]).
  all: first [apply (x_rfc _ []); [x_labels | cbn; lia | reflexivity | reflexivity] | apply (x_rfc _ [[97]]); [x_labels | cbn; lia | reflexivity | reflexivity]
    | apply (x_rfc _ [[120]; [97]]); [x_labels | cbn; lia | reflexivity | reflexivity]].
Qed.
Lemma u_in z s rs : u_signed z s rs -> In (s, rs) (u_root_sets ++ u_a_sets).
Proof. intros [[_ H] | [_ H]]; apply in_or_app; auto. Qed.
Lemma u_sha m d : m <> key_id x_root -> e_sha256 u_env m = d -> m = d.
Proof. intros N H. cbn [e_sha256 u_env] in H. rewrite (proj2 (bytes_eqb_neq _ _) N) in H. exact H. Qed.
Lemma u_unforged z k s msg : True -> u_keys z k -> CryptoOk u_env s k msg -> exists s0 rs, u_signed z s0 rs /\ PubData s0 rs msg.
Proof.
  intros _ Hk Hc. assert (HV : (exists md ex, RsaLayout (dk_pubkey k) md ex /\ exists alg, e_sig u_env alg (PK_RSA md ex) msg (rs_signature s) = true)).
  { inversion Hc as [md ex H1 H2 H3 H4 H5 | md ex H1 H2 H3 H4 H5 | H1 H5 | H1 H5 | H1 H5]; [eauto | eauto | discriminate H5 | discriminate H5 | discriminate H5]. }
  destruct HV as (md & ex & HL & alg & HS). destruct Hk as [[-> ->] | [-> [-> | ->]]]; apply x_layout in HL; subst md; cbn [e_sig u_env] in HS.
  - apply x_signs in HS as (s0 & rs & HI & ->). exists s0, rs. split; [left; auto |]. destruct (u_sets_wf s0 rs) as [A B]; [apply in_or_app; left; exact HI |]. apply pub_msg_ok; assumption.
  - apply x_signs in HS as (s0 & rs & HI & ->). exists s0, rs. split; [right; auto |]. destruct (u_sets_wf s0 rs) as [A B]; [apply in_or_app; right; exact HI |]. apply pub_msg_ok; assumption.
  - discriminate HS.
Qed.
Lemma u_world : World u_env u_keys (fun _ => True) u_signed.
Proof.
  constructor.
  - intros z k s msg Hz Hk Hc _. eapply u_unforged; eassumption.
  - intros z s rs H. apply u_in in H. apply u_sets_rrset in H. exact H.
  - intros k Hk Hn (d & Hd & _ & _ & HH). left. split; [reflexivity |].
    assert (T2 : ds_digest_type d = 2 /\ (exists c t, ds_digest d = c :: t /\ c <> 0)) by (destruct Hd as [<- | [<- | []]]; (split; [reflexivity |]; eexists; eexists; split; [vm_compute; reflexivity | discriminate])).
    destruct T2 as [T2 (c & t & ED & NC)]. destruct HH as [[_ HH] | (T1 & _)]; [| congruence].
    destruct (list_eq_dec N.eq_dec (key_id k) (key_id x_root)) as [E | NE]; [apply key_id_inj; [exact Hn | exact E] |].
    exfalso. symmetry in HH. apply u_sha in HH; [| exact NE]. rewrite ED in HH. unfold key_id in HH. rewrite Hn in HH. cbn [write_name] in HH. apply (f_equal (hd 1)) in HH. cbn in HH. congruence.
  - intros z s rs k HS T Hk Hn (d & Hd & _ & _ & HH). assert (SR : s = x_sig "a." 43 1 x_root /\ rs = [x_ds; u_ds]).
    { apply u_in in HS. u_cases HS; try discriminate T; auto. }
    destruct SR as [-> ->]. right. split; [reflexivity |]. change (rs_name (x_sig "a." 43 1 x_root)) with (bs "a.") in Hn.
    assert (NE : key_id k <> key_id x_root) by (unfold key_id; rewrite Hn; intros Z; apply (f_equal (hd 7)) in Z; vm_compute in Z; discriminate Z).
    cbn [flat_map ds_of x_ds u_ds app] in Hd. destruct Hd as [<- | [<- | []]]; (destruct HH as [[_ HH] | (T1 & _)]; [| discriminate T1]);
    cbn [ds_digest u_dsrec] in HH; symmetry in HH; apply u_sha in HH; try exact NE; [left | right]; (apply key_id_inj; [exact Hn | exact HH]).
  - intros z s rs k HS T Hk. apply u_in in HS. u_cases HS; try discriminate T; cbn [In] in Hk;
      repeat match type of Hk with _ \/ _ => destruct Hk as [Hk | Hk] end; try contradiction; injection Hk as <-;
      first [left; split; reflexivity | right; split; [reflexivity | auto]].
  - intros z s rs HS T (p & Hp). apply u_in in HS. u_cases HS; vm_compute in Hp; try discriminate Hp; destruct T as [T | T]; discriminate T.
Qed.

(** What the zones serve. *)
Definition u_zones (sigs : list RR) : list RR :=
  [RR_DnsKey x_root; RR_RRSig (x_sig "." 48 0 x_root); u_ds; x_ds; RR_RRSig (x_sig "a." 43 1 x_root); RR_DnsKey x_key; RR_DnsKey u_key] ++ sigs.
Definition u_answer : list RR := u_zones [RR_RRSig (x_sig "a." 48 1 x_key); x_other; RR_RRSig (x_sig "x.a." 1 2 x_key)].
Lemma u_answer_ok : exists v, verify_rr_stream u_env false 10 u_answer = Ok v /\ vr_rrs v = [x_other].
Proof. eexists. split; vm_compute; reflexivity. Qed.
(** The same with another address, the signature over the keys replaced by one which nobody made. *)
Definition u_fake : rrsig :=
  {| rs_name := bs "a."; rs_ty := 48; rs_alg := 12; rs_labels := 1; rs_orig_ttl := 3600; rs_expiration := 2000000000; rs_inception := 1000000000;
     rs_key_tag := key_tag u_key; rs_key_name := bs "a."; rs_signature := [] |}.
Definition u_strip : list RR := u_zones [RR_RRSig u_fake; w_a "x.a."; RR_RRSig (x_sig "x.a." 1 2 x_key)].
Lemma u_strip_err : verify_rr_stream u_env false 10 u_strip = Err UnsupportedAlgorithm.
Proof. vm_compute. reflexivity. Qed.
Lemma u_strip_held : Forall Held u_strip.
Proof.
  unfold u_strip, u_zones. cbn [app]. repeat (apply Forall_cons; [unfold Held, x_ds, u_ds, u_dsrec, x_sig, u_fake, x_root, x_key, u_key, w_a; cbn [typed_rr];
    repeat match goal with |- _ /\ _ => split | |- is_bytes _ => bytes_in_range | |- _ => in_range end |]); apply Forall_nil.
Qed.
Lemma u_strip_fits : Forall fits_rr u_strip.
Proof. unfold u_strip, u_zones. cbn [app]. repeat (apply Forall_cons; [unfold x_ds, u_ds, u_dsrec, w_a; cbn [fits_rr]; first [exact I | vm_compute; discriminate] |]); apply Forall_nil. Qed.
Lemma u_set n : n = bs "a." \/ flat_map ds_of (rrset u_strip n 43) = [].
Proof.
  destruct (flat_map ds_of (rrset u_strip n 43)) as [| d l] eqn:E; [right; reflexivity | left].
  assert (Hd : In d (flat_map ds_of (rrset u_strip n 43))) by (rewrite E; left; reflexivity). apply in_flat_map in Hd as (r & Hr & _).
  apply in_rrset in Hr as (Hr & <- & T). unfold u_strip, u_zones in Hr. cbn [app In] in Hr.
  repeat match type of Hr with _ \/ _ => destruct Hr as [<- | Hr] end; try contradiction; first [discriminate T | reflexivity].
Qed.
Lemma none_refuted : ~ (forall e KeyOf Honest Signed dbg fuel inp, World e KeyOf Honest Signed -> (forall z, Honest z) -> Forall Held inp -> Forall fits_rr inp ->
  verify_rr_stream e dbg fuel inp = Err UnsupportedAlgorithm -> exists z, Cut e inp z /\ NoneSupported (flat_map ds_of (rrset inp z 43))).
Proof.
  intros H. destruct (H u_env u_keys (fun _ => True) u_signed false 10%nat u_strip u_world (fun _ => I) u_strip_held u_strip_fits u_strip_err) as (z & _ & NE & F).
  destruct (u_set z) as [-> | E]; [| contradiction]. rewrite Forall_forall in F. apply (F {| ds_name := bs "a."; ds_key_tag := key_tag x_key; ds_alg := 8; ds_digest_type := 2; ds_digest := key_id x_key |}).
  - vm_compute. right. left. reflexivity.
  - split; [right; left; reflexivity | left; reflexivity].
Qed.

(** The zone a. is not honest and delegates b.a. as it likes. *)
Definition u_key2 : dnskey := {| dk_name := bs "b.a."; dk_flags := 257; dk_protocol := 3; dk_alg := 12; dk_pubkey := [1; 3; 74; 94] |}.
Definition u_ds2 : RR := RR_DS {| ds_name := bs "b.a."; ds_key_tag := key_tag u_key2; ds_alg := 12; ds_digest_type := 2; ds_digest := key_id u_key2 |}.
Definition u_fake2 : rrsig :=
  {| rs_name := bs "b.a."; rs_ty := 48; rs_alg := 12; rs_labels := 2; rs_orig_ttl := 3600; rs_expiration := 2000000000; rs_inception := 1000000000;
     rs_key_tag := key_tag u_key2; rs_key_name := bs "b.a."; rs_signature := [] |}.
Definition u_evil : list RR := x_zones ++ [u_ds2; RR_RRSig (x_sig "b.a." 43 2 x_key); RR_DnsKey u_key2; RR_RRSig u_fake2; w_a "c."].
Lemma u_evil_err : verify_rr_stream (x_env false true) false 10 u_evil = Err UnsupportedAlgorithm.
Proof. vm_compute. reflexivity. Qed.
Lemma u_evil_held : Forall Held u_evil.
Proof.
  unfold u_evil, x_zones. cbn [app]. repeat (apply Forall_cons; [unfold Held, x_ds, u_ds2, x_sig, u_fake2, x_root, x_key, u_key2, w_a; cbn [typed_rr];
    repeat match goal with |- _ /\ _ => split | |- is_bytes _ => bytes_in_range | |- _ => in_range end |]); apply Forall_nil.
Qed.
Lemma u_evil_fits : Forall fits_rr u_evil.
Proof. unfold u_evil, x_zones. cbn [app]. repeat (apply Forall_cons; [unfold x_ds, u_ds2, w_a; cbn [fits_rr]; first [exact I | vm_compute; discriminate] |]); apply Forall_nil. Qed.
Lemma u_x_known own z s rs d : x_signed own z s rs -> In (RR_DS d) rs -> KnownDigest d /\ supported_alg (ds_alg d).
Proof.
  intros H Hd. apply x_in in H. unfold x_root_sets, x_a_sets in H. destruct own; cbn [app In] in H;
  repeat match type of H with _ \/ _ => destruct H as [H | H] end; try contradiction; apply pair_equal_spec in H as [<- <-]; destruct Hd as [Hd | []]; try discriminate Hd;
    injection Hd as <-; (split; [right; left; reflexivity | left; reflexivity]).
Qed.
Lemma dishonest_refuted : ~ (forall e KeyOf Honest Signed dbg fuel inp, World e KeyOf Honest Signed -> Honest [46] -> Forall Held inp -> Forall fits_rr inp ->
  (forall z s rs d, Signed z s rs -> In (RR_DS d) rs -> KnownDigest d /\ supported_alg (ds_alg d)) ->
  verify_rr_stream e dbg fuel inp <> Err UnsupportedAlgorithm).
Proof.
  intros H. apply (H (x_env false true) x_keys (x_honest true) (x_signed false) false 10%nat u_evil (x_world false true)); [| exact u_evil_held | exact u_evil_fits | exact (u_x_known false) | exact u_evil_err].
  intros _ Z. discriminate Z.
Qed.

(** What is published in the first world. *)
Lemma u_wished : World u_env u_keys (fun _ => True) u_signed /\
  (exists v, verify_rr_stream u_env false 10 u_answer = Ok v /\ vr_rrs v = [x_other]) /\
  verify_rr_stream u_env false 10 u_strip = Err UnsupportedAlgorithm /\
  u_signed (bs ".") (x_sig "a." 43 1 x_root) [x_ds; u_ds] /\
  Wished u_env (flat_map ds_of [x_ds; u_ds]) (fun k => In (RR_DnsKey k) (rrset u_strip (bs "a.") 48)).
Proof.
  split; [exact u_world |]. split; [exact u_answer_ok |]. split; [exact u_strip_err |]. split; [left; split; [reflexivity | right; left; reflexivity] |].
  split; [discriminate |]. right. exists u_dsrec, u_key. split; [right; left; reflexivity |]. split; [intros G; cbn in G; intuition discriminate |].
  split; [vm_compute; tauto |]. split; [reflexivity |]. split; [reflexivity |]. left. split; [reflexivity |]. vm_compute. reflexivity.
Qed.
