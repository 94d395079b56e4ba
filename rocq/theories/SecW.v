(** Witnesses for Prop_Sec: a small world. The root and the zone a. have one key each; the digest of the
    root key is the one of the anchors, and otherwise the digest is the message itself. A signature of a
    message under a key verifies if the zone has signed that message. *)
From Verif Require Import Base BaseP NameM WireM RRM SerM ValM NameSpec NameP WireSpec WireP RecSpec RecP RecP2 CodecSpec ValSpec ValP ValP2 ValW QueryP SignedP OrderW SecSpec SecP SecP2.
From Coq Require Import String Permutation.
Import List.ListNotations.
Local Open Scope N_scope.

Definition pub_msg (s : rrsig) (rs : list RR) : list N :=
  rrsig_rdata s ++ List.concat (map (fun r => write_name (rr_name r) ++ u16 (rr_ty r) ++ u16 1 ++ u32 (rs_orig_ttl s) ++ write_data r) rs).
Lemma canon_write n : proper_name n -> CanonName (write_name n) n.
Proof. intros (ls & P & E & L). exists ls. split; [exact P |]. split; [rewrite E; apply write_name_proper; [apply P | congruence] | auto]. Qed.
Lemma pub_msg_ok s rs : proper_name (rs_key_name s) -> Forall wf_rr rs -> PubData s rs (pub_msg s rs).
Proof.
  intros HK HR. exists (write_name (rs_key_name s)), (map (fun r => write_name (rr_name r) ++ u16 (rr_ty r) ++ u16 1 ++ u32 (rs_orig_ttl s) ++ write_data r) rs).
  split; [apply canon_write; exact HK |]. split.
  - induction HR as [| r rs H _ IH]; [constructor |]. cbn [map]. constructor; [| exact IH]. destruct (write_data_canon r H) as (d & W1 & W2 & _ & W4 & W5).
    exists (write_name (rr_name r)), d. split; [apply canon_write, wf_owner; exact H |]. split; [exact W4 |]. split; [| split; [exact W2 | rewrite W1; reflexivity]].
    intros T ->. rewrite T in W5. inversion W5 as [ty' d' I | ty' b n I | strs (fl & la & -> & _ & HL) EE | | |]; subst; try (destruct I as [I | I]; [discriminate I |]; repeat (destruct I as [I | I]; [discriminate I |]); destruct I).
    match goal with HH : flat_map _ (_ ++ _) = [] |- _ => rewrite flat_map_app in HH; apply app_eq_nil in HH as [_ HH]; discriminate HH end.
  - unfold pub_msg, rrsig_rdata. rewrite <- !app_assoc. reflexivity.
Qed.

Definition x_root : dnskey := {| dk_name := bs "."; dk_flags := 257; dk_protocol := 3; dk_alg := 8; dk_pubkey := [1; 3; 74; 90] |}.
Definition x_key : dnskey := {| dk_name := bs "a."; dk_flags := 257; dk_protocol := 3; dk_alg := 8; dk_pubkey := [1; 3; 74; 91] |}.
Definition x_ds : RR := RR_DS {| ds_name := bs "a."; ds_key_tag := key_tag x_key; ds_alg := 8; ds_digest_type := 2; ds_digest := key_id x_key |}.
Definition x_sig (nm : string) (ty labels : N) (signer : dnskey) : rrsig :=
  {| rs_name := bs nm; rs_ty := ty; rs_alg := 8; rs_labels := labels; rs_orig_ttl := 3600; rs_expiration := 2000000000; rs_inception := 1000000000;
     rs_key_tag := key_tag signer; rs_key_name := dk_name signer; rs_signature := [] |}.

(** What the two zones sign: in a. an address for the wildcard *.a. and an NSEC record. *)
Definition x_root_sets : list (rrsig * list RR) :=
  [(x_sig "." 48 0 x_root, [RR_DnsKey x_root]); (x_sig "a." 43 1 x_root, [x_ds])].
Definition x_other : RR := RR_A {| a_name := bs "x.a."; a_addr := [127; 0; 0; 2] |}.
(** If [own], also an address for x.a. *)
Definition x_a_sets (own : bool) : list (rrsig * list RR) :=
  (x_sig "a." 48 1 x_key, [RR_DnsKey x_key]) :: (x_sig "*.a." 1 1 x_key, [w_a "*.a."]) ::
  if own then [(x_sig "x.a." 1 2 x_key, [x_other]); (x_sig "x.a." 47 2 x_key, [w_nsec "x.a." "z.a." [1]])]
  else [(x_sig "c.a." 47 2 x_key, [w_nsec "c.a." "z.a." [1]])].
Definition signs (sets : list (rrsig * list RR)) (m : list N) : bool := existsb (fun x => bytes_eqb m (pub_msg (fst x) (snd x))) sets.
(** If [evil], the zone a. signs anything. *)
Definition x_env (own evil : bool) : env :=
  {| e_sha1 := fun m => m; e_sha256 := fun m => if bytes_eqb m (key_id x_root) then root_digest_20326 else m;
     e_sig := fun _ pk m _ => match pk with PK_RSA [74; 90] _ => signs x_root_sets m | PK_RSA [74; 91] _ => evil || signs (x_a_sets own) m | _ => false end;
     e_sort_needs := fun l => l |}.
Definition x_keys (z : list N) (k : dnskey) : Prop := (z = bs "." /\ k = x_root) \/ (z = bs "a." /\ k = x_key).
Definition x_honest (evil : bool) (z : list N) : Prop := evil = true -> z <> bs "a.".
Definition x_signed (own : bool) (z : list N) (s : rrsig) (rs : list RR) : Prop :=
  (z = bs "." /\ In (s, rs) x_root_sets) \/ (z = bs "a." /\ In (s, rs) (x_a_sets own)).

Lemma x_proper n : name_try_from n = Some n -> n = [46] \/ no_empty_label true n = true -> proper_name n.
Proof. intros H. apply proper_name_iff. exact H. Qed.
Ltac x_name := apply x_proper; [vm_compute; reflexivity | first [left; reflexivity | right; vm_compute; reflexivity]].
Ltac x_wf := split; [unfold x_ds, x_other, w_a, w_nsec; cbn [typed_rr];
    repeat match goal with |- _ /\ _ => split | |- is_mask _ => split; [vm_compute; reflexivity |] | |- is_bytes _ => bytes_in_range | |- proper_name _ => x_name | |- _ => in_range end
  | split; [unfold x_ds, x_other, w_a, w_nsec; cbn [fits_rr]; first [exact I | vm_compute; discriminate] | exact I]].
Lemma x_sets_wf own s rs : In (s, rs) (x_root_sets ++ x_a_sets own) -> Forall wf_rr rs /\ proper_name (rs_key_name s).
Proof.
  intros H. unfold x_root_sets, x_a_sets in H. destruct own; cbn [app In] in H;
  repeat match type of H with _ \/ _ => destruct H as [H | H] end; try contradiction; apply pair_equal_spec in H as [<- <-]; (split; [apply Forall_cons; [x_wf | apply Forall_nil] | x_name]).
Qed.

Lemma x_layout a b md ex : RsaLayout [1; 3; a; b] md ex -> md = [a; b].
Proof.
  intros H. remember [1; 3; a; b] as key eqn:EK. destruct H as [ex md L | ex md L]; [| discriminate EK]. apply cons_inv in EK as [E1 E2].
  destruct ex as [| c [| d ex]]; [discriminate E1 | | exfalso; unfold length_of in E1; cbn [List.length] in E1; lia]. cbn [app] in E2. injection E2 as _ E2. exact E2.
Qed.
Lemma x_rfc s ls : Forall (fun l => l <> [] /\ label_ok l) ls -> (List.length (dotted ls) <= 255)%nat -> rs_name s = dotted ls ->
  rs_labels s = N.of_nat (List.length match ls with [42] :: t => t | _ => ls end) -> RfcLabels s.
Proof. intros H1 H2 H3 H4. exists ls. split; [split; assumption | auto]. Qed.
Ltac x_labels := unfold label_ok, label_char; repeat match goal with |- Forall _ (_ :: _) => apply Forall_cons | |- Forall _ [] => apply Forall_nil | |- _ /\ _ => split end; first [discriminate | lia | cbn; lia].
Ltac x_held := unfold Held, x_sig; cbn [typed_rr]; repeat match goal with |- _ /\ _ => split | |- is_bytes _ => bytes_in_range | |- _ => in_range end.
Lemma x_sets_rrset own s rs : In (s, rs) (x_root_sets ++ x_a_sets own) -> Held (RR_RRSig s) /\ RfcLabels s /\ rs <> [] /\
  Forall (fun r => rr_name r = rs_name s /\ rr_ty r = rs_ty s) rs.
Proof.
  intros H. unfold x_root_sets, x_a_sets in H. destruct own; cbn [app In] in H;
  repeat match type of H with _ \/ _ => destruct H as [H | H] end; try contradiction; apply pair_equal_spec in H as [<- <-];
    (split; [x_held |]); (split; [| split; [discriminate | apply Forall_cons; [split; reflexivity | apply Forall_nil]]]).
  all: first [apply (x_rfc _ []); [x_labels | cbn; lia | reflexivity | reflexivity] | apply (x_rfc _ [[97]]); [x_labels | cbn; lia | reflexivity | reflexivity]
    | apply (x_rfc _ [[42]; [97]]); [x_labels | cbn; lia | reflexivity | reflexivity] | apply (x_rfc _ [[99]; [97]]); [x_labels | cbn; lia | reflexivity | reflexivity]
    | apply (x_rfc _ [[120]; [97]]); [x_labels | cbn; lia | reflexivity | reflexivity]].
Qed.
Lemma x_signs sets m : signs sets m = true -> exists s rs, In (s, rs) sets /\ m = pub_msg s rs.
Proof. unfold signs. intros H. apply existsb_exists in H as ((s & rs) & H1 & H2). apply bytes_eqb_eq in H2. eauto. Qed.
Lemma key_id_inj k k' : dk_name k = dk_name k' -> key_id k = key_id k' -> k = k'.
Proof.
  unfold key_id. intros E H. rewrite E in H. apply app_inv_head, u16_app_inv in H as [F H]. cbn [app] in H. injection H as P A K.
  destruct k, k'; cbn in *. congruence.
Qed.
Lemma x_unforged own evil z k s msg : x_honest evil z -> x_keys z k -> CryptoOk (x_env own evil) s k msg -> exists s0 rs, x_signed own z s0 rs /\ PubData s0 rs msg.
Proof.
  intros Hz Hk Hc. assert (HV : (exists md ex, RsaLayout (dk_pubkey k) md ex /\ exists alg, e_sig (x_env own evil) alg (PK_RSA md ex) msg (rs_signature s) = true)).
  { inversion Hc as [md ex H1 H2 H3 H4 H5 | md ex H1 H2 H3 H4 H5 | H1 H5 | H1 H5 | H1 H5]; [eauto | eauto | discriminate H5 | discriminate H5 | discriminate H5]. }
  destruct HV as (md & ex & HL & alg & HS). destruct Hk as [[-> ->] | [-> ->]]; apply x_layout in HL; subst md; cbn [e_sig x_env] in HS.
  - apply x_signs in HS as (s0 & rs & HI & ->). exists s0, rs. split; [left; auto |]. destruct (x_sets_wf own s0 rs) as [A B]; [apply in_or_app; left; exact HI |]. apply pub_msg_ok; assumption.
  - destruct evil; [exfalso; apply Hz; reflexivity |]. apply x_signs in HS as (s0 & rs & HI & ->). exists s0, rs. split; [right; auto |].
    destruct (x_sets_wf own s0 rs) as [A B]; [apply in_or_app; right; exact HI |]. apply pub_msg_ok; assumption.
Qed.
Lemma x_in own z s rs : x_signed own z s rs -> In (s, rs) (x_root_sets ++ x_a_sets own).
Proof. intros [[_ H] | [_ H]]; apply in_or_app; auto. Qed.
Lemma x_sha own evil m d : m <> key_id x_root -> e_sha256 (x_env own evil) m = d -> m = d.
Proof. intros N H. cbn [e_sha256 x_env] in H. rewrite (proj2 (bytes_eqb_neq _ _) N) in H. exact H. Qed.
Lemma x_world own evil : World (x_env own evil) x_keys (x_honest evil) (x_signed own).
Proof.
  constructor.
  - intros z k s msg Hz Hk Hc _. eapply x_unforged; eassumption.
  - intros z s rs H. apply x_in in H. apply x_sets_rrset in H. exact H.
  - intros k Hk Hn (d & Hd & _ & _ & HH). left. split; [reflexivity |].
    assert (T2 : ds_digest_type d = 2 /\ (exists c t, ds_digest d = c :: t /\ c <> 0)) by (destruct Hd as [<- | [<- | []]]; (split; [reflexivity |]; eexists; eexists; split; [vm_compute; reflexivity | discriminate])).
    destruct T2 as [T2 (c & t & ED & NC)]. destruct HH as [[_ HH] | (T1 & _)]; [| congruence].
    destruct (list_eq_dec N.eq_dec (key_id k) (key_id x_root)) as [E | NE]; [apply key_id_inj; [exact Hn | exact E] |].
    exfalso. symmetry in HH. apply x_sha in HH; [| exact NE]. rewrite ED in HH. unfold key_id in HH. rewrite Hn in HH. cbn [write_name] in HH. apply (f_equal (hd 1)) in HH. cbn in HH. congruence.
  - intros z s rs k HS T Hk Hn (d & Hd & _ & _ & HH). assert (SR : s = x_sig "a." 43 1 x_root /\ rs = [x_ds]).
    { apply x_in in HS. unfold x_root_sets, x_a_sets in HS. destruct own; cbn [app In] in HS; repeat match type of HS with _ \/ _ => destruct HS as [HS | HS] end; try contradiction; apply pair_equal_spec in HS as [<- <-]; try discriminate T; auto. }
    destruct SR as [-> ->]. right. split; [reflexivity |]. cbn [flat_map ds_of x_ds app] in Hd. destruct Hd as [<- | []]. destruct HH as [[_ HH] | (T1 & _)]; [| discriminate T1].
    cbn [ds_digest] in HH. symmetry in HH. change (rs_name (x_sig "a." 43 1 x_root)) with (bs "a.") in Hn.
    assert (NE : key_id k <> key_id x_root) by (unfold key_id; rewrite Hn; intros Z; apply (f_equal (hd 7)) in Z; vm_compute in Z; discriminate Z).
    apply x_sha in HH; [| exact NE]. apply key_id_inj; [exact Hn | exact HH].
  - intros z s rs k HS T Hk. apply x_in in HS. unfold x_root_sets, x_a_sets in HS. destruct own; cbn [app In] in HS;
    repeat match type of HS with _ \/ _ => destruct HS as [HS | HS] end; try contradiction; apply pair_equal_spec in HS as [<- <-]; try discriminate T; destruct Hk as [Hk | []]; injection Hk as <-; first [left; split; reflexivity | right; split; reflexivity].
  - intros z s rs HS T (p & Hp). apply x_in in HS. unfold x_root_sets, x_a_sets in HS. destruct own; cbn [app In] in HS;
    repeat match type of HS with _ \/ _ => destruct HS as [HS | HS] end; try contradiction; apply pair_equal_spec in HS as [<- <-]; vm_compute in Hp; try discriminate Hp; destruct T as [T | T]; discriminate T.
Qed.

(** The chain down to a., an answer from its wildcard, and the same with another address. *)
Definition x_zones : list RR :=
  [RR_DnsKey x_root; RR_RRSig (x_sig "." 48 0 x_root); x_ds; RR_RRSig (x_sig "a." 43 1 x_root); RR_DnsKey x_key; RR_RRSig (x_sig "a." 48 1 x_key)].
Definition x_answer (a : RR) : list RR :=
  x_zones ++ [a; RR_RRSig (x_sig "x.a." 1 1 x_key); w_nsec "c.a." "z.a." [1]; RR_RRSig (x_sig "c.a." 47 2 x_key)].
Definition x_wild : list RR := x_answer (w_a "x.a.").
Definition x_forged : list RR := x_answer x_other.
Lemma x_wild_ok : exists v, verify_rr_stream (x_env false false) false 10 x_wild = Ok v /\ vr_rrs v = [w_a "x.a."].
Proof. eexists. split; vm_compute; reflexivity. Qed.
Lemma x_forged_bad : verify_rr_stream (x_env false false) false 10 x_forged = Err Invalid.
Proof. vm_compute. reflexivity. Qed.
Ltac x_held_all := repeat (apply Forall_cons; [unfold Held, x_ds, x_sig, x_root, x_key, w_a, w_nsec; cbn [typed_rr];
  repeat match goal with |- _ /\ _ => split | |- is_mask _ => split; [vm_compute; reflexivity |] | |- is_bytes _ => bytes_in_range | |- _ => in_range end |]); apply Forall_nil.
Lemma x_wild_held : Forall Held x_wild.
Proof. unfold x_wild, x_answer, x_zones. cbn [app]. x_held_all. Qed.
Ltac x_fits_all := repeat (apply Forall_cons; [unfold x_ds, x_sig, x_root, x_key, w_a, w_nsec; cbn [fits_rr]; first [exact I | vm_compute; discriminate] |]); apply Forall_nil.
Lemma x_wild_fits : Forall fits_rr x_wild.
Proof. unfold x_wild, x_answer, x_zones. cbn [app]. x_fits_all. Qed.

(** The zone a. answers for ba. *)
Definition x_sibling : list RR := x_zones ++ [w_a "ba."; RR_RRSig (x_sig "ba." 1 1 x_key)].
Lemma x_sibling_ok : exists v, verify_rr_stream (x_env false true) false 10 x_sibling = Ok v /\ vr_rrs v = [w_a "ba."].
Proof. eexists. split; vm_compute; reflexivity. Qed.
Lemma x_sibling_held : Forall Held x_sibling.
Proof. unfold x_sibling, x_zones. cbn [app]. x_held_all. Qed.
Lemma x_sibling_fits : Forall fits_rr x_sibling.
Proof. unfold x_sibling, x_zones. cbn [app]. x_fits_all. Qed.
Lemma x_sub d : Subdomain (bs "ba.") d -> x_honest true d.
Proof.
  intros (pre & ls & L1 & L2) _ ->.
  assert (A : LabelsOf (bs "ba.") [[98; 97]]) by (split; [reflexivity |]; split; [x_labels | discriminate]).
  assert (B : LabelsOf (bs "a.") [[97]]) by (split; [reflexivity |]; split; [x_labels | discriminate]).
  rewrite (labelsof_inj _ _ _ L2 B) in L1. pose proof (labelsof_inj _ _ _ L1 A) as E. destruct pre as [| x [| y pre]]; discriminate.
Qed.
Lemma sec_boundary_refuted : ~ (forall e KeyOf Honest Signed fuel inp v r, World e KeyOf Honest Signed -> Forall Held inp -> Forall fits_rr inp ->
  verify_rr_stream e false fuel inp = Ok v -> In r (vr_rrs v) -> (forall d, Subdomain (rr_name r) d -> Honest d) -> exists z, Published Signed z v r).
Proof.
  intros H. destruct x_sibling_ok as (v & E & R). destruct (H _ _ _ _ 10%nat x_sibling v (w_a "ba.") (x_world false true) x_sibling_held x_sibling_fits E) as (z & s & rs & HS & _ & HT & HC & _).
  - rewrite R. left. reflexivity.
  - exact x_sub.
  - apply x_in in HS. unfold x_root_sets, x_a_sets in HS. cbn [app In] in HS.
    repeat match type of HS with _ \/ _ => destruct HS as [HS | HS] end; try contradiction; apply pair_equal_spec in HS as [<- <-]; try discriminate HT.
    destruct HC as [HC | (pre & suf & NP & L & E2)]; [discriminate HC |].
    assert (A : LabelsOf (bs "ba.") [[98; 97]]) by (split; [reflexivity |]; split; [x_labels | discriminate]).
    pose proof (labelsof_inj _ _ _ L A) as E3. destruct pre as [| x pre]; [congruence |]. injection E3 as _ E3. apply app_eq_nil in E3 as [_ ->]. discriminate E2.
Qed.

(** An answer for x.a. from the wildcard, although x.a. has its own address. *)
Definition x_shadow : list RR :=
  x_zones ++ [w_a "x.a."; RR_RRSig (x_sig "x.a." 1 1 x_key); w_nsec "x.a." "z.a." [1]; RR_RRSig (x_sig "x.a." 47 2 x_key)].
Lemma x_shadow_ok : exists v, verify_rr_stream (x_env true false) false 10 x_shadow = Ok v /\ vr_rrs v = [w_a "x.a."].
Proof. eexists. split; vm_compute; reflexivity. Qed.
Lemma x_shadow_held : Forall Held x_shadow.
Proof. unfold x_shadow, x_zones. cbn [app]. x_held_all. Qed.
Lemma x_shadow_fits : Forall fits_rr x_shadow.
Proof. unfold x_shadow, x_zones. cbn [app]. x_fits_all. Qed.
Lemma sec_exact_refuted : ~ (forall e KeyOf Honest Signed fuel inp v r z s rs, World e KeyOf Honest Signed -> (forall d, Honest d) -> SortsNeeds e -> Forall Held inp -> Forall fits_rr inp ->
  verify_rr_stream e false fuel inp = Ok v -> In r (vr_rrs v) -> Signed z s rs -> rs_name s = rr_name r -> rs_ty s = rr_ty r ->
  exists z' s' rs', Signed z' s' rs' /\ rs_name s' = rr_name r /\ In r rs').
Proof.
  intros H. destruct x_shadow_ok as (v & E & R).
  destruct (H (x_env true false) x_keys (x_honest false) (x_signed true) 10%nat x_shadow v (w_a "x.a.") (bs "a.") (x_sig "x.a." 1 2 x_key) [x_other]) as (z & s & rs & HS & HN & HI); auto.
  - apply x_world.
  - intros d HD. discriminate HD.
  - intros l. apply Permutation_refl.
  - exact x_shadow_held.
  - exact x_shadow_fits.
  - rewrite R. left. reflexivity.
  - right. split; [reflexivity |]. right. right. left. reflexivity.
  - apply x_in in HS. unfold x_root_sets, x_a_sets in HS. cbn [app In] in HS.
    repeat match type of HS with _ \/ _ => destruct HS as [HS | HS] end; try contradiction; apply pair_equal_spec in HS as [<- <-]; try discriminate HN; destruct HI as [HI | []]; discriminate HI.
Qed.
Lemma x_example : World (x_env false false) x_keys (x_honest false) (x_signed false) /\ (forall d, x_honest false d) /\
  (exists v, verify_rr_stream (x_env false false) false 10 x_wild = Ok v /\ vr_rrs v = [w_a "x.a."] /\ exists z, Published (x_signed false) z v (w_a "x.a.")) /\
  verify_rr_stream (x_env false false) false 10 x_forged = Err Invalid.
Proof.
  split; [apply x_world |]. assert (A : forall d, x_honest false d) by (intros d HD; discriminate HD). split; [exact A |]. split; [| exact x_forged_bad].
  destruct x_wild_ok as (v & E & R). exists v. split; [exact E |]. split; [exact R |].
  destruct (only_published _ _ _ _ 10%nat x_wild v (w_a "x.a.") (x_world false false) x_wild_held x_wild_fits E) as (z & p & _ & _ & P); [rewrite R; left; reflexivity | intros d q _ _; apply A | exists z; exact P].
Qed.
