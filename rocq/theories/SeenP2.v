(** What a JavaScript caller is told is what the zones have published (C72). *)
From Verif Require Import Base BaseP NameSpec NameM NameP WireM WireSpec WireP RRM SerM RecSpec RecP2 CodecSpec ValM ValSpec ValP3 HeldP QueryM QuerySpec QueryP QueryP3 LeftP TextSpec TextP JsonM JsonSpec JsonP JsonP2 JsonP3 JsonP4 JsonP5 JsonP6 JsonP7
  WasmM WasmSpec WasmP DohM DohSpec DohP DohP2 DohP3 SecSpec SecP3 AnswerSpec DbgP SeenSpec SeenP.
From Coq Require Import String Lia Arith.
Local Open Scope N_scope.

(** ** What is written is bytes *)
Lemma bytes_app a b : is_bytes a -> is_bytes b -> is_bytes (a ++ b).
Proof. intros A B. apply Forall_app. auto. Qed.
Lemma bytes_cons c b : c < 256 -> is_bytes b -> is_bytes (c :: b).
Proof. intros A B. constructor; [exact A | exact B]. Qed.
Lemma be16_bytes n : is_bytes (be16 n).
Proof. apply is_bytes_ok, be16_ok. Qed.
Lemma be32_bytes n : is_bytes (be32 n).
Proof. apply is_bytes_ok, be32_ok. Qed.
Lemma as_u8_byte n : as_u8 n < 256.
Proof. unfold as_u8. apply N.mod_lt. discriminate. Qed.
Lemma part_bytes (l : list N) n : is_bytes l -> is_bytes (firstn n l) /\ is_bytes (skipn n l).
Proof. intros H. rewrite <- (firstn_skipn n l) in H. apply Forall_app in H. exact H. Qed.
Lemma chunks_bytes n l : is_bytes l -> Forall is_bytes (chunks n l).
Proof.
  unfold chunks. generalize (List.length l). intros f. revert l. induction f as [| f IH]; intros l H; cbn; [constructor |]. destruct l as [| c l]; [constructor |].
  destruct (part_bytes _ n H) as [A B]. constructor; [exact A | apply IH, B].
Qed.
Lemma blocks_bytes bl : forall i, Forall is_bytes bl -> is_bytes (write_blocks i bl).
Proof.
  induction bl as [| b bl IH]; intros i H; cbn [write_blocks]; [constructor |]. inversion H; subst. apply bytes_app; [| auto].
  destruct (bytes_eqb b (repeat 0 32)); [constructor |]. apply bytes_cons; [apply as_u8_byte |]. apply bytes_cons; [apply as_u8_byte |]. apply part_bytes. assumption.
Qed.
Lemma name_bytes n : quotable n -> is_bytes (write_name n).
Proof.
  intros Q. unfold write_name, write_name_calls. destruct (bytes_eqb (lowercase n) root_name); [repeat constructor; reflexivity |].
  assert (B : is_bytes (lowercase n)).
  { unfold lowercase, is_bytes. apply Forall_map. eapply Forall_impl; [| exact Q]. intros c [L _]. unfold is_u8, ascii_lower. destruct ((65 <=? c) && (c <=? 90)) eqn:E; [| lia].
    apply andb_true_iff in E as [_ E]. apply N.leb_le in E. lia. }
  assert (S : Forall is_bytes (split_on dot (lowercase n))).
  { apply Forall_forall. intros l I. unfold is_bytes in *. rewrite Forall_forall in *. intros c Ic. apply B. rewrite <- (join_split dot (lowercase n)).
    revert I. generalize (split_on dot (lowercase n)). clear -Ic. induction l0 as [| x t IH]; intros []; [subst x | ].
    - destruct t; cbn [join]; [exact Ic | apply in_app_iff; left; exact Ic].
    - destruct t as [| y t]; [contradiction |]. cbn [join]. apply in_app_iff. right. right. apply IH. exact H. }
  induction S as [| l ls Hl S IH]; cbn [flat_map concat app]; [constructor |]. apply bytes_cons; [apply as_u8_byte |]. apply bytes_app; assumption.
Qed.
Lemma txt_loop_bytes f : forall d, is_bytes d -> is_bytes (txt_write_loop f d).
Proof.
  induction f as [| f IH]; intros d H; cbn [txt_write_loop]; [constructor |]. destruct (is_nil d); [constructor |].
  assert (P : is_bytes (takeN (N.min 255 (len d)) d) /\ is_bytes (dropN (N.min 255 (len d)) d)) by (rewrite <- (takeN_dropN (N.min 255 (len d)) d) in H; apply Forall_app in H; exact H).
  destruct P as [A B]. apply bytes_app; [exact A |]. apply bytes_app; [| apply IH, B]. destruct (is_nil _); [constructor |]. apply bytes_cons; [lia | constructor].
Qed.
Ltac wb := repeat first
  [ apply bytes_app | apply be16_bytes | apply be32_bytes | apply bytes_cons; [first [apply as_u8_byte | assumption | lia] |] | apply name_bytes, name_quotable; assumption
  | apply blocks_bytes, chunks_bytes; assumption | apply txt_loop_bytes; assumption | assumption | constructor ].
Lemma record_bytes r ttl : Held r -> is_bytes (write_rr r ttl).
Proof.
  intros H. unfold write_rr. apply bytes_app; [| apply bytes_app; [apply be16_bytes |]; apply bytes_app; [apply be16_bytes |]; apply bytes_app; [apply be32_bytes |]].
  - apply name_bytes. pose proof (fields_ok r H) as F. rewrite Forall_forall in F.
    assert (I : In ("name"%string, FText (rr_name r)) (fields r)) by (destruct r; right; left; reflexivity). apply (F _ I).
  - unfold Held in H. destruct r as [r|r|r|r|r|r|r|r|r|r|r|r]; cbn [typed_rr] in H; unfold is_mask in H; repeat match type of H with _ /\ _ => let A := fresh "A" in destruct H as [A H] end;
    repeat match goal with A : _ /\ _ |- _ => destruct A end;
    cbn [write_data]; unfold a_write, aaaa_write, name_write, txt_write, tlsa_write, dnskey_write, ds_write, rrsig_write, nsec_write, nsec3_write, write_nsec_types_bitmap; cbn [app]; unfold is_u8 in *; wb.
Qed.
Lemma written_bytes l : Forall (fun rt => Held (fst rt) /\ is_u32 (snd rt)) l -> is_bytes (write_all l).
Proof. induction 1 as [| rt l [H _] F IH]; [constructor |]. unfold write_all. cbn [flat_map]. apply bytes_app; [apply record_bytes, H | exact IH]. Qed.
Lemma proof_bytes dbg n ty b0 q0 tr b p ttl : builder_new n ty = Ok (b0, q0) -> Calls dbg b0 tr b -> Forall (fun c => is_bytes (fst c)) tr -> finish_proof b = Ok (p, ttl) -> is_bytes p.
Proof.
  intros E C B F. unfold builder_new in E. apply obind_ok in E as (q & _ & E). injection E as <- <-.
  destruct (calls_items _ _ _ C B) as (its & _ & PR & Fh & _). unfold finish_proof in F. destruct ((0 <? pb_pending b) || (MAX_REQUESTS <? pb_made b)); [discriminate F |]. injection F as <- _.
  rewrite PR. apply written_bytes, Fh.
Qed.

(** ** Errors are not results *)
Lemma error_first t j : Json (bs "{""error"":" ++ t) j -> exists v kvs, j = JObj ((bs "error", v) :: kvs).
Proof.
  intros J. apply json_parses in J as (f & J). destruct (J (Datatypes.S (Datatypes.S f)) ltac:(lia)) as (w & P & _). clear J.
  change (match match pv f (skip t) with None => None | Some (v, q) => match skip q with c :: q' => if c =? 125 then Some ([(bs "error", v)], q')
    else if c =? 44 then match po f (skip q') with Some (kvs, q2) => Some ((bs "error", v) :: kvs, q2) | None => None end else None | [] => None end end
    with Some (kvs, q) => Some (JObj kvs, q) | None => None end = Some (j, w)) in P.
  destruct (pv f (skip t)) as [[v q] |]; [| discriminate P]. destruct (skip q) as [| c q']; [discriminate P |]. destruct (c =? 125); [injection P as <- _; eauto |].
  destruct (c =? 44); [| discriminate P]. destruct (po f (skip q')) as [[kvs q2] |]; [| discriminate P]. injection P as <- _. eauto.
Qed.
Lemma error_not_result t j V : Json (bs "{""error"":" ++ t) j -> ~ DescribesResult V j.
Proof. intros J (a & b & c & rs & -> & _). apply error_first in J as (v & kvs & E). discriminate E. Qed.

(** ** The window is made of times which JavaScript has *)
Lemma window_small e fuel inp v : Forall Held inp -> verify_rr_stream e false fuel inp = Ok v -> vr_valid_from v <= 2 ^ 53 /\ vr_expires v <= 2 ^ 53 /\ vr_max_cache_ttl v <= 2 ^ 53.
Proof.
  intros H V. destruct (verified_window e false fuel inp v H V) as (used & _ & U & _ & [M1 _] & [M2 _] & [M3 _] & _). change (2 ^ 53) with 9007199254740992.
  assert (T : forall n, resolve_time n <= 2 * 2 ^ 32 \/ resolve_time n <= n).
  { intros n. unfold resolve_time. match goal with |- context [n <? ?y] => destruct (N.ltb_spec n y) end; lia. }
  rewrite Forall_forall in H. apply in_map_iff in M1 as (s1 & <- & I1), M2 as (s2 & <- & I2), M3 as (s3 & <- & I3).
  apply U in I1 as [I1 _], I2 as [I2 _], I3 as [I3 _]. apply H in I1, I2, I3. destruct I1 as (_ & _ & _ & _ & _ & _ & I1 & _), I2 as (_ & _ & _ & _ & _ & I2 & _), I3 as (_ & _ & _ & _ & I3 & _).
  unfold is_u32 in *. pose proof (T (rs_inception s1)). pose proof (T (rs_expiration s2)). lia.
Qed.

(** ** The whole *)
Lemma seen_published e KeyOf Honest Signed dbg fuel reparse trap fetch endpoint k domain ty s urls j V :
  World e KeyOf Honest Signed -> Reformats reparse -> (forall i u b, fetch i u = Body b -> is_bytes b) -> (11 <= k)%nat ->
  lookup_doh e dbg fuel reparse trap fetch endpoint k domain (TyText ty) = (JText s, urls) -> Json s j -> DescribesResult V j -> Forall Held (vr_rrs V) ->
  exists v, vr_valid_from V = vr_valid_from v /\ vr_expires V = vr_expires v /\ vr_max_cache_ttl V = vr_max_cache_ttl v /\
    Forall2 (fun r0 r => Spelled r0 r /\ ((forall raw, Str raw (rr_name r) -> InGoodHands Honest raw) -> exists z p, rr_name r0 = p ++ z /\ proper_name z /\ Published Signed z v r0)) (vr_rrs v) (vr_rrs V).
Proof.
  intros W RF FB K L J D HV.
  assert (EJ : forall t, s <> bs "{""error"":" ++ t) by (intros t ->; exact (error_not_result _ _ _ J D)).
  destruct (type_number ty) as [t |] eqn:T.
  2:{ exfalso. rewrite lookup_type in L by (intros t TN; apply type_spec in TN; congruence). injection L as <- _. exact (EJ (bs """Unsupported Type""}") eq_refl). }
  apply type_spec in T. destruct (name_try_from (completed domain)) as [n |] eqn:N.
  2:{ exfalso. rewrite (lookup_domain _ _ _ _ _ _ _ _ _ _ _ T N) in L. injection L as <- _. exact (EJ (bs """Bad domain""}") eq_refl). }
  destruct (doh_run _ _ _ _ _ _ _ k domain ty t n _ _ K T N FB L) as (b0 & q0 & tr & b & bodies & qs & BN & C & MF & _ & _ & [(-> & FE & [(p & ttl & FP & CH) | (_ & E)]) | (us & u & later & _ & _ & _ & [(exn & _ & E) | (m & _ & _ & E)])]).
  2:{ injection E as ->. exfalso. exact (EJ (bs """Failed to build proof""}") eq_refl). }
  2:{ injection E as ->. exfalso. exact (EJ (bs """DoH Query failed: " ++ exn ++ bs """}") eq_refl). }
  2:{ injection E as ->. exfalso. exact (EJ (bs """DoH Query failed: " ++ trap ++ bs """}") eq_refl). }
  assert (BB : Forall is_bytes bodies).
  { destruct FE as [LE FE]. apply Forall_forall. intros m I. apply In_nth_error in I as (i & M). assert (LT : (i < List.length bodies)%nat) by (apply nth_error_Some; congruence).
    destruct (nth_error urls i) as [u |] eqn:U; [| apply nth_error_None in U; lia]. exact (FB _ _ _ (FE i u m U M)). }
  pose proof (proof_bytes _ _ _ _ _ _ _ _ _ BN C (bytes_fed _ _ _ _ _ C MF BB) FP) as PB.
  inversion CH as [text s' VB R | | |]; subst. destruct (RF _ _ _ R J) as (j0 & J0 & SM).
  destruct (byte_stream_reads _ _ _ _ _ _ PB VB J0) as [(rrs & v & P & VV & RR) | (x & DE & _)].
  2:{ exfalso. destruct D as (a & b' & c & rs & -> & _). unfold DescribesError in DE. rewrite DE in SM. inversion SM as [| | | | | ? ? KK]; subst.
      assert (K' := KK ltac:(repeat (constructor; [cbn; intuition discriminate |]); constructor) ltac:(repeat (constructor; [intros [_ X]; cbn in X; inversion X as [| ? ? DD]; unfold is_digit in DD; lia |]); constructor)).
      inversion K' as [| ? ? ? ? _ K2]; subst. inversion K2. }
  pose proof (parsed_held _ _ _ PB P) as HI. destruct (verified_not_rrsig _ _ _ _ _ HI VV) as [HH _].
  destruct (window_small _ _ _ _ HI (verify_release _ _ _ _ _ VV)) as (B1 & B2 & B3).
  destruct (result_seen v V j0 j HH HV B1 B2 B3 RR SM D) as (E1 & E2 & E3 & F). exists v. split; [exact E1 |]. split; [exact E2 |]. split; [exact E3 |].
  assert (G : Forall (fun r0 => InGoodHands Honest (rr_name r0) -> exists z p, rr_name r0 = p ++ z /\ proper_name z /\ Published Signed z v r0) (vr_rrs v)).
  { apply Forall_forall. intros r0 I GH. exact (proof_published e KeyOf Honest Signed dbg fuel p rrs v r0 W PB P VV I GH). }
  revert F G. generalize (Published Signed). generalize (vr_rrs v) (vr_rrs V). clear. intros l l' Pub F. induction F as [| r0 r l l' S F IH]; intros G; [constructor |].
  inversion G; subst. constructor; [| auto]. split; [exact S |]. intros GH. apply H1, GH, spelled_name. exact S.
Qed.
