(** The octets looked at for names. *)
From Verif Require Import Base BaseP NameM WireM RRM SerM QueryM RecSpec StepM StepSpec.
From Coq Require Import PeanoNat.
Local Open Scope N_scope.

(** ** The counter changes nothing *)
Lemma cbind_snd {E A B} (x : N * outcome E A) (f : A -> N * outcome E B) : snd (cbind x f) = (a <- snd x ;; snd (f a)).
Proof. destruct x as [n [a | e | |]]; cbn [cbind snd obind]; try reflexivity. destruct (f a). reflexivity. Qed.
Definition same_jump (J : option (bytes -> bytes -> N * outcome unit bytes)) (K : option (bytes -> bytes -> outcome unit bytes)) : Prop :=
  match J, K with None, None => True | Some f, Some g => forall i n, snd (f i n) = g i n | _, _ => False end.
Lemma same_labels J K w : same_jump J K -> forall fuel inp nm, snd (s_labels_loop J w fuel inp nm) = labels_loop K w fuel inp nm.
Proof.
  intros HJ. induction fuel as [| f IH]; intros inp nm; [reflexivity |]. destruct inp as [| l inp1]; [reflexivity |]. cbn [s_labels_loop labels_loop]. destruct (l =? 0); [reflexivity |].
  assert (L : snd (if len inp1 <=? l then (1, Err tt) else if negb (utf8_ok (takeN l inp1)) then (1 + l, Err tt) else if 255 <? len (nm ++ takeN l inp1 ++ [dot]) then (1 + l, Err tt)
      else let '(n, r) := s_labels_loop J w f (dropN l inp1) (nm ++ takeN l inp1 ++ [dot]) in (1 + l + n, r)) =
    (if len inp1 <=? l then Err tt else if negb (utf8_ok (takeN l inp1)) then Err tt else if 255 <? len (nm ++ takeN l inp1 ++ [dot]) then Err tt else labels_loop K w f (dropN l inp1) (nm ++ takeN l inp1 ++ [dot]))).
  { destruct (len inp1 <=? l); [reflexivity |]. destruct (negb _); [reflexivity |]. destruct (255 <? _); [reflexivity |]. rewrite <- IH. destruct (s_labels_loop J w f _ _). reflexivity. }
  destruct J as [r |], K as [g |]; cbn in HJ; try contradiction; [| exact L]. destruct (192 <=? l); [| exact L]. destruct inp1 as [| lo inp2]; [reflexivity |]. cbn [read_u8 obind]. destruct (len w <=? _); [reflexivity |].
  rewrite <- HJ. destruct (r _ nm) as [n [a | e | |]]; reflexivity.
Qed.
Lemma same_do limit : forall w inp nm, snd (s_do_read limit w inp nm) = do_read_wire_packet_labels limit w inp nm.
Proof.
  induction limit as [| l IH]; intros w inp nm; cbn [s_do_read do_read_wire_packet_labels]; apply same_labels; [exact I |]. intros i n. rewrite cbind_snd, IH. destruct (do_read_wire_packet_labels l w i n) as [[a b] | | |]; reflexivity.
Qed.
Lemma same_name inp w : snd (s_read_name inp w) = read_wire_packet_name inp w.
Proof. unfold s_read_name, read_wire_packet_name. rewrite cbind_snd, same_do. destruct (do_read_wire_packet_labels 255 w inp []) as [[a b] | | |]; reflexivity. Qed.
Lemma same_single dbg d w : snd (s_single_name dbg d w) = read_single_name dbg d w.
Proof. unfold s_single_name, read_single_name. rewrite cbind_snd, same_name. destruct (read_wire_packet_name d w) as [[a b] | | |]; reflexivity. Qed.
Ltac same_step := rewrite cbind_snd; cbn [snd free]; match goal with |- obind ?x _ = obind ?x _ => destruct x as [[? ?] | | |]; cbn [obind]; try reflexivity end.
Lemma same_rrsig nm d w : snd (s_rrsig_read nm d w) = rrsig_read nm d w.
Proof. unfold s_rrsig_read, rrsig_read. do 7 same_step. rewrite cbind_snd, same_name. destruct (read_wire_packet_name _ w) as [[? ?] | | |]; reflexivity. Qed.
Lemma same_nsec nm d w : snd (s_nsec_read nm d w) = nsec_read nm d w.
Proof. unfold s_nsec_read, nsec_read. rewrite cbind_snd, same_name. destruct (read_wire_packet_name d w) as [[? ?] | | |]; reflexivity. Qed.
Lemma same_data dbg ty nm d w : snd (s_read_data dbg ty nm d w) = read_data dbg ty nm d w.
Proof.
  unfold s_read_data. destruct (N.eqb_spec ty T_NS) as [-> |]; [rewrite cbind_snd, same_single; cbv [read_data]; change (T_NS =? T_A) with false; change (T_NS =? T_AAAA) with false; change (T_NS =? T_NS) with true; cbv iota; unfold ns_read; destruct (read_single_name dbg d w); reflexivity |].
  destruct (N.eqb_spec ty T_CNAME) as [-> |]; [rewrite cbind_snd, same_single; unfold read_data; change (T_CNAME =? T_A) with false; change (T_CNAME =? T_AAAA) with false; change (T_CNAME =? T_NS) with false; change (T_CNAME =? T_TXT) with false; change (T_CNAME =? T_CNAME) with true; cbv iota; unfold cname_read; destruct (read_single_name dbg d w); reflexivity |].
  destruct (N.eqb_spec ty T_DNAME) as [-> |]; [rewrite cbind_snd, same_single; unfold read_data; change (T_DNAME =? T_A) with false; change (T_DNAME =? T_AAAA) with false; change (T_DNAME =? T_NS) with false; change (T_DNAME =? T_TXT) with false; change (T_DNAME =? T_CNAME) with false; change (T_DNAME =? T_DNAME) with true; cbv iota; unfold dname_read; destruct (read_single_name dbg d w); reflexivity |].
  destruct (N.eqb_spec ty T_RRSIG) as [-> |]; [rewrite cbind_snd, same_rrsig; change (read_data dbg T_RRSIG nm d w) with (r <- rrsig_read nm d w ;; Ok (RR_RRSig r)); destruct (rrsig_read nm d w); reflexivity |].
  destruct (N.eqb_spec ty T_NSEC) as [-> |]; [rewrite cbind_snd, same_nsec; change (read_data dbg T_NSEC nm d w) with (r <- nsec_read nm d w ;; Ok (RR_NSec r)); destruct (nsec_read nm d w); reflexivity |]. reflexivity.
Qed.
Lemma same_rr dbg inp w : snd (s_parse_wire_packet_rr dbg inp w) = parse_wire_packet_rr dbg inp w.
Proof.
  unfold s_parse_wire_packet_rr, parse_wire_packet_rr. rewrite cbind_snd, same_name. destruct (read_wire_packet_name inp w) as [[nm i] | | |]; cbn [obind]; try reflexivity. do 2 same_step. destruct (negb _); [reflexivity |]. do 2 same_step. destruct (_ <? _); [reflexivity |].
  rewrite cbind_snd, same_data. destruct (read_data _ _ _ _ _); reflexivity.
Qed.
Lemma same_parse dbg inp : snd (s_parse_rr dbg inp) = parse_rr dbg inp.
Proof. unfold s_parse_rr, parse_rr. rewrite cbind_snd, same_rr. destruct (parse_wire_packet_rr dbg inp []) as [[[r t] rest] | | |]; reflexivity. Qed.
Lemma same_stream_loop dbg fuel : forall inp res, snd (s_stream_loop dbg fuel inp res) = parse_stream_loop dbg fuel inp res.
Proof. induction fuel as [| f IH]; intros [| x inp] res; try reflexivity. cbn [s_stream_loop parse_stream_loop]. rewrite cbind_snd, same_parse. destruct (parse_rr dbg (x :: inp)) as [[r rest] | | |]; cbn [obind]; try reflexivity. apply IH. Qed.
Lemma same_stream dbg inp : snd (s_parse_rr_stream dbg inp) = parse_rr_stream dbg inp.
Proof. apply same_stream_loop. Qed.
Lemma same_section dbg resp keep n : forall read t hs, snd (s_read_section dbg resp keep n read t hs) = read_section dbg resp keep n read t hs.
Proof.
  induction n as [| n IH]; intros read t hs; [reflexivity |]. cbn [s_read_section read_section]. rewrite <- same_rr. destruct (s_parse_wire_packet_rr dbg read resp) as [c [[[r ttl] read'] | | |]]; cbn [snd]; try reflexivity.
  destruct (keep r); [destruct (emit dbg r ttl hs); [| reflexivity] |]; rewrite <- IH; destruct (s_read_section _ _ _ _ _ _ _); reflexivity.
Qed.
Lemma same_skip resp n : forall read, snd (s_skip_questions resp n read) = skip_questions resp n read.
Proof. induction n as [| n IH]; intros read; [reflexivity |]. cbn [s_skip_questions skip_questions]. rewrite cbind_snd, same_name. destruct (read_wire_packet_name read resp) as [[nm i] | | |]; cbn [obind]; try reflexivity. do 2 same_step. apply IH. Qed.
Lemma same_header resp : snd (s_read_header resp) = read_header resp.
Proof.
  unfold s_read_header, read_header. same_step. destruct (negb _); [reflexivity |]. same_step. destruct (_ =? 0); [reflexivity |]. destruct (negb _); [reflexivity |]. destruct (_ =? 0); [reflexivity |]. same_step. destruct (negb _); [reflexivity |]. same_step. destruct (_ =? 0); [reflexivity |]. do 2 same_step.
  rewrite cbind_snd, same_skip. destruct (skip_questions _ _ _); reflexivity.
Qed.
Lemma same_response dbg resp hs : snd (s_handle_response dbg resp hs) = handle_response dbg resp hs.
Proof.
  unfold s_handle_response, handle_response. rewrite <- same_header. destruct (s_read_header resp) as [c [[[an au] read] | | |]]; cbn [snd]; try reflexivity. rewrite <- same_section. destruct (s_read_section _ _ _ _ _ _ _) as [c1 [[[ttl rd] | | |] hs1]]; cbn [snd]; try reflexivity.
  rewrite <- same_section. destruct (s_read_section _ _ _ _ _ _ _) as [c2 [[[ttl2 rd2] | | |] hs2]]; reflexivity.
Qed.

(** ** One name *)
(** [c] octets looked at with [a] octets of a name already there: [b] at most, and 255 more if refused. *)
Definition Looks {A} (x : N * outcome unit A) (b : N) : Prop := fst x <= b + 255 /\ forall a, snd x = Ok a -> fst x <= b.
Lemma bytes_drop n (l : bytes) : is_bytes l -> is_bytes (dropN n l).
Proof. intros H. rewrite <- (takeN_dropN n l) in H. apply Forall_app in H. apply H. Qed.
Lemma bytes_take n (l : bytes) : is_bytes l -> is_bytes (takeN n l).
Proof. intros H. rewrite <- (takeN_dropN n l) in H. apply Forall_app in H. apply H. Qed.
Lemma drop_len n (l : bytes) : len (dropN n l) = len l - n.
Proof. unfold len, dropN. rewrite skipn_length. lia. Qed.
Lemma take_len n (l : bytes) : len (takeN n l) <= n.
Proof. unfold len, takeN. rewrite firstn_length. lia. Qed.
Lemma labels_looks c J w : is_bytes w -> match J with None => True | Some f => 2 <= c /\ forall i n, is_bytes i -> len n <= 255 -> Looks (f i n) (c - 2 + (256 - len n)) end ->
  forall fuel inp nm, is_bytes inp -> len nm <= 255 -> Looks (s_labels_loop J w fuel inp nm) (c + (256 - len nm)).
Proof.
  intros BW HJ. induction fuel as [| f IH]; intros inp nm B Hn; [split; [cbn; lia | discriminate] |]. destruct inp as [| l inp1]; [split; [cbn; lia | discriminate] |]. cbn [s_labels_loop]. inversion_clear B as [| ? ? Bl B1]. unfold is_u8 in Bl.
  destruct (N.eqb_spec l 0) as [-> | L0]; [split; [cbn [fst]; lia | intros; cbn [fst]; lia] |].
  assert (L : Looks (if len inp1 <=? l then (1, Err tt) else if negb (utf8_ok (takeN l inp1)) then (1 + l, Err tt) else if 255 <? len (nm ++ takeN l inp1 ++ [dot]) then (1 + l, Err tt)
      else let '(n, r) := s_labels_loop J w f (dropN l inp1) (nm ++ takeN l inp1 ++ [dot]) in (1 + l + n, r)) (c + (256 - len nm))).
  { destruct (N.leb_spec (len inp1) l) as [Hl | Hl]; [split; [cbn [fst]; lia | discriminate] |]. destruct (negb _); [split; [cbn [fst]; lia | discriminate] |].
    assert (LN : len (nm ++ takeN l inp1 ++ [dot]) = len nm + l + 1) by (unfold takeN, len in *; rewrite !app_length, firstn_length; cbn [length]; lia).
    destruct (N.ltb_spec 255 (len (nm ++ takeN l inp1 ++ [dot]))) as [Hb | Hb]; [split; [cbn [fst]; lia | discriminate] |]. destruct (IH (dropN l inp1) (nm ++ takeN l inp1 ++ [dot])) as [A1 A2]; [apply bytes_drop; exact B1 | exact Hb |].
    destruct (s_labels_loop J w f (dropN l inp1) _) as [n r]. cbn [fst snd] in *. split; [cbn [fst]; lia | intros a E; cbn [fst snd] in *; specialize (A2 a E); lia]. }
  destruct J as [r |]; [| exact L]. destruct HJ as [C2 HJ]. destruct (192 <=? l); [| exact L]. destruct inp1 as [| lo inp2]; [split; [cbn [fst]; lia | discriminate] |]. destruct (len w <=? _); [split; [cbn [fst]; lia | discriminate] |].
  destruct (HJ (dropN ((l - 192) * 256 + lo) w) nm (bytes_drop _ _ BW) Hn) as [A1 A2]. destruct (r _ nm) as [n [a | e | |]]; cbn [fst snd] in *; (split; [cbn [fst]; lia |]); try discriminate. intros. specialize (A2 a eq_refl). cbn [fst]. lia.
Qed.
Lemma do_looks w limit : is_bytes w -> forall inp nm, is_bytes inp -> len nm <= 255 -> Looks (s_do_read limit w inp nm) (2 * N.of_nat limit + (256 - len nm)).
Proof.
  intros BW. induction limit as [| l IH]; intros inp nm B Hn; cbn [s_do_read].
  - apply labels_looks; auto.
  - apply labels_looks; auto. split; [lia |]. intros i n Bi Ln. specialize (IH i n Bi Ln). destruct IH as [A1 A2]. destruct (s_do_read l w i n) as [c [[a b] | e | |]]; cbn [cbind free fst snd] in *; (split; [cbn [fst]; lia |]); try discriminate.
    intros x _. specialize (A2 _ eq_refl). cbn [fst]. lia.
Qed.
Lemma name_looks inp w : is_bytes w -> is_bytes inp -> Looks (s_read_name inp w) NAME_OK.
Proof.
  intros BW B. destruct (do_looks w 255 BW inp [] B) as [A1 A2]; [cbn; lia |]. unfold s_read_name. change NAME_OK with 766. change (2 * N.of_nat 255 + (256 - len [])) with 766 in A1, A2. destruct (s_do_read 255 w inp []) as [c [[a b] | e | |]]; cbn [cbind free fst snd] in *; (split; [cbn [fst]; lia |]); try discriminate.
  intros x _. specialize (A2 _ eq_refl). cbn [fst]. lia.
Qed.

(** ** What is consumed *)
Lemma labels_rest J w : forall fuel inp nm a rest, snd (s_labels_loop J w fuel inp nm) = Ok (a, rest) -> len rest < len inp /\ (is_bytes inp -> is_bytes rest).
Proof.
  induction fuel as [| f IH]; intros inp nm a rest; [discriminate |]. destruct inp as [| l inp1]; [discriminate |]. cbn [s_labels_loop]. rewrite (len_cons l inp1).
  destruct (l =? 0); [cbn [snd]; intros [= _ <-]; split; [lia | intros H; inversion H; assumption] |].
  assert (L : snd (if len inp1 <=? l then (1, Err tt) else if negb (utf8_ok (takeN l inp1)) then (1 + l, Err tt) else if 255 <? len (nm ++ takeN l inp1 ++ [dot]) then (1 + l, Err tt)
      else let '(n, r) := s_labels_loop J w f (dropN l inp1) (nm ++ takeN l inp1 ++ [dot]) in (1 + l + n, r)) = Ok (a, rest) -> len rest < 1 + len inp1 /\ (is_bytes (l :: inp1) -> is_bytes rest)).
  { destruct (len inp1 <=? l); [discriminate |]. destruct (negb _); [discriminate |]. destruct (255 <? _); [discriminate |]. specialize (IH (dropN l inp1) (nm ++ takeN l inp1 ++ [dot]) a rest). destruct (s_labels_loop J w f _ _) as [n r]. cbn [snd] in *. intros E. destruct (IH E) as [I1 I2]. rewrite drop_len in I1. split; [lia |]. intros H. apply I2, bytes_drop. inversion H. assumption. }
  destruct J as [r |]; [| exact L]. destruct (192 <=? l); [| exact L]. destruct inp1 as [| lo inp2]; [discriminate |]. destruct (len w <=? _); [discriminate |]. destruct (r _ nm) as [n [x | e | |]]; cbn [snd]; try discriminate. intros [= _ <-]. rewrite len_cons. split; [lia |]. intros H. inversion_clear H as [| ? ? _ H1]. inversion H1. assumption.
Qed.
Lemma labels_short J w fuel inp nm a rest : snd (s_labels_loop J w fuel inp nm) = Ok (a, rest) -> len rest + 2 <= len inp \/ fst (s_labels_loop J w fuel inp nm) = 1.
Proof.
  destruct fuel as [| f]; [discriminate |]. destruct inp as [| l inp1]; [discriminate |]. cbn [s_labels_loop]. rewrite (len_cons l inp1). destruct (N.eqb_spec l 0) as [_ | L0]; [right; reflexivity |]. intros E. left.
  assert (L : snd (if len inp1 <=? l then (1, Err tt) else if negb (utf8_ok (takeN l inp1)) then (1 + l, Err tt) else if 255 <? len (nm ++ takeN l inp1 ++ [dot]) then (1 + l, Err tt)
      else let '(n, r) := s_labels_loop J w f (dropN l inp1) (nm ++ takeN l inp1 ++ [dot]) in (1 + l + n, r)) = Ok (a, rest) -> len rest + 2 <= 1 + len inp1).
  { destruct (len inp1 <=? l); [discriminate |]. destruct (negb _); [discriminate |]. destruct (255 <? _); [discriminate |]. pose proof (labels_rest J w f (dropN l inp1) (nm ++ takeN l inp1 ++ [dot]) a rest) as R. destruct (s_labels_loop J w f _ _) as [n r]. cbn [snd] in *. intros E'. destruct (R E') as [I1 _]. rewrite drop_len in I1. lia. }
  destruct J as [r |]; [| exact (L E)]. destruct (192 <=? l); [| exact (L E)]. destruct inp1 as [| lo inp2]; [discriminate |]. destruct (len w <=? _); [discriminate |]. destruct (r _ nm) as [n [x | e | |]]; cbn [snd] in E; try discriminate. injection E as _ <-. rewrite len_cons. lia.
Qed.
Lemma name_short inp w a rest : is_bytes w -> is_bytes inp -> snd (s_read_name inp w) = Ok (a, rest) -> fst (s_read_name inp w) + 383 * len rest <= 383 * len inp.
Proof.
  intros BW B E. destruct (name_looks inp w BW B) as [_ N2]. specialize (N2 _ E). change NAME_OK with 766 in N2. enough (len rest + 2 <= len inp \/ fst (s_read_name inp w) = 1 /\ len rest < len inp) by lia.
  unfold s_read_name in *. rewrite cbind_snd in E. change 255%nat with (S 254) in *. cbn [s_do_read] in *. match type of E with context [s_labels_loop ?J w ?f inp []] => pose proof (labels_short J w f inp []) as S; pose proof (labels_rest J w f inp []) as R; destruct (s_labels_loop J w f inp []) as [c [[x y] | | |]] end; cbn [obind cbind free fst snd] in *; try discriminate.
  destruct (name_try_from x); [| discriminate]. injection E as _ <-. destruct (R _ _ eq_refl) as [R1 _]. destruct (S _ _ eq_refl); [left | right]; lia.
Qed.
Lemma name_rest inp w a rest : snd (s_read_name inp w) = Ok (a, rest) -> len rest < len inp /\ (is_bytes inp -> is_bytes rest).
Proof.
  unfold s_read_name. rewrite cbind_snd. destruct (snd (s_do_read 255 w inp [])) as [[x y] | | |] eqn:E; cbn [obind]; try discriminate. cbn [free snd]. destruct (name_try_from x); [| discriminate]. intros [= _ <-]. change 255%nat with (S 254) in E. cbn [s_do_read] in E. exact (labels_rest _ _ _ _ _ _ _ E).
Qed.
Lemma u8_rest i v r : read_u8 i = Ok (v, r) -> len i = len r + 1 /\ (is_bytes i -> is_bytes r).
Proof. destruct i as [| a i]; [discriminate |]. cbn [read_u8]. intros [= _ <-]. rewrite len_cons. split; [lia |]. intros H. inversion H. assumption. Qed.
Lemma u16_rest i v r : read_u16 i = Ok (v, r) -> len i = len r + 2 /\ (is_bytes i -> is_bytes r).
Proof. destruct i as [| a [| b i]]; [discriminate | discriminate |]. cbn [read_u16]. intros [= _ <-]. rewrite !len_cons. split; [lia |]. intros H. inversion_clear H as [| ? ? _ H1]. inversion H1. assumption. Qed.
Lemma u32_rest i v r : read_u32 i = Ok (v, r) -> len i = len r + 4 /\ (is_bytes i -> is_bytes r).
Proof. destruct i as [| a [| b [| c [| d i]]]]; try discriminate. cbn [read_u32]. intros [= _ <-]. rewrite !len_cons. split; [lia |]. intros H. inversion_clear H as [| ? ? _ H1]. inversion_clear H1 as [| ? ? _ H2]. inversion_clear H2 as [| ? ? _ H3]. inversion H3. assumption. Qed.

(** ** One record *)
Lemma looks_zero {A} (o : outcome unit A) b : Looks (free o) b.
Proof. split; [cbn; lia | intros; cbn; lia]. Qed.
Lemma looks_free {A B} (o : outcome unit A) (f : A -> N * outcome unit B) b : (forall a, o = Ok a -> Looks (f a) b) -> Looks (cbind (free o) f) b.
Proof.
  intros H. destruct o as [a | e | |]; try (split; [cbn; lia | intros; cbn; lia]). destruct (H a eq_refl) as [A1 A2]. cbn [cbind free]. destruct (f a) as [n r]. cbn [fst snd] in *. split; [cbn [fst]; lia | intros x E; specialize (A2 x E); cbn [fst]; lia].
Qed.
Lemma looks_then {A B} (x : N * outcome unit A) (f : A -> outcome unit B) b : Looks x b -> Looks (cbind x (fun a => free (f a))) b.
Proof. intros [A1 A2]. destruct x as [n [a | e | |]]; cbn [cbind free fst snd] in *; (split; [cbn [fst]; lia |]); try discriminate. intros y _. specialize (A2 a eq_refl). cbn [fst]. lia. Qed.
Lemma data_looks dbg ty nm d w : is_bytes w -> is_bytes d -> Looks (s_read_data dbg ty nm d w) NAME_OK.
Proof.
  intros BW B. assert (SN : Looks (s_single_name dbg d w) NAME_OK).
  { unfold s_single_name. pose proof (looks_then (s_read_name d w) (fun '(n, r) => if dbg && negb (is_nil r) then Panic else Ok n) NAME_OK (name_looks d w BW B)) as H. destruct (s_read_name d w) as [c [[a b] | | |]]; exact H. }
  unfold s_read_data. destruct (ty =? T_NS); [apply (looks_then _ (fun c => Ok (RR_NS {| nr_name := nm; nr_server := c |}))); exact SN |]. destruct (ty =? T_CNAME); [apply (looks_then _ (fun c => Ok (RR_CName {| cn_name := nm; cn_canonical := c |}))); exact SN |].
  destruct (ty =? T_DNAME); [apply (looks_then _ (fun c => Ok (RR_DName {| dn_name := nm; dn_delegation := c |}))); exact SN |].
  destruct (ty =? T_RRSIG).
  { apply (looks_then _ (fun r => Ok (RR_RRSig r))). unfold s_rrsig_read. apply looks_free. intros [v1 d1] E1. apply looks_free. intros [v2 d2] E2. apply looks_free. intros [v3 d3] E3. apply looks_free. intros [v4 d4] E4. apply looks_free. intros [v5 d5] E5. apply looks_free. intros [v6 d6] E6. apply looks_free. intros [v7 d7] E7.
    apply u16_rest in E1 as [_ E1]. apply u8_rest in E2 as [_ E2]. apply u8_rest in E3 as [_ E3]. apply u32_rest in E4 as [_ E4]. apply u32_rest in E5 as [_ E5]. apply u32_rest in E6 as [_ E6]. apply u16_rest in E7 as [_ E7].
    assert (B7 : is_bytes d7) by auto 10. pose proof (name_looks d7 w BW B7) as H. destruct (s_read_name d7 w) as [c [[a b] | | |]]; destruct H as [A1 A2]; cbn [cbind free fst snd] in *; try (split; [exact A1 | discriminate]). specialize (A2 _ eq_refl). split; [cbn [fst]; lia | intros; cbn [fst]; lia]. }
  destruct (ty =? T_NSEC); [| apply looks_zero]. apply (looks_then _ (fun r => Ok (RR_NSec r))). unfold s_nsec_read. pose proof (name_looks d w BW B) as H. destruct (s_read_name d w) as [c [[a b] | | |]]; destruct H as [A1 A2]; cbn [cbind free fst snd] in *; try (split; [exact A1 | discriminate]). specialize (A2 _ eq_refl). split; [cbn [fst]; lia | intros; cbn [fst]; lia].
Qed.
Lemma short_free {A B} (o : outcome unit A) (f : A -> N * outcome unit B) b : (forall a, o = Ok a -> forall r, snd (f a) = Ok r -> fst (f a) <= b) -> forall r, snd (cbind (free o) f) = Ok r -> fst (cbind (free o) f) <= b.
Proof. intros H r. destruct o as [a | e | |]; try discriminate. specialize (H a eq_refl r). cbn [cbind free]. destruct (f a) as [n x]. exact H. Qed.
Lemma data_short dbg ty nm d w a : is_bytes w -> is_bytes d -> snd (s_read_data dbg ty nm d w) = Ok a -> fst (s_read_data dbg ty nm d w) <= 383 * len d.
Proof.
  intros BW B. assert (SN : forall A (f : name -> A) x, snd (cbind (s_single_name dbg d w) (fun c => free (Ok (f c) : outcome unit A))) = Ok x -> fst (cbind (s_single_name dbg d w) (fun c => free (Ok (f c) : outcome unit A))) <= 383 * len d).
  { intros A f x. unfold s_single_name. pose proof (name_short d w) as H. destruct (s_read_name d w) as [c [[y z] | e | |]]; cbn [cbind free fst snd] in *; try discriminate. specialize (H _ _ BW B eq_refl). destruct (dbg && _); cbn [cbind free fst snd]; [discriminate |]. intros _. lia. }
  unfold s_read_data. destruct (ty =? T_NS); [apply (SN _ (fun c => RR_NS {| nr_name := nm; nr_server := c |})) |]. destruct (ty =? T_CNAME); [apply (SN _ (fun c => RR_CName {| cn_name := nm; cn_canonical := c |})) |]. destruct (ty =? T_DNAME); [apply (SN _ (fun c => RR_DName {| dn_name := nm; dn_delegation := c |})) |].
  destruct (ty =? T_RRSIG).
  { enough (H : forall r, snd (s_rrsig_read nm d w) = Ok r -> fst (s_rrsig_read nm d w) <= 383 * len d).
    { destruct (s_rrsig_read nm d w) as [c [r | e | |]]; cbn [cbind free fst snd] in *; try discriminate. intros _. specialize (H _ eq_refl). lia. }
    unfold s_rrsig_read. do 7 (apply short_free; intros [? ?] ?).
    repeat match goal with H : read_u16 _ = Ok _ |- _ => apply u16_rest in H as [? ?] | H : read_u8 _ = Ok _ |- _ => apply u8_rest in H as [? ?] | H : read_u32 _ = Ok _ |- _ => apply u32_rest in H as [? ?] end.
    match goal with |- context [s_read_name ?d7 w] => assert (B7 : is_bytes d7) by auto 10; pose proof (name_short d7 w) as HN; destruct (s_read_name d7 w) as [c [[y z] | e | |]] end; cbn [cbind free fst snd] in *; try discriminate. specialize (HN _ _ BW B7 eq_refl). intros r _. lia. }
  destruct (ty =? T_NSEC); [| intros _; cbn; lia]. unfold s_nsec_read. pose proof (name_short d w) as H. destruct (s_read_name d w) as [c [[y z] | e | |]]; cbn [cbind free fst snd] in *; try discriminate. specialize (H _ _ BW B eq_refl). destruct (read_nsec_types_bitmap z); cbn [obind cbind free fst snd]; try discriminate. intros _. lia.
Qed.
Lemma rr_looks dbg inp w : is_bytes w -> is_bytes inp -> let x := s_parse_wire_packet_rr dbg inp w in
  7 * fst x <= NAME_OK * len inp + 7 * NAME_ANY /\
  forall r t rest, snd x = Ok (r, t, rest) -> 7 * fst x + NAME_OK * len rest <= NAME_OK * len inp /\ MIN_RR + len rest <= len inp /\ is_bytes rest.
Proof.
  intros BW B. cbv zeta. change MIN_RR with 11. change NAME_OK with 766. change NAME_ANY with 1021. unfold s_parse_wire_packet_rr. destruct (name_looks inp w BW B) as [N1 N2]. pose proof (name_rest inp w) as NR. pose proof (name_short inp w) as NS. change NAME_OK with 766 in *. destruct (s_read_name inp w) as [c [[nm i] | e | |]]; cbn [cbind fst snd] in *; try (split; [lia | discriminate]).
  specialize (N2 _ eq_refl). destruct (NR _ _ eq_refl) as [L1 B1]. specialize (B1 B). clear NR. specialize (NS _ _ BW B eq_refl).
  destruct (read_u16 i) as [[ty i2] | | |] eqn:E2; cbn [cbind free fst snd] in *; try (split; [cbn [fst]; lia | discriminate]). apply u16_rest in E2 as [L2 B2]. specialize (B2 B1).
  destruct (read_u16 i2) as [[cl i3] | | |] eqn:E3; cbn [cbind free fst snd] in *; try (split; [cbn [fst]; lia | discriminate]). apply u16_rest in E3 as [L3 B3]. specialize (B3 B2).
  destruct (negb (cl =? 1)); cbn [cbind free fst snd] in *; try (split; [cbn [fst]; lia | discriminate]).
  destruct (read_u32 i3) as [[tt_ i4] | | |] eqn:E4; cbn [cbind free fst snd] in *; try (split; [cbn [fst]; lia | discriminate]). apply u32_rest in E4 as [L4 B4]. specialize (B4 B3).
  destruct (read_u16 i4) as [[dl i5] | | |] eqn:E5; cbn [cbind free fst snd] in *; try (split; [cbn [fst]; lia | discriminate]). apply u16_rest in E5 as [L5 B5]. specialize (B5 B4).
  destruct (N.ltb_spec (len i5) dl) as [HL | HL]; cbn [cbind free fst snd] in *; try (split; [cbn [fst]; lia | discriminate]).
  destruct (data_looks dbg ty nm (takeN dl i5) w BW (bytes_take _ _ B5)) as [D1 D2]. pose proof (data_short dbg ty nm (takeN dl i5) w) as DS. pose proof (take_len dl i5) as TL. change NAME_OK with 766 in *. destruct (s_read_data dbg ty nm (takeN dl i5) w) as [c' [r | e | |]]; cbn [cbind free fst snd] in *; try (split; [cbn [fst]; lia | discriminate]).
  specialize (D2 _ eq_refl). specialize (DS _ BW (bytes_take _ _ B5) eq_refl). split; [cbn [fst]; lia |]. intros r' t' rest [= _ _ <-]. rewrite drop_len. split; [cbn [fst]; lia |]. split; [lia | apply bytes_drop; exact B5].
Qed.

(** ** A response *)
Lemma section_looks dbg resp keep n : is_bytes resp -> forall read t hs, is_bytes read -> let x := s_read_section dbg resp keep n read t hs in
  7 * fst x <= NAME_OK * len read + 7 * NAME_ANY /\
  forall t' rest hs', snd x = (Ok (t', rest), hs') -> 7 * fst x + NAME_OK * len rest <= NAME_OK * len read /\ MIN_RR * N.of_nat n + len rest <= len read /\ is_bytes rest.
Proof.
  intros BW. induction n as [| n IH]; intros read t hs B; cbv zeta; cbn [s_read_section].
  - cbn [free fst snd]. split; [lia |]. intros t' rest hs' [= _ <- _]. split; [lia |]. split; [lia | exact B].
  - destruct (rr_looks dbg read resp BW B) as [R1 R2]. change MIN_RR with 11 in *. change NAME_OK with 766 in *. change NAME_ANY with 1021 in *. destruct (s_parse_wire_packet_rr dbg read resp) as [c [[[r ttl] read'] | e | |]]; cbn [fst snd] in *; try (split; [lia | intros ? ? ? H; apply pair_equal_spec in H as [H _]; discriminate H]).
    destruct (R2 _ _ _ eq_refl) as (C & L & B'). destruct (keep r).
    + destruct (emit dbg r ttl hs) as [hs1 |]; [| cbn [fst snd]; split; [lia | intros ? ? ? H; apply pair_equal_spec in H as [H _]; discriminate H]]. specialize (IH read' (N.min t ttl) hs1 B'). destruct (s_read_section dbg resp keep n read' (N.min t ttl) hs1) as [c' x]. cbn [fst snd] in *. destruct IH as [I1 I2]. split; [lia |]. intros t' rest hs' E. destruct (I2 _ _ _ E) as (J1 & J2 & J3). split; [lia |]. split; [lia | exact J3].
    + specialize (IH read' t hs B'). destruct (s_read_section dbg resp keep n read' t hs) as [c' x]. cbn [fst snd] in *. destruct IH as [I1 I2]. split; [lia |]. intros t' rest hs' E. destruct (I2 _ _ _ E) as (J1 & J2 & J3). split; [lia |]. split; [lia | exact J3].
Qed.
Definition HeaderLooks (resp : bytes) (x : N * outcome unit (N * N * bytes)) : Prop := fst x <= NAME_ANY /\ (0 < fst x -> 12 <= len resp) /\
  forall an au read, snd x = Ok (an, au, read) -> fst x <= NAME_OK /\ 17 + len read <= len resp /\ is_bytes read.
Lemma header_err resp : HeaderLooks resp (free (Err tt)).
Proof. split; [cbn; lia |]. split; [cbn; lia | discriminate]. Qed.
Lemma header_free {A} resp (o : outcome unit (A * bytes)) f : (forall v r, o = Ok (v, r) -> HeaderLooks resp (f (v, r))) -> HeaderLooks resp (cbind (free o) f).
Proof.
  intros H. destruct o as [[v r] | e | |]; try (split; [cbn; lia |]; split; [cbn; lia | discriminate]). specialize (H v r eq_refl). cbn [cbind free]. destruct (f (v, r)) as [n x]. unfold HeaderLooks in *. cbn [fst snd] in *. rewrite N.add_0_l. exact H.
Qed.
Lemma header_looks resp : is_bytes resp -> HeaderLooks resp (s_read_header resp).
Proof.
  intros B. unfold s_read_header.
  apply header_free; intros v1 r1 E1. destruct (negb _); [apply header_err |]. apply header_free; intros v2 r2 E2. destruct (_ =? 0); [apply header_err |]. destruct (negb _); [apply header_err |]. destruct (_ =? 0); [apply header_err |].
  apply header_free; intros v3 r3 E3. destruct (N.eqb_spec v3 1) as [-> |]; [| apply header_err]. cbn [negb]. apply header_free; intros v4 r4 E4. destruct (_ =? 0); [apply header_err |]. apply header_free; intros v5 r5 E5. apply header_free; intros v6 r6 E6.
  apply u16_rest in E1 as [L1 B1]. apply u16_rest in E2 as [L2 B2]. apply u16_rest in E3 as [L3 B3]. apply u16_rest in E4 as [L4 B4]. apply u16_rest in E5 as [L5 B5]. apply u16_rest in E6 as [L6 B6].
  change (N.to_nat 1) with 1%nat. cbn [s_skip_questions]. unfold HeaderLooks. change NAME_ANY with 1021. assert (BI : is_bytes r6) by auto 10. destruct (name_looks r6 resp B BI) as [N1 N2]. pose proof (name_rest r6 resp) as NR. change NAME_OK with 766 in *.
  destruct (s_read_name r6 resp) as [c [[nm j] | e | |]]; cbn [cbind free fst snd] in *; try (split; [lia |]; split; [lia | discriminate]).
  specialize (N2 _ eq_refl). destruct (NR _ _ eq_refl) as [L7 B7]. specialize (B7 BI). clear NR.
  destruct (read_u16 j) as [[? j2] | | |] eqn:E8; cbn [cbind free fst snd]; try (split; [lia |]; split; [lia | discriminate]). apply u16_rest in E8 as [L8 B8].
  destruct (read_u16 j2) as [[? j3] | | |] eqn:E9; cbn [cbind free fst snd]; try (split; [lia |]; split; [lia | discriminate]). apply u16_rest in E9 as [L9 B9].
  split; [lia |]. split; [lia |]. intros an au read [= _ _ <-]. split; [lia |]. split; [lia | auto].
Qed.
Lemma response_looks dbg resp hs : is_bytes resp -> 7 * fst (s_handle_response dbg resp hs) <= NAME_OK * len resp.
Proof.
  intros B. unfold s_handle_response. destruct (header_looks resp B) as (H1 & H2 & H3). change MIN_RR with 11. change NAME_ANY with 1021 in *. change NAME_OK with 766 in *.
  destruct (s_read_header resp) as [c [[[an au] read] | e | |]]; cbn [fst snd] in *; try (destruct (N.eq_dec c 0); [subst; lia | specialize (H2 ltac:(lia)); lia]).
  destruct (H3 _ _ _ eq_refl) as (C & L & B1). clear H1 H2 H3. destruct (section_looks dbg resp (fun _ => true) (N.to_nat an) B read (2 ^ 32 - 1) hs B1) as [S1 S2]. change MIN_RR with 11 in *. change NAME_OK with 766 in *. change NAME_ANY with 1021 in *.
  destruct (s_read_section dbg resp (fun _ => true) (N.to_nat an) read (2 ^ 32 - 1) hs) as [c1 [[[ttl rd] | e | |] hs1]]; cbn [fst snd] in *; try lia. destruct (S2 _ _ _ eq_refl) as (T1 & _ & B2). clear S1 S2.
  destruct (section_looks dbg resp authority_kept (N.to_nat au) B rd ttl hs1 B2) as [S1 _]. change MIN_RR with 11 in *. change NAME_OK with 766 in *. change NAME_ANY with 1021 in *.
  destruct (s_read_section dbg resp authority_kept (N.to_nat au) rd ttl hs1) as [c2 [[[ttl2 rd2] | e | |] hs2]]; cbn [fst snd] in *; lia.
Qed.

(** ** A proof: no pointers *)
Lemma labels_plain J : forall fuel inp nm, let x := s_labels_loop J [] fuel inp nm in fst x <= len inp /\ forall a rest, snd x = Ok (a, rest) -> fst x + len rest = len inp.
Proof.
  induction fuel as [| f IH]; intros inp nm; cbv zeta; [cbn; split; [lia | discriminate] |]. destruct inp as [| l inp1]; [cbn; split; [lia | discriminate] |]. cbn [s_labels_loop]. rewrite (len_cons l inp1).
  destruct (l =? 0); [cbn [fst snd]; split; [lia | intros a rest [= _ <-]; lia] |].
  match goal with |- fst (match J with Some _ => _ | None => ?L end) <= _ /\ _ => assert (X : fst L <= 1 + len inp1 /\ forall a rest, snd L = Ok (a, rest) -> fst L + len rest = 1 + len inp1) end.
  { destruct (N.leb_spec (len inp1) l) as [Hl | Hl]; [split; [cbn [fst]; lia | discriminate] |]. destruct (negb _); [split; [cbn [fst]; lia | discriminate] |]. destruct (255 <? _); [split; [cbn [fst]; lia | discriminate] |].
    specialize (IH (dropN l inp1) (nm ++ takeN l inp1 ++ [dot])). destruct (s_labels_loop J [] f _ _) as [n r]. cbn [fst snd] in *. rewrite drop_len in IH. destruct IH as [I1 I2]. split; [lia |]. intros a rest E. specialize (I2 a rest E). lia. }
  destruct J as [r |]; [| exact X]. destruct (192 <=? l); [| exact X]. destruct inp1 as [| lo inp2]; [cbn [fst snd]; split; [cbn; lia | discriminate] |]. destruct (N.leb_spec (len (@nil N)) ((l - 192) * 256 + lo)) as [_ | H]; [cbn [fst snd]; rewrite len_cons; split; [lia | discriminate] |]. exfalso. clear - H. cbn in H. lia.
Qed.
Lemma name_plain inp : let x := s_read_name inp [] in fst x <= len inp /\ forall a rest, snd x = Ok (a, rest) -> fst x + len rest = len inp.
Proof.
  cbv zeta. unfold s_read_name. change 255%nat with (S 254). cbn [s_do_read]. match goal with |- context [s_labels_loop ?J [] ?f inp []] => destruct (labels_plain J f inp []) as [A1 A2]; destruct (s_labels_loop J [] f inp []) as [c [[a b] | e | |]] end; cbn [cbind free fst snd] in *; try (split; [lia | discriminate]).
  specialize (A2 _ _ eq_refl). split; [lia |]. intros x rest. destruct (name_try_from a); [| discriminate]. intros [= _ <-]. lia.
Qed.
Lemma bind_plain {A B} (x : N * outcome unit (A * bytes)) (f : A * bytes -> N * outcome unit B) d : (fst x <= d /\ forall a rest, snd x = Ok (a, rest) -> fst x + len rest = d) -> (forall a rest, snd x = Ok (a, rest) -> fst (f (a, rest)) <= len rest) -> fst (cbind x f) <= d.
Proof. intros [A1 A2] F. destruct x as [c [[a b] | e | |]]; cbn [cbind fst snd] in *; try lia. specialize (F a b eq_refl). specialize (A2 a b eq_refl). destruct (f (a, b)). cbn [fst] in *. lia. Qed.
Lemma free_plain {A B} (o : outcome unit (A * bytes)) (f : A * bytes -> N * outcome unit B) d : (forall a rest, o = Ok (a, rest) -> fst (f (a, rest)) <= d) -> fst (cbind (free o) f) <= d.
Proof. intros H. destruct o as [[a b] | e | |]; cbn [cbind free fst]; try lia. specialize (H a b eq_refl). destruct (f (a, b)). cbn [fst] in *. lia. Qed.
Lemma data_plain dbg ty nm d : fst (s_read_data dbg ty nm d []) <= len d.
Proof.
  assert (SN : forall A (f : name -> A), fst (cbind (s_single_name dbg d []) (fun c => free (Ok (f c) : outcome unit A))) <= len d).
  { intros A f. unfold s_single_name. destruct (name_plain d) as [A1 A2]. destruct (s_read_name d []) as [c [[a b] | e | |]]; cbn [cbind free fst snd] in *; try lia. destruct (dbg && _); cbn [cbind free fst]; lia. }
  unfold s_read_data. destruct (ty =? T_NS); [apply (SN _ (fun c => RR_NS {| nr_name := nm; nr_server := c |})) |]. destruct (ty =? T_CNAME); [apply (SN _ (fun c => RR_CName {| cn_name := nm; cn_canonical := c |})) |]. destruct (ty =? T_DNAME); [apply (SN _ (fun c => RR_DName {| dn_name := nm; dn_delegation := c |})) |].
  destruct (ty =? T_RRSIG).
  { enough (H : fst (s_rrsig_read nm d []) <= len d) by (destruct (s_rrsig_read nm d []) as [c [r | e | |]]; cbn [cbind free fst] in *; lia). unfold s_rrsig_read.
    apply free_plain. intros v1 d1 E1. apply free_plain. intros v2 d2 E2. apply free_plain. intros v3 d3 E3. apply free_plain. intros v4 d4 E4. apply free_plain. intros v5 d5 E5. apply free_plain. intros v6 d6 E6. apply free_plain. intros v7 d7 E7.
    apply u16_rest in E1 as [E1 _]. apply u8_rest in E2 as [E2 _]. apply u8_rest in E3 as [E3 _]. apply u32_rest in E4 as [E4 _]. apply u32_rest in E5 as [E5 _]. apply u32_rest in E6 as [E6 _]. apply u16_rest in E7 as [E7 _].
    assert (L : len d7 <= len d) by lia. apply N.le_trans with (len d7); [| exact L]. apply bind_plain; [apply name_plain |]. intros. cbn. lia. }
  destruct (ty =? T_NSEC); [| cbn; lia]. enough (H : fst (s_nsec_read nm d []) <= len d) by (destruct (s_nsec_read nm d []) as [c [r | e | |]]; cbn [cbind free fst] in *; lia). unfold s_nsec_read. apply bind_plain; [apply name_plain |]. intros. cbn [free fst]. lia.
Qed.
Lemma rr_plain dbg inp : let x := s_parse_rr dbg inp in fst x <= len inp /\ forall r rest, snd x = Ok (r, rest) -> fst x + 10 + len rest <= len inp.
Proof.
  cbv zeta. unfold s_parse_rr, s_parse_wire_packet_rr. destruct (name_plain inp) as [A1 A2]. destruct (s_read_name inp []) as [c [[nm i] | e | |]]; cbn [cbind fst snd] in *; try (split; [lia | discriminate]). specialize (A2 _ _ eq_refl).
  destruct (read_u16 i) as [[ty i2] | | |] eqn:E2; cbn [cbind free fst snd] in *; try (split; [lia | discriminate]). apply u16_rest in E2 as [L2 _].
  destruct (read_u16 i2) as [[cl i3] | | |] eqn:E3; cbn [cbind free fst snd] in *; try (split; [lia | discriminate]). apply u16_rest in E3 as [L3 _].
  destruct (negb (cl =? 1)); cbn [cbind free fst snd] in *; try (split; [lia | discriminate]).
  destruct (read_u32 i3) as [[tt_ i4] | | |] eqn:E4; cbn [cbind free fst snd] in *; try (split; [lia | discriminate]). apply u32_rest in E4 as [L4 _].
  destruct (read_u16 i4) as [[dl i5] | | |] eqn:E5; cbn [cbind free fst snd] in *; try (split; [lia | discriminate]). apply u16_rest in E5 as [L5 _].
  destruct (N.ltb_spec (len i5) dl) as [HL | HL]; cbn [cbind free fst snd] in *; try (split; [lia | discriminate]).
  pose proof (data_plain dbg ty nm (takeN dl i5)) as D. pose proof (take_len dl i5) as T. destruct (s_read_data dbg ty nm (takeN dl i5) []) as [c' [r | e | |]]; cbn [cbind free fst snd] in *; try (split; [lia | discriminate]).
  split; [lia |]. intros r' rest [= _ <-]. rewrite drop_len. lia.
Qed.
Lemma stream_plain dbg fuel : forall inp res, fst (s_stream_loop dbg fuel inp res) <= len inp.
Proof.
  induction fuel as [| f IH]; intros [| x inp] res; cbn [s_stream_loop free fst]; try lia. destruct (rr_plain dbg (x :: inp)) as [A1 A2]. destruct (s_parse_rr dbg (x :: inp)) as [c [[r rest] | e | |]]; cbn [cbind fst snd] in *; try lia. specialize (A2 _ _ eq_refl). specialize (IH rest (res ++ [r])). destruct (s_stream_loop dbg f rest (res ++ [r])). cbn [fst] in *. lia.
Qed.
Lemma proof_looks dbg inp : fst (s_parse_rr_stream dbg inp) <= len inp.
Proof. apply stream_plain. Qed.

(** ** How many records *)
Lemma stream_records dbg fuel : forall inp res rs, is_bytes inp -> parse_stream_loop dbg fuel inp res = Ok rs -> MIN_RR * N.of_nat (length rs) <= len inp + MIN_RR * N.of_nat (length res).
Proof.
  change MIN_RR with 11. induction fuel as [| f IH]; intros [| x inp] res rs B; cbn [parse_stream_loop]; try discriminate; try (intros [= <-]; lia).
  rewrite <- same_parse. unfold s_parse_rr. rewrite cbind_snd. destruct (rr_looks dbg (x :: inp) [] (Forall_nil _) B) as [_ R]. destruct (snd (s_parse_wire_packet_rr dbg (x :: inp) [])) as [[[r t] rest] | | |]; cbn [obind free snd]; try discriminate. destruct (R _ _ _ eq_refl) as (_ & L & B').
  intros E. apply (IH _ _ _ B') in E. rewrite app_length in E. cbn [length] in E. change MIN_RR with 11 in *. lia.
Qed.
Lemma proof_records dbg inp rs : is_bytes inp -> parse_rr_stream dbg inp = Ok rs -> MIN_RR * N.of_nat (length rs) <= len inp.
Proof. intros B E. apply (stream_records dbg _ _ _ _ B) in E. cbn [length] in E. lia. Qed.
