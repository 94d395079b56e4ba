(** Proofs about the HTTP front end (C48-C50). *)
From Verif Require Import Base BaseP NameSpec NameM NameP WireM RRM JsonM HttpM TextSpec TextP HttpSpec.
From Coq Require Import String Lia.
Local Open Scope N_scope.

(** ** The request line *)
Definition arg_text (kv : list N * list N) : list N := fst kv ++ 61 :: snd kv.

Lemma query_string_join args : query_string args = join 38 (map arg_text args).
Proof.
  induction args as [| kv r IH]; [reflexivity |]. destruct r as [| kv' r].
  - reflexivity.
  - change (query_string (kv :: kv' :: r)) with (fst kv ++ [61] ++ snd kv ++ [38] ++ query_string (kv' :: r)).
    change (join 38 (map arg_text (kv :: kv' :: r))) with (arg_text kv ++ 38 :: join 38 (map arg_text (kv' :: r))).
    rewrite IH. unfold arg_text at 2. rewrite <- app_assoc. reflexivity.
Qed.

Definition or_default (x : option (list N)) (d : list N) := match x with Some v => v | None => d end.

Lemma parse_args_sound pieces : forall d t d' t', parse_args pieces d t = Some (d', t') ->
  exists args, pieces = map arg_text args /\ Forall (fun kv => ~ In 61 (fst kv)) args /\
    d' = or_default (last_value (bs "d") args) d /\ t' = or_default (last_value (bs "t") args) t.
Proof.
  induction pieces as [| a r IH]; intros d t d' t' H; cbn [parse_args] in H.
  - inversion H; subst. exists []. repeat split. constructor.
  - destruct (split_once 61 a) as [[k v] |] eqn:E; [| discriminate]. apply split_once_spec in E as [-> NK].
    assert (G : exists d1 t1, parse_args r d1 t1 = Some (d', t') /\
              d1 = (if list_eq_dec N.eq_dec k (bs "d") then v else d) /\ t1 = (if list_eq_dec N.eq_dec k (bs "t") then v else t)).
    { destruct (bytes_eqb k (bs "d")) eqn:K1.
      - apply bytes_eqb_eq in K1. subst k. exists v, t. repeat split; assumption.
      - apply bytes_eqb_neq in K1. destruct (bytes_eqb k (bs "t")) eqn:K2.
        + apply bytes_eqb_eq in K2. subst k. exists d, v. repeat split; assumption.
        + apply bytes_eqb_neq in K2. exists d, t. split; [assumption |].
          destruct (list_eq_dec N.eq_dec k (bs "d")), (list_eq_dec N.eq_dec k (bs "t")); try congruence. auto. }
    destruct G as (d1 & t1 & H1 & -> & ->). destruct (IH _ _ _ _ H1) as (args & -> & F & -> & ->).
    exists ((k, v) :: args). repeat split.
    + constructor; assumption.
    + cbn [last_value]. destruct (last_value (bs "d") args); [reflexivity |]. cbn [or_default].
      destruct (list_eq_dec N.eq_dec k (bs "d")); reflexivity.
    + cbn [last_value]. destruct (last_value (bs "t") args); [reflexivity |]. cbn [or_default].
      destruct (list_eq_dec N.eq_dec k (bs "t")); reflexivity.
Qed.

Lemma parse_args_complete args : forall d t, Forall (fun kv => ~ In 61 (fst kv)) args ->
  parse_args (map arg_text args) d t = Some (or_default (last_value (bs "d") args) d, or_default (last_value (bs "t") args) t).
Proof.
  induction args as [| [k v] r IH]; intros d t F; [reflexivity |].
  inversion F as [| ? ? NK F']; subst. cbn [map parse_args]. unfold arg_text at 1. cbn [fst snd] in *. rewrite split_once_app by assumption.
  cbn [last_value].
  destruct (bytes_eqb k (bs "d")) eqn:K1.
  - apply bytes_eqb_eq in K1. subst k. rewrite IH by assumption. f_equal. f_equal.
    + destruct (last_value (bs "d") r); reflexivity.
    + destruct (last_value (bs "t") r); reflexivity.
  - apply bytes_eqb_neq in K1. destruct (bytes_eqb k (bs "t")) eqn:K2.
    + apply bytes_eqb_eq in K2. subst k. rewrite IH by assumption. f_equal. f_equal.
      * destruct (last_value (bs "d") r); reflexivity.
      * destruct (last_value (bs "t") r); reflexivity.
    + apply bytes_eqb_neq in K2. rewrite IH by assumption. destruct (list_eq_dec N.eq_dec k (bs "d")), (list_eq_dec N.eq_dec k (bs "t")); try congruence.
      f_equal. f_equal; [destruct (last_value (bs "d") r) | destruct (last_value (bs "t") r)]; reflexivity.
Qed.

Lemma upper_lower_inj c : ascii_upper (to_lower c) = ascii_upper c.
Proof.
  unfold ascii_upper, to_lower. destruct (N.leb_spec 65 c), (N.leb_spec c 90); cbn [andb];
  repeat match goal with |- context [?a <=? ?b] => destruct (N.leb_spec a b) end; cbn [andb]; try lia; auto.
Qed.
Lemma lower_upper_inj c : to_lower (ascii_upper c) = to_lower c.
Proof.
  unfold ascii_upper, to_lower. destruct (N.leb_spec 97 c), (N.leb_spec c 122); cbn [andb];
  repeat match goal with |- context [?a <=? ?b] => destruct (N.leb_spec a b) end; cbn [andb]; try lia; auto.
Qed.
Lemma upper_lower t : uppercase (lower t) = uppercase t.
Proof. unfold uppercase, lower. rewrite map_map. apply map_ext. intros. apply upper_lower_inj. Qed.
Lemma lower_upper t : lower (uppercase t) = lower t.
Proof. unfold uppercase, lower. rewrite map_map. apply map_ext. intros. apply lower_upper_inj. Qed.

Lemma upper_lower_eq t u : uppercase t = u -> lower t = lower u.
Proof. intros <-. symmetry. apply lower_upper. Qed.
Lemma lower_upper_eq t u : lower t = u -> uppercase t = uppercase u.
Proof. intros <-. symmetry. apply upper_lower. Qed.

Lemma type_of_spec t ty : type_of t = Some ty <-> type_named t ty.
Proof.
  unfold type_of, type_named. split.
  - destruct (bytes_eqb (uppercase t) (bs "TXT")) eqn:E1;
    [| destruct (bytes_eqb (uppercase t) (bs "TLSA")) eqn:E2;
    [| destruct (bytes_eqb (uppercase t) (bs "A")) eqn:E3;
    [| destruct (bytes_eqb (uppercase t) (bs "AAAA")) eqn:E4; [| discriminate]]]];
    intros H; injection H as <-;
    match goal with E : bytes_eqb _ _ = true |- _ => apply bytes_eqb_eq, upper_lower_eq in E; change (lower (bs "TXT")) with (bs "txt") in E || change (lower (bs "TLSA")) with (bs "tlsa") in E || change (lower (bs "AAAA")) with (bs "aaaa") in E || change (lower (bs "A")) with (bs "a") in E end; auto 6.
  - intros [[E ->] | [[E ->] | [[E ->] | [E ->]]]]; apply lower_upper_eq in E; rewrite E; reflexivity.
Qed.

(** The three parts of a request line. *)
Lemma split_three line a b c : split_on 32 line = [a; b; c] <-> line = a ++ 32 :: b ++ 32 :: c /\ ~ In 32 a /\ ~ In 32 b /\ ~ In 32 c.
Proof.
  split.
  - intros H. pose proof (join_split 32 line) as J. pose proof (split_on_pieces 32 line) as P. rewrite H in J, P. cbn [join] in J.
    inversion P as [| ? ? A P1]; subst. inversion P1 as [| ? ? B P2]; subst. inversion P2; subst. auto.
  - intros (-> & A & B & C). rewrite (split_on_app 32 a) by assumption. rewrite (split_on_app 32 b) by assumption. rewrite split_on_nosep by assumption. reflexivity.
Qed.

Lemma in_join sep c ls : c <> sep -> In c (join sep ls) <-> exists l, In l ls /\ In c l.
Proof.
  intros N. induction ls as [| x t IH]; [split; [intros [] | intros (? & [] & _)] |].
  destruct t as [| y t].
  - cbn [join]. split; [intros H; exists x; split; [left; reflexivity | exact H] | intros (l & [-> | []] & H); exact H].
  - change (join sep (x :: y :: t)) with (x ++ sep :: join sep (y :: t)). rewrite in_app_iff. cbn [In]. split.
    + intros [H | [H | H]]; [exists x; auto | congruence |]. apply IH in H as (l & L1 & L2). exists l. split; [right; exact L1 | exact L2].
    + intros (l & [-> | L] & H); [auto |]. right. right. apply IH. exists l. auto.
Qed.

Lemma args_blank args : ~ In 32 (join 38 (map arg_text args)) -> Forall (fun kv => ~ In 61 (fst kv)) args ->
  Forall (fun l => ~ In 38 l) (map arg_text args) -> Forall arg_ok args.
Proof.
  intros NB F NA. apply Forall_forall. intros [k v] I. rewrite Forall_forall in F. specialize (F _ I). cbn [fst] in F.
  rewrite Forall_forall in NA. assert (A : ~ In 38 (arg_text (k, v))) by (apply NA, in_map; exact I).
  assert (B : ~ In 32 (arg_text (k, v))). { intros C. apply NB. apply in_join; [lia |]. exists (arg_text (k, v)). split; [apply in_map; exact I | exact C]. }
  unfold arg_text in A, B. cbn [fst snd] in A, B. rewrite in_app_iff in A, B. cbn [In] in A, B.
  split; apply Forall_forall; intros c Hc; cbn [fst snd] in Hc; repeat split; intros ->; tauto.
Qed.

Lemma ok_blank args : Forall arg_ok args -> ~ In 32 (join 38 (map arg_text args)) /\ Forall (fun kv => ~ In 61 (fst kv)) args /\
  Forall (fun l => ~ In 38 l) (map arg_text args).
Proof.
  intros F. rewrite Forall_forall in F.
  assert (W : forall k v, In (k, v) args -> ~ In 61 k /\ ~ In 38 k /\ ~ In 32 k /\ ~ In 38 v /\ ~ In 32 v).
  { intros k v I. destruct (F _ I) as [A B]. cbn [fst snd] in A, B. rewrite Forall_forall in A, B.
    repeat split; intros C; (apply A in C || apply B in C); intuition congruence. }
  repeat split.
  - intros C. apply in_join in C as (l & L & C); [| lia]. apply in_map_iff in L as ([k v] & <- & I). destruct (W _ _ I) as (? & ? & ? & ? & ?).
    unfold arg_text in C. cbn [fst snd] in C. apply in_app_iff in C as [C | [C | C]]; [tauto | lia | tauto].
  - apply Forall_forall. intros [k v] I. apply (W _ _ I).
  - apply Forall_forall. intros l L. apply in_map_iff in L as ([k v] & <- & I). destruct (W _ _ I) as (? & ? & ? & ? & ?).
    unfold arg_text. cbn [fst snd]. intros C. apply in_app_iff in C as [C | [C | C]]; [tauto | lia | tauto].
Qed.

Lemma vers_spec v : negb (bytes_eqb v (bs "HTTP/1.1")) && negb (bytes_eqb v (bs "HTTP/1.0")) = false <-> http_version v.
Proof.
  unfold http_version. rewrite <- !bytes_eqb_eq. destruct (bytes_eqb v (bs "HTTP/1.1")), (bytes_eqb v (bs "HTTP/1.0")); cbn; intuition congruence.
Qed.
Lemma vers_blank v : http_version v -> ~ In 32 v.
Proof. intros [-> | ->]; cbn; intuition discriminate. Qed.

(** The meaning of a request line: what is left of [handle_request] once the line is understood. *)
Inductive Understood : list N -> reply -> (list N -> N -> option (list N * N)) -> Prop :=
| USyntax line prove : (forall d t, ~ GoodRequest line d t) -> Understood line (bad "Bad Request") prove
| UOther line prove : OtherPath line -> Understood line (Plain "404 Not Found" "Not Found") prove
| UMissing line prove : (forall n ty, ~ AsksFor line n ty) -> Understood line (bad "Missing d or t URI parameters") prove
| UName line prove : (forall n ty, ~ AsksFor line n ty) -> Understood line (bad "Failed to parse domain, make sure it ends with .") prove
| UType line prove : (forall n ty, ~ AsksFor line n ty) -> Understood line (bad "Bad Request") prove
| UFail line prove n ty : AsksFor line n ty -> prove n ty = None -> Understood line (Plain "404 Not Found" "Failed to generate proof for given domain") prove
| UProof line prove n ty p ttl : AsksFor line n ty -> prove n ty = Some (p, ttl) -> Understood line (Proof p ttl) prove.

Lemma get_path_split (x y : list N) : bs "GET /dnssecproof?" ++ x ++ [32] ++ y = bs "GET" ++ 32 :: (PATH_PFX ++ x) ++ 32 :: y.
Proof. cbn. rewrite <- ?app_assoc. reflexivity. Qed.

(** A well-formed line splits in one way only. *)
Lemma good_parts line d t : GoodRequest line d t ->
  exists args vers, split_on 32 line = [bs "GET"; PATH_PFX ++ join 38 (map arg_text args); vers] /\ http_version vers /\
    split_on 38 (join 38 (map arg_text args)) = map arg_text args /\
    Forall (fun kv => ~ In 61 (fst kv)) args /\ last_value (bs "d") args = Some d /\ last_value (bs "t") args = Some t.
Proof.
  intros (args & vers & V & NE & OK & -> & D & T). exists args, vers. rewrite query_string_join.
  destruct (ok_blank args OK) as (B1 & B2 & B3). repeat split; auto.
  - rewrite get_path_split. apply split_three. repeat split; auto.
    + cbn; intuition discriminate.
    + intros C. apply in_app_iff in C as [C | C]; [cbn in C; intuition discriminate | auto].
    + apply vers_blank, V.
  - apply split_join; [| assumption]. destruct args; [congruence | discriminate].
Qed.

Lemma asks_value line n ty : AsksFor line n ty -> forall d t, GoodRequest line d t -> acceptable d /\ n = lower d /\ type_named t ty.
Proof.
  intros (d0 & t0 & G0 & A & N & T) d t G.
  destruct (good_parts _ _ _ G0) as (a0 & v0 & S0 & _ & P0 & F0 & D0 & T0), (good_parts _ _ _ G) as (a1 & v1 & S1 & _ & P1 & F1 & D1 & T1).
  rewrite S0 in S1. injection S1 as S1 _. try apply app_inv_head in S1. rewrite S1, P1 in P0.
  pose proof (parse_args_complete a0 [] [] F0) as C0. pose proof (parse_args_complete a1 [] [] F1) as C1. rewrite P0, C0 in C1.
  rewrite D0, D1, T0, T1 in C1. cbn [or_default] in C1. injection C1 as -> ->. auto.
Qed.

Lemma acceptable_nonnil d : acceptable d -> d <> [].
Proof. intros (ls & NE & -> & _) C. destruct ls; [congruence |]. unfold dots in C. cbn in C. destruct l; discriminate. Qed.
Lemma type_named_nonnil t ty : type_named t ty -> t <> [].
Proof. intros H ->. unfold type_named in H. cbn in H. intuition discriminate. Qed.

Lemma handle_request_understood prove line : Understood line (handle_request prove line) prove.
Proof.
  unfold handle_request, parse_request, proof_reply.
  assert (NS : forall r, (forall d t, ~ GoodRequest line d t) -> r = bad "Bad Request" -> Understood line r prove) by (intros r H ->; apply USyntax, H).
  destruct (split_on 32 line) as [| verb [| path [| vers [| x r]]]] eqn:S;
    try (apply USyntax; intros d t G; destruct (good_parts _ _ _ G) as (a & v & S' & _); rewrite S in S'; discriminate).
  destruct (bytes_eqb verb (bs "GET")) eqn:V; cbn [negb].
  2:{ apply USyntax; intros d t G; destruct (good_parts _ _ _ G) as (a & v & S' & _); rewrite S in S'. injection S' as -> _ _. discriminate. }
  apply bytes_eqb_eq in V. subst verb.
  destruct (negb (bytes_eqb vers (bs "HTTP/1.1")) && negb (bytes_eqb vers (bs "HTTP/1.0"))) eqn:HV.
  { apply USyntax; intros d t G; destruct (good_parts _ _ _ G) as (a & v & S' & V' & _); rewrite S in S'. injection S' as _ ->.
    apply vers_spec in V'. congruence. }
  apply vers_spec in HV. apply split_three in S as (-> & B1 & B2 & B3).
  destruct (starts_with path PATH_PFX) eqn:SW; cbn [negb].
  2:{ apply UOther. exists path, vers. repeat split; auto.
      - apply Forall_forall. intros c Hc ->. exact (B2 Hc).
      - intros (r & ->). assert (starts_with (bs "/dnssecproof?" ++ r) PATH_PFX = true) by (apply starts_with_spec; exists r; reflexivity). congruence. }
  apply starts_with_spec in SW as (q & ->). rewrite dropN_app_len.
  assert (SP : split_on 32 (bs "GET" ++ 32 :: (PATH_PFX ++ q) ++ 32 :: vers) = [bs "GET"; PATH_PFX ++ q; vers]) by (apply split_three; auto).
  destruct (parse_args (split_on 38 q) [] []) as [[d t] |] eqn:PA.
  2:{ apply USyntax; intros d t G; destruct (good_parts _ _ _ G) as (a & v & S' & V' & P & F & _). rewrite SP in S'. injection S' as S' _. try apply app_inv_head in S'.
      subst q. rewrite P, (parse_args_complete a [] [] F) in PA. discriminate. }
  destruct (parse_args_sound _ _ _ _ _ PA) as (args & SQ & F & HD & HT).
  assert (JQ : q = join 38 (map arg_text args)) by (rewrite <- SQ; symmetry; apply join_split).
  assert (OK : Forall arg_ok args).
  { apply args_blank; [| assumption |].
    - rewrite <- JQ. intros C. apply B2. apply in_app_iff. auto.
    - rewrite <- SQ. apply split_on_pieces. }
  assert (NE : args <> []). { intros ->. apply (split_on_nonnil 38 q). exact SQ. }
  assert (G : d <> [] -> t <> [] -> GoodRequest (bs "GET" ++ 32 :: (PATH_PFX ++ q) ++ 32 :: vers) d t).
  { intros D T. exists args, vers. rewrite query_string_join, <- JQ, get_path_split. repeat split; auto.
    - destruct (last_value (bs "d") args); cbn [or_default] in HD; congruence.
    - destruct (last_value (bs "t") args); cbn [or_default] in HT; congruence. }
  assert (AV : forall n ty, AsksFor (bs "GET" ++ 32 :: (PATH_PFX ++ q) ++ 32 :: vers) n ty -> acceptable d /\ n = lower d /\ type_named t ty).
  { intros n ty (d0 & t0 & G0 & A & E & T). destruct (good_parts _ _ _ G0) as (a0 & v0 & S0 & _ & P0 & F0 & D0 & T0).
    rewrite SP in S0. injection S0 as S0 _. try apply app_inv_head in S0. subst q. rewrite S0, P0, (parse_args_complete a0 [] [] F0), D0, T0 in PA.
    cbn [or_default] in PA. injection PA as -> ->. auto. }
  destruct (is_nil d || is_nil t) eqn:NIL.
  { apply UMissing. intros n ty A. destruct (AV _ _ A) as (A1 & _ & A2). apply acceptable_nonnil in A1. apply type_named_nonnil in A2.
    destruct d, t; cbn in NIL; congruence. }
  apply Bool.orb_false_iff in NIL as [N1 N2]. apply is_nil_false in N1. apply is_nil_false in N2. specialize (G N1 N2).
  destruct (name_try_from d) as [nm |] eqn:NM.
  2:{ apply UName. intros n ty A. destruct (AV _ _ A) as (A1 & A0 & _). assert (name_try_from d = Some n) by (apply name_try_from_spec; auto). congruence. }
  apply name_try_from_spec in NM as [NM ->].
  destruct (type_of t) as [ty |] eqn:TY.
  2:{ apply UType. intros n ty A. destruct (AV _ _ A) as (_ & _ & A2). apply type_of_spec in A2. congruence. }
  apply type_of_spec in TY.
  assert (A : AsksFor (bs "GET" ++ 32 :: (PATH_PFX ++ q) ++ 32 :: vers) (lower d) ty) by (exists d, t; auto).
  destruct (prove (lower d) ty) as [[p ttl] |] eqn:PR; [eapply UProof | eapply UFail]; eassumption.
Qed.

Lemma asks_unique line n ty n' ty' : AsksFor line n ty -> AsksFor line n' ty' -> n = n' /\ ty = ty'.
Proof.
  intros A (d & t & G & _ & -> & T). destruct (asks_value _ _ _ A _ _ G) as (_ & -> & T'). split; [reflexivity |].
  apply type_of_spec in T. apply type_of_spec in T'. congruence.
Qed.

Lemma other_not_good line n ty : OtherPath line -> ~ AsksFor line n ty.
Proof.
  intros (path & vers & V & B & -> & NP) (d & t & G & _). destruct (good_parts _ _ _ G) as (a & v & S & _).
  assert (E : split_on 32 (bs "GET " ++ path ++ [32] ++ vers) = [bs "GET"; path; vers]).
  { apply split_three. repeat split.
    - cbn; intuition discriminate.
    - intros C. rewrite Forall_forall in B. exact (B _ C eq_refl).
    - apply vers_blank, V. }
  rewrite S in E. injection E as E _. apply NP. eexists. symmetry. exact E.
Qed.

(** Rules out the cases of [Understood] in which the line asks for nothing. *)
Ltac asked A :=
  match goal with
  | H : forall d t, ~ GoodRequest _ d t |- _ => exfalso; destruct A as (d & t & G & _); exact (H _ _ G)
  | H : OtherPath _ |- _ => exfalso; exact (other_not_good _ _ _ H A)
  | H : forall n ty, ~ AsksFor _ n ty |- _ => exfalso; exact (H _ _ A)
  | H : AsksFor _ ?n' ?ty', P : ?prove ?n' ?ty' = _ |- _ => destruct (asks_unique _ _ _ _ _ A H) as [<- <-]; congruence
  end.

Lemma handle_proof prove line p ttl : handle_request prove line = Proof p ttl <-> exists n ty, AsksFor line n ty /\ prove n ty = Some (p, ttl).
Proof.
  pose proof (handle_request_understood prove line) as U. split.
  - intros E. rewrite E in U. inversion U; subst. eauto.
  - intros (n & ty & A & P). remember (handle_request prove line) as r. clear Heqr. destruct U; asked A.
Qed.

Lemma handle_fail prove line n ty : AsksFor line n ty -> prove n ty = None -> handle_request prove line = Plain "404 Not Found" "Failed to generate proof for given domain".
Proof.
  intros A P. pose proof (handle_request_understood prove line) as U. remember (handle_request prove line) as r. clear Heqr.
  destruct U; try reflexivity; asked A.
Qed.

Lemma handle_other prove line : OtherPath line -> handle_request prove line = Plain "404 Not Found" "Not Found".
Proof.
  intros O. unfold handle_request, parse_request. destruct O as (path & vers & V & B & -> & NP).
  assert (E : split_on 32 (bs "GET " ++ path ++ [32] ++ vers) = [bs "GET"; path; vers]).
  { apply split_three. repeat split.
    - cbn; intuition discriminate.
    - intros C. rewrite Forall_forall in B. exact (B _ C eq_refl).
    - apply vers_blank, V. }
  rewrite E. change (bytes_eqb (bs "GET") (bs "GET")) with true. cbn [negb]. apply vers_spec in V. rewrite V.
  destruct (starts_with path PATH_PFX) eqn:SW; [| reflexivity]. apply starts_with_spec in SW as (r & ->). exfalso. apply NP. eexists; reflexivity.
Qed.

Lemma handle_bad prove line : ~ OtherPath line -> (forall n ty, ~ AsksFor line n ty) -> exists body, handle_request prove line = Plain "400 Bad Request" body.
Proof.
  intros NO NA. pose proof (handle_request_understood prove line) as U. remember (handle_request prove line) as r. clear Heqr. destruct U; try (eexists; reflexivity); exfalso; [auto | eapply NA; eauto | eapply NA; eauto].
Qed.

(** ** Reading the request *)
Definition HasCrlf (s : list N) : Prop := exists a b, s = a ++ [13; 10] ++ b.

Lemma has_crlf_spec s : has_crlf s = true <-> HasCrlf s.
Proof.
  split.
  - induction s as [| x t IH]; [discriminate |]. destruct t as [| y r]; [discriminate |].
    intros H. change (((x =? 13) && (y =? 10)) || has_crlf (y :: r) = true) in H. apply Bool.orb_true_iff in H as [H | H].
    + apply Bool.andb_true_iff in H as [H1 H2]. apply N.eqb_eq in H1, H2. subst. exists [], r. reflexivity.
    + destruct (IH H) as (a & b & E). exists (x :: a), b. cbn [app] in *. rewrite E. reflexivity.
  - intros (a & b & ->). induction a as [| x a IH]; [reflexivity |].
    change (has_crlf (x :: (a ++ [13; 10] ++ b)) = true). destruct (a ++ [13; 10] ++ b) as [| y r] eqn:E; [discriminate |].
    change (((x =? 13) && (y =? 10)) || has_crlf (y :: r) = true). rewrite IH. apply Bool.orb_true_r.
Qed.
Lemma has_crlf_false s : has_crlf s = false <-> ~ HasCrlf s.
Proof. rewrite <- has_crlf_spec. destruct (has_crlf s); intuition congruence. Qed.
Lemma has_crlf_app s r : HasCrlf s -> HasCrlf (s ++ r).
Proof. intros (a & b & ->). exists a, (b ++ r). rewrite <- !app_assoc. reflexivity. Qed.

Lemma split_crlf_some s a b : split_crlf s = Some (a, b) -> s = a ++ [13; 10] ++ b /\ ~ HasCrlf a.
Proof.
  revert a b. induction s as [| x t IH]; intros a b H; [discriminate |]. destruct t as [| y r]; [discriminate |].
  change ((if (x =? 13) && (y =? 10) then Some ([], r) else match split_crlf (y :: r) with Some (u, v) => Some (x :: u, v) | None => None end) = Some (a, b)) in H.
  destruct ((x =? 13) && (y =? 10)) eqn:E.
  - apply Bool.andb_true_iff in E as [H1 H2]. apply N.eqb_eq in H1, H2. subst. injection H as <- <-. split; [reflexivity |].
    intros (u & v & C). destruct u; discriminate.
  - destruct (split_crlf (y :: r)) as [[u v] |] eqn:S; [| discriminate]. injection H as <- <-. destruct (IH _ _ eq_refl) as [Q NC].
    rewrite Q. split; [reflexivity |]. intros C. apply has_crlf_spec in C. destruct u as [| z u]; [discriminate |].
    change (((x =? 13) && (z =? 10)) || has_crlf (z :: u) = true) in C. cbn [app] in Q. injection Q as <- _. rewrite E in C. cbn [orb] in C.
    apply has_crlf_spec in C. exact (NC C).
Qed.
Lemma split_crlf_ex s : HasCrlf s -> exists a b, split_crlf s = Some (a, b).
Proof.
  intros (a & b & ->). induction a as [| x a IH]; [exists [], b; reflexivity |].
  cbn [app]. destruct (a ++ 13 :: 10 :: b) as [| y r] eqn:E; [destruct a; discriminate |].
  change (exists u v, (if (x =? 13) && (y =? 10) then Some ([], r) else match split_crlf (y :: r) with Some (u, v) => Some (x :: u, v) | None => None end) = Some (u, v)).
  destruct ((x =? 13) && (y =? 10)); [eauto |]. change (a ++ [13; 10] ++ b) with (a ++ 13 :: 10 :: b) in IH. rewrite E in IH.
  destruct IH as (u & v & ->). eauto.
Qed.

Lemma first_line_unique s l1 l2 : FirstLine s l1 -> FirstLine s l2 -> l1 = l2.
Proof.
  intros ((r1 & ->) & N1) ((r2 & E) & N2). revert l2 E N1 N2. induction l1 as [| x l1 IH]; intros l2 E N1 N2.
  - destruct l2 as [| y l2]; [reflexivity |]. exfalso. cbn [app] in E. injection E as <- E.
    destruct l2 as [| z l2]; [discriminate |]. injection E as <- E. apply N2. exists [], l2. reflexivity.
  - destruct l2 as [| y l2].
    + exfalso. cbn [app] in E. injection E as -> E. destruct l1 as [| z l1]; [discriminate |]. injection E as -> E. apply N1. exists [], l1. reflexivity.
    + cbn [app] in E. injection E as <- E. f_equal. apply IH.
      * exact E.
      * intros (a & b & ->). apply N1. exists (x :: a), b. reflexivity.
      * intros (a & b & ->). apply N2. exists (x :: a), b. reflexivity.
Qed.
Lemma first_line_ex s : HasCrlf s -> exists l, FirstLine s l.
Proof. intros H. apply split_crlf_ex in H as (a & b & H). apply split_crlf_some in H as [-> N]. exists a. split; [eauto | exact N]. Qed.
Lemma first_line_crlf s l : FirstLine s l -> HasCrlf s.
Proof. intros ((r & ->) & _). exists l, r. reflexivity. Qed.
Lemma first_line_app s r l : FirstLine s l -> FirstLine (s ++ r) l.
Proof. intros ((q & ->) & N). split; [| exact N]. exists (q ++ r). rewrite <- !app_assoc. reflexivity. Qed.
Lemma split_crlf_first s l : FirstLine s l -> exists b, split_crlf s = Some (l, b).
Proof.
  intros F. destruct (split_crlf_ex s (first_line_crlf _ _ F)) as (a & b & S). exists b. rewrite S. f_equal. f_equal.
  apply split_crlf_some in S as [E N]. eapply first_line_unique; [| exact F]. split; eauto.
Qed.

Definition read_spec (s : list N) (o : read_outcome) : Prop :=
  match o with
  | RClosed => len s < 4096 /\ ~ HasCrlf s
  | RTooLarge => 4096 <= len s /\ ~ HasCrlf (takeN 4096 s)
  | RRequest b => HasCrlf b /\ exists q, takeN 4096 s = b ++ q
  end.

Lemma takeN_app_le {A} n (a b : list A) : len a <= n -> takeN n (a ++ b) = a ++ takeN (n - len a) b.
Proof.
  unfold takeN, len. intros H. rewrite firstn_app. f_equal.
  - apply firstn_all2. lia.
  - f_equal. lia.
Qed.

Lemma read_req_spec evs : forall buf, len buf <= 4096 -> ~ HasCrlf buf -> read_spec (buf ++ delivered evs) (read_req evs buf).
Proof.
  assert (FULL : forall buf r, len buf = 4096 -> ~ HasCrlf buf -> read_spec (buf ++ r) RTooLarge).
  { intros buf r E N. cbn [read_spec]. rewrite len_app, <- E, takeN_app_len. split; [lia | exact N]. }
  induction evs as [| ev evs IH]; intros buf L N.
  - cbn [read_req delivered]. destruct (N.eqb_spec (len buf) 4096); [apply FULL; assumption |]. rewrite app_nil_r. cbn [read_spec]. split; [lia | assumption].
  - cbn [read_req]. destruct (N.eqb_spec (len buf) 4096) as [E | E]; [apply FULL; assumption |].
    destruct ev as [d | |].
    + destruct d as [| x d]; [cbn [delivered app]; apply IH; assumption |].
      cbn [delivered]. remember (x :: d) as dd eqn:DD. clear DD x d.
      destruct (has_crlf (buf ++ takeN (4096 - len buf) dd)) eqn:HC.
      * cbn [read_spec]. apply has_crlf_spec in HC. split; [exact HC |].
        destruct (N.leb_spec (len dd) (4096 - len buf)) as [LE | GT].
        -- rewrite (takeN_all _ dd LE). rewrite app_assoc. rewrite takeN_app_le by (rewrite len_app; lia). eauto.
        -- exists []. rewrite takeN_app_le by lia. rewrite app_nil_r. f_equal.
           replace (4096 - len buf) with (len (takeN (4096 - len buf) dd)) at 1 by (apply len_takeN; lia).
           rewrite <- (takeN_dropN (4096 - len buf) dd) at 2. rewrite <- app_assoc. apply takeN_app_len.
      * apply has_crlf_false in HC. destruct (N.leb_spec (len dd) (4096 - len buf)) as [LE | GT].
        -- rewrite (takeN_all _ dd LE) in *. rewrite app_assoc. apply IH; [rewrite len_app; lia | exact HC].
        -- rewrite <- (takeN_dropN (4096 - len buf) dd) at 1. rewrite <- app_assoc, app_assoc. apply FULL; [rewrite len_app, len_takeN; lia | exact HC].
    + cbn [delivered]. apply IH; assumption.
    + cbn [delivered read_spec]. rewrite app_nil_r. split; [lia | assumption].
Qed.

Lemma ascii_utf8 s : ascii s -> utf8_ok s = true.
Proof. induction 1; [reflexivity |]. cbn [utf8_ok]. destruct (N.ltb_spec x 128); [assumption | lia]. Qed.

(** What the server answers, in terms of the bytes delivered. *)
Lemma serve_cases prove evs :
  (exists line, FirstLine (first_4096 evs) line /\
     (serve prove evs = Some (handle_request prove line) \/ (~ ascii (first_4096 evs) /\ serve prove evs = Some (bad "Bad Request")))) \/
  (~ HasCrlf (first_4096 evs) /\ 4096 <= len (delivered evs) /\ serve prove evs = Some (bad "Request Too Large")) \/
  (~ HasCrlf (delivered evs) /\ len (delivered evs) < 4096 /\ serve prove evs = None).
Proof.
  unfold serve, first_4096. change (firstn (N.to_nat 4096) (delivered evs)) with (takeN 4096 (delivered evs)).
  pose proof (read_req_spec evs [] ltac:(cbn; lia)) as R. assert (N : ~ HasCrlf []) by (intros (a & b & C); destruct a; discriminate).
  specialize (R N). cbn [app] in R. destruct (read_req evs []) as [| | b]; cbn [read_spec] in R.
  - right. right. tauto.
  - right. left. tauto.
  - left. destruct R as [HC (q & E)]. destruct (first_line_ex b HC) as (l & F). exists l. rewrite E. split; [apply first_line_app, F |].
    unfold handle_buf, request_line. destruct (utf8_ok b) eqn:U.
    + left. destruct (split_crlf_first b l F) as (r & ->). reflexivity.
    + right. split; [| reflexivity]. intros A. apply Forall_app in A as [A _]. apply ascii_utf8 in A. congruence.
Qed.

Lemma first_no_crlf evs : ~ HasCrlf (delivered evs) -> ~ HasCrlf (first_4096 evs).
Proof.
  intros N C. apply N. unfold first_4096 in C. rewrite <- (firstn_skipn (N.to_nat 4096) (delivered evs)). apply has_crlf_app, C.
Qed.

Lemma serve_line prove evs line : FirstLine (first_4096 evs) line ->
  serve prove evs = Some (handle_request prove line) \/ (~ ascii (first_4096 evs) /\ serve prove evs = Some (bad "Bad Request")).
Proof.
  intros F. destruct (serve_cases prove evs) as [(l & F' & R) | [(N & _) | (N & _)]].
  - rewrite (first_line_unique _ _ _ F F'). exact R.
  - exfalso. apply N. eapply first_line_crlf, F.
  - exfalso. apply first_no_crlf in N. apply N. eapply first_line_crlf, F.
Qed.

Lemma serve_sound prove evs p ttl : serve prove evs = Some (Proof p ttl) ->
  exists line n ty, FirstLine (first_4096 evs) line /\ AsksFor line n ty /\ prove n ty = Some (p, ttl).
Proof.
  intros S. destruct (serve_cases prove evs) as [(l & F & [R | (_ & R)]) | [(_ & _ & R) | (_ & _ & R)]]; rewrite R in S; try discriminate.
  injection S as S. apply handle_proof in S as (n & ty & A & P). eauto 6.
Qed.

Lemma serve_complete prove evs line n ty p ttl : ascii (first_4096 evs) -> FirstLine (first_4096 evs) line -> AsksFor line n ty ->
  prove n ty = Some (p, ttl) -> serve prove evs = Some (Proof p ttl).
Proof.
  intros A F K P. destruct (serve_line prove evs line F) as [-> | [C _]]; [| contradiction]. f_equal. apply handle_proof. eauto.
Qed.

Lemma serve_rejects prove evs line : FirstLine (first_4096 evs) line ->
  (forall n ty, AsksFor line n ty -> prove n ty = None) ->
  exists status body, serve prove evs = Some (Plain status body) /\ (status = "400 Bad Request" \/ status = "404 Not Found")%string.
Proof.
  intros F H. destruct (serve_line prove evs line F) as [-> | [_ ->]]; [| do 2 eexists; split; [reflexivity | auto]].
  pose proof (handle_request_understood prove line) as U. remember (handle_request prove line) as r. clear Heqr.
  destruct U; try (do 2 eexists; split; [reflexivity | auto]; fail). exfalso. rewrite (H _ _ H0) in H1. discriminate.
Qed.

Lemma serve_no_line prove evs : (forall line, ~ FirstLine (first_4096 evs) line) ->
  serve prove evs = if len (delivered evs) <? 4096 then None else Some (Plain "400 Bad Request" "Request Too Large").
Proof.
  intros N. destruct (serve_cases prove evs) as [(l & F & _) | [(_ & L & R) | (_ & L & R)]].
  - exfalso. exact (N _ F).
  - rewrite R. destruct (N.ltb_spec (len (delivered evs)) 4096); [lia | reflexivity].
  - rewrite R. destruct (N.ltb_spec (len (delivered evs)) 4096); [reflexivity | lia].
Qed.

Lemma serve_segments prove evs evs' : ascii (first_4096 evs) -> first_4096 evs = first_4096 evs' -> serve prove evs = serve prove evs'.
Proof.
  intros A E.
  assert (L : (len (delivered evs) <? 4096) = (len (delivered evs') <? 4096)).
  { pose proof (f_equal len E) as Q. unfold first_4096 in Q. change (len (takeN 4096 (delivered evs)) = len (takeN 4096 (delivered evs'))) in Q.
    rewrite !len_takeN_min in Q. destruct (N.ltb_spec (len (delivered evs)) 4096), (N.ltb_spec (len (delivered evs')) 4096); try reflexivity; lia. }
  destruct (has_crlf (first_4096 evs)) eqn:C.
  - apply has_crlf_spec in C. destruct (first_line_ex _ C) as (l & F).
    destruct (serve_line prove evs l F) as [-> | [X _]]; [| contradiction].
    rewrite E in F, A. destruct (serve_line prove evs' l F) as [-> | [X _]]; [reflexivity | contradiction].
  - apply has_crlf_false in C. rewrite !serve_no_line, L; [reflexivity | |].
    + intros l F. rewrite <- E in F. exact (C (first_line_crlf _ _ F)).
    + intros l F. exact (C (first_line_crlf _ _ F)).
Qed.

(** Whatever the bytes, the segmentation can only change the answer to or from "Bad Request". *)
Lemma serve_segments_any prove evs evs' : first_4096 evs = first_4096 evs' ->
  serve prove evs = serve prove evs' \/ serve prove evs = Some (bad "Bad Request") \/ serve prove evs' = Some (bad "Bad Request").
Proof.
  intros E.
  assert (L : (len (delivered evs) <? 4096) = (len (delivered evs') <? 4096)).
  { pose proof (f_equal len E) as Q. unfold first_4096 in Q. change (len (takeN 4096 (delivered evs)) = len (takeN 4096 (delivered evs'))) in Q.
    rewrite !len_takeN_min in Q. destruct (N.ltb_spec (len (delivered evs)) 4096), (N.ltb_spec (len (delivered evs')) 4096); try reflexivity; lia. }
  destruct (has_crlf (first_4096 evs)) eqn:C.
  - apply has_crlf_spec in C. destruct (first_line_ex _ C) as (l & F).
    destruct (serve_line prove evs l F) as [-> | [_ ->]]; [| auto].
    rewrite E in F. destruct (serve_line prove evs' l F) as [-> | [_ ->]]; auto.
  - left. apply has_crlf_false in C. rewrite !serve_no_line, L; [reflexivity | |].
    + intros l F. rewrite <- E in F. exact (C (first_line_crlf _ _ F)).
    + intros l F. exact (C (first_line_crlf _ _ F)).
Qed.

(** ** Responses *)
Definition body_of (r : reply) : list N := match r with Plain _ b => bs b | Proof p _ => p end.

Lemma digits_printable s : Forall is_digit s -> printable s.
Proof. intros H. eapply Forall_impl; [| exact H]. unfold is_digit. cbn. lia. Qed.

Lemma render_proof p ttl : render (Proof p ttl) = http_message (proof_lines (dec (len p)) (dec ttl)) p.
Proof. unfold render, http_message, proof_lines, crlf. cbn [map List.concat app]. rewrite <- ?app_assoc. cbn [app]. rewrite <- ?app_assoc. reflexivity. Qed.

Lemma serve_answers prove evs r : serve prove evs = Some r ->
  (In (render r) error_messages /\ exists s b, r = Plain s b) \/ exists p ttl n ty, r = Proof p ttl /\ prove n ty = Some (p, ttl).
Proof.
  intros S. destruct (serve_cases prove evs) as [(l & F & [R | (_ & R)]) | [(_ & _ & R) | (_ & _ & R)]]; rewrite R in S; try discriminate; injection S as <-.
  - pose proof (handle_request_understood prove l) as U. remember (handle_request prove l) as r. clear Heqr R.
    destruct U; try (right; eauto 8; fail); left; (split; [vm_compute; auto 10 | do 2 eexists; reflexivity]).
  - left. split; [| eexists; eexists; reflexivity]. vm_compute. auto 10.
  - left. split; [| eexists; eexists; reflexivity]. vm_compute. auto 10.
Qed.

Lemma printable_app a b : printable a -> printable b -> printable (a ++ b).
Proof. intros. apply Forall_app. auto. Qed.
Ltac text := repeat first [apply printable_app | assumption]; try (repeat constructor; discriminate).
Lemma not_length x l : x <> 67 -> ~ length_line (x :: l).
Proof. intros H (v & C). cbn in C. congruence. Qed.
Lemma not_length_C x l : x <> 110 -> ~ length_line (67 :: 111 :: x :: l).
Proof. intros H (v & C). cbn in C. congruence. Qed.

Lemma proof_framed p ttl : Framed (render (Proof p ttl)) p.
Proof.
  exists [bs "HTTP/1.1 200 OK"], (dec (len p)),
    [bs "Content-Type: application/octet-stream"; bs "Cache-Control: public, max-age=" ++ dec ttl ++ bs ", s-maxage=" ++ dec ttl; bs "Access-Control-Allow-Origin: *"].
  assert (P : printable (dec ttl)) by (apply digits_printable, (dec_decimal ttl)).
  split; [apply render_proof |]. split; [apply dec_decimal |]. split; [| split].
  - cbn [app]. repeat (constructor; [split; [discriminate | text] |]). constructor.
  - cbn [app]. repeat constructor; intros (v & C); discriminate.
  - exists (bs "200 OK"). reflexivity.
Qed.

Lemma plain_framed s b : printable (bs s) -> Framed (render (Plain s b)) (bs b).
Proof.
  intros P. exists [bs "HTTP/1.1 " ++ bs s], (dec (len (bs b))), [bs "Content-Type: text/plain"; bs "Access-Control-Allow-Origin: *"].
  split; [| split; [apply dec_decimal |]].
  - unfold render, http_message, crlf. cbn [map List.concat app]. rewrite <- ?app_assoc. cbn [app]. rewrite <- ?app_assoc. reflexivity.
  - split; [| split].
    + cbn [app]. constructor; [split; [discriminate |]; apply printable_app; [text | exact P] |]. repeat (constructor; [split; [discriminate | text] |]). constructor.
    + cbn [app]. repeat constructor; intros (v & C); discriminate.
    + eexists. reflexivity.
Qed.

(** The header ends with the first empty line. *)
Lemma line_split l l' r r' : printable l -> printable l' -> l ++ 13 :: r = l' ++ 13 :: r' -> l = l' /\ r = r'.
Proof.
  revert l'. induction l as [| c l IH]; intros [| c' l'] P P' E; cbn [app] in E.
  - injection E as <-. auto.
  - injection E as <- _. inversion P' as [| ? ? C _]. exfalso. lia.
  - injection E as -> _. inversion P as [| ? ? C _]. exfalso. lia.
  - injection E as -> E. inversion P; inversion P'; subst. destruct (IH l') as [-> ->]; auto.
Qed.
Lemma message_unique ls : forall ls' b b', Forall (fun l => l <> [] /\ printable l) ls -> Forall (fun l => l <> [] /\ printable l) ls' ->
  http_message ls b = http_message ls' b' -> ls = ls' /\ b = b'.
Proof.
  unfold http_message. induction ls as [| l ls IH]; intros [| l' ls'] b b' F F' E; cbn [map List.concat app] in E.
  - injection E as <-. auto.
  - exfalso. inversion F' as [| ? ? [N P] _]. destruct l' as [| c l']; [contradiction |]. injection E as <- _. inversion P. lia.
  - exfalso. inversion F as [| ? ? [N P] _]. destruct l as [| c l]; [contradiction |]. injection E as -> _. inversion P. lia.
  - inversion F as [| ? ? [_ P] F1]. inversion F' as [| ? ? [_ P'] F1']. subst. rewrite <- !app_assoc in E. cbn [app] in E.
    apply (line_split l l') in E as [-> E]; auto. injection E as E. destruct (IH ls' b b' F1 F1' E) as [-> ->]. auto.
Qed.
Lemma framed_unique msg b b' : Framed msg b -> Framed msg b' -> b = b'.
Proof.
  assert (L : forall k num before after, Decimal k num -> Forall (fun l => l <> [] /\ printable l) (before ++ after) ->
    Forall (fun l => l <> [] /\ printable l) (before ++ [bs "Content-Length: " ++ num] ++ after)).
  { intros k num before after D F. apply Forall_app in F as [F1 F2]. apply Forall_app. split; [exact F1 |]. constructor; [| exact F2].
    split; [discriminate |]. apply printable_app; [text |]. apply digits_printable, D. }
  intros (x & num & y & E & D & F & _) (x' & num' & y' & E' & D' & F' & _). rewrite E in E'.
  exact (proj2 (message_unique _ _ _ _ (L _ _ _ _ D F) (L _ _ _ _ D' F') E')).
Qed.

Lemma serve_framed prove evs r : serve prove evs = Some r -> Framed (render r) (body_of r).
Proof.
  intros S. destruct r as [s b | p ttl]; [| apply proof_framed]. apply plain_framed.
  destruct (serve_cases prove evs) as [(l & F & [R | (_ & R)]) | [(_ & _ & R) | (_ & _ & R)]]; rewrite R in S; try discriminate; injection S as S.
  - pose proof (handle_request_understood prove l) as U. rewrite S in U. inversion U; subst; text.
  - subst. text.
  - subst. text.
Qed.

Lemma serve_headers prove evs r : serve prove evs = Some r ->
  In (render r) error_messages \/
  exists p ttl n ty num age, prove n ty = Some (p, ttl) /\ Decimal (N.of_nat (List.length p)) num /\ Decimal ttl age /\ render r = http_message (proof_lines num age) p.
Proof.
  intros S. destruct (serve_answers prove evs r S) as [[I _] | (p & ttl & n & ty & -> & P)]; [auto |]. right.
  exists p, ttl, n, ty, (dec (len p)), (dec ttl). repeat split; auto; try apply dec_decimal. apply render_proof.
Qed.
