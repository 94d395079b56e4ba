(** Witnesses for Prop_Seen: the root, and one zone below it. *)
From Verif Require Import Base BaseP NameM NameSpec NameP WireM WireSpec WireP RRM SerM ValM RecSpec RecP2 SignedP ValSpec ValP4 ValW OrderW HeldP CodecSpec QueryM QuerySpec QueryP QueryP2 QueryW AcceptSpec SecSpec SecP2 SecW WildW TextSpec TextP
  JsonM JsonSpec JsonP JsonP2 JsonP3 JsonP4 JsonP5 WasmM WasmSpec WasmP DohM DohSpec DohP DohP2 DohP3 DohW AnswerSpec SeenSpec SeenP SeenP2.
From Coq Require Import String Lia.
Local Open Scope N_scope.

(** ** Every value is the same as itself *)
Fixpoint jsize (v : jval) : nat :=
  match v with JArr l => Datatypes.S (fold_right (fun v n => jsize v + n)%nat 0%nat l) | JObj l => Datatypes.S (fold_right (fun kv n => jsize (snd kv) + n)%nat 0%nat l) | _ => 0%nat end.
Lemma same_refl v : Same v v.
Proof.
  assert (H : forall n v, (jsize v <= n)%nat -> Same v v); [| exact (H _ v (le_n _))].
  induction n as [| n IH]; intros w L; destruct w as [| b | s | s | l | l]; try (constructor; auto; fail); try (cbn in L; lia).
  - constructor. cbn [jsize] in L. assert (L' : (fold_right (fun v n => jsize v + n)%nat 0%nat l <= n)%nat) by lia. clear L. induction l as [| v' l IHl]; [constructor |].
    cbn [fold_right] in L'. constructor; [apply IH; lia | apply IHl; lia].
  - constructor. intros _ _. cbn [jsize] in L. assert (L' : (fold_right (fun kv n => jsize (snd kv) + n)%nat 0%nat l <= n)%nat) by lia. clear L. induction l as [| kv l IHl]; [constructor |].
    cbn [fold_right] in L'. constructor; [split; [reflexivity | apply IH; lia] | apply IHl; lia].
Qed.
Lemma some_reformats : Reformats Some.
Proof. intros s s' j' E J. injection E as <-. exists j'. split; [exact J | apply same_refl]. Qed.

(** ** Fewer honest zones *)
Lemma world_restrict e KeyOf Signed (Honest : list N -> Prop) : World e KeyOf (fun _ => True) Signed -> World e KeyOf Honest (fun z s rs => Honest z /\ Signed z s rs).
Proof.
  intros W. constructor.
  - intros z k s msg H K C A. destruct (wo_unforged _ _ _ _ W z k s msg I K C A) as (s0 & rs & S & P). exists s0, rs. auto.
  - intros z s rs [_ S]. exact (wo_rrset _ _ _ _ W z s rs S).
  - exact (wo_root _ _ _ _ W).
  - intros z s rs k [_ S]. exact (wo_ds _ _ _ _ W z s rs k S).
  - intros z s rs k [_ S]. exact (wo_keys _ _ _ _ W z s rs k S).
  - intros z s rs [_ S]. exact (wo_plain _ _ _ _ W z s rs S).
Qed.

(** ** A zone with a text, and the answers of a resolver *)
Definition k_key (nm : string) : dnskey := t_key nm 93.
Definition k_txt (nm : string) : RR := RR_Txt {| tx_name := bs nm; tx_data := bs "forged" |}.
Definition k_table (nm : string) : table :=
  [(x_root, [(x_sig "." 48 0 x_root, [RR_DnsKey x_root]); (x_sig nm 43 1 x_root, [t_ds (k_key nm)])]);
   (k_key nm, [(x_sig nm 48 1 (k_key nm), [RR_DnsKey (k_key nm)]); (x_sig nm 16 1 (k_key nm), [k_txt nm])])].
Definition k_body (l : list RR) : list N := q_msg q_ok (len l) 0 (flat_map (fun r => write_rr r 60) l).
Definition k_fetch (nm : string) (i : nat) (u : list N) : fetched :=
  Body (match i with
        | 0%nat => k_body [k_txt nm; RR_RRSig (x_sig nm 16 1 (k_key nm))]
        | 1%nat => k_body [RR_DnsKey (k_key nm); RR_RRSig (x_sig nm 48 1 (k_key nm))]
        | 2%nat => k_body [t_ds (k_key nm); RR_RRSig (x_sig nm 43 1 x_root)]
        | _ => k_body [RR_DnsKey x_root; RR_RRSig (x_sig "." 48 0 x_root)]
        end).
Definition k_result (nm : string) : verified := {| vr_rrs := [k_txt nm]; vr_valid_from := 1000000000; vr_expires := 2000000000; vr_max_cache_ttl := 3600 |}.
Definition k_lookup (nm : string) := lookup_doh (t_env (k_table nm)) false 10 Some [] (k_fetch nm) (bs "https://r/") 11 (bs "a") (TyText (bs "TXT")).

Ltac k_wf := split; [unfold t_ds, k_txt, x_root, k_key, t_key; cbn [typed_rr];
    repeat match goal with |- _ /\ _ => split | |- is_bytes _ => bytes_in_range | |- proper_name _ => x_name | |- _ => in_range end
  | split; [unfold t_ds, k_txt; cbn [fits_rr]; first [exact I | vm_compute; discriminate] | first [exact I | cbn; discriminate]]].
Ltac k_one := split; [apply Forall_cons; [k_wf | apply Forall_nil] |]; split; [x_name |]; split; [cbn [fst]; x_held |];
  split; [cbn [fst]; first [t_rfc (@nil (list N)) | t_rfc [[98]] | t_rfc [[97]] | t_rfc [[92; 117; 48; 48; 54; 49]]] |];
  split; [discriminate |]; split; [apply Forall_cons; [split; reflexivity | apply Forall_nil] |];
  split; [let H := fresh in intros H; first [discriminate H | eexists; split; [reflexivity |]; split; [cbn; tauto |]; split; [reflexivity | discriminate]] |];
  split; [let H := fresh in intros H; first [discriminate H | eexists; split; [reflexivity | cbn; tauto]] |];
  let H := fresh in let p := fresh in let E := fresh in intros H (p & E); vm_compute in E; discriminate E.
Ltac k_table_ok := constructor;
  [ left; reflexivity | intros x [<- | [<- | []]]; eexists; reflexivity
  | intros x y [<- | [<- | []]] [<- | [<- | []]] H; first [reflexivity | discriminate H]
  | intros x [<- | [<- | []]]; cbn [snd]; repeat (apply Forall_cons; [k_one |]); apply Forall_nil ].
Lemma k_ok_a : table_ok (k_table "a.").
Proof. k_table_ok. Qed.
Lemma k_ok_u : table_ok (k_table "\u0061.").
Proof. k_table_ok. Qed.
Lemma k_fetch_bytes nm i u b : Forall is_bytes (map (fun i => match k_fetch nm i [] with Body b => b | _ => [] end) [0; 1; 2; 3]%nat) -> k_fetch nm i u = Body b -> is_bytes b.
Proof. intros F E. injection E as <-. cbn in F. do 3 (inversion F as [| ? ? ? F']; clear F; rename F' into F; subst; destruct i as [| i]; [assumption |]). inversion F; assumption. Qed.
Lemma k_bytes_a i u b : k_fetch "a." i u = Body b -> is_bytes b.
Proof. apply k_fetch_bytes. repeat (constructor; [apply is_bytes_ok; vm_compute; reflexivity |]). constructor. Qed.
Lemma k_bytes_u i u b : k_fetch "\u0061." i u = Body b -> is_bytes b.
Proof. apply k_fetch_bytes. repeat (constructor; [apply is_bytes_ok; vm_compute; reflexivity |]). constructor. Qed.
Lemma k_run_a : k_lookup "a." = (JText (verified_json (k_result "a.")), snd (k_lookup "a.")).
Proof. vm_compute. reflexivity. Qed.
(** The URLs it fetches, written out so that comparing them is quick. *)
Definition k_urls := Eval vm_compute in snd (k_lookup "\u0061.").
Lemma k_run_u : lookup_doh (t_env (k_table "\u0061.")) false 10 Some [] (k_fetch "\u0061.") (bs "https://r/") 11 (bs "a") (TyText (bs "TXT")) = (JText (verified_json (k_result "\u0061.")), k_urls).
Proof. vm_compute. reflexivity. Qed.
Lemma k_held nm : name_try_from (bs nm) = Some (bs nm) -> Forall Held (vr_rrs (k_result nm)).
Proof. intros H. constructor; [| constructor]. split; [exact H | bytes_in_range]. Qed.

Definition k_value : jval :=
  JObj [(bs "valid_from", JNum (dec 1000000000)); (bs "expires", JNum (dec 2000000000)); (bs "max_cache_ttl", JNum (dec 3600));
        (bs "verified_rrs", JArr [JObj [(bs "type", JStr (bs "txt")); (bs "name", JStr (bs "a.")); (bs "contents", JStr (bs "forged"))]])].
Lemma k_describes : DescribesResult (k_result "a.") k_value.
Proof.
  do 4 eexists. split; [reflexivity |]. do 3 (split; [eexists; split; [reflexivity | apply dec_decimal] |]). constructor; [| constructor]. eexists. split; [reflexivity |].
  do 2 (constructor; [split; reflexivity |]). constructor; [| constructor]. split; [reflexivity |]. left. split; [| reflexivity]. exists (bs "forged"). split; [| reflexivity].
  repeat (constructor; [split; [left; reflexivity |]; split; [intros [X | X]; cbn in X; lia |]; split; discriminate |]). constructor.
Qed.
Lemma k_json nm : Str (bs nm) (bs "a.") -> Forall (fun c => c < 128) (verified_json (k_result nm)) -> Json (verified_json (k_result nm)) k_value.
Proof.
  intros S A. apply value_json; [apply utf8_ascii, A |]. rewrite verified_json_obj.
  apply (value_object (bs ", ") [32] result_keys (result_texts (k_result nm)) [_; _; _; _] comma_list_bytes); [repeat constructor | unfold result_keys, result_texts; repeat (constructor; [lit |]); constructor |].
  unfold result_texts. repeat (constructor; [apply value_dec |]). constructor; [| constructor].
  apply (value_array (bs ", ") [rr_json (k_txt nm)] [_] comma_list_bytes). constructor; [| constructor].
  rewrite rr_json_obj by (intros []). unfold obj_text.
  apply (value_object (bs ",") [] [bs "type"; bs "name"; bs "contents"] [quoted (bs "txt"); quoted (bs nm); quoted (bs "forged")] [JStr (bs "txt"); JStr (bs "a."); JStr (bs "forged")] comma_plain);
    [constructor | repeat (constructor; [lit |]); constructor |].
  constructor; [apply value_quoted; lit |]. constructor; [apply value_quoted, S |]. constructor; [apply value_quoted; lit | constructor].
Qed.
Lemma ascii_all s : forallb (fun c => c <? 128) s = true -> Forall (fun c => c < 128) s.
Proof. intros H. apply Forall_forall. intros c I. rewrite forallb_forall in H. apply N.ltb_lt, H, I. Qed.
Lemma k_json_a : Json (verified_json (k_result "a.")) k_value.
Proof. apply k_json; [lit | apply ascii_all; vm_compute; reflexivity]. Qed.
Lemma k_json_u : Json (verified_json (k_result "\u0061.")) k_value.
Proof.
  apply k_json; [| apply ascii_all; vm_compute; reflexivity]. assert (D : Str (bs ".") (bs ".")) by lit.
  exact (Str_u 48 48 54 49 0 0 6 1 _ _ eq_refl eq_refl eq_refl eq_refl D).
Qed.

(** ** A zone \u0061. may speak for a. *)
Definition k_honest (z : list N) : Prop := z <> bs "\u0061.".
Definition k_signed (z : list N) (s : rrsig) (rs : list RR) : Prop := k_honest z /\ t_signed (k_table "\u0061.") z s rs.
Lemma k_world : World (t_env (k_table "\u0061.")) (t_keys (k_table "\u0061.")) k_honest k_signed.
Proof. apply world_restrict, t_world, k_ok_u. Qed.
Lemma k_nothing z v : ~ Published k_signed z v (k_txt "a.").
Proof.
  intros (s & rs & [H (k & sets & I & E & J)] & _ & T & _). cbn [rr_ty k_txt] in T. destruct I as [I | [I | []]]; apply pair_equal_spec in I as [<- <-].
  - destruct J as [J | [J | []]]; apply pair_equal_spec in J as [<- _]; discriminate T.
  - apply H. rewrite <- E. reflexivity.
Qed.
Lemma seen_refuted : ~ (forall e KeyOf Honest Signed dbg fuel reparse trap fetch endpoint k domain ty s urls j V r,
  World e KeyOf Honest Signed -> Reformats reparse -> (forall i u b, fetch i u = Body b -> is_bytes b) -> (11 <= k)%nat ->
  lookup_doh e dbg fuel reparse trap fetch endpoint k domain (TyText ty) = (JText s, urls) -> Json s j -> DescribesResult V j -> Forall Held (vr_rrs V) ->
  In r (vr_rrs V) -> InGoodHands Honest (rr_name r) -> exists z v, Published Signed z v r).
Proof.
  intros H. specialize (H (t_env (k_table "\u0061.")) (t_keys (k_table "\u0061.")) k_honest k_signed false 10%nat Some [] (k_fetch "\u0061.") (bs "https://r/") 11%nat (bs "a") (bs "TXT")
    (verified_json (k_result "\u0061.")) k_urls k_value (k_result "a.") (k_txt "a.") k_world some_reformats k_bytes_u (le_n _)).
  destruct (H k_run_u k_json_u k_describes (k_held "a." eq_refl) (or_introl eq_refl)) as (z & v & P).
  - intros d p E _ ->. apply (f_equal (@List.length N)) in E. rewrite app_length in E. cbn in E. lia.
  - exact (k_nothing z v P).
Qed.
(** The same lookup when the zone is a. *)
Lemma seen_example : exists s urls j, World (t_env (k_table "a.")) (t_keys (k_table "a.")) (fun _ => True) (t_signed (k_table "a.")) /\ Reformats Some /\
  (forall i u b, k_fetch "a." i u = Body b -> is_bytes b) /\ k_lookup "a." = (JText s, urls) /\ Json s j /\ DescribesResult (k_result "a.") j /\ Forall Held (vr_rrs (k_result "a.")).
Proof.
  do 3 eexists. split; [apply t_world, k_ok_a |]. split; [exact some_reformats |]. split; [exact k_bytes_a |]. split; [exact k_run_a |]. split; [exact k_json_a |]. split; [exact k_describes | exact (k_held "a." eq_refl)].
Qed.
