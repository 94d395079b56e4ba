(** Specification of JSON texts (RFC 8259) and of what the JSON form of a record must say. The only
    model types used are the records themselves. *)
From Verif Require Import Base RRM ValM TextSpec.
From Coq Require Import String.
Local Open Scope N_scope.

(** ** UTF-8 (RFC 3629) *)
Definition scalar (c : N) : Prop := c < 55296 \/ 57344 <= c < 1114112.
Definition utf8_char (c : N) : list N :=
  if c <? 128 then [c]
  else if c <? 2048 then [192 + c / 64; 128 + c mod 64]
  else if c <? 65536 then [224 + c / 4096; 128 + (c / 64) mod 64; 128 + c mod 64]
  else [240 + c / 262144; 128 + (c / 4096) mod 64; 128 + (c / 64) mod 64; 128 + c mod 64].
Definition Utf8 (s : list N) : Prop := exists cs, Forall scalar cs /\ s = flat_map utf8_char cs.

(** ** JSON values *)
Inductive jval :=
| JNull
| JBool (b : bool)
| JNum (lexeme : list N)
| JStr (s : list N)
| JArr (vs : list jval)
| JObj (kvs : list (list N * jval)).

(** RFC 8259 section 2: insignificant whitespace. *)
Definition Ws (s : list N) : Prop := Forall (fun c => In c [32; 9; 10; 13]) s.

(** Section 6: numbers. *)
Definition Digits (s : list N) : Prop := s <> [] /\ Forall is_digit s.
Definition Number (s : list N) : Prop :=
  exists minus int frac exp, s = minus ++ int ++ frac ++ exp /\
    (minus = [] \/ minus = [45]) /\
    (int = [48] \/ (Digits int /\ hd 48 int <> 48)) /\
    (frac = [] \/ exists d, frac = 46 :: d /\ Digits d) /\
    (exp = [] \/ exists e sg d, exp = e :: sg ++ d /\ In e [101; 69] /\ In sg [[]; [43]; [45]] /\ Digits d).

(** Section 7: strings; the text between the quotes and the UTF-8 of what it denotes. (An escaped
    surrogate is encoded on its own; no statement depends on that.) *)
Definition escapes : list (N * N) := [(34, 34); (92, 92); (47, 47); (98, 8); (102, 12); (110, 10); (114, 13); (116, 9)].
Definition hex_value (c : N) : option N :=
  if (48 <=? c) && (c <=? 57) then Some (c - 48)
  else if (65 <=? c) && (c <=? 70) then Some (c - 55)
  else if (97 <=? c) && (c <=? 102) then Some (c - 87)
  else None.
Inductive Str : list N -> list N -> Prop :=
| Str_nil : Str [] []
| Str_raw c r d : 32 <= c -> c <> 34 -> c <> 92 -> Str r d -> Str (c :: r) (c :: d)
| Str_esc e c r d : In (e, c) escapes -> Str r d -> Str (92 :: e :: r) (c :: d)
| Str_u c1 c2 c3 c4 h1 h2 h3 h4 r d :
    hex_value c1 = Some h1 -> hex_value c2 = Some h2 -> hex_value c3 = Some h3 -> hex_value c4 = Some h4 -> Str r d ->
    Str (92 :: 117 :: c1 :: c2 :: c3 :: c4 :: r) (utf8_char (4096 * h1 + 256 * h2 + 16 * h3 + h4) ++ d).

(** Sections 3-5: values, arrays, objects. *)
Inductive Value : list N -> jval -> Prop :=
| Value_null : Value (bs "null") JNull
| Value_true : Value (bs "true") (JBool true)
| Value_false : Value (bs "false") (JBool false)
| Value_num s : Number s -> Value s (JNum s)
| Value_str s d : Str s d -> Value ([34] ++ s ++ [34]) (JStr d)
| Value_arr0 w : Ws w -> Value ([91] ++ w ++ [93]) (JArr [])
| Value_arr s vs : Elements s vs -> Value ([91] ++ s ++ [93]) (JArr vs)
| Value_obj0 w : Ws w -> Value ([123] ++ w ++ [125]) (JObj [])
| Value_obj s kvs : Members s kvs -> Value ([123] ++ s ++ [125]) (JObj kvs)
with Elements : list N -> list jval -> Prop :=
| Elements_one w1 s w2 v : Ws w1 -> Value s v -> Ws w2 -> Elements (w1 ++ s ++ w2) [v]
| Elements_more w1 s w2 v r vs : Ws w1 -> Value s v -> Ws w2 -> Elements r vs -> Elements (w1 ++ s ++ w2 ++ [44] ++ r) (v :: vs)
with Members : list N -> list (list N * jval) -> Prop :=
| Members_one w1 k kd w2 w3 s w4 v : Ws w1 -> Str k kd -> Ws w2 -> Ws w3 -> Value s v -> Ws w4 ->
    Members (w1 ++ [34] ++ k ++ [34] ++ w2 ++ [58] ++ w3 ++ s ++ w4) [(kd, v)]
| Members_more w1 k kd w2 w3 s w4 v r kvs : Ws w1 -> Str k kd -> Ws w2 -> Ws w3 -> Value s v -> Ws w4 -> Members r kvs ->
    Members (w1 ++ [34] ++ k ++ [34] ++ w2 ++ [58] ++ w3 ++ s ++ w4 ++ [44] ++ r) ((kd, v) :: kvs).

(** Section 8.1: a JSON text is UTF-8. *)
Definition Json (text : list N) (v : jval) : Prop :=
  Utf8 text /\ exists w1 s w2, Ws w1 /\ Ws w2 /\ text = w1 ++ s ++ w2 /\ Value s v.

(** ** What a record should look like *)
Inductive field :=
| FText (s : list N)       (* a string *)
| FNum (n : N)             (* a number *)
| FBytes (l : list N)      (* an array of numbers *)
| FHex (l : list N)        (* hexadecimal in a string *)
| FTypes (mask : list N)   (* the set of types of an NSEC bitmap *)
| FContents (l : list N).  (* a string if it is harmless text, an array of numbers otherwise *)

Definition ShowsNum (n : N) (v : jval) : Prop := exists s, v = JNum s /\ Decimal n s.
Definition ShowsBytes (l : list N) (v : jval) : Prop := exists vs, v = JArr vs /\ Forall2 ShowsNum l vs.
Inductive HexText : list N -> list N -> Prop :=
| HexText_nil : HexText [] []
| HexText_cons b l c1 c2 h1 h2 s : hex_value c1 = Some h1 -> hex_value c2 = Some h2 -> b = 16 * h1 + h2 -> HexText l s ->
    HexText (b :: l) (c1 :: c2 :: s).
Definition mnemonics : list (N * string) :=
  [(1, "A"); (28, "AAAA"); (2, "NS"); (16, "TXT"); (5, "CNAME"); (39, "DNAME"); (52, "TLSA"); (48, "DNSKEY"); (43, "DS");
   (46, "RRSIG"); (47, "NSEC"); (50, "NSEC3")]%string.
(** A type is shown by its mnemonic if it is one of the above, otherwise by its number. *)
Definition ShowsType (ty : N) (v : jval) : Prop :=
  (exists m, In (ty, m) mnemonics /\ v = JStr (bs m)) \/ ((forall m, ~ In (ty, m) mnemonics) /\ ShowsNum ty v).
Definition type_in (mask : list N) (ty : N) : Prop := N.testbit (nth (N.to_nat (ty / 8)) mask 0) (7 - ty mod 8) = true.
(** Every type of the bitmap is listed once, and nothing else. *)
Definition ShowsTypes (mask : list N) (v : jval) : Prop :=
  exists tys vs, v = JArr vs /\ Forall2 ShowsType tys vs /\ NoDup tys /\ forall ty, In ty tys <-> type_in mask ty.
(** Unicode control characters (general category Cc). *)
Definition control (c : N) : Prop := c < 32 \/ 127 <= c < 160.
Definition harmless (l : list N) : Prop :=
  exists cs, Forall (fun c => scalar c /\ ~ control c /\ c <> 34 /\ c <> 92) cs /\ l = flat_map utf8_char cs.
Definition Shows (f : field) (v : jval) : Prop :=
  match f with
  | FText s => v = JStr s
  | FNum n => ShowsNum n v
  | FBytes l => ShowsBytes l v
  | FHex l => exists s, v = JStr s /\ HexText l s
  | FTypes m => ShowsTypes m v
  | FContents l => (harmless l /\ v = JStr l) \/ (~ harmless l /\ ShowsBytes l v)
  end.

Definition fields (r : RR) : list (string * field) :=
  match r with
  | RR_A x => [("type", FText (bs "a")); ("name", FText (a_name x)); ("address", FBytes (a_addr x))]
  | RR_AAAA x => [("type", FText (bs "aaaa")); ("name", FText (a6_name x)); ("address", FBytes (a6_addr x))]
  | RR_NS x => [("type", FText (bs "ns")); ("name", FText (nr_name x)); ("ns", FText (nr_server x))]
  | RR_Txt x => [("type", FText (bs "txt")); ("name", FText (tx_name x)); ("contents", FContents (tx_data x))]
  | RR_TLSA x => [("type", FText (bs "tlsa")); ("name", FText (tl_name x)); ("usage", FNum (tl_usage x));
                  ("selector", FNum (tl_selector x)); ("data_ty", FNum (tl_data_ty x)); ("data", FHex (tl_data x))]
  | RR_CName x => [("type", FText (bs "cname")); ("name", FText (cn_name x)); ("canonical_name", FText (cn_canonical x))]
  | RR_DName x => [("type", FText (bs "dname")); ("name", FText (dn_name x)); ("delegation_name", FText (dn_delegation x))]
  | RR_DnsKey x => [("type", FText (bs "dnskey")); ("name", FText (dk_name x)); ("flags", FNum (dk_flags x));
                    ("protocol", FNum (dk_protocol x)); ("alg", FNum (dk_alg x)); ("pubkey", FHex (dk_pubkey x))]
  | RR_DS x => [("type", FText (bs "ds")); ("name", FText (ds_name x)); ("key_tag", FNum (ds_key_tag x)); ("alg", FNum (ds_alg x));
                ("digest_type", FNum (ds_digest_type x)); ("digest", FHex (ds_digest x))]
  | RR_RRSig x => [("type", FText (bs "rrsig")); ("name", FText (rs_name x)); ("signed_record_type", FNum (rs_ty x));
                   ("alg", FNum (rs_alg x)); ("signed_labels", FNum (rs_labels x)); ("orig_ttl", FNum (rs_orig_ttl x));
                   ("expiration", FNum (rs_expiration x)); ("inception", FNum (rs_inception x)); ("key_tag", FNum (rs_key_tag x));
                   ("key_name", FText (rs_key_name x)); ("signature", FHex (rs_signature x))]
  | RR_NSec x => [("type", FText (bs "nsec")); ("name", FText (ns_name x)); ("next_name", FText (ns_next x)); ("types", FTypes (ns_types x))]
  | RR_NSec3 x => [("type", FText (bs "nsec3")); ("name", FText (n3_name x)); ("hash_algo", FNum (n3_algo x)); ("flags", FNum (n3_flags x));
                   ("hash_iterations", FNum (n3_iters x)); ("salt", FBytes (n3_salt x)); ("next_name_hash", FBytes (n3_next_hash x));
                   ("types", FTypes (n3_types x))]
  end%string.
(** [v] is an object with exactly these members. *)
Definition HasFields (fs : list (string * field)) (v : jval) : Prop :=
  exists kvs, v = JObj kvs /\ Forall2 (fun f kv => fst kv = bs (fst f) /\ Shows (snd f) (snd kv)) fs kvs.
Definition Describes (r : RR) (v : jval) : Prop := HasFields (fields r) v.
Definition is_rrsig (r : RR) : Prop := match r with RR_RRSig _ => True | _ => False end.
(** No text field of the record contains a backslash. *)
Definition no_backslash (r : RR) : Prop := forall k s, In (k, FText s) (fields r) -> ~ In 92 s.

(** The result of the WASM wrapper. *)
Definition DescribesResult (x : verified) (v : jval) : Prop :=
  exists a b c rs, v = JObj [(bs "valid_from", a); (bs "expires", b); (bs "max_cache_ttl", c); (bs "verified_rrs", JArr rs)] /\
    ShowsNum (vr_valid_from x) a /\ ShowsNum (vr_expires x) b /\ ShowsNum (vr_max_cache_ttl x) c /\ Forall2 Describes (vr_rrs x) rs.
Definition DescribesError (e : verr) (v : jval) : Prop :=
  v = JObj [(bs "error", JStr (bs (match e with UnsupportedAlgorithm => "UnsupportedAlgorithm" | Invalid => "Invalid" end)))].

(** ** What JSON makes of texts put between quotes as they are *)
Definition Reads (f : field) (v : jval) : Prop := match f with FText s => exists d, Str s d /\ v = JStr d | _ => Shows f v end.
Definition ReadsAs (r : RR) (v : jval) : Prop :=
  exists kvs, v = JObj kvs /\ Forall2 (fun f kv => fst kv = bs (fst f) /\ Reads (snd f) (snd kv)) (fields r) kvs.
Definition ReadsResult (x : verified) (v : jval) : Prop :=
  exists a b c rs, v = JObj [(bs "valid_from", a); (bs "expires", b); (bs "max_cache_ttl", c); (bs "verified_rrs", JArr rs)] /\
    ShowsNum (vr_valid_from x) a /\ ShowsNum (vr_expires x) b /\ ShowsNum (vr_max_cache_ttl x) c /\ Forall2 ReadsAs (vr_rrs x) rs.
