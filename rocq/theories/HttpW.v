(** Witnesses for the HTTP front end: a request whose header contains a two-byte character. *)
From Verif Require Import Base BaseP NameSpec NameM JsonM HttpM TextSpec HttpSpec HttpP.
From Coq Require Import String Lia.
Local Open Scope N_scope.

Definition h_line : list N := bs "GET /dnssecproof?d=A.Example.&x=1&t=tXt HTTP/1.1".
Definition h_prove (n : list N) (ty : N) : option (list N * N) :=
  if bytes_eqb n (bs "a.example.") && (ty =? 16) then Some ([1; 2; 3], 3600) else None.
Definition h_rest : list N := bs "User: ".
(** "User: é" in one segment, and with the segment boundary inside the character. *)
Definition h_whole : list sock_event := [SData (h_line ++ [13; 10] ++ h_rest ++ [195; 169])].
Definition h_split : list sock_event := [SData (h_line ++ [13; 10] ++ h_rest ++ [195]); SData [169]].

Lemma h_asks : AsksFor h_line (bs "a.example.") 16.
Proof.
  exists (bs "A.Example."), (bs "tXt"). split; [| split; [| split; [reflexivity | left; split; reflexivity]]].
  - exists [(bs "d", bs "A.Example."); (bs "x", bs "1"); (bs "t", bs "tXt")], (bs "HTTP/1.1").
    split; [right; reflexivity |]. split; [discriminate |]. split; [| split; [reflexivity | split; reflexivity]].
    repeat constructor; discriminate.
  - exists [bs "A"; bs "Example"]. split; [discriminate |]. split; [reflexivity |]. split; [| cbn; lia].
    repeat constructor; try discriminate; cbn; lia.
Qed.
Lemma h_first : FirstLine (first_4096 h_split) h_line.
Proof.
  split; [exists (h_rest ++ [195; 169]); reflexivity |]. apply has_crlf_false. reflexivity.
Qed.

Lemma segments_refuted : ~ (forall prove evs evs', delivered evs = delivered evs' -> serve prove evs = serve prove evs').
Proof. intros H. specialize (H h_prove h_whole h_split eq_refl). vm_compute in H. discriminate. Qed.

Lemma complete_refuted : ~ (forall prove evs line n ty p ttl, FirstLine (first_4096 evs) line -> AsksFor line n ty ->
  prove n ty = Some (p, ttl) -> serve prove evs = Some (Proof p ttl)).
Proof.
  intros H. specialize (H h_prove h_split h_line (bs "a.example.") 16 [1; 2; 3] 3600 h_first h_asks eq_refl). vm_compute in H. discriminate.
Qed.
