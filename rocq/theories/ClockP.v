(** Proofs of C73: a clock inside the reported window. *)
From Verif Require Import Base NameM RRM SerM ValM NameSpec RecSpec ValSpec ValP3 TimeSpec TimeP ClockSpec.
From Coq Require Import Lia.
Local Open Scope N_scope.

Ltac nums := change (2 ^ 32) with 4294967296 in *; change (2 ^ 31) with 2147483648 in *; change (27 * 365 * 86400) with 851472000 in *.

Lemma held_times s : Held (RR_RRSig s) -> rs_inception s < 2 ^ 32 /\ rs_expiration s < 2 ^ 32.
Proof. unfold Held. cbn. intros H. repeat match goal with H : _ /\ _ |- _ => destruct H end. unfold is_u32 in *. nums. auto. Qed.

Lemma instant t : t < 2 ^ 32 -> exists x, stands_for t x /\ in_window x /\ resolve_time t = if x <? 2 ^ 32 then x else x - 1.
Proof. intros H. destruct (resolve_partial t H) as (x & A & B & _ & C). exists x. auto. Qed.

(** Serial comparison of two instants of the window at most 2^32 apart. *)
Lemma serial_apart x y : in_window x -> in_window y -> x <= y -> (serial_le (x mod 2 ^ 32) (y mod 2 ^ 32) <-> y - x < 2 ^ 31).
Proof.
  intros Wx Wy L. unfold serial_le, serial_lt.
  destruct (window_mod x Wx) as [[A B]|[A B]], (window_mod y Wy) as [[C D]|[C D]]; rewrite B, D; clear B D;
    unfold in_window in *; nums; lia.
Qed.

Lemma resolved_in_window t : t < 2 ^ 32 -> in_window (resolve_time t).
Proof.
  intros H. destruct (instant t H) as (x & _ & W & ->). unfold in_window in *. destruct (N.ltb_spec x (2 ^ 32)); nums; lia.
Qed.

Lemma current_in s now : rs_inception s < 2 ^ 32 -> rs_expiration s < 2 ^ 32 -> Expressible s ->
  resolve_time (rs_inception s) <= now <= resolve_time (rs_expiration s) ->
  (now < 2 ^ 32 - 1 \/ resolve_time (rs_inception s) < now) -> Current now s.
Proof.
  intros Hi He X [L1 L2] C.
  assert (Wn : in_window now).
  { pose proof (resolved_in_window _ Hi) as A. pose proof (resolved_in_window _ He) as B. unfold in_window in *. lia. }
  destruct (instant _ Hi) as (x & Sx & Wx & Ex), (instant _ He) as (y & Sy & Wy & Ey). rewrite Ex in *. rewrite Ey in *.
  unfold Current, Expressible, stands_for in *. rewrite <- Sx, <- Sy in *.
  assert (A : x <= now <= y) by (destruct (N.ltb_spec x (2 ^ 32)), (N.ltb_spec y (2 ^ 32)); nums; lia).
  apply serial_apart in X; [|assumption|assumption|lia].
  split; apply serial_apart; auto; lia.
Qed.

Lemma within_iff s now : rs_inception s < 2 ^ 32 -> rs_expiration s < 2 ^ 32 -> now < 2 ^ 32 - 1 ->
  (resolve_time (rs_inception s) <= now <= resolve_time (rs_expiration s) <-> Within now s).
Proof.
  intros Hi He C. unfold Within. split.
  - intros [L1 L2]. destruct (instant _ Hi) as (x & Sx & Wx & Ex), (instant _ He) as (y & Sy & Wy & Ey).
    exists x, y. repeat split; try apply Sx; try apply Sy; try apply Wx; try apply Wy;
      rewrite Ex, Ey in *; destruct (N.ltb_spec x (2 ^ 32)), (N.ltb_spec y (2 ^ 32)); nums; lia.
  - intros (x & y & Sx & Wx & Sy & Wy & L1 & L2). rewrite (resolve_off _ x Sx Wx), (resolve_off _ y Sy Wy).
    destruct (N.ltb_spec x (2 ^ 32)), (N.ltb_spec y (2 ^ 32)); nums; lia.
Qed.

Section V.
  Variables (e : env) (dbg : bool) (fuel : nat) (inp : list RR) (v : verified).
  Hypothesis Hh : Forall Held inp.
  Hypothesis Hok : verify_rr_stream e dbg fuel inp = Ok v.

  Lemma used_times s : In (RR_RRSig s) inp -> rs_inception s < 2 ^ 32 /\ rs_expiration s < 2 ^ 32.
  Proof. intros H. apply held_times. rewrite Forall_forall in Hh. auto. Qed.

  Lemma window_current now : (forall s, In (RR_RRSig s) inp -> Expressible s) -> vr_valid_from v <= now <= vr_expires v ->
    (now < 2 ^ 32 - 1 \/ vr_valid_from v < now) -> forall r, In r (vr_rrs v) -> Authentic e inp (Current now) r.
  Proof.
    intros X [L1 L2] C r Hr. destruct (verified_window e dbg fuel inp v Hh Hok) as (used & _ & U & A & [_ M1] & [_ M2] & _).
    eapply authentic_mono; [|exact (A r Hr)]. cbn. intros s Hs. rewrite Forall_map, Forall_forall in M1, M2.
    specialize (M1 s Hs). specialize (M2 s Hs). destruct (U s Hs) as [Hin _]. destruct (used_times s Hin) as [Hi He].
    apply current_in; auto; lia.
  Qed.

  Lemma window_exact : exists used, used <> [] /\ (forall s, In s used -> In (RR_RRSig s) inp /\
      exists z k, TrustedZone e inp (fun x => In x used) z /\ In (RR_DnsKey k) (rrset inp z 48) /\
        SigBy e k s (rrset inp (rs_name s) (rs_ty s))) /\
    (forall r, In r (vr_rrs v) -> Authentic e inp (fun x => In x used) r) /\
    forall now, now < 2 ^ 32 - 1 -> (vr_valid_from v <= now <= vr_expires v <-> forall s, In s used -> Within now s).
  Proof.
    destruct (verified_window e dbg fuel inp v Hh Hok) as (used & N0 & U & A & [I1 M1] & [I2 M2] & _).
    exists used. repeat (split; auto); intros.
    - apply within_iff; auto; try apply used_times, U; auto. rewrite Forall_map, Forall_forall in M1, M2.
      specialize (M1 s H1). specialize (M2 s H1). cbn in *. lia.
    - apply in_map_iff in I1 as (s & <- & Hs). apply (within_iff s now); auto; apply used_times, U; auto.
    - apply in_map_iff in I2 as (s & <- & Hs). apply (within_iff s now); auto; apply used_times, U; auto.
  Qed.
End V.
