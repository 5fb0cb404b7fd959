(** C82: the rates at which a node sends the packets of each session, and of each kind. *)
From Coq Require Import Reals Lra Psatz.
From Verif Require Export PRate PCalls.
From Verif Require Import LBase.
Local Open Scope R_scope.

(** ** Specification *)

(** The fraction of its rate at which a session sends: all of it if it is the only one, and half of it if there are two,
    or should be. *)
Definition pace (m : mixnet) : R :=
  match ss_current (mx_sessions m), ss_prev (mx_sessions m) with
  | SlFull _, SlFull _ => 1 / 2
  | _, _ => if decide (st_phase (mx_status m) = PDisconnectFromPrev) then 1 else 1 / 2
  end.
(** A choice between two by a random number: of the 2^64 numbers, [T] choose the first. *)
Definition first_of (T d : N) : bool := (d <? T)%N.
Definition share (T : N) (first : bool) : R :=
  if first then IZR (Z.of_N T) / IZR (2 ^ 64) else 1 - IZR (Z.of_N T) / IZR (2 ^ 64).
(** What is sent, given the session and whether a loop cover packet was chosen. *)
Definition dispatched (pr : prims) (cf : config) (m : mixnet) (ns : network_status) (rel : rel_session_index)
    (s : session) (loop : bool) (p : option addressed_packet) : Prop :=
  match loop, aq_queue (se_authored s) with
  | false, q :: _ =>
      if decide (phase_allows (st_phase (mx_status m)) rel) then p = Some q else sends_cover pr cf s ns false p
  | _, _ => sends_cover pr cf s ns loop p
  end.

(** ** Proof *)
Lemma share_bounds T b : (T <= 2 ^ 64)%N -> 0 <= share T b <= 1.
Proof.
  intros HT. assert (H : 0 <= IZR (Z.of_N T) / IZR (2 ^ 64) <= 1).
  { assert (0 < IZR (2 ^ 64)) by (by apply (IZR_lt 0)).
    assert (0 <= IZR (Z.of_N T)) by (apply (IZR_le 0); lia).
    assert (IZR (Z.of_N T) <= IZR (2 ^ 64)) by (apply IZR_le; lia).
    split; [apply Rmult_le_pos; [done|left; by apply Rinv_0_lt_compat]|].
    apply (Rmult_le_reg_r (IZR (2 ^ 64))); [done|]. unfold Rdiv. rewrite Rmult_assoc, Rinv_l by lra. lra. }
  destruct b; cbn; lra.
Qed.
Lemma share_all : share (2 ^ 64) true = 1.
Proof. unfold share. change (Z.of_N (2 ^ 64)) with (2 ^ 64)%Z. field. apply not_eq_sym, Rlt_not_eq. by apply (IZR_lt 0). Qed.
Lemma share_none b : share 0 b = if b then 0 else 1.
Proof. destruct b; cbn; lra. Qed.

Section share.
  Context (pr : prims) (Hok : prims_ok pr) (cf : config).

  Definition is_current (rel : rel_session_index) : bool := match rel with RCurrent => true | RPrev => false end.

  (** The session is chosen by the first draw. *)
  Lemma pick_share m :
    (forall rel s, ss_get (mx_sessions m) rel = SlFull s -> plain_period s) ->
    (exists rel s, ss_get (mx_sessions m) rel = SlFull s) ->
    exists T, (T <= 2 ^ 64)%N /\
      (forall r, exists rel s r', pick_session m r = Val (Some (rel, s), r') /\
         is_current rel = first_of T ((rng_draw r).1 mod 2 ^ 64) /\
         (r' = (rng_draw r).2 \/ r' = r /\ (T = 0%N \/ T = (2 ^ 64)%N))) /\
      forall rel s mean, ss_get (mx_sessions m) rel = SlFull s -> mean_spec m mean ->
        0 < mean /\ Rabs (share T (is_current rel) / mean - pace m * / secs (se_mean_period s)) <= / mean * / IZR (2 ^ 48).
  Proof.
    intros Hp Hex.
    assert (Hpos : forall rel s, ss_get (mx_sessions m) rel = SlFull s -> 0 < secs (se_mean_period s)).
    { intros rel s Hs. destruct (secs_fin _ (Hp _ _ Hs)) as (_ & _ & H & _). unfold GIGA in H. lra. }
    assert (H48 : 0 < / IZR (2 ^ 48)) by (apply Rinv_0_lt_compat; by apply (IZR_lt 0)).
    assert (Hlt : forall r, ((rng_draw r).1 mod 2 ^ 64 < 2 ^ 64)%N) by (intros r; apply N.mod_lt; done).
    (* one session *)
    assert (Hone : forall rel s, ss_get (mx_sessions m) rel = SlFull s ->
       (forall rel' s', ss_get (mx_sessions m) rel' = SlFull s' -> rel' = rel) ->
       (forall r, pick_session m r = Val (Some (rel, s), r)) ->
       pace m = (if decide (st_phase (mx_status m) = PDisconnectFromPrev) then 1 else 1 / 2) ->
       exists T, (T <= 2 ^ 64)%N /\
      (forall r, exists rel s r', pick_session m r = Val (Some (rel, s), r') /\
         is_current rel = first_of T ((rng_draw r).1 mod 2 ^ 64) /\
         (r' = (rng_draw r).2 \/ r' = r /\ (T = 0%N \/ T = (2 ^ 64)%N))) /\
      forall rel s mean, ss_get (mx_sessions m) rel = SlFull s -> mean_spec m mean ->
        0 < mean /\ Rabs (share T (is_current rel) / mean - pace m * / secs (se_mean_period s)) <= / mean * / IZR (2 ^ 48)).
    { intros rel s Hs Hu Hpick Hpace. exists (if is_current rel then 2 ^ 64 else 0)%N. split; [by destruct rel|]. split.
      - intros r. exists rel, s, r. split; [done|]. split; [|right; split; [done|by destruct rel; [right|left]]].
        unfold first_of. destruct rel; cbn [is_current].
        + symmetry. apply N.ltb_lt, Hlt.
        + symmetry. apply N.ltb_ge. apply N.le_0_l.
      - intros rel' s' mean Hs' Hmean. pose proof (Hu _ _ Hs') as ->. rewrite Hs in Hs'. injection Hs' as <-.
        pose proof (Hpos _ _ Hs) as Hps.
        assert (Hsh : share (if is_current rel then 2 ^ 64 else 0) (is_current rel) = 1).
        { destruct rel; [apply share_all|apply (share_none false)]. }
        rewrite Hsh. destruct Hmean as [s0 s1 E0 E1|rel1 s1 E1 Hu1].
        { pose proof (Hu _ _ E0) as H0. pose proof (Hu _ _ E1) as H1. congruence. }
        pose proof (Hu _ _ E1) as ->. rewrite Hs in E1. injection E1 as <-. rewrite Hpace.
        destruct (decide _).
        + split; [done|]. replace (1 / _ - _) with 0 by (field; lra). rewrite Rabs_R0.
          apply Rmult_le_pos; [left; by apply Rinv_0_lt_compat|lra].
        + assert (Hm : / ((/ secs (se_mean_period s) + 0) / 2) = 2 * secs (se_mean_period s)) by (field; lra).
          rewrite Hm. split; [lra|]. replace (1 / _ - _) with 0 by (field; lra). rewrite Rabs_R0.
          apply Rmult_le_pos; [left; apply Rinv_0_lt_compat; lra|lra]. }
    destruct (ss_current (mx_sessions m)) as [| | |s0] eqn:E0, (ss_prev (mx_sessions m)) as [| | |s1] eqn:E1.
    all: try (exfalso; destruct Hex as ([] & s & Hs); cbn in Hs; congruence).
    all: try (match type of E0 with _ = SlFull ?x => apply (Hone RCurrent x E0) end; [intros [] s' H; [done|cbn in H; congruence]|
      intros r; unfold pick_session, ss_enumerate; rewrite E0, E1; done|unfold pace; rewrite E0, ?E1; done]).
    all: try (match type of E1 with _ = SlFull ?x => apply (Hone RPrev x E1) end; [intros [] s' H; [cbn in H; congruence|done]|
      intros r; unfold pick_session, ss_enumerate; rewrite E0, E1; done|unfold pace; rewrite E0, ?E1; done]).
    clear Hone. destruct (C52_pick m s0 s1 E0 E1 (Hp RCurrent _ E0) (Hp RPrev _ E1)) as (T & HT & Herr & Hpick). cbv zeta in Herr.
    exists T. split; [done|]. split.
    - intros r. destruct (Hpick r) as (r' & E & Hr'). rewrite E. unfold first_of.
      destruct (_ <? T)%N; [exists RCurrent, s0, r'|exists RPrev, s1, r'].
      all: split; [done|]; split; [done|]; destruct Hr' as [->|[-> ->]]; [by left|by right; split; [|right]].
    - intros rel s mean Hs Hmean. pose proof (Hpos RCurrent _ E0) as P0. pose proof (Hpos RPrev _ E1) as P1.
      assert (Em : mean = / ((/ secs (se_mean_period s0) + / secs (se_mean_period s1)) / 2)).
      { destruct Hmean as [s0' s1' H0 H1|rel1 s' H Hu]; [cbn in H0, H1; congruence|].
        pose proof (Hu RCurrent _ E0) as A. pose proof (Hu RPrev _ E1) as B. congruence. }
      unfold pace. rewrite E0, E1.
      set (a := / secs (se_mean_period s0)) in *. set (b := / secs (se_mean_period s1)) in *.
      assert (Ha : 0 < a) by (by apply Rinv_0_lt_compat). assert (Hb : 0 < b) by (by apply Rinv_0_lt_compat).
      assert (Hi : / mean = (a + b) / 2) by (subst mean; field; lra).
      split; [subst mean; apply Rinv_0_lt_compat; lra|].
      unfold Rdiv at 1. rewrite Hi.
      assert (Hbd : forall x, Rabs (x - a / (a + b)) < / IZR (2 ^ 48) ->
         Rabs (x * ((a + b) / 2) - 1 / 2 * a) <= (a + b) / 2 * / IZR (2 ^ 48)).
      { intros x Hx. replace (x * ((a + b) / 2) - 1 / 2 * a) with ((a + b) / 2 * (x - a / (a + b))) by (field; lra).
        rewrite Rabs_mult, (Rabs_pos_eq ((a + b) / 2)) by lra. apply Rmult_le_compat_l; lra. }
      destruct rel; cbn in Hs; cbn [is_current share].
      + rewrite E0 in Hs. injection Hs as <-. fold a. by apply Hbd.
      + rewrite E1 in Hs. injection Hs as <-. fold b. specialize (Hbd _ Herr).
        set (x := IZR (Z.of_N T) / IZR (2 ^ 64)) in *.
        replace ((1 - x) * ((a + b) / 2) - 1 / 2 * b) with (- (x * ((a + b) / 2) - 1 / 2 * a)) by field.
        by rewrite Rabs_Ropp.
  Qed.

  (** A call that sends a packet decides by one draw for which session it is, and by another whether it is a loop cover
      packet, and the numbers of draws for each are such that each session sends at its pace, and sends loop cover
      packets in the configured proportion. *)
  Theorem C82_rates hist m :
    sane cf -> reachable pr cf hist m -> (exists rel s, ss_get (mx_sessions m) rel = SlFull s) ->
    exists T P, (T <= 2 ^ 64)%N /\ (P <= 2 ^ 64)%N /\
      (forall ns r, length (ns_local_peer_id ns) = 32%nat ->
        exists rel s r' m' p,
          ss_get (mx_sessions m) rel = SlFull s /\
          is_current rel = first_of T ((rng_draw r).1 mod 2 ^ 64) /\
          (r' = (rng_draw r).2 \/ r' = r /\ (T = 0%N \/ T = (2 ^ 64)%N)) /\
          exec pr m (CallPopAuthored ns r) = Val (m', RespPacket p) /\
          dispatched pr cf m ns rel s (first_of P ((rng_draw r').1 mod 2 ^ 64)) p) /\
      forall rel s mean loop, ss_get (mx_sessions m) rel = SlFull s -> mean_spec m mean ->
        let wanted := f_real (cf_loop_cover_proportion cf) in
        0 < mean /\
        Rabs (share T (is_current rel) * share P loop / mean -
              pace m * / secs (se_mean_period s) * (if loop then wanted else 1 - wanted)) <= / mean * / IZR (2 ^ 47).
  Proof.
    intros Hsane Hreach Hex. pose proof (reachable_ok pr Hok cf _ _ Hreach) as Hm.
    assert (Hplain : forall rel s, ss_get (mx_sessions m) rel = SlFull s -> plain_period s).
    { intros rel s Hs. destruct (sess_sane _ _ _ Hsane (mx_ok_full _ _ _ _ _ Hm Hs)) as [[H1 H2] _].
      split; [done|]. eapply N.le_lt_trans; [exact H2|]. done. }
    destruct (pick_share m Hplain Hex) as (T & HT & Hpick & Hrate).
    assert (Hin : f_in 0 1 (cf_loop_cover_proportion cf)).
    { eapply in_weaken; [| |apply (sa_loop _ Hsane)]; lra. }
    destruct (gen_bool_spec _ Hin) as (P & HP & HPe & Hgen).
    exists T, P. split; [done|]. split; [done|]. split.
    - intros ns r Hns. destruct (Hpick r) as (rel & s & r' & Ep & Hc & Hr').
      assert (exists m' p, exec pr m (CallPopAuthored ns r) = Val (m', RespPacket p)) as (m' & p & He).
      { pose proof (C52_no_panic pr Hok cf hist m ns r Hsane Hreach Hns) as Hnp. cbn [exec] in Hnp |- *.
        destruct (pop_next_authored_packet pr m ns r) as [[m' p]|]; [by exists m', p|done]. }
      destruct (C39_pop pr Hok cf (proj1 Hreach) m ns r m' p Hm Hns He) as [(Hno & _)|(rel0 & s0 & r1 & loop & r2 & Ep0 & Hs0 & Hg & Hd)].
      { destruct Hex as (rel0 & s0 & H0). by destruct (Hno rel0 s0). }
      rewrite Ep in Ep0. injection Ep0 as <- <- <-.
      destruct (Hgen r') as (r3 & Hg' & _). rewrite Hg in Hg'. injection Hg' as -> _.
      exists rel, s, r', m', p. split; [done|]. split; [done|]. split; [done|]. split; [done|].
      unfold dispatched, first_of. destruct (_ <? P)%N; [by destruct Hd|].
      destruct (aq_queue (se_authored s)); [by destruct Hd|]. destruct (decide _); by destruct Hd.
    - intros rel s mean loop Hs Hmean. cbv zeta. destruct (Hrate rel s mean Hs Hmean) as [Hpos Herr]. split; [done|].
      set (S := share T (is_current rel)) in *. set (w := f_real _) in *.
      set (R0 := pace m * / secs (se_mean_period s)) in *.
      set (L := if loop then w else 1 - w).
      assert (HS : 0 <= S <= 1) by (by apply share_bounds).
      assert (HL : 0 <= L <= 1) by (destruct Hin as [_ [H1 H2]]; fold w in H1, H2; unfold L; destruct loop; lra).
      assert (HPL : Rabs (share P loop - L) <= / TWO64).
      { unfold L, share. destruct loop; [exact HPe|]. unfold TWO64 in HPe |- *.
        replace (1 - _ - (1 - w)) with (- (IZR (Z.of_N P) / IZR (2 ^ 64) - w)) by ring. by rewrite Rabs_Ropp. }
      replace (S * share P loop / mean - R0 * L) with (S / mean * (share P loop - L) + (S / mean - R0) * L) by (field; lra).
      assert (Hi : 0 < / mean) by (by apply Rinv_0_lt_compat).
      assert (H1 : Rabs (S / mean * (share P loop - L)) <= / mean * / TWO64).
      { assert (HSm : 0 <= S / mean) by (apply Rmult_le_pos; lra). rewrite Rabs_mult, (Rabs_pos_eq _ HSm).
        apply Rmult_le_compat; [done|apply Rabs_pos| |done]. unfold Rdiv. rewrite <- (Rmult_1_l (/ mean)) at 2.
        apply Rmult_le_compat_r; lra. }
      assert (H2 : Rabs ((S / mean - R0) * L) <= / mean * / IZR (2 ^ 48)).
      { rewrite Rabs_mult, (Rabs_pos_eq L) by lra. rewrite <- (Rmult_1_r (/ mean * _)).
        apply Rmult_le_compat; [apply Rabs_pos|lra|done|lra]. }
      eapply Rle_trans; [apply Rabs_triang|]. eapply Rle_trans; [apply Rplus_le_compat; [exact H1|exact H2]|].
      rewrite <- Rmult_plus_distr_l. apply Rmult_le_compat_l; [lra|]. unfold TWO64.
      change (2 ^ 64)%Z with 18446744073709551616%Z. change (2 ^ 48)%Z with 281474976710656%Z.
      change (2 ^ 47)%Z with 140737488355328%Z. lra.
  Qed.
End share.
Print Assumptions C82_rates.
