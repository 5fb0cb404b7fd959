(** A concrete case of C82. *)
From Coq Require Import Reals Lra.
From Flocq Require Import Core.Core IEEE754.BinarySingleNaN.
From Verif Require Import PShare PRateEx PExample.
Local Open Scope R_scope.

(** Two sessions, of which one is to send every second and the other every tenth of a second: each sends half as often,
    and a quarter of it loop cover. *)
Example C82_example :
  exists hist m s0 s1 mean, sane (ex_config 8) /\ reachable toy_prims (ex_config 8) hist m /\
    ss_get (mx_sessions m) RCurrent = SlFull s0 /\ ss_get (mx_sessions m) RPrev = SlFull s1 /\
    mean_spec m mean /\ mean = 2 / 11 /\ pace m = 1 / 2 /\
    secs (se_mean_period s0) = 1 /\ secs (se_mean_period s1) = 1 / 10 /\
    f_real (cf_loop_cover_proportion (ex_config 8)) = 1 / 4.
Proof.
  destruct ex_two_sessions as (hist & m & s0 & s1 & Hr & H0 & H1 & [P0 P1] & _).
  exists hist, m, s0, s1. eexists. split; [apply ex_sane|]. split; [exact Hr|]. split; [exact H0|]. split; [exact H1|].
  split; [by apply MsTwo|]. rewrite P0, P1. unfold secs, GIGA. cbn [Z.of_N].
  split; [field|]. split.
  { unfold pace. cbn in H0, H1. by rewrite H0, H1. }
  split; [lra|]. split; [lra|]. unfold f_real. cbn [cf_loop_cover_proportion ex_config].
  replace (cf_loop_cover_proportion default_config) with (SpecFloat.S754_finite false 4503599627370496 (-54)) by (by vm_compute).
  unfold BinarySingleNaN.SF2R, Defs.F2R. cbn [Defs.Fnum Defs.Fexp Zaux.cond_Zopp].
  change (Raux.bpow Zaux.radix2 (-54)) with (/ IZR (2 ^ 54)). change (2 ^ 54)%Z with 18014398509481984%Z. lra.
Qed.
