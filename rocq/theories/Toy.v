(** A concrete instance of the third-party primitives, showing that the laws [prims_ok] assumed of
    them are satisfiable, and used to run the model in the examples. It is of course not secure; the
    key exchange is the additive group modulo the order of the base point. *)
From Verif Require Export Prims LBase.
Local Open Scope N_scope.

Definition toy_sum (b : bytes) : N := foldl (fun acc x => (acc * 31 + x + 1) mod 65521) 7 b.
Definition toy_prims : prims := {|
  pr_blake2b n key salt personal msg :=
    let h := toy_sum (key ++ [1] ++ salt ++ [2] ++ personal ++ [3] ++ msg) in
    map (fun i => (h * (N.of_nat i + 3) / 7 + N.of_nat i) mod 256) (seq 0 n);
  pr_chacha20 key nonce i := let h := toy_sum (key ++ nonce) in (h * (N.of_nat i + 5) / 11) mod 256;
  pr_lioness_encrypt key p := let h := toy_sum key in map (fun b => N.lxor b (h mod 256)) p;
  pr_lioness_decrypt key p := let h := toy_sum key in map (fun b => N.lxor b (h mod 256)) p;
  pr_mont_mul p n := to_le 32 ((from_le p * n) mod GROUP_ORDER);
  pr_mont_base := to_le 32 1;
  pr_exp1 seed := f_div (f_of_N (toy_sum seed)) (f_of_N 1024)
|}.

Lemma toy_from_to n : from_le (to_le 32 (n mod GROUP_ORDER)) = n mod GROUP_ORDER.
Proof.
  rewrite from_le_to_le. apply N.mod_small.
  eapply N.lt_trans; [apply N.mod_lt; unfold GROUP_ORDER; lia|].
  unfold GROUP_ORDER. vm_compute. done.
Qed.

Theorem toy_prims_ok : prims_ok toy_prims.
Proof.
  assert (Hx : forall h (p : bytes), map (fun b => N.lxor b h) (map (fun b => N.lxor b h) p) = p).
  { intros h p. rewrite map_map. rewrite <- (map_id p) at 2. apply map_ext. intros b.
    rewrite N.lxor_assoc, N.lxor_nilpotent. apply N.lxor_0_r. }
  constructor; intros; cbn [toy_prims pr_blake2b pr_lioness_encrypt pr_lioness_decrypt pr_mont_mul pr_mont_base];
    cbv zeta.
  - by rewrite map_length, seq_length.
  - by rewrite map_length.
  - by rewrite map_length.
  - apply Hx.
  - apply Hx.
  - apply to_le_length.
  - rewrite toy_from_to. change (from_le (to_le 32 1)) with 1.
    rewrite N.mul_mod_idemp_l by (unfold GROUP_ORDER; lia). f_equal. f_equal. lia.
  - change (from_le (to_le 32 1)) with 1. rewrite !N.mul_1_l.
    rewrite N.mod_mod by (unfold GROUP_ORDER; lia). done.
Qed.
