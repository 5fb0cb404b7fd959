(** C14: the packet author and the hops agree on the shared secrets. *)
From Verif Require Export LSphinx.

(** ** Specification

    What the hops compute, each from the public key in the packet as it reaches it and its own secret
    key: the shared secret, and the (blinded) public key it passes on. *)
Fixpoint hop_publics (pr : prims) (pub : bytes) (sks : list bytes) : list bytes :=
  match sks with
  | [] => []
  | sk :: sks' =>
      pub :: hop_publics pr (blind_kx_public pr pub (derive_kx_shared_secret pr pub sk)) sks'
  end.
Definition hop_secrets (pr : prims) (pub : bytes) (sks : list bytes) : list bytes :=
  zip_with (fun p sk => derive_kx_shared_secret pr p sk) (hop_publics pr pub sks) sks.

Lemma hop_publics_length pr pub sks : length (hop_publics pr pub sks) = length sks.
Proof. revert pub. induction sks as [|sk sks IH]; intros pub; simpl; [done|by rewrite IH]. Qed.
Lemma hop_secrets_length pr pub sks : length (hop_secrets pr pub sks) = length sks.
Proof. unfold hop_secrets. rewrite zip_with_length, hop_publics_length. lia. Qed.
Lemma hop_secrets_cons pr pub sk sks :
  hop_secrets pr pub (sk :: sks) =
    derive_kx_shared_secret pr pub sk ::
    hop_secrets pr (blind_kx_public pr pub (derive_kx_shared_secret pr pub sk)) sks.
Proof. done. Qed.

(** ** Proof *)
Section proof.
  Context (pr : prims) (Hok : prims_ok pr).

  Notation base := (pr_mont_base pr).
  Notation mul := (pr_mont_mul pr).

  Lemma group_order_nonzero : GROUP_ORDER ≠ 0%N.
  Proof. unfold GROUP_ORDER. lia. Qed.

  Lemma mul_base_mod_mul a b :
    mul base ((a * (b mod GROUP_ORDER)) mod GROUP_ORDER)%N = mul base (a * b)%N.
  Proof.
    rewrite N.mul_mod_idemp_r by apply group_order_nonzero. apply (mont_mul_base_mod _ Hok).
  Qed.

  (** the secret the hop derives, when the public key is a multiple of the base point *)
  Lemma shared_secret_eq n sk :
    derive_kx_shared_secret pr (mul base n) sk = mul (derive_kx_public pr sk) n.
  Proof.
    unfold derive_kx_shared_secret, derive_kx_public, mul_base_clamped, mul_clamped.
    rewrite !(mont_mul_base_mul _ Hok). f_equal. lia.
  Qed.
  Lemma blind_eq n s :
    blind_kx_public pr (mul base n) s =
      mul base ((n * scalar_from_bytes_mod_order
                       (clamp_integer (derive_kx_blinding_factor pr (mul base n) s)))
                  mod GROUP_ORDER)%N.
  Proof.
    unfold blind_kx_public, mul_clamped, scalar_from_bytes_mod_order.
    rewrite mul_base_mod_mul. by rewrite (mont_mul_base_mul _ Hok).
  Qed.

  (** The loop from its second iteration on: [s] is the last secret pushed; the loop's public key
      lags one behind. *)
  Lemma gen_kx_loop_spec sks : forall i kpub n secrets s,
    0 < i -> (i = 1 -> kpub = mul base n) -> list.last secrets = Some s ->
    length secrets + length sks ≤ MAX_HOPS ->
    gen_kx_loop pr i kpub n secrets (map (derive_kx_public pr) sks) =
      Val (secrets ++ hop_secrets pr (blind_kx_public pr (mul base n) s) sks).
  Proof.
    induction sks as [|sk sks IH]; intros i kpub n secrets s Hi H1 Hs Hlen; cbn [map gen_kx_loop].
    { by rewrite app_nil_r. }
    destruct (decide (i ≠ 0)) as [_|Hn]; [|lia].
    set (kpub' := if decide (i ≠ 1) then mul base n else kpub).
    assert (Ek : kpub' = mul base n).
    { unfold kpub'. destruct (decide (i ≠ 1)); [done|]. apply H1. lia. }
    rewrite Hs. cbn [expect out_bind]. rewrite Ek.
    set (n' := ((n * _) mod _)%N).
    assert (En : blind_kx_public pr (mul base n) s = mul base n') by (subst n'; apply blind_eq).
    unfold av_push. destruct (decide (length secrets < MAX_HOPS)) as [_|Hn];
      [|cbn [length] in Hlen; lia].
    cbn [out_bind].
    rewrite (IH _ _ _ _ (mul (derive_kx_public pr sk) n')); [|lia|lia| |].
    - rewrite <- app_assoc. f_equal. f_equal. cbn [app]. rewrite hop_secrets_cons.
      rewrite En. by rewrite shared_secret_eq.
    - by rewrite last_snoc.
    - rewrite app_length. cbn [length] in *. lia.
  Qed.

  (** Both ends agree, at every hop, for every path of at most [MAX_HOPS] hops. The public key that
      reaches the hop number [i] is by definition the [i]-th blinded key. *)
  Theorem C14_key_agreement (sks : list bytes) (r : rng) :
    length sks ≤ MAX_HOPS ->
    exists pub r',
      gen_kx_public_and_shared_secrets pr (map (derive_kx_public pr) sks) r =
        Val (pub, hop_secrets pr pub sks, r') /\
      pub = derive_kx_public pr (gen_kx_secret r).1 /\ r' = (gen_kx_secret r).2.
  Proof.
    intros Hlen. unfold gen_kx_public_and_shared_secrets.
    destruct (gen_kx_secret r) as [secret r'] eqn:Er.
    exists (derive_kx_public pr secret), r'. split; [|done].
    set (n := scalar_from_bytes_mod_order (clamp_integer secret)).
    assert (Hp : derive_kx_public pr secret = mul base n).
    { unfold n, scalar_from_bytes_mod_order. by rewrite (mont_mul_base_mod _ Hok). }
    destruct sks as [|sk sks]; [done|].
    cbn [map gen_kx_loop]. destruct (decide (0 ≠ 0)) as [?|_]; [lia|]. cbn [out_bind].
    unfold av_push. destruct (decide _) as [_|Hn]; [|destruct Hn; cbn; szlia]. cbn [out_bind app].
    rewrite (gen_kx_loop_spec _ _ _ _ _ (mul (derive_kx_public pr sk) n)); [|lia|done|done|].
    - cbn [out_bind app]. rewrite hop_secrets_cons.
      rewrite Hp. by rewrite shared_secret_eq.
    - cbn [length] in *. lia.
  Qed.
End proof.

Print Assumptions C14_key_agreement.
