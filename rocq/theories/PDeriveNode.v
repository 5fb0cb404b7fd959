(** C63, continued: the secrets that a node derives when it gets a packet. *)
From Verif Require Export PNode.
From Verif Require PDerive.
Import PDerive(purpose, ForMac, ForActions, ForDelay, ForPayload, ForBlinding, ForReplay, purpose_ok, size_for, source,
  derived, byte_hash, hash).

(** ** Specification *)

(** What the secret shared with the sender of packet [p] is used for in a session. *)
Definition used_for (s : session) (p : bytes) : list purpose :=
  [ForMac; ForActions; ForDelay; ForPayload; ForBlinding (take 32 p); ForReplay (rf_key (se_filter s))].

Section node.
  Context (pr : prims) (Hok : prims_ok pr) (cf : config).

  (** The secret, the key in the packet and the key of the replay filter have 32 bytes, so the hash takes them (none of
      its calls is beyond the limits) and gives all bytes that are used; the tag looked up in the filter is made of them too. *)
  Theorem C63_node hist m rel s p u :
    byte_hash pr -> reachable pr cf hist m -> ss_get (mx_sessions m) rel = SlFull s -> length p = N.to_nat 2252 ->
    u ∈ used_for s p ->
    length (shared pr s p) = 32 /\ purpose_ok u /\
    length (derived pr u (shared pr s p)) = size_for u /\
    (forall j, j < size_for u ->
       PDerive.fits (source u (shared pr s p) j).1 /\
       exists x, derived pr u (shared pr s p) !! j = Some x /\
         hash pr (source u (shared pr s p) j).1 !! (source u (shared pr s p) j).2 = Some x) /\
    to_le 4 (rt_base (tag_of pr s p)) ++ to_le 4 (rt_inc (tag_of pr s p)) =
      derived pr (ForReplay (rf_key (se_filter s))) (shared pr s p).
  Proof.
    intros Hb Hr Hs Hp Hu. pose proof (reachable_ok pr Hok _ _ _ Hr) as Hm. pose proof (mx_ok_full _ _ _ _ _ Hm Hs) as Hss.
    assert (Hlen : length (shared pr s p) = 32) by apply (mont_mul_length _ Hok).
    assert (Hpu : purpose_ok u).
    { unfold used_for in Hu. rewrite !elem_of_cons, elem_of_nil in Hu.
      destruct Hu as [->|[->|[->|[->|[->|[->|[]]]]]]]; cbn [purpose_ok PDerive.purpose_ok]; try exact I.
      - rewrite take_length. lia.
      - apply Hss. }
    destruct (PDerive.C63_derived pr Hok u (shared pr s p) Hb Hlen Hpu) as [H1 H2].
    split; [exact Hlen|]. split; [exact Hpu|]. split; [exact H1|]. split; [exact H2|reflexivity].
  Qed.
End node.

Print Assumptions C63_node.
