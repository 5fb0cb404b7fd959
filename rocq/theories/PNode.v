(** Histories of a node: SURBs (C19), the forward queue (C21, C22), session indices (C32), events (C33),
    mixnode lists (C34), bad destinations (C36), dispatch (C39). *)
From Verif Require Export PSess.

Section node.
  Context (pr : prims) (Hok : prims_ok pr) (cf : config) (Hcf : config_ok cf).

  (** ** C19 *)

  (** A reply packet for SURB [id] arrives. *)
  Definition replies (m : mixnet) (p id : bytes) : Prop :=
    exists rel s pl, reads pr (mx_sessions m) p rel s /\ content_of pr s p = CtReply id pl.
  (** It is decrypted with the keys stored for the SURB. *)
  Definition decrypts (m : mixnet) (p id : bytes) : Prop :=
    replies m p id /\ exists v, sk_entry (mx_keystore m) id = Some v.
  (** [post_request] may draw the SURB id [id]. *)
  Definition may_draw (c : call) (id : bytes) : Prop :=
    match c with
    | CallPostRequest _ _ _ _ _ _ r => exists j, rng_pos r ≤ j /\ drawn (rng_tape r) j id
    | _ => False
    end.

  Lemma entry_elem ks id v : sk_entry ks id = Some v -> (id, v) ∈ sk_surbs ks.
  Proof.
    unfold sk_entry. induction (sk_surbs ks) as [|[k' v'] l IH]; [done|]. cbn.
    destruct (decide _) as [->|]; [intros [= ->]; left|right; auto].
  Qed.
  Lemma elem_entry ks id v : (id, v) ∈ sk_surbs ks -> is_Some (sk_entry ks id).
  Proof.
    unfold sk_entry. induction (sk_surbs ks) as [|[k' v'] l IH]; [by intros ?%elem_of_nil|].
    rewrite elem_of_cons. cbn. destruct (decide _); [by eexists|]. intros [[= -> ->]|H]; [done|by apply IH].
  Qed.
  Lemma surbs_remove ks id id' v : (id', v) ∈ sk_surbs (sk_remove ks id) -> (id', v) ∈ sk_surbs ks.
  Proof.
    unfold sk_remove. cbn [sk_surbs]. induction (sk_surbs ks) as [|[k' v'] l IH]; [done|]. cbn.
    destruct (decide _); [by right|]. rewrite !elem_of_cons. naive_solver.
  Qed.
  (** Where entries come from: a successful [post_request] with that message id, from its random bytes. *)
  Definition made_by (c : call) (a : resp) (id : bytes) (v : surb_value) : Prop :=
    may_draw c id /\
    match c, a with
    | CallPostRequest _ _ mid _ _ _ _, RespPost _ (Ok _) => sv_message_id v = mid
    | _, _ => False
    end.
  Lemma keystore_step m c m' a id v :
    mx_ok pr cf m -> step pr m c m' a -> (id, v) ∈ sk_surbs (mx_keystore m') ->
    (id, v) ∈ sk_surbs (mx_keystore m) \/ made_by c a id v.
  Proof.
    intros Hm Hst Hin.
    assert (Hsame : mx_keystore m' = mx_keystore m -> (id, v) ∈ sk_surbs (mx_keystore m) \/ made_by c a id v).
    { intros E. left. by rewrite <- E. }
    destruct Hst; try (by apply Hsame).
    - apply Hsame. unfold set_session_status. destruct (decide _); [done|]. cbv zeta.
      assert (E : mx_keystore (shift_sessions m (st_current_index st)) = mx_keystore m)
        by (unfold shift_sessions; by destruct (_ =? _)%N).
      destruct (_ || _); exact E.
    - apply Hsame. unfold enqueue. by destruct (decide _).
    - left. cbn [mx_keystore mx_set_keystore mx_set_assembler] in Hin. by apply surbs_remove in Hin.
    - left. cbn [mx_keystore mx_set_keystore mx_set_assembler] in Hin. by apply surbs_remove in Hin.
    - apply Hsame. unfold m1. by destruct (aq_pop _).2.
    - assert (Hp := H). destruct H as [_ _ _ _ _ _ _ _ (r' & _ & Hids) -> _ _ _ _ _].
      cbn [mx_keystore mx_put_session mx_set_sessions mx_set_keystore] in Hin.
      destruct (ks_pushes_surbs (mx_keystore m) (map (surb_entry id0) (all_surbs ps)) (proj1 (mo_keystore _ _ _ Hm))) as [E _].
      rewrite E in Hin. apply elem_of_list_lookup in Hin as [i Hi]. rewrite lookup_drop in Hi.
      apply elem_of_list_lookup_2, elem_of_app in Hi as [Hi|Hi]; [by left|]. right.
      apply elem_of_list_fmap in Hi as (u & [= -> ->] & Hu). unfold ids_drawn in Hids.
      rewrite Forall_forall in Hids. destruct (Hids u Hu) as (j & ? & ? & ?). split; [by exists j|done].
  Qed.
  Lemma keystore_run m hist m' id v :
    mx_ok pr cf m -> run pr m hist m' -> (id, v) ∈ sk_surbs (mx_keystore m') ->
    (id, v) ∈ sk_surbs (mx_keystore m) \/ exists c a, (c, a) ∈ hist /\ made_by c a id v.
  Proof.
    intros Hm H. induction H as [|m c a m1 hist m2 Hc He _ IH]; intros Hin; [by left|].
    pose proof (exec_step pr Hok cf _ _ _ _ Hcf Hm Hc He) as Hst.
    destruct (IH (step_inv pr Hok cf _ _ _ _ Hcf Hm Hc Hst) Hin) as [H1|(c' & a' & H1 & H2)].
    - destruct (keystore_step _ _ _ _ _ _ Hm Hst H1) as [?|?]; [by left|]. right. exists c, a. by split; [left|].
    - right. exists c', a'. by split; [right|].
  Qed.

  (** Once a reply packet for SURB [id] was decrypted, successfully or not, any further reply packet for
      it is dropped without effect, unless [post_request] draws the same random id again. *)
  Theorem C19_once m p now m1 a hist m2 id p' now' :
    mx_ok pr cf m -> length p = N.to_nat 2252 -> length p' = N.to_nat 2252 ->
    decrypts m p id -> exec pr m (CallHandle p now) = Val (m1, a) ->
    run pr m1 hist m2 -> (forall c a, (c, a) ∈ hist -> ~ may_draw c id) ->
    ~ decrypts m2 p' id /\
    (replies m2 p' id -> exec pr m2 (CallHandle p' now') = Val (m2, RespMessage None)).
  Proof.
    intros Hm Hp Hp' [(rel & s & pl & Hr & Hc) (v & Hv)] He Hrun Hnd.
    assert (Hcall : call_ok (CallHandle p now)) by done.
    pose proof (exec_step pr Hok cf _ _ _ _ Hcf Hm Hcall He) as Hst.
    assert (Hm1 : mx_ok pr cf m1) by (eapply (step_inv pr Hok cf); [done|exact Hm|exact Hcall|exact Hst]).
    assert (Hrem : mx_keystore m1 = sk_remove (mx_keystore m) id).
    { cbn [exec] in He. apply out_bind_Val in He as ([m1' msg] & E & He). injection He as <- _.
      destruct (handle_packet_spec pr Hok m p now Hp) as [[Hno _]|(rel2 & s2 & Hr2 & E2)]; [by apply Hno in Hr|].
      destruct (reads_unique _ _ _ _ _ _ _ Hr Hr2) as [<- <-]. rewrite E in E2. unfold effect in E2. rewrite Hc, Hv in E2.
      destruct (decrypt_reply_payload pr pl (sv_keys v)) as [plain [[]|e]].
      - symmetry in E2. apply out_bind_Val in E2 as ([fa out] & _ & E2). by injection E2 as <- _.
      - by injection E2 as -> _. }
    assert (Hnone : forall v', (id, v') ∉ sk_surbs (mx_keystore m2)).
    { intros v' Hin. destruct (keystore_run _ _ _ _ _ Hm1 Hrun Hin) as [H1|(c' & a' & H1 & H2 & _)].
      - apply elem_entry in H1 as [w Hw]. rewrite Hrem in Hw.
        destruct (C20_remove (mx_keystore m) id (proj1 (mo_keystore _ _ _ Hm))) as (_ & _ & _ & Hg).
        rewrite Hg, decide_True in Hw; done.
      - by apply (Hnd c' a'). }
    assert (Hsk : sk_entry (mx_keystore m2) id = None).
    { destruct (sk_entry (mx_keystore m2) id) as [w|] eqn:E; [|done]. by apply entry_elem, Hnone in E. }
    split.
    - intros [_ [w Hw]]. congruence.
    - intros (rel2 & s2 & pl2 & Hr2 & Hc2). cbn [exec].
      destruct (handle_packet_spec pr Hok m2 p' now' Hp') as [[Hno _]|(rel3 & s3 & Hr3 & E3)]; [by apply Hno in Hr2|].
      destruct (reads_unique _ _ _ _ _ _ _ Hr2 Hr3) as [<- <-]. rewrite E3. unfold effect. by rewrite Hc2, Hsk.
  Qed.

  (** ** The forward queue: C21, C22 *)

  (** What a call does to it. *)
  Definition forward_step (m : mixnet) (c : call) (a : resp) (m' : mixnet) : Prop :=
    match c with
    | CallHandle p now =>
        fq_queue (mx_forward m') = fq_queue (mx_forward m) \/
        exists rel s t d next peer dur, acts pr m rel s p /\ content_of pr s p = CtForward t d next /\
          tp_target_to_peer_id (se_topology s) t = Ok peer /\
          delay_to_duration d (cf_mean_forwarding_delay (mx_config m)) = Val dur /\
          fq_queue (mx_forward m') =
            fq_queue (mx_forward m) ++ [ForwardPacket (now + dur)%N (AddressedPacket peer next)]
    | CallPopForward _ =>
        match a with
        | RespPacket (Some p) => exists fp, fp_packet fp = p /\ least (fp_deadline fp) (fq_queue (mx_forward m)) /\
            fq_queue (mx_forward m) ≡ₚ fp :: fq_queue (mx_forward m')
        | _ => fq_queue (mx_forward m) = [] /\ fq_queue (mx_forward m') = []
        end
    | _ => fq_queue (mx_forward m') = fq_queue (mx_forward m)
    end.
  Lemma status_forward m st : mx_forward (set_session_status m st) = mx_forward m.
  Proof.
    unfold set_session_status. destruct (decide _); [done|]. cbv zeta.
    assert (E : mx_forward (shift_sessions m (st_current_index st)) = mx_forward m)
      by (unfold shift_sessions; by destruct (_ =? _)%N).
    destruct (_ || _); exact E.
  Qed.
  Theorem C21_step m c m' a : step pr m c m' a -> forward_step m c a m'.
  Proof.
    intros Hst. destruct Hst; cbn [forward_step]; try done; try (by left).
    - by rewrite status_forward.
    - right. exists rel, s, t, d, next, peer, dur. split_and!; try done.
      + unfold acts. rewrite H0. done.
      + unfold enqueue. by destruct (decide _).
    - pose proof (C21_pop (mx_forward m) tie) as Hp. rewrite H in Hp. cbn. destruct p as [p|].
      + destruct Hp as (fp & ? & ? & ? & _). by exists fp.
      + destruct Hp as [-> ?]. done.
    - unfold m1. by destruct (aq_pop _).2.
    - by destruct H as [_ _ _ _ _ _ _ _ _ -> _ _ _ _ _].
  Qed.
  Definition forwarded (hist : list (call * resp)) : list addressed_packet :=
    omap (fun ca => match ca with (CallPopForward _, RespPacket p) => p | _ => None end) hist.
  (** In every history: what was queued, with what was accepted meanwhile, is what was returned with
      what is still queued. *)
  Theorem C21_node m hist m' :
    mx_ok pr cf m -> run pr m hist m' ->
    exists ins, map fp_packet (fq_queue (mx_forward m) ++ ins) ≡ₚ
                forwarded hist ++ map fp_packet (fq_queue (mx_forward m')) /\
      (forall fp, fp ∈ ins -> exists p now a m1 rel s t d, (CallHandle p now, a) ∈ hist /\
         acts pr m1 rel s p /\ content_of pr s p = CtForward t d (ap_packet (fp_packet fp)) /\
         tp_target_to_peer_id (se_topology s) t = Ok (ap_peer_id (fp_packet fp)) /\
         (now <= fp_deadline fp)%N).
  Proof.
    intros Hm H. induction H as [|m c a m1 hist m2 Hc He _ IH].
    { exists []. rewrite app_nil_r. split; [done|]. by intros fp ?%elem_of_nil. }
    pose proof (exec_step pr Hok cf _ _ _ _ Hcf Hm Hc He) as Hst.
    destruct (IH (step_inv pr Hok cf _ _ _ _ Hcf Hm Hc Hst)) as (ins & Hperm & Hins).
    pose proof (C21_step _ _ _ _ Hst) as Hf.
    assert (Hmore : forall fp, fp ∈ ins -> exists p now a0 m1 rel s t d, (CallHandle p now, a0) ∈ (c, a) :: hist /\
         acts pr m1 rel s p /\ content_of pr s p = CtForward t d (ap_packet (fp_packet fp)) /\
         tp_target_to_peer_id (se_topology s) t = Ok (ap_peer_id (fp_packet fp)) /\
         (now <= fp_deadline fp)%N).
    { intros fp (p & now & a0 & m0 & rel & s & t & d & Hin & ?)%Hins. exists p, now, a0, m0, rel, s, t, d.
      by split; [right|]. }
    assert (Hsame : fq_queue (mx_forward m1) = fq_queue (mx_forward m) ->
      forwarded ((c, a) :: hist) = forwarded hist -> exists ins0, map fp_packet (fq_queue (mx_forward m) ++ ins0) ≡ₚ
        forwarded ((c, a) :: hist) ++ map fp_packet (fq_queue (mx_forward m2)) /\
        (forall fp, fp ∈ ins0 -> exists p now a0 m1 rel s t d, (CallHandle p now, a0) ∈ (c, a) :: hist /\
         acts pr m1 rel s p /\ content_of pr s p = CtForward t d (ap_packet (fp_packet fp)) /\
         tp_target_to_peer_id (se_topology s) t = Ok (ap_peer_id (fp_packet fp)) /\
         (now <= fp_deadline fp)%N)).
    { intros E1 E2. exists ins. rewrite E2, <- E1. done. }
    destruct c as [| | |p now|tie| | | |]; cbn [forward_step] in Hf; try (by apply Hsame).
    - destruct Hf as [Hf|(rel & s & t & d & next & peer & dur & Hact & Hcont & Htp & Hdur & Hf)]; [by apply Hsame|].
      set (fp := ForwardPacket (now + dur)%N (AddressedPacket peer next)) in *.
      exists (fp :: ins). split.
      + rewrite Hf, <- app_assoc in Hperm. exact Hperm.
      + intros fp' [->|Hin]%elem_of_cons; [|by apply Hmore]. exists p, now, a, m, rel, s, t, d.
        split_and!; try done; [left|cbn; lia].
    - inversion Hst as [| | | | | | | | | | | | | |? q o Hpop| | | | | | | |]; subst. destruct o as [p|].
      + destruct Hf as (fp & <- & _ & Hq). exists ins. split; [|done].
        rewrite Hq. change (forwarded _) with (fp_packet fp :: forwarded hist). cbn [map app]. by rewrite Hperm.
      + destruct Hf as [Hf1 Hf2]. apply Hsame; [congruence|done].
  Qed.

  Lemma deadline_step m c m' a :
    step pr m c m' a -> c <> CallTakeEvents -> ev_forward_deadline (mx_events m') = true \/
    fq_next_deadline (mx_forward m') = fq_next_deadline (mx_forward m).
  Proof.
    intros Hst Hc. destruct Hst; try done; try (by right).
    - right. by rewrite status_forward.
    - unfold enqueue. destruct (decide _) as [E|_].
      + right. exact E.
      + left. cbn. apply orb_true_r.
    - left. cbn. apply orb_true_r.
    - right. unfold m1. by destruct (aq_pop _).2.
    - right. by destruct H as [_ _ _ _ _ _ _ _ _ -> _ _ _ _ _].
  Qed.
  Theorem C22_deadline m hist m' :
    mx_ok pr cf m -> run pr m hist m' -> untaken hist ->
    fq_next_deadline (mx_forward m') <> fq_next_deadline (mx_forward m) ->
    ev_forward_deadline (mx_events m') = true.
  Proof.
    intros Hm H. induction H as [|m c a m1 hist m2 Hc He Hr IH]; intros Hu Hne; [done|].
    apply Forall_cons in Hu as [Hu1 Hu]. pose proof (exec_step pr Hok cf _ _ _ _ Hcf Hm Hc He) as Hst.
    pose proof (step_inv pr Hok cf _ _ _ _ Hcf Hm Hc Hst) as Hm1.
    destruct (deadline_step _ _ _ _ Hst Hu1) as [H1|H1].
    - destruct (run_events pr Hok cf Hcf _ _ _ Hm1 Hr Hu) as (_ & Hle & _). by apply Hle.
    - apply IH; [done|done|congruence].
  Qed.

  (** ** C32 *)
  (** The index of the session in a slot. *)
  Definition index_of (m : mixnet) (rel : rel_session_index) (i : session_index) : Prop :=
    match rel with
    | RCurrent => i = st_current_index (mx_status m)
    | RPrev => (i + 1)%N = st_current_index (mx_status m)
    end.
  Lemma rsi_add_index m rel i : rsi_add rel (st_current_index (mx_status m)) = Val i -> index_of m rel i.
  Proof.
    destruct rel; cbn; [by intros [= ->]|]. unfold checked_sub.
    destruct (N.leb_spec 1 (st_current_index (mx_status m))); cbn; [|done]. intros [= <-]. lia.
  Qed.
  Lemma rsi_add_ok m rel :
    mx_ok pr cf m -> ss_get (mx_sessions m) rel <> SlDisabled ->
    exists i, rsi_add rel (st_current_index (mx_status m)) = Val i.
  Proof.
    intros Hm Hd. destruct rel; cbn; [by eexists|]. unfold checked_sub.
    destruct (N.leb_spec 1 (st_current_index (mx_status m))) as [|H]; cbn; [by eexists|].
    destruct Hd. cbn. apply (mo_prev_disabled _ _ _ Hm). left. lia.
  Qed.
  (** Every active session has an index. *)
  Theorem C32_index m rel s :
    mx_ok pr cf m -> ss_get (mx_sessions m) rel = SlFull s -> exists i, index_of m rel i.
  Proof.
    intros Hm Hs. destruct (rsi_add_ok m rel Hm) as [i Hi]; [by rewrite Hs|]. exists i. by apply rsi_add_index.
  Qed.
  Theorem C32_set_mixnodes m rel mixnodes r :
    mx_ok pr cf m -> exec pr m (CallSetMixnodes rel mixnodes r) <> Panic.
  Proof.
    intros Hm. cbn [exec]. unfold maybe_set_mixnodes. cbv zeta.
    assert (Hopen : ss_get (mx_sessions m) rel <> SlDisabled ->
      (_ ← rsi_add rel (st_current_index (mx_status m)); Val tt) = Val tt).
    { intros Hd. by destruct (rsi_add_ok m rel Hm Hd) as [i ->]. }
    assert (Hnew : forall l k g r0, tp_new (if decide (N.to_nat (MAX_MIXNODE_INDEX + 1) < length l)
          then take (N.to_nat (MAX_MIXNODE_INDEX + 1)) l else l) k g r0 <> Panic).
    { intros l k g r0. match goal with |- tp_new ?x _ _ _ <> _ => assert (Hl : length x ≤ N.to_nat 65280) end.
      { change (MAX_MIXNODE_INDEX + 1)%N with 65280%N. destruct (decide _) as [|Hn]; [rewrite take_length; lia|].
        by apply Nat.nlt_ge. }
      destruct (C28_new _ k g r0 Hl) as (t & r' & E & _). rewrite E. done. }
    destruct (ss_get (mx_sessions m) rel) eqn:E; try done.
    all: destruct (rsi_add_ok m rel Hm) as [i Hi]; [by rewrite E|]; rewrite Hi; cbn [out_bind].
    all: destruct mixnodes as [l|[]]; try done.
    all: try rewrite (surjective_pairing (kx_pair_gen pr r)).
    all: match goal with |- context [tp_new ?a ?b ?c ?d] =>
           specialize (Hnew l b c d); destruct (tp_new a b c d) as [[t r']|]; [|by destruct Hnew] end.
    all: cbn [out_bind]; destruct (if tp_is_mixnode t then _ else _); cbn [out_bind]; [|done].
    all: rewrite (surjective_pairing (rf_new r')); done.
  Qed.
  (** Handling a packet panics in one case only: the delay is no duration. *)
  Theorem C32_handle m p now :
    mx_ok pr cf m -> length p = N.to_nat 2252 -> exec pr m (CallHandle p now) = Panic ->
    exists rel s t d next, acts pr m rel s p /\ content_of pr s p = CtForward t d next /\
      delay_to_duration d (cf_mean_forwarding_delay (mx_config m)) = Panic.
  Proof.
    intros Hm Hp H. cbn [exec] in H.
    destruct (handle_packet_spec pr Hok m p now Hp) as [[_ E]|(rel & s & Hr & E)]; rewrite E in H; [done|].
    clear E. unfold effect in H.
    assert (Hins : forall f, length f = N.to_nat 2048 -> exists fa out, fa_insert (mx_assembler m) f = Val (fa, out)).
    { intros f Hf. destruct (mo_assembler _ _ _ Hm) as [Hi _].
      destruct (fa_insert_case _ _ f Hi Hf I) as (fa & out & Ei & _). by exists fa, out. }
    destruct (reads_opens _ _ _ _ _ Hr) as [_ Hop].
    pose proof (content_lengths pr Hok s p Hp Hop) as Hlen. 
    destruct (content_of pr s p) as [t d next|data|id pl|cid|] eqn:Ec; try done.
    - destruct (decide (is_mixnode s /\ has_room m)) as [[Hmx Hroom]|_]; [|done].
      destruct (tp_target_to_peer_id (se_topology s) t) as [peer|]; [|done].
      destruct (delay_to_duration d (cf_mean_forwarding_delay (mx_config m))) eqn:Ed; [done|].
      exists rel, s, t, d, next. split_and!; try done. split_and!; [done|done|by rewrite Ec].
    - destruct (decide (is_mixnode s)) as [Hmx|_]; [|done].
      destruct (Hins data Hlen) as (fa & out & Ei). 
      change (mx_assembler (noted pr m rel s p)) with (mx_assembler m) in H. rewrite Ei in H. cbn [out_bind] in H.
      destruct out; [|done]. destruct (rsi_add_ok m rel Hm) as [i Hi].
      { by rewrite (reads_get _ _ _ _ _ Hr). }
      change (mx_status (noted pr m rel s p)) with (mx_status m) in H. by rewrite Hi in H.
    - destruct (sk_entry (mx_keystore m) id) as [v|]; [|done]. cbv zeta in H.
      pose proof (reply_payload_length pr Hok pl (sv_keys v) Hlen) as Hpl.
      destruct (decrypt_reply_payload pr pl (sv_keys v)) as [plain [[]|]]; [|done]. cbn [fst] in Hpl.
      destruct (Hins (take (N.to_nat 2048) plain)) as (fa & out & Ei); [rewrite take_length; lia|].
      rewrite Ei in H. done.
  Qed.
  (** A delivered request names the session whose key opened the packet. *)
  Theorem C32_delivered m p now m' rq :
    mx_ok pr cf m -> length p = N.to_nat 2252 ->
    exec pr m (CallHandle p now) = Val (m', RespMessage (Some (MRequest rq))) ->
    exists rel s data, acts pr m rel s p /\ content_of pr s p = CtRequest data /\
      index_of m rel (rq_session_index rq).
  Proof.
    intros Hm Hp H. assert (Hc : call_ok (CallHandle p now)) by done.
    pose proof (exec_step pr Hok cf _ _ _ _ Hcf Hm Hc H) as Hst. inversion Hst; subst.
    - destruct out as [g|]; [|done].
      match goal with H : exists i, _ |- _ => destruct H as (i & Hi & [= ->]) end.
      exists rel, s, data. split_and!; [|done|by apply rsi_add_index].
      split_and!; [done|done|]. by match goal with H : content_of _ _ _ = _ |- _ => rewrite H end.
    - destruct out; done.
  Qed.

  (** ** C33 *)
  Lemma peers_step m c m' a :
    mx_ok pr cf m -> step pr m c m' a -> c <> CallTakeEvents ->
    ev_reserved_peers (mx_events m') = true /\ ev_authored_deadline (mx_events m') = true \/
    mx_status m' = mx_status m /\
    map se_topology (ss_iter (mx_sessions m')) = map se_topology (ss_iter (mx_sessions m)) /\
    map se_mean_period (ss_iter (mx_sessions m')) = map se_mean_period (ss_iter (mx_sessions m)).
  Proof.
    intros Hm Hst Hc.
    assert (Hput : forall rel s s', ss_get (mx_sessions m) rel = SlFull s -> same_session s s' ->
      forall m2, mx_sessions m2 = mx_sessions (mx_put_session m rel s') ->
      map se_topology (ss_iter (mx_sessions m2)) = map se_topology (ss_iter (mx_sessions m)) /\
      map se_mean_period (ss_iter (mx_sessions m2)) = map se_mean_period (ss_iter (mx_sessions m))).
    { intros rel s s' Hg [_ E1 E2 _ _ _] m2 Em. rewrite Em. unfold mx_put_session. cbn [mx_sessions mx_set_sessions].
      destruct (mx_sessions m) as [cur prev], rel; cbn in Hg |- *; subst; cbn; unfold ss_iter; cbn;
        [destruct (slot_as_option prev)|destruct (slot_as_option cur)]; cbn; by rewrite E1, E2. }
    destruct Hst; try done; try (by right).
    - unfold set_session_status. destruct (decide _) as [|]; [by right|left]. cbn. by rewrite !orb_true_r.
    - right. split; [done|]. unfold set_slot. cbn [mx_sessions mx_set_sessions].
      destruct (mx_sessions m) as [cur prev], rel; cbn in *; unfold ss_iter; cbn; destruct H as [->|[? ->]]; done.
    - left. cbn. by rewrite !orb_true_r.
    - right. split; [unfold enqueue; by destruct (decide _)|].
      eapply Hput; [by eapply reads_get|apply noted_same|]. unfold enqueue. by destruct (decide _).
    - right. split; [done|]. eapply Hput; [by eapply reads_get|apply noted_same|done].
    - right. split; [done|]. eapply Hput; [by eapply reads_get|apply noted_same|done].
    - right. split; [unfold m1; by destruct (aq_pop _).2|].
      eapply Hput; [exact H|apply (same_session_queue _ q); done|]. unfold m1. by destruct (aq_pop _).2.
    - destruct H as [Hu _ _ _ _ _ _ _ _ -> _ _ _ _ _]. apply usable_get in Hu. right. split; [done|].
      eapply Hput; [exact Hu| |reflexivity]; by apply same_session_queue.
    - apply usable_get in H. right. split; [done|]. eapply Hput; [exact H| |reflexivity]; by apply same_session_queue.
  Qed.
  (** The peers depend on the topologies of the active sessions only. *)
  Lemma reserved_peers_topologies m m' :
    map se_topology (ss_iter (mx_sessions m')) = map se_topology (ss_iter (mx_sessions m)) ->
    reserved_peers m' = reserved_peers m.
  Proof.
    unfold reserved_peers. generalize (ss_iter (mx_sessions m)). induction (ss_iter (mx_sessions m')) as [|s l IH];
      intros [|s0 l0]; cbn; try done. intros [= E1 E2]. by rewrite E1, (IH _ E2).
  Qed.
  (** What the mean delay between authored packets depends on: the periods of the active sessions,
      and whether the phase needs two sessions. *)
  Lemma mean_period_same m m' :
    mx_status m' = mx_status m ->
    map se_mean_period (ss_iter (mx_sessions m')) = map se_mean_period (ss_iter (mx_sessions m)) ->
    forall x, next_authored_packet_delay m' x = next_authored_packet_delay m x.
  Proof.
    intros E1 E2 x. unfold next_authored_packet_delay, mean_authored_period. rewrite E1.
    assert (E3 : map (fun s => as_secs_f64 (se_mean_period s)) (ss_iter (mx_sessions m')) =
                 map (fun s => as_secs_f64 (se_mean_period s)) (ss_iter (mx_sessions m))).
    { rewrite <- (map_map se_mean_period as_secs_f64), E2. by rewrite map_map. }
    by rewrite E3.
  Qed.
  Theorem C33_events m hist m' :
    mx_ok pr cf m -> run pr m hist m' -> untaken hist ->
    (reserved_peers m' <> reserved_peers m -> ev_reserved_peers (mx_events m') = true) /\
    (forall x, next_authored_packet_delay m' x <> next_authored_packet_delay m x ->
     ev_authored_deadline (mx_events m') = true).
  Proof.
    intros Hm H. induction H as [|m c a m1 hist m2 Hc He Hr IH]; intros Hu; [done|].
    apply Forall_cons in Hu as [Hu1 Hu]. pose proof (exec_step pr Hok cf _ _ _ _ Hcf Hm Hc He) as Hst.
    pose proof (step_inv pr Hok cf _ _ _ _ Hcf Hm Hc Hst) as Hm1.
    destruct (run_events pr Hok cf Hcf _ _ _ Hm1 Hr Hu) as (Hle1 & _ & Hle2 & _).
    destruct (peers_step _ _ _ _ Hm Hst Hu1) as [[H1 H2]|(H1 & H2 & H3)]; [by split; auto|].
    destruct (IH Hm1 Hu) as [IH1 IH2]. rewrite (reserved_peers_topologies _ _ H2) in IH1.
    split; [done|]. intros x. rewrite <- (mean_period_same _ _ H1 H3). apply IH2.
  Qed.
End node.
