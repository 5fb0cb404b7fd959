(** C56, C57: what a node holds in memory, and where the messages it reports come from. *)
From Verif Require Export PNode PFragment.

(** ** Specification *)

(** A node in state [m] takes fragment [f] out of packet [p]: as part of a request, being a mixnode; or
    as part of a reply to one of its own requests, with a SURB it still has the keys of. *)
Inductive yields (pr : prims) (m : mixnet) (p f : bytes) : Prop :=
| YRequest rel s :
    reads pr (mx_sessions m) p rel s -> content_of pr s p = CtRequest f -> is_mixnode s -> yields pr m p f
| YReply rel s id pl v plain :
    reads pr (mx_sessions m) p rel s -> content_of pr s p = CtReply id pl ->
    sk_entry (mx_keystore m) id = Some v ->
    decrypt_reply_payload pr pl (sv_keys v) = (plain, Ok tt) -> f = take (N.to_nat 2048) plain ->
    yields pr m p f.

(** Fragment [f] was taken out of a packet handled in history [hist] of a node that started as [m0]. *)
Definition received (pr : prims) (m0 : mixnet) (hist : list (call * resp)) (f : bytes) : Prop :=
  exists h1 p now a h2 m1, hist = h1 ++ (CallHandle p now, a) :: h2 /\ run pr m0 h1 m1 /\ yields pr m1 p f.

(** The same, of a packet that came as a reply. *)
Definition received_as_reply (pr : prims) (m0 : mixnet) (hist : list (call * resp)) (f : bytes) : Prop :=
  exists h1 p now a h2 m1, hist = h1 ++ (CallHandle p now, a) :: h2 /\ run pr m0 h1 m1 /\
    exists rel s id pl v plain, reads pr (mx_sessions m1) p rel s /\ content_of pr s p = CtReply id pl /\
      sk_entry (mx_keystore m1) id = Some v /\
      decrypt_reply_payload pr pl (sv_keys v) = (plain, Ok tt) /\ f = take (N.to_nat 2048) plain.

(** Number of fragments held for a message, and in all. *)
Definition fragments_of (im : incomplete_message) : nat := length (omap id (im_fragments im)).

(** ** Proofs *)
Lemma held_omap l : held l = length (omap id l).
Proof. induction l as [|[x|] l IH]; cbn; [done|..]; by rewrite IH. Qed.

Section provenance.
  Context (pr : prims) (Hok : prims_ok pr) (cf : config).

  Lemma status_assembler m st : mx_assembler (set_session_status m st) = mx_assembler m.
  Proof.
    unfold set_session_status. destruct (decide _); [done|]. cbv zeta.
    assert (E : mx_assembler (shift_sessions m (st_current_index st)) = mx_assembler m)
      by (unfold shift_sessions; by destruct (_ =? _)%N).
    destruct (_ || _); exact E.
  Qed.

  (** The assembler of a node after a call. *)
  Lemma step_assembler m c m' a :
    step pr m c m' a ->
    (mx_assembler m' = mx_assembler m /\ forall msg, a <> RespMessage (Some msg)) \/
    exists p now f out, c = CallHandle p now /\ yields pr m p f /\ length f = N.to_nat 2048 /\
      fa_insert (mx_assembler m) f = Val (mx_assembler m', out) /\
      match out with
      | None => a = RespMessage None
      | Some g => exists msg, a = RespMessage (Some msg) /\
          match msg with
          | MRequest q => rq_id q = gm_id g /\ rq_data q = gm_data g /\ rq_surbs q = gm_surbs g /\
              exists rel s, reads pr (mx_sessions m) p rel s /\ content_of pr s p = CtRequest f /\
                is_mixnode s /\ index_of m rel (rq_session_index q)
          | MReply q => rp_data q = gm_data g /\
              exists rel s id pl v, reads pr (mx_sessions m) p rel s /\ content_of pr s p = CtReply id pl /\
                sk_entry (mx_keystore m) id = Some v /\ rp_request_id q = sv_message_id v
          end
      end.
  Proof.
    intros H. destruct H; try (by left).
    - left. split; [apply status_assembler|done].
    - left. split; [|done]. unfold enqueue. by destruct (decide _).
    - right. exists p, now, data, out. split; [done|]. split; [by eapply YRequest|]. split; [done|]. split; [done|].
      destruct out as [g|]; [|by subst msg]. destruct H4 as (i & Hi & ->). eexists. split; [done|].
      cbn. split_and!; [done..|]. exists rel, s. split_and!; [done..|]. by apply rsi_add_index.
    - right. exists p, now, (take (N.to_nat 2048) plain), out. split; [done|].
      split; [by eapply YReply|]. split; [rewrite take_length; lia|]. split; [done|].
      destruct out as [g|]; [|done]. eexists. split; [done|]. cbn. split; [done|].
      by exists rel, s, id, pl, v.
    - left. unfold m1. by destruct (aq_pop _).2.
    - left. split; [|done]. by rewrite (po_state _ _ _ _ _ _ _ _ _ _ _ _ _ _ _ _ _ H).
  Qed.

  Lemma received_app m0 h1 h2 f : received pr m0 h1 f -> received pr m0 (h1 ++ h2) f.
  Proof.
    intros (g1 & p & now & a & g2 & m1 & -> & H). exists g1, p, now, a, (g2 ++ h2), m1.
    split; [|done]. by rewrite <- app_assoc.
  Qed.
  Lemma run_snoc m0 h m c a m' :
    run pr m0 h m -> call_ok c -> exec pr m c = Val (m', a) -> run pr m0 (h ++ [(c, a)]) m'.
  Proof.
    induction 1 as [|m0 c0 a0 m1 h m2 H1 H2 _ IH]; intros Hc He; cbn.
    - econstructor; [done..|constructor].
    - econstructor; [done..|]. by apply IH.
  Qed.
  Lemma run_ind_r (P : list (call * resp) -> mixnet -> Prop) m0 :
    P [] m0 ->
    (forall h m c a m', run pr m0 h m -> P h m -> call_ok c -> exec pr m c = Val (m', a) -> P (h ++ [(c, a)]) m') ->
    forall h m, run pr m0 h m -> P h m.
  Proof.
    intros H0 HS h m H.
    assert (Hgen : forall h0 m1, run pr m0 h0 m1 -> P h0 m1 -> forall h m, run pr m1 h m -> P (h0 ++ h) m).
    { intros h0 m1 R0 P0 h' m' H'. revert h0 R0 P0.
      induction H' as [|m1 c a m2 h' m3 Hc He _ IH]; intros h0 R0 P0; [by rewrite app_nil_r|].
      rewrite cons_middle, app_assoc. apply IH; [by eapply run_snoc|by eapply HS]. }
    apply (Hgen [] m0); [constructor|done|done].
  Qed.

  (** The assembler of a node is the result of the fragments it has received. *)
  Lemma node_assembler m0 h m :
    config_ok cf -> mx_new pr cf = Val m0 -> run pr m0 h m ->
    exists fs outs, Forall (received pr m0 h) fs /\ Forall frag_sized fs /\
      fa_inserts (fa_new (cf_max_incomplete_messages cf) (cf_max_incomplete_fragments cf)
                         (cf_max_fragments_per_message cf)) fs = Val (mx_assembler m, outs).
  Proof.
    intros Hcf Hnew. revert h m. apply run_ind_r.
    - exists [], []. split_and!; [constructor..|]. unfold mx_new in Hnew.
      apply out_bind_Val in Hnew as (ks & _ & Hnew). by injection Hnew as <-.
    - intros h m c a m' Hrun (fs & outs & Hfs & Hsz & Hins) Hc He.
      assert (Hm : mx_ok pr cf m). { eapply run_ok; [done..| |done]. by apply mx_new_ok. }
      assert (Hfs' : Forall (received pr m0 (h ++ [(c, a)])) fs).
      { eapply Forall_impl; [exact Hfs|]. intros f. apply received_app. }
      pose proof (exec_step pr Hok _ _ _ _ _ Hcf Hm Hc He) as Hst.
      apply step_assembler in Hst as [[-> _]|(p & now & f & out & -> & Hy & Hl & Hf & _)]; [by exists fs, outs|].
      exists (fs ++ [f]), (outs ++ [out]). split_and!.
      + apply Forall_app. split; [done|]. apply Forall_singleton. exists h, p, now, a, [], m. done.
      + apply Forall_app. split; [done|]. by apply Forall_singleton.
      + rewrite fa_inserts_app, Hins. cbn. by rewrite Hf.
  Qed.

  (** ** C56 *)
  (** The memory of a node: everything is within the limits of the configuration, which never changes. *)
  Theorem C56_memory hist m :
    reachable pr cf hist m ->
    mx_config m = cf /\
    (N.of_nat (length (fq_queue (mx_forward m))) <= cf_forward_capacity cf)%N /\
    (N.of_nat (length (sk_surbs (mx_keystore m))) <= cf_surb_keystore_capacity cf)%N /\
    (N.of_nat (length (fa_incomplete (mx_assembler m))) <= cf_max_incomplete_messages cf)%N /\
    (N.of_nat (sum_list_with (fun e => fragments_of e.2) (fa_incomplete (mx_assembler m))) <=
       cf_max_incomplete_fragments cf)%N /\
    (forall k im, (k, im) ∈ fa_incomplete (mx_assembler m) ->
       (N.of_nat (length (im_fragments im)) <= cf_max_fragments_per_message cf)%N /\
       forall f, Some f ∈ im_fragments im -> length f = N.to_nat 2048) /\
    (forall rel s, ss_get (mx_sessions m) rel = SlFull s ->
       exists sc, (if tp_is_mixnode (se_topology s) then Some (cf_mixnode_session cf)
                   else cf_non_mixnode_session cf) = Some sc /\
         (N.of_nat (length (aq_queue (se_authored s))) <= apc_capacity (sc_authored sc))%N /\
         Forall (fun p => length (ap_packet p) = N.to_nat 2252) (aq_queue (se_authored s)) /\
         (tp_is_mixnode (se_topology s) = false -> rf_words (se_filter s) = None)) /\
    Forall (fun fp => length (ap_packet (fp_packet fp)) = N.to_nat 2252) (fq_queue (mx_forward m)).
  Proof.
    intros Hr. pose proof (reachable_ok pr Hok cf _ _ Hr) as Hm. destruct Hr as (Hcf & m0 & Hnew & Hrun).
    destruct (node_assembler _ _ _ Hcf Hnew Hrun) as (fs & outs & _ & Hsz & Hins).
    pose proof (C03_bounds _ _ _ _ _ _ Hsz Hins) as (B1 & B2 & _ & _ & B3).
    assert (Hinv : fa_inv (fun _ => True) (mx_assembler m)).
    { eapply fa_inv_mono; [|eapply reachable_inv; [exact Hsz|]]; [done|]. by do 4 eexists. }
    destruct (mo_forward _ _ _ Hm) as (F1 & F2 & F3). destruct (mo_keystore _ _ _ Hm) as [(_ & K1 & _) K2].
    split_and!; try done.
    - by apply Hm.
    - rewrite K2 in K1. unfold ks_view in K1. by rewrite map_length in K1.
    - revert B2. clear. unfold held_total. intros B2. eapply N.le_trans; [|exact B2].
      apply N.eq_le_incl. f_equal. clear. induction (fa_incomplete (mx_assembler m)) as [|[k im] l IH]; cbn; [done|].
      unfold fragments_of. rewrite <- held_omap. f_equal. exact IH.
    - intros k im Hin. split; [by apply (B3 k)|]. intros f Hf.
      pose proof (inv_entries _ _ Hinv) as He. rewrite Forall_forall in He. apply He in Hin as (_ & _ & Hin).
      apply elem_of_list_lookup in Hf as [i Hf]. by apply Hin in Hf as (? & _).
    - intros rel s Hs. pose proof (mx_ok_full pr cf m rel s Hm Hs) as Hsok.
      pose proof (so_config _ _ _ Hsok) as Hc. pose proof (so_authored _ _ _ Hsok) as Ha.
      pose proof (so_packets _ _ _ Hsok) as Hp. pose proof (so_filter _ _ _ Hsok) as Hf.
      assert (Hp' : Forall (fun p => length (ap_packet p) = N.to_nat 2252) (aq_queue (se_authored s))).
      { eapply Forall_impl; [exact Hp|]. by intros p [? _]. }
      destruct (tp_is_mixnode (se_topology s)).
      + destruct Hc as [Hc _]. exists (cf_mixnode_session cf). split; [done|]. by rewrite <- Hc.
      + destruct Hc as (c & Hc & Hc2 & _). exists c. split; [done|]. by rewrite <- Hc2.
  Qed.

  (** ** C57 *)
  (** A message reported by a node is made of fragments it has received, one for each position of the
      message, all with its ID and with the same number of fragments, the last of them in the packet
      just handled. A request has come to a mixnode, and is reported with the index of the session;
      a reply has come with a SURB of the request it is reported for. *)
  Theorem C57_reported m0 hist m p now m' msg :
    config_ok cf -> mx_new pr cf = Val m0 -> run pr m0 hist m -> length p = N.to_nat 2252 ->
    exec pr m (CallHandle p now) = Val (m', RespMessage (Some msg)) ->
    exists fs f i,
      Forall (received pr m0 (hist ++ [(CallHandle p now, RespMessage (Some msg))])) fs /\
      fs !! i = Some f /\ yields pr m p f /\
      (N.of_nat (length fs) <= cf_max_fragments_per_message cf)%N /\
      (forall j g, fs !! j = Some g ->
         sp_valid g /\ sp_id g = sp_id f /\ sp_count g = N.of_nat (length fs) /\ sp_index g = N.of_nat j) /\
      match msg with
      | MRequest q => rq_id q = sp_id f /\ rq_data q = concat (map sp_data fs) /\
          rq_surbs q = concat (map sp_surbs fs) /\
          exists rel s, reads pr (mx_sessions m) p rel s /\ content_of pr s p = CtRequest f /\ is_mixnode s /\
            index_of m rel (rq_session_index q)
      | MReply q => rp_data q = concat (map sp_data fs) /\
          exists rel s id pl v, reads pr (mx_sessions m) p rel s /\ content_of pr s p = CtReply id pl /\
            sk_entry (mx_keystore m) id = Some v /\ rp_request_id q = sv_message_id v
      end.
  Proof.
    intros Hcf Hnew Hrun Hp He.
    destruct (node_assembler _ _ _ Hcf Hnew Hrun) as (fs0 & outs & Hrec & Hsz & Hins).
    assert (Hm : mx_ok pr cf m). { eapply run_ok; [done..| |done]. by apply mx_new_ok. }
    pose proof (exec_step pr Hok _ _ (CallHandle p now) _ _ Hcf Hm Hp He) as Hst.
    apply step_assembler in Hst as [[_ H]|(p' & now' & f & out & [= <- <-] & Hy & Hl & Hf & Hmsg)]; [by destruct (H msg)|].
    destruct out as [g|]; [|done]. destruct Hmsg as (msg' & [= <-] & Hmsg).
    assert (Hreach : fa_reachable fs0 (mx_assembler m)) by by do 4 eexists.
    pose proof (C05_sound _ _ _ _ _ Hsz Hreach Hl Hf) as (fs & [Hne Hset] & Hi & Hmax & Eid & Edata & Esurbs).
    assert (Hsame : sp_id f = sp_id (default [] (head fs))). { by apply Hset in Hi as (_ & _ & ? & _). }
    assert (Hcount : sp_count f = N.of_nat (length fs)). { by apply Hset in Hi as (_ & _ & _ & ? & _). }
    exists fs, f, (N.to_nat (sp_index f)). split_and!; [|done|done| | |].
    - apply Forall_forall. intros x Hx. apply elem_of_list_lookup in Hx as [j Hx].
      apply Hset in Hx as (Hx & _). apply elem_of_app in Hx as [Hx|Hx].
      + apply received_app. rewrite Forall_forall in Hrec. by apply Hrec.
      + apply elem_of_list_singleton in Hx as ->. exists hist, p, now, (RespMessage (Some msg)), [], m. done.
    - rewrite <- Hcount. destruct (mo_assembler _ _ _ Hm) as (_ & _ & _ & E). by rewrite <- E.
    - intros j x Hx. apply Hset in Hx as (_ & ? & Hid & ? & ?). split_and!; try done. congruence.
    - destruct msg as [q|q].
      + destruct Hmsg as (E1 & E2 & E3 & H). split_and!; [congruence..|exact H].
      + destruct Hmsg as (E1 & H). split; [congruence|exact H].
  Qed.
End provenance.
