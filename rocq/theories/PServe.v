(** C66: a node with a reply manager replies to a request with the SURBs that came with it, and uses each
    of them once. *)
From Verif Require Export PReplies PProvenance PCalls.
From Verif Require PNet PTrip PEnd PRepliesEx.
From Verif Require Import PManaged PMatch PScattered.

(** ** Specification *)

(** What is done with a node and a reply manager that posts to it: a call on the node, or a call on the
    manager, of which the log is kept. *)
Inductive serving :=
| ByApp (c : call) (a : resp)
| ByReplier (c : ym_call) (a : option (reply_context * bytes)) (l : list ym_event).
(** The node and the manager; the requests that the node has returned and that are not yet given to the
    manager, and the reply contexts that the manager has handed out and that are not yet given back.
    Rust's ownership rules ensure that each of them is given away once. *)
Record server := Server {
  sr_node : mixnet;
  sr_replier : reply_manager;
  sr_requests : list request_message;
  sr_contexts : list reply_context
}.
Definition request_in (a : resp) : list request_message :=
  match a with RespMessage (Some (MRequest q)) => [q] | _ => [] end.
Definition context_in (a : option (reply_context * bytes)) : list reply_context :=
  match a with Some (c, _) => [c] | None => [] end.
(** [served pr s h s']: doing [h], without a panic, takes [s] to [s']. The clock and the random numbers in
    each call are arbitrary, and the replies are no longer than Rust allows. *)
Notation call_replier pr rm w c := (ym_exec (w_post_reply pr) w_now w_fresh_id rm (w, []) c).
Inductive served (pr : prims) : server -> list serving -> server -> Prop :=
| SeNil s : served pr s [] s
| SeNode m rm qs cs c m' a h s2 :
    call_ok c -> exec pr m c = Val (m', a) -> served pr (Server m' rm (qs ++ request_in a) cs) h s2 ->
    served pr (Server m rm qs cs) (ByApp c a :: h) s2
| SeInsert w rm qs q qs' cs rm' w' l a h s2 :
    qs ≡ₚ q :: qs' -> call_replier pr rm w (YmInsert q) = Val (rm', (w', l), a) ->
    served pr (Server (w_mixnet w') rm' qs' (cs ++ context_in a)) h s2 ->
    served pr (Server (w_mixnet w) rm qs cs) (ByReplier (YmInsert q) a l :: h) s2
| SeAbandon w rm qs cs x cs' rm' w' l a h s2 :
    cs ≡ₚ x :: cs' -> call_replier pr rm w (YmAbandon x) = Val (rm', (w', l), a) ->
    served pr (Server (w_mixnet w') rm' qs cs') h s2 ->
    served pr (Server (w_mixnet w) rm qs cs) (ByReplier (YmAbandon x) a l :: h) s2
| SeComplete w rm qs cs x cs' data rm' w' l a h s2 :
    cs ≡ₚ x :: cs' -> (N.of_nat (length data) <= USIZE_MAX)%N ->
    call_replier pr rm w (YmComplete x data) = Val (rm', (w', l), a) ->
    served pr (Server (w_mixnet w') rm' qs cs') h s2 ->
    served pr (Server (w_mixnet w) rm qs cs) (ByReplier (YmComplete x data) a l :: h) s2.
(** ... from a new node and a new manager *)
Definition served_from_start (pr : prims) (cf : config) (ycf : ym_config) (h : list serving) (s : server) : Prop :=
  config_ok cf /\ exists m0, mx_new pr cf = Val m0 /\ served pr (Server m0 (ym_new ycf) [] []) h s.

(** The requests that the node returned; the SURBs used by the manager. *)
Definition returned (h : list serving) : list request_message :=
  mbind (fun x => match x with ByApp _ a => request_in a | _ => [] end) h.
Definition used (h : list serving) : list bytes :=
  mbind (fun x => match x with ByReplier _ _ l => concat (map consumed l) | _ => [] end) h.
(** Attempts to post a reply: SURBs before, session, id, data, SURBs after and success; as seen by the
    node, and as told by the manager. *)
Definition replied (hist : list (call * resp)) : list (list bytes * session_index * bytes * bytes * list bytes * bool) :=
  omap (fun x => match x with
                 | (CallPostReply surbs i id data, RespReply lft res) =>
                     Some (surbs, i, id, sc_contents data, lft, match res with Ok _ => true | Err _ => false end)
                 | _ => None
                 end) hist.
Definition told (l : list ym_event) : list (list bytes * session_index * bytes * bytes * list bytes * bool) :=
  omap (fun e => match e with YPost surbs i id data lft ok => Some (surbs, i, id, data, lft, ok) | _ => None end) l.
Definition replies (h : list serving) : list (list bytes * session_index * bytes * bytes * list bytes * bool) :=
  mbind (fun x => match x with ByApp c a => replied [(c, a)] | ByReplier _ _ l => told l end) h.
Definition is_post_reply (x : call * resp) : Prop :=
  match x with (CallPostReply _ _ _ _, RespReply _ _) => True | _ => False end.
(** Calls that the owners of the request or reply context may make. *)
Definition permitted (s : server) (c : ym_call) : Prop :=
  match c with
  | YmInsert q => q ∈ sr_requests s
  | YmAbandon x => x ∈ sr_contexts s
  | YmComplete x data => x ∈ sr_contexts s /\ (N.of_nat (length data) <= USIZE_MAX)%N
  end.

(** ** Proof *)
Lemma replied_app h1 h2 : replied (h1 ++ h2) = replied h1 ++ replied h2.
Proof. apply omap_app. Qed.
Lemma told_app l1 l2 : told (l1 ++ l2) = told l1 ++ told l2.
Proof. apply omap_app. Qed.
Lemma from_slice_contents (d : bytes) : sc_contents (sc_from_slice d) = d.
Proof. unfold sc_contents, sc_from_slice. cbn. apply app_nil_r. Qed.

Lemma list_snoc_case {A} (l : list A) : l = [] \/ exists l' y, l = l' ++ [y].
Proof. destruct l as [|y l' _] using rev_ind; [by left|right; by exists l', y]. Qed.

Section serve.
  Context (pr : prims) (Hok : prims_ok pr) (cf : config) (Hcf : config_ok cf).

  Definition sized (surbs : list bytes) : Prop := Forall (fun s => length s = 222) surbs.
  Definition reply_ok (r : reply) : Prop := length (ry_message_id r) = 16 /\ (N.of_nat (length (ry_data r)) <= USIZE_MAX)%N.

  (** The SURBs in the requests that a node returns have their size. *)
  Lemma sp_surbs_sized f : length f = N.to_nat 2048 -> sp_valid f -> sized (sp_surbs f).
  Proof.
    intros Hl [_ Hv]. unfold sized, sp_surbs. apply Forall_forall. intros s Hs. apply elem_of_list_fmap in Hs as (j & -> & Hj).
    apply elem_of_seq in Hj. unfold slice. rewrite take_length, drop_length, Hl. lia.
  Qed.
  Lemma returned_sized m0 hist m c m' q :
    mx_new pr cf = Val m0 -> run pr m0 hist m -> call_ok c ->
    exec pr m c = Val (m', RespMessage (Some (MRequest q))) -> sized (rq_surbs q).
  Proof.
    intros Hnew Hrun Hc He.
    destruct (node_assembler pr Hok cf _ _ _ Hcf Hnew Hrun) as (fs0 & outs & _ & Hsz & Hins).
    assert (Hm : mx_ok pr cf m). { eapply run_ok; [done..| |done]. by apply mx_new_ok. }
    pose proof (PInv.exec_step pr Hok _ _ _ _ _ Hcf Hm Hc He) as Hst.
    apply step_assembler in Hst as [[_ H]|(p' & now' & f & out & -> & Hy & Hl & Hf & Hmsg)]; [by destruct (H (MRequest q))|].
    destruct out as [g|]; [|done]. destruct Hmsg as (msg' & [= <-] & _ & _ & -> & _).
    assert (Hreach : fa_reachable fs0 (mx_assembler m)) by by do 4 eexists.
    pose proof (C05_sound _ _ _ _ _ Hsz Hreach Hl Hf) as (fs & [Hne Hset] & _ & _ & _ & _ & ->).
    unfold sized. apply Forall_concat, Forall_fmap. apply Forall_lookup. intros j x Hx. cbn.
    apply Hset in Hx as (Hx & Hv & _). apply sp_surbs_sized; [|done].
    apply elem_of_app in Hx as [Hx| ->%elem_of_list_singleton]; [|done]. rewrite Forall_forall in Hsz. by apply Hsz.
  Qed.

  (** The posts of a manager call are calls on the node. *)
  Definition from_end (surbs : list bytes) (e : ym_event) : Prop :=
    match e with YPost s _ _ _ lft _ => s `prefix_of` surbs /\ lft `prefix_of` s | YTime _ => True end.
  Lemma from_end_mono s1 s2 l : s1 `prefix_of` s2 -> Forall (from_end s1) l -> Forall (from_end s2) l.
  Proof. intros Hp Hl. eapply Forall_impl; [exact Hl|]. intros [] H; [|done]. destruct H. split; [by etrans|done]. Qed.
  Lemma post_n_run n c r w l0 c' w' l' :
    post_reply_n (y_post (w_post_reply pr)) n c r (w, l0) = Val (c', (w', l')) ->
    mx_ok pr cf (w_mixnet w) -> reply_ok r -> sized (rc_surbs c) ->
    exists l hist, l' = l0 ++ l /\ run pr (w_mixnet w) hist (w_mixnet w') /\ Forall is_post_reply hist /\
      replied hist = told l /\ mx_ok pr cf (w_mixnet w') /\ Forall (from_end (rc_surbs c)) l.
  Proof.
    revert c w l0. induction n as [|n IH]; intros c w l0 E Hm Hr Hs; cbn [post_reply_n] in E.
    - injection E as <- <- <-. exists [], []. rewrite app_nil_r. split_and!; [done|apply RunNil|constructor|done|done|constructor].
    - unfold y_post, w_post_reply in E. cbn [fst snd] in E.
      destruct (post_reply pr (w_mixnet w) (rc_surbs c) (rc_session_index c) (ry_message_id r) (sc_from_slice (ry_data r)))
        as [[[m' lft] res]|] eqn:Ep; [|done]. cbn [out_bind] in E.
      set (call := CallPostReply (rc_surbs c) (rc_session_index c) (ry_message_id r) (sc_from_slice (ry_data r))).
      assert (He : exec pr (w_mixnet w) call = Val (m', RespReply lft res)) by (unfold call; cbn [exec]; by rewrite Ep).
      assert (Hc : call_ok call).
      { split; [|done]. destruct Hr. split; [done|]. split; [apply sc_from_slice_wf|]. split; [|done].
        unfold data_len. by rewrite from_slice_contents. }
      assert (Hm' : mx_ok pr cf m').
      { eapply (step_inv pr Hok cf); [done|done|exact Hc|]. by apply (PInv.exec_step pr Hok cf). }
      assert (Hp : lft `prefix_of` rc_surbs c).
      { apply (PRepliesEx.world_takes_from_end pr w (rc_surbs c) (rc_session_index c) (ry_message_id r) (ry_data r) (w_set_mixnet w m') lft res).
        unfold w_post_reply. by rewrite Ep. }
      assert (Hr1 : forall ok, ok = match res with Ok _ => true | Err _ => false end ->
        replied [(call, RespReply lft res)] = told [YPost (rc_surbs c) (rc_session_index c) (ry_message_id r) (ry_data r) lft ok]).
      { intros ok ->. unfold replied, told, call. cbn [omap list_omap]. by rewrite from_slice_contents. }
      destruct res as [[]|e].
      + apply IH in E as (l & hist & -> & Hrun & Hf & Hl & Hm2 & Hpre); cbn in *; [|done|done|].
        * eexists (_ :: l), ((call, RespReply lft (Ok tt)) :: hist). split_and!.
          -- by rewrite <- app_assoc.
          -- by eapply RunCons.
          -- by constructor.
          -- change (replied ([(call, RespReply lft (Ok tt))] ++ hist) = told ([YPost (rc_surbs c) (rc_session_index c) (ry_message_id r) (ry_data r) lft true] ++ l)).
             rewrite replied_app, told_app, Hl. f_equal. by apply Hr1.
          -- done.
          -- constructor; [done|]. by eapply from_end_mono.
        * destruct Hp as [k Hp]. unfold sized in *. rewrite Hp in Hs. by apply Forall_app in Hs as [? _].
      + injection E as <- <- <-. eexists _, [(call, RespReply lft (Err e))]. split_and!.
        * done.
        * eapply RunCons; [done|exact He|constructor].
        * by repeat constructor.
        * by apply Hr1.
        * done.
        * by repeat constructor.
  Qed.

  Definition call_sized (c : ym_call) : Prop := sized (call_surbs c).
  Definition remembered_ok (rm : reply_manager) : Prop :=
    forall id r t, (id, YComplete r t) ∈ ym_states rm -> reply_ok r.
  Lemma in_get (s : lhm bytes reply_state) k v : lhm_get s k = Some v -> (k, v) ∈ s.
  Proof.
    induction s as [|[k' v'] s IH]; cbn; [done|]. destruct (decide (k' = k)) as [->|].
    - intros [= ->]. left.
    - intros H. right. by apply IH.
  Qed.
  Lemma in_set (s : lhm bytes reply_state) k v k' v' : (k', v') ∈ lhm_set s k v -> (k', v') ∈ s \/ (k' = k /\ v' = v).
  Proof.
    induction s as [|[k0 v0] s IH]; cbn; [by left|]. destruct (decide (k0 = k)) as [->|]; rewrite !elem_of_cons; naive_solver.
  Qed.
  Lemma in_remove (s : lhm bytes reply_state) k e : e ∈ lhm_remove s k -> e ∈ s.
  Proof.
    induction s as [|[k0 v0] s IH]; cbn; [done|]. destruct (decide (k0 = k)) as [->|]; rewrite !elem_of_cons; naive_solver.
  Qed.
  Lemma in_trim cap (s : lhm bytes reply_state) e : e ∈ trim cap s -> e ∈ s.
  Proof. unfold trim. destruct (_ <? _)%N; [|done]. destruct s; [done|]. by right. Qed.
  (** The replies remembered after a call were remembered before, or are the one just given. *)
  Lemma complete_step ycf s c a l s' id r t :
    ystep w_fresh_id ycf s c a l s' -> (id, YComplete r t) ∈ s' ->
    (exists t0, (id, YComplete r t0) ∈ s) \/
    exists x data w, c = YmComplete x data /\ rc_message_id x = id /\ r = Reply (w_fresh_id w).1 data.
  Proof.
    intros Hst Hin. destruct Hst as [q Hg|q r0 last t0 Hg Ht|q r0 last t0 l Hg Ht Ha|q Hg|x Hg|x Hg|x data r0 last Hg|x data rid t0 l Hg Ha [w ->]|x data rid t0 l Hg Ha [w ->]].
    - left. by eexists.
    - left. by eexists.
    - apply in_set in Hin as [?|[-> [= -> ->]]]; left; [by eexists|]. exists last. by apply in_get.
    - apply in_trim, elem_of_app in Hin as [?|[=]%elem_of_list_singleton]. left. by eexists.
    - apply in_remove in Hin. left. by eexists.
    - left. by eexists.
    - left. by eexists.
    - apply in_trim, in_set in Hin as [?|[-> [= -> ->]]]; [left; by eexists|]. right. by exists x, data, w.
    - apply in_trim, elem_of_app in Hin as [?|[= -> -> ->]%elem_of_list_singleton]; [left; by eexists|]. right. by exists x, data, w.
  Qed.
  (** What the posts of a call carry. *)
  Lemma post_step ycf s c a l s' surbs i id data lft ok :
    ystep w_fresh_id ycf s c a l s' -> YPost surbs i id data lft ok ∈ l ->
    (exists q r t, c = YmInsert q /\ i = rq_session_index q /\ (rq_id q, YComplete r t) ∈ s /\ data = ry_data r) \/
    (exists x, c = YmComplete x data /\ i = rc_session_index x).
  Proof.
    assert (Hat : forall i0 r n surbs0 l0, attempts i0 r n surbs0 l0 -> YPost surbs i id data lft ok ∈ l0 -> i = i0 /\ data = ry_data r).
    { clear. intros i0 r n surbs0 l0 H. induction H; rewrite ?elem_of_cons, ?elem_of_nil; naive_solver. }
    intros Hst Hin. destruct Hst as [q Hg|q r0 last t0 Hg Ht|q r0 last t0 l Hg Ht Ha|q Hg|x Hg|x Hg|x data0 r0 last Hg|x data0 rid t0 l Hg Ha [w ->]|x data0 rid t0 l Hg Ha [w ->]];
      try by (rewrite ?elem_of_cons, ?elem_of_nil in Hin; naive_solver).
    - apply elem_of_cons in Hin as [[=]|Hin]. destruct (Hat _ _ _ _ _ Ha Hin) as [-> ->]. left. exists q, r0, last.
      split_and!; try done. by apply in_get.
    - apply elem_of_app in Hin as [Hin|[=]%elem_of_list_singleton]. destruct (Hat _ _ _ _ _ Ha Hin) as [-> ->]. right. by exists x.
    - apply elem_of_app in Hin as [Hin|[=]%elem_of_list_singleton]. destruct (Hat _ _ _ _ _ Ha Hin) as [-> ->]. right. by exists x.
  Qed.
  Lemma call_run rm w c rm' w' l a :
    call_replier pr rm w c = Val (rm', (w', l), a) ->
    mx_ok pr cf (w_mixnet w) -> call_sized c -> remembered_ok rm ->
    (forall x data, c = YmComplete x data -> (N.of_nat (length data) <= USIZE_MAX)%N) ->
    exists hist, run pr (w_mixnet w) hist (w_mixnet w') /\ Forall is_post_reply hist /\
      replied hist = told l /\ mx_ok pr cf (w_mixnet w') /\ Forall (from_end (call_surbs c)) l.
  Proof.
    intros E Hm Hs Hrm Hd. destruct c as [q|x|x data]; cbn [ym_exec] in E.
    - unfold ym_insert in E. destruct (lhm_get (ym_states rm) (rq_id q)) as [[|r last]|] eqn:Eg.
      + injection E as <- <- <- <-. exists []. split_and!; [apply RunNil|constructor|done|done|by repeat constructor].
      + cbn [y_now fst snd app] in E. destruct (_ <? _)%N.
        * injection E as <- <- <- <-. exists []. split_and!; [apply RunNil|constructor|done|done|by repeat constructor].
        * destruct (post_reply_n _ _ _ _ _) as [[c' [w1 l1]]|] eqn:Ep; [|done]. cbn [out_bind] in E.
          injection E as <- <- <- <-. apply post_n_run in Ep as (l & hist & -> & H1 & H2 & H3 & H4 & H5); [|done|by eapply Hrm, in_get|done].
          exists hist. split_and!; [done|done| |done|]; [by rewrite told_app|by constructor].
      + destruct (ym_maybe_evict _); [|done]. cbn [out_bind] in E. injection E as <- <- <- <-.
        exists []. split_and!; [apply RunNil|constructor|done|done|by repeat constructor].
    - injection E as <- <- <- <-. exists []. split_and!; [apply RunNil|constructor|done|done|by repeat constructor].
    - unfold ym_complete in E. cbn [out_bind] in E.
      destruct (lhm_get (ym_states rm) (rc_message_id x)) as [[|r last]|] eqn:Eg.
      2:{ injection E as <- <- <- <-. exists []. split_and!; [apply RunNil|constructor|done|done|by repeat constructor]. }
      all: cbn [reply_new y_fresh fst snd] in E; unfold reply_new, y_fresh in E; cbn [fst snd] in E;
        destruct (post_reply_n _ _ _ _ _) as [[c' [w1 l1]]|] eqn:Ep; [|done]; cbn [out_bind y_now fst snd] in E;
        destruct (ym_maybe_evict _); [|done]; cbn [out_bind] in E; injection E as <- <- <- <-;
        apply post_n_run in Ep as (l & hist & -> & H1 & H2 & H3 & H4 & H5);
        [exists hist; split_and!; [done|done| |done|];
           [rewrite !told_app; cbn; by rewrite app_nil_r|apply Forall_app; split; [done|by repeat constructor]]
        |done|split; cbn [ry_message_id ry_data]; [apply rng_fill_length|by eapply Hd]|done].
  Qed.

  (** The reply is one that was given for a request with that message id. *)
  Definition given (h : list serving) (id data : bytes) : Prop :=
    exists x a l, ByReplier (YmComplete x data) a l ∈ h /\ rc_message_id x = id.
  Definition context_of (q : request_message) : reply_context :=
    ReplyContext (rq_session_index q) (rq_id q) (rq_surbs q).

  Lemma returned_app h1 h2 : returned (h1 ++ h2) = returned h1 ++ returned h2.
  Proof. apply bind_app. Qed.
  Lemma used_app h1 h2 : used (h1 ++ h2) = used h1 ++ used h2.
  Proof. apply bind_app. Qed.
  Lemma replies_app h1 h2 : replies (h1 ++ h2) = replies h1 ++ replies h2.
  Proof. apply bind_app. Qed.

  Record server_ok (h : list serving) (s : server) : Prop := {
    sk_run : exists m0 hist, mx_new pr cf = Val m0 /\ run pr m0 hist (sr_node s) /\ replied hist = replies h;
    sk_sized : Forall (fun q => sized (rq_surbs q)) (returned h);
    sk_requests : forall q, q ∈ sr_requests s -> q ∈ returned h;
    sk_contexts : forall x, x ∈ sr_contexts s -> exists q, q ∈ returned h /\ x = context_of q;
    sk_replies : forall id r t, (id, YComplete r t) ∈ ym_states (sr_replier s) -> reply_ok r /\ given h id (ry_data r);
    sk_used : (used h ++ mbind rq_surbs (sr_requests s) ++ mbind rc_surbs (sr_contexts s))%list ⊆+ mbind rq_surbs (returned h);
    sk_answers : forall h1 c a l h2 surbs i id data lft ok, h = h1 ++ ByReplier c a l :: h2 -> YPost surbs i id data lft ok ∈ l ->
      lft `prefix_of` surbs /\
      exists q, q ∈ returned h1 /\ rq_id q = about c /\ i = rq_session_index q /\ surbs `prefix_of` rq_surbs q /\
        given (h1 ++ [ByReplier c a l]) (rq_id q) data
  }.
  Lemma server_mx_ok h s : server_ok h s -> mx_ok pr cf (sr_node s).
  Proof. intros [(m0 & hist & H1 & H2 & _) _ _ _ _ _ _]. eapply run_ok; [done..| |exact H2]. by apply mx_new_ok. Qed.
  Lemma given_app h h' id data : given h id data -> given (h ++ h') id data.
  Proof. intros (x & a & l & H & E). exists x, a, l. split; [|done]. apply elem_of_app. by left. Qed.

  Lemma consumed_sub l surbs rest : surbs = (rest ++ concat (reverse (map consumed l)))%list -> concat (map consumed l) ⊆+ surbs.
  Proof.
    intros ->. assert (E : concat (reverse (map consumed l)) ≡ₚ concat (map consumed l)).
    { induction (map consumed l) as [|x k IH]; [done|]. rewrite reverse_cons, concat_app, IH. cbn. rewrite app_nil_r. apply Permutation_app_comm. }
    rewrite E. apply submseteq_inserts_l. done.
  Qed.

  Lemma node_step h m rm qs cs c m' a :
    server_ok h (Server m rm qs cs) -> call_ok c -> exec pr m c = Val (m', a) ->
    server_ok (h ++ [ByApp c a]) (Server m' rm (qs ++ request_in a) cs).
  Proof.
    intros [(m0 & hist & H1 & H2 & H3) Hsz Hqs Hcs Hre Hus Han] Hc He. cbn [sr_node sr_replier sr_requests sr_contexts] in *.
    assert (Er : returned (h ++ [ByApp c a]) = returned h ++ request_in a).
    { rewrite returned_app. f_equal. cbn. apply app_nil_r. }
    split; cbn [sr_node sr_replier sr_requests sr_contexts]; rewrite ?Er.
    - exists m0, (hist ++ [(c, a)]). split; [done|]. split; [eapply run_join; [done|]; eapply RunCons; [done|done|constructor]|].
      rewrite replied_app, replies_app, H3. f_equal. cbn. by rewrite app_nil_r.
    - apply Forall_app. split; [done|]. destruct a as [| | |[[q|]|]| | | |]; cbn; try constructor; [|constructor].
      by eapply returned_sized.
    - intros q [?%Hqs|?]%elem_of_app; apply elem_of_app; auto.
    - intros x (q & Hq & ->)%Hcs. exists q. split; [|done]. apply elem_of_app. by left.
    - intros id r t [? ?]%Hre. split; [done|]. by apply given_app.
    - rewrite used_app, !bind_app. cbn [used mbind list_bind app]. rewrite app_nil_r.
      rewrite <- (submseteq_skips_r (mbind rq_surbs (request_in a)) _ _ Hus). apply Permutation_submseteq. solve_Permutation.
    - intros h1 c0 a0 l h2 surbs i id data lft ok E Hin.
      destruct (list_snoc_case h2) as [->|(h2' & y & ->)].
      + exfalso. apply app_inj_tail in E as [_ [=]].
      + rewrite app_comm_cons, app_assoc in E. apply app_inj_tail in E as [-> _]. by eapply Han.
  Qed.
  Lemma replier_step h w rm qs cs c rm' w' l a qs' cs' :
    server_ok h (Server (w_mixnet w) rm qs cs) -> call_replier pr rm w c = Val (rm', (w', l), a) ->
    (forall x data, c = YmComplete x data -> (N.of_nat (length data) <= USIZE_MAX)%N) ->
    (exists q, q ∈ returned h /\ about c = rq_id q /\ call_surbs c `prefix_of` rq_surbs q /\
       match c with YmInsert q' => q' = q | YmAbandon x => x = context_of q | YmComplete x _ => x = context_of q end) ->
    (forall q, q ∈ qs' -> q ∈ qs) -> (forall x, x ∈ cs' -> x ∈ cs \/ x ∈ context_in a) ->
    (concat (map consumed l) ++ mbind rq_surbs qs' ++ mbind rc_surbs cs')%list ⊆+ (mbind rq_surbs qs ++ mbind rc_surbs cs)%list ->
    server_ok (h ++ [ByReplier c a l]) (Server (w_mixnet w') rm' qs' cs').
  Proof.
    intros Hs E Hd (q & Hq & Hab & Hpre & Hcq) Hqs' Hcs' Hsub. pose proof (server_mx_ok _ _ Hs) as Hm.
    destruct Hs as [(m0 & hist & H1 & H2 & H3) Hsz Hqs Hcs Hre Hus Han]. cbn [sr_node sr_replier sr_requests sr_contexts] in *.
    assert (Er : returned (h ++ [ByReplier c a l]) = returned h).
    { rewrite returned_app. cbn. apply app_nil_r. }
    assert (Hcsz : call_sized c).
    { unfold call_sized, sized. destruct Hpre as [k Hpre]. rewrite Forall_forall in Hsz. specialize (Hsz q Hq). unfold sized in Hsz.
      rewrite Hpre in Hsz. by apply Forall_app in Hsz as [? _]. }
    assert (Hrm : remembered_ok rm) by (intros id r t H; by eapply Hre).
    destruct (call_run _ _ _ _ _ _ _ E Hm Hcsz Hrm Hd) as (hist1 & G1 & G2 & G3 & G4 & G5).
    pose proof (PReplies.exec_step _ _ _ _ _ _ _ _ _ _ E) as [_ Hst].
    split; cbn [sr_node sr_replier sr_requests sr_contexts]; rewrite ?Er.
    - exists m0, (hist ++ hist1). split; [done|]. split; [by eapply run_join|].
      rewrite replied_app, replies_app, H3, G3. f_equal. cbn. by rewrite app_nil_r.
    - done.
    - intros q' ?%Hqs'. by apply Hqs.
    - intros x [?|Hx]%Hcs'; [by apply Hcs|]. destruct a as [[y d]|]; [|by apply elem_of_nil in Hx].
      apply elem_of_list_singleton in Hx as ->. inversion Hst; subst. rewrite Hcq. by exists q.
    - intros id r t Hin. destruct (complete_step _ _ _ _ _ _ _ _ _ Hst Hin) as [[t0 [? ?]%Hre]|(x & data & w0 & -> & <- & ->)].
      + split; [done|]. by apply given_app.
      + split; [split; [apply rng_fill_length|by eapply Hd]|]. cbn. exists x, a, l. split; [|done]. apply elem_of_app. right. left.
    - rewrite used_app. cbn [used mbind list_bind app]. rewrite app_nil_r, <- app_assoc.
      etrans; [|exact Hus]. by apply submseteq_skips_l.
    - intros h1 c0 a0 l0 h2 surbs i id data lft ok Eh Hin.
      destruct (list_snoc_case h2) as [->|(h2' & y & ->)].
      2:{ rewrite app_comm_cons, app_assoc in Eh. apply app_inj_tail in Eh as [-> _]. by eapply Han. }
      apply app_inj_tail in Eh as [<- [= <- <- <-]].
      rewrite Forall_forall in G5. destruct (G5 _ Hin) as [P1 P2]. split; [done|]. exists q. split; [done|].
      split; [done|]. destruct (post_step _ _ _ _ _ _ _ _ _ _ _ _ Hst Hin) as [(q0 & r & t & -> & -> & Hr & ->)|(x & -> & ->)].
      + subst q0. split; [done|]. split; [by etrans|]. apply given_app. by eapply Hre.
      + subst x. split; [done|]. split; [by etrans|]. exists (context_of q), a, l. split; [|done]. apply elem_of_app. right. left.
  Qed.

  Lemma served_ok h0 s h s' : served pr s h s' -> server_ok h0 s -> server_ok (h0 ++ h) s'.
  Proof.
    intros H. revert h0. induction H as [s|m rm qs cs c m' a h s2 Hc He _ IH|w rm qs q qs' cs rm' w' l a h s2 Hp He _ IH
      |w rm qs cs x cs' rm' w' l a h s2 Hp He _ IH|w rm qs cs x cs' data rm' w' l a h s2 Hp Hd He _ IH]; intros h0 Hs.
    - by rewrite app_nil_r.
    - rewrite cons_middle, app_assoc. apply IH. by eapply node_step.
    - rewrite cons_middle, app_assoc. apply IH.
      assert (Hq : q ∈ qs) by (rewrite Hp; left).
      eapply replier_step; try done.
      + exists q. split; [by eapply (sk_requests _ _ Hs)|]. done.
      + intros q' Hq'. rewrite Hp. by right.
      + intros x. apply elem_of_app.
      + pose proof He as Hst. apply PReplies.exec_step in Hst as [_ Hst].
        apply C50_surbs in He as [rest Hr]; [|apply PRepliesEx.world_takes_from_end]. cbn [call_surbs] in Hr.
        rewrite Hp, bind_cons, bind_app.
        destruct a as [[x d]|]; cbn [context_in mbind list_bind].
        * inversion Hst; subst. cbn [map concat app rc_surbs]. rewrite app_nil_r. apply Permutation_submseteq. solve_Permutation.
        * rewrite app_nil_r, <- app_assoc. apply submseteq_skips_r. by eapply consumed_sub.
    - rewrite cons_middle, app_assoc. apply IH.
      assert (Hx : x ∈ cs) by (rewrite Hp; left).
      destruct (sk_contexts _ _ Hs x Hx) as (q & Hq & Ex).
      eapply replier_step; try done.
      + exists q. split; [done|]. by subst x.
      + intros y Hy. left. rewrite Hp. by right.
      + apply PReplies.exec_step in He as [_ Hst]. inversion Hst; subst; cbn [map concat app]; rewrite Hp, bind_cons;
          apply submseteq_skips_l, submseteq_inserts_l; done.
    - rewrite cons_middle, app_assoc. apply IH.
      assert (Hx : x ∈ cs) by (rewrite Hp; left).
      destruct (sk_contexts _ _ Hs x Hx) as (q & Hq & Ex).
      eapply replier_step; try done.
      + by intros ? ? [= <- <-].
      + exists q. split; [done|]. by subst x.
      + intros y Hy. left. rewrite Hp. by right.
      + apply C50_surbs in He as [rest Hr]; [|apply PRepliesEx.world_takes_from_end]. cbn [call_surbs] in Hr.
        rewrite Hp, bind_cons. etrans; [apply submseteq_skips_r; by eapply consumed_sub|].
        apply Permutation_submseteq. solve_Permutation.
  Qed.
  Lemma served_start_ok ycf h s : served_from_start pr cf ycf h s -> server_ok h s.
  Proof.
    intros (_ & m0 & E & H). eapply (served_ok []); [exact H|]. split; cbn.
    - exists m0, []. split_and!; [done|apply RunNil|done].
    - constructor.
    - intros q Hq. by apply elem_of_nil in Hq.
    - intros q Hq. by apply elem_of_nil in Hq.
    - intros id r t Hq. by apply elem_of_nil in Hq.
    - done.
    - intros h1 c a l h2 surbs i id data lft ok Eh. by destruct h1.
  Qed.

  (** ** C66 *)

  (** The node sees the replies that the manager tells of, in the order in which they are made, and those
      made by the application itself. *)
  Theorem C66_posts ycf h s :
    served_from_start pr cf ycf h s -> exists hist, reachable pr cf hist (sr_node s) /\ replied hist = replies h.
  Proof.
    intros [(m0 & hist & H1 & H2 & H3) _ _ _ _ _ _]%served_start_ok. exists hist. split; [|done]. split; [done|]. by exists m0.
  Qed.
  (** A SURB that came once is used once: the SURBs that the manager has used are among those in the
      requests that the node has returned, even if counted with repetitions. *)
  Theorem C66_surbs_once ycf h s :
    served_from_start pr cf ycf h s -> used h ⊆+ mbind rq_surbs (returned h).
  Proof. intros [_ _ _ _ _ Hu _]%served_start_ok. etrans; [|exact Hu]. by apply submseteq_inserts_r. Qed.
  (** A reply is posted for a request that the node has returned before, in the session and with SURBs of
      that request, and with the data that was given in reply to a request with the same id. *)
  Theorem C66_answers ycf h s h1 c a l h2 surbs i id data lft ok :
    served_from_start pr cf ycf h s -> h = h1 ++ ByReplier c a l :: h2 -> YPost surbs i id data lft ok ∈ l ->
    lft `prefix_of` surbs /\
    exists q, q ∈ returned h1 /\ rq_id q = about c /\ i = rq_session_index q /\ surbs `prefix_of` rq_surbs q /\
      given (h1 ++ [ByReplier c a l]) (rq_id q) data.
  Proof. intros [_ _ _ _ _ _ Ha]%served_start_ok Eh Hin. by eapply Ha. Qed.

  Definition items (h : list serving) : list ym_item :=
    omap (fun x => match x with ByReplier c a l => Some (YmItem c a l) | _ => None end) h.
  Lemma served_items s h s' :
    served pr s h s' ->
    ym_run (w_post_reply pr) w_now w_fresh_id (fun _ => True) (sr_replier s) (items h) (sr_replier s') /\
    forall x data, x ∈ items h -> completed_with (yi_call x) data -> (N.of_nat (length data) <= USIZE_MAX)%N.
  Proof.
    induction 1 as [s|m rm qs cs c m' a h s2 Hc He _ IH|w rm qs q qs' cs rm' w' l a h s2 Hp He _ IH
      |w rm qs cs x cs' rm' w' l a h s2 Hp He _ IH|w rm qs cs x cs' data rm' w' l a h s2 Hp Hd He _ IH]; cbn [sr_replier] in *.
    - split; [constructor|]. intros x data Hx. by apply elem_of_nil in Hx.
    - done.
    - destruct IH as [IH1 IH2]. split; [by econstructor|]. intros y data' [->|Hy]%elem_of_cons [ctx Hc]; [done|]. eapply IH2; [done|]. by eexists.
    - destruct IH as [IH1 IH2]. split; [by econstructor|]. intros y data' [->|Hy]%elem_of_cons [ctx Hc]; [done|]. eapply IH2; [done|]. by eexists.
    - destruct IH as [IH1 IH2]. split; [by econstructor|]. intros y data' [->|Hy]%elem_of_cons [ctx Hc]; [by injection Hc as <- <-|].
      eapply IH2; [done|]. by eexists.
  Qed.
  (** No call on the manager panics. *)
  Theorem C66_no_panic ycf h s w c :
    served_from_start pr cf ycf h s -> w_mixnet w = sr_node s -> permitted s c ->
    exists rm' w' l a, call_replier pr (sr_replier s) w c = Val (rm', (w', l), a).
  Proof.
    intros Hs Hw Hc. pose proof (server_mx_ok _ _ (served_start_ok _ _ _ Hs)) as Hm. destruct Hs as (_ & m0 & E & Hs).
    apply served_items in Hs as [Hr Hd]. cbn [sr_replier] in Hr.
    destruct (PRepliesEx.C48_mixnet_panics pr ycf (items h) (sr_replier s) w c Hr) as (rm' & w' & l & a & He & _).
    - intros data [(x & Hx & Hy)|[ctx ->]]; [by eapply Hd|]. by destruct Hc.
    - rewrite Hw. by apply (mx_posting pr cf).
    - by exists rm', w', l, a.
  Qed.

  Lemma permitted_call h s w c rm' w' l a :
    server_ok h s -> permitted s c -> w_mixnet w = sr_node s -> call_replier pr (sr_replier s) w c = Val (rm', (w', l), a) ->
    exists hist, run pr (w_mixnet w) hist (w_mixnet w') /\ Forall is_post_reply hist /\ replied hist = told l /\
      Forall (from_end (call_surbs c)) l /\
      forall surbs i id data lft ok, YPost surbs i id data lft ok ∈ l -> i = match c with YmInsert q => rq_session_index q | YmAbandon x => rc_session_index x | YmComplete x _ => rc_session_index x end /\
        given (h ++ [ByReplier c a l]) (about c) data.
  Proof.
    intros Hs Hc Hw E. pose proof (server_mx_ok _ _ Hs) as Hm. rewrite <- Hw in Hm.
    assert (Hcsz : call_sized c).
    { assert (Hq : exists q, q ∈ returned h /\ call_surbs c = rq_surbs q).
      { destruct c as [q|x|x data]; cbn in Hc.
        - exists q. split; [|done]. by apply (sk_requests _ _ Hs).
        - destruct (sk_contexts _ _ Hs x Hc) as (q & Hq & ->). by exists q.
        - destruct Hc as [Hc _]. destruct (sk_contexts _ _ Hs x Hc) as (q & Hq & ->). by exists q. }
      destruct Hq as (q & Hq & Eq). unfold call_sized. rewrite Eq.
      pose proof (sk_sized _ _ Hs) as Hsz. rewrite Forall_forall in Hsz. by apply Hsz. }
    destruct (call_run _ _ _ _ _ _ _ E Hm Hcsz) as (hist & G1 & G2 & G3 & G4 & G5).
    { intros id r t H. by eapply (sk_replies _ _ Hs). }
    { intros x data ->. by destruct Hc. }
    exists hist. split_and!; try done. intros surbs i id data lft ok Hin.
    pose proof (PReplies.exec_step _ _ _ _ _ _ _ _ _ _ E) as [_ Hst].
    destruct (post_step _ _ _ _ _ _ _ _ _ _ _ _ Hst Hin) as [(q0 & r & t & -> & -> & Hr & ->)|(x & -> & ->)].
    - split; [done|]. apply given_app. by eapply (sk_replies _ _ Hs).
    - split; [done|]. exists x, a, l. split; [|done]. apply elem_of_app. right. left.
  Qed.
End serve.

(** ** In a network *)
Lemma quiet_history pr (W : PNet.world) x hist m' :
  run pr (PNet.w_node W x) hist m' -> Forall is_post_reply hist ->
  exists tr W', PNet.history pr W tr W' /\ PNet.w_node W' x = m' /\ PNet.w_wire W' = PNet.w_wire W /\
    (forall y, y <> x -> PNet.w_node W' y = PNet.w_node W y) /\
    forall c a, (c, a) ∈ hist -> exists Wb Wa, PNet.Moment Wb (PNet.EvCall x c a) Wa ∈ tr.
Proof.
  intros Hr Hf. remember (PNet.w_node W x) as m eqn:Em. revert W Em.
  induction Hr as [m|m c a m1 hist m2 Hc He Hr IH]; intros W ->.
  - exists [], W. split; [constructor|]. split_and!; try done. intros c a Hin. by apply elem_of_nil in Hin.
  - inversion Hf as [|? ? Hp Hf']; subst. unfold is_post_reply in Hp.
    set (W1 := PNet.World (PNet.with_node W x m1) (PNet.w_wire W ++ PNet.sent a)).
    assert (Hs : PNet.sent a = []) by (by destruct c, a).
    destruct (IH Hf' W1) as (tr & W' & H1 & H2 & H3 & H4 & H5).
    { cbn. by rewrite PNet.with_node_same. }
    exists (PNet.Moment W (PNet.EvCall x c a) W1 :: tr), W'. split.
    { eapply PNet.HiCons; [|exact H1]. apply PNet.HpCall; try done. by destruct c. }
    split; [done|]. split; [rewrite H3; cbn; rewrite Hs; apply app_nil_r|]. split.
    { intros y Hy. rewrite H4 by done. cbn. by apply PNet.with_node_other. }
    intros c' a' [[= -> ->]|Hin]%elem_of_cons; [exists W, W1; left|]. destruct (H5 _ _ Hin) as (Wb & Wa & ?). exists Wb, Wa. by right.
Qed.
Lemma told_replied hist l rs i rid rdata lft ok :
  replied hist = told l -> YPost rs i rid rdata lft ok ∈ l ->
  exists sd res, (CallPostReply rs i rid sd, RespReply lft res) ∈ hist /\ sc_contents sd = rdata /\
    ok = match res with Ok _ => true | Err _ => false end.
Proof.
  intros E Hin. assert (H : (rs, i, rid, rdata, lft, ok) ∈ replied hist).
  { rewrite E. apply elem_of_list_omap. by exists (YPost rs i rid rdata lft ok). }
  apply elem_of_list_omap in H as ([c a] & Hx & H). destruct c; try done. destruct a; try done. injection H as -> -> -> <- -> <-.
  by exists data, res.
Qed.

(** What a reply manager makes of the request with id [id], session [index], data and SURBs: the posts of
    its call are what happens in the network; each is made for the request's own id; and if its node has
    the same mixnodes in the session, the reply is on its way to node [x], to be returned by it with the
    data given to the manager and with the id of the request. *)
Definition answered_back (pr : prims) (index : session_index) (id data : bytes) (nodes : list mixnode)
    (key : target -> bytes) (me : target) (x : bytes) (surbs : list bytes) (entries : list (bytes * surb_value)) : Prop :=
  let q := RequestMessage index id data surbs in
  forall cf ycf h sv v c rm' v' l a (W : PNet.world) y2,
    served_from_start pr cf ycf h sv -> permitted sv c -> w_mixnet v = sr_node sv ->
    call_replier pr (sr_replier sv) v c = Val (rm', (v', l), a) ->
    c = YmInsert q \/ (exists rdata, c = YmComplete (context_of q) rdata) ->
    PNet.world_ok pr W -> PNet.w_node W y2 = sr_node sv ->
    exists tr W', PNet.history pr W tr W' /\ PNet.w_node W' y2 = w_mixnet v' /\
      PNet.w_wire W' = PNet.w_wire W /\ (forall z, z <> y2 -> PNet.w_node W' z = PNet.w_node W z) /\
      forall rs i rid rdata lft, YPost rs i rid rdata lft true ∈ l ->
        given (h ++ [ByReplier c a l]) id rdata /\
        exists Wb Wa sd rel2 s2,
          PNet.Moment Wb (PNet.EvCall y2 (CallPostReply rs index rid sd) (RespReply lft (Ok tt))) Wa ∈ tr /\
          sc_contents sd = rdata /\ usable (PNet.w_node Wb y2) index rel2 s2 /\
          (tp_mixnodes (se_topology s2) = nodes ->
           PEnd.reply_sent pr index id nodes key me x surbs entries Wb y2 rs lft rid sd rel2 Wa).
(** A request that honest nodes carry to a node with a reply manager is replied to by that manager in such
    a way that the reply comes back. *)
Theorem C66_returned pr (Hok : prims_ok pr) w x index dest id data k ns r d mt w1 rel s key :
  PNet.world_ok pr w ->
  PNet.happens pr w (PNet.EvCall x (CallPostRequest index dest id data k ns r) (RespPost (Some d) (Ok mt))) w1 ->
  usable (PNet.w_node w x) index rel s -> PEnd.honest pr (se_topology s) key ->
  let nodes := tp_mixnodes (se_topology s) in
  let me := PEnd.self (se_topology s) ns in
  PTrip.addr_of nodes me = Some x ->
  exists y trips surbs entries,
    PEnd.request_sent pr w x index id data k rel nodes key d w1 y trips surbs /\
    mx_keystore (PNet.w_node w1 x) = ks_pushes (mx_keystore (PNet.w_node w x)) entries /\
    length entries = length surbs /\
    answered_back pr index id (sc_contents data) nodes key me x surbs entries.
Proof.
  intros Hw Hhap Hus Hhon nodes me Hself.
  destruct (PEnd.C41_reply pr Hok w x index dest id data k ns r d mt w1 rel s key Hw Hhap Hus Hhon Hself)
    as (y & trips & surbs & entries & H1 & H2 & H3 & H4).
  exists y, trips, surbs, entries. split; [done|]. split; [done|]. split; [done|].
  intros cf ycf h sv v c rm' v' l a W y2 Hsv Hperm Hv He Hc HW Hn.
  assert (Hcf : config_ok cf) by apply Hsv.
  pose proof (served_start_ok pr Hok cf Hcf ycf h sv Hsv) as Hs.
  destruct (permitted_call pr Hok cf Hcf h sv v c rm' v' l a Hs Hperm Hv He) as (hist & G1 & G2 & G3 & G4 & G5).
  rewrite Hv, <- Hn in G1. destruct (quiet_history pr W y2 hist _ G1 G2) as (tr & W' & T1 & T2 & T3 & T4 & T5).
  exists tr, W'. split_and!; try done. intros rs i rid rdata lft Hin.
  destruct (G5 _ _ _ _ _ _ Hin) as [Ei Hg].
  assert (Ei' : i = index) by (destruct Hc as [->|[? ->]]; done). clear Ei. subst i.
  assert (Hab : about c = id) by (destruct Hc as [->|[? ->]]; done). rewrite Hab in Hg. split; [done|].
  destruct (told_replied _ _ _ _ _ _ _ _ G3 Hin) as (sd & res & Hh & Esd & Eok). destruct res as [[]|]; [|done].
  destruct (T5 _ _ Hh) as (Wb & Wa & Hmt).
  apply elem_of_list_split in Hmt as (tr1 & tr2 & Etr). rewrite Etr in T1.
  pose proof (PNet.history_split pr _ _ _ _ _ T1) as Hsp. cbn in Hsp. destruct Hsp as (S1 & S2 & S3).
  assert (HWb : PNet.world_ok pr Wb) by (by eapply PNet.history_ok).
  assert (Hu : exists rel2 s2, usable (PNet.w_node Wb y2) index rel2 s2).
  { inversion S2 as [? ? ? ? m Hnh Hco Hex| |]; subst. cbn [exec] in Hex.
    destruct (post_reply pr (PNet.w_node Wb y2) rs index rid sd) as [[[m1 lft1] res1]|] eqn:Ep; [|done].
    cbn [out_bind] in Hex. injection Hex as <- <- ->.
    destruct (HWb y2) as (cfy & hy & Hry). destruct (PNet.reachable_mx_ok pr Hok _ _ _ Hry) as [Hcfy Hmy].
    destruct (C37_post_reply pr _ rs index rid sd (mx_posting pr cfy _ Hcfy Hmy)) as
      [(e & E & _)|(rel2 & s2 & ? & ? & ? & ? & ? & Hu & _)]; [by destruct Hco| |by exists rel2, s2].
    rewrite Ep in E. done. }
  destruct Hu as (rel2 & s2 & Hu). exists Wb, Wa, sd, rel2, s2. split; [rewrite Etr; apply elem_of_app; right; left|].
  split; [done|]. split; [done|]. intros Hnodes. eapply H4; try done.
  rewrite Forall_forall in G4. destruct (G4 _ Hin) as [Hp _].
  apply Forall_forall. intros u Hu'. destruct Hp as [kk Hp].
  assert (Hcs : call_surbs c = surbs) by (destruct Hc as [->|[? ->]]; done). rewrite Hcs in Hp. rewrite Hp. apply elem_of_app. by left.
Qed.
