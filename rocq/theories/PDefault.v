(** C74: the default configuration fits together. *)
From Coq Require Import Reals Lra.
From Flocq Require Import Core.Core IEEE754.BinarySingleNaN.
From Verif Require Export PKept PRate PRequests PReplies PProvenance.
Local Open Scope nat_scope.

(** ** Specification *)

(** The default configuration (config.rs:94-137), with or without a secret key for session 0: the one
    field that a node cannot share with others. *)
Definition stock (secret : option bytes) : config :=
  Config (cf_num_gateway_mixnodes default_config) secret
    (cf_mixnode_session default_config) (cf_non_mixnode_session default_config)
    (cf_forward_capacity default_config) (cf_mean_forwarding_delay default_config)
    (cf_per_hop_net_delay default_config) (cf_loop_cover_proportion default_config)
    (cf_gen_cover_packets default_config) (cf_num_hops default_config)
    (cf_surb_keystore_capacity default_config) (cf_max_incomplete_messages default_config)
    (cf_max_incomplete_fragments default_config) (cf_max_fragments_per_message default_config).

(** Bytes of packets and fragments that a node holds. *)
Definition packet_bytes (l : list addressed_packet) : nat := sum_list_with (fun p => length (ap_packet p)) l.
Definition session_bytes (m : mixnet) (rel : rel_session_index) : nat :=
  match ss_get (mx_sessions m) rel with SlFull s => packet_bytes (aq_queue (se_authored s)) | _ => 0 end.
Definition fragment_bytes (im : incomplete_message) : nat := sum_list_with length (omap Datatypes.id (im_fragments im)).
Definition held_bytes (m : mixnet) : nat :=
  packet_bytes (map fp_packet (fq_queue (mx_forward m))) + session_bytes m RCurrent + session_bytes m RPrev +
  sum_list_with (fun e => fragment_bytes e.2) (fa_incomplete (mx_assembler m)).

(** Why a default node refuses a message of [n] packets, when the session is there. *)
Definition stock_refusal (s : session) (n : nat) (e : post_err) : Prop :=
  match e with
  | PeTooManyFragments => 25 < n
  | PeNotEnoughSpaceInQueue =>
      n ≤ 25 /\
      if tp_is_mixnode (se_topology s) then 50 < length (aq_queue (se_authored s)) + n else aq_queue (se_authored s) <> []
  | PeTopology _ => True
  | _ => False
  end.

(** ** Proof *)
Lemma pack_data d : (d <= 50625)%N -> exists l, packs l d 0 /\ length l ≤ 25.
Proof.
  intros Hle. set (q := N.to_nat (d / 2025)). set (r := (d mod 2025)%N).
  assert (Hdiv : d = (2025 * N.of_nat q + r)%N) by (unfold q, r; rewrite N2Nat.id; by apply N.div_mod).
  assert (Hr : (r < 2025)%N) by (by apply N.mod_lt).
  assert (Hsum : forall q (l0 : packing), foldr (fun '(di, _) (acc : N) => (di + acc)%N) 0%N (replicate q (2025%N, 0%N) ++ l0) =
             (2025 * N.of_nat q + foldr (fun '(di, _) (acc : N) => (di + acc)%N) 0%N l0)%N).
  { clear. intros q l0. induction q as [|q IH]; [done|]. cbn [replicate app foldr]. rewrite IH. lia. }
  assert (Hzero : forall q (l0 : packing), foldr (fun '(_, si) (acc : N) => (si + acc)%N) 0%N (replicate q (2025%N, 0%N) ++ l0) =
             foldr (fun '(_, si) (acc : N) => (si + acc)%N) 0%N l0).
  { clear. intros q l0. induction q as [|q IH]; [done|]. cbn [replicate app foldr]. rewrite IH. lia. }
  assert (Hrep : forall q, Forall (fun '(di, si) => (di + 222 * si <= 2025)%N) (replicate q (2025%N, 0%N))).
  { clear. intros q. apply Forall_replicate. lia. }
  destruct (decide (r = 0%N)) as [Hr0|Hr0].
  - exists (replicate q (2025%N, 0%N)). rewrite replicate_length. split; [|lia].
    split; [apply Hrep|]. rewrite <- (app_nil_r (replicate _ _)), Hsum, Hzero. split; [cbn [foldr]; lia|done].
  - exists (replicate q (2025%N, 0%N) ++ [(r, 0%N)]). rewrite app_length, replicate_length. split; [|cbn [length]; lia].
    split; [apply Forall_app; split; [apply Hrep|constructor; [lia|done]]|].
    rewrite Hsum, Hzero. split; [cbn [foldr]; lia|done].
Qed.
Lemma needs_data d n : needs d 0 n -> (n ≤ 25 <-> (d <= 50625)%N).
Proof.
  intros (H1 & (l & (Hf & Hd & Hs) & Hl) & Hmin). split.
  - intros Hn. assert (H : (d <= 2025 * N.of_nat (length l))%N); [|lia].
    rewrite <- Hd. clear -Hf. induction Hf as [|[di si] l Hx _ IH]; cbn [foldr length]; lia.
  - intros Hle. destruct (pack_data d Hle) as (l' & Hp & Hl'). apply Hmin in Hp. lia.
Qed.
Lemma needs_surbs d s n : needs d s n -> n ≤ 25 -> (s <= 225)%N.
Proof.
  intros (H1 & (l & (Hf & Hd & Hs) & Hl) & Hmin) Hn. assert (H : (s <= 9 * N.of_nat (length l))%N); [|lia].
  rewrite <- Hs. clear -Hf. induction Hf as [|[di si] l Hx _ IH]; cbn [foldr length]; lia.
Qed.
Lemma sum_bound {A} (f g : A -> nat) k (l : list A) :
  (forall x, x ∈ l -> f x ≤ k * g x) -> sum_list_with f l ≤ k * sum_list_with g l.
Proof.
  induction l as [|x l IH]; intros H; cbn; [lia|].
  pose proof (H x (elem_of_list_here _ _)). assert (sum_list_with f l ≤ k * sum_list_with g l); [|lia].
  apply IH. intros y Hy. apply H. by right.
Qed.
Lemma packet_bytes_eq l : Forall (fun p => length (ap_packet p) = N.to_nat 2252) l -> packet_bytes l = N.to_nat 2252 * length l.
Proof. unfold packet_bytes. induction 1 as [|p l Hp _ IH]; cbn [sum_list_with length]; lia. Qed.

Lemma stock_sane secret : sane (stock secret).
Proof.
  constructor.
  - by vm_compute.
  - assert (H : f_in (/ 4)%R (/ 4)%R (f_lit 1 4)).
    { assert (E : bpow radix2 (-2) = (/ 4)%R) by done. assert (fixed (/ 4)%R) by (rewrite <- E; by apply fixed_bpow).
      apply (in_div _ _ 1 1 4 4)%R; try done; try lra; [by apply (in_of_N 1 1 1)|by apply (in_of_N 4 4 4)]. }
    eapply in_weaken; [| |exact H]; lra.
  - done.
  - intros c [= <-]. done.
Qed.

Section stock.
  Context (pr : prims) (Hok : prims_ok pr) (secret : option bytes).

  (** The rates: a packet every 100 ms on average from a mixnode, every second from another node; room
      for 50 packets, or for 25 packets of one message. *)
  Theorem C74_rates hist m rel s :
    reachable pr (stock secret) hist m -> ss_get (mx_sessions m) rel = SlFull s ->
    if tp_is_mixnode (se_topology s)
    then se_mean_period s = 100000000%N /\ aq_config (se_authored s) = ApqConfig 50 true
    else se_mean_period s = 1000000000%N /\ aq_config (se_authored s) = ApqConfig 25 false.
  Proof.
    intros Hr Hs. pose proof (reachable_ok pr Hok _ _ _ Hr) as Hm.
    pose proof (so_config _ _ _ (mx_ok_full _ _ _ _ _ Hm Hs)) as H.
    destruct (tp_is_mixnode (se_topology s)).
    - destruct H as [-> ->]. done.
    - destruct H as (c & [= <-] & -> & ->). done.
  Qed.

  (** Requests: 50625 bytes of data make 25 packets, which are never too many. More are, always, whatever
      the session. *)
  Theorem C74_request hist m index dest id data k ns r n :
    reachable pr (stock secret) hist m -> args_ok id data k -> length (ns_local_peer_id ns) = 32 ->
    needs (data_len data) k n ->
    (k = 0%N -> (n ≤ 25 <-> (data_len data <= 50625)%N)) /\
    (25 < n -> post_request pr m index dest id data k ns r = Val (m, dest, Err PeTooManyFragments)) /\
    forall rel s, usable m index rel s -> (forall d, dest = Some d -> valid_index (se_topology s) d) ->
      forall m' dest' e, post_request pr m index dest id data k ns r = Val (m', dest', Err e) -> stock_refusal s n e.
  Proof.
    intros Hr Ha Hns Hn. pose proof (reachable_ok pr Hok _ _ _ Hr) as Hm. pose proof (mo_config _ _ _ Hm) as Hc.
    assert (Hmax : cf_max_fragments_per_message (mx_config m) = 25%N) by (by rewrite Hc).
    split; [intros ->; by apply needs_data|].
    assert (Hbig : 25 < n -> post_request pr m index dest id data k ns r = Val (m, dest, Err PeTooManyFragments)); [|split; [done|]].
    - intros Hlt. destruct Ha as (_ & Hwf & Hd & Hs). unfold post_request.
      pose proof (C02_total id data k Hwf Hd Hs) as Ht.
      destruct (fragment_blueprints id data k) as [[bs|]|] eqn:Eb; [|done|done].
      rewrite (needs_unique _ _ _ _ Hn (needs_blueprints _ _ _ _ Hwf Hd Hs Eb)) in *. cbn [out_bind].
      rewrite Hmax. by destruct (N.ltb_spec 25 (N.of_nat (length bs))) as [|]; [|lia].
    - intros rel s Hu Hv m' dest' e E.
      pose proof (C35_post_request pr Hok m index dest id data k ns r (mx_posting pr _ m (proj1 Hr) Hm) Ha Hns) as H.
      rewrite E in H. destruct H as (_ & _ & H).
      { intros d rel' s' Ed Hu'. destruct (usable_unique _ _ _ _ _ _ Hu Hu') as [<- <-]. by apply Hv. }
      assert (Hrates := C74_rates hist m rel s Hr (usable_get _ _ _ _ Hu)).
      destruct e; cbn; try (exact (usable_unusable _ _ _ _ _ Hu H)); try done.
      + destruct (H n Hn) as [H'|[H'|(rel' & s' & Hu' & H')]]; [lia|lia|].
        destruct (usable_unique _ _ _ _ _ _ Hu Hu') as [<- <-].
        destruct (tp_is_mixnode _); destruct Hrates as [_ Eq]; rewrite Eq in H'; cbn in H'; lia.
      + destruct H as (rel' & s' & n' & Hu' & Hn' & Hcap & Hfit).
        destruct (usable_unique _ _ _ _ _ _ Hu Hu') as [<- <-]. rewrite (needs_unique _ _ _ _ Hn' Hn) in *.
        assert (Hn25 : n ≤ 25).
        { destruct (decide (n ≤ 25)) as [|Hgt]; [done|]. rewrite Hbig in E by lia. done. }
        split; [done|].
        destruct (tp_is_mixnode _); destruct Hrates as [_ Eq]; rewrite Eq in Hfit; cbn in Hfit; unfold fits in Hfit.
        * destruct (decide (50 < length (aq_queue (se_authored s)) + n)) as [|Hge]; [done|]. destruct Hfit. split; [lia|done].
        * intros Hq. rewrite Hq in Hfit. cbn in Hfit. destruct Hfit. split; [lia|done].
  Qed.
  (** What is accepted: at most 25 packets, which every other default node takes. *)
  Theorem C74_accepted hist m index dest id data k ns r m' dest' mt :
    let c := CallPostRequest index dest id data k ns r in
    reachable pr (stock secret) hist m -> call_ok c -> exec pr m c = Val (m', RespPost dest' (Ok mt)) ->
    exists rel s packets entries,
      PPost.queued m rel s packets entries m' /\ N.of_nat (length entries) = k /\
      needs (data_len data) k (length packets) /\ length packets ≤ 25 /\
      (forall secret', (N.of_nat (length packets) <= cf_max_fragments_per_message (stock secret'))%N) /\
      (k <= 225)%N /\
      (** up to 200 SURBs of one request are all good when it leaves *)
      ((k <= 200)%N -> Forall (fun e => sk_entry (mx_keystore m') e.1 = Some e.2) entries) /\
      (** of more, the first are not *)
      (NoDup (entries.*1) -> (200 < k)%N ->
         Forall (fun e => sk_entry (mx_keystore m') e.1 = None) (take (N.to_nat k - 200) entries)).
  Proof.
    intros c Hr Hc He. pose proof (reachable_ok pr Hok _ _ _ Hr) as Hm. pose proof (mo_config _ _ _ Hm) as Hcfg.
    assert (Hcap : N.to_nat (cf_surb_keystore_capacity (stock secret)) = 200) by done.
    pose proof (exec_step pr Hok _ _ _ _ _ (proj1 Hr) Hm Hc He) as Hst. pose proof (step_inv pr Hok _ _ _ _ _ (proj1 Hr) Hm Hc Hst) as Hm1.
    pose proof (mo_keystore _ _ _ Hm) as [_ Hcap0]. pose proof (mo_keystore _ _ _ Hm1) as [Hks1 _]. inversion Hst; subst.
    match goal with H : posted _ _ _ _ _ _ _ _ _ _ _ _ _ _ _ _ _ |- _ => rename H into Hp end.
    assert (Hq := posted_queued pr _ _ _ _ _ _ _ _ _ _ _ _ _ _ _ _ (mx_posting pr _ m (proj1 Hr) Hm) Hp).
    pose proof (po_number _ _ _ _ _ _ _ _ _ _ _ _ _ _ _ _ _ Hp) as Hn.
    pose proof (po_fits _ _ _ _ _ _ _ _ _ _ _ _ _ _ _ _ _ Hp) as [_ Hmax]. rewrite Hcfg in Hmax. cbn in Hmax.
    pose proof (po_surbs _ _ _ _ _ _ _ _ _ _ _ _ _ _ _ _ _ Hp) as Hk.
    exists rel, s, (map mp_packet ps), (map (surb_entry id) (all_surbs ps)). rewrite !map_length.
    assert (Hl : length (map (surb_entry id) (all_surbs ps)) = N.to_nat k) by (rewrite map_length; lia).
    split; [exact Hq|]. split; [exact Hk|]. split; [exact Hn|]. split; [lia|]. split; [done|].
    split; [eapply needs_surbs; [exact Hn|lia]|]. split.
    - intros Hle. apply Forall_lookup_2. intros i e Hi. eapply queued_kept; [exact Hq|exact Hks1|exact Hi|].
      rewrite Hcap0, Hcap, Hl. pose proof (lookup_lt_Some _ _ _ Hi). lia.
    - intros Hnd Hgt. apply Forall_lookup_2. intros i e Hi. apply lookup_take_Some in Hi as [Hi Hlt].
      eapply queued_lost; [exact Hq|exact Hi|exact Hnd|]. rewrite Hcap0, Hcap, Hl. lia.
  Qed.

  (** Replies: with 25 SURBs, 50625 bytes can be sent. *)
  Theorem C74_reply hist m surbs index id data rel s m' left res :
    reachable pr (stock secret) hist m -> args_ok id data 0 -> usable m index rel s ->
    (data_len data <= 50625)%N -> 25 ≤ length surbs ->
    (if tp_is_mixnode (se_topology s) then length (aq_queue (se_authored s)) ≤ 25 else aq_queue (se_authored s) = []) ->
    post_reply pr m surbs index id data = Val (m', left, res) ->
    match res with
    | Ok _ => exists n, needs (data_len data) 0 n /\ n ≤ 25 /\ left = take (length surbs - n) surbs
    | Err e => exists bad, bad ∈ surbs /\ bad_surb (se_topology s) bad e
    end.
  Proof.
    intros Hr Ha Hu Hd Hl Hq E. pose proof (reachable_ok pr Hok _ _ _ Hr) as Hm. pose proof (mo_config _ _ _ Hm) as Hcfg.
    assert (Hrates := C74_rates hist m rel s Hr (usable_get _ _ _ _ Hu)).
    pose proof (C37_post_reply pr m surbs index id data (mx_posting pr _ m (proj1 Hr) Hm) Ha) as
      [(e & E' & He)|(rel' & s' & bs & used & packets & left' & res' & Hu' & Hb & Hn & Hfit & E' & Hres)]; rewrite E' in E.
    - injection E as <- <- <-. exfalso.
      assert (Hn : exists n, needs (data_len data) 0 n).
      { destruct Ha as (_ & Hwf & Hd' & Hs). pose proof (C02_total id data 0 Hwf Hd' Hs) as Ht.
        destruct (fragment_blueprints id data 0) as [[bs|]|] eqn:Eb; [| |done].
        - exists (length bs). by eapply needs_blueprints.
        - destruct (pack_data _ Hd) as (l & Hp & Hl'). specialize (Ht l Hp). lia. }
      destruct Hn as [n Hn]. assert (n ≤ 25) by (by apply (needs_data _ _ Hn)).
      destruct e; cbn in He; try (exact (usable_unusable _ _ _ _ _ Hu He)); try done.
      + destruct (He n Hn) as [H'|[H'|[H'|(rel' & s' & Hu' & H')]]]; [lia|rewrite Hcfg in H'; cbn in H'; lia|lia|].
        destruct (usable_unique _ _ _ _ _ _ Hu Hu') as [<- <-].
        destruct (tp_is_mixnode _); destruct Hrates as [_ Eq]; rewrite Eq in H'; cbn in H'; lia.
      + destruct He as (rel' & s' & n' & Hu' & Hn' & _ & Hnf). destruct (usable_unique _ _ _ _ _ _ Hu Hu') as [<- <-].
        rewrite (needs_unique _ _ _ _ Hn' Hn) in *. apply Hnf. unfold fits.
        destruct (tp_is_mixnode _); destruct Hrates as [_ Eq]; rewrite Eq; cbn; [split; [lia|done]|]. rewrite Hq. cbn. split; [lia|done].
    - injection E as _ <- <-. destruct (usable_unique _ _ _ _ _ _ Hu Hu') as [<- <-]. destruct res' as [|e].
      + destruct Hres as [Es Hf]. exists (length bs). split; [done|]. split; [by apply (needs_data _ _ Hn)|].
        rewrite Es, app_length, reverse_length, <- (Forall3_length_lm _ _ _ _ Hf).
        replace (length left' + length bs - length bs) with (length left') by lia. by rewrite take_app.
      + destruct Hres as (bs1 & b & bs2 & bad & _ & Es & _ & Hbad). exists bad. split; [|done]. rewrite Es.
        apply elem_of_app. right. apply elem_of_app. left. by apply elem_of_list_singleton.
  Qed.
  (** Memory: less than five million bytes of packets and fragments. *)
  Theorem C74_memory hist m :
    reachable pr (stock secret) hist m ->
    (N.of_nat (held_bytes m) <= 4996800)%N /\
    length (fq_queue (mx_forward m)) ≤ 300 /\ length (sk_surbs (mx_keystore m)) ≤ 200.
  Proof.
    intros Hr. destruct (C56_memory pr Hok _ _ _ Hr) as (_ & Hf & Hs & _ & Hfr & Him & Hss & Hfp).
    cbn [stock cf_forward_capacity cf_surb_keystore_capacity cf_max_incomplete_fragments default_config] in Hf, Hs, Hfr.
    split; [|lia].
    assert (H1 : packet_bytes (map fp_packet (fq_queue (mx_forward m))) = N.to_nat 2252 * length (fq_queue (mx_forward m))).
    { rewrite packet_bytes_eq, map_length; [done|]. by apply Forall_map. }
    assert (H2 : forall rel, session_bytes m rel ≤ N.to_nat 2252 * 50).
    { intros rel. unfold session_bytes. destruct (ss_get (mx_sessions m) rel) as [| | |s] eqn:E; try lia.
      destruct (Hss rel s E) as (sc & Hsc & Hlen & Hp & _). rewrite packet_bytes_eq by done.
      assert (apc_capacity (sc_authored sc) <= 50)%N; [|nia].
      destruct (tp_is_mixnode _); injection Hsc as <-; cbn; lia. }
    assert (H3 : sum_list_with (fun e => fragment_bytes e.2) (fa_incomplete (mx_assembler m)) ≤
      N.to_nat 2048 * sum_list_with (fun e => fragments_of e.2) (fa_incomplete (mx_assembler m))).
    { apply sum_bound. intros [k im] Hin. destruct (Him k im Hin) as [_ Hb]. cbn [snd]. unfold fragment_bytes, fragments_of.
      assert (Hall : forall f, f ∈ omap Datatypes.id (im_fragments im) -> length f = N.to_nat 2048).
      { intros f (o & Ho & Eo)%elem_of_list_omap. cbn in Eo. subst o. by apply Hb. }
      clear -Hall. induction (omap Datatypes.id (im_fragments im)) as [|f l IH]; cbn [sum_list_with length]; [lia|].
      rewrite (Hall f) by left. assert (sum_list_with length l ≤ N.to_nat 2048 * length l); [|lia].
      apply IH. intros g Hg. apply Hall. by right. }
    pose proof (H2 RCurrent). pose proof (H2 RPrev). unfold held_bytes. lia.
  Qed.

  (** No panics but those of C53. *)
  Theorem C74_no_panic hist m c :
    exp1_ok (pr_exp1 pr) -> reachable pr (stock secret) hist m -> call_ok c -> exec pr m c = Panic ->
    exists index dest id data num_surbs ns r, c = CallPostRequest index dest id data num_surbs ns r /\
      ((exists d rel s, dest = Some d /\ usable m index rel s /\ ~ valid_index (se_topology s) d) \/
       (0 < num_surbs)%N /\ exists n, needs (data_len data) num_surbs n /\ n ≤ 25 /\
         clash (1 + 196 * n + 244 * N.to_nat num_surbs) (mx_keystore m) r).
  Proof.
    intros He Hr Hc H.
    destruct (C53_no_panic pr Hok _ hist m c He (stock_sane secret) Hr Hc H)
      as (index & dest & id & data & k & ns & r & -> & [Hd|(Hk & n & Hn & Hcl)]);
      exists index, dest, id, data, k, ns, r; (split; [done|]); [by left|right].
    split; [done|]. exists n. split; [done|]. split; [|done].
    destruct (decide (n ≤ 25)) as [|Hgt]; [done|]. exfalso. destruct Hc as (Ha & Hns & _).
    destruct (C74_request hist m index dest id data k ns r n Hr Ha Hns Hn) as (_ & Hbig & _).
    cbn [exec] in H. rewrite Hbig in H by lia. done.
  Qed.
End stock.

(** The request manager: up to 20 requests, each posted at most 12 times, and 12 times if it is neither
    removed nor refused and is no longer managed. *)
Theorem C74_requests {W Req : Type} post now fresh_id handling_delay valid (Hpost : @post_law W Req valid post)
    h m d (f : Req -> bool) :
  rm_reach post now fresh_id handling_delay default_rm_config h m d ->
  length (managed m) ≤ 20 /\
  (posts f (rqm_log m) <= 12 * count f (inserted h))%N /\
  (count f (removed h) = 0%N -> count f (post_errs (rqm_log m)) = 0%N -> count f (map rst_request (managed m)) = 0%N ->
   posts f (rqm_log m) = (12 * count f (inserted h))%N).
Proof.
  intros Hr. destruct (C43_capacity post now fresh_id handling_delay valid Hpost _ _ _ _ Hr) as [_ H1].
  pose proof (C44_posts post now fresh_id handling_delay valid Hpost _ _ _ _ f Hr) as H2.
  pose proof (C44_all_posts post now fresh_id handling_delay valid Hpost _ _ _ _ f Hr) as H3.
  change (rmc_num_destinations default_rm_config * rmc_num_attempts_per_destination default_rm_config *
          rmc_num_posts_per_attempt default_rm_config)%N with 12%N in H2, H3.
  change (rmc_capacity default_rm_config) with 20%N in H1. split; [lia|]. done.
Qed.
(** The reply manager: at most 400 requests remembered, a reply posted at most twice a time, and not
    again within ten seconds. *)
Theorem C74_replies {W : Type} post now fresh_id h m :
  @ym_reach W post now fresh_id default_ym_config h m ->
  length (keys m) ≤ 400 /\
  (forall w c m' w' l a, ym_exec post now fresh_id m (w, []) c = Val (m', (w', l), a) -> length (made_posts l) ≤ 2) /\
  forall id x h' y m', ym_run post now fresh_id (remembers id) m (x :: h' ++ [y]) m' ->
    about (yi_call x) = id -> about (yi_call y) = id -> made_posts (yi_log x) <> [] -> made_posts (yi_log y) <> [] ->
    Sorted.StronglySorted N.le (all_times (x :: h' ++ [y])) ->
    exists tx ty, times (yi_log x) = [tx] /\ times (yi_log y) = [ty] /\ (tx + 10000000000 <= ty)%N.
Proof.
  intros Hr. split; [|split].
  - destruct (C48_bounded post now fresh_id _ _ _ Hr) as [_ H]. change (ymc_capacity default_ym_config) with 400%N in H. lia.
  - intros w c m' w' l a He. destruct (C50_copies post now fresh_id _ _ _ _ _ _ _ He) as [H _].
    destruct (reach_ok post now fresh_id _ _ _ Hr) as [-> _] in H. exact H.
  - intros id x h' y m' Hrun H1 H2 H3 H4 H5.
    exact (C50_cooldown post now fresh_id _ _ _ _ _ _ _ _ Hr Hrun H1 H2 H3 H4 H5).
Qed.
