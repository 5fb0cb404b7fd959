(** C21, C23, C24: the packet queues. *)
From Verif Require Export MPacketQueues LBase.

(** ** Forward queue: specification

    The queue is a multiset of packets; [least d l] says that [d] is the least deadline in [l]. *)
Definition least (d : instant) (l : list forward_packet) : Prop :=
  (exists p, p ∈ l /\ fp_deadline p = d) /\ forall p, p ∈ l -> (d <= fp_deadline p)%N.

Lemma least_unique d d' l : least d l -> least d' l -> d = d'.
Proof. intros [(p&?&<-) H1] [(p'&?&<-) H2]. apply N.le_antisymm; auto. Qed.
Lemma least_perm d l l' : l ≡ₚ l' -> least d l <-> least d l'.
Proof. intros H. unfold least. by setoid_rewrite H. Qed.

(** ** Proof *)
Lemma min_deadline_least l d : min_deadline l = Some d <-> least d l.
Proof.
  revert d. induction l as [|p l IH]; intros d; cbn [min_deadline].
  { split; [done|]. intros [(p&H%elem_of_nil&_) _]. done. }
  destruct (min_deadline l) as [e|] eqn:E.
  - assert (He : least e l) by by apply IH. destruct He as [(q&Hq&Hqe) He].
    assert (Hl : least (N.min (fp_deadline p) e) (p :: l)).
    { split.
      - destruct (N.min_spec (fp_deadline p) e) as [[? ->]|[? ->]].
        + exists p. split; [left|done].
        + exists q. split; [by right|done].
      - intros x [->|Hx]%elem_of_cons; [lia|]. specialize (He x Hx). lia. }
    split; [by intros H; injection H as <-|]. intros Hd. f_equal. by eapply least_unique.
  - assert (l = []) as ->. { destruct l as [|q l]; [done|]. cbn in E. by destruct (min_deadline l). }
    assert (Hl : least (fp_deadline p) [p]).
    { split; [exists p; split; [left|done]|]. intros x ->%elem_of_list_singleton. lia. }
    split; [by intros H; injection H as <-|]. intros Hd. f_equal. by eapply least_unique.
Qed.
Lemma min_deadline_None l : min_deadline l = None <-> l = [].
Proof.
  destruct l as [|p l]; [done|]. cbn. split; [|done]. by destruct (min_deadline l).
Qed.
Lemma deadline_positions_spec i d l k :
  k ∈ deadline_positions i d l <-> exists j p, k = i + j /\ l !! j = Some p /\ fp_deadline p = d.
Proof.
  revert i. induction l as [|p l IH]; intros i; cbn [deadline_positions].
  { rewrite elem_of_nil. split; [done|]. intros (j&p&_&H&_). done. }
  assert (E : k ∈ deadline_positions (S i) d l <->
              exists j q, k = i + S j /\ (p :: l) !! S j = Some q /\ fp_deadline q = d).
  { rewrite IH. cbn. split; intros (j&q&?&?&?); exists j, q; (split; [lia|done]). }
  destruct (decide (fp_deadline p = d)) as [Hd|Hd].
  - rewrite elem_of_cons, E. split.
    + intros [->|(j&q&?&?&?)]; [exists 0, p; split_and!; [lia|done|done]|by exists (S j), q].
    + intros ([|j]&q&Hk&Hq&Hqd); [left; lia|right; by exists j, q].
  - rewrite E. split.
    + intros (j&q&?&?&?). by exists (S j), q.
    + intros ([|j]&q&Hk&Hq&Hqd); [cbn in Hq; injection Hq as <-; done|]. by exists j, q.
Qed.
Lemma pop_position q tie d :
  min_deadline (fq_queue q) = Some d ->
  exists i p, deadline_positions 0 d (fq_queue q) !!
                N.to_nat (tie mod N.of_nat (length (deadline_positions 0 d (fq_queue q)))) = Some i /\
              fq_queue q !! i = Some p /\ fp_deadline p = d.
Proof.
  intros Hd. set (ps := deadline_positions 0 d (fq_queue q)).
  apply min_deadline_least in Hd as [(p&Hp&Hpd) Hmin].
  apply elem_of_list_lookup in Hp as [j Hj].
  assert (Hin : j ∈ ps) by (apply deadline_positions_spec; exists j, p; split_and!; [lia|done|done]).
  assert (Hlen : 0 < length ps) by (destruct ps; [by apply elem_of_nil in Hin|cbn; lia]).
  pose proof (N.mod_lt tie (N.of_nat (length ps)) ltac:(lia)).
  destruct (lookup_lt_is_Some_2 ps (N.to_nat (tie mod N.of_nat (length ps)))) as [i Hi]; [lia|].
  assert (Hi' := Hi). apply elem_of_list_lookup_2 in Hi.
  apply deadline_positions_spec in Hi as (j'&p'&->&?&?). by exists j', p'.
Qed.
Lemma delete_perm {A} (l : list A) i x : l !! i = Some x -> l ≡ₚ x :: delete i l.
Proof. apply delete_Permutation. Qed.

(** ** Forward queue: theorems *)

(** [next_deadline] is the least deadline. *)
Theorem C21_next_deadline (q : forward_queue) :
  (forall d, fq_next_deadline q = Some d <-> least d (fq_queue q)) /\
  (fq_next_deadline q = None <-> fq_queue q = []).
Proof. split; [intros d; apply min_deadline_least|apply min_deadline_None]. Qed.

(** Insertion with room adds exactly that packet and stays within capacity. It reports a change of
    the least deadline exactly when there is one. Without room it panics (a debug assertion). *)
Theorem C21_insert (q : forward_queue) (d : instant) (p : addressed_packet) :
  ((N.of_nat (length (fq_queue q)) < fq_capacity q)%N ->
   exists q' changed, fq_insert q d p = Val (q', changed) /\
     fq_queue q' ≡ₚ ForwardPacket d p :: fq_queue q /\ fq_capacity q' = fq_capacity q /\
     (N.of_nat (length (fq_queue q')) <= fq_capacity q')%N /\
     (changed = true <-> fq_next_deadline q' <> fq_next_deadline q)) /\
  ((fq_capacity q <= N.of_nat (length (fq_queue q)))%N -> fq_insert q d p = Panic) /\
  (fq_has_space q = true <-> (N.of_nat (length (fq_queue q)) < fq_capacity q)%N).
Proof.
  unfold fq_insert, fq_has_space. split_and!.
  - intros H. apply N.ltb_lt in H as Hb. rewrite Hb. cbn [assert_or_panic out_bind].
    do 2 eexists. split; [done|]. cbn [fq_queue fq_capacity]. split_and!; [|done| |].
    + by rewrite Permutation_app_comm.
    + rewrite app_length. cbn. lia.
    + rewrite negb_true_iff, bool_decide_eq_false. done.
  - intros H. apply N.ltb_ge in H. by rewrite H.
  - apply N.ltb_lt.
Qed.

(** Popping removes exactly one packet, which has the least deadline; it returns nothing only if the
    queue is empty. *)
Theorem C21_pop (q : forward_queue) (tie : N) :
  match fq_pop q tie with
  | (q', Some a) => exists p, fp_packet p = a /\ least (fp_deadline p) (fq_queue q) /\
                      fq_queue q ≡ₚ p :: fq_queue q' /\ fq_capacity q' = fq_capacity q
  | (q', None) => q' = q /\ fq_queue q = []
  end.
Proof.
  unfold fq_pop. destruct (min_deadline (fq_queue q)) as [d|] eqn:E.
  - destruct (pop_position q tie d E) as (i&p&-> & Hp & Hd). rewrite Hp. cbn.
    exists p. split_and!; [done| |by apply delete_perm|done].
    rewrite Hd. by apply min_deadline_least.
  - split; [done|]. by apply min_deadline_None.
Qed.
(** Every packet with the least deadline can be the one popped, so that the theorems about all
    [tie]s cover whatever order the binary heap produces. *)
Theorem C21_pop_any (q : forward_queue) (p : forward_packet) :
  p ∈ fq_queue q -> least (fp_deadline p) (fq_queue q) ->
  exists tie q', fq_pop q tie = (q', Some (fp_packet p)) /\ fq_queue q ≡ₚ p :: fq_queue q'.
Proof.
  intros [i Hi]%elem_of_list_lookup Hd. apply min_deadline_least in Hd as E.
  set (ps := deadline_positions 0 (fp_deadline p) (fq_queue q)).
  assert (Hin : i ∈ ps) by (apply deadline_positions_spec; exists i, p; split_and!; [lia|done|done]).
  apply elem_of_list_lookup in Hin as [k Hk]. assert (Hlt := Hk). apply lookup_lt_Some in Hlt.
  exists (N.of_nat k). unfold fq_pop. rewrite E. fold ps.
  rewrite N.mod_small, Nat2N.id, Hk, Hi by lia. eexists. split; [done|]. cbn. by apply delete_perm.
Qed.

(** ** Histories of a forward queue: what was inserted, what was popped *)
Inductive fq_history (capacity : N) : list forward_packet -> list addressed_packet -> forward_queue -> Prop :=
| FhNew : fq_history capacity [] [] (fq_new capacity)
| FhInsert ins out q d p q' changed :
    fq_history capacity ins out q -> fq_has_space q = true -> fq_insert q d p = Val (q', changed) ->
    fq_history capacity (ins ++ [ForwardPacket d p]) out q'
| FhPop ins out q tie q' a :
    fq_history capacity ins out q -> fq_pop q tie = (q', a) ->
    fq_history capacity ins (out ++ option_list a) q'.

(** In every history the queue is within its capacity, and the packets inserted are exactly those
    popped together with those still in the queue. *)
Theorem C21_history (capacity : N) (ins : list forward_packet) (out : list addressed_packet)
    (q : forward_queue) :
  fq_history capacity ins out q ->
  fq_capacity q = capacity /\ (N.of_nat (length (fq_queue q)) <= capacity)%N /\
  map fp_packet ins ≡ₚ out ++ map fp_packet (fq_queue q).
Proof.
  induction 1 as [|ins out q d p q' ch _ (Hc & Hl & Hp) Hs H|ins out q tie q' a _ (Hc & Hl & Hp) H].
  - cbn. split_and!; [done|lia|done].
  - destruct (C21_insert q d p) as (Ha & _ & Hb). apply Hb in Hs.
    destruct (Ha Hs) as (q2 & ch2 & E & Hperm & Hcap & Hlen & _). rewrite E in H. injection H as <- <-.
    split_and!; [congruence|congruence|].
    rewrite map_app, Hp. cbn. rewrite <- app_assoc. f_equiv.
    rewrite Hperm. cbn. by rewrite Permutation_app_comm.
  - pose proof (C21_pop q tie) as Hpop. rewrite H in Hpop. destruct a as [a|].
    + destruct Hpop as (p & <- & _ & Hperm & Hcap). split_and!; [congruence| |].
      * rewrite Hperm in Hl. cbn in Hl. lia.
      * rewrite Hp, Hperm. cbn. by rewrite <- app_assoc.
    + destruct Hpop as [-> _]. cbn. rewrite app_nil_r. done.
Qed.

(** ** Authored packet queue *)

(** Whether [k] packets fit, as the specification of [check_space]: never more than the capacity in
    total; in an empty queue only, if messages are not to be mixed. *)
Definition fits (capacity : N) (multiple : bool) (len k : N) : Prop :=
  (len + k <= capacity)%N /\ (multiple = false -> len = 0%N).

Theorem C23_check_space (q : authored_queue) (k : N) :
  match aq_check_space q k with
  | Ok _ => fits (apc_capacity (aq_config q)) (apc_multiple_messages (aq_config q)) (aq_len q) k
  | Err CseCapacity => (apc_capacity (aq_config q) < k)%N
  | Err CseLen => (k <= apc_capacity (aq_config q))%N /\
      ~ fits (apc_capacity (aq_config q)) (apc_multiple_messages (aq_config q)) (aq_len q) k
  end.
Proof.
  unfold aq_check_space, checked_sub, fits.
  destruct (N.leb_spec k (apc_capacity (aq_config q))); [|lia].
  destruct (apc_multiple_messages (aq_config q)); cbn [negb];
    destruct (N.ltb_spec (apc_capacity (aq_config q) - k) (aq_len q));
    destruct (N.ltb_spec 0 (aq_len q)); try (split; [lia|]); try done; try lia.
Qed.

(** The queue is first-in first-out. *)
Theorem C23_push (q : authored_queue) (p : addressed_packet) :
  ((aq_len q < apc_capacity (aq_config q))%N ->
   exists q', aq_push q p = Val q' /\ aq_queue q' = aq_queue q ++ [p] /\ aq_config q' = aq_config q) /\
  ((apc_capacity (aq_config q) <= aq_len q)%N -> aq_push q p = Panic).
Proof.
  unfold aq_push. split; intros H.
  - apply N.ltb_lt in H. rewrite H. cbn. by eexists.
  - apply N.ltb_ge in H. by rewrite H.
Qed.
Theorem C23_pop (q : authored_queue) :
  match aq_pop q with
  | (q', Some p, _) => aq_queue q = p :: aq_queue q' /\ aq_config q' = aq_config q
  | (q', None, space) => q' = q /\ aq_queue q = [] /\ space = false
  end.
Proof. unfold aq_pop. destruct (aq_queue q) eqn:E; cbn; by rewrite ?E. Qed.

(** Histories: messages of several packets are pushed after a successful check. *)
Fixpoint aq_push_all (q : authored_queue) (ps : list addressed_packet) : outcome authored_queue :=
  match ps with
  | [] => Val q
  | p :: ps' => q ← aq_push q p; aq_push_all q ps'
  end.
Inductive aq_history (cf : apq_config) : list addressed_packet -> list addressed_packet -> authored_queue -> Prop :=
| AhNew : aq_history cf [] [] (aq_new cf)
| AhMessage ins out q ps q' :
    aq_history cf ins out q -> aq_check_space q (N.of_nat (length ps)) = Ok tt ->
    aq_push_all q ps = Val q' -> aq_history cf (ins ++ ps) out q'
| AhPop ins out q q' a space :
    aq_history cf ins out q -> aq_pop q = (q', a, space) ->
    aq_history cf ins (out ++ option_list a) q'.

(** A checked message is pushed without panic. *)
Lemma aq_push_all_spec q ps :
  (aq_len q + N.of_nat (length ps) <= apc_capacity (aq_config q))%N ->
  exists q', aq_push_all q ps = Val q' /\ aq_queue q' = aq_queue q ++ ps /\ aq_config q' = aq_config q.
Proof.
  revert q. induction ps as [|p ps IH]; intros q H; cbn [aq_push_all].
  - exists q. by rewrite app_nil_r.
  - cbn [length] in H. destruct (C23_push q p) as [Ha _]. destruct Ha as (q1 & -> & Hq & Hc); [lia|]. cbn.
    destruct (IH q1) as (q2 & -> & Hq2 & Hc2).
    { unfold aq_len in *. rewrite Hc, Hq, app_length. cbn. lia. }
    exists q2. rewrite Hq2, Hq, <- app_assoc. split_and!; [done|done|congruence].
Qed.
Theorem C23_no_panic (q : authored_queue) (ps : list addressed_packet) :
  aq_check_space q (N.of_nat (length ps)) = Ok tt -> exists q', aq_push_all q ps = Val q'.
Proof.
  intros H. pose proof (C23_check_space q (N.of_nat (length ps))) as Hs. rewrite H in Hs.
  destruct (aq_push_all_spec q ps) as (q' & ? & _); [by destruct Hs|]. by exists q'.
Qed.
(** In every history the queue is within its capacity, and packets come out in the order they went
    in: what went in is what came out followed by what is queued. *)
Theorem C23_history (cf : apq_config) (ins out : list addressed_packet) (q : authored_queue) :
  aq_history cf ins out q ->
  aq_config q = cf /\ (aq_len q <= apc_capacity cf)%N /\ ins = out ++ aq_queue q.
Proof.
  induction 1 as [|ins out q ps q' _ (Hc & Hl & Hp) Hs H|ins out q q' a sp _ (Hc & Hl & Hp) H].
  - cbn. split_and!; [done|lia|done].
  - pose proof (C23_check_space q (N.of_nat (length ps))) as Hf. rewrite Hs in Hf. destruct Hf as [Hf _].
    destruct (aq_push_all_spec q ps Hf) as (q2 & E & Hq & Hc2). rewrite E in H. injection H as <-.
    split_and!; [congruence| |].
    + unfold aq_len in *. rewrite Hq, app_length, <- Hc. lia.
    + rewrite Hq, Hp. by rewrite app_assoc.
  - pose proof (C23_pop q) as Hpop. rewrite H in Hpop. destruct a as [a|].
    + destruct Hpop as [Hq Hc2]. split_and!; [congruence| |].
      * unfold aq_len in *. rewrite Hq in Hl. cbn [length] in Hl. lia.
      * rewrite Hp, Hq. cbn. by rewrite <- app_assoc.
    + destruct Hpop as (-> & Hq & _). cbn. by rewrite app_nil_r.
Qed.

(** ** C24 *)

(** If the pop makes room for a message that had none, it says so. *)
Theorem C24_space_event (q q' : authored_queue) (a : option addressed_packet) (space : bool) (k : N) :
  aq_pop q = (q', a, space) ->
  aq_check_space q k <> Ok tt -> aq_check_space q' k = Ok tt -> space = true.
Proof.
  intros H Hno Hyes. unfold aq_pop in H. destruct (aq_queue q) as [|p rest] eqn:Eq.
  { injection H as <- <- <-. done. }
  injection H as <- <- <-. pose proof (C23_check_space q k) as H1.
  destruct (aq_check_space q k) as [[]|[]]; [done| |].
  - unfold aq_check_space, checked_sub in Hyes. cbn [aq_config] in Hyes.
    destruct (N.leb_spec k (apc_capacity (aq_config q))); [lia|done].
  - match type of Hyes with aq_check_space ?q' _ = _ => pose proof (C23_check_space q' k) as H2 end.
    rewrite Hyes in H2. destruct H2 as [_ H2]. cbn [aq_config] in H2.
    destruct (apc_multiple_messages (aq_config q)); [done|]. cbn.
    apply bool_decide_eq_true. specialize (H2 eq_refl). unfold aq_len in H2. cbn in H2.
    destruct rest; [done|]. cbn in H2. lia.
Qed.
(** The event is not spurious: after it a one-packet message fits. *)
Theorem C24_not_spurious (q q' : authored_queue) (a : option addressed_packet) :
  (aq_len q <= apc_capacity (aq_config q))%N ->
  aq_pop q = (q', a, true) -> aq_check_space q' 1 = Ok tt.
Proof.
  intros Hl H. unfold aq_pop in H. destruct (aq_queue q) as [|p rest] eqn:Eq; [done|].
  injection H as <- <- Hs. unfold aq_len in Hl. rewrite Eq in Hl. cbn [length] in Hl.
  unfold aq_check_space, checked_sub. cbn [aq_config aq_queue aq_len].
  destruct (N.leb_spec 1 (apc_capacity (aq_config q))); [|lia].
  unfold aq_len. cbn [aq_queue].
  destruct (apc_multiple_messages (aq_config q)); cbn [negb] in *.
  - destruct (N.ltb_spec (apc_capacity (aq_config q) - 1) (N.of_nat (length rest))); [lia|done].
  - cbn in Hs. apply bool_decide_eq_true in Hs as ->. done.
Qed.
(** "Too large" is final: it depends only on the configuration, which no operation changes. *)
Theorem C24_too_large (q q' : authored_queue) (k : N) :
  aq_check_space q k = Err CseCapacity -> aq_config q' = aq_config q ->
  aq_check_space q' k = Err CseCapacity.
Proof.
  unfold aq_check_space. intros H ->. destruct (checked_sub _ _) as [x|]; [|done].
  by destruct (_ <? _)%N in H.
Qed.

(** ** Examples *)
Definition ex_ap (n : N) : addressed_packet := AddressedPacket [n] [n].
Example ex_forward :
  let q := ForwardQueue 3 [ForwardPacket 9%N (ex_ap 1); ForwardPacket 4%N (ex_ap 2); ForwardPacket 4%N (ex_ap 3)] in
  fq_next_deadline q = Some 4%N /\ (fq_pop q 0).2 = Some (ex_ap 2) /\ (fq_pop q 1).2 = Some (ex_ap 3) /\
  fq_insert q 1%N (ex_ap 4) = Panic.
Proof. vm_compute. done. Qed.
Example ex_forward_history : exists q, fq_history 2 [ForwardPacket 9%N (ex_ap 1); ForwardPacket 4%N (ex_ap 2)] [ex_ap 2] q.
Proof.
  eexists. eapply (FhPop _ _ [] _ 0 _ (Some (ex_ap 2))).
  - eapply (FhInsert _ [_]); [eapply (FhInsert _ []); [constructor|done|done]|done|done].
  - done.
Qed.
Example ex_authored_history :
  exists q, aq_history (ApqConfig 3 true) [ex_ap 1; ex_ap 2; ex_ap 3] [ex_ap 1] q /\
            aq_check_space q 1 = Ok tt /\ aq_check_space q 2 = Err CseLen /\ aq_check_space q 4 = Err CseCapacity.
Proof.
  eexists. split.
  - eapply (AhPop _ _ [] _ _ (Some (ex_ap 1))).
    + eapply (AhMessage _ [ex_ap 1] [] _ [ex_ap 2; ex_ap 3]).
      * eapply (AhMessage _ [] [] _ [ex_ap 1]); [constructor|done|done].
      * done.
      * done.
    + done.
  - done.
Qed.

Print Assumptions C21_next_deadline.
Print Assumptions C21_insert.
Print Assumptions C21_pop.
Print Assumptions C21_pop_any.
Print Assumptions C21_history.
Print Assumptions C23_check_space.
Print Assumptions C23_push.
Print Assumptions C23_pop.
Print Assumptions C23_no_panic.
Print Assumptions C23_history.
Print Assumptions C24_space_event.
Print Assumptions C24_not_spurious.
Print Assumptions C24_too_large.
