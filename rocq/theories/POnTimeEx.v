(** A concrete case of C69_on_time: in the network of PExample, node 8 posts a request of two packets to
    node 24, which arrive 22.9 seconds later, each mixnode having kept them for 10 seconds; 4.1 seconds
    after that node 24 posts a reply, which arrives 57.9 seconds after the request was posted. *)
From Coq Require Import Reals.
From Verif Require Import POnTime PExample PEndEx PRateEx LBase.
Local Open Scope N_scope.

(** ** Checking what C69 asks of a history *)
Fixpoint clocked_b (T : instant) (tr : list timed) : bool :=
  match tr with
  | [] => true
  | a :: tr =>
      (T <=? tm_at a) &&
      (match mt_event (tm_moment a) with EvHandle _ _ now _ => now =? tm_at a | _ => true end && clocked_b (tm_at a) tr)
  end.
Lemma clocked_b_spec tr : forall T, clocked_b T tr = true -> clocked T tr.
Proof.
  induction tr as [|a tr IH]; intros T H.
  { split; [by intros ? ?%elem_of_nil|done|by intros ????? ?%elem_of_nil]. }
  cbn [clocked_b] in H. apply andb_true_iff in H as [H1 H]. apply andb_true_iff in H as [H2 H].
  apply N.leb_le in H1. destruct (IH _ H) as [C1 C2 C3]. split.
  - intros b [->|Hb]%elem_of_cons; [done|]. specialize (C1 b Hb). lia.
  - intros [|i] [|j] b c Hb Hc Hij; cbn in Hb, Hc; [|injection Hb as <-|lia|].
    + rewrite Hb in Hc. injection Hc as <-. done.
    + apply C1. by eapply elem_of_list_lookup_2.
    + eapply (C2 i j); [done|done|lia].
  - intros b f p now msg [->|Hb]%elem_of_cons E; [|by eapply C3]. rewrite E in H2. by apply N.eqb_eq in H2.
Qed.

Definition sends_b (x : bytes) (p : addressed_packet) (a : timed) : bool :=
  match mt_event (tm_moment a) with
  | EvCall x' _ (RespPacket (Some q)) => bool_decide (x' = x) && bool_decide (q = p)
  | _ => false
  end.
Lemma sends_b_spec x p a :
  sends_b x p a = true <-> exists c, mt_event (tm_moment a) = EvCall x c (RespPacket (Some p)).
Proof.
  unfold sends_b. split.
  - destruct (mt_event (tm_moment a)) as [x' c [| | | |[q|]| | |]|]; intros H; try discriminate H.
    apply andb_true_iff in H as [H1 H2]. apply bool_decide_eq_true in H1, H2. subst. by exists c.
  - intros (c & ->). by rewrite !bool_decide_eq_true_2.
Qed.
Definition handled_by (p : addressed_packet) (t : instant) (tr : list timed) : bool :=
  existsb (fun b => bool_decide (handles (tm_moment b) p) && (tm_at b <=? t)) tr.
Lemma handled_by_spec p t tr :
  handled_by p t tr = true -> exists b, b ∈ tr /\ handles (tm_moment b) p /\ tm_at b <= t.
Proof.
  unfold handled_by. intros (b & Hb & H)%existsb_exists. apply elem_of_list_In in Hb.
  apply andb_true_iff in H as [H1 H2]. apply bool_decide_eq_true in H1. apply N.leb_le in H2. by exists b.
Qed.
Definition punctual_b (T : instant) (n q : duration) (x : bytes) (trips : list (list stage)) (tr : list timed) : bool :=
  forallb (fun trip =>
    match head trip with
    | Some g =>
        existsb (fun a => sends_b x (sg_to g) a && (tm_at a <=? T + q)) tr &&
        forallb (fun a => negb (sends_b x (sg_to g) a) || handled_by (sg_to g) (tm_at a + n) tr) tr
    | None => true
    end &&
    forallb (fun g =>
      forallb (fun a => forallb (fun z =>
        forallb (fun fp => negb (bool_decide (fp_packet fp = sg_to g)) || handled_by (sg_to g) (fp_deadline fp + n) tr)
          (fq_queue (mx_forward (w_node (mt_after (tm_moment a)) z)))) ex_peers) tr) trip) trips.
Lemma punctual_b_spec T n q x trips tr w w' :
  history toy_prims w (moments tr) w' -> inside (moments tr) = true -> calm w ->
  punctual_b T n q x trips tr = true -> punctual T n q x trips tr.
Proof.
  intros Hh Hi Hc H. unfold punctual_b in H. rewrite forallb_forall in H.
  assert (Hcalm : forall a, a ∈ tr -> calm (mt_after (tm_moment a))).
  { intros a Ha. apply elem_of_list_split in Ha as (t1 & t2 & ->). unfold moments in Hh, Hi. rewrite map_app in Hh, Hi.
    cbn [map] in Hh, Hi. destruct (history_split _ _ _ _ _ _ Hh) as (Hh1 & Hhap & _).
    apply (inside_calm w (map tm_moment t1 ++ [tm_moment a])); [| |exact Hc].
    - clear -Hh1 Hhap. remember (tm_moment a) as mt. clear Heqmt a. revert Hhap Hh1. generalize (map tm_moment t1). intros l. revert w.
      induction l as [|m0 l IH]; intros w Hhap Hh1; inversion Hh1; subst; cbn [app].
      + destruct mt as [wb e wa]. cbn in *. econstructor; [done|constructor].
      + econstructor; [done|]. by apply IH.
    - unfold inside in *. rewrite forallb_app in *. cbn [forallb] in *.
      apply andb_true_iff in Hi as [-> Hi]. apply andb_true_iff in Hi as [-> _]. done. }
  split.
  - intros trip g Hin Hg. apply elem_of_list_In in Hin. specialize (H _ Hin). rewrite Hg in H.
    apply andb_true_iff in H as [H _]. apply andb_true_iff in H as [H _]. apply existsb_exists in H as (a & Ha & H).
    apply andb_true_iff in H as [H1 H2]. apply sends_b_spec in H1 as (c & H1). apply N.leb_le in H2.
    exists a, c. split; [by apply elem_of_list_In|done].
  - intros trip g a c Hin Hg Ha E. apply elem_of_list_In in Hin, Ha. specialize (H _ Hin). rewrite Hg in H.
    apply andb_true_iff in H as [H _]. apply andb_true_iff in H as [_ H]. rewrite forallb_forall in H. specialize (H _ Ha).
    apply orb_true_iff in H as [H|H]; [|by apply handled_by_spec]. apply negb_true_iff in H.
    assert (sends_b x (sg_to g) a = true) by (apply sends_b_spec; by exists c). congruence.
  - intros trip g a z dl Hin Hg Ha Hq.
    destruct (decide (z ∈ ex_peers)) as [Hz|Hz].
    2:{ rewrite (Hcalm a Ha z Hz) in Hq. by apply elem_of_nil in Hq. }
    apply elem_of_list_In in Hin, Hg, Ha, Hz, Hq. specialize (H _ Hin).
    apply andb_true_iff in H as [_ H]. rewrite forallb_forall in H. specialize (H _ Hg).
    rewrite forallb_forall in H. specialize (H _ Ha). rewrite forallb_forall in H. specialize (H _ Hz).
    rewrite forallb_forall in H. specialize (H _ Hq). cbn [fp_packet fp_deadline] in H.
    apply orb_true_iff in H as [H|H]; [|by apply handled_by_spec]. apply negb_true_iff, bool_decide_eq_false in H. done.
Qed.

(** ** Histories *)
Definition with_times (l : list (instant * act)) (mts : list moment) : list timed := zip_with Timed (map fst l) mts.
Lemma with_times_moments (l : list (instant * act)) mts : length mts = length l -> moments (with_times l mts) = mts.
Proof.
  unfold with_times, moments. revert mts. induction l as [|x l IH]; intros [|m mts] Hl; cbn in *; try done.
  f_equal. apply IH. lia.
Qed.
Lemma play_w_length l : forall w tr w', play_w w l = Some (tr, w') -> length tr = length l.
Proof.
  induction l as [|a l IH]; intros w tr w' H; cbn [play_w] in H; [by injection H as <- <-|].
  destruct (next w a) as [mt|]; [|done]. destruct (play_w (mt_after mt) l) as [[tr1 w1]|] eqn:E1; [|done].
  injection H as <- <-. cbn. by rewrite (IH _ _ _ E1).
Qed.
(** Messages are returned at time [t] only. *)
Definition only_at (t : instant) (tr : list timed) : bool :=
  forallb (fun a => match mt_event (tm_moment a) with EvHandle _ _ _ (Some _) => t =? tm_at a | _ => true end) tr.
Lemma only_at_spec t tr a y msg : only_at t tr = true -> a ∈ tr -> returned y msg a -> tm_at a = t.
Proof.
  unfold only_at. rewrite forallb_forall. intros H Ha%elem_of_list_In (b & p & now & E & _).
  specialize (H _ Ha). rewrite E in H. by apply N.eqb_eq in H.
Qed.
Definition same_mean (w : world) (u : duration) : bool :=
  forallb (fun mn => cf_mean_forwarding_delay (mx_config (w_node w (mn_peer_id mn))) =? u) ex_nodes.
Lemma same_mean_spec w u :
  same_mean w u = true -> forall mn, mn ∈ ex_nodes -> cf_mean_forwarding_delay (mx_config (w_node w (mn_peer_id mn))) = u.
Proof. intros H mn Hmn%elem_of_list_In. unfold same_mean in H. rewrite forallb_forall in H. by apply N.eqb_eq, H. Qed.

(** What becomes of a request of node 8 to node 24 with one SURB, in a network as in [w1], if [out] and
    [back] happen: it arrives at time [t1], node 24 posts a reply at time [t2], which arrives at time [t3];
    packets wait for [q1] and [q2] and take [n] at most. *)
Section case.
  Context (id : bytes) (data : scattered N) (out back : list (instant * act)) (T n q1 q2 : N) (t1 t2 t3 : instant).
  Definition timely (w1 : world) : bool :=
    match play_w w1 (map snd out) with
    | Some (mts, w2) =>
        match check w1 mts w2 (ex_peer 8) (ex_peer 24) id (queue_of w1 (ex_peer 8)) with
        | Some cs => let tr := with_times out mts in
            clocked_b T tr && (punctual_b T n q1 (ex_peer 8) cs tr &&
            (only_at t1 tr &&
            (forallb (fun u => bool_decide (length u = 222%nat)) (got cs mts) &&
            ((length (got cs mts) =? 1)%nat && (session_b w2 (ex_peer 24) (fun _ => true) &&
            match next w2 (ADo (ex_peer 24) (ex_answer (got cs mts))) with
            | Some (Moment _ (EvCall _ _ (RespReply [] (Ok _))) w3) =>
                match play_w w3 (map snd back) with
                | Some (mts', w4) =>
                    match check w3 mts' w4 (ex_peer 24) (ex_peer 8) (replicate 16 7%N) (queue_of w3 (ex_peer 24)) with
                    | Some cs' => let tr' := with_times back mts' in
                        clocked_b t2 tr' &&
                        (punctual_b t2 n q2 (ex_peer 24) cs' tr' && (only_at t3 tr' && kept_b w1 mts'))
                    | None => false
                    end
                | None => false
                end
            | _ => false
            end)))))
        | None => false
        end
    | None => false
    end.
  Definition timely_case (me : target) (surbs : list bytes) entries (trips : list (list stage)) (w1 : world)
      (h q : duration) : Prop :=
    exists tr w2 a,
      conveyed toy_prims ex_nodes 0 (ready_request toy_prims ex_nodes 0) trips (ex_peer 8) w1 (moments tr) w2 /\
      receives trips (ex_peer 24) id w1 tr /\ clocked T tr /\ punctual T n q1 (ex_peer 8) trips tr /\
      a ∈ tr /\ returned (ex_peer 24) (MRequest (RequestMessage 0 id (sc_contents data) surbs)) a /\ tm_at a = t1 /\
      exists s2 w3 tr' w4 rtrips used b,
        happens toy_prims w2 (EvCall (ex_peer 24) (ex_answer surbs) (RespReply [] (Ok tt))) w3 /\
        usable (w_node w2 (ex_peer 24)) 0 RCurrent s2 /\ tp_mixnodes (se_topology s2) = ex_nodes /\
        t2 <= tm_at a + h /\
        reply_queued toy_prims 0 id ex_nodes ex_key me (ex_peer 8) surbs entries w2
          (ex_peer 24) surbs [] (replicate 16 7) (Scattered 2 [4; 5] [] []) RCurrent w3 rtrips used /\
        length rtrips = 1%nat /\
        conveyed toy_prims ex_nodes 0 (ready_reply toy_prims ex_nodes 0 (map snd used)) rtrips (ex_peer 24) w3 (moments tr') w4 /\
        receives rtrips (ex_peer 8) (replicate 16 7) w3 tr' /\ clocked t2 tr' /\
        punctual t2 n q2 (ex_peer 24) rtrips tr' /\ q1 + q2 <= q /\
        b ∈ tr' /\ returned (ex_peer 8) (MReply (ReplyMessage id [4; 5])) b /\ tm_at b = t3.

  Lemma timely_spec (w w1 : world) s trips surbs entries h q (P : instant -> Prop) :
    world_ok toy_prims w -> calm w1 ->
    usable (w_node w (ex_peer 8)) 0 RCurrent s -> aq_queue (se_authored s) = [] ->
    self (se_topology s) (ex_ns 8) = TMixnodeIndex 0 -> entries_of w (ex_peer 8) = [] ->
    request_sent toy_prims w (ex_peer 8) 0 id data 1 RCurrent ex_nodes ex_key 2 w1 (ex_peer 24) trips surbs ->
    mx_keystore (w_node w1 (ex_peer 8)) = ks_pushes (mx_keystore (w_node w (ex_peer 8))) entries ->
    length entries = length surbs ->
    answered_by toy_prims 0 id (sc_contents data) ex_nodes ex_key (self (se_topology s) (ex_ns 8)) (ex_peer 8) surbs entries
      (ex_peer 24) trips w1 T h n q P ->
    Forall act_ok (map snd out) -> Forall act_ok (map snd back) ->
    (t2 <=? t1 + h) = true -> (q1 + q2 <=? q) = true -> timely w1 = true ->
    timely_case (self (se_topology s) (ex_ns 8)) surbs entries trips w1 h q /\ P t3.
  Proof.
    intros Hw Hcalm1 Hus Hq Hself He' Hsent Hks Hle Hgo Hok1 Hok2 Hh Hqq H. apply N.leb_le in Hh, Hqq. unfold timely in H.
    destruct (play_w w1 (map snd out)) as [[mts w2]|] eqn:E2; [|discriminate H].
    pose proof (play_w_history _ _ _ _ Hok1 E2) as Hh1.
    assert (Hm1 : moments (with_times out mts) = mts).
    { apply with_times_moments. by rewrite (play_w_length _ _ _ _ E2), map_length. }
    clear E2. set (tr := with_times out mts) in *.
    destruct (check w1 mts w2 _ _ _ _) as [cs|] eqn:Ec1; [|discriminate H]. cbv zeta in H.
    apply andb_true_iff in H as [Hck1 H]. apply andb_true_iff in H as [Hpu1 H]. apply andb_true_iff in H as [Hnb1 H].
    apply andb_true_iff in H as [Hlen H]. apply andb_true_iff in H as [Hgot H].
    apply andb_true_iff in H as [Hs2 H]. apply Nat.eqb_eq in Hgot.
    destruct (session_b_spec _ _ _ Hs2) as (s2 & Hus2 & Hnodes2 & Hq2 & _). clear Hs2.
    assert (Hlen' : Forall (fun u => length u = 222%nat) (got cs mts)).
    { apply Forall_forall. intros u0 Hu0. rewrite forallb_forall in Hlen. apply elem_of_list_In in Hu0.
      specialize (Hlen _ Hu0). by apply bool_decide_eq_true in Hlen. }
    destruct (next w2 (ADo (ex_peer 24) (ex_answer (got cs mts)))) as [[w0 e w3]|] eqn:E3; [|discriminate H].
    destruct (next_happens _ _ _ (ex_answer_ok _ Hlen') E3) as [Hhap2 Hw0]. cbn [mt_event mt_after mt_before] in Hhap2, Hw0. subst w0.
    assert (Hev : exists a, e = EvCall (ex_peer 24) (ex_answer (got cs mts)) a).
    { cbn [next] in E3. destruct (exec _ _ _) as [[m a]|]; [|discriminate E3]. injection E3 as <- _. by exists a. }
    destruct Hev as [a ->]. clear E3.
    destruct a as [| | | | | |[|] [[]|]|]; try discriminate H.
    destruct (play_w w3 (map snd back)) as [[mts' w4]|] eqn:E4; [|discriminate H].
    pose proof (play_w_history _ _ _ _ Hok2 E4) as Hh2.
    assert (Hm2 : moments (with_times back mts') = mts').
    { apply with_times_moments. by rewrite (play_w_length _ _ _ _ E4), map_length. }
    clear E4. set (tr' := with_times back mts') in *.
    destruct (check w3 mts' w4 _ _ _ _) as [cs'|] eqn:Ec2; [|discriminate H]. cbv zeta in H.
    apply andb_true_iff in H as [Hck2 H]. apply andb_true_iff in H as [Hpu2 H]. apply andb_true_iff in H as [Hnb2 Hkept].
    pose proof Hsent as (Hy & _ & Hns & Hqd & _ & Htr & Hyields).
    destruct (check_spec w1 mts w2 (ex_peer 8) (ex_peer 24) id (queue_of w1 (ex_peer 8)) cs 2 trips
                (ready_request toy_prims ex_nodes 0) Hh1 Hcalm1 Ec1 Hy (queued_now _ _ _ _ _ Hus Hq Hqd) Htr)
      as (Et & Hconv & Hmax & Hheld & Hund).
    { intros i trip g mt' _ _ _ [Hc _] _. exact Hc. }
    assert (Hin1 : inside mts = true).
    { unfold check in Ec1. destruct (mapM _ _); [|discriminate Ec1]. destruct (inside mts); [reflexivity|discriminate Ec1]. }
    assert (Hin2 : inside mts' = true).
    { unfold check in Ec2. destruct (mapM _ _); [|discriminate Ec2]. destruct (inside mts'); [reflexivity|discriminate Ec2]. }
    assert (Hrec : receives trips (ex_peer 24) id w1 tr) by (split; [exact Hmax|]; split; [exact Hheld|]; by rewrite Hm1).
    destruct (Hyields mts w2 Hconv Hmax Hheld Hund) as [_ Harr].
    assert (Hsurbs : got cs mts = surbs).
    { unfold got. rewrite <- Et, Harr, last_snoc. reflexivity. }
    rewrite Hsurbs in Hhap2, Hgot. rewrite <- Et in Hpu1.
    rewrite <- Hm1 in Hh1, Hin1, Hconv.
    apply clocked_b_spec in Hck1. apply (punctual_b_spec _ _ _ _ _ _ _ _ Hh1 Hin1 Hcalm1) in Hpu1.
    destruct (Hgo tr w2 q1 Hconv Hrec Hck1 Hpu1) as (a & Ha & Hret & Hgo2). clear Hgo.
    pose proof (only_at_spec _ _ _ _ _ Hnb1 Ha Hret) as Hta.
    assert (Hcalm3 : calm w3).
    { assert (Hcalm2 : calm w2) by (by eapply inside_calm).
      intros x Hx. destruct (happens_call _ _ _ _ Hhap2) as (z & c & a0 & m & _ & _ & En & <- & _).
      rewrite En, with_node_other; [by apply Hcalm2|]. intros ->. apply Hx. 
      do 2 apply elem_of_list_further. apply elem_of_list_here. }
    assert (Hhand : t2 <= tm_at a + h) by (by rewrite Hta).
    destruct (Hgo2 (ex_peer 24) surbs [] (replicate 16 7%N) (Scattered 2 [4; 5]%N [] []) RCurrent s2 w3 t2 Hhap2 Hus2 Hnodes2)
      as (rtrips & used & Hrq & Hgo3).
    { apply Forall_forall. auto. }
    { exact Hhand. }
    clear Hgo2. pose proof Hrq as (Hused & Hin & Hlu & _ & Hqd2 & _ & Htr2 & Hyields2).
    rewrite Hself in Htr2.
    pose proof (queued_now _ _ _ _ _ Hus2 Hq2 Hqd2) as Hfp.
    assert (Hu1 : exists u uid v, surbs = [u] /\ entries = [(uid, v)] /\ used = [(u, (uid, v))]).
    { assert (Hl1 : length used = 1%nat).
      { apply (f_equal length) in Hused. rewrite app_nil_l, reverse_length, map_length in Hused. by rewrite <- Hused. }
      destruct surbs as [|u [|]]; [discriminate Hgot| |discriminate Hgot].
      destruct used as [|ue [|]]; [discriminate Hl1| |discriminate Hl1].
      destruct entries as [|[uid v] [|]]; [discriminate Hle| |discriminate Hle].
      specialize (Hin ue (elem_of_list_here _ _)). apply elem_of_list_singleton in Hin as ->. by exists u, uid, v. }
    destruct Hu1 as (u & uid & v & -> & -> & ->). cbn [map fst snd] in *.
    assert (Hent : entries_of w1 (ex_peer 8) = [(uid, v)]).
    { unfold entries_of. rewrite Hks. cbn [ks_pushes foldl ks_push sk_surbs]. unfold entries_of in He'. rewrite He'. 
      unfold make_room. by case_match. }
    assert (Hrl : length rtrips = 1%nat) by (by rewrite <- Hlu).
    destruct (check_spec w3 mts' w4 (ex_peer 24) (ex_peer 8) (replicate 16 7%N) (queue_of w3 (ex_peer 24)) cs' 0 rtrips
                (ready_reply toy_prims ex_nodes 0 [(uid, v)]) Hh2 Hcalm3 Ec2 (eq_refl _) Hfp Htr2)
      as (Et2 & Hconv2 & Hmax2 & Hheld2 & Hund2).
    { intros i trip g mt' Hi Hg Hfst [(rel & s' & Hhs & Hun & _) _] Hpeer. split; [by exists rel, s'|].
      exists uid, v. split.
      - apply lookup_lt_Some in Hi. destruct i; [reflexivity|lia].
      - unfold kept_b in Hkept. rewrite forallb_forall in Hkept. destruct Hfst as (tr1 & tr2 & Etr & (b & now & msg & Eev) & _).
        assert (Hmt : In mt' mts') by (rewrite Etr; apply in_or_app; right; by left).
        specialize (Hkept _ Hmt). rewrite Hpeer. apply orb_true_iff in Hkept as [Hk|Hk].
        + apply bool_decide_eq_true in Hk. unfold sk_entry. change (sk_surbs _) with (entries_of (mt_before mt') (ex_peer 8)).
          rewrite Hk, Hent. cbn. by rewrite decide_True.
        + apply negb_true_iff, bool_decide_eq_false in Hk. exfalso. apply Hk. unfold at_node. by rewrite Eev. }
    assert (Hrec2 : receives rtrips (ex_peer 8) (replicate 16 7%N) w3 tr') by (split; [exact Hmax2|]; split; [exact Hheld2|]; by rewrite Hm2).
    rewrite <- Hm2 in Hh2, Hin2, Hconv2. rewrite <- Et2 in Hpu2.
    apply clocked_b_spec in Hck2. apply (punctual_b_spec _ _ _ _ _ _ _ _ Hh2 Hin2 Hcalm3) in Hpu2.
    destruct (Hgo3 tr' w4 q2 Hconv2 Hrec2 Hck2 Hpu2 Hqq) as (b & Hb & Hretb & HP).
    pose proof (only_at_spec _ _ _ _ _ Hnb2 Hb Hretb) as Htb. rewrite Htb in HP. split; [|exact HP].
    exists tr, w2, a. do 7 (split; [assumption|]).
    exists s2, w3, tr', w4, rtrips, [(u, (uid, v))], b.
    do 13 (split; [assumption|]). exact Htb.
  Qed.
End case.

(** ** The case *)
(** [k] milliseconds after the start. *)
Definition ex_at (k : N) : instant := 1000 * NANOS_PER_SEC + k * 1000000.
Definition at_times (at_ : N -> instant) (l : list (N * act)) : list (instant * act) :=
  map (fun x => (at_ x.1, match x.2 with ADeliver n _ => ADeliver n (at_ x.1) | a => a end)) l.
Definition ex_deliver (n : nat) (k : N) : N * act := (k, ADeliver n 0).
Definition ex_timed_out : list (instant * act) := at_times ex_at
  [(2000, ex_pop 8); (2100, ex_pop 8); ex_deliver 1 2200; ex_deliver 0 2300;
   (12250, ex_fwd 32); ex_deliver 0 12400; (12500, ex_fwd 32); ex_deliver 0 12600;
   (22500, ex_fwd 16); (22650, ex_fwd 16); ex_deliver 0 22700; ex_deliver 0 22900].
Definition ex_timed_back : list (instant * act) := at_times ex_at
  [(37000, ex_pop 24); ex_deliver 0 37300; (47400, ex_fwd 32); ex_deliver 0 47600; (57700, ex_fwd 16); ex_deliver 0 57900].
Lemma ex_timed_ok : Forall act_ok (map snd ex_timed_out) /\ Forall act_ok (map snd ex_timed_back).
Proof. split; repeat (constructor; [first [exact I|split; [exact I|first [exact I|apply replicate_length]]]|]); constructor. Qed.

Definition ex_handling : duration := 5 * NANOS_PER_SEC.
Definition ex_timely (w : world) : bool :=
  session_b w (ex_peer 8) (fun s => bool_decide (self (se_topology s) (ex_ns 8) = TMixnodeIndex 0) &&
    bool_decide (tp_local_kx_public (se_topology s) = derive_kx_public toy_prims (ex_secret 8))) &&
  ((cf_mean_forwarding_delay (mx_config (w_node w (ex_peer 8))) =? NANOS_PER_SEC) && (same_mean w NANOS_PER_SEC &&
  (match entries_of w (ex_peer 8) with [] => true | _ => false end &&
  match next w (ADo (ex_peer 8) ex_ask) with
  | Some (Moment _ (EvCall _ _ (RespPost (Some d) (Ok mt))) w1) =>
      (d =? 2) && (match estimate_rtt mt ex_handling with Val t => t =? 69437633279 | Panic => false end &&
      ((12100 * 1000000 <=? rqm_authored_packet_queue_delay mt) && ((rqm_per_hop_net_delay mt =? 300 * 1000000) &&
      ((length (queue_of w1 (ex_peer 8)) =? 2)%nat &&
       timely ex_id ex_timed_out ex_timed_back (ex_at 0) (300 * 1000000) (2100 * 1000000) (10000 * 1000000)
         (ex_at 22900) (ex_at 27000) (ex_at 57900) w1))))
  | _ => false
  end))).
Lemma ex_timely_true : with_world ex_timely = true.
Proof. by vm_compute. Qed.

Lemma after_calm w1 w c a : calm w -> happens toy_prims w (EvCall (ex_peer 8) c a) w1 -> calm w1.
Proof.
  intros Hcalm Hhap x Hx. destruct (happens_call _ _ _ _ Hhap) as (z & c' & a' & m & _ & _ & En & <- & _).
  rewrite En, with_node_other; [by apply Hcalm|]. intros ->. apply Hx. apply elem_of_list_here.
Qed.
Lemma ex_honest t :
  tp_mixnodes t = ex_nodes -> tp_local_kx_public t = derive_kx_public toy_prims (ex_secret 8) -> honest toy_prims t ex_key.
Proof.
  intros Hnodes Hloc. split; [|intros p; exact Hloc]. rewrite Hnodes. intros i mn Hi. cbn [ex_key].
  revert Hi. destruct (N.to_nat i) as [|[|[|[|n]]]]; unfold ex_nodes; cbn [map lookup list_lookup]; intros [= <-]; reflexivity.
Qed.
(** The hypotheses of C69_on_time, for the post and for all that follows it ([timely_case]). *)
Example C69_example :
  exists w mt w1 s trips surbs entries,
    world_ok toy_prims w /\ exp1_ok (pr_exp1 toy_prims) /\
    happens toy_prims w (EvCall (ex_peer 8) ex_ask (RespPost (Some 2) (Ok mt))) w1 /\
    usable (w_node w (ex_peer 8)) 0 RCurrent s /\ honest toy_prims (se_topology s) ex_key /\
    cf_mean_forwarding_delay (mx_config (w_node w (ex_peer 8))) = NANOS_PER_SEC /\
    tp_mixnodes (se_topology s) = ex_nodes /\
    (forall mn, mn ∈ ex_nodes -> cf_mean_forwarding_delay (mx_config (w_node w (mn_peer_id mn))) = NANOS_PER_SEC) /\
    addr_of ex_nodes (self (se_topology s) (ex_ns 8)) = Some (ex_peer 8) /\
    estimate_rtt mt ex_handling = Val 69437633279 /\
    request_sent toy_prims w (ex_peer 8) 0 ex_id ex_long 1 RCurrent ex_nodes ex_key 2 w1 (ex_peer 24) trips surbs /\
    length trips = 2%nat /\
    timely_case ex_id ex_long (ex_at 0) (rqm_per_hop_net_delay mt) (2100 * 1000000) (10000 * 1000000)
      (ex_at 22900) (ex_at 27000) (ex_at 57900) (self (se_topology s) (ex_ns 8)) surbs entries trips w1
      ex_handling (rqm_authored_packet_queue_delay mt).
Proof.
  pose proof toy_prims_ok as Hok.
  destruct (with_world_spec _ ex_timely_true) as (w & Hw & Hcalm & H). unfold ex_timely in H.
  apply andb_true_iff in H as [Hs H]. apply andb_true_iff in H as [Hu H]. apply andb_true_iff in H as [Hmean H].
  apply andb_true_iff in H as [He H]. apply N.eqb_eq in Hu.
  destruct (session_b_spec _ _ _ Hs) as (s & Hus & Hnodes & Hq & Hf). clear Hs.
  apply andb_true_iff in Hf as [Hself Hloc]. apply bool_decide_eq_true in Hself, Hloc.
  pose proof (same_mean_spec _ _ Hmean) as Hall.
  assert (He' : entries_of w (ex_peer 8) = []) by (destruct (entries_of w (ex_peer 8)); [done|discriminate He]). clear He.
  destruct (next w (ADo (ex_peer 8) ex_ask)) as [[w0 e w1]|] eqn:E1; [|discriminate H].
  destruct (next_happens _ _ _ ex_ask_ok E1) as [Hhap Hw0]. cbn [mt_event mt_after mt_before] in Hhap, Hw0. subst w0.
  assert (Hev : exists a, e = EvCall (ex_peer 8) ex_ask a).
  { cbn [next] in E1. destruct (exec _ _ _) as [[m a]|]; [|discriminate E1]. injection E1 as <- _. by exists a. }
  destruct Hev as [a ->]. clear E1.
  destruct a as [| | | | |[d|] [mt|]| |]; try discriminate H. apply andb_true_iff in H as [Hd H]. apply N.eqb_eq in Hd. subst d.
  apply andb_true_iff in H as [Hrtt H]. apply andb_true_iff in H as [Hqd0 H]. apply andb_true_iff in H as [Hn H].
  apply andb_true_iff in H as [Hql H]. apply Nat.eqb_eq in Hql.
  assert (Hrtt' : estimate_rtt mt ex_handling = Val 69437633279).
  { destruct (estimate_rtt mt ex_handling) as [t|]; [|discriminate Hrtt]. apply N.eqb_eq in Hrtt. by rewrite Hrtt. }
  clear Hrtt. apply N.eqb_eq in Hn.
  pose proof (ex_honest _ Hnodes Hloc) as Hhon.
  assert (Hsa : addr_of ex_nodes (self (se_topology s) (ex_ns 8)) = Some (ex_peer 8)) by (rewrite Hself; reflexivity).
  assert (Hu50 : cf_mean_forwarding_delay (mx_config (w_node w (ex_peer 8))) <= 2 ^ 50 * NANOS_PER_SEC).
  { rewrite Hu. vm_compute. discriminate. }
  pose proof (C69_on_time toy_prims Hok toy_exp1_ok w (ex_peer 8) 0 (Some 2%N) ex_id ex_long 1 (ex_ns 8) ex_r 2 mt w1 RCurrent s ex_key
                ex_handling 69437633279 (ex_at 0) Hw Hhap Hus Hhon) as HC. cbv zeta in HC. rewrite Hnodes, Hu in HC. rewrite Hu in Hu50.
  destruct (HC Hu50 Hall Hsa Hrtt') as (y & trips & surbs & entries & Hsent & Hks & Hle & Hgo). clear HC.
  assert (y = ex_peer 24) as ->.
  { destruct Hsent as [Hy _]. unfold ex_nodes in Hy. cbn [addr_of map lookup list_lookup] in Hy.
    change (N.to_nat 2) with 2%nat in Hy. by injection Hy. }
  assert (Htl : length trips = 2%nat).
  { pose proof Hsent as (_ & _ & _ & Hqd & _). pose proof (queued_now _ _ _ _ _ Hus Hq Hqd) as Hfp.
    apply (f_equal length) in Hfp. by rewrite !map_length, Hql in Hfp. }
  rewrite <- Hn in H.
  destruct (timely_spec ex_id ex_long ex_timed_out ex_timed_back (ex_at 0) (rqm_per_hop_net_delay mt) (2100 * 1000000) (10000 * 1000000)
     (ex_at 22900) (ex_at 27000) (ex_at 57900) w w1 s trips surbs entries ex_handling (rqm_authored_packet_queue_delay mt) _
     Hw (after_calm _ _ _ _ Hcalm Hhap) Hus Hq Hself He' Hsent Hks Hle Hgo (proj1 ex_timed_ok) (proj2 ex_timed_ok) (eq_refl _) Hqd0 H)
    as [Hcase _].
  exists w, mt, w1, s, trips, surbs, entries.
  split; [assumption|]. split; [exact toy_exp1_ok|]. do 10 (split; [assumption|]). exact Hcase.
Qed.

Print Assumptions C69_on_time.
