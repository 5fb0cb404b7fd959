(** Concrete cases for C72, and what shows of a message that takes more fragments. *)
From Verif Require Import PVeil Toy PExample PHideEx.

Definition garbage (x : content) : bool := match x with CtGarbage => true | _ => false end.
Lemma garbage_iff x y : garbage x = garbage y -> (x = CtGarbage <-> y = CtGarbage).
Proof. by destruct x, y. Qed.
Definition count_fragments (id : bytes) (data : scattered N) (k : N) : option nat :=
  match fragment_blueprints id data k with Val (Some bs) => Some (length bs) | _ => None end.
Lemma count_needs id data k n : args_ok id data k -> count_fragments id data k = Some n -> needs (data_len data) k n.
Proof.
  unfold count_fragments. intros (_ & Hw & Hd & Hk). destruct (fragment_blueprints id data k) as [[bs|]|] eqn:E; try done.
  intros [= <-]. by eapply needs_blueprints.
Qed.

(** The same call twice, two packets, or two requests. *)
Inductive two :=
| Twice (c : call)
| TwoPackets (p p' : bytes) (now : instant)
| TwoPosts (index : session_index) (dest : option mixnode_index) (id : bytes) (data : scattered N) (id' : bytes)
    (data' : scattered N) (k : N) (ns : network_status) (r : rng).
Definition one (x : two) : call :=
  match x with
  | Twice c => c
  | TwoPackets p _ now => CallHandle p now
  | TwoPosts index dest id data _ _ k ns r => CallPostRequest index dest id data k ns r
  end.
Definition other (x : two) : call :=
  match x with
  | Twice c => c
  | TwoPackets _ p now => CallHandle p now
  | TwoPosts index dest _ _ id data k ns r => CallPostRequest index dest id data k ns r
  end.
Definition shape_b (m : mixnet) (x : two) : bool :=
  match x with
  | Twice (CallPostRequest _ _ _ _ _ _ _ | CallPostReply _ _ _ _) => false
  | Twice _ => true
  | TwoPackets p p' _ =>
      bool_decide (take 188 p = take 188 p') &&
      forallb (fun s => Bool.eqb (garbage (content_of toy_prims s p)) (garbage (content_of toy_prims s p'))) (ss_iter (mx_sessions m))
  | TwoPosts _ _ id data id' data' k _ _ =>
      match count_fragments id data k, count_fragments id' data' k with Some n, Some n' => (n =? n')%nat | _, _ => false end
  end.
Lemma shape_b_spec m x : call_ok (one x) -> call_ok (other x) -> shape_b m x = true -> same_shape toy_prims m (one x) (other x).
Proof.
  destruct x as [c|p p' now|index dest id data id' data' k ns r]; cbn [one other shape_b]; intros Hc Hc' H.
  - destruct c; try discriminate H; cbn [same_shape]; try reflexivity. split; [done|]. by split.
  - apply andb_true_iff in H as [H1 H2]. apply bool_decide_eq_true in H1. split; [done|]. split; [done|]. intros rel s Hs.
    apply garbage_iff. rewrite forallb_forall in H2. apply Bool.eqb_prop, H2.
    apply elem_of_list_In. unfold ss_iter. apply elem_of_list_omap. exists (SlFull s). split; [|done].
    destruct rel; cbn in Hs; rewrite Hs; [left|right; left].
  - destruct Hc as (Ha & _), Hc' as (Ha' & _). cbn [same_shape].
    destruct (count_fragments id data k) as [n|] eqn:E; [|discriminate H].
    destruct (count_fragments id' data' k) as [n'|] eqn:E'; [|discriminate H]. apply Nat.eqb_eq in H as <-.
    split_and!; try done. exists n. split; [by eapply count_needs|by eapply count_needs].
Qed.
Fixpoint pair_play (m n : mixnet) (l : list two) : option (list (call * resp) * list (call * resp) * mixnet * mixnet) :=
  match l with
  | [] => Some ([], [], m, n)
  | x :: l =>
      if shape_b m x then
        match exec toy_prims m (one x), exec toy_prims n (other x) with
        | Val (m1, a), Val (n1, a') =>
            match pair_play m1 n1 l with
            | Some (h, h', m2, n2) => Some ((one x, a) :: h, (other x, a') :: h', m2, n2)
            | None => None
            end
        | _, _ => None
        end
      else None
  end.
Lemma pair_play_run l : forall m n h h' m' n',
  Forall (fun x => call_ok (one x) /\ call_ok (other x)) l -> pair_play m n l = Some (h, h', m', n') ->
  pair_run toy_prims m n h h' m' n'.
Proof.
  induction l as [|x l IH]; intros m n h h' m' n' Hc H; cbn [pair_play] in H.
  { injection H as <- <- <- <-. constructor. }
  apply Forall_cons in Hc as [[Hc1 Hc2] Hc]. destruct (shape_b m x) eqn:Eb; [|discriminate H].
  destruct (exec toy_prims m (one x)) as [[m1 a]|] eqn:E; [|discriminate H].
  destruct (exec toy_prims n (other x)) as [[n1 a']|] eqn:E'; [|discriminate H].
  destruct (pair_play m1 n1 l) as [[[[h1 h1'] m2] n2]|] eqn:E2; [|discriminate H]. injection H as <- <- <- <-.
  econstructor; [exact Hc1|exact Hc2|by apply shape_b_spec|exact E|exact E'|by eapply IH].
Qed.

Local Instance reply_message_eq : EqDecision reply_message.
Proof. solve_decision. Defined.
Local Instance request_message_eq : EqDecision request_message.
Proof. solve_decision. Defined.
Local Instance message_eq : EqDecision message.
Proof. solve_decision. Defined.

(** Node 8 posts one of two requests, forwards one of two packets and gets one of two replies. *)
Definition alter (p : bytes) : bytes := take (length p - 1) p ++ map (fun b => N.lxor b 1) (drop (length p - 1) p).
Definition veil_id : bytes := replicate 16 7%N.
Definition veil_data : scattered N := Scattered (N.to_nat 1000) (replicate (N.to_nat 1000) 5%N) [] [].
Definition veil_pairs : list two :=
  [TwoPosts 0 (Some 2%N) ex_id ex_data veil_id veil_data 1 (ex_ns 8) ex_r;
   Twice (CallPopAuthored (ex_ns 8) ex_big); TwoPackets ex_n2 (alter ex_n2) 5%N; Twice (CallPopForward 0%N);
   TwoPackets ex_q3 (alter ex_q3) 9%N; Twice CallTakeEvents].
Definition packets (h : list (call * resp)) : list (option bytes) :=
  omap (fun x => match x.2 with RespPacket p => Some (ap_packet <$> p) | _ => None end) h.
Definition heard (h : list (call * resp)) : list message :=
  omap (fun x => match x.2 with RespMessage p => p | _ => None end) h.
Definition veil_check (m : mixnet) : bool :=
  match pair_play m m veil_pairs with
  | Some (h, h', _, _) =>
      all_some (packets h) && (all_some (packets h') && ((length (packets h) =? 2)%nat &&
      (bool_decide (Forall2 (fun x y => x <> y) (packets h) (packets h')) &&
      (bool_decide (heard h = [MReply (ReplyMessage ex_id [4; 5]%N)]) && bool_decide (heard h <> heard h')))))
  | None => false
  end.
Lemma veil_check_true : after 8 ex_setup veil_check = true.
Proof. by vm_compute. Qed.
Lemma veil_data_ok : args_ok veil_id veil_data 1.
Proof. split_and!; [done|by vm_compute|by vm_compute|by vm_compute]. Qed.
Lemma alter_length p n : length p = N.to_nat n -> length (alter p) = N.to_nat n.
Proof. intros H. unfold alter. rewrite app_length, take_length, map_length, drop_length. lia. Qed.
Lemma ex_n2_length : length ex_n2 = N.to_nat 2252. Proof. by vm_compute. Qed.
Lemma veil_pairs_ok : Forall (fun x => call_ok (one x) /\ call_ok (other x)) veil_pairs.
Proof.
  constructor.
  { split; [by apply (ex_post_ok 8 2)|]. split; [exact veil_data_ok|]. split; [apply replicate_length|]. intros ? [= <-]; done. }
  constructor; [split; apply replicate_length|].
  constructor; [split; [exact ex_n2_length|exact (alter_length _ _ ex_n2_length)]|].
  constructor; [done|]. constructor; [split; [exact ex_q3_length|exact (alter_length _ _ ex_q3_length)]|]. by constructor.
Qed.

(** Two histories as C72_contents asks in which all packets sent differ, and so do the messages that the
    application gets. *)
Example C72_example :
  exists hist m h h' m1 m2,
    reachable toy_prims (ex_config 8) hist m /\ pair_run toy_prims m m h h' m1 m2 /\
    Forall2 (fun x y => x <> y) (packets h) (packets h') /\ length (packets h) = 2 /\
    Forall is_Some (packets h) /\ Forall is_Some (packets h') /\
    heard h = [MReply (ReplyMessage ex_id [4; 5]%N)] /\ heard h <> heard h' /\
    Forall2 (fun x y => same_look x.2 y.2) h h' /\ same_view m1 m2.
Proof.
  destruct (after_reachable 8 ex_setup veil_check ex_setup_ok veil_check_true) as (hist & m & Hr & H). unfold veil_check in H.
  destruct (pair_play m m veil_pairs) as [[[[h h'] m1] m2]|] eqn:E; [|discriminate H].
  apply (pair_play_run _ _ _ _ _ _ _ veil_pairs_ok) in E.
  repeat (let H' := fresh "Hc" in apply andb_true_iff in H as [H' H]).
  destruct (C72_contents toy_prims toy_prims_ok _ _ _ _ _ _ _ Hr E) as [Hl Hv].
  exists hist, m, h, h', m1, m2. split; [exact Hr|]. split; [exact E|].
  split; [by apply bool_decide_eq_true in Hc2|]. split; [by apply Nat.eqb_eq|].
  split; [by apply all_some_spec|]. split; [by apply all_some_spec|].
  split; [by apply bool_decide_eq_true in Hc3|]. split; [by apply bool_decide_eq_true in H|].
  split; [exact Hl|exact Hv].
Qed.

(** The number of fragments does show: a node that cannot make cover packets sends one packet for a
    request of three bytes, and two for one of three thousand. *)
Definition long_post : call := CallPostRequest 0 (Some 2%N) ex_id ex_long 1 (ex_ns 40) ex_r.
Definition pops_40 : list call := [CallPopAuthored (ns_off 40) ex_big; CallPopAuthored (ns_off 40) ex_big].
Definition long_check (m : mixnet) : bool :=
  match play m (ex_post 40 (Some 2%N) :: pops_40), play m (long_post :: pops_40) with
  | Some (h, _), Some (h', _) =>
      match packets h, packets h' with [Some _; None], [Some _; Some _] => true | _, _ => false end
  | _, _ => false
  end.
Lemma long_check_true : after 40 ex_setup long_check = true.
Proof. by vm_compute. Qed.
Lemma pops_40_ok : Forall call_ok pops_40.
Proof. constructor; [apply replicate_length|]. constructor; [apply replicate_length|done]. Qed.
Lemma long_post_ok : call_ok long_post.
Proof.
  split; [split_and!; [done|by vm_compute|by vm_compute|by vm_compute]|]. split; [apply replicate_length|]. intros ? [= <-]; done.
Qed.
Lemma play_calls l : forall m h m', play m l = Some (h, m') -> map fst h = l.
Proof.
  induction l as [|c l IH]; intros m h m' H; cbn [play] in H; [by injection H as <- _|].
  destruct (exec toy_prims m c) as [[m1 a]|]; [|discriminate H]. destruct (play m1 l) as [[h1 m2]|] eqn:E2; [|discriminate H].
  injection H as <- _. cbn. by rewrite (IH _ _ _ E2).
Qed.
Theorem C72_number_refuted :
  exists cf hist m data data' h m1 h' m2 p p1 p2,
    reachable toy_prims cf hist m /\ cf_gen_cover_packets cf = true /\
    run toy_prims m h m1 /\ run toy_prims m h' m2 /\
    map fst h = CallPostRequest 0 (Some 2%N) ex_id data 1 (ex_ns 40) ex_r :: pops_40 /\
    map fst h' = CallPostRequest 0 (Some 2%N) ex_id data' 1 (ex_ns 40) ex_r :: pops_40 /\
    packets h = [Some p; None] /\ packets h' = [Some p1; Some p2].
Proof.
  destruct (after_reachable 40 ex_setup long_check ex_setup_ok long_check_true) as (hist & m & Hr & H). unfold long_check in H.
  destruct (play m (ex_post 40 (Some 2%N) :: pops_40)) as [[h m1]|] eqn:E; [|discriminate H].
  destruct (play m (long_post :: pops_40)) as [[h' m2]|] eqn:E'; [|discriminate H].
  pose proof (play_calls _ _ _ _ E) as C1. pose proof (play_calls _ _ _ _ E') as C2.
  apply play_run in E; [|constructor; [by apply (ex_post_ok 40 2)|exact pops_40_ok]].
  apply play_run in E'; [|constructor; [exact long_post_ok|exact pops_40_ok]].
  destruct (packets h) as [|[p|] [|[|] [|]]] eqn:P1; try discriminate H.
  destruct (packets h') as [|[p1|] [|[p2|] [|]]] eqn:P2; try discriminate H.
  exists (ex_config 40), hist, m, ex_data, ex_long, h, m1, h', m2, p, p1, p2.
  split; [exact Hr|]. split; [reflexivity|]. split; [exact E|]. split; [exact E'|]. split; [exact C1|]. split; [exact C2|].
  split; [exact P1|exact P2].
Qed.
