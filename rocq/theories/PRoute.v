(** C25, C26, C29: route generation. *)
From stdpp Require Import sorting.
From Verif Require Export PTopology.

(** ** Specification *)

(** A route generator as made by [rg_new]. *)
Definition gen_ok (g : route_generator) : Prop :=
  topo_ok (rg_topology g) /\
  match tp_local_node (rg_topology g) with
  | LMixnode _ => rg_connected g = []
  | LNonMixnode gs => NoDup (rg_connected g) /\ (forall x, x ∈ rg_connected g -> x ∈ gs) /\
                      length (rg_connected g) ≤ 5
  end.
Definition from_local (k : route_kind) : Prop := match k with RkFromMixnode _ => False | _ => True end.
Definition to_local (k : route_kind) : Prop := match k with RkToMixnode _ => False | _ => True end.
(** The mixnode named by the kind exists. *)
Definition kind_valid (t : topology) (k : route_kind) : Prop :=
  match k with RkToMixnode i | RkFromMixnode i => valid_index t i | RkLoop => True end.

(** The nodes visited, in order. *)
Definition route_nodes (rt : route) : list target := TMixnodeIndex (rt_first rt) :: rt_targets rt.
Definition route_indices (rt : route) : list N :=
  omap (fun x => match x with TMixnodeIndex i => Some i | TPeerId _ => None end) (route_nodes rt).
(** The local node as a target *)
Definition local_target (g : route_generator) : target :=
  match tp_local_node (rg_topology g) with
  | LMixnode i => TMixnodeIndex i
  | LNonMixnode _ => TPeerId (rg_local_peer_id g)
  end.

(** C25 *)
Record route_ok (g : route_generator) (k : route_kind) (num_hops : nat) (rt : route) : Prop := {
  ro_length : num_hops ≤ length (route_nodes rt) ≤ 6;
  ro_keys : Forall2 (fun node key => match node with
      | TMixnodeIndex i => exists m, tp_mixnodes (rg_topology g) !! N.to_nat i = Some m /\ mn_kx_public m = key
      | TPeerId _ => key = tp_local_kx_public (rg_topology g)
      end) (route_nodes rt) (rt_kx_publics rt);
  ro_last : list.last (route_nodes rt) =
      Some (match k with RkToMixnode i => TMixnodeIndex i | _ => local_target g end);
  ro_peer : forall j p, route_nodes rt !! j = Some (TPeerId p) -> S j = length (route_nodes rt);
  ro_gateways : forall gs, tp_local_node (rg_topology g) = LNonMixnode gs ->
      2 ≤ length (route_nodes rt) /\
      (from_local k -> rt_first rt ∈ rg_connected g) /\
      (to_local k -> exists x, x ∈ rg_connected g /\
         route_nodes rt !! (length (route_nodes rt) - 2) = Some (TMixnodeIndex x));
  ro_away : forall l, tp_local_node (rg_topology g) = LMixnode l -> from_local k ->
      2 ≤ length (route_nodes rt) -> rt_first rt <> l
}.

(** C26. Where the route starts, if that is a mixnode other than its end. *)
Definition route_start (g : route_generator) (k : route_kind) : list N :=
  match k, tp_local_node (rg_topology g) with
  | RkToMixnode d, LMixnode l => if decide (l = d) then [] else [l]
  | RkToMixnode _, LNonMixnode _ => []
  | RkFromMixnode s, LMixnode l => if decide (l = s) then [] else [s]
  | RkFromMixnode s, LNonMixnode _ => [s]
  | RkLoop, _ => []
  end.
(** The only connected gateway has to serve twice. *)
Definition forced_revisit (g : route_generator) (k : route_kind) (x : mixnode_index) : Prop :=
  rg_connected g = [x] /\
  match k with RkToMixnode d | RkFromMixnode d => d = x | RkLoop => True end.

(** C29: the number of mixnodes chosen freely, and of those they may not be. *)
Definition num_special (g : route_generator) (k : route_kind) : nat :=
  match tp_local_node (rg_topology g), k with
  | LMixnode _, _ => 0
  | LNonMixnode _, RkLoop => 2
  | LNonMixnode _, _ => 1
  end.
Definition one_gateway_loop (g : route_generator) (k : route_kind) : nat :=
  match k, rg_connected g with RkLoop, [_] => 1 | _, _ => 0 end.
Definition route_hops (g : route_generator) (k : route_kind) (num_hops : nat) : nat :=
  Nat.max num_hops (num_special g k + one_gateway_loop g k + 1).
Definition num_used (g : route_generator) (k : route_kind) : nat :=
  match tp_local_node (rg_topology g), k with
  | LMixnode _, RkLoop => 1
  | LMixnode l, (RkToMixnode i | RkFromMixnode i) => if decide (i = l) then 1 else 2
  | LNonMixnode _, RkLoop => if decide (length (rg_connected g) = 1) then 1 else 2
  | LNonMixnode _, (RkToMixnode i | RkFromMixnode i) => if decide (rg_connected g = [i]) then 1 else 2
  end.
Definition enough_mixnodes (g : route_generator) (k : route_kind) (num_hops : nat) : Prop :=
  (route_hops g k num_hops - num_special g k - 1) + num_used g k ≤ length (tp_mixnodes (rg_topology g)).
Definition no_gateway (g : route_generator) : Prop :=
  tp_is_mixnode (rg_topology g) = false /\ rg_connected g = [].

(** ** Proof *)

Lemma connected_gateways_spec t ns gs :
  Forall (valid_index t) gs ->
  exists c, connected_gateways t ns gs = Val c /\ c `sublist_of` gs /\
    (forall x, x ∈ c <-> x ∈ gs /\ exists m, tp_mixnodes t !! N.to_nat x = Some m /\
                          ns_is_connected ns (mn_peer_id m) = true).
Proof.
  induction 1 as [|g gs Hg Hf (c & E & Hs & Hc)].
  { exists []. cbn. split_and!; [done|done|]. intros x.
    split; [by intros ?%elem_of_nil|by intros [?%elem_of_nil _]]. }
  cbn. unfold tp_mixnode_at. unfold valid_index in Hg. apply lookup_lt_is_Some_2 in Hg as [m Hm].
  rewrite Hm, E. cbn. eexists. split; [done|].
  destruct (ns_is_connected ns (mn_peer_id m)) eqn:Ec.
  - split; [by constructor|]. intros x. rewrite !elem_of_cons, Hc. naive_solver.
  - split; [by constructor|]. intros x. rewrite elem_of_cons, Hc. split.
    + intros [? ?]. split; [by right|done].
    + intros [[->|?] (m'&Hm'&?)]; [exfalso; congruence|]. split; [done|by exists m'].
Qed.
Lemma sublist_NoDup {A} (l k : list A) : NoDup k -> l `sublist_of` k -> NoDup l.
Proof.
  intros Hn Hs. induction Hs as [|x l k Hs IH|x l k Hs IH]; [done| |].
  - apply NoDup_cons in Hn as [Hx Hn]. constructor; [|by apply IH]. intros Hin. apply Hx.
    eapply elem_of_submseteq; [exact Hin|by apply sublist_submseteq].
  - apply NoDup_cons in Hn as [_ Hn]. by apply IH.
Qed.
(** The generator of a usable topology exists and knows (up to five of) the connected gateways. *)
Theorem C25_generator (t : topology) (ns : network_status) :
  topo_ok t ->
  exists g, rg_new t ns = Val g /\ gen_ok g /\ rg_topology g = t /\ rg_local_peer_id g = ns_local_peer_id ns /\
    (forall x, x ∈ rg_connected g -> exists m, tp_mixnodes t !! N.to_nat x = Some m /\
                ns_is_connected ns (mn_peer_id m) = true) /\
    (no_gateway g -> forall gs x m, tp_local_node t = LNonMixnode gs -> x ∈ gs ->
        tp_mixnodes t !! N.to_nat x = Some m -> ns_is_connected ns (mn_peer_id m) = false).
Proof.
  intros Ht. assert (Ht' := Ht). destruct Ht as [Hn Hl]. unfold rg_new.
  destruct (tp_local_node t) as [i|gs] eqn:El.
  - cbn. eexists. split; [done|]. unfold gen_ok. cbn. rewrite El. split_and!; try done.
    intros x ?%elem_of_nil. done.
  - destruct Hl as [Hnd Hf]. destruct (connected_gateways_spec t ns gs Hf) as (c & -> & Hs & Hc). cbn.
    eexists. split; [done|]. unfold gen_ok. cbn -[take]. rewrite El. split_and!; try done.
    + apply (sublist_NoDup _ gs); [done|]. etrans; [apply sublist_take|done].
    + intros x Hx. apply Hc. by eapply elem_of_take in Hx as (?&?&_); eauto using elem_of_list_lookup_2.
    + rewrite take_length. unfold MAX_CONNECTED_GATEWAY_INDICES. lia.
    + intros x Hx. apply Hc. by eapply elem_of_take in Hx as (?&?&_); eauto using elem_of_list_lookup_2.
    + intros [_ Hnil] gs' x m Hgs Hx Hm. injection Hgs as <-.
      destruct (ns_is_connected ns (mn_peer_id m)) eqn:Ec; [|done]. exfalso.
      assert (Hin : x ∈ c) by (apply Hc; eauto). cbn -[take] in Hnil.
      destruct c; [by apply elem_of_nil in Hin|done].
Qed.

Lemma ui_insert_spec (u : list N) (x : N) :
  increasing u -> length u < 7 \/ x ∈ u ->
  exists u', ui_insert u x = Val u' /\ increasing u' /\ (forall y, y ∈ u' <-> y = x \/ y ∈ u) /\
    length u' = if decide (x ∈ u) then length u else S (length u).
Proof.
  intros Hs Hlen. unfold ui_insert. destruct (list_position _ u) as [i|] eqn:E.
  - apply list_position_Some in E as [(e & He & Hle) Hlt]. apply N.leb_le in Hle.
    rewrite He. cbn [expect out_bind].
    destruct (N.eqb_spec e x) as [->|Hne].
    + assert (Hin : x ∈ u) by by eapply elem_of_list_lookup_2.
      exists u. rewrite decide_True by done. split_and!; [done|done|naive_solver|done].
    + (* strictly between *)
      assert (Hu : u = take i u ++ e :: drop (S i) u) by (symmetry; by apply take_drop_middle).
      assert (Hlo : Forall (fun y => (y < x)%N) (take i u)).
      { apply Forall_forall. intros y Hy. apply elem_of_list_lookup in Hy as [j Hj].
        apply lookup_take_Some in Hj as [Hj Hji]. specialize (Hlt j y Hji Hj). by apply N.leb_gt in Hlt. }
      assert (Hd : drop i u = e :: drop (S i) u) by by apply drop_S.
      assert (Hs' : increasing (take i u) /\ increasing (e :: drop (S i) u)).
      { rewrite Hu in Hs. clear -Hs. induction (take i u) as [|a l IH]; cbn in Hs; [split; [constructor|done]|].
        apply StronglySorted_inv in Hs as [Hs Hf]. apply IH in Hs as [H1 H2].
        apply Forall_app in Hf as [? _]. split; [by constructor|done]. }
      destruct Hs' as [Hs1 Hs2].
      assert (Hhi : Forall (fun y => (x < y)%N) (e :: drop (S i) u)).
      { apply StronglySorted_inv in Hs2 as [_ Hf]. constructor; [lia|].
        eapply Forall_impl; [exact Hf|]. cbn. intros. lia. }
      assert (Hni : x ∉ u).
      { rewrite Hu. intros [Hin|Hin]%elem_of_app.
        - rewrite Forall_forall in Hlo. specialize (Hlo x Hin). lia.
        - rewrite Forall_forall in Hhi. specialize (Hhi x Hin). lia. }
      destruct Hlen as [Hlen|]; [|done].
      unfold USED_INDICES_CAPACITY, MAX_HOPS. rewrite decide_True by (cbn; lia).
      rewrite (decide_False (P := x ∈ u)) by done.
      eexists. split; [done|]. rewrite Hd. split_and!.
      * clear -Hs1 Hs2 Hlo Hhi. induction (take i u) as [|a l IH]; cbn.
        { by constructor. }
        apply StronglySorted_inv in Hs1 as [Hs1 Hf]. apply Forall_cons in Hlo as [Ha Hlo].
        constructor; [by apply IH|]. apply Forall_app. split; [done|].
        constructor; [done|]. eapply Forall_impl; [exact Hhi|]. cbn. intros. lia.
      * intros y. assert (Heq : y ∈ u <-> y ∈ take i u \/ y ∈ e :: drop (S i) u)
          by (by rewrite <- elem_of_app, <- Hu).
        rewrite Heq, !elem_of_app, elem_of_list_singleton. tauto.
      * apply (f_equal length) in Hu. rewrite app_length in *. cbn [length app] in *. lia.
  - pose proof (proj1 (list_position_None _ _) E) as E'. cbn in E'.
    assert (Hlt : Forall (fun y => (y < x)%N) u).
    { apply Forall_forall. intros y Hy. specialize (E' y Hy). by apply N.leb_gt in E'. }
    assert (Hni : x ∉ u).
    { intros Hin. rewrite Forall_forall in Hlt. specialize (Hlt x Hin). lia. }
    destruct Hlen as [Hlen|]; [|done].
    unfold av_push, USED_INDICES_CAPACITY, MAX_HOPS.
    rewrite decide_True by (cbn; lia).
    rewrite (decide_False (P := x ∈ u)) by done. eexists. split; [done|]. split_and!.
    + clear -Hs Hlt. induction Hs as [|a l Hs IH Hf]; cbn; [repeat constructor|].
      apply Forall_cons in Hlt as [Ha Hlt]. constructor; [by apply IH|]. apply Forall_app.
      split; [done|]. by repeat constructor.
    + intros y. rewrite elem_of_app, elem_of_list_singleton. tauto.
    + rewrite app_length. cbn. lia.
Qed.

Lemma choose_gateway_spec g (o : option N) r :
  NoDup (rg_connected g) ->
  (rg_connected g = [] -> choose_connected_gateway_index g o r = Val (Err TeNoConnectedGatewayMixnodes)) /\
  (rg_connected g <> [] ->
   exists x r', choose_connected_gateway_index g o r = Val (Ok (x, r')) /\ x ∈ rg_connected g /\
     (o = Some x -> rg_connected g = [x])).
Proof.
  intros Hnd. unfold choose_connected_gateway_index.
  assert (Hrc : forall (l : list mixnode_index) r, l <> [] -> exists x, rng_choose l r = (Some x, (rng_draw r).2) /\ x ∈ l).
  { intros l r' Hl. destruct l as [|a l]; [done|]. unfold rng_choose.
    rewrite (surjective_pairing (rng_draw r')).
    set (k := N.to_nat _). destruct (lookup_lt_is_Some_2 (a :: l) k) as [x Hx].
    { unfold k. pose proof (N.mod_lt (rng_draw r').1 (N.of_nat (length (a :: l))) ltac:(cbn [length]; lia)). lia. }
    exists x. rewrite Hx. split; [done|]. by eapply elem_of_list_lookup_2. }
  split.
  - intros ->. destruct o; done.
  - intros Hne. destruct o as [e|].
    2:{ destruct (Hrc (rg_connected g) r Hne) as (x & -> & Hx). by exists x, (rng_draw r).2. }
    destruct (existsb (fun i => (i =? e)%N) (rg_connected g)) eqn:Ee; cbn [negb].
    + apply existsb_exists in Ee as (e' & He & Heq). apply elem_of_list_In in He.
      apply N.eqb_eq in Heq as ->.
      destruct (rg_connected g) as [|first rest]; [done|].
      apply NoDup_cons in Hnd as [Hf Hnd].
      destruct rest as [|b rest].
      * cbn. exists first, r. split_and!; [done|left|]. intros [= ->]. done.
      * destruct (Hrc (b :: rest) r ltac:(done)) as (x & -> & Hx).
        eexists _, _. split; [done|]. destruct (N.eqb_spec x e) as [->|Hxe].
        -- split; [left|]. intros H. injection H as ->. by destruct Hf.
        -- split; [by right|]. intros H. injection H as ->. done.
    + destruct (Hrc (rg_connected g) r Hne) as (x & -> & Hx). exists x, (rng_draw r).2.
      split_and!; [done|done|]. intros H. injection H as ->. exfalso.
      assert (Hex : existsb (fun i => (i =? x)%N) (rg_connected g) = true); [|congruence].
      apply existsb_exists. exists x. split; [by apply elem_of_list_In|apply N.eqb_refl].
Qed.

(** *** The hop loop *)
Section loop.
  Context (g : route_generator) (Hg : gen_ok g).
  Let n := length (tp_mixnodes (rg_topology g)).

  (** A node on the way: [None] is the local node. *)
  Definition resolve (nd : option N) : option N :=
    match nd, tp_local_node (rg_topology g) with
    | None, LMixnode i => Some i
    | _, _ => nd
    end.
  Definition node_target (nd : option N) : target :=
    match resolve nd with Some i => TMixnodeIndex i | None => TPeerId (rg_local_peer_id g) end.
  Definition node_key (nd : option N) : bytes :=
    match nd with
    | Some i => match tp_mixnodes (rg_topology g) !! N.to_nat i with Some m => mn_kx_public m | None => [] end
    | None => tp_local_kx_public (rg_topology g)
    end.
  Definition node_valid (nd : option N) : Prop :=
    match nd with Some i => valid_index (rg_topology g) i | None => True end.
  Definition repr (st : route_state) (nodes : list (option N)) : Prop :=
    rs_kx_publics st = map node_key nodes /\
    match nodes with
    | [] => rs_targets st = [] /\ rs_first st = None
    | nd :: nds => rs_first st = resolve nd /\ resolve nd <> None /\ rs_targets st = map node_target nds
    end.

  Lemma loop_step kind sf sp i rem st r nd used r' nodes :
    hop_index g kind sf sp i (S rem) (rs_used st) r = Val (Ok ((nd, used), r')) ->
    repr st nodes -> length nodes = i -> i < 6 -> node_valid nd ->
    (nodes = [] -> resolve nd <> None) ->
    exists st', route_loop g kind sf sp i (S rem) st r = route_loop g kind sf sp (S i) rem st' r' /\
      repr st' (nodes ++ [nd]) /\ rs_used st' = used.
  Proof.
    intros Hh [Hk Hr] Hi Hi6 Hv Hres. cbn [route_loop]. rewrite Hh. cbn [try_bind].
    assert (Ek : match nd with
                 | Some index => m ← tp_mixnode_at (rg_topology g) index; Val (mn_kx_public m)
                 | None => Val (tp_local_kx_public (rg_topology g))
                 end = Val (node_key nd)).
    { destruct nd as [x|]; [|done]. cbn in *. unfold tp_mixnode_at.
      apply lookup_lt_is_Some_2 in Hv as [m ->]. done. }
    rewrite Ek. cbn [out_bind]. unfold av_push at 1.
    rewrite Hk, map_length, Hi. unfold MAX_HOPS. rewrite decide_True by lia. cbn [out_bind].
    change (match nd with
            | Some _ => nd
            | None => match tp_local_node (rg_topology g) with LMixnode l => Some l | LNonMixnode _ => nd end
            end) with (resolve nd).
    destruct (decide (i = 0)) as [->|Hne].
    - destruct nodes as [|? ?]; [|done]. specialize (Hres eq_refl).
      destruct (resolve nd) as [x|] eqn:Er; [|done]. cbn [is_some assert_or_panic out_bind].
      eexists. split; [done|]. split; [|done]. unfold repr. cbn. destruct Hr as [-> _].
      rewrite Er. done.
    - destruct nodes as [|nd0 nds]; [done|]. destruct Hr as (Hf & Hf' & Ht).
      unfold av_push. rewrite Ht, map_length. cbn [length] in Hi. rewrite decide_True by lia.
      cbn [out_bind]. eexists. split; [done|]. split; [|done]. unfold repr. cbn.
      rewrite !map_app. cbn. split_and!; [done|done|done|]. done.
  Qed.

  (** What the last hops are *)
  Definition last_node (kind : route_kind) : option N :=
    match kind with RkToMixnode i => Some i | _ => None end.
  Definition suffix (kind : route_kind) (sp : option N) : list (option N) :=
    match sp with Some x => [Some x] | None => [] end ++ [last_node kind].

  Lemma loop_tail kind sf sp k i st r nodes :
    i <> 0 \/ sf = None -> repr st nodes -> length nodes = i ->
    increasing (rs_used st) -> Forall (valid_index (rg_topology g)) (rs_used st) ->
    length (rs_used st) + k ≤ 7 -> i + k + length (suffix kind sp) ≤ 6 ->
    Forall node_valid (suffix kind sp) ->
    (nodes = [] -> k = 0 -> sp = None -> resolve (last_node kind) <> None) ->
    (length (rs_used st) + k ≤ n ->
     exists ms st' r', route_loop g kind sf sp i (k + length (suffix kind sp)) st r = Val (Ok (st', r')) /\
       repr st' (nodes ++ map Some ms ++ suffix kind sp) /\ length ms = k /\ NoDup ms /\
       forall m, m ∈ ms -> m ∉ rs_used st /\ valid_index (rg_topology g) m) /\
    (n < length (rs_used st) + k ->
     route_loop g kind sf sp i (k + length (suffix kind sp)) st r = Val (Err TeTooFewMixnodes)).
  Proof.
    intros Hsf. revert i st r nodes Hsf.
    induction k as [|k IH]; intros i st r nodes Hsf Hr Hi Hs Hv Hu Hlen Hsv Hres.
    - (* only the suffix is left *)
      assert (Hle : length (rs_used st) ≤ n) by by apply (choose_spec g (rs_used st) r (proj1 (proj1 Hg))).
      split; [|lia]. intros _. cbn [Nat.add]. unfold suffix in *. destruct sp as [x|]; cbn [app length] in *.
      + apply Forall_cons in Hsv as [Hv1 [Hv2 _]%Forall_cons].
        destruct (loop_step kind sf (Some x) i 1 st r (Some x) (rs_used st) r nodes) as (st1 & -> & Hr1 & Hu1); try done.
        { unfold hop_index. destruct Hsf as [Hi0| ->]; [by destruct i|]. by destruct i. }
        { lia. }
        destruct (loop_step kind sf (Some x) (S i) 0 st1 r (last_node kind) (rs_used st1) r (nodes ++ [Some x])) as (st2 & -> & Hr2 & Hu2).
        { unfold hop_index. done. }
        { done. } { rewrite app_length. cbn. lia. } { lia. } { done. } { by intros [_ ?]%app_nil. }
        exists [], st2, r. split; [done|]. cbn [map app]. rewrite <- app_assoc in Hr2.
        split_and!; [done|done|constructor|]. intros m ?%elem_of_nil. done.
      + apply Forall_cons in Hsv as [Hv1 _].
        destruct (loop_step kind sf None i 0 st r (last_node kind) (rs_used st) r nodes) as (st1 & E1 & Hr1 & Hu1).
        { unfold hop_index. destruct Hsf as [Hi0| ->]; [by destruct i|]. by destruct i. }
        { done. } { done. } { lia. } { done. } { intros Hn. by apply Hres. }
        exists [], st1, r. split; [exact E1|]. cbn [map app].
        split_and!; [done|done|constructor|]. intros m ?%elem_of_nil. done.
    - destruct (choose_spec g (rs_used st) r (proj1 (proj1 Hg)) Hs Hv) as (Hc1 & Hc2 & Hc3).
      fold n in Hc1, Hc2, Hc3.
      assert (Eh : hop_index g kind sf sp i (S (k + length (suffix kind sp))) (rs_used st) r =
                   ('(index, r) ←? choose_mixnode_index g (rs_used st) r;
                    used ← ui_insert (rs_used st) index;
                    Val (Ok ((Some index, used), r)))).
      { unfold hop_index, suffix. destruct sp as [x|]; cbn [app length].
        - replace (k + 2) with (S (S k)) by lia. destruct Hsf as [Hi0| ->]; destruct i; done.
        - replace (k + 1) with (S k) by lia. destruct Hsf as [Hi0| ->]; destruct i; destruct k; done. }
      destruct (decide (length (rs_used st) = n)) as [Hfull|Hnf].
      + split; [lia|]. intros _. cbn [Nat.add route_loop]. rewrite Eh, Hc1 by done. done.
      + destruct Hc2 as (y & Ey & Hny & Hvy); [lia|]. rewrite Ey in Eh. cbn [try_bind] in Eh.
        destruct (ui_insert_spec (rs_used st) y Hs) as (u' & Eu & Hs' & Hu' & Hlu); [left; lia|].
        rewrite Eu in Eh. cbn [out_bind] in Eh. rewrite decide_False in Hlu by done.
        destruct (loop_step kind sf sp i (k + length (suffix kind sp)) st r (Some y) u' (rng_draw r).2 nodes) as (st1 & E1 & Hr1 & Hu1); try done.
        { unfold suffix in Hlen. rewrite app_length in Hlen. cbn in Hlen. lia. }
        cbn [Nat.add]. rewrite E1.
        destruct (IH (S i) st1 (rng_draw r).2 (nodes ++ [Some y])) as [Ha Hb]; clear IH.
        { by left. } { done. } { rewrite app_length. cbn. lia. } { by rewrite Hu1. }
        { rewrite Hu1. apply Forall_forall. intros z [->|Hz]%Hu'; [done|].
          rewrite Forall_forall in Hv. by apply Hv. }
        { rewrite Hu1, Hlu. lia. } { lia. } { done. } { by intros [_ ?]%app_nil. }
        rewrite Hu1, Hlu in Ha, Hb. split.
        * intros Hle. destruct Ha as (ms & st2 & r2 & E2 & Hr2 & Hl2 & Hn2 & Hm2); [lia|].
          exists (y :: ms), st2, r2. split; [done|]. cbn [map app]. rewrite <- app_assoc in Hr2.
          split_and!; [done|by rewrite <- Hl2|constructor; [|done]|].
          -- intros Hin. destruct (Hm2 y Hin) as [Hx _]. apply Hx, Hu'. by left.
          -- intros m [->|Hm]%elem_of_cons; [done|]. destruct (Hm2 m Hm) as [Hx ?]. split; [|done].
             intros Hin. apply Hx, Hu'. by right.
        * intros Hlt. apply Hb. lia.
  Qed.
End loop.

(** *** The whole of [gen_route] *)
Definition opt_node (o : option N) : list (option N) := match o with Some x => [Some x] | None => [] end.
Definition init_state (used : list N) : route_state :=
  {| rs_used := used; rs_targets := []; rs_kx_publics := []; rs_first := None |}.
Definition free_hops (sf sp : option N) (num_hops : nat) : nat :=
  Nat.max num_hops (min_hops sf sp) - length (opt_node sf) - length (opt_node sp) - 1.

Lemma min_hops_bound sf sp : length (opt_node sf) + length (opt_node sp) + 1 ≤ min_hops sf sp ≤ 4.
Proof.
  unfold min_hops. destruct sf as [x|], sp as [y|]; cbn; try lia.
  all: try (destruct (bool_decide (Some x = Some y)); cbn; lia).
  all: destruct (bool_decide (Some x = None)); cbn; lia.
Qed.

Lemma run_loop g kind sf sp used h r :
  gen_ok g -> increasing used -> Forall (valid_index (rg_topology g)) used -> length used ≤ 2 ->
  (forall x, sf = Some x -> valid_index (rg_topology g) x) ->
  (forall x, sp = Some x -> valid_index (rg_topology g) x) ->
  kind_valid (rg_topology g) kind -> h ≤ 6 ->
  (sf = None -> sp = None -> resolve g (last_node kind) <> None) ->
  (length used + free_hops sf sp h ≤ length (tp_mixnodes (rg_topology g)) ->
   exists ms st' r',
     route_loop g kind sf sp 0 (Nat.max h (min_hops sf sp)) (init_state used) r = Val (Ok (st', r')) /\
     repr g st' (opt_node sf ++ map Some ms ++ opt_node sp ++ [last_node kind]) /\
     length ms = free_hops sf sp h /\ NoDup ms /\
     forall m, m ∈ ms -> m ∉ used /\ valid_index (rg_topology g) m) /\
  (length (tp_mixnodes (rg_topology g)) < length used + free_hops sf sp h ->
   route_loop g kind sf sp 0 (Nat.max h (min_hops sf sp)) (init_state used) r = Val (Err TeTooFewMixnodes)).
Proof.
  intros Hg Hs Hv Hlu Hsf Hsp Hk Hh Hres.
  pose proof (min_hops_bound sf sp) as Hmin. unfold free_hops.
  set (H := Nat.max h (min_hops sf sp)).
  assert (HH : length (opt_node sf) + length (opt_node sp) + 1 ≤ H ≤ 6) by lia.
  clearbody H. clear Hmin Hh.
  assert (Hsuf : suffix kind sp = opt_node sp ++ [last_node kind]) by by destruct sp.
  assert (Hsl : length (suffix kind sp) = length (opt_node sp) + 1) by (rewrite Hsuf, app_length; done).
  assert (Hsv : Forall (node_valid g) (suffix kind sp)).
  { rewrite Hsuf. apply Forall_app. split.
    - destruct sp as [x|]; repeat constructor. cbn. by apply Hsp.
    - constructor; [|done]. by destruct kind. }
  assert (Hr0 : repr g (init_state used) []) by done.
  destruct sf as [x|]; cbn [opt_node length app] in *.
  - (* the first hop is given *)
    destruct H as [|H]; [lia|].
    destruct (loop_step g kind (Some x) sp 0 H (init_state used) r (Some x) used r []) as (st1 & E1 & Hr1 & Hu1); try done.
    { by destruct H as [|[|H]], sp. }
    { lia. }
    { cbn. by apply Hsf. }
    rewrite E1. set (k := S H - 1 - length (opt_node sp) - 1).
    assert (EH : H = k + length (suffix kind sp)) by lia. rewrite EH.
    destruct (loop_tail g Hg kind (Some x) sp k 1 st1 r [Some x]) as [Ha Hb]; rewrite ?Hu1; try done.
    { by left. } { lia. } { lia. }
    rewrite Hu1 in Ha, Hb. split.
    + intros Hle. destruct (Ha Hle) as (ms & st' & r' & ? & ? & ? & ? & ?).
      exists ms, st', r'. by rewrite <- Hsuf.
    + exact Hb.
  - set (k := H - 0 - length (opt_node sp) - 1).
    assert (EH : H = k + length (suffix kind sp)) by lia. rewrite EH.
    destruct (loop_tail g Hg kind None sp k 0 (init_state used) r []) as [Ha Hb]; try done.
    { by right. } { cbn [init_state rs_used]. lia. } { lia. } { intros _ _. by apply Hres. }
Qed.

Lemma special_hop_spec g gs wanted used r :
  gen_ok g -> tp_local_node (rg_topology g) = LNonMixnode gs -> increasing used -> length used ≤ 1 ->
  (wanted = false -> special_hop g wanted used r = Val (Ok ((None, used), r))) /\
  (wanted = true -> rg_connected g = [] -> special_hop g wanted used r = Val (Err TeNoConnectedGatewayMixnodes)) /\
  (wanted = true -> rg_connected g <> [] ->
   exists x u' r', special_hop g wanted used r = Val (Ok ((Some x, u'), r')) /\ x ∈ rg_connected g /\
     valid_index (rg_topology g) x /\
     (x ∈ used -> rg_connected g = [x]) /\ increasing u' /\ (forall y, y ∈ u' <-> y = x \/ y ∈ used) /\
     length u' = if decide (x ∈ used) then length used else S (length used)).
Proof.
  intros [[Hn Ht] Hg] El Hs Hlu. rewrite El in Hg, Ht. destruct Hg as (Hnd & Hsub & Hl5). destruct Ht as [_ Hval].
  unfold special_hop. rewrite El.
  assert (Eo : ui_as_option used = Val (head used)).
  { unfold ui_as_option. by rewrite bool_decide_eq_true_2. }
  rewrite Eo. cbn [out_bind].
  destruct (choose_gateway_spec g (head used) r Hnd) as [Ha Hb]. split_and!.
  - by intros ->.
  - intros -> Hc. rewrite Ha by done. done.
  - intros -> Hc. destruct (Hb Hc) as (x & r' & -> & Hx & Hex). cbn [try_bind].
    destruct (ui_insert_spec used x Hs) as (u' & -> & Hs' & Hu' & Hl'); [left; lia|]. cbn [out_bind].
    exists x, u', r'. split_and!; try done.
    + rewrite Forall_forall in Hval. by apply Hval, Hsub.
    + intros Hin. destruct used as [|y [|z l]]; [by apply elem_of_nil in Hin| |cbn in Hlu; lia].
      apply elem_of_list_singleton in Hin as ->. by apply Hex.
Qed.

(** The special hops of a route, and what the free ones avoid. *)
Record specials (g : route_generator) (kind : route_kind) (sf sp : option N) (used : list N) : Prop := {
  sp_first : forall x, sf = Some x -> x ∈ rg_connected g /\ x ∈ used;
  sp_penult : forall x, sp = Some x -> x ∈ rg_connected g /\ x ∈ used;
  sp_first_iff : sf <> None <-> tp_is_mixnode (rg_topology g) = false /\ from_local kind;
  sp_penult_iff : sp <> None <-> tp_is_mixnode (rg_topology g) = false /\ to_local kind;
  sp_to : forall x, sf = Some x -> kind = RkToMixnode x -> rg_connected g = [x];
  sp_from : forall x, sp = Some x -> kind = RkFromMixnode x -> rg_connected g = [x];
  sp_same : forall x, sf = Some x -> sp = Some x -> rg_connected g = [x];
  sp_kind : forall x, kind = RkToMixnode x \/ kind = RkFromMixnode x -> x ∈ used;
  sp_local : forall x, tp_local_node (rg_topology g) = LMixnode x -> x ∈ used;
  sp_min : min_hops sf sp = num_special g kind + one_gateway_loop g kind + 1;
  sp_num : length (opt_node sf) + length (opt_node sp) = num_special g kind
}.

Lemma gen_route_shape g kind h r :
  gen_ok g -> kind_valid (rg_topology g) kind -> h ≤ 6 -> ~ no_gateway g ->
  exists sf sp used, specials g kind sf sp used /\
   (enough_mixnodes g kind h ->
    exists ms rt r', gen_route g kind h r = Val (Ok (rt, r')) /\
      let nodes := opt_node sf ++ map Some ms ++ opt_node sp ++ [last_node kind] in
      route_nodes rt = map (node_target g) nodes /\ rt_kx_publics rt = map (node_key g) nodes /\
      Forall (node_valid g) nodes /\ length nodes = route_hops g kind h /\ NoDup ms /\
      (forall m, m ∈ ms -> m ∉ used)) /\
   (~ enough_mixnodes g kind h -> gen_route g kind h r = Val (Err TeTooFewMixnodes)).
Proof.
  intros Hg Hk Hh Hng.
  (* everything but the special hops *)
  assert (Hfin : forall sf sp used r1,
    specials g kind sf sp used -> increasing used -> Forall (valid_index (rg_topology g)) used ->
    length used = num_used g kind ->
    gen_route g kind h r =
      ('(st, r) ←? route_loop g kind sf sp 0 (Nat.max h (min_hops sf sp)) (init_state used) r1;
       first ← expect (rs_first st);
       Val (Ok ({| rt_first := first; rt_targets := rs_targets st;
                   rt_kx_publics := rs_kx_publics st |}, r))) ->
    exists sf sp used, specials g kind sf sp used /\
     (enough_mixnodes g kind h ->
      exists ms rt r', gen_route g kind h r = Val (Ok (rt, r')) /\
        let nodes := opt_node sf ++ map Some ms ++ opt_node sp ++ [last_node kind] in
        route_nodes rt = map (node_target g) nodes /\ rt_kx_publics rt = map (node_key g) nodes /\
        Forall (node_valid g) nodes /\ length nodes = route_hops g kind h /\ NoDup ms /\
        (forall m, m ∈ ms -> m ∉ used)) /\
     (~ enough_mixnodes g kind h -> gen_route g kind h r = Val (Err TeTooFewMixnodes))).
  { intros sf sp used r1 Hsp Hs Hv Hlu E. exists sf, sp, used. split; [done|]. rewrite E.
    pose proof (sp_min _ _ _ _ _ Hsp) as Hmin. pose proof (sp_num _ _ _ _ _ Hsp) as Hnum.
    assert (Hfree : free_hops sf sp h = route_hops g kind h - num_special g kind - 1).
    { unfold free_hops, route_hops. rewrite Hmin. lia. }
    rewrite Forall_forall in Hv.
    assert (Hsfv : forall x, sf = Some x -> valid_index (rg_topology g) x).
    { intros x Hx. apply Hv. by apply (sp_first _ _ _ _ _ Hsp). }
    assert (Hspv : forall x, sp = Some x -> valid_index (rg_topology g) x).
    { intros x Hx. apply Hv. by apply (sp_penult _ _ _ _ _ Hsp). }
    destruct (run_loop g kind sf sp used h r1) as [Ha Hb]; try done.
    { by apply Forall_forall. }
    { rewrite Hlu. unfold num_used. destruct (tp_local_node _), kind; repeat destruct (decide _); lia. }
    { intros -> ->. destruct (decide (tp_is_mixnode (rg_topology g) = true)) as [Hm|Hm].
      - unfold resolve, tp_is_mixnode in *. destruct kind; [done|by destruct (tp_local_node _)..].
      - destruct kind; [done| |]; exfalso.
        + by apply (proj2 (sp_penult_iff _ _ _ _ _ Hsp)); [destruct (tp_is_mixnode _)|].
        + by apply (proj2 (sp_penult_iff _ _ _ _ _ Hsp)); [destruct (tp_is_mixnode _)|]. }
    rewrite Hlu, Hfree in Ha, Hb. unfold enough_mixnodes. split.
    - intros He. destruct Ha as (ms & st' & r' & -> & [Hrk Hrn] & Hlen & Hnd & Hm); [lia|]. cbn [try_bind].
      set (nodes := opt_node sf ++ map Some ms ++ opt_node sp ++ [last_node kind]) in *.
      destruct nodes as [|nd nds] eqn:En.
      { exfalso. apply (f_equal length) in En. unfold nodes in En. rewrite !app_length in En. cbn in En. lia. }
      destruct Hrn as (Hf & Hf' & Ht). rewrite Hf.
      destruct (resolve g nd) as [x|] eqn:Ex; [|done]. cbn [expect out_bind].
      exists ms. eexists _, r'. split; [done|]. cbv zeta. fold nodes. rewrite En. split_and!.
      + unfold route_nodes. cbn. rewrite Ht. f_equal. unfold node_target. by rewrite Ex.
      + cbn. done.
      + rewrite <- En. unfold nodes. rewrite !Forall_app. split_and!.
        * destruct sf as [y|]; repeat constructor. cbn. by apply Hsfv.
        * apply Forall_forall. intros y Hy. apply elem_of_list_fmap in Hy as (m & -> & Hmm). cbn. by apply Hm.
        * destruct sp as [y|]; repeat constructor. cbn. by apply Hspv.
        * constructor; [|done]. by destruct kind.
      + rewrite <- En. unfold nodes. rewrite !app_length, map_length, Hlen. cbn [length].
        unfold route_hops. lia.
      + done.
      + intros m Hmm. by apply Hm.
    - intros He. rewrite Hb; [done|lia]. }
  assert (Hg' := Hg). destruct Hg' as [[Hn Ht] Hc].
  destruct (tp_local_node (rg_topology g)) as [l|gs] eqn:El.
  - (* a mixnode *)
    destruct Ht as (ml & Hml & _). apply lookup_lt_Some in Hml.
    assert (Hmix : tp_is_mixnode (rg_topology g) = true) by (unfold tp_is_mixnode; by rewrite El).
    destruct kind as [i|i|].
    + assert (Hinc1 : increasing [i]) by (repeat constructor).
      destruct (ui_insert_spec [i] l Hinc1) as (u & Eu & Hus & Hu & Hul); [left; cbn; lia|].
      apply (Hfin None None u r).
      * split; try done; try (by split; [|rewrite Hmix; intros []]).
        -- intros x [H|H]; [|done]. injection H as ->. apply Hu. right. left.
        -- intros x H. rewrite El in H. injection H as ->. apply Hu. by left.
        -- unfold num_special, one_gateway_loop. by rewrite El.
        -- unfold num_special. by rewrite El.
      * done.
      * apply Forall_forall. intros x [->|Hx]%Hu; [done|]. by apply elem_of_list_singleton in Hx as ->.
      * rewrite Hul. unfold num_used. rewrite El. destruct (decide (l ∈ [i])) as [Hin|Hin].
        -- apply elem_of_list_singleton in Hin as ->. by rewrite decide_True.
        -- rewrite decide_False; [done|]. intros ->. apply Hin. left.
      * unfold gen_route. change (ui_insert [] i) with (Val [i]). cbn [out_bind].
        rewrite El, Eu. cbn [out_bind]. unfold special_hop at 1. rewrite El. cbn [try_bind].
        unfold special_hop at 1. rewrite El. cbn [try_bind]. done.
    + assert (Hinc1 : increasing [i]) by (repeat constructor).
      destruct (ui_insert_spec [i] l Hinc1) as (u & Eu & Hus & Hu & Hul); [left; cbn; lia|].
      apply (Hfin None None u r).
      * split; try done; try (by split; [|rewrite Hmix; intros []]).
        -- intros x [H|H]; [done|]. injection H as ->. apply Hu. right. left.
        -- intros x H. rewrite El in H. injection H as ->. apply Hu. by left.
        -- unfold num_special, one_gateway_loop. by rewrite El.
        -- unfold num_special. by rewrite El.
      * done.
      * apply Forall_forall. intros x [->|Hx]%Hu; [done|]. by apply elem_of_list_singleton in Hx as ->.
      * rewrite Hul. unfold num_used. rewrite El. destruct (decide (l ∈ [i])) as [Hin|Hin].
        -- apply elem_of_list_singleton in Hin as ->. by rewrite decide_True.
        -- rewrite decide_False; [done|]. intros ->. apply Hin. left.
      * unfold gen_route. change (ui_insert [] i) with (Val [i]). cbn [out_bind].
        rewrite El, Eu. cbn [out_bind]. unfold special_hop at 1. rewrite El. cbn [try_bind].
        unfold special_hop at 1. rewrite El. cbn [try_bind]. done.
    + apply (Hfin None None [l] r).
      * split; try done; try (by split; [|rewrite Hmix; intros []]).
        -- by intros x [H|H].
        -- intros x H. rewrite El in H. injection H as ->. left.
        -- unfold num_special, one_gateway_loop. rewrite El, Hc. done.
        -- unfold num_special. by rewrite El.
      * repeat constructor.
      * by repeat constructor.
      * unfold num_used. by rewrite El.
      * unfold gen_route. cbn [out_bind]. rewrite El. change (ui_insert [] l) with (Val [l]).
        cbn [out_bind]. unfold special_hop at 1. rewrite El. cbn [try_bind].
        unfold special_hop at 1. rewrite El. cbn [try_bind]. done.
  - (* not a mixnode *)
    assert (Hmix : tp_is_mixnode (rg_topology g) = false) by (unfold tp_is_mixnode; by rewrite El).
    assert (Hne : rg_connected g <> []) by (intros He; by apply Hng).
    destruct kind as [i|i|].
    + assert (Hinc1 : increasing [i]) by (repeat constructor).
      destruct (special_hop_spec g gs true [i] r Hg El Hinc1) as (_ & _ & Ha); [done|].
      destruct (Ha eq_refl Hne) as (x & u & r1 & Ex & Hx & Hxv & Hxi & Hus & Hu & Hul); clear Ha.
      apply (Hfin (Some x) None u r1).
      * split; try done.
        -- intros y H. injection H as ->. split; [done|]. apply Hu. by left.
        -- split; [by intros []|by intros [_ []]].
        -- intros y H1 H2. injection H1 as ->. injection H2 as ->. apply Hxi. left.
        -- intros y [H|H]; [|done]. injection H as ->. apply Hu. right. left.
        -- intros y H. by rewrite El in H.
        -- unfold num_special, one_gateway_loop. by rewrite El.
        -- unfold num_special. by rewrite El.
      * done.
      * apply Forall_forall. intros y [->|Hy]%Hu; [done|]. by apply elem_of_list_singleton in Hy as ->.
      * rewrite Hul. unfold num_used. rewrite El. destruct (decide (x ∈ [i])) as [Hin|Hin].
        -- rewrite decide_True; [done|]. rewrite (Hxi Hin). apply elem_of_list_singleton in Hin. by subst.
        -- rewrite decide_False; [done|]. intros Hci. apply Hin. by rewrite Hci in Hx.
      * unfold gen_route. change (ui_insert [] i) with (Val [i]). cbn [out_bind].
        rewrite El. cbn [out_bind]. rewrite Ex. cbn [try_bind].
        unfold special_hop at 1. rewrite El. cbn [try_bind]. done.
    + assert (Hinc1 : increasing [i]) by (repeat constructor).
      destruct (special_hop_spec g gs true [i] r Hg El Hinc1) as (_ & _ & Ha); [done|].
      destruct (Ha eq_refl Hne) as (x & u & r1 & Ex & Hx & Hxv & Hxi & Hus & Hu & Hul); clear Ha.
      apply (Hfin None (Some x) u r1).
      * split; try done.
        -- intros y H. injection H as ->. split; [done|]. apply Hu. by left.
        -- split; [by intros []|by intros [_ []]].
        -- intros y H1 H2. injection H1 as ->. injection H2 as ->. apply Hxi. left.
        -- intros y [H|H]; [done|]. injection H as ->. apply Hu. right. left.
        -- intros y H. by rewrite El in H.
        -- unfold num_special, one_gateway_loop. by rewrite El.
        -- unfold num_special. by rewrite El.
      * done.
      * apply Forall_forall. intros y [->|Hy]%Hu; [done|]. by apply elem_of_list_singleton in Hy as ->.
      * rewrite Hul. unfold num_used. rewrite El. destruct (decide (x ∈ [i])) as [Hin|Hin].
        -- rewrite decide_True; [done|]. rewrite (Hxi Hin). apply elem_of_list_singleton in Hin. by subst.
        -- rewrite decide_False; [done|]. intros Hci. apply Hin. by rewrite Hci in Hx.
      * unfold gen_route. change (ui_insert [] i) with (Val [i]). cbn [out_bind].
        rewrite El. cbn [out_bind]. unfold special_hop at 1. rewrite El. cbn [try_bind].
        rewrite Ex. cbn [try_bind]. done.
    + assert (Hinc0 : increasing []) by constructor.
      destruct (special_hop_spec g gs true [] r Hg El Hinc0) as (_ & _ & Ha); [cbn; lia|].
      destruct (Ha eq_refl Hne) as (x & u & r1 & Ex & Hx & Hxv & _ & Hus & Hu & Hul); clear Ha.
      rewrite decide_False in Hul by apply not_elem_of_nil. cbn in Hul.
      destruct (special_hop_spec g gs true u r1 Hg El Hus) as (_ & _ & Ha); [lia|].
      destruct (Ha eq_refl Hne) as (y & u2 & r2 & Ey & Hy & Hyv & Hyi & Hus2 & Hu2 & Hul2); clear Ha.
      assert (Hux : forall z, z ∈ u <-> z = x).
      { intros z. rewrite Hu, elem_of_nil. tauto. }
      apply (Hfin (Some x) (Some y) u2 r2).
      * split; try done.
        -- intros z H. injection H as ->. split; [done|]. apply Hu2. right. by apply Hux.
        -- intros z H. injection H as ->. split; [done|]. apply Hu2. by left.
        -- intros z H1 H2. injection H1 as ->. injection H2 as ->. apply Hyi. by apply Hux.
        -- by intros z [H|H].
        -- intros z H. by rewrite El in H.
        -- unfold num_special, one_gateway_loop, min_hops. rewrite El. cbn [is_some andb Nat.b2n].
           destruct (decide (x = y)) as [->|Hxy].
           ++ rewrite bool_decide_eq_true_2 by done. rewrite Hyi by by apply Hux. done.
           ++ rewrite bool_decide_eq_false_2 by congruence.
              destruct (rg_connected g) as [|c0 [|c1 cs]]; [done| |done].
              apply elem_of_list_singleton in Hx as ->. apply elem_of_list_singleton in Hy as ->. done.
        -- unfold num_special. by rewrite El.
      * done.
      * apply Forall_forall. intros z [->|Hz]%Hu2; [done|]. by apply Hux in Hz as ->.
      * rewrite Hul2, Hul. unfold num_used. rewrite El. destruct (decide (y ∈ u)) as [Hin|Hin].
        -- rewrite decide_True; [done|]. by rewrite (Hyi Hin).
        -- rewrite decide_False; [done|]. intros Hci. apply Hin, Hux.
           destruct (rg_connected g) as [|c0 [|c1 cs]]; [done| |done].
           apply elem_of_list_singleton in Hx as ->. by apply elem_of_list_singleton in Hy as ->.
      * unfold gen_route. cbn [out_bind]. rewrite El. cbn [out_bind]. rewrite Ex. cbn [try_bind].
        rewrite Ey. cbn [try_bind]. done.
Qed.

Lemma indices_of_nodes g rt nodes :
  route_nodes rt = map (node_target g) nodes -> route_indices rt = omap (resolve g) nodes.
Proof.
  unfold route_indices. intros ->. induction nodes as [|nd nodes IH]; [done|]. cbn.
  unfold node_target at 1. destruct (resolve g nd) as [x|]; cbn; [f_equal|]; exact IH.
Qed.
Lemma indices_shape g rt sf ms sp nd :
  route_nodes rt = map (node_target g) (opt_node sf ++ map Some ms ++ opt_node sp ++ [nd]) ->
  route_indices rt = option_list sf ++ ms ++ option_list sp ++ option_list (resolve g nd).
Proof.
  intros E. rewrite (indices_of_nodes g rt _ E). rewrite !omap_app.
  assert (Ho : forall o, omap (resolve g) (opt_node o) = option_list o) by by intros [x|].
  assert (Hm : omap (resolve g) (map Some ms) = ms).
  { clear E. induction ms as [|m ms IH]; [done|]. cbn. f_equal. exact IH. }
  rewrite !Ho, Hm. done.
Qed.

(** ** Theorems *)

(** C29: route generation with a valid mixnode and at most six hops never panics; whether and how it
    fails is given by the connectivity and the number of mixnodes alone. *)
Theorem C29_route (g : route_generator) (kind : route_kind) (num_hops : nat) (r : rng) :
  gen_ok g -> kind_valid (rg_topology g) kind -> num_hops ≤ 6 ->
  (no_gateway g -> gen_route g kind num_hops r = Val (Err TeNoConnectedGatewayMixnodes)) /\
  (~ no_gateway g -> enough_mixnodes g kind num_hops ->
     exists rt r', gen_route g kind num_hops r = Val (Ok (rt, r'))) /\
  (~ no_gateway g -> ~ enough_mixnodes g kind num_hops ->
     gen_route g kind num_hops r = Val (Err TeTooFewMixnodes)).
Proof.
  intros Hg Hk Hh. split_and!.
  - intros [Hm Hc]. destruct (tp_local_node (rg_topology g)) as [l|gs] eqn:El.
    { unfold tp_is_mixnode in Hm. by rewrite El in Hm. }
    assert (Hinc : forall x : N, increasing [x]) by (repeat constructor).
    unfold gen_route. destruct kind as [i|i|]; cbn [out_bind].
    + change (ui_insert [] i) with (Val [i]). cbn [out_bind]. rewrite El. cbn [out_bind].
      destruct (special_hop_spec g gs true [i] r Hg El (Hinc i)) as (_ & Ha & _); [done|].
      by rewrite (Ha eq_refl Hc).
    + change (ui_insert [] i) with (Val [i]). cbn [out_bind]. rewrite El. cbn [out_bind].
      destruct (special_hop_spec g gs false [i] r Hg El (Hinc i)) as (Hb & _ & _); [done|].
      rewrite (Hb eq_refl). cbn [try_bind].
      destruct (special_hop_spec g gs true [i] r Hg El (Hinc i)) as (_ & Ha & _); [done|].
      by rewrite (Ha eq_refl Hc).
    + rewrite El. cbn [out_bind].
      destruct (special_hop_spec g gs true [] r Hg El) as (_ & Ha & _); [constructor|cbn; lia|].
      by rewrite (Ha eq_refl Hc).
  - intros Hng He. destruct (gen_route_shape g kind num_hops r Hg Hk Hh Hng) as (sf & sp & used & _ & Ha & _).
    destruct (Ha He) as (ms & rt & r' & E & _). by exists rt, r'.
  - intros Hng He. destruct (gen_route_shape g kind num_hops r Hg Hk Hh Hng) as (sf & sp & used & _ & _ & Hb).
    by apply Hb.
Qed.

(** C25: every generated route is well formed. *)
Theorem C25_route (g : route_generator) (kind : route_kind) (num_hops : nat) (r r' : rng) (rt : route) :
  gen_ok g -> kind_valid (rg_topology g) kind -> num_hops ≤ 6 ->
  gen_route g kind num_hops r = Val (Ok (rt, r')) -> route_ok g kind num_hops rt.
Proof.
  intros Hg Hk Hh E.
  assert (Hng : ~ no_gateway g).
  { intros Hng. pose proof (proj1 (C29_route g kind num_hops r Hg Hk Hh) Hng). congruence. }
  destruct (gen_route_shape g kind num_hops r Hg Hk Hh Hng) as (sf & sp & used & Hsp & Ha & Hb).
  assert (He : enough_mixnodes g kind num_hops).
  { unfold enough_mixnodes in *. match goal with |- ?P => destruct (decide P) as [|Hne]; [done|] end.
    rewrite (Hb Hne) in E. done. }
  destruct (Ha He) as (ms & rt2 & r2 & E2 & Hn & Hkeys & Hv & Hlen & Hnd & Hms). clear Ha Hb.
  rewrite E in E2. injection E2 as <- <-.
  set (nodes := opt_node sf ++ map Some ms ++ opt_node sp ++ [last_node kind]) in *.
  assert (Hrl : length (route_nodes rt) = route_hops g kind num_hops) by (rewrite Hn, map_length; done).
  assert (Hsplit : nodes = (opt_node sf ++ map Some ms ++ opt_node sp) ++ [last_node kind]).
  { unfold nodes. by rewrite <- !app_assoc. }
  assert (Hlast : node_target g (last_node kind) =
                  match kind with RkToMixnode i => TMixnodeIndex i | _ => local_target g end).
  { unfold node_target, resolve, local_target. destruct kind; cbn; [done|by destruct (tp_local_node _)..]. }
  assert (Htgt : forall x, node_target g (Some x) = TMixnodeIndex x) by done.
  assert (Hbefore : forall nd, nd ∈ opt_node sf ++ map Some ms ++ opt_node sp -> exists x, nd = Some x).
  { intros nd. rewrite !elem_of_app. intros [Hin|[Hin|Hin]].
    - destruct sf as [x|]; [|by apply elem_of_nil in Hin]. apply elem_of_list_singleton in Hin. eauto.
    - apply elem_of_list_fmap in Hin as (x & -> & _). eauto.
    - destruct sp as [x|]; [|by apply elem_of_nil in Hin]. apply elem_of_list_singleton in Hin. eauto. }
  split.
  - rewrite Hrl. unfold route_hops. pose proof (sp_min _ _ _ _ _ Hsp). pose proof (min_hops_bound sf sp). lia.
  - rewrite Hn, Hkeys. clear Hrl Hn Hkeys Hlen. apply Forall2_fmap_2. clearbody nodes. clear Hsplit.
    induction Hv as [|nd nodes Hnd' Hv IH]; constructor; [|done].
    unfold node_target, resolve, node_key. destruct nd as [x|].
    + cbn in Hnd'. apply lookup_lt_is_Some_2 in Hnd' as [m Hm]. rewrite Hm. by exists m.
    + destruct Hg as [[_ Ht] _]. destruct (tp_local_node (rg_topology g)); [done|done].
  - rewrite Hn, Hsplit, map_app. cbn [map]. rewrite last_snoc. by rewrite Hlast.
  - intros j p Hj. rewrite Hn in Hj |- *. rewrite map_length.
    rewrite list_lookup_fmap in Hj. apply fmap_Some in Hj as (nd & Hj & Ht).
    rewrite Hsplit in Hj |- *. rewrite app_length. cbn [length].
    apply lookup_app_Some in Hj as [Hj|[Hle Hj]].
    + apply elem_of_list_lookup_2 in Hj. apply Hbefore in Hj as [x ->]. done.
    + apply lookup_lt_Some in Hj as Hlt. cbn in Hlt. lia.
  - intros gs El.
    assert (Hmix : tp_is_mixnode (rg_topology g) = false) by (unfold tp_is_mixnode; by rewrite El).
    assert (Hsp' : length (opt_node sf) + length (opt_node sp) = num_special g kind) by apply Hsp.
    split_and!.
    + rewrite Hrl. unfold route_hops, num_special. rewrite El. destruct kind; lia.
    + intros Hf. destruct sf as [x|].
      2:{ by destruct (proj2 (sp_first_iff _ _ _ _ _ Hsp) (conj Hmix Hf)). }
      unfold nodes in Hn. cbn in Hn. unfold route_nodes in Hn. injection Hn as Hx _. rewrite Hx.
      by apply (sp_first _ _ _ _ _ Hsp).
    + intros Hf. destruct sp as [x|].
      2:{ by destruct (proj2 (sp_penult_iff _ _ _ _ _ Hsp) (conj Hmix Hf)). }
      exists x. split; [by apply (sp_penult _ _ _ _ _ Hsp)|].
      rewrite Hn, map_length. unfold nodes. cbn [opt_node].
      rewrite !app_length. cbn [length].
      replace (length (opt_node sf) + (length (map Some ms) + (1 + 1)) - 2)
        with (length (opt_node sf ++ map Some ms) + 0) by (rewrite app_length; lia).
      rewrite list_lookup_fmap. rewrite app_assoc. rewrite lookup_app_r by lia.
      replace (_ - _) with 0 by lia. done.
  - intros l El Hf H2. destruct Hsp as [_ _ H3 H4 _ _ _ _ H9 _ _].
    assert (Hmix : tp_is_mixnode (rg_topology g) = true) by (unfold tp_is_mixnode; by rewrite El).
    assert (sf = None) as -> by (destruct sf; [|done]; destruct (proj1 H3 ltac:(done)) as [? _]; congruence).
    assert (sp = None) as -> by (destruct sp; [|done]; destruct (proj1 H4 ltac:(done)) as [? _]; congruence).
    unfold nodes in Hn. cbn [opt_node app] in Hn. destruct ms as [|x ms].
    { rewrite Hn in H2. cbn in H2. lia. }
    cbn in Hn. unfold route_nodes in Hn. injection Hn as Hx _. rewrite Hx. intros ->.
    apply (Hms l); [left|by apply H9].
Qed.

(** C26: unless a single gateway has to serve twice, no mixnode is visited twice, counting the one
    where the route starts. *)
Theorem C26_no_revisit (g : route_generator) (kind : route_kind) (num_hops : nat) (r r' : rng) (rt : route) :
  gen_ok g -> kind_valid (rg_topology g) kind -> num_hops ≤ 6 ->
  gen_route g kind num_hops r = Val (Ok (rt, r')) ->
  (~ exists x, forced_revisit g kind x) -> NoDup (route_start g kind ++ route_indices rt).
Proof.
  intros Hg Hk Hh E Hnf.
  assert (Hng : ~ no_gateway g).
  { intros Hng. pose proof (proj1 (C29_route g kind num_hops r Hg Hk Hh) Hng). congruence. }
  destruct (gen_route_shape g kind num_hops r Hg Hk Hh Hng) as (sf & sp & used & Hsp & Ha & Hb).
  assert (He : enough_mixnodes g kind num_hops).
  { unfold enough_mixnodes in *. match goal with |- ?P => destruct (decide P) as [|Hne]; [done|] end.
    rewrite (Hb Hne) in E. done. }
  destruct (Ha He) as (ms & rt2 & r2 & E2 & Hn & _ & _ & _ & Hnd & Hms). clear Ha Hb.
  rewrite E in E2. injection E2 as <- <-.
  rewrite (indices_shape g rt _ _ _ _ Hn).
  (* it is enough that the fixed nodes are distinct and among those avoided *)
  assert (Hkey : NoDup (route_start g kind ++ option_list sf ++ option_list sp ++
                        option_list (resolve g (last_node kind))) /\
                 forall x, x ∈ route_start g kind ++ option_list sf ++ option_list sp ++
                        option_list (resolve g (last_node kind)) -> x ∈ used).
  { destruct Hsp as [H1 H2 H3 H4 H5 H6 H7 H8 H9 _ _].
    assert (Hd : forall (a : N) o, (forall x, o = Some x -> x <> a) -> NoDup (option_list o) -> NoDup (a :: option_list o)).
    { intros a o Ho Hno. constructor; [|done]. destruct o as [x|]; cbn; [|apply not_elem_of_nil].
      intros Hin%elem_of_list_singleton. by apply (Ho x). }
    destruct (tp_local_node (rg_topology g)) as [l|gs] eqn:El.
    - assert (Hmix : tp_is_mixnode (rg_topology g) = true) by (unfold tp_is_mixnode; by rewrite El).
      assert (sf = None) as -> by (destruct sf; [|done]; by destruct (proj1 H3 ltac:(done)) as [? _]; congruence).
      assert (sp = None) as -> by (destruct sp; [|done]; by destruct (proj1 H4 ltac:(done)) as [? _]; congruence).
      cbn [option_list app]. specialize (H9 l eq_refl).
      unfold route_start, resolve. rewrite El. destruct kind as [i|i|]; cbn.
      + specialize (H8 i ltac:(by left)). destruct (decide (l = i)) as [->|Hne]; cbn.
        * split; [apply NoDup_singleton|]. by intros x ->%elem_of_list_singleton.
        * split; [|by intros x [->| ->%elem_of_list_singleton]%elem_of_cons].
          constructor; [|apply NoDup_singleton]. by intros ?%elem_of_list_singleton.
      + specialize (H8 i ltac:(by right)). destruct (decide (l = i)) as [->|Hne]; cbn.
        * split; [apply NoDup_singleton|]. by intros x ->%elem_of_list_singleton.
        * split; [|by intros x [->| ->%elem_of_list_singleton]%elem_of_cons].
          constructor; [|apply NoDup_singleton]. intros ?%elem_of_list_singleton. congruence.
      + split; [apply NoDup_singleton|]. by intros x ->%elem_of_list_singleton.
    - assert (Hmix : tp_is_mixnode (rg_topology g) = false) by (unfold tp_is_mixnode; by rewrite El).
      unfold route_start, resolve. rewrite El. destruct kind as [i|i|]; cbn [last_node option_list].
      + assert (sp = None) as -> by (destruct sp; [|done]; by destruct (proj1 H4 ltac:(done)) as [_ []]).
        destruct sf as [x|].
        2:{ by destruct (proj2 H3 (conj Hmix I)). }
        cbn. specialize (H8 i ltac:(by left)). destruct (H1 x eq_refl) as [_ Hxu]. split.
        * constructor; [|apply NoDup_singleton]. intros ->%elem_of_list_singleton.
          apply Hnf. exists i. split; [|done]. by apply H5.
        * by intros y [->| ->%elem_of_list_singleton]%elem_of_cons.
      + assert (sf = None) as -> by (destruct sf; [|done]; by destruct (proj1 H3 ltac:(done)) as [_ []]).
        destruct sp as [x|].
        2:{ by destruct (proj2 H4 (conj Hmix I)). }
        cbn. specialize (H8 i ltac:(by right)). destruct (H2 x eq_refl) as [_ Hxu]. split.
        * constructor; [|apply NoDup_singleton]. intros ->%elem_of_list_singleton.
          apply Hnf. exists x. split; [|done]. by apply H6.
        * by intros y [->| ->%elem_of_list_singleton]%elem_of_cons.
      + destruct sf as [x|].
        2:{ by destruct (proj2 H3 (conj Hmix I)). }
        destruct sp as [y|].
        2:{ by destruct (proj2 H4 (conj Hmix I)). }
        cbn. destruct (H1 x eq_refl) as [_ Hxu]. destruct (H2 y eq_refl) as [_ Hyu]. split.
        * constructor; [|apply NoDup_singleton]. intros ->%elem_of_list_singleton.
          apply Hnf. exists y. split; [|done]. by apply H7.
        * by intros z [->| ->%elem_of_list_singleton]%elem_of_cons. }
  destruct Hkey as [Hnd2 Hus].
  set (a := route_start g kind) in *. set (b := option_list sf) in *. set (c := option_list sp) in *.
  set (d := option_list (resolve g (last_node kind))) in *.
  assert (Hp : a ++ b ++ ms ++ c ++ d ≡ₚ ms ++ (a ++ b ++ c ++ d)).
  { rewrite (app_assoc a b (ms ++ c ++ d)), (app_assoc a b (c ++ d)). apply Permutation_app_swap_app. }
  rewrite Hp. apply NoDup_app. split_and!; [done| |done].
  intros x Hx Hin. by apply (Hms x Hx), Hus.
Qed.

(** ... and if it has to, it does so at the two ends only. *)
Theorem C26_forced (g : route_generator) (kind : route_kind) (num_hops : nat) (r r' : rng) (rt : route) (x : N) :
  gen_ok g -> kind_valid (rg_topology g) kind -> num_hops ≤ 6 ->
  gen_route g kind num_hops r = Val (Ok (rt, r')) -> forced_revisit g kind x ->
  exists ms, NoDup (x :: ms) /\
    match kind with
    | RkToMixnode _ => route_indices rt = x :: ms ++ [x]
    | RkFromMixnode _ => route_indices rt = ms ++ [x]
    | RkLoop => route_indices rt = x :: ms ++ [x] /\ ms <> []
    end.
Proof.
  intros Hg Hk Hh E [Hc Hx].
  assert (Hmix : tp_is_mixnode (rg_topology g) = false).
  { destruct Hg as [_ Hl]. unfold tp_is_mixnode. destruct (tp_local_node (rg_topology g)); [|done]. congruence. }
  assert (Hng : ~ no_gateway g) by (intros [_ ?]; congruence).
  destruct (gen_route_shape g kind num_hops r Hg Hk Hh Hng) as (sf & sp & used & Hsp & Ha & Hb).
  assert (He : enough_mixnodes g kind num_hops).
  { unfold enough_mixnodes in *. match goal with |- ?P => destruct (decide P) as [|Hne]; [done|] end.
    rewrite (Hb Hne) in E. done. }
  destruct (Ha He) as (ms & rt2 & r2 & E2 & Hn & _ & _ & Hlen & Hnd & Hms). clear Ha Hb.
  rewrite E in E2. injection E2 as <- <-.
  rewrite (indices_shape g rt _ _ _ _ Hn). exists ms.
  destruct Hsp as [H1 H2 H3 H4 H5 H6 H7 H8 H9 H10 H11].
  assert (Hres : resolve g None = None).
  { unfold resolve, tp_is_mixnode in *. by destruct (tp_local_node _). }
  destruct kind as [i|i|]; cbn [last_node option_list].
  - subst i. split; [constructor; [|done]; intros Hin; apply (Hms x Hin), H8; by left|].
    assert (sp = None) as -> by (destruct sp; [|done]; by destruct (proj1 H4 ltac:(done)) as [_ []]).
    destruct sf as [y|].
    2:{ by destruct (proj2 H3 (conj Hmix I)). }
    destruct (H1 y eq_refl) as [Hy _]. rewrite Hc in Hy. apply elem_of_list_singleton in Hy as ->. done.
  - subst i. split; [constructor; [|done]; intros Hin; apply (Hms x Hin), H8; by right|].
    assert (sf = None) as -> by (destruct sf; [|done]; by destruct (proj1 H3 ltac:(done)) as [_ []]).
    destruct sp as [y|].
    2:{ by destruct (proj2 H4 (conj Hmix I)). }
    destruct (H2 y eq_refl) as [Hy _]. rewrite Hc in Hy. apply elem_of_list_singleton in Hy as ->.
    rewrite Hres. done.
  - destruct sf as [y|].
    2:{ by destruct (proj2 H3 (conj Hmix I)). }
    destruct sp as [z|].
    2:{ by destruct (proj2 H4 (conj Hmix I)). }
    destruct (H1 y eq_refl) as [Hy Hyu]. destruct (H2 z eq_refl) as [Hz _]. rewrite Hc in Hy, Hz.
    apply elem_of_list_singleton in Hy as ->. apply elem_of_list_singleton in Hz as ->.
    split; [constructor; [|done]; intros Hin; by apply (Hms x Hin)|].
    rewrite Hres. split; [done|]. intros ->. cbn in Hlen.
    unfold route_hops, num_special, one_gateway_loop in Hlen. rewrite Hc in Hlen.
    unfold tp_is_mixnode in Hmix. destruct (tp_local_node (rg_topology g)); [done|]. lia.
Qed.

(** C29: the random destination is any mixnode but the local one, or the only connected gateway; it
    is chosen uniformly ([C27_choose]) and fails only if there is none. *)
Theorem C29_destination (g : route_generator) (r : rng) :
  gen_ok g ->
  let forbidden := match tp_local_node (rg_topology g) with
                   | LMixnode l => [l]
                   | LNonMixnode _ => match rg_connected g with [x] => [x] | _ => [] end
                   end in
  (length forbidden = length (tp_mixnodes (rg_topology g)) ->
     choose_destination_index g r = Val (Err TeTooFewMixnodes)) /\
  (length forbidden < length (tp_mixnodes (rg_topology g)) ->
     exists d, choose_destination_index g r = Val (Ok (d, (rng_draw r).2)) /\
       valid_index (rg_topology g) d /\ d ∉ forbidden) /\
  length forbidden ≤ length (tp_mixnodes (rg_topology g)).
Proof.
  intros Hg forbidden. unfold choose_destination_index.
  assert (Hv : increasing forbidden /\ Forall (valid_index (rg_topology g)) forbidden).
  { unfold forbidden. destruct Hg as [[_ Ht] Hc]. destruct (tp_local_node (rg_topology g)) as [l|gs].
    - split; [repeat constructor|]. constructor; [|done]. destruct Ht as (m & Hm & _).
      by apply lookup_lt_Some in Hm.
    - destruct Hc as (_ & Hsub & _). destruct Ht as [_ Hf]. rewrite Forall_forall in Hf.
      destruct (rg_connected g) as [|x [|? ?]]; [repeat constructor| |repeat constructor].
      split; [repeat constructor|]. constructor; [|done]. apply Hf, Hsub. left. }
  destruct Hv as [Hi Hv].
  destruct (choose_spec g forbidden r (proj1 (proj1 Hg)) Hi Hv) as (Ha & Hb & Hc). split_and!; [done| |done].
  intros Hlt. destruct (Hb Hlt) as (y & ? & ? & ?). by exists y.
Qed.

(** ** Examples: seven mixnodes; a mixnode, and another node with one or three gateways connected. *)
Definition ex_gen_mix : route_generator := RouteGenerator (Topology ex_nodes [2%N] (LMixnode 2%N)) [200%N] [].
Definition ex_gen_non (c : list N) : route_generator :=
  RouteGenerator (Topology ex_nodes [99%N] (LNonMixnode [3; 5; 6]%N)) [200%N] c.
Lemma ex_gen_mix_ok : gen_ok ex_gen_mix.
Proof. split; [|done]. split; [cbn; lia|]. by eexists. Qed.
Lemma ex_gen_non_ok : gen_ok (ex_gen_non [3; 6]%N) /\ gen_ok (ex_gen_non [5]%N) /\ gen_ok (ex_gen_non []).
Proof.
  assert (Ht : topo_ok (Topology ex_nodes [99%N] (LNonMixnode [3; 5; 6]%N))).
  { split; [cbn; lia|]. cbn. split.
    - by apply (bool_decide_unpack _).
    - repeat constructor; cbn; lia. }
  split_and!; (split; [done|]); cbn.
  - split_and!; [by apply (bool_decide_unpack _)| |lia]. by apply Forall_forall, (bool_decide_unpack _).
  - split_and!; [by apply (bool_decide_unpack _)| |lia]. by apply Forall_forall, (bool_decide_unpack _).
  - split_and!; [constructor| |lia]. by intros x ?%elem_of_nil.
Qed.
Definition route_of (g : route_generator) (k : route_kind) (h : nat) (r : rng) : option (list N * list target) :=
  match gen_route g k h r with Val (Ok (rt, _)) => Some (route_indices rt, rt_targets rt) | _ => None end.
Example ex_routes :
  (* mixnode to mixnode 4, five hops *)
  (exists ts, route_of ex_gen_mix (RkToMixnode 4%N) 5 (ex_tape [1; 0; 2; 1]%N) = Some ([1; 0; 6; 5; 4]%N, ts)) /\
  (* a loop of a node with one gateway is four hops long *)
  route_of (ex_gen_non [5]%N) RkLoop 2 (ex_tape [0; 3]%N) =
    Some ([5; 3; 5]%N, [TMixnodeIndex 3; TMixnodeIndex 5; TPeerId [200]]%N) /\
  (* a reply from mixnode 3 arrives through the other gateway *)
  route_of (ex_gen_non [3; 6]%N) (RkFromMixnode 3%N) 3 (ex_tape [0; 1]%N) =
    Some ([1; 6]%N, [TMixnodeIndex 6; TPeerId [200]]%N) /\
  (* a request to the only connected gateway visits it twice *)
  route_of (ex_gen_non [5]%N) (RkToMixnode 5%N) 2 (ex_tape [])%N = Some ([5; 5]%N, [TMixnodeIndex 5%N]) /\
  (* no gateway connected *)
  gen_route (ex_gen_non []) RkLoop 3 (ex_tape []) = Val (Err TeNoConnectedGatewayMixnodes).
Proof. split_and!; try (vm_compute; done). eexists. vm_compute. done. Qed.

Print Assumptions C25_generator.
Print Assumptions C25_route.
Print Assumptions C26_no_revisit.
Print Assumptions C26_forced.
Print Assumptions C29_route.
Print Assumptions C29_destination.
