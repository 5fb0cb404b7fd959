(** C62: every route that C25 and C26 permit is generated, each for the same number of random draws. *)
From Verif Require Export PRoute.

(** ** Specification *)

(** The next draws, each reduced to a number below the given bound. *)
Fixpoint draws (r : rng) (ks : list N) : list N :=
  match ks with
  | [] => []
  | k :: ks => ((rng_draw r).1 mod k)%N :: draws (rng_draw r).2 ks
  end.
(** The generator after [n] draws *)
Definition after (r : rng) (n : nat) : rng := Rng (rng_tape r) (rng_pos r + n).

(** [m] makes one draw below each of the bounds [ks], independently of the values drawn. Its result is
    in [P], and for each element of [P] there is exactly one choice of draws which produces it. So with
    uniformly distributed draws the result is uniformly distributed over [P]. *)
Definition uniform {A} (m : rng -> route_result A) (ks : list N) (P : A -> Prop) : Prop :=
  Forall (fun k => (0 < k)%N) ks /\
  (forall r, exists a, m r = Val (Ok (a, after r (length ks))) /\ P a) /\
  (forall a, P a -> exists vs, Forall2 N.lt vs ks /\
     forall r, (exists r', m r = Val (Ok (a, r'))) <-> draws r ks = vs).

(** The routes that are permitted: those of C25, with the number of hops of C29, which visit no mixnode
    twice unless a single gateway has to serve twice (C26). *)
Definition permitted (g : route_generator) (kind : route_kind) (num_hops : nat) (rt : route) : Prop :=
  route_ok g kind num_hops rt /\
  length (route_nodes rt) = route_hops g kind num_hops /\
  ((~ exists x, forced_revisit g kind x) -> NoDup (route_start g kind ++ route_indices rt)) /\
  (forall x, forced_revisit g kind x -> exists ms, NoDup (x :: ms) /\
     match kind with
     | RkToMixnode _ | RkLoop => route_indices rt = x :: ms ++ [x]
     | RkFromMixnode _ => route_indices rt = ms ++ [x]
     end).

(** ** Proof *)
Lemma draws_app r ks ks' : draws r (ks ++ ks') = draws r ks ++ draws (after r (length ks)) ks'.
Proof.
  revert r. induction ks as [|k ks IH]; intros r; cbn.
  - destruct r as [t p]. unfold after. cbn. by rewrite Nat.add_0_r.
  - f_equal. rewrite IH. do 2 f_equal. unfold after. cbn. f_equal. lia.
Qed.
Lemma draws_length r ks : length (draws r ks) = length ks.
Proof. revert r. induction ks as [|k ks IH]; intros r; cbn; [done|by rewrite IH]. Qed.
Lemma after_0 r : after r 0 = r.
Proof. destruct r as [t p]. unfold after. cbn. by rewrite Nat.add_0_r. Qed.
Lemma after_after r a b : after (after r a) b = after r (a + b).
Proof. unfold after. cbn. f_equal. lia. Qed.

Lemma draw_after r : (rng_draw r).2 = after r 1.
Proof. unfold after, rng_draw. cbn. f_equal. lia. Qed.

Lemma uniform_ext {A} (m m' : rng -> route_result A) ks P P' :
  (forall r, m r = m' r) -> (forall a, P a <-> P' a) -> uniform m ks P -> uniform m' ks P'.
Proof.
  intros Hm HP (H1 & H2 & H3). split_and!; [done| |].
  - intros r. destruct (H2 r) as (a & E & Ha). exists a. rewrite <- Hm. split; [done|by apply HP].
  - intros a Ha. destruct (H3 a (proj2 (HP a) Ha)) as (vs & Hb & Hr). exists vs. split; [done|].
    intros r. rewrite <- Hr. by setoid_rewrite Hm.
Qed.
Lemma uniform_ret {A} (a : A) : uniform (fun r => Val (Ok (a, r))) [] (fun b => b = a).
Proof.
  split_and!; [constructor| |].
  - intros r. exists a. cbn. by rewrite after_0.
  - intros b ->. exists []. split; [constructor|]. intros r. cbn. split; [done|]. intros _. by exists r.
Qed.
Lemma uniform_bind {A B} (m : rng -> route_result A) (k : A -> rng -> route_result B) ks ks' P Q :
  uniform m ks P -> (forall a, P a -> uniform (k a) ks' (Q a)) ->
  (forall a a' b, P a -> P a' -> Q a b -> Q a' b -> a = a') -> (exists a, P a) ->
  uniform (fun r => '(a, r) ←? m r; k a r) (ks ++ ks') (fun b => exists a, P a /\ Q a b).
Proof.
  intros (H1 & H2 & H3) Hk Hrec [a0 Ha0]. split_and!.
  - apply Forall_app. split; [done|]. by apply (Hk a0).
  - intros r. destruct (H2 r) as (a & E & Ha). rewrite E. cbn [try_bind].
    destruct (Hk a Ha) as (_ & Hk2 & _). destruct (Hk2 (after r (length ks))) as (b & Eb & Hb).
    exists b. rewrite Eb, after_after, app_length. split; [done|]. by exists a.
  - intros b (a & Ha & Hb). destruct (H3 a Ha) as (vs & Hvs & Hr).
    destruct (Hk a Ha) as (_ & Hk2 & Hk3). destruct (Hk3 b Hb) as (vs' & Hvs' & Hr').
    exists (vs ++ vs'). split; [by apply Forall2_app|]. intros r. rewrite draws_app. split.
    + intros (r' & E). destruct (H2 r) as (a1 & E1 & Ha1). rewrite E1 in E. cbn [try_bind] in E.
      destruct (Hk a1 Ha1) as (_ & Hk2' & _).
      destruct (Hk2' (after r (length ks))) as (b1 & Eb1 & Hb1).
      assert (b1 = b) as -> by congruence.
      assert (a1 = a) as -> by by eapply Hrec.
      f_equal; [apply Hr; by eexists|apply Hr'; by eexists].
    + intros Heq. apply app_inj_1 in Heq as [Hd Hd'].
      2:{ rewrite draws_length. symmetry. by eapply Forall2_length. }
      apply Hr in Hd as (r1 & E1). destruct (H2 r) as (a1 & E1' & _).
      rewrite E1. assert (r1 = after r (length ks)) as -> by congruence. cbn [try_bind].
      by apply Hr' in Hd'.
Qed.

(** The choice of a mixnode *)
Lemma uniform_choose g (u : list N) :
  length (tp_mixnodes (rg_topology g)) ≤ N.to_nat 65280 -> increasing u ->
  Forall (valid_index (rg_topology g)) u -> length u < length (tp_mixnodes (rg_topology g)) ->
  uniform (choose_mixnode_index g u) [N.of_nat (length (tp_mixnodes (rg_topology g)) - length u)]
    (fun y => valid_index (rg_topology g) y /\ y ∉ u).
Proof.
  intros Hn Hs Hv Hl. set (n := length (tp_mixnodes (rg_topology g))) in *.
  assert (Hf : Forall (fun e => (e < N.of_nat n)%N) u).
  { eapply Forall_impl; [exact Hv|]. unfold valid_index. cbn. intros. lia. }
  destruct (C27_choose g u Hn Hs Hf) as [_ Hb].
  destruct (choose_spec g u (Rng (fun _ => 0%N) 0) Hn Hs Hv) as (_ & Hex & _).
  destruct (Hex Hl) as (y & _ & Hny & Hvy).
  destruct (Hb y ltac:(unfold valid_index in Hvy; lia) Hny) as (ch & E & Hr & Hinj & Hsurj).
  fold n in E, Hr, Hinj, Hsurj. set (k := N.of_nat (n - length u)) in *.
  assert (Hk : (0 < k)%N) by (unfold k; lia). split_and!.
  - by repeat constructor.
  - intros r. eexists. split; [rewrite E; f_equal; f_equal; f_equal; unfold after, rng_draw; cbn; f_equal; lia|].
    destruct (Hr ((rng_draw r).1 mod k)%N) as [Hlt Hni]; [apply N.mod_lt; lia|].
    split; [unfold valid_index; lia|done].
  - intros z [Hz Hnz]. destruct (Hsurj z) as (c & Hc & Hcz); [unfold valid_index in Hz; lia|done|].
    exists [c]. split; [by repeat constructor|]. intros r. cbn [draws]. split.
    + intros (r' & E'). rewrite E in E'.
      assert (Ez : ch ((rng_draw r).1 mod k)%N = z) by congruence. clear E'. f_equal.
      apply Hinj; [apply N.mod_lt; lia|done|]. by rewrite Ez.
    + intros Heq. assert (Ec : ((rng_draw r).1 mod k)%N = c) by congruence.
      eexists. rewrite E, Ec, Hcz. done.
Qed.

(** The choice of one of a list *)
Lemma rng_choose_cons {A} (l : list A) r :
  l <> [] -> exists x, l !! N.to_nat ((rng_draw r).1 mod N.of_nat (length l)) = Some x /\
    rng_choose l r = (Some x, after r 1).
Proof.
  intros Hl. assert (0 < length l) by (destruct l; [done|cbn; lia]).
  destruct (lookup_lt_is_Some_2 l (N.to_nat ((rng_draw r).1 mod N.of_nat (length l)))) as [x Hx].
  { pose proof (N.mod_lt (rng_draw r).1 (N.of_nat (length l)) ltac:(lia)). lia. }
  exists x. split; [done|]. rewrite <- draw_after. destruct l as [|a l]; [done|]. unfold rng_choose.
  rewrite (surjective_pairing (rng_draw r)). by rewrite Hx.
Qed.
Lemma uniform_from_list {A B} (m : rng -> route_result B) (l : list A) (f : A -> B) :
  l <> [] -> NoDup l ->
  (forall x y, x ∈ l -> y ∈ l -> f x = f y -> x = y) ->
  (forall r, m r = match rng_choose l r with (Some x, r') => Val (Ok (f x, r')) | _ => Panic end) ->
  uniform m [N.of_nat (length l)] (fun b => exists x, x ∈ l /\ b = f x).
Proof.
  intros Hl Hnd Hinj Hm. assert (0 < length l) by (destruct l; [done|cbn; lia]). split_and!.
  - repeat constructor. lia.
  - intros r. destruct (rng_choose_cons l r Hl) as (x & Hx & E). exists (f x). rewrite Hm, E.
    split; [done|]. exists x. split; [by eapply elem_of_list_lookup_2|done].
  - intros b (x & Hx & ->). apply elem_of_list_lookup in Hx as [j Hj].
    assert (j < length l) by by eapply lookup_lt_Some.
    exists [N.of_nat j]. split; [repeat constructor; lia|]. intros r.
    destruct (rng_choose_cons l r Hl) as (y & Hy & E). rewrite Hm, E. cbn [draws].
    set (v := ((rng_draw r).1 mod N.of_nat (length l))%N) in *. split.
    + intros (r' & E'). assert (Ef : f y = f x) by congruence.
      assert (y = x) as -> by (apply Hinj; [by eapply elem_of_list_lookup_2..|done]).
      pose proof (NoDup_lookup _ _ _ _ Hnd Hy Hj). f_equal. lia.
    + intros Heq. assert (Ev : v = N.of_nat j) by congruence. rewrite Ev, Nat2N.id in Hy.
      assert (y = x) as -> by congruence. by eexists.
Qed.

(** The choice of a gateway *)
Definition gateway_bounds (c : list N) (o : option N) : list N :=
  match o with
  | Some e =>
      if decide (e ∈ c) then match c with _ :: _ :: _ => [N.of_nat (length c - 1)] | _ => [] end
      else [N.of_nat (length c)]
  | None => [N.of_nat (length c)]
  end.
Lemma uniform_gateway g (o : option N) :
  NoDup (rg_connected g) -> rg_connected g <> [] ->
  uniform (choose_connected_gateway_index g o) (gateway_bounds (rg_connected g) o)
    (fun x => x ∈ rg_connected g /\ (o = Some x -> rg_connected g = [x])).
Proof.
  intros Hnd Hne.
  (* without exclusion *)
  assert (Hall : forall m : rng -> route_result mixnode_index,
            (forall x, x ∈ rg_connected g -> o <> Some x) ->
            (forall r, m r = match rng_choose (rg_connected g) r with
                             | (Some x, r') => Val (Ok (x, r')) | _ => Panic end) ->
            uniform m [N.of_nat (length (rg_connected g))]
              (fun x => x ∈ rg_connected g /\ (o = Some x -> rg_connected g = [x]))).
  { intros m Ho Hm. eapply uniform_ext; [done| |exact (uniform_from_list m (rg_connected g) id Hne Hnd ltac:(done) Hm)].
    intros x. split.
    - intros (y & Hy & ->). split; [done|]. intros E. by destruct (Ho y Hy).
    - intros [Hx _]. by exists x. }
  assert (Hchoose : forall r, match rng_choose (rg_connected g) r with
            | (Some i, r') => Val (Ok (i, r')) | (None, _) => Val (Err TeNoConnectedGatewayMixnodes) end =
            match rng_choose (rg_connected g) r with (Some x, r') => Val (Ok (x, r')) | _ => Panic end).
  { intros r. by destruct (rng_choose_cons (rg_connected g) r Hne) as (x & _ & ->). }
  unfold choose_connected_gateway_index, gateway_bounds. destruct o as [e|].
  2:{ apply Hall; [done|]. intros r. apply Hchoose. }
  destruct (decide (e ∈ rg_connected g)) as [He|He].
  - assert (Ee : existsb (fun i => (i =? e)%N) (rg_connected g) = true).
    { apply existsb_exists. exists e. split; [by apply elem_of_list_In|apply N.eqb_refl]. }
    rewrite Ee. cbn [negb]. clear Hall Hchoose Ee.
    destruct (rg_connected g) as [|first rest]; [done|].
    apply NoDup_cons in Hnd as [Hf Hnd]. destruct rest as [|b rest'] eqn:Er.
    + apply elem_of_list_singleton in He as ->. eapply uniform_ext; [| |apply (uniform_ret first)].
      * done.
      * intros x. cbn beta. rewrite elem_of_list_singleton. split; [by intros ->|by intros [-> _]].
    + rewrite <- Er in *. assert (Hre : rest <> []) by by rewrite Er.
      replace (length (first :: rest) - 1) with (length rest) by (cbn; lia).
      set (f := fun x : N => if (x =? e)%N then first else x).
      eapply uniform_ext; [| |apply (uniform_from_list
        (fun r => match rng_choose rest r with (Some x, r') => Val (Ok (f x, r')) | _ => Panic end)
        rest f Hre Hnd)].
      * intros r. cbn beta. by destruct (rng_choose_cons rest r Hre) as (x & _ & ->).
      * intros x. split.
        -- intros (y & Hy & ->). unfold f. destruct (N.eqb_spec y e) as [->|Hye].
           ++ split; [left|]. intros H. injection H as ->. by destruct Hf.
           ++ split; [by right|]. intros H. injection H as ->. done.
        -- intros [Hx Hex]. destruct (decide (e = x)) as [->|Hxe].
           { specialize (Hex eq_refl). injection Hex as -> ->. done. }
           apply elem_of_cons in Hx as [->|Hx].
           ++ exists e. apply elem_of_cons in He as [->|He]; [done|]. split; [done|].
              unfold f. by rewrite N.eqb_refl.
           ++ exists x. split; [done|]. unfold f. destruct (N.eqb_spec x e); [by subst|done].
      * intros x y Hx Hy. unfold f. destruct (N.eqb_spec x e), (N.eqb_spec y e); intros; subst; done.
      * done.
  - assert (Ee : existsb (fun i => (i =? e)%N) (rg_connected g) = false).
    { apply not_true_is_false. intros (e' & He' & Heq)%existsb_exists. apply N.eqb_eq in Heq as ->.
      by apply He, elem_of_list_In. }
    rewrite Ee. cbn [negb]. apply Hall; [|intros r; apply Hchoose].
    intros x Hx H. injection H as ->. done.
Qed.

Lemma uniform_special g gs (used : list N) :
  gen_ok g -> tp_local_node (rg_topology g) = LNonMixnode gs -> rg_connected g <> [] ->
  increasing used -> length used ≤ 1 ->
  uniform (special_hop g true used) (gateway_bounds (rg_connected g) (head used))
    (fun a => exists x u', a = (Some x, u') /\ x ∈ rg_connected g /\
                (x ∈ used -> rg_connected g = [x]) /\ ui_insert used x = Val u').
Proof.
  intros [_ Hg] El Hne Hs Hlu. rewrite El in Hg. destruct Hg as (Hnd & _ & _).
  assert (Ho : forall x, head used = Some x <-> x ∈ used).
  { intros x. destruct used as [|y [|z l]]; [|cbn|cbn in Hlu; lia].
    - split; [done|by intros ?%elem_of_nil].
    - rewrite elem_of_list_singleton. split; [by intros [= ->]|by intros ->]. }
  rewrite <- (app_nil_r (gateway_bounds _ _)).
  eapply uniform_ext; [| |eapply (uniform_bind _ (fun x r => u ← ui_insert used x; Val (Ok ((Some x, u), r)))
     _ [] _ (fun x a => exists u', a = (Some x, u') /\ ui_insert used x = Val u'));
     [exact (uniform_gateway g (head used) Hnd Hne)| | |]].
  - intros r. unfold special_hop. rewrite El. unfold ui_as_option. by rewrite bool_decide_eq_true_2.
  - intros a. split.
    + intros (x & [Hx Hx'] & u' & -> & E). exists x, u'. split_and!; [done|done| |done].
      intros Hin. by apply Hx', Ho.
    + intros (x & u' & -> & Hx & Hx' & E). exists x. split; [|by exists u'].
      split; [done|]. intros H. by apply Hx', Ho.
  - intros x Hx. destruct (ui_insert_spec used x Hs) as (u' & E & _); [left; lia|].
    eapply uniform_ext; [| |apply (uniform_ret (Some x, u'))].
    + intros r. cbn beta. by rewrite E.
    + intros a. cbn beta. split; [intros ->; by exists u'|]. intros (u2 & -> & E2). congruence.
  - intros x x' a _ _ (u1 & -> & _) (u2 & E & _). congruence.
  - destruct (uniform_gateway g (head used) Hnd Hne) as (_ & H & _).
    destruct (H (Rng (fun _ => 0%N) 0)) as (x & _ & Hx). by exists x.
Qed.

(** The hop loop *)
Section loop.
  Context (g : route_generator) (Hg : gen_ok g).
  Let n := length (tp_mixnodes (rg_topology g)).

  (** The bounds of the draws for [k] free hops when [m] mixnodes are free. *)
  Fixpoint countdown (m k : nat) : list N :=
    match k with O => [] | S k => N.of_nat m :: countdown (m - 1) k end.

  Definition step_state (st : route_state) (i : nat) (nd : option N) (used : list N) : route_state :=
    {| rs_used := used;
       rs_targets := if decide (i = 0) then rs_targets st else rs_targets st ++ [node_target g nd];
       rs_kx_publics := rs_kx_publics st ++ [node_key g nd];
       rs_first := if decide (i = 0) then resolve g nd else rs_first st |}.
  Lemma loop_step_state kind sf sp i rem st nodes :
    repr g st nodes -> length nodes = i -> i < 6 ->
    forall nd used, node_valid g nd -> (nodes = [] -> resolve g nd <> None) ->
    repr g (step_state st i nd used) (nodes ++ [nd]) /\
    forall r r', hop_index g kind sf sp i (S rem) (rs_used st) r = Val (Ok ((nd, used), r')) ->
      route_loop g kind sf sp i (S rem) st r = route_loop g kind sf sp (S i) rem (step_state st i nd used) r'.
  Proof.
    intros [Hk Hr] Hi Hi6 nd used Hv Hres.
    assert (Ek : match nd with
                 | Some index => m ← tp_mixnode_at (rg_topology g) index; Val (mn_kx_public m)
                 | None => Val (tp_local_kx_public (rg_topology g))
                 end = Val (node_key g nd)).
    { destruct nd as [x|]; [|done]. cbn in *. unfold tp_mixnode_at.
      apply lookup_lt_is_Some_2 in Hv as [m ->]. done. }
    split.
    - unfold repr, step_state. cbn [rs_kx_publics rs_targets rs_first]. rewrite Hk, map_app.
      split; [done|]. destruct nodes as [|nd0 nds]; cbn [app].
      + cbn in Hi. subst i. rewrite !decide_True by done. destruct Hr as [-> _].
        split_and!; [done|by apply Hres|done].
      + cbn in Hi. rewrite !decide_False by lia. destruct Hr as (Hf & Hf' & Ht). rewrite Ht, map_app. done.
    - intros r r' Hh. cbn [route_loop]. rewrite Hh. cbn [try_bind].
      rewrite Ek. cbn [out_bind]. unfold av_push at 1.
      rewrite Hk, map_length, Hi. unfold MAX_HOPS. rewrite decide_True by lia. cbn [out_bind].
      change (match nd with
              | Some _ => nd
              | None => match tp_local_node (rg_topology g) with LMixnode l => Some l | LNonMixnode _ => nd end
              end) with (resolve g nd).
      unfold step_state. rewrite Hk. destruct (decide (i = 0)) as [->|Hne0].
      + destruct nodes as [|? ?]; [|done]. specialize (Hres eq_refl).
        destruct (resolve g nd) as [x|] eqn:Er; [|done]. done.
      + destruct nodes as [|nd0 nds]; [done|]. destruct Hr as (Hf & Hf' & Ht).
        unfold av_push. rewrite Ht, map_length. cbn [length] in Hi. rewrite decide_True by lia. done.
  Qed.

  (** A route through the given nodes *)
  Definition through (rt : route) (nodes : list (option N)) : Prop :=
    route_nodes rt = map (node_target g) nodes /\ rt_kx_publics rt = map (node_key g) nodes.
  Lemma through_eq rt rt' nodes : through rt nodes -> through rt' nodes -> rt = rt'.
  Proof.
    unfold through, route_nodes. destruct rt as [f t k], rt' as [f' t' k']. cbn.
    intros [H1 ->] [H2 ->]. rewrite <- H2 in H1. injection H1 as -> ->. done.
  Qed.
  Definition finish (st : route_state) (r : rng) : route_result route :=
    first ← expect (rs_first st);
    Val (Ok ({| rt_first := first; rt_targets := rs_targets st; rt_kx_publics := rs_kx_publics st |}, r)).
  Lemma finish_through st nodes :
    repr g st nodes -> nodes <> [] -> exists rt, through rt nodes /\ forall r, finish st r = Val (Ok (rt, r)).
  Proof.
    intros [Hk Hr] Hne. destruct nodes as [|nd nds]; [done|]. destruct Hr as (Hf & Hf' & Ht).
    unfold finish. rewrite Hf. destruct (resolve g nd) as [x|] eqn:Ex; [|done]. cbn [expect out_bind].
    eexists. split; [|done]. unfold through, route_nodes. cbn. rewrite Ht, Hk.
    unfold node_target at 2. by rewrite Ex.
  Qed.

  Lemma uniform_loop kind sf sp k : forall i st nodes,
    i <> 0 \/ sf = None -> repr g st nodes -> length nodes = i ->
    increasing (rs_used st) -> Forall (valid_index (rg_topology g)) (rs_used st) ->
    length (rs_used st) + k ≤ 7 -> i + k + length (suffix kind sp) ≤ 6 ->
    Forall (node_valid g) (suffix kind sp) ->
    (nodes = [] -> k = 0 -> sp = None -> resolve g (last_node kind) <> None) ->
    length (rs_used st) + k ≤ n ->
    uniform (fun r => '(st', r) ←? route_loop g kind sf sp i (k + length (suffix kind sp)) st r; finish st' r)
      (countdown (n - length (rs_used st)) k)
      (fun rt => exists ms, through rt (nodes ++ map Some ms ++ suffix kind sp) /\ length ms = k /\ NoDup ms /\
         forall m, m ∈ ms -> m ∉ rs_used st /\ valid_index (rg_topology g) m).
  Proof.
    induction k as [|k IH]; intros i st nodes Hsf Hr Hi Hs Hv Hu Hlen Hsv Hres Hn.
    - cbn [Nat.add countdown].
      assert (Hend : exists st', repr g st' (nodes ++ suffix kind sp) /\
                forall r, route_loop g kind sf sp i (length (suffix kind sp)) st r = Val (Ok (st', r))).
      { unfold suffix in *. destruct sp as [x|]; cbn [app length] in *.
        - apply Forall_cons in Hsv as [Hv1 [Hv2 _]%Forall_cons].
          destruct (loop_step_state kind sf (Some x) i 1 st nodes Hr Hi ltac:(lia) (Some x) (rs_used st) Hv1) as [Hr1 E1]; [done|].
          destruct (loop_step_state kind sf (Some x) (S i) 0 _ _ Hr1 ltac:(rewrite app_length; cbn; lia) ltac:(lia)
                      (last_node kind) (rs_used st) Hv2) as [Hr2 E2]; [by intros [_ ?]%app_nil|].
          rewrite <- app_assoc in Hr2. eexists. split; [exact Hr2|]. intros r.
          rewrite (E1 r r), (E2 r r); [done|done|].
          unfold hop_index. destruct Hsf as [Hi0| ->]; [by destruct i|]. by destruct i.
        - apply Forall_cons in Hsv as [Hv1 _].
          destruct (loop_step_state kind sf None i 0 st nodes Hr Hi ltac:(lia) (last_node kind) (rs_used st) Hv1) as [Hr1 E1].
          { intros Hnn. by apply Hres. }
          eexists. split; [exact Hr1|]. intros r. rewrite (E1 r r); [done|].
          unfold hop_index. destruct Hsf as [Hi0| ->]; [by destruct i|]. by destruct i. }
      destruct Hend as (st' & Hr' & E).
      destruct (finish_through st' _ Hr') as (rt & Hrt & Ef).
      { unfold suffix. intros [_ [_ ?]%app_nil]%app_nil. done. }
      eapply uniform_ext; [| |apply (uniform_ret rt)].
      + intros r. cbn beta. rewrite E. cbn [try_bind]. by rewrite Ef.
      + intros rt'. cbn beta. split.
        * intros ->. exists []. split_and!; [done|done|constructor|]. intros m ?%elem_of_nil. done.
        * intros (ms & Ht & Hl0 & _). destruct ms; [|done]. by eapply through_eq.
    - assert (Eh : forall r, hop_index g kind sf sp i (S (k + length (suffix kind sp))) (rs_used st) r =
                   ('(index, r) ←? choose_mixnode_index g (rs_used st) r;
                    used ← ui_insert (rs_used st) index;
                    Val (Ok ((Some index, used), r)))).
      { intros r. unfold hop_index, suffix. destruct sp as [x|]; cbn [app length].
        - replace (k + 2) with (S (S k)) by lia. destruct Hsf as [Hi0| ->]; destruct i; done.
        - replace (k + 1) with (S k) by lia. destruct Hsf as [Hi0| ->]; destruct i; destruct k; done. }
      assert (Hi6 : i < 6).
      { unfold suffix in Hlen. rewrite app_length in Hlen. cbn in Hlen. lia. }
      change (countdown (n - length (rs_used st)) (S k)) with
        ([N.of_nat (n - length (rs_used st))] ++ countdown (n - length (rs_used st) - 1) k).
      assert (Hnodes : forall y ms, (nodes ++ [Some y]) ++ map Some ms ++ suffix kind sp =
                nodes ++ map Some (y :: ms) ++ suffix kind sp).
      { intros y ms. by rewrite <- app_assoc. }
      eapply uniform_ext; [| |eapply (uniform_bind _
          (fun y r => used ← ui_insert (rs_used st) y;
             '(st', r) ←? route_loop g kind sf sp (S i) (k + length (suffix kind sp)) (step_state st i (Some y) used) r;
             finish st' r) _ _ _
          (fun y rt => exists ms, through rt ((nodes ++ [Some y]) ++ map Some ms ++ suffix kind sp) /\
             length ms = k /\ NoDup ms /\
             forall m, m ∈ ms -> (m <> y /\ m ∉ rs_used st) /\ valid_index (rg_topology g) m));
        [exact (uniform_choose g (rs_used st) (proj1 (proj1 Hg)) Hs Hv ltac:(fold n; lia))| | |]].
      + intros r. cbn beta. cbn [Nat.add].
        destruct (uniform_choose g (rs_used st) (proj1 (proj1 Hg)) Hs Hv ltac:(fold n; lia)) as (_ & Hch & _).
        destruct (Hch r) as (y & Ey & Hvy & Hny). specialize (Eh r). rewrite Ey in Eh |- *. cbn [try_bind] in *.
        destruct (ui_insert_spec (rs_used st) y Hs) as (u' & Eu & _); [left; lia|].
        rewrite Eu in Eh |- *. cbn [out_bind] in *.
        destruct (loop_step_state kind sf sp i (k + length (suffix kind sp)) st nodes Hr Hi Hi6 (Some y) u' Hvy ltac:(done)) as [_ E1].
        by rewrite (E1 _ _ Eh).
      + intros rt. cbn beta. setoid_rewrite Hnodes. split.
        * intros (y & [Hvy Hny] & ms & Ht & Hl & Hnd & Hm). exists (y :: ms).
          split_and!; [done|cbn; lia|constructor; [|done]|].
          -- intros Hin. by destruct (Hm y Hin) as [[? _] _].
          -- intros m [->|Hin]%elem_of_cons; [done|]. by destruct (Hm m Hin) as [[_ ?] ?].
        * intros (ms & Ht & Hl & Hnd & Hm). destruct ms as [|y ms]; [done|].
          apply NoDup_cons in Hnd as [Hy Hnd]. cbn in Hl.
          exists y. split; [by destruct (Hm y ltac:(left))|]. exists ms.
          split_and!; [done|lia|done|]. intros m Hin. destruct (Hm m ltac:(by right)) as [? ?].
          split; [|done]. split; [|done]. by intros ->.
      + intros y [Hvy Hny].
        destruct (ui_insert_spec (rs_used st) y Hs) as (u' & Eu & Hs' & Hu' & Hlu); [left; lia|].
        rewrite decide_False in Hlu by done.
        destruct (loop_step_state kind sf sp i (k + length (suffix kind sp)) st nodes Hr Hi Hi6 (Some y) u' Hvy ltac:(done)) as [Hr1 _].
        replace (n - length (rs_used st) - 1) with (n - length u') by lia.
        eapply uniform_ext; [| |apply (IH (S i) (step_state st i (Some y) u') (nodes ++ [Some y]))].
        * intros r. cbn beta. rewrite Eu. done.
        * intros rt. cbn [step_state rs_used]. setoid_rewrite Hu'. split.
          -- intros (ms & ? & ? & ? & Hm). exists ms. split_and!; [done|done|done|]. intros m Hin.
             destruct (Hm m Hin) as [Hx ?]. split; [|done]. split; intros ?; apply Hx; [by left|by right].
          -- intros (ms & ? & ? & ? & Hm). exists ms. split_and!; [done|done|done|]. intros m Hin.
             destruct (Hm m Hin) as [[? ?] ?]. split; [|done]. by intros [?|?].
        * by left.
        * done.
        * rewrite app_length. cbn. lia.
        * done.
        * cbn [step_state rs_used]. apply Forall_forall. intros z [->|Hz]%Hu'; [done|].
          rewrite Forall_forall in Hv. by apply Hv.
        * cbn [step_state rs_used]. rewrite Hlu. lia.
        * lia.
        * done.
        * by intros [_ ?]%app_nil.
        * cbn [step_state rs_used]. rewrite Hlu. lia.
      + intros y y' rt _ _ (ms & [Ht _] & _) (ms' & [Ht' _] & _). rewrite Ht in Ht'.
        rewrite <- !app_assoc, !map_app in Ht'. apply app_inv_head in Ht'. cbn in Ht'.
        injection Ht' as -> _. done.
      + destruct (uniform_choose g (rs_used st) (proj1 (proj1 Hg)) Hs Hv ltac:(fold n; lia)) as (_ & H & _).
        destruct (H (Rng (fun _ => 0%N) 0)) as (x & _ & Hx). by exists x.
  Qed.
End loop.

Lemma uniform_run g kind sf sp used h :
  gen_ok g -> increasing used -> Forall (valid_index (rg_topology g)) used -> length used ≤ 2 ->
  (forall x, sf = Some x -> valid_index (rg_topology g) x) ->
  (forall x, sp = Some x -> valid_index (rg_topology g) x) ->
  kind_valid (rg_topology g) kind -> h ≤ 6 ->
  (sf = None -> sp = None -> resolve g (last_node kind) <> None) ->
  length used + free_hops sf sp h ≤ length (tp_mixnodes (rg_topology g)) ->
  uniform (fun r => '(st', r) ←? route_loop g kind sf sp 0 (Nat.max h (min_hops sf sp)) (init_state used) r;
                    finish st' r)
    (countdown (length (tp_mixnodes (rg_topology g)) - length used) (free_hops sf sp h))
    (fun rt => exists ms, through g rt (opt_node sf ++ map Some ms ++ opt_node sp ++ [last_node kind]) /\
       length ms = free_hops sf sp h /\ NoDup ms /\
       forall m, m ∈ ms -> m ∉ used /\ valid_index (rg_topology g) m).
Proof.
  intros Hg Hs Hv Hlu Hsf Hsp Hk Hh Hres.
  pose proof (min_hops_bound sf sp) as Hmin. unfold free_hops.
  set (H := Nat.max h (min_hops sf sp)).
  assert (HH : length (opt_node sf) + length (opt_node sp) + 1 ≤ H ≤ 6) by lia.
  clearbody H. clear Hmin Hh. intros Hn.
  assert (Hsuf : suffix kind sp = opt_node sp ++ [last_node kind]) by by destruct sp.
  assert (Hsl : length (suffix kind sp) = length (opt_node sp) + 1) by (rewrite Hsuf, app_length; done).
  assert (Hsv : Forall (node_valid g) (suffix kind sp)).
  { rewrite Hsuf. apply Forall_app. split.
    - destruct sp as [x|]; repeat constructor. cbn. by apply Hsp.
    - constructor; [|done]. by destruct kind. }
  assert (Hr0 : repr g (init_state used) []) by done.
  rewrite <- Hsuf.
  destruct sf as [x|]; cbn [opt_node length app] in *.
  - destruct H as [|H]; [lia|]. set (k := S H - 1 - length (opt_node sp) - 1) in *.
    destruct (loop_step_state g kind (Some x) sp 0 H (init_state used) [] Hr0 eq_refl ltac:(lia) (Some x) used) as [Hr1 E1].
    { cbn. by apply Hsf. } { done. }
    assert (EH : H = k + length (suffix kind sp)) by (unfold k; lia).
    eapply uniform_ext; [| |apply (uniform_loop g Hg kind (Some x) sp k 1 _ _ ltac:(by left) Hr1)].
    + intros r. cbn beta. rewrite (E1 r r); [by rewrite EH|]. by destruct H as [|[|H]], sp.
    + done.
    + done.
    + done.
    + done.
    + cbn [step_state rs_used]. lia.
    + lia.
    + done.
    + done.
    + cbn [step_state rs_used]. lia.
  - set (k := H - 0 - length (opt_node sp) - 1) in *.
    assert (EH : H = k + length (suffix kind sp)) by (unfold k; lia). rewrite EH.
    apply (uniform_loop g Hg kind None sp k 0 (init_state used) []); try done.
    { by right. } { cbn [init_state rs_used]. lia. } { lia. } { intros _ _. by apply Hres. }
Qed.

(** The routes as they are generated *)
Definition ends (g : route_generator) (kind : route_kind) (sf sp : option N) : Prop :=
  let c := rg_connected g in
  match tp_local_node (rg_topology g) with
  | LMixnode _ => sf = None /\ sp = None
  | LNonMixnode _ =>
      match kind with
      | RkToMixnode i => exists x, sf = Some x /\ sp = None /\ x ∈ c /\ (x = i -> c = [x])
      | RkFromMixnode i => exists x, sf = None /\ sp = Some x /\ x ∈ c /\ (x = i -> c = [x])
      | RkLoop => exists x y, sf = Some x /\ sp = Some y /\ x ∈ c /\ y ∈ c /\ (y = x -> c = [x])
      end
  end.
Definition fixed_node (g : route_generator) (kind : route_kind) (sf sp : option N) (m : N) : Prop :=
  kind = RkToMixnode m \/ kind = RkFromMixnode m \/ tp_local_node (rg_topology g) = LMixnode m \/
  sf = Some m \/ sp = Some m.
Definition shaped (g : route_generator) (kind : route_kind) (h : nat) (rt : route) : Prop :=
  exists sf sp ms, ends g kind sf sp /\
    through g rt (opt_node sf ++ map Some ms ++ opt_node sp ++ [last_node kind]) /\
    length ms = route_hops g kind h - num_special g kind - 1 /\ NoDup ms /\
    forall m, m ∈ ms -> ~ fixed_node g kind sf sp m /\ valid_index (rg_topology g) m.

Lemma uniform_shaped g kind h :
  gen_ok g -> kind_valid (rg_topology g) kind -> h ≤ 6 -> ~ no_gateway g -> enough_mixnodes g kind h ->
  exists ks, uniform (gen_route g kind h) ks (shaped g kind h).
Proof.
  intros Hg Hk Hh Hng He.
  set (n := length (tp_mixnodes (rg_topology g))).
  set (ks' := countdown (n - num_used g kind) (route_hops g kind h - num_special g kind - 1)).
  (* everything but the special hops *)
  assert (Hrun : forall sf sp used,
    ends g kind sf sp -> increasing used -> Forall (valid_index (rg_topology g)) used ->
    length used = num_used g kind -> (forall m, m ∈ used <-> fixed_node g kind sf sp m) ->
    uniform (fun r => '(st', r) ←? route_loop g kind sf sp 0 (Nat.max h (min_hops sf sp)) (init_state used) r;
                      finish st' r) ks'
      (fun rt => exists ms, through g rt (opt_node sf ++ map Some ms ++ opt_node sp ++ [last_node kind]) /\
         length ms = route_hops g kind h - num_special g kind - 1 /\ NoDup ms /\
         forall m, m ∈ ms -> ~ fixed_node g kind sf sp m /\ valid_index (rg_topology g) m)).
  { intros sf sp used Hends Hs Hv Hlu Hfix.
    assert (Hfree : free_hops sf sp h = route_hops g kind h - num_special g kind - 1).
    { unfold ends in Hends. unfold free_hops, route_hops, num_special, one_gateway_loop, min_hops.
      destruct Hg as [_ Hgc]. destruct (tp_local_node _) as [l|gs].
      - destruct Hends as [-> ->]. cbn. destruct kind; [cbn; lia..|]. rewrite Hgc. cbn. lia.
      - destruct kind as [i|i|].
        + destruct Hends as (x & -> & -> & _). rewrite bool_decide_eq_false_2 by done. cbn. lia.
        + destruct Hends as (x & -> & -> & _). cbn. lia.
        + destruct Hends as (x & y & -> & -> & Hx & Hy & Hxy). cbn [opt_node length is_some andb Nat.b2n].
          destruct (decide (y = x)) as [->|Hne].
          * rewrite bool_decide_eq_true_2 by done. rewrite Hxy by done. cbn. lia.
          * rewrite bool_decide_eq_false_2 by congruence.
            destruct (rg_connected g) as [|c0 [|c1 cs]]; [by apply elem_of_nil in Hx| |cbn; lia].
            apply elem_of_list_singleton in Hx as ->. by apply elem_of_list_singleton in Hy as ->. }
    rewrite Forall_forall in Hv.
    unfold ks', n. rewrite <- Hlu, <- Hfree.
    eapply uniform_ext; [intros r; reflexivity| |apply (uniform_run g kind sf sp used h)]; try done.
    - intros rt. cbn beta. split; intros (ms & ? & ? & ? & Hm); exists ms; split_and!; try done;
        intros m Hin; destruct (Hm m Hin) as [Hx ?]; (split; [|done]); by rewrite <- Hfix || rewrite Hfix.
    - by apply Forall_forall.
    - rewrite Hlu. unfold num_used. destruct (tp_local_node _), kind; repeat destruct (decide _); lia.
    - intros x ->. apply Hv, Hfix. unfold fixed_node. naive_solver.
    - intros x ->. apply Hv, Hfix. unfold fixed_node. naive_solver.
    - intros -> ->. unfold ends in Hends. unfold resolve.
      destruct (tp_local_node _); [by destruct kind|]. destruct kind; [done|naive_solver..].
    - rewrite Hlu, Hfree. unfold enough_mixnodes in He. lia. }
  assert (Hg' := Hg). destruct Hg' as [[Hn Ht] Hc].
  destruct (tp_local_node (rg_topology g)) as [l|gs] eqn:El.
  - (* a mixnode *)
    destruct Ht as (ml & Hml & _). apply lookup_lt_Some in Hml.
    assert (Hu : exists used, (forall r, gen_route g kind h r =
        ('(st', r) ←? route_loop g kind None None 0 (Nat.max h (min_hops None None)) (init_state used) r;
         finish st' r)) /\ increasing used /\ (forall m, m ∈ used <-> fixed_node g kind None None m) /\
        length used = num_used g kind).
    { assert (Hone : forall i, exists u, ui_insert [i] l = Val u /\ increasing u /\
                (forall m, m ∈ u <-> m = l \/ m = i) /\ length u = if decide (i = l) then 1 else 2).
      { intros i. assert (Hinc1 : increasing [i]) by (repeat constructor).
        destruct (ui_insert_spec [i] l Hinc1) as (u & Eu & Hus & Hu & Hul); [left; cbn; lia|].
        exists u. split_and!; [done|done| |].
        - intros m. by rewrite Hu, elem_of_list_singleton.
        - rewrite Hul. cbn. destruct (decide (l ∈ [i])) as [Hin|Hin].
          + apply elem_of_list_singleton in Hin as ->. by rewrite decide_True.
          + rewrite decide_False; [done|]. intros ->. apply Hin. left. }
      destruct kind as [i|i|].
      - destruct (Hone i) as (u & Eu & Hus & Hu & Hul). exists u. split_and!; [|done| |].
        + intros r. unfold gen_route. change (ui_insert [] i) with (Val [i]). cbn [out_bind].
          rewrite El, Eu. cbn [out_bind]. unfold special_hop at 1. rewrite El. cbn [try_bind].
          unfold special_hop at 1. rewrite El. done.
        + intros m. rewrite Hu. unfold fixed_node. rewrite El. naive_solver.
        + unfold num_used. by rewrite El.
      - destruct (Hone i) as (u & Eu & Hus & Hu & Hul). exists u. split_and!; [|done| |].
        + intros r. unfold gen_route. change (ui_insert [] i) with (Val [i]). cbn [out_bind].
          rewrite El, Eu. cbn [out_bind]. unfold special_hop at 1. rewrite El. cbn [try_bind].
          unfold special_hop at 1. rewrite El. done.
        + intros m. rewrite Hu. unfold fixed_node. rewrite El. naive_solver.
        + unfold num_used. by rewrite El.
      - exists [l]. split_and!.
        + intros r. unfold gen_route. cbn [out_bind]. rewrite El. change (ui_insert [] l) with (Val [l]).
          cbn [out_bind]. unfold special_hop at 1. rewrite El. cbn [try_bind].
          unfold special_hop at 1. rewrite El. done.
        + repeat constructor.
        + intros m. rewrite elem_of_list_singleton. unfold fixed_node. rewrite El. naive_solver.
        + unfold num_used. by rewrite El. }
    destruct Hu as (used & E & Hus & Hu & Hul).
    assert (Hends : ends g kind None None) by (unfold ends; by rewrite El).
    exists ks'. eapply uniform_ext; [intros r; symmetry; exact (E r)| |apply (Hrun None None used)]; try done.
    + intros rt. cbn beta. split.
      * intros (ms & Hrt). by exists None, None, ms.
      * intros (sf & sp & ms & Hen & Hrt). unfold ends in Hen. rewrite El in Hen. destruct Hen as [-> ->].
        by exists ms.
    + apply Forall_forall. intros m Hm%Hu. unfold fixed_node in Hm. rewrite El in Hm.
      destruct Hm as [->|[->|[[= ->]|[|]]]]; done.
  - (* not a mixnode *)
    destruct Ht as [_ Hval]. destruct Hc as (Hnd & Hsub & _).
    assert (Hmix : tp_is_mixnode (rg_topology g) = false) by (unfold tp_is_mixnode; by rewrite El).
    assert (Hne : rg_connected g <> []) by (intros Hce; by apply Hng).
    assert (Hcv : forall x, x ∈ rg_connected g -> valid_index (rg_topology g) x).
    { intros x Hx. rewrite Forall_forall in Hval. by apply Hval, Hsub. }
    assert (Hinc1 : forall i : N, increasing [i]) by (repeat constructor).
    (* one special hop beside the mixnode of the kind *)
    assert (Hone : forall i x u, ui_insert [i] x = Val u -> x ∈ rg_connected g ->
              (x ∈ [i] -> rg_connected g = [x]) ->
              increasing u /\ (forall m, m ∈ u <-> m = x \/ m = i) /\
              length u = if decide (rg_connected g = [i]) then 1 else 2).
    { intros i x u Eu Hx Hxi.
      destruct (ui_insert_spec [i] x (Hinc1 i)) as (u' & Eu' & Hus & Hu & Hul); [left; cbn; lia|].
      rewrite Eu in Eu'. injection Eu' as <-. split_and!; [done| |].
      - intros m. by rewrite Hu, elem_of_list_singleton.
      - rewrite Hul. destruct (decide (x ∈ [i])) as [Hin|Hin].
        + rewrite decide_True; [done|]. rewrite (Hxi Hin). apply elem_of_list_singleton in Hin. by subst.
        + rewrite decide_False; [done|]. intros Hci. apply Hin. by rewrite Hci in Hx. }
    assert (Hsome : forall used : list N, increasing used -> length used ≤ 1 ->
              exists a, exists x u', a = (Some x, u') /\ x ∈ rg_connected g /\
                (x ∈ used -> rg_connected g = [x]) /\ ui_insert used x = Val u').
    { intros used Hus Hlu. destruct (uniform_special g gs used Hg El Hne Hus Hlu) as (_ & H & _).
      destruct (H (Rng (fun _ => 0%N) 0)) as (a & _ & Ha). by exists a. }
    destruct kind as [i|i|].
    + exists (gateway_bounds (rg_connected g) (head [i]) ++ ks').
      eapply uniform_ext; [| |eapply (uniform_bind _
        (fun '(sf, used) r => '(st', r) ←? route_loop g (RkToMixnode i) sf None 0 (Nat.max h (min_hops sf None)) (init_state used) r;
           finish st' r) _ _ _
        (fun '(sf, used) rt => exists ms, through g rt (opt_node sf ++ map Some ms ++ opt_node None ++ [last_node (RkToMixnode i)]) /\
         length ms = route_hops g (RkToMixnode i) h - num_special g (RkToMixnode i) - 1 /\ NoDup ms /\
         forall m, m ∈ ms -> ~ fixed_node g (RkToMixnode i) sf None m /\ valid_index (rg_topology g) m));
        [exact (uniform_special g gs [i] Hg El Hne (Hinc1 i) ltac:(done))| | |exact (Hsome [i] (Hinc1 i) ltac:(done))]].
      * intros r. unfold gen_route. change (ui_insert [] i) with (Val [i]). cbn [out_bind]. rewrite El. cbn [out_bind].
        destruct (special_hop g true [i] r) as [[[[sf used] r1]|]|]; [|done|done]. cbn [try_bind].
        unfold special_hop. rewrite El. done.
      * intros rt. split.
        -- intros ([sf used] & (x & u' & E & Hx & Hxi & Eu) & ms & Hrt). injection E as -> ->.
           exists (Some x), None, ms. split; [|done]. unfold ends. rewrite El. exists x. split_and!; try done.
           intros ->. apply Hxi. left.
        -- intros (sf & sp & ms & Hen & Hrt). unfold ends in Hen. rewrite El in Hen.
           destruct Hen as (x & -> & -> & Hx & Hxi).
           destruct (ui_insert_spec [i] x (Hinc1 i)) as (u & Eu & _); [left; cbn; lia|].
           exists (Some x, u). split; [|by exists ms]. exists x, u. split_and!; try done.
           intros Hin. apply Hxi. by apply elem_of_list_singleton in Hin.
      * intros [sf used] (x & u' & E & Hx & Hxi & Eu). injection E as -> ->.
        destruct (Hone i x u' Eu Hx Hxi) as (Hus & Hu & Hul).
        assert (Hfix : forall m, m ∈ u' <-> fixed_node g (RkToMixnode i) (Some x) None m).
        { intros m. rewrite Hu. unfold fixed_node. rewrite El. naive_solver. }
        apply (Hrun (Some x) None u'); [|done| |unfold num_used; by rewrite El|done].
        -- unfold ends. rewrite El. exists x. split_and!; try done. intros ->. apply Hxi. left.
        -- apply Forall_forall. intros m [->| ->]%Hu; [by apply Hcv|done].
      * intros [sf used] [sf' used'] rt (x & u & E & Hx & _ & Eu) (x' & u' & E' & Hx' & _ & Eu')
          (ms & [Ht _] & _) (ms' & [Ht' _] & _).
        injection E as -> ->. injection E' as -> ->. rewrite Ht in Ht'. cbn in Ht'.
        injection Ht' as -> _. congruence.
    + exists (gateway_bounds (rg_connected g) (head [i]) ++ ks').
      eapply uniform_ext; [| |eapply (uniform_bind _
        (fun '(sp, used) r => '(st', r) ←? route_loop g (RkFromMixnode i) None sp 0 (Nat.max h (min_hops None sp)) (init_state used) r;
           finish st' r) _ _ _
        (fun '(sp, used) rt => exists ms, through g rt (opt_node None ++ map Some ms ++ opt_node sp ++ [last_node (RkFromMixnode i)]) /\
         length ms = route_hops g (RkFromMixnode i) h - num_special g (RkFromMixnode i) - 1 /\ NoDup ms /\
         forall m, m ∈ ms -> ~ fixed_node g (RkFromMixnode i) None sp m /\ valid_index (rg_topology g) m));
        [exact (uniform_special g gs [i] Hg El Hne (Hinc1 i) ltac:(done))| | |exact (Hsome [i] (Hinc1 i) ltac:(done))]].
      * intros r. unfold gen_route. change (ui_insert [] i) with (Val [i]). cbn [out_bind]. rewrite El. cbn [out_bind].
        unfold special_hop at 2. rewrite El. cbn [try_bind].
        destruct (special_hop g true [i] r) as [[[[sf used] r1]|]|]; done.
      * intros rt. split.
        -- intros ([sp used] & (x & u' & E & Hx & Hxi & Eu) & ms & Hrt). injection E as -> ->.
           exists None, (Some x), ms. split; [|done]. unfold ends. rewrite El. exists x. split_and!; try done.
           intros ->. apply Hxi. left.
        -- intros (sf & sp & ms & Hen & Hrt). unfold ends in Hen. rewrite El in Hen.
           destruct Hen as (x & -> & -> & Hx & Hxi).
           destruct (ui_insert_spec [i] x (Hinc1 i)) as (u & Eu & _); [left; cbn; lia|].
           exists (Some x, u). split; [|by exists ms]. exists x, u. split_and!; try done.
           intros Hin. apply Hxi. by apply elem_of_list_singleton in Hin.
      * intros [sp used] (x & u' & E & Hx & Hxi & Eu). injection E as -> ->.
        destruct (Hone i x u' Eu Hx Hxi) as (Hus & Hu & Hul).
        assert (Hfix : forall m, m ∈ u' <-> fixed_node g (RkFromMixnode i) None (Some x) m).
        { intros m. rewrite Hu. unfold fixed_node. rewrite El. naive_solver. }
        apply (Hrun None (Some x) u'); [|done| |unfold num_used; by rewrite El|done].
        -- unfold ends. rewrite El. exists x. split_and!; try done. intros ->. apply Hxi. left.
        -- apply Forall_forall. intros m [->| ->]%Hu; [by apply Hcv|done].
      * intros [sp used] [sp' used'] rt (x & u & E & Hx & _ & Eu) (x' & u' & E' & Hx' & _ & Eu')
          (ms & [Ht _] & Hl & _) (ms' & [Ht' _] & Hl' & _).
        injection E as -> ->. injection E' as -> ->. rewrite Ht in Ht'. cbn in Ht'.
        rewrite !map_app in Ht'. apply app_inj_1 in Ht' as [_ Ht']; [|by rewrite !map_length, Hl, Hl'].
        cbn in Ht'. injection Ht' as ->. congruence.
    + set (len := length (rg_connected g)).
      set (b2 := match rg_connected g with _ :: _ :: _ => [N.of_nat (len - 1)] | _ => [] end).
      assert (Hi0 : forall x u, ui_insert [] x = Val u -> u = [x]).
      { intros x u E. change (ui_insert [] x) with (Val [x]) in E. by injection E as <-. }
      assert (Hb2 : forall x, x ∈ rg_connected g -> gateway_bounds (rg_connected g) (head [x]) = b2).
      { intros x Hx. cbn [head gateway_bounds]. by rewrite decide_True. }
      assert (Htwo : forall x y u, x ∈ rg_connected g -> y ∈ rg_connected g ->
                (y ∈ [x] -> rg_connected g = [y]) -> ui_insert [x] y = Val u ->
                increasing u /\ (forall m, m ∈ u <-> m = y \/ m = x) /\
                length u = if decide (length (rg_connected g) = 1) then 1 else 2).
      { intros x y u Hx Hy Hyx Eu. destruct (Hone x y u Eu Hy Hyx) as (Hus & Hu & Hul).
        split_and!; [done|done|]. rewrite Hul. destruct (decide (rg_connected g = [x])) as [E|E].
        - rewrite E. done.
        - rewrite decide_False; [done|]. intros Hl. apply E.
          destruct (rg_connected g) as [|c0 [|c1 cs]]; [done| |done].
          by apply elem_of_list_singleton in Hx as ->. }
      set (Qs := fun (sf sp : option N) rt => exists ms,
         through g rt (opt_node sf ++ map Some ms ++ opt_node sp ++ [last_node RkLoop]) /\
         length ms = route_hops g RkLoop h - num_special g RkLoop - 1 /\ NoDup ms /\
         forall m, m ∈ ms -> ~ fixed_node g RkLoop sf sp m /\ valid_index (rg_topology g) m).
      exists (gateway_bounds (rg_connected g) (head []) ++ (b2 ++ ks')).
      eapply uniform_ext; [| |eapply (uniform_bind _
        (fun '(sf, used) r => '((sp, used), r) ←? special_hop g true used r;
           '(st', r) ←? route_loop g RkLoop sf sp 0 (Nat.max h (min_hops sf sp)) (init_state used) r;
           finish st' r) _ _ _
        (fun '(sf, used) rt => exists y, y ∈ rg_connected g /\ (y ∈ used -> rg_connected g = [y]) /\ Qs sf (Some y) rt));
        [exact (uniform_special g gs [] Hg El Hne ltac:(constructor) ltac:(cbn; lia))| | |
         exact (Hsome [] ltac:(constructor) ltac:(cbn; lia))]].
      * intros r. unfold gen_route. cbn [out_bind]. rewrite El. cbn [out_bind].
        destruct (special_hop g true [] r) as [[[[sf used] r1]|]|]; done.
      * intros rt. split.
        -- intros ([sf used] & (x & u' & E & Hx & _ & Eu) & y & Hy & Hyx & ms & Hrt). injection E as -> ->.
           apply Hi0 in Eu as ->.
           exists (Some x), (Some y), ms. split; [|done]. unfold ends. rewrite El. exists x, y. split_and!; try done.
           intros ->. apply Hyx. left.
        -- intros (sf & sp & ms & Hen & Hrt). unfold ends in Hen. rewrite El in Hen.
           destruct Hen as (x & y & -> & -> & Hx & Hy & Hxy).
           exists (Some x, [x]). split.
           { exists x, [x]. split_and!; try done. by intros ?%elem_of_nil. }
           exists y. split_and!; [done| |by exists ms]. intros ->%elem_of_list_singleton. by apply Hxy.
      * intros [sf used] (x & u' & E & Hx & _ & Eu). injection E as -> ->. apply Hi0 in Eu as ->.
        rewrite <- (Hb2 x Hx).
        eapply uniform_ext; [| |eapply (uniform_bind _
          (fun '(sp, used) r => '(st', r) ←? route_loop g RkLoop (Some x) sp 0 (Nat.max h (min_hops (Some x) sp)) (init_state used) r;
             finish st' r) _ _ _
          (fun '(sp, used) rt => Qs (Some x) sp rt));
          [exact (uniform_special g gs [x] Hg El Hne (Hinc1 x) ltac:(done))| | |exact (Hsome [x] (Hinc1 x) ltac:(done))]].
        -- intros r. cbv beta iota. destruct (special_hop g true [x] r) as [[[[sf used] r1]|]|]; done.
        -- intros rt. split.
           ++ intros ([sp used] & (y & u' & E & Hy & Hyx & Eu) & Hq). injection E as -> ->. by exists y.
           ++ intros (y & Hy & Hyx & Hq).
              destruct (ui_insert_spec [x] y (Hinc1 x)) as (u & Eu & _); [left; cbn; lia|].
              exists (Some y, u). split; [|done]. by exists y, u.
        -- intros [sp used] (y & u' & E & Hy & Hyx & Eu). injection E as -> ->.
           destruct (Htwo x y u' Hx Hy Hyx Eu) as (Hus & Hu & Hul).
           assert (Hfix : forall m, m ∈ u' <-> fixed_node g RkLoop (Some x) (Some y) m).
           { intros m. rewrite Hu. unfold fixed_node. rewrite El. naive_solver. }
           apply (Hrun (Some x) (Some y) u'); [|done| |unfold num_used; by rewrite El|done].
           ++ unfold ends. rewrite El. exists x, y. split_and!; try done. intros ->. apply Hyx. left.
           ++ apply Forall_forall. intros m [->| ->]%Hu; by apply Hcv.
        -- intros [sp used] [sp' used'] rt (y & u & E & Hy & _ & Eu) (y' & u' & E' & Hy' & _ & Eu')
             (ms & [Ht _] & Hl & _) (ms' & [Ht' _] & Hl' & _).
           injection E as -> ->. injection E' as -> ->. rewrite Ht in Ht'. cbn in Ht'. injection Ht' as Ht'.
           rewrite !map_app in Ht'. apply app_inj_1 in Ht' as [_ Ht']; [|by rewrite !map_length, Hl, Hl'].
           cbn in Ht'. injection Ht' as ->. congruence.
      * intros [sf used] [sf' used'] rt (x & u & E & Hx & _ & Eu) (x' & u' & E' & Hx' & _ & Eu')
          (y & _ & _ & ms & [Ht _] & _) (y' & _ & _ & ms' & [Ht' _] & _).
        injection E as -> ->. injection E' as -> ->. rewrite Ht in Ht'. cbn in Ht'.
        injection Ht' as -> _. congruence.
Qed.

(** Any draws can be made. *)
Lemma draws_exist vs ks : Forall2 N.lt vs ks -> exists r, draws r ks = vs.
Proof.
  intros H. exists (Rng (fun j => nth j vs 0%N) 0).
  assert (Hgen : forall t p, (forall j v, vs !! j = Some v -> t (p + j) = v) -> draws (Rng t p) ks = vs).
  { clear -H. induction H as [|v k vs ks Hv H IH]; intros t p Ht; [done|]. cbn. f_equal.
    - rewrite <- (Nat.add_0_r p), (Ht 0 v eq_refl). by apply N.mod_small.
    - apply IH. intros j w Hj. replace (S p + j) with (p + S j) by lia. by apply Ht. }
  apply Hgen. intros j v Hj. cbn. by apply nth_lookup_Some.
Qed.
Lemma uniform_reached {A} (m : rng -> route_result A) ks P a :
  uniform m ks P -> P a -> exists r r', m r = Val (Ok (a, r')).
Proof.
  intros (_ & _ & H) Ha. destruct (H a Ha) as (vs & Hvs & Hr).
  destruct (draws_exist vs ks Hvs) as [r Hd]. apply Hr in Hd as [r' E]. by exists r, r'.
Qed.

Lemma keys_through g nodes keys :
  gen_ok g ->
  Forall2 (fun node key => match node with
      | TMixnodeIndex i => exists m, tp_mixnodes (rg_topology g) !! N.to_nat i = Some m /\ mn_kx_public m = key
      | TPeerId _ => key = tp_local_kx_public (rg_topology g)
      end) (map (node_target g) nodes) keys ->
  keys = map (node_key g) nodes /\ Forall (node_valid g) nodes.
Proof.
  intros [[_ Ht] _]. revert keys. induction nodes as [|nd nodes IH]; intros keys H; cbn in H.
  { by apply Forall2_nil_inv_l in H as ->. }
  apply Forall2_cons_inv_l in H as (k & keys' & Hk & H & ->). apply IH in H as [-> Hv].
  unfold node_target, resolve in Hk. destruct nd as [x|].
  - destruct Hk as (m & Hm & <-). cbn. rewrite Hm. split; [done|]. constructor; [|done].
    cbn. unfold valid_index. by eapply lookup_lt_Some.
  - split; [|by constructor]. cbn. f_equal. destruct (tp_local_node (rg_topology g)) as [l|gs]; [|done].
    destruct Hk as (m & Hm & <-). destruct Ht as (ml & Hml & Hkx). congruence.
Qed.

(** All nodes but the last are mixnodes. *)
Lemma permitted_nodes g kind h rt :
  route_ok g kind h rt ->
  exists js, route_nodes rt = map (node_target g) (map Some js ++ [last_node kind]) /\
    route_indices rt = js ++ option_list (resolve g (last_node kind)).
Proof.
  intros H.
  assert (Hlast : node_target g (last_node kind) =
                  match kind with RkToMixnode i => TMixnodeIndex i | _ => local_target g end).
  { unfold node_target, resolve, local_target. destruct kind; cbn; [done|by destruct (tp_local_node _)..]. }
  pose proof (ro_last _ _ _ _ H) as Hl. rewrite <- Hlast in Hl. apply last_Some in Hl as [l Hl].
  pose proof (ro_peer _ _ _ _ H) as Hp. rewrite Hl, app_length in Hp. cbn in Hp.
  assert (Hjs : exists js, l = map TMixnodeIndex js).
  { clear -Hp. assert (Hf : Forall (fun t => exists x, t = TMixnodeIndex x) l).
    { apply Forall_lookup. intros j [x|p] Hj; [by exists x|]. apply lookup_lt_Some in Hj as Hlt.
      specialize (Hp j p). rewrite lookup_app_l in Hp by done. specialize (Hp Hj). lia. }
    clear Hp. induction Hf as [|t l [x ->] _ [js ->]]; [by exists []|by exists (x :: js)]. }
  destruct Hjs as [js ->]. exists js.
  assert (Hn : route_nodes rt = map (node_target g) (map Some js ++ [last_node kind])).
  { rewrite Hl, map_app, map_map. done. }
  split; [done|]. rewrite (indices_of_nodes g rt _ Hn), omap_app. cbn.
  assert (Eo : omap (resolve g) (map Some js) = js).
  { clear. induction js as [|j js IH]; [done|]. cbn. f_equal. exact IH. }
  f_equal. exact Eo.
Qed.

Lemma permitted_shaped g kind h rt : gen_ok g -> permitted g kind h rt -> shaped g kind h rt.
Proof.
  intros Hg (Hok & Hlen & Hnd & Hforced).
  destruct (permitted_nodes g kind h rt Hok) as (js & Hn & Hi).
  pose proof (ro_keys _ _ _ _ Hok) as Hkeys. rewrite Hn in Hkeys.
  apply (keys_through g _ _ Hg) in Hkeys as [Hkeys Hv].
  apply Forall_app in Hv as [Hv _]. rewrite Forall_fmap in Hv.
  rewrite Hn, map_length, app_length, map_length in Hlen. cbn in Hlen.
  pose proof (ro_gateways _ _ _ _ Hok) as Hgw.
  rewrite Hn in Hgw. rewrite map_length, app_length, map_length in Hgw. cbn [length] in Hgw.
  rewrite Hi in Hnd, Hforced.
  (* it is enough to split the indices *)
  assert (Hfin : forall sf sp ms, js = option_list sf ++ ms ++ option_list sp -> ends g kind sf sp ->
            length ms = route_hops g kind h - num_special g kind - 1 -> NoDup ms ->
            (forall m, m ∈ ms -> ~ fixed_node g kind sf sp m) -> shaped g kind h rt).
  { intros sf sp ms Ejs Hends Hl Hndm Hm. exists sf, sp, ms. split; [done|].
    assert (Hnodes : opt_node sf ++ map Some ms ++ opt_node sp ++ [last_node kind] = map Some js ++ [last_node kind]).
    { rewrite Ejs, !map_app, <- !app_assoc. by destruct sf, sp. }
    split_and!; [|done|done|].
    - rewrite Hnodes. by split.
    - intros m Hin. split; [by apply Hm|]. rewrite Forall_forall in Hv. apply (Hv m).
      rewrite Ejs, !elem_of_app. by right; left. }
  destruct (tp_local_node (rg_topology g)) as [l|gs] eqn:El.
  - assert (Hnf : ~ exists x, forced_revisit g kind x).
    { intros (x & Hc & _). destruct Hg as [_ Hc']. rewrite El in Hc'. congruence. }
    specialize (Hnd Hnf). clear Hforced Hnf.
    unfold route_start, resolve in Hnd. rewrite El in Hnd.
    apply (Hfin None None js); clear Hfin.
    + by rewrite app_nil_r.
    + unfold ends. by rewrite El.
    + unfold num_special. rewrite El. lia.
    + destruct kind; cbn in Hnd; repeat destruct (decide _); cbn in Hnd;
        rewrite ?NoDup_cons, NoDup_app in Hnd; tauto.
    + intros m Hm. unfold fixed_node. rewrite El.
      assert (Hx : forall x, NoDup (js ++ [x]) -> m <> x).
      { intros x (_ & Hd & _)%NoDup_app ->. apply (Hd x Hm). left. }
      assert (Hy : forall x y, NoDup (x :: js ++ [y]) -> m <> x).
      { intros x y [Hd _]%NoDup_cons ->. apply Hd. apply elem_of_app. by left. }
      destruct kind as [i|i|]; cbn in Hnd.
      * destruct (decide (l = i)) as [->|Hne]; cbn in Hnd.
        -- apply Hx in Hnd. naive_solver.
        -- assert (m <> i) by (apply NoDup_cons in Hnd as [_ Hnd]; by apply Hx). apply Hy in Hnd. naive_solver.
      * destruct (decide (l = i)) as [->|Hne]; cbn in Hnd.
        -- apply Hx in Hnd. naive_solver.
        -- assert (m <> l) by (apply NoDup_cons in Hnd as [_ Hnd]; by apply Hx). apply Hy in Hnd. naive_solver.
      * apply Hx in Hnd. naive_solver.
  - destruct (Hgw gs eq_refl) as (Hl2 & Hfirst & Hpen). clear Hgw.
    assert (Hpen' : to_local kind -> exists x js', x ∈ rg_connected g /\ js = js' ++ [x]).
    { intros Ht. destruct (Hpen Ht) as (x & Hx & Hlook). exists x.
      destruct js as [|x' js' _] using rev_ind; [cbn in Hl2; lia|].
      exists js'. split; [done|]. do 2 f_equal.
      rewrite app_length in Hlook. cbn [length] in Hlook. rewrite list_lookup_fmap in Hlook.
      rewrite lookup_app_l in Hlook by (rewrite map_length, app_length; cbn; lia).
      rewrite map_app, lookup_app_r in Hlook by (rewrite map_length; lia).
      rewrite map_length in Hlook.
      replace (_ - 2 - length js') with 0 in Hlook by lia. cbn in Hlook. congruence. }
    assert (Hfirst' : from_local kind -> exists x js', x ∈ rg_connected g /\ js = x :: js').
    { intros Hf. specialize (Hfirst Hf). destruct js as [|x js']; [cbn in Hl2; lia|]. exists x, js'.
      split; [|done]. unfold route_nodes in Hn. cbn in Hn. injection Hn as Hr _. by rewrite <- Hr. }
    clear Hfirst Hpen. unfold resolve in Hnd, Hforced. rewrite El in Hnd, Hforced.
    unfold route_start in Hnd. rewrite El in Hnd.
    assert (Hnum : num_special g kind = match kind with RkLoop => 2 | _ => 1 end).
    { unfold num_special. by rewrite El. }
    destruct kind as [i|i|]; cbn [last_node option_list app] in *.
    + clear Hpen'. destruct (Hfirst' I) as (x & ms & Hx & ->). cbn in Hlen.
      assert (Hms : NoDup ms /\ x ∉ ms /\ i ∉ ms /\ (x = i -> rg_connected g = [x])).
      { destruct (decide (rg_connected g = [i])) as [Hc|Hc].
        - rewrite Hc in Hx. apply elem_of_list_singleton in Hx as ->.
          destruct (Hforced i (conj Hc eq_refl)) as (ms' & Hnd' & E).
          apply (f_equal tail) in E. cbn in E. apply app_inj_tail in E as [<- _].
          by apply NoDup_cons in Hnd' as [? ?].
        - specialize (Hnd ltac:(intros (z & Hz & <-); done)). cbn in Hnd.
          apply NoDup_cons in Hnd as [Hxm (Hnd & Hd & _)%NoDup_app]. rewrite elem_of_app in Hxm.
          split_and!; [done|tauto| |].
          + intros Hin. apply (Hd i Hin). left.
          + intros ->. exfalso. apply Hxm. right. left. }
      destruct Hms as (H1 & H2 & H3 & H4). apply (Hfin (Some x) None ms).
      * by rewrite app_nil_r.
      * unfold ends. rewrite El. by exists x.
      * rewrite Hnum. lia.
      * done.
      * intros m Hm. unfold fixed_node. rewrite El. naive_solver.
    + clear Hfirst'. destruct (Hpen' I) as (x & ms & Hx & ->). rewrite app_length in Hlen. cbn in Hlen.
      rewrite app_nil_r in Hnd, Hforced.
      assert (Hms : NoDup ms /\ x ∉ ms /\ i ∉ ms /\ (x = i -> rg_connected g = [x])).
      { destruct (decide (rg_connected g = [i])) as [Hc|Hc].
        - rewrite Hc in Hx. apply elem_of_list_singleton in Hx as ->.
          destruct (Hforced i (conj Hc eq_refl)) as (ms' & Hnd' & E).
          apply app_inj_tail in E as [<- _]. by apply NoDup_cons in Hnd' as [? ?].
        - specialize (Hnd ltac:(intros (z & Hz & <-); done)). cbn in Hnd.
          apply NoDup_cons in Hnd as [Hxm (Hnd & Hd & _)%NoDup_app]. rewrite elem_of_app in Hxm.
          split_and!; [done| |tauto|].
          + intros Hin. apply (Hd x Hin). left.
          + intros ->. exfalso. apply Hxm. right. left. }
      destruct Hms as (H1 & H2 & H3 & H4). apply (Hfin None (Some x) ms).
      * done.
      * unfold ends. rewrite El. by exists x.
      * rewrite Hnum. lia.
      * done.
      * intros m Hm. unfold fixed_node. rewrite El. naive_solver.
    + destruct (Hfirst' I) as (x & js1 & Hx & E1). destruct (Hpen' I) as (y & js2 & Hy & E2).
      clear Hfirst' Hpen'. rewrite app_nil_r in Hnd, Hforced.
      assert (Hl3 : 3 ≤ length js + 1).
      { rewrite Hlen. unfold route_hops. rewrite Hnum. lia. }
      destruct js2 as [|x' ms].
      { exfalso. rewrite E2 in Hl3. cbn in Hl3. lia. }
      assert (x' = x) as -> by (rewrite E1 in E2; by injection E2). clear js1 E1.
      cbn in E2. subst js. cbn in Hlen. rewrite app_length in Hlen. cbn in Hlen.
      assert (Hms : NoDup ms /\ x ∉ ms /\ y ∉ ms /\ (y = x -> rg_connected g = [x])).
      { destruct (decide (rg_connected g = [x])) as [Hc|Hc].
        - rewrite Hc in Hy. apply elem_of_list_singleton in Hy as ->.
          destruct (Hforced x (conj Hc I)) as (ms' & Hnd' & E).
          apply (f_equal tail) in E. cbn in E. apply app_inj_tail in E as [<- _].
          by apply NoDup_cons in Hnd' as [? ?].
        - specialize (Hnd ltac:(intros (z & Hz & _); rewrite Hz in Hx; apply elem_of_list_singleton in Hx as ->; done)).
          cbn in Hnd. apply NoDup_cons in Hnd as [Hxm (Hnd & Hd & _)%NoDup_app]. rewrite elem_of_app in Hxm.
          split_and!; [done|tauto| |].
          + intros Hin. apply (Hd y Hin). left.
          + intros ->. exfalso. apply Hxm. right. left. }
      destruct Hms as (H1 & H2 & H3 & H4). apply (Hfin (Some x) (Some y) ms).
      * done.
      * unfold ends. rewrite El. by exists x, y.
      * rewrite Hnum. lia.
      * done.
      * intros m Hm. unfold fixed_node. rewrite El. naive_solver.
Qed.

(** ** Theorem *)

(** C62: route generation succeeds with a permitted route, making a number of draws that does not
    depend on the values drawn; and for every permitted route there is exactly one choice of draws
    for which it is the result. *)
Theorem C62_uniform (g : route_generator) (kind : route_kind) (num_hops : nat) :
  gen_ok g -> kind_valid (rg_topology g) kind -> num_hops ≤ 6 ->
  ~ no_gateway g -> enough_mixnodes g kind num_hops ->
  exists ks, uniform (gen_route g kind num_hops) ks (permitted g kind num_hops).
Proof.
  intros Hg Hk Hh Hng He. destruct (uniform_shaped g kind num_hops Hg Hk Hh Hng He) as [ks Hks].
  exists ks. eapply uniform_ext; [done| |exact Hks]. intros rt. split; [|by apply permitted_shaped].
  intros Hs. destruct (uniform_reached _ _ _ _ Hks Hs) as (r & r' & E).
  split_and!.
  - by eapply C25_route.
  - destruct (gen_route_shape g kind num_hops r Hg Hk Hh Hng) as (sf & sp & used & _ & Ha & _).
    destruct (Ha He) as (ms & rt2 & r2 & E2 & Hn & _ & _ & Hlen & _).
    assert (rt2 = rt) as -> by congruence. by rewrite Hn, map_length.
  - by eapply C26_no_revisit.
  - intros x Hx. destruct (C26_forced g kind num_hops r r' rt x Hg Hk Hh E Hx) as (ms & Hnd & Hm).
    exists ms. split; [done|]. destruct kind; [done|done|]. by destruct Hm.
Qed.

(** The destination of a request, if left open, is any mixnode but the local node and the only
    connected gateway, each for one draw. *)
Theorem C62_destination (g : route_generator) :
  gen_ok g ->
  let allowed (d : N) := valid_index (rg_topology g) d /\
    tp_local_node (rg_topology g) <> LMixnode d /\ rg_connected g <> [d] in
  (exists d, allowed d) -> exists ks, uniform (choose_destination_index g) ks allowed.
Proof.
  intros Hg allowed [d0 Hd0]. unfold choose_destination_index.
  assert (Hu : exists u : list N, increasing u /\ Forall (valid_index (rg_topology g)) u /\
            (forall d, d ∈ u <-> tp_local_node (rg_topology g) = LMixnode d \/ rg_connected g = [d]) /\
            match tp_local_node (rg_topology g) with
            | LMixnode local_index => [local_index]
            | LNonMixnode _ => match rg_connected g with [gateway_index] => [gateway_index] | _ => [] end
            end = u).
  { destruct Hg as [[_ Ht] Hc]. eexists. split_and!; [| | |reflexivity].
    - destruct (tp_local_node _); [repeat constructor|]. destruct (rg_connected g) as [|x [|? ?]]; repeat constructor.
    - destruct (tp_local_node (rg_topology g)) as [l|gs].
      + constructor; [|done]. destruct Ht as (m & Hm & _). by apply lookup_lt_Some in Hm.
      + destruct Hc as (_ & Hsub & _). destruct Ht as [_ Hf]. rewrite Forall_forall in Hf.
        destruct (rg_connected g) as [|x [|? ?]]; [constructor| |constructor].
        constructor; [|done]. apply Hf, Hsub. left.
    - intros d. destruct (tp_local_node (rg_topology g)) as [l|gs].
      + rewrite elem_of_list_singleton, Hc. naive_solver.
      + destruct (rg_connected g) as [|x [|? ?]]; rewrite ?elem_of_list_singleton, ?elem_of_nil; naive_solver. }
  destruct Hu as (u & Hinc & Hv & Hu & ->).
  assert (Hal : forall d, allowed d <-> valid_index (rg_topology g) d /\ d ∉ u).
  { intros d. unfold allowed. rewrite Hu. tauto. }
  assert (Hlt : length u < length (tp_mixnodes (rg_topology g))).
  { destruct (proj1 (Hal d0) Hd0) as [Hv0 Hn0].
    assert (Hinc' := increasing_nodup _ Hinc).
    assert (Hsub : (d0 :: u) ⊆+ map N.of_nat (seq 0 (length (tp_mixnodes (rg_topology g))))).
    { apply NoDup_submseteq; [by constructor|]. intros x Hx. apply elem_of_list_fmap. exists (N.to_nat x).
      rewrite elem_of_seq. assert (valid_index (rg_topology g) x) as Hxv.
      { apply elem_of_cons in Hx as [->|Hx]; [done|]. rewrite Forall_forall in Hv. by apply Hv. }
      unfold valid_index in Hxv. split; lia. }
    apply submseteq_length in Hsub. rewrite map_length, seq_length in Hsub. cbn in Hsub. lia. }
  eexists. eapply uniform_ext; [done| |exact (uniform_choose g u (proj1 (proj1 Hg)) Hinc Hv Hlt)].
  intros d. symmetry. apply Hal.
Qed.

(** ** Example: a loop of four hops of a node with two gateways, out of seven mixnodes. There are ten
    permitted routes, and the ten choices of draws below 2, 1 and 5 produce them. *)
Definition ex_loops : list (option (list N * list target)) :=
  mbind (fun a => map (fun c => route_of (ex_gen_non [3; 6]%N) RkLoop 4 (ex_tape [a; 0; c]%N)) [0; 1; 2; 3; 4]%N)
    [0; 1]%N.
Example ex_uniform :
  gen_ok (ex_gen_non [3; 6]%N) /\ ~ no_gateway (ex_gen_non [3; 6]%N) /\
  enough_mixnodes (ex_gen_non [3; 6]%N) RkLoop 4 /\
  (exists ks, uniform (gen_route (ex_gen_non [3; 6]%N) RkLoop 4) ks (permitted (ex_gen_non [3; 6]%N) RkLoop 4)) /\
  map (fmap fst) ex_loops =
    map Some [[3; 0; 6]; [3; 1; 6]; [3; 2; 6]; [3; 4; 6]; [3; 5; 6];
              [6; 0; 3]; [6; 1; 3]; [6; 2; 3]; [6; 4; 3]; [6; 5; 3]]%N.
Proof.
  assert (Hg := proj1 ex_gen_non_ok).
  assert (Hng : ~ no_gateway (ex_gen_non [3; 6]%N)) by by intros [_ ?].
  assert (He : enough_mixnodes (ex_gen_non [3; 6]%N) RkLoop 4) by (vm_compute; lia).
  split_and!; [done|done|done| |].
  - apply C62_uniform; [done|done|lia|done|done].
  - vm_compute. done.
Qed.

Example ex_destination :
  (exists ks, uniform (choose_destination_index (ex_gen_non [5]%N)) ks
     (fun d => valid_index (rg_topology (ex_gen_non [5]%N)) d /\
        tp_local_node (rg_topology (ex_gen_non [5]%N)) <> LMixnode d /\ rg_connected (ex_gen_non [5]%N) <> [d])) /\
  map (fun a => match choose_destination_index (ex_gen_non [5]%N) (ex_tape [a]) with
                | Val (Ok (d, _)) => Some d | _ => None end) [0; 1; 2; 3; 4; 5]%N =
    map Some [0; 1; 2; 3; 4; 6]%N.
Proof.
  split; [|vm_compute; done]. apply C62_destination; [apply ex_gen_non_ok|].
  exists 0%N. split_and!; [vm_compute; lia|done|done].
Qed.

Print Assumptions C62_uniform.
Print Assumptions C62_destination.
