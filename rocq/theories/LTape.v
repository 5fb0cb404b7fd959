(** The random tape is only ever read, from front to back: a call takes all its random numbers from
    the tape it is given. *)
From Verif Require Export MRequestBuilder LBase.

Definition same_tape (r r' : rng) : Prop := rng_tape r' = rng_tape r /\ rng_pos r ≤ rng_pos r'.
Lemma same_tape_refl r : same_tape r r.
Proof. split; [done|lia]. Qed.
Lemma same_tape_trans r1 r2 r3 : same_tape r1 r2 -> same_tape r2 r3 -> same_tape r1 r3.
Proof. unfold same_tape. intros [-> ?] [-> ?]. split; [done|lia]. Qed.
Global Hint Resolve same_tape_refl : core.

(** At most [n] numbers were drawn. *)
Definition takes (n : nat) (r r' : rng) : Prop := same_tape r r' /\ rng_pos r' ≤ rng_pos r + n.
Lemma draws_refl n r : takes n r r.
Proof. split; [done|lia]. Qed.
Lemma draws_mono k n r r' : k ≤ n -> takes k r r' -> takes n r r'.
Proof. intros H [Ht Hn]. split; [done|lia]. Qed.
Lemma draws_trans k n r1 r2 r3 : takes k r1 r2 -> takes n r2 r3 -> takes (k + n) r1 r3.
Proof. intros [H1 H2] [H3 H4]. split; [by eapply same_tape_trans|lia]. Qed.
Lemma draws_tape n r r' : takes n r r' -> same_tape r r'.
Proof. by intros []. Qed.
Global Hint Resolve draws_refl : core.

Lemma try_bind_Val {A B E} (m : outcome (result A E)) (f : A -> outcome (result B E)) b :
  try_bind m f = Val (Ok b) <-> exists a, m = Val (Ok a) /\ f a = Val (Ok b).
Proof. destruct m as [[a|e]|]; simpl; naive_solver. Qed.

(** Taking apart computations that returned normally. *)
Ltac inv_ok :=
  repeat match goal with
  | H : out_bind _ _ = Val _ |- _ => apply out_bind_Val in H as (? & ? & H)
  | H : try_bind _ _ = Val (Ok _) |- _ => apply try_bind_Val in H as (? & ? & H)
  | H : Val _ = Val _ |- _ => injection H as H; simplify_eq
  | H : Ok _ = Ok _ |- _ => injection H as H; simplify_eq
  | H : Val (Ok _) = Val (Err _) |- _ => discriminate H
  | H : Val (Err _) = Val (Ok _) |- _ => discriminate H
  | H : Panic = Val _ |- _ => discriminate H
  | p : (_ * _)%type |- _ => destruct p
  end.

Lemma rng_draw_draws r v r' : rng_draw r = (v, r') -> takes 1 r r'.
Proof. intros [= <- <-]. repeat split; cbn; lia. Qed.
Lemma rng_fill_draws n r v r' : rng_fill n r = (v, r') -> takes n r r'.
Proof. intros [= <- <-]. repeat split; cbn; lia. Qed.
Lemma rng_range_draws n r v r' : rng_range n r = Val (v, r') -> takes 1 r r'.
Proof. unfold rng_range. destruct (n =? 0)%N; [done|]. intros [= <- <-]. repeat split; cbn; lia. Qed.
Lemma rng_choose_draws {A} (l : list A) r v r' : rng_choose l r = (v, r') -> takes 1 r r'.
Proof. destruct l; cbn; intros [= <- <-]; repeat split; cbn; lia. Qed.

Lemma choose_mixnode_draws g ex r i r' :
  choose_mixnode_index g ex r = Val (Ok (i, r')) -> takes 1 r r'.
Proof.
  unfold choose_mixnode_index. intros H. inv_ok. destruct (_ =? 0)%N; inv_ok.
  by eapply rng_range_draws.
Qed.
Lemma choose_destination_draws g r i r' :
  choose_destination_index g r = Val (Ok (i, r')) -> takes 1 r r'.
Proof. apply choose_mixnode_draws. Qed.
Lemma choose_gateway_draws g ex r i r' :
  choose_connected_gateway_index g ex r = Val (Ok (i, r')) -> takes 1 r r'.
Proof.
  unfold choose_connected_gateway_index. intros H.
  destruct ex as [e|]; cbn in H.
  - destruct (existsb _ _); cbn in H.
    + destruct (rg_connected g) as [|a l]; cbn in H; [done|].
      destruct (rng_choose l r) as [[c|] r1] eqn:E; inv_ok; by eapply rng_choose_draws.
    + destruct (rng_choose (rg_connected g) r) as [[c|] r1] eqn:E; inv_ok. by eapply rng_choose_draws.
  - destruct (rng_choose (rg_connected g) r) as [[c|] r1] eqn:E; inv_ok. by eapply rng_choose_draws.
Qed.
Lemma hop_index_draws g k sf sp i rem used r x r' :
  hop_index g k sf sp i rem used r = Val (Ok (x, r')) -> takes 1 r r'.
Proof.
  unfold hop_index. intros H.
  destruct i, rem as [|[|[|]]], sf, sp; inv_ok; try done; by eapply choose_mixnode_draws.
Qed.
Lemma route_loop_draws g k sf sp i rem st r st' r' :
  route_loop g k sf sp i rem st r = Val (Ok (st', r')) -> takes rem r r'.
Proof.
  revert i st r. induction rem as [|rem IH]; intros i st r; cbn [route_loop]; intros H; inv_ok; [done|].
  apply (draws_trans 1 rem _ _ _ (hop_index_draws _ _ _ _ _ _ _ _ _ _ ltac:(eassumption))). by eapply IH.
Qed.
Lemma special_hop_draws g w used r x r' :
  special_hop g w used r = Val (Ok (x, r')) -> takes 1 r r'.
Proof.
  unfold special_hop. intros H. destruct (tp_local_node _); [by inv_ok|].
  destruct w; inv_ok; [|done]. by eapply choose_gateway_draws.
Qed.
Lemma min_hops_le a b : min_hops a b ≤ 4.
Proof. unfold min_hops. destruct (is_some a), (is_some b), (bool_decide _); cbn; lia. Qed.
Lemma gen_route_draws g k n r x r' : n ≤ 6 -> gen_route g k n r = Val (Ok (x, r')) -> takes 8 r r'.
Proof.
  unfold gen_route. intros Hn H. inv_ok.
  repeat match goal with
  | H : special_hop _ _ _ _ = _ |- _ => apply special_hop_draws in H
  | H : route_loop _ _ _ _ _ _ _ _ = _ |- _ => apply route_loop_draws in H
  end.
  match goal with H : takes (Nat.max _ (min_hops ?a ?b)) _ _ |- _ =>
    pose proof (min_hops_le a b); apply (draws_mono _ 6) in H; [|lia] end.
  change 8 with (1 + (1 + 6)). eauto using draws_trans.
Qed.

Section build.
  Context (pr : prims).
  Lemma gen_kx_draws keys r x y r' :
    gen_kx_public_and_shared_secrets pr keys r = Val (x, y, r') -> takes 32 r r'.
  Proof.
    unfold gen_kx_public_and_shared_secrets, gen_kx_secret. intros H. cbn in H. inv_ok. repeat split; cbn; lia.
  Qed.
  Lemma write_at_same (l : bytes) off v l' : write_at l off v = Val l' -> length l' = length l.
  Proof. unfold write_at. destruct (decide _); [|done]. intros [= <-]. by apply put_length. Qed.
  Lemma forward_step_same st t s st' : forward_step pr st t s = Val st' -> length (bs_buf st') = length (bs_buf st).
  Proof.
    unfold forward_step. intros H. inv_ok. cbn [bs_buf].
    repeat match goal with H : write_actions _ _ _ = Val _ |- _ => apply write_at_same in H end.
    destruct t; inv_ok; repeat match goal with H : write_actions _ _ _ = Val _ |- _ => apply write_at_same in H end; congruence.
  Qed.
  Lemma forward_loop_same ts : forall ss st st',
    forward_loop pr st ts ss = Val st' -> length (bs_buf st') = length (bs_buf st).
  Proof.
    induction ts as [|t ts IH]; intros [|s ss] st st' H; cbn [forward_loop] in H; inv_ok; try done.
    match goal with H : forward_step _ _ _ _ = _ |- _ => apply forward_step_same in H; rewrite <- H end. by eapply IH.
  Qed.
  Lemma last_hop_draws st ss k r x r' : last_hop pr st ss k r = Val (x, r') -> takes (length (bs_buf st)) r r'.
  Proof.
    unfold last_hop. intros H. inv_ok.
    match goal with H : (if decide ?P then _ else _) = _ |- _ => destruct (decide P); [|done] end.
    match goal with H : context [rng_fill ?n ?r] |- _ => destruct (rng_fill n r) eqn:E end.
    inv_ok. apply rng_fill_draws in E. eapply draws_mono; [|exact E].
    match goal with H : write_actions _ _ _ = Val ?b |- _ ≤ _ => apply write_at_same in H; rewrite H end.
    repeat case_match; inv_ok;
      repeat match goal with H : write_actions _ _ _ = Val _ |- _ => apply write_at_same in H end; lia.
  Qed.
  Lemma build_header_draws hd ts keys k r a b c r' :
    length hd ≤ 188 -> build_header pr hd ts keys k r = Val (a, b, c, r') -> takes 188 r r'.
  Proof.
    unfold build_header. intros Hl H. inv_ok.
    match goal with H : forward_loop _ _ _ _ = _ |- _ => apply forward_loop_same in H; cbn [bs_buf] in H; rewrite drop_length in H end.
    match goal with H : last_hop _ _ _ _ _ = _ |- _ => apply last_hop_draws in H end.
    match goal with H : gen_kx_public_and_shared_secrets _ _ _ = _ |- _ => apply gen_kx_draws in H end.
    change KX_PUBLIC_SIZE with 32 in *.
    match goal with H1 : takes 32 _ _, H2 : takes _ _ _ |- _ => pose proof (draws_trans _ _ _ _ _ H1 H2) as Hdr end.
    eapply draws_mono; [|exact Hdr]. lia.
  Qed.
  Lemma complete_request_draws p ts keys r a b r' :
    complete_request_packet pr p ts keys r = Val (a, b, r') -> takes 188 r r'.
  Proof.
    unfold complete_request_packet. intros H. inv_ok. eapply build_header_draws; [|eassumption].
    rewrite take_length. change HEADER_SIZE with 188. lia.
  Qed.
  Lemma build_surb_draws s k f ts keys id r a b c r' :
    build_surb pr s k f ts keys id r = Val (a, b, c, r') -> takes 220 r r'.
  Proof.
    unfold build_surb. intros H. inv_ok.
    match goal with H : context [rng_fill ?n ?r] |- _ => destruct (rng_fill n r) eqn:E end. inv_ok.
    apply rng_fill_draws in E.
    match goal with H : build_header _ _ _ _ _ _ = _ |- _ => apply build_header_draws in H end.
    - change 220 with (188 + 32). by eapply draws_trans.
    - unfold slice. rewrite take_length. change HEADER_SIZE with 188. lia.
  Qed.
  Lemma rb_new_draws t ns d r rb r' : rb_new t ns d r = Val (Ok (rb, r')) -> takes 1 r r'.
  Proof.
    unfold rb_new. intros H. inv_ok. destruct d; inv_ok; [done|]. by eapply choose_destination_draws.
  Qed.
End build.
