(** A concrete case of C63 for nodes: a mixnode that gets the packet of another one. *)
From Verif Require Import PExample PDeriveNode.
From Verif Require PDerive.

Example C63_node_example :
  exists hist m s, PDerive.byte_hash toy_prims /\ reachable toy_prims (ex_config 32) hist m /\
    ss_get (mx_sessions m) RCurrent = SlFull s /\ length ex_p1 = N.to_nat 2252 /\
    reads toy_prims (mx_sessions m) ex_p1 RCurrent s /\
    PDerive.ForReplay (rf_key (se_filter s)) ∈ used_for s ex_p1.
Proof.
  destruct (after_reachable 32 ex_setup (fun m => reads_b m ex_p1)) as (hist & m & Hr & H);
    [exact ex_setup_ok|by vm_compute|].
  destruct (reads_b_spec _ _ H) as (s & Hs & Hreads). exists hist, m, s.
  split; [exact PDerive.toy_byte_hash|]. split; [exact Hr|]. split; [exact Hs|]. split; [exact ex_p1_length|].
  split; [exact Hreads|]. unfold used_for. do 5 apply elem_of_list_further. apply elem_of_list_here.
Qed.
