(** C138: sealing of blocks by a development node, for every order in which transactions,
    ticks, commands and turns of the loop come. *)
From Verif Require Import Prelude SealModel SealSpec SealProofs.

(** Instant sealing: once the loop has caught up with the notifications, no transaction
    waits, if the proposer makes progress at every turn; every transaction that came,
    unless the pool dropped it, is in a block. *)
Theorem C138_instant_seals_all :
  forall h,
    makes_progress Instant node_start h -> n_auto (node_run Instant h) = [] ->
    n_ready (node_run Instant h) = [] /\
    forall t, Imported t ∈ h -> ~ dropped h t -> exists b, b ∈ n_chain (node_run Instant h) /\ t ∈ b.
Proof. intros h Hp Ha. split; [by apply instant_lemma|]. intros t. by apply instant_sealed_lemma. Qed.
Print Assumptions C138_instant_seals_all.

(** In every mode a transaction that came is waiting or in a block, unless the pool
    dropped it; only such transactions are sealed, and none twice. *)
Theorem C138_nothing_lost :
  forall mode h t,
    Imported t ∈ h -> ~ dropped h t ->
    t ∈ n_ready (node_run mode h) \/ exists b, b ∈ n_chain (node_run mode h) /\ t ∈ b.
Proof.
  intros mode h t Hi Hd. destruct (kept_lemma mode h t Hi Hd) as [|Hc]; [by left|]. right.
  apply elem_of_list_In, in_concat in Hc as (b & H1 & H2). exists b. by rewrite !elem_of_list_In.
Qed.
Print Assumptions C138_nothing_lost.
Theorem C138_sealed_once :
  forall mode h,
    NoDup (imports h) ->
    NoDup (concat (n_chain (node_run mode h))) /\
    forall t, t ∈ concat (n_chain (node_run mode h)) -> t ∈ imports h.
Proof.
  intros mode h Hn. destruct (sealed_once_lemma mode h Hn) as [H1 H2]. split; [by apply NoDup_app in H1 as (_ & _ & ?)|].
  intros t Ht. apply H2, elem_of_app. by right.
Qed.
Print Assumptions C138_sealed_once.

(** Blocks are only made when asked for: with manual sealing by clients, with instant
    sealing also once per transaction, with interval sealing also once per tick. *)
Theorem C138_blocks_on_request :
  forall mode h,
    (length (n_chain (node_run mode h)) <=
     match mode with Manual => 0 | Instant => length (imports h) | Interval _ => ticks h end + asked h)%nat.
Proof. exact blocks_lemma. Qed.
Print Assumptions C138_blocks_on_request.

(** No block is empty with manual sealing, or with interval sealing without
    --sealing-create-empty-blocks, unless a client asks for one. *)
Theorem C138_no_empty_blocks_partial :
  forall mode h,
    mode = Manual \/ mode = Interval false -> none_asks_empty h ->
    Forall (fun b => b <> []) (n_chain (node_run mode h)).
Proof. exact nonempty_lemma. Qed.
Print Assumptions C138_no_empty_blocks_partial.

(** With instant sealing there can be: two transactions come at once, the first block takes
    both, and the second command makes an empty one. *)
Theorem C138_instant_empty_refuted :
  ~ (forall h, none_asks_empty h -> Forall (fun b => b <> []) (n_chain (node_run Instant h))).
Proof.
  intros H. specialize (H [Imported 1; Imported 2; Turn false [1; 2]; Turn false [1; 2]] ltac:(repeat constructor)).
  vm_compute in H. inversion H as [|? ? _ H']. inversion H' as [|? ? H'' _]. by apply H''.
Qed.
Print Assumptions C138_instant_empty_refuted.

(** The chain only grows, and what is final stays final. *)
Theorem C138_chain_grows :
  forall mode h h',
    let st := node_run mode h in let st' := node_run mode (h ++ h') in
    (exists l, n_chain st' = n_chain st ++ l) /\ (n_final st <= n_final st' <= length (n_chain st'))%nat.
Proof. exact stable_lemma. Qed.
Print Assumptions C138_chain_grows.

(** A command with a sender is answered once, and truthfully, unless it asks for a
    non-empty block while nothing is ready: that one is dropped without an answer. *)
Theorem C138_answers_partial :
  forall st c pick s,
    sender_of c = Some s ->
    let st' := run_command st c pick in
    (exists a, n_answers st' = n_answers st ++ [(s, a)] /\
       match a with
       | Created b => b = length (n_chain st) /\ exists txs, n_chain st' = n_chain st ++ [txs]
       | EmptyTransactionPool => n_chain st' = n_chain st /\ (forall t, t ∈ n_ready st -> t ∉ pick)
       | Finalized => exists b f, c = FinalizeBlock b f /\ n_final st' = S b /\ (b < length (n_chain st))%nat
       | NotFinalized => exists b f, c = FinalizeBlock b f /\ n_final st' = n_final st
       end) \/
    (st' = st /\ n_ready st = [] /\ exists f, c = SealNewBlock false f (Some s)).
Proof. exact answered_lemma. Qed.
Print Assumptions C138_answers_partial.

Theorem C138_answered_refuted :
  ~ (forall mode h c s, c ∈ n_done (node_run mode h) -> sender_of c = Some s ->
       exists a, (s, a) ∈ n_answers (node_run mode h)).
Proof.
  intros H. destruct (H Manual [Rpc (SealNewBlock false true (Some 7)); Turn true []] (SealNewBlock false true (Some 7)) 7) as [a Ha].
  - vm_compute. left.
  - reflexivity.
  - vm_compute in Ha. by apply elem_of_nil in Ha.
Qed.
Print Assumptions C138_answered_refuted.

(** A schedule with all of it: the pool drops transaction 3, a client asks for a block. *)
Definition seal_h : list Happening :=
  [ Imported 1; Imported 2; Turn false [1]; Imported 3; Rpc (SealNewBlock false false (Some 9)); Gone [3];
    Turn true [2]; Rpc (FinalizeBlock 1 (Some 8)); Turn false []; Turn true []; Turn false [] ].
Example C138_example :
  makes_progress Instant node_start seal_h /\ NoDup (imports seal_h) /\
  let st := node_run Instant seal_h in
  (n_chain st, n_ready st, n_auto st, n_final st, n_answers st) =
  ([[1]; [2]; []; []], [], [], 4%nat, [(9, Created 1); (8, NotFinalized)]) /\ dropped seal_h 3 /\
  n_chain (node_run (Interval false) ([Tick; Turn false []; Imported 5; Tick; Turn false [5]; Tick; Turn false []])) = [[5]].
Proof.
  split; [apply progress_check; vm_compute; reflexivity|].
  split; [apply (bool_decide_unpack _); vm_compute; exact I|]. cbn zeta. split; [vm_compute; reflexivity|]. split; [|vm_compute; reflexivity].
  exists [3]. split; [|left]. apply elem_of_list_In. vm_compute. repeat (try (left; reflexivity); right).
Qed.
