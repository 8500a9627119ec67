(** Properties C17 and C18: the off-chain index of the keys of every MSA, read by
    the RPC [msa_getKeysByMsaId]. A history of a node is a list of imported blocks
    and worker runs; a run may stop after any write, lose its locks, and be told of
    any finalized block. [cleans] is arbitrary: the theorems hold whether or not
    processed events are really removed from the database. *)
From Verif Require Import Prelude SigModel MsaModel MsaSpec MsaProperties OcModel OcSpec OcProofs OcFinal.

(** ** C17. On a node that follows one chain and whose worker is never stopped in the
    middle: after any run that processes the finalized block [wk_final r], the index
    lists under every MSA [m] exactly the keys that control it on the best chain,
    each of them once; only keys with an event after the finalized block may differ.
    Partial: no forks, no key deletion wrapped in another call, at most 65535 calls
    per block. Both of the first two restrictions are needed, see the refutations. *)
Theorem C17_index_exact_partial :
  forall cfg cleans h r,
    follows cfg cleans node_start 0 (h ++ [Worker r]) ->
    Forall undisturbed h ->
    complete (node_run cfg cleans node_start h) r ->
    let w := node_run cfg cleans node_start (h ++ [Worker r]) in
    forall m,
      (forall k, (forall b, wk_final r < b -> ~ changed_in (best_state w) m k b) ->
                 (listed w k m <-> controls (best_state w) k m)) /\
      (forall l, get_keys_by_msa_id w m = Some l -> NoDup l).
Proof. exact exact_lemma. Qed.
Print Assumptions C17_index_exact_partial.

(** When the finalized block is the best one, there is no exception. *)
Theorem C17_index_exact_at_final_partial :
  forall cfg cleans h r,
    follows cfg cleans node_start 0 (h ++ [Worker r]) ->
    Forall undisturbed h ->
    complete (node_run cfg cleans node_start h) r ->
    let w := node_run cfg cleans node_start (h ++ [Worker r]) in
    wk_final r = best w ->
    forall m k, listed w k m <-> controls (best_state w) k m.
Proof. exact exact_final_lemma. Qed.
Print Assumptions C17_index_exact_at_final_partial.

(** ** C18. The same with runs stopped after any write and locks lost or held, any
    number of times, provided that a repeated initial indexing is not told of a
    finalized block that leaves out some block (the last refutation shows why). *)
Theorem C18_converges_partial :
  forall cfg cleans h r,
    follows cfg cleans node_start 0 (h ++ [Worker r]) ->
    no_gap cfg cleans node_start (h ++ [Worker r]) ->
    complete (node_run cfg cleans node_start h) r ->
    let w := node_run cfg cleans node_start (h ++ [Worker r]) in
    forall m,
      (forall k, (forall b, wk_final r < b -> ~ changed_in (best_state w) m k b) ->
                 (listed w k m <-> controls (best_state w) k m)) /\
      (forall l, get_keys_by_msa_id w m = Some l -> NoDup l).
Proof. exact converge_lemma. Qed.
Print Assumptions C18_converges_partial.

(** Once the initial indexing has gone through, no stop or lost lock leaves a gap:
    the theorem above then needs nothing of what follows but [follows]. *)
Theorem C18_after_initial_no_gap :
  forall cfg cleans h1 h2,
    no_gap cfg cleans node_start h1 ->
    oc_initial (nd_db (node_run cfg cleans node_start h1)) = true ->
    no_gap cfg cleans node_start (h1 ++ h2).
Proof. exact after_initial_lemma. Qed.
Print Assumptions C18_after_initial_no_gap.

(** At every moment, finished or not, a listed key without an event in the blocks
    not yet processed controls its MSA: nothing stale is ever served. *)
Theorem C18_never_stale_partial :
  forall cfg cleans h,
    follows cfg cleans node_start 0 h -> no_gap cfg cleans node_start h ->
    let w := node_run cfg cleans node_start h in
    forall m k, listed w k m ->
      (forall b last, oc_last (nd_db w) = Some last -> last < b -> ~ changed_in (best_state w) m k b) ->
      controls (best_state w) k m.
Proof. exact never_stale_lemma. Qed.
Print Assumptions C18_never_stale_partial.

(** ** A concrete history. Key 1 creates MSA 1 and adds key 3 in block 1, key 2
    creates MSA 2 in block 2; the worker indexes; in block 3 key 3 deletes key 1;
    the worker is stopped after the first write; block 4 comes; the next run ends. *)
Definition add_key_tx (owner new m : N) : MsaStep :=
  tx 0 (Signed owner) (AddPublicKey owner owner new {| ak_msa := m; ak_exp := 50; ak_key := new |}).
Definition run_at (at_ fin : N) (l : InitialLock) (stop : option N) : NodeStep :=
  Worker {| wk_at := at_; wk_final := fin; wk_initial := l; wk_apply := true; wk_stop := stop |}.
Definition oc_h : list NodeStep :=
  [ Import 0 [tx 0 (Signed 1) Create; add_key_tx 1 3 1]; Import 1 [tx 0 (Signed 2) Create]; run_at 2 1 Kept None;
    Import 2 [tx 0 (Signed 3) (DeletePublicKey 1)]; run_at 3 3 Kept (Some 1); Import 3 []; run_at 4 3 Kept None ].
Example C17_example :
  let h := take 4 oc_h in let r := {| wk_at := 3; wk_final := 3; wk_initial := Kept; wk_apply := true; wk_stop := None |} in
  follows toy_cfg true node_start 0 (h ++ [Worker r]) /\ Forall undisturbed h /\ complete (node_run toy_cfg true node_start h) r
  /\ get_keys_by_msa_id (node_run toy_cfg true node_start h) 1 = Some [1; 3]
  /\ get_keys_by_msa_id (node_run toy_cfg true node_start (h ++ [Worker r])) 1 = Some [3].
Proof.
  cbn zeta. split; [cbn [follows app take oc_h run_at]; repeat (split; [vm_compute; first [reflexivity|discriminate]|]) || idtac|].
  all: repeat match goal with |- _ /\ _ => split end; try (vm_compute; first [reflexivity|discriminate]).
  all: try (repeat constructor; left; reflexivity).
  all: repeat constructor; try discriminate.
Qed.

(** The same with the worker stopped between its first and second write. *)
Example C18_example :
  let h := take 6 oc_h in let r := {| wk_at := 4; wk_final := 3; wk_initial := Kept; wk_apply := true; wk_stop := None |} in
  follows toy_cfg false node_start 0 (h ++ [Worker r]) /\ no_gap toy_cfg false node_start (h ++ [Worker r]) /\ complete (node_run toy_cfg false node_start h) r
  /\ get_keys_by_msa_id (node_run toy_cfg false node_start h) 1 = Some [1; 3]
  /\ get_keys_by_msa_id (node_run toy_cfg false node_start (h ++ [Worker r])) 1 = Some [3].
Proof.
  cbn zeta. repeat match goal with |- _ /\ _ => split end; try (vm_compute; first [reflexivity|discriminate]).
  - cbn [follows app take oc_h run_at]. repeat match goal with |- _ /\ _ => split end; try (vm_compute; first [reflexivity|discriminate]). all: repeat constructor.
  - cbn [no_gap app take oc_h run_at]. repeat match goal with |- _ /\ _ => split end; try done; vm_compute; first [done|intros ? ? [=]; subst; discriminate|idtac].
  - repeat split.
Qed.

(** ** C17 is not true as listed. Key 2 (MSA 2) deletes key 3 of MSA 1 by a wrapped
    call (see C15): the event names MSA 2, and the index keeps key 3 under MSA 1,
    where the chain has it no more. *)
Theorem C17_wrapped_delete_refuted :
  exists cfg h r k m,
    forall cleans, let w := node_run cfg cleans node_start (h ++ [Worker r]) in
    one_chain cfg cleans node_start 0 (h ++ [Worker r]) /\ Forall undisturbed h /\ complete (node_run cfg cleans node_start h) r
    /\ wk_final r = best w /\ listed w k m /\ ~ controls (best_state w) k m.
Proof.
  exists toy_cfg, [ Import 0 [tx 0 (Signed 1) Create; add_key_tx 1 3 1; tx 0 (Signed 2) Create]; run_at 1 1 Kept None;
                    Import 1 [ {| s_env := toy_env 0; s_origin := Signed 2; s_call := DeletePublicKey 3; s_top := false |} ] ],
         {| wk_at := 2; wk_final := 2; wk_initial := Kept; wk_apply := true; wk_stop := None |}, 3, 1.
  intros [|]; cbn zeta; repeat match goal with |- _ /\ _ => split end; try (vm_compute; first [reflexivity|discriminate]).
  all: try (cbn [one_chain app run_at]; repeat match goal with |- _ /\ _ => split end; first [done | vm_compute; first [reflexivity|discriminate]]).
  all: try (repeat constructor; discriminate).
  all: try (repeat split; fail).
  all: eexists; split; [vm_compute; reflexivity|]; right; left.
Qed.
Print Assumptions C17_wrapped_delete_refuted.

(** An abandoned block leaves its events behind: here block 1 with the creation of
    MSA 1 is replaced by an empty block 1, and the index lists a key for an MSA
    that was never created on the chain. *)
Theorem C17_fork_refuted :
  exists cfg h r k m,
    forall cleans, let w := node_run cfg cleans node_start (h ++ [Worker r]) in
    Forall undisturbed h /\ complete (node_run cfg cleans node_start h) r
    /\ wk_final r = best w /\ listed w k m /\ ms_keys (best_state w) = ∅ /\ ms_log (best_state w) = [].
Proof.
  exists toy_cfg, [ Import 0 [tx 0 (Signed 1) Create]; Import 0 [] ],
         {| wk_at := 1; wk_final := 1; wk_initial := Kept; wk_apply := true; wk_stop := None |}, 1, 1.
  intros [|]; cbn zeta; repeat match goal with |- _ /\ _ => split end; try (vm_compute; first [reflexivity|discriminate]).
  all: try (repeat constructor; discriminate).
  all: try (repeat split; fail).
  all: eexists; split; [vm_compute; reflexivity|]; left.
Qed.
Print Assumptions C17_fork_refuted.

(** ** C18 is not true as listed. The initial indexing is stopped after its keys but
    before it is marked as done; key 1 is deleted in the next block; the indexing
    starts again when a later block is final, and never looks at the deletion. Key 1
    stays listed although a complete run has processed the best block. *)
Theorem C18_interrupted_refuted :
  exists cfg h r k m,
    forall cleans, let w := node_run cfg cleans node_start (h ++ [Worker r]) in
    follows cfg cleans node_start 0 (h ++ [Worker r]) /\ complete (node_run cfg cleans node_start h) r
    /\ wk_final r = best w /\ listed w k m /\ ~ controls (best_state w) k m.
Proof.
  exists toy_cfg, [ Import 0 [tx 0 (Signed 1) Create; add_key_tx 1 3 1]; run_at 1 1 Kept (Some 3);
                    Import 1 [tx 0 (Signed 3) (DeletePublicKey 1)]; Import 2 [] ],
         {| wk_at := 3; wk_final := 3; wk_initial := Kept; wk_apply := true; wk_stop := None |}, 1, 1.
  intros [|]; cbn zeta; repeat match goal with |- _ /\ _ => split end; try (vm_compute; first [reflexivity|discriminate]).
  all: try (cbn [follows app run_at]; repeat match goal with |- _ /\ _ => split end; first [done | vm_compute; first [reflexivity|discriminate] | repeat constructor]).
  all: try (repeat split; fail).
  all: eexists; split; [vm_compute; reflexivity|]; apply elem_of_list_In; cbn; tauto.
Qed.
Print Assumptions C18_interrupted_refuted.
