(** How a development node seals blocks: node/service/src/block_sealing.rs. *)
From Verif Require Import Prelude.

(** cli.rs [SealingMode] with the flags --sealing-interval (its length does not matter
    here: ticks come when they come) and --sealing-create-empty-blocks *)
Inductive Mode := Manual | Instant | Interval (create_empty : bool).

(** [EngineCommand]. Simplified: blocks are built on the best one ([parent_hash] is
    [None] in all commands that the node makes itself), justifications are left out,
    a sender is a number. *)
Inductive Cmd :=
| SealNewBlock (create_empty finalize : bool) (sender : option N)
| FinalizeBlock (block : nat) (sender : option N).

(** What a sender gets back. A sender that is dropped gets nothing of this. *)
Inductive Answer := Created (block : nat) | EmptyTransactionPool | Finalized | NotFinalized.

(** The chain is the list of its blocks, each the list of its transactions; block [i] is
    the [i]-th of them. [n_final]: how many are final. [n_auto] and [n_rpc]: the two
    streams of commands. [n_done]: the commands taken so far. *)
Record Node := {
  n_ready : list N;
  n_auto : list Cmd;
  n_rpc : list Cmd;
  n_chain : list (list N);
  n_final : nat;
  n_answers : list (N * Answer);
  n_done : list Cmd
}.
Definition node_start : Node :=
  {| n_ready := []; n_auto := []; n_rpc := []; n_chain := []; n_final := 0; n_answers := []; n_done := [] |}.

Definition up_ready st x := {| n_ready := x; n_auto := n_auto st; n_rpc := n_rpc st; n_chain := n_chain st; n_final := n_final st; n_answers := n_answers st; n_done := n_done st |}.
Definition up_auto st x := {| n_ready := n_ready st; n_auto := x; n_rpc := n_rpc st; n_chain := n_chain st; n_final := n_final st; n_answers := n_answers st; n_done := n_done st |}.
Definition up_rpc st x := {| n_ready := n_ready st; n_auto := n_auto st; n_rpc := x; n_chain := n_chain st; n_final := n_final st; n_answers := n_answers st; n_done := n_done st |}.
Definition up_chain st x := {| n_ready := n_ready st; n_auto := n_auto st; n_rpc := n_rpc st; n_chain := x; n_final := n_final st; n_answers := n_answers st; n_done := n_done st |}.
Definition up_final st x := {| n_ready := n_ready st; n_auto := n_auto st; n_rpc := n_rpc st; n_chain := n_chain st; n_final := x; n_answers := n_answers st; n_done := n_done st |}.
Definition up_done st x := {| n_ready := n_ready st; n_auto := n_auto st; n_rpc := n_rpc st; n_chain := n_chain st; n_final := n_final st; n_answers := n_answers st; n_done := x |}.
Definition answer st (sender : option N) (a : Answer) :=
  match sender with
  | None => st (* only logged *)
  | Some s => {| n_ready := n_ready st; n_auto := n_auto st; n_rpc := n_rpc st; n_chain := n_chain st; n_final := n_final st; n_answers := n_answers st ++ [(s, a)]; n_done := n_done st |}
  end.

(** The dependency sc-consensus-manual-seal [seal_block]: refuses an empty block unless
    asked for one; otherwise the proposer picks from the ready transactions (those in
    [pick], any choice), the block is imported, final if asked for, the pool forgets what is in
    it, the sender is answered. *)
Definition seal_block (st : Node) (create_empty finalize : bool) (sender : option N) (pick : list N) : Node :=
  let txs := filter (fun t => t ∈ pick) (n_ready st) in
  if negb create_empty && ((len (n_ready st) =? 0) || (len txs =? 0)) then answer st sender EmptyTransactionPool
  else
    let b := length (n_chain st) in
    let st := up_chain (up_ready st (filter (fun t => t ∉ txs) (n_ready st))) (n_chain st ++ [txs]) in
    let st := if finalize then up_final st (S b) else st in
    answer st sender (Created b).

(** The dependency's [finalize_block]: a known block, not below the last final one. *)
Definition finalize_block (st : Node) (b : nat) (sender : option N) : Node :=
  if (b <? length (n_chain st))%nat && (n_final st <=? S b)%nat then answer (up_final st (S b)) sender Finalized
  else answer st sender NotFinalized.

(** block_sealing.rs:247-280: one turn of the loop of [run_seal_command]. A command for
    which there is nothing to do is dropped, and its sender with it. *)
Definition run_command (st : Node) (c : Cmd) (pick : list N) : Node :=
  match c with
  | SealNewBlock create_empty finalize sender =>
      if create_empty || (0 <? len (n_ready st)) then seal_block st create_empty finalize sender pick else st
  | FinalizeBlock b sender => finalize_block st b sender
  end.

(** What happens around the loop, in any order.
    - [Imported t]: transaction [t] has become ready; the pool notifies (121-129: for
      instant sealing a command per notification);
    - [Gone ts]: the pool drops transactions (invalid, expired);
    - [Tick]: the interval timer (130-150);
    - [Rpc c]: a command from an RPC client (110). Simplified: the channel has no limit;
    - [Turn rpc pick]: the loop takes the next command of one of the streams (158:
      [stream_select], which may choose either). *)
Inductive Happening :=
| Imported (t : N)
| Gone (ts : list N)
| Tick
| Rpc (c : Cmd)
| Turn (rpc : bool) (pick : list N).

Definition node_step (mode : Mode) (st : Node) (x : Happening) : Node :=
  match x with
  | Imported t =>
      let st := up_ready st (n_ready st ++ [t]) in
      match mode with Instant => up_auto st (n_auto st ++ [SealNewBlock true true None]) | _ => st end
  | Gone ts => up_ready st (filter (fun t => t ∉ ts) (n_ready st))
  | Tick => match mode with Interval e => up_auto st (n_auto st ++ [SealNewBlock e true None]) | _ => st end
  | Rpc c => up_rpc st (n_rpc st ++ [c])
  | Turn rpc pick =>
      match (if rpc then n_rpc st else n_auto st) with
      | [] => st (* nothing to take: the loop waits *)
      | c :: l => let st := if rpc then up_rpc st l else up_auto st l in
                  up_done (run_command st c pick) (n_done st ++ [c])
      end
  end.
Definition node_run (mode : Mode) (h : list Happening) : Node := fold_left (node_step mode) h node_start.
