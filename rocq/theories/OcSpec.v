(** Vocabulary of the properties of the off-chain key index. *)
From Verif Require Import Prelude SigModel MsaModel MsaSpec OcModel.

(** The chain the node has: its best state, and the key events of its blocks. *)
Definition best_state (w : Node) : MsaState := default msa_genesis (state_at w (best w)).
Definition ev_about (m k : N) (e : KeyEvent) : Prop :=
  match e with EvMsaCreated m' k' | EvKeyAdded m' k' | EvKeyDeleted m' k' => m' = m /\ k' = k end.
(** Block [b] has an event about key [k] and MSA [m]. *)
Definition changed_in (st : MsaState) (m k b : N) : Prop := exists e, (b, e) ∈ ms_log st /\ ev_about m k e.

(** A deletion of a key is a transaction of its own (a wrapped one can delete the
    key of another MSA, see C15). *)
Definition deletes_on_top (x : MsaStep) : Prop := s_top x = true \/ forall k, s_call x <> DeletePublicKey k.

(** A node that follows one chain: every block is built on the best one, with at
    most 65535 calls; the finalized block never goes back. *)
Fixpoint follows (cfg : MsaCfg) (cleans : bool) (w : Node) (final : N) (h : list NodeStep) : Prop :=
  match h with
  | [] => True
  | x :: h' =>
      match x with
      | Import parent txs => parent = best w /\ len txs <= u16_max /\ Forall deletes_on_top txs /\ follows cfg cleans (node_step cfg cleans w x) final h'
      | Worker r => final <= wk_final r /\ follows cfg cleans (node_step cfg cleans w x) (wk_final r) h'
      end
  end.

(** The worker is neither stopped nor loses a lock. *)
Definition undisturbed (x : NodeStep) : Prop :=
  match x with Import _ _ => True | Worker r => wk_stop r = None /\ (forall n, wk_initial r <> Lost n) /\ wk_apply r = true end.

(** The initial indexing, when it is repeated, starts from a block not after the
    one that follows the last processed. *)
Fixpoint no_gap (cfg : MsaCfg) (cleans : bool) (w : Node) (h : list NodeStep) : Prop :=
  match h with
  | [] => True
  | x :: h' =>
      match x with
      | Import _ _ => True
      | Worker r => oc_initial (nd_db w) = false -> forall last, oc_last (nd_db w) = Some last -> wk_final r <= last + 1
      end /\ no_gap cfg cleans (node_step cfg cleans w x) h'
  end.

(** A worker run of the best block that goes through to the end. *)
Definition complete (w : Node) (r : WorkerRun) : Prop :=
  wk_at r = best w /\ final_found r = true /\ wk_initial r = Kept /\ wk_apply r = true /\ wk_stop r = None.

(** What the RPC says. *)
Definition listed (w : Node) (k m : N) : Prop := exists l, get_keys_by_msa_id w m = Some l /\ k ∈ l.

(** As [follows], but deletions may be wrapped. *)
Fixpoint one_chain (cfg : MsaCfg) (cleans : bool) (w : Node) (final : N) (h : list NodeStep) : Prop :=
  match h with
  | [] => True
  | x :: h' =>
      match x with
      | Import parent txs => parent = best w /\ len txs <= u16_max /\ one_chain cfg cleans (node_step cfg cleans w x) final h'
      | Worker r => final <= wk_final r /\ one_chain cfg cleans (node_step cfg cleans w x) (wk_final r) h'
      end
  end.
