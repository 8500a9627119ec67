(** The off-chain index of the keys of every MSA: pallets/msa/src/offchain_storage.rs,
    the RPC that reads it (pallets/msa/src/rpc/src/lib.rs) and the node that imports
    blocks, runs the worker, and may stop at any moment. *)
From Verif Require Import Prelude Scale SigModel MsaModel.

(** ** The off-chain database of a node. The byte keys are replaced by typed maps:
    the two kinds of event keys (lines 28-31, 92-101: a common prefix, then 6
    bytes, or "count::" and 4 bytes) have different lengths and fixed-width
    encodings, and the names of the rest are distinct, so no two of them collide. *)
Record OcDb := {
  oc_events : gmap (N * N) KeyEvent; (* block and number in the block: lines 92-99 *)
  oc_counts : gmap N N; (* events of the block: lines 101-103 *)
  oc_keys : gmap N (list N); (* the index: common/primitives/src/offchain.rs:20-23 *)
  oc_initial : bool; (* MSA_INITIAL_INDEXED_STORAGE_NAME, absent is false: line 119 *)
  oc_last : option N (* LAST_PROCESSED_BLOCK_STORAGE_NAME *)
}.
Definition oc_empty : OcDb := {| oc_events := ∅; oc_counts := ∅; oc_keys := ∅; oc_initial := false; oc_last := None |}.
Definition up_events db x := {| oc_events := x; oc_counts := oc_counts db; oc_keys := oc_keys db; oc_initial := oc_initial db; oc_last := oc_last db |}.
Definition up_counts db x := {| oc_events := oc_events db; oc_counts := x; oc_keys := oc_keys db; oc_initial := oc_initial db; oc_last := oc_last db |}.
Definition up_keys db x := {| oc_events := oc_events db; oc_counts := oc_counts db; oc_keys := x; oc_initial := oc_initial db; oc_last := oc_last db |}.
Definition up_initial db x := {| oc_events := oc_events db; oc_counts := oc_counts db; oc_keys := oc_keys db; oc_initial := x; oc_last := oc_last db |}.
Definition up_last db x := {| oc_events := oc_events db; oc_counts := oc_counts db; oc_keys := oc_keys db; oc_initial := oc_initial db; oc_last := x |}.

(** ** Block execution. lines 86-105: the u16 counter saturates. *)
Definition offchain_index_event (block : N) (acc : N * OcDb) (e : KeyEvent) : N * OcDb :=
  let '(count, db) := acc in
  let n := sat_add u16_max count 1 in
  (n, up_counts (up_events db (<[(block, n) := e]> (oc_events db))) (<[block := n]> (oc_counts db))).

(** The calls of a block run in its environment. *)
Definition in_block (b : N) (x : MsaStep) : MsaStep :=
  {| s_env := {| e_block := b; e_max_schema := e_max_schema (s_env x); e_has_handle := e_has_handle (s_env x) |};
     s_origin := s_origin x; s_call := s_call x; s_top := s_top x |}.
Definition exec_tx (cfg : MsaCfg) (b : N) (acc : MsaState * (N * OcDb)) (x : MsaStep) : MsaState * (N * OcDb) :=
  let '(st, (count, db)) := acc in
  let st' := msa_step cfg st (in_block b x) in
  let events := (drop (length (ms_log st)) (ms_log st')).*2 in
  (st', fold_left (offchain_index_event b) events (count, db)).
(** pallets/msa/src/lib.rs:402-406: the counter starts at 0 in every block. *)
Definition exec_block (cfg : MsaCfg) (b : N) (st : MsaState) (db : OcDb) (txs : list MsaStep) : MsaState * OcDb :=
  let '(st', (_, db')) := fold_left (exec_tx cfg b) txs (st, (0, db)) in (st', db').

(** ** The worker. *)
Definition ev_msa (e : KeyEvent) : N := match e with EvMsaCreated m _ | EvKeyAdded m _ | EvKeyDeleted m _ => m end.
Definition seqN (a n : N) : list N := (fun i => a + N.of_nat i) <$> seq 0 (N.to_nat n).

(** lines 269-291 *)
Definition read_offchain_events (db : OcDb) (b : N) : list KeyEvent :=
  omap (fun i => oc_events db !! (b, i)) (seqN 1 (default 0 (oc_counts db !! b))).

(** lines 319-334: the entries of a BTreeMap, in its order. *)
Fixpoint btree_push (m : N) (e : KeyEvent) (l : list (N * list KeyEvent)) : list (N * list KeyEvent) :=
  match l with
  | [] => [(m, [e])]
  | (m', es) :: l' => if m =? m' then (m', es ++ [e]) :: l' else if m <? m' then (m, [e]) :: l else (m', es) :: btree_push m e l'
  end.
Definition events_by_msa_id (events : list KeyEvent) : list (N * list KeyEvent) := fold_left (fun l e => btree_push (ev_msa e) e l) events [].

(** lines 362-381 *)
Definition process_key_event (keys : list N) (e : KeyEvent) : list N :=
  match e with
  | EvMsaCreated _ k | EvKeyAdded _ k => if decide (k ∈ keys) then keys else keys ++ [k]
  | EvKeyDeleted _ k => filter (fun x => x <> k) keys
  end.

(** The worker as its sequence of writes to the database. *)
Inductive Write :=
| WLast (b : N)
| WKeys (m : N) (events : list KeyEvent) (* process_offchain_events, lines 350-383: reads and sets one list *)
| WInitial
| WClear (b i : N)
| WClearCount (b : N).
(** [cleans]: whether [offchain_index::clear] from a worker has an effect. (In
    Substrate it goes to an overlay that is dropped, so the events stay.) *)
Definition exec_write (cleans : bool) (db : OcDb) (w : Write) : OcDb :=
  match w with
  | WLast b => up_last db (Some b)
  | WKeys m events => up_keys db (<[m := fold_left process_key_event events (default [] (oc_keys db !! m))]> (oc_keys db))
  | WInitial => up_initial db true
  | WClear b i => if cleans then up_events db (delete (b, i) (oc_events db)) else db
  | WClearCount b => if cleans then up_counts db (delete b (oc_counts db)) else db
  end.

(** lines 310-348 with 294-306, and line 182. *)
Definition block_writes (db : OcDb) (b : N) : list Write :=
  let events := read_offchain_events db b in
  map (fun '(m, es) => WKeys m es) (events_by_msa_id events)
  ++ match events with
     | [] => []
     | _ => map (WClear b) (seqN 1 (default 0 (oc_counts db !! b))) ++ [WClearCount b]
     end
  ++ [WLast b].
(** lines 154-188 from the block after [last]. What a block's writes read is not
    written for another block, so the whole sequence can be computed first. *)
Definition apply_writes (db : OcDb) (last fin : N) : list Write := concat (map (block_writes db) (seqN (last + 1) (fin - last))).

(** How the lock of the initial indexing fares (lines 115, 135-147): held by
    another worker; lost after [n] keys; kept. *)
Inductive InitialLock := Held | Lost (n : N) | Kept.
(** lines 109-151, 254-267 *)
Definition initial_writes (st : MsaState) (fin : N) (l : InitialLock) : list Write :=
  let keys := map (fun '(k, m) => WKeys m [EvKeyAdded m k]) (map_to_list (ms_keys st)) in
  WLast (fin - 1) :: match l with Lost n => take (N.to_nat n) keys | _ => keys ++ [WInitial] end.

(** A run of the worker: the block it runs in, the finalized block it is told of,
    the locks, and after how many writes it stops ([None]: not before the end).
    A lost lock in lines 177-180 is the same as stopping there. Workers running
    at the same time are not modelled: the locks are to prevent them. *)
Record WorkerRun := { wk_at : N; wk_final : N; wk_initial : InitialLock; wk_apply : bool; wk_stop : option N }.
(** lines 441-482: the block is looked for in the last 1000. *)
Definition final_found (r : WorkerRun) : bool := (wk_at r - 1000 <? wk_final r) && (wk_final r <=? wk_at r).
(** lines 73-84, 115-119, 164-171 *)
Definition worker_writes (st : MsaState) (db : OcDb) (r : WorkerRun) : list Write :=
  let apply last := if wk_apply r then apply_writes db last (wk_final r) else [] in
  match wk_initial r with
  | Held => []
  | l => if oc_initial db then apply (default (wk_final r - 5) (oc_last db))
         else initial_writes st (wk_final r) l ++ apply (wk_final r - 1)
  end.
Definition run_worker (cleans : bool) (st : MsaState) (db : OcDb) (r : WorkerRun) : OcDb :=
  let ws := worker_writes st db r in
  fold_left (exec_write cleans) (match wk_stop r with Some n => take (N.to_nat n) ws | None => ws end) db.

(** ** The node: the states after the blocks 0, 1, ... of its best chain. *)
Record Node := { nd_chain : list MsaState; nd_db : OcDb }.
Definition node_start : Node := {| nd_chain := [msa_genesis]; nd_db := oc_empty |}.
Definition best (w : Node) : N := len (nd_chain w) - 1.
Definition state_at (w : Node) (b : N) : option MsaState := nd_chain w !! N.to_nat b.
(** Importing a block on top of block [parent] makes it the best block (a reorganisation
    if there were others). Index writes of an abandoned block stay. *)
Inductive NodeStep := Import (parent : N) (txs : list MsaStep) | Worker (r : WorkerRun).
Definition node_step (cfg : MsaCfg) (cleans : bool) (w : Node) (x : NodeStep) : Node :=
  match x with
  | Import parent txs =>
      match state_at w parent with
      | Some st => let '(st', db') := exec_block cfg (parent + 1) st (nd_db w) txs in
                   {| nd_chain := take (N.to_nat (parent + 1)) (nd_chain w) ++ [st']; nd_db := db' |}
      | None => w
      end
  | Worker r =>
      match state_at w (wk_at r) with
      | Some st => if final_found r then {| nd_chain := nd_chain w; nd_db := run_worker cleans st (nd_db w) r |} else w
      | None => w
      end
  end.
Definition node_run (cfg : MsaCfg) (cleans : bool) (w : Node) (h : list NodeStep) : Node := fold_left (node_step cfg cleans) h w.

(** pallets/msa/src/rpc/src/lib.rs:179-198 *)
Definition get_keys_by_msa_id (w : Node) (m : N) : option (list N) := oc_keys (nd_db w) !! m.
