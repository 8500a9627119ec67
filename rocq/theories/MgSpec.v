(** Vocabulary for the message properties. *)
From Verif Require Import Prelude Scale CommonTypes Utf8 MsaModel MsaSpec MgModel.

(** ** Posts: the accepted calls *)
Record Post := { po_block : N; po_seq : N; po_env : MgEnv; po_who : N; po_call : MgCall }.
Definition call_schema (c : MgCall) : N := match c with AddIpfsMessage s _ _ => s | AddOnchainMessage _ s _ => s end.

(** The number of blocks that a history begins. *)
Fixpoint blocks (h : list MgX) : N :=
  match h with [] => 0 | NextBlock :: h' => blocks h' + 1 | Call _ _ _ :: h' => blocks h' end.

(** The posts of a history from [st] in block [block], where [seq] posts were
    made before in that block. *)
Fixpoint posts_from (cfg : MgCfg) (st : MgState) (block seq : N) (h : list MgX) : list Post :=
  match h with
  | [] => []
  | NextBlock :: h' => posts_from cfg (mg_step cfg st NextBlock) (block + 1) 0 h'
  | Call env o c :: h' =>
      let st' := mg_step cfg st (Call env o c) in
      match o, mg_dispatch cfg env st o c with
      | Signed who, Ok _ =>
          {| po_block := block; po_seq := seq; po_env := env; po_who := who; po_call := c |} :: posts_from cfg st' block (seq + 1) h'
      | _, _ => posts_from cfg st' block seq h'
      end
  end.
Definition posts (cfg : MgCfg) (h : list MgX) : list Post := posts_from cfg mg_genesis 0 0 h.
Definition in_block (b : N) (p : Post) : bool := po_block p =? b.
Definition under (b s : N) (p : Post) : bool := (po_block p =? b) && (call_schema (po_call p) =? s).
(** [filter] on booleans *)
Definition only {A} (f : A -> bool) (l : list A) : list A := List.filter f l.

(** [r] is what the post [p] should be read back as. *)
Definition answers (cfg : MgCfg) (p : Post) (r : MessageResponse) : Prop :=
  controls (gv_msa (po_env p)) (po_who p) (mr_provider r)
  /\ mr_block r = po_block p /\ mr_index r = po_seq p
  /\ match po_call p with
     | AddOnchainMessage behalf _ payload =>
         mr_payload r = Some payload /\ mr_source r = Some (default (mr_provider r) behalf)
         /\ mr_cid r = None /\ mr_length r = None
     | AddIpfsMessage _ cid length =>
         mr_payload r = None /\ mr_source r = None
         /\ (exists b, g_decode cfg cid = Some b /\ mr_cid r = Some (g_encode cfg b)) /\ mr_length r = Some length
     end.

(** A schema has the location [loc] whenever a call looks it up (schemas do not
    change, C70), and lengths are u32. *)
Definition located (schema : N) (loc : PayloadLocation) (h : list MgX) : Prop :=
  forall env o c info, Call env o c ∈ h -> gv_schema env schema = Some info -> si_location info = loc.
Definition typed (h : list MgX) : Prop :=
  forall env o s cid length, Call env o (AddIpfsMessage s cid length) ∈ h -> length <= u32_max.

(** ** When a post is accepted *)
(** The binary form of a CID that is taken: text, not of version 0, that decodes. *)
Definition cid_bytes (cfg : MgCfg) (cid b : list N) : Prop :=
  (exists s, Forall scalar s /\ cid = utf8 s) /\ 2 < len cid /\ take 2 cid <> [81; 109]
  /\ g_decode cfg cid = Some b /\ g_cid_ok cfg b = true.
(** Bytes of a SCALE length prefix. *)
Definition prefix_size (n : N) : N := if n <? 64 then 1 else if n <? 16384 then 2 else if n <? 1073741824 then 4 else 5.
Definition acceptable (cfg : MgCfg) (env : MgEnv) (block : N) (o : Origin) (c : MgCall) : Prop :=
  exists who m info,
    o = Signed who /\ controls (gv_msa env) who m /\ gv_schema env (call_schema c) = Some info
    /\ match c with
       | AddIpfsMessage _ cid _ =>
           si_location info = IPFS /\ exists b, cid_bytes cfg cid b /\ prefix_size (len b) + len b + 4 <= g_max cfg
       | AddOnchainMessage behalf s payload =>
           si_location info = OnChain /\ len payload <= g_max cfg
           /\ forall d, behalf = Some d ->
              schema_ok {| e_block := block; e_max_schema := e_max_schema (gv_env env); e_has_handle := e_has_handle (gv_env env) |}
                (gv_msa env) m d s
       end.

(** ** Paging *)
(** The messages of the blocks from [b], [n] of them. *)
Fixpoint range (view : N -> list MessageResponse) (b : N) (n : nat) : list MessageResponse :=
  match n with O => [] | S n' => view b ++ range view (b + 1) n' end.
(** What a request is about: the messages of its blocks, from its index in the
    first. *)
Definition requested (view : N -> list MessageResponse) (r : PageRequest) : list MessageResponse :=
  drop (N.to_nat (rq_index r)) (view (rq_from r)) ++ range view (rq_from r + 1) (N.to_nat (rq_to r - rq_from r) - 1).
(** The next request of a client that follows the answer. *)
Definition follow_up (r : PageRequest) (a : PageResponse) : option PageRequest :=
  match rs_has_next a, rs_next_block a, rs_next_index a with
  | true, Some b, Some i => Some {| rq_from := b; rq_index := i; rq_to := rq_to r; rq_size := rq_size r |}
  | _, _, _ => None
  end.
(** A client that starts with a request and follows the answers to the end gets
    these pages; each request is answered from the chain as it is then. *)
Inductive paged : list (N -> list MessageResponse) -> PageRequest -> list PageResponse -> Prop :=
| Paged_last view r a :
    get_messages_by_schema_id true view r = Some a -> follow_up r a = None -> paged [view] r [a]
| Paged_more view views r a r' l :
    get_messages_by_schema_id true view r = Some a -> follow_up r a = Some r' -> paged views r' l ->
    paged (view :: views) r (a :: l).
(** A later view of a chain that has grown from height [h]. *)
Definition grown (h : N) (v v' : N -> list MessageResponse) : Prop :=
  (forall b, b <= h -> v' b = v b) /\ (forall b, h < b -> v b = []).
