(** Vocabulary of the stateful-storage properties. *)
From Verif Require Import Prelude Scale CommonTypes SigModel MsaModel MsaSpec StModel.

(** A place in storage: the items of an MSA under a schema, or one page. *)
Inductive Loc := ItemLoc (msa schema : N) | PageLoc (msa schema page : N).
Global Instance loc_eq_dec : EqDecision Loc.
Proof. solve_decision. Defined.

Definition loc_msa (l : Loc) : N := match l with ItemLoc m _ | PageLoc m _ _ => m end.
Definition loc_schema (l : Loc) : N := match l with ItemLoc _ s | PageLoc _ s _ => s end.
Definition loc_kind (l : Loc) : PayloadLocation := match l with ItemLoc _ _ => Itemized | PageLoc _ _ _ => Paginated end.

(** Ids that fit their types. *)
Definition loc_ok (l : Loc) : Prop :=
  match l with
  | ItemLoc m s => m <= u64_max /\ s <= u16_max
  | PageLoc m s p => m <= u64_max /\ s <= u16_max /\ p <= u16_max
  end.

(** What the pallet reads at a place: no page, a page, or an error. *)
Definition read (cfg : StCfg) (st : StState) (l : Loc) : res StErr (option Page) :=
  match l with
  | ItemLoc m s => get_itemized_page_for cfg st m s
  | PageLoc m s p => get_paginated_page_for cfg st m s p
  end.

(** The content hash of what is there: 0 if there is nothing. *)
Definition content_hash (cfg : StCfg) (p : option Page) : N :=
  match p with Some p => get_hash cfg p | None => 0 end.

(** What a call asks for: where, the hash it expects there, and the change. *)
Inductive Change := ChItems (actions : list ItemAction) | ChWrite (data : list N) | ChDelete.
Record Request := { rq_loc : Loc; rq_target : N; rq_change : Change }.

(** In the second version of the signed calls the owner is the MSA of the
    signing key. *)
Definition request (env : StEnv) (c : StCall) : option Request :=
  let owned k f := match ms_keys (v_msa env) !! k with Some m => Some (f m) | None => None end in
  match c with
  | ApplyItemActions m s h l => Some {| rq_loc := ItemLoc m s; rq_target := h; rq_change := ChItems l |}
  | UpsertPage m s p h d => Some {| rq_loc := PageLoc m s p; rq_target := h; rq_change := ChWrite d |}
  | DeletePage m s p h => Some {| rq_loc := PageLoc m s p; rq_target := h; rq_change := ChDelete |}
  | ApplyItemActionsWithSignature _ _ p =>
      Some {| rq_loc := ItemLoc (ip_msa p) (ip_schema p); rq_target := ip_hash p; rq_change := ChItems (ip_actions p) |}
  | UpsertPageWithSignature _ _ p =>
      Some {| rq_loc := PageLoc (up_msa p) (up_schema p) (up_page p); rq_target := up_hash p; rq_change := ChWrite (up_data p) |}
  | DeletePageWithSignature _ _ p =>
      Some {| rq_loc := PageLoc (dp_msa p) (dp_schema p) (dp_page p); rq_target := dp_hash p; rq_change := ChDelete |}
  | ApplyItemActionsWithSignatureV2 k _ p =>
      owned k (fun m => {| rq_loc := ItemLoc m (ip2_schema p); rq_target := ip2_hash p; rq_change := ChItems (ip2_actions p) |})
  | UpsertPageWithSignatureV2 k _ p =>
      owned k (fun m => {| rq_loc := PageLoc m (up2_schema p) (up2_page p); rq_target := up2_hash p; rq_change := ChWrite (up2_data p) |})
  | DeletePageWithSignatureV2 k _ p =>
      owned k (fun m => {| rq_loc := PageLoc m (dp2_schema p) (dp2_page p); rq_target := dp2_hash p; rq_change := ChDelete |})
  end.

(** The signature a call carries: key, signature, signed bytes, expiry. *)
Definition signature_of (c : StCall) : option (N * N * list N * N) :=
  match c with
  | ApplyItemActions _ _ _ _ | UpsertPage _ _ _ _ _ | DeletePage _ _ _ _ => None
  | ApplyItemActionsWithSignature k s p => Some (k, s, enc_itemized p, ip_exp p)
  | UpsertPageWithSignature k s p => Some (k, s, enc_upsert p, up_exp p)
  | DeletePageWithSignature k s p => Some (k, s, enc_delete p, dp_exp p)
  | ApplyItemActionsWithSignatureV2 k s p => Some (k, s, enc_itemized_v2 p, ip2_exp p)
  | UpsertPageWithSignatureV2 k s p => Some (k, s, enc_upsert_v2 p, up2_exp p)
  | DeletePageWithSignatureV2 k s p => Some (k, s, enc_delete_v2 p, dp2_exp p)
  end.

(** The call carries a valid signature, within its lifetime, by a key of [m]. *)
Definition owner_signed (cfg : StCfg) (env : StEnv) (c : StCall) (m : N) : Prop :=
  exists k s bytes exp,
    signature_of c = Some (k, s, bytes, exp) /\ controls (v_msa env) k m /\
    f_verify cfg s k (wrap_binary_data bytes) = true /\
    v_block env < exp /\ exp < (v_block env + f_window cfg) mod 4294967296.

(** The transaction is sent by a key of [m]. *)
Definition sent_by_owner (env : StEnv) (o : Origin) (m : N) : Prop :=
  exists who, o = Signed who /\ controls (v_msa env) who m.

(** The transaction is sent by a key of a provider to which [m] has granted
    the schema. *)
Definition sent_by_grantee (env : StEnv) (o : Origin) (m s : N) : Prop :=
  exists who p, o = Signed who /\ controls (v_msa env) who p /\ schema_ok (v_env env) (v_msa env) p m s.

(** The change removes content. *)
Definition removes (ch : Change) : Prop :=
  match ch with
  | ChItems l => exists i, Delete i ∈ l
  | ChWrite _ => False
  | ChDelete => True
  end.

(** Items and the bytes of a page that holds them: each item is preceded by its
    length in two bytes. *)
Definition item_bytes (it : list N) : list N := enc_u16 (len it) ++ it.
Definition page_bytes (items : list (list N)) : list N := concat (map item_bytes items).

(** What a list of actions asks for. *)
Definition deleted (l : list ItemAction) : list N := omap (fun a => match a with Delete i => Some i | Add _ => None end) l.
Definition added (l : list ItemAction) : list (list N) := omap (fun a => match a with Add d => Some d | Delete _ => None end) l.

(** Items with their indexes, from [k] on, and the items whose index is not in [ds]. *)
Fixpoint numbered (k : N) (items : list (list N)) : list (N * list N) :=
  match items with [] => [] | it :: items' => (k, it) :: numbered (k + 1) items' end.
Definition kept (items : list (list N)) (ds : list N) : list (list N) :=
  map snd (filter (fun x => x.1 ∉ ds) (numbered 0 items)).

(** [becomes cfg cur ch new]: a place that holds [cur] holds [new] after the
    change [ch]. Every write gets the next nonce (16 bits, 0 for no page); item
    actions drop the items at the deleted indexes and append the added ones; a
    page without items is no page. *)
Definition next_nonce (p : option Page) : N := (match p with Some p => pg_nonce p + 1 | None => 1 end) mod 65536.
Definition items_of (p : option Page) (items : list (list N)) : Prop :=
  match p with
  | Some p => pg_data p = page_bytes items /\ items <> [] /\ Forall (fun it => len it <= u16_max) items
  | None => items = []
  end.
Inductive becomes (cfg : StCfg) (cur : option Page) : Change -> option Page -> Prop :=
| becomes_write d : becomes cfg cur (ChWrite d) (Some {| pg_nonce := next_nonce cur; pg_data := d |})
| becomes_delete : becomes cfg cur ChDelete None
| becomes_items l items new :
    items_of cur items -> NoDup (deleted l) -> Forall (fun i => i < len items) (deleted l) ->
    items_of new (kept items (deleted l) ++ added l) ->
    match new with
    | Some p => pg_nonce p = next_nonce cur /\ len (pg_data p) <= f_max_item_page cfg
    | None => True
    end ->
    becomes cfg cur (ChItems l) new.

(** Parameters that fit their types (u32), with itemized pages small enough
    that their items can be counted in a u16 (two bytes per item at least). *)
Definition sizes_ok (cfg : StCfg) : Prop :=
  f_max_item_page cfg < 131072 /\ f_max_page cfg <= u32_max.

(** The hashes that form a child trie's name do not collide on MSA ids, and
    those of the two storage names differ; all have their fixed lengths. *)
Definition hashes_ok (cfg : StCfg) : Prop :=
  (forall a b, a <= u64_max -> b <= u64_max ->
     f_blake128 cfg (enc_u64 a ++ [58; 58]) = f_blake128 cfg (enc_u64 b ++ [58; 58]) -> a = b) /\
  (forall x, length (f_blake128 cfg x) = 16%nat) /\
  (forall x, length (f_twox64 cfg x) = 8%nat) /\
  f_twox64 cfg itemized_prefix <> f_twox64 cfg paginated_prefix /\
  (forall x, length (f_key cfg x) = f_key_len cfg).

(** The key hasher does not collide on the 65536 schema ids. *)
Definition key_hash_ok (cfg : StCfg) : Prop :=
  forall a b, a <= u16_max -> b <= u16_max -> f_key cfg (enc_u16 a) = f_key cfg (enc_u16 b) -> a = b.

(** MSA ids in the MSA pallet fit in u64 (true of every reachable state of it). *)
Definition env_ok (env : StEnv) : Prop := forall k m, controls (v_msa env) k m -> m <= u64_max.
Definition envs_ok (h : list StStep) : Prop := Forall (fun x => env_ok (x_env x)) h.

(** The place an event is about and the content hash it announces. *)
Definition event_loc (e : StEvent) : Loc :=
  match e with
  | ItemizedPageUpdated m s _ _ | ItemizedPageDeleted m s _ => ItemLoc m s
  | PaginatedPageUpdated m s p _ _ | PaginatedPageDeleted m s p _ => PageLoc m s p
  end.
Definition event_hash (e : StEvent) : N :=
  match e with
  | ItemizedPageUpdated _ _ _ c | PaginatedPageUpdated _ _ _ _ c => c
  | ItemizedPageDeleted _ _ _ | PaginatedPageDeleted _ _ _ _ => 0
  end.
Definition event_prev (e : StEvent) : N :=
  match e with
  | ItemizedPageUpdated _ _ h _ | PaginatedPageUpdated _ _ _ h _ => h
  | ItemizedPageDeleted _ _ h | PaginatedPageDeleted _ _ _ h => h
  end.
(** The hash announced last for a place (0 at the start). *)
Definition announced (events : list StEvent) (l : Loc) : N :=
  fold_left (fun h e => if bool_decide (event_loc e = l) then event_hash e else h) events 0.

(** The pages that were at a place at the start and after each step. *)
Fixpoint pages_seen (cfg : StCfg) (st : StState) (h : list StStep) (l : Loc) : list (res StErr (option Page)) :=
  read cfg st l :: match h with [] => [] | x :: h' => pages_seen cfg (st_step cfg st x) h' l end.

(** The page id of a request is within the limit. *)
Definition page_id_ok (cfg : StCfg) (l : Loc) : Prop :=
  match l with ItemLoc _ _ => True | PageLoc _ _ p => p <= f_max_page_id cfg end.
Definition max_size (cfg : StCfg) (l : Loc) : N :=
  match l with ItemLoc _ _ => f_max_item_page cfg | PageLoc _ _ _ => f_max_page cfg end.

(** The schema is known, is of the right kind, and its settings permit the
    change; [by_owner]: the owner signed for it. *)
Definition schema_permits (env : StEnv) (rq : Request) (by_owner : Prop) : Prop :=
  exists i, v_schema env (loc_schema (rq_loc rq)) = Some i /\ si_location i = loc_kind (rq_loc rq) /\
    (set_signature_required (si_settings i) = true -> by_owner) /\
    (set_append_only (si_settings i) = true -> ~ removes (rq_change rq)).

(** Who may make a change: the owner or a grantee, as sender of a plain call;
    anyone, with a call that carries the owner's signature. *)
Definition permitted (cfg : StCfg) (env : StEnv) (o : Origin) (c : StCall) (rq : Request) : Prop :=
  match signature_of c with
  | Some _ => (exists who, o = Signed who) /\ owner_signed cfg env c (loc_msa (rq_loc rq)) /\ schema_permits env rq True
  | None =>
      (sent_by_owner env o (loc_msa (rq_loc rq)) \/ sent_by_grantee env o (loc_msa (rq_loc rq)) (loc_schema (rq_loc rq))) /\
      schema_permits env rq (sent_by_owner env o (loc_msa (rq_loc rq)))
  end.

(** The request expects the content that is there; deleting what is not there
    is accepted (and does nothing) whatever was expected. *)
Definition expects (cfg : StCfg) (cur : option Page) (rq : Request) : Prop :=
  rq_target rq = content_hash cfg cur \/ (cur = None /\ rq_change rq = ChDelete).

(** No page, or one without data: places whose content hash is 0. *)
Definition vacant (r : res StErr (option Page)) : Prop :=
  match r with Ok (Some p) => pg_data p = [] | _ => True end.

(** Among the pages with data in the list, different ones have different hashes,
    and none has hash 0. *)
Definition no_collision (cfg : StCfg) (seen : list (res StErr (option Page))) : Prop :=
  (forall p, Ok (Some p) ∈ seen -> pg_data p <> [] -> get_hash cfg p <> 0) /\
  (forall p q, Ok (Some p) ∈ seen -> Ok (Some q) ∈ seen -> pg_data p <> [] -> pg_data q <> [] ->
     get_hash cfg p = get_hash cfg q -> p = q).

(** The schema is append-only throughout a history. *)
Definition append_only_in (s : N) (h : list StStep) : Prop :=
  Forall (fun x => exists i, v_schema (x_env x) s = Some i /\ set_append_only (si_settings i) = true) h.

(** Which of the nine calls it is. *)
Definition call_kind (c : StCall) : N :=
  match c with
  | ApplyItemActions _ _ _ _ => 0 | UpsertPage _ _ _ _ _ => 1 | DeletePage _ _ _ _ => 2
  | ApplyItemActionsWithSignature _ _ _ => 3 | UpsertPageWithSignature _ _ _ => 4 | DeletePageWithSignature _ _ _ => 5
  | ApplyItemActionsWithSignatureV2 _ _ _ => 6 | UpsertPageWithSignatureV2 _ _ _ => 7 | DeletePageWithSignatureV2 _ _ _ => 8
  end.
