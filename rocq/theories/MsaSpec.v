(** Vocabulary of the MSA properties. *)
From Verif Require Import Prelude Scale SigModel MsaModel.

(** Key [k] controls MSA [m] (lookup of [PublicKeyToMsaId]). *)
Definition controls (st : MsaState) (k m : N) : Prop := ms_keys st !! k = Some m.

(** [l] is a complete duplicate-free list of the keys controlling [m]. *)
Definition keys_listing (st : MsaState) (m : N) (l : list N) : Prop :=
  NoDup l /\ forall k, k ∈ l <-> controls st k m.

(** The ids announced by MsaCreated events, in order. *)
Definition created_ids (log : list (N * KeyEvent)) : list N :=
  omap (fun e => match e.2 with EvMsaCreated m _ => Some m | _ => None end) log.

(** [m] has been issued. *)
Definition issued (st : MsaState) (m : N) : Prop := m ∈ created_ids (ms_log st).

(** A delegation of [d] to [p] passes the check made for the current block. *)
Definition delegation_ok (env : MsaEnv) (st : MsaState) (p d : N) : Prop :=
  is_ok (ensure_valid_delegation env st p d None) = true.

(** Schema [s] passes the grant check for the current block. *)
Definition schema_ok (env : MsaEnv) (st : MsaState) (p d s : N) : Prop :=
  is_ok (ensure_valid_schema_grant env st p d s (e_block env)) = true.

(** Signature [s] by key [k] over a payload. *)
Definition signed_by (cfg : MsaCfg) (s k : N) (payload : list N) : Prop :=
  c_verify cfg s k (wrap_binary_data payload) = true.

(** Every step is a transaction of its own. *)
Definition all_top (h : list MsaStep) : Prop := Forall (fun x => s_top x = true) h.

(** Blocks never decrease along the history and are at least [b]. *)
Fixpoint blocks_from (b : N) (h : list MsaStep) : Prop :=
  match h with
  | [] => True
  | x :: h' => b <= e_block (s_env x) /\ blocks_from (e_block (s_env x)) h'
  end.

(** The block of the last step, [b] if there is none. *)
Fixpoint last_block (b : N) (h : list MsaStep) : N :=
  match h with [] => b | x :: h' => last_block (e_block (s_env x)) h' end.

(** The highest registered schema id never decreases along the history. *)
Fixpoint schemas_from (b : N) (h : list MsaStep) : Prop :=
  match h with
  | [] => True
  | x :: h' => b <= e_max_schema (s_env x) /\ schemas_from (e_max_schema (s_env x)) h'
  end.

Fixpoint last_schema (b : N) (h : list MsaStep) : N :=
  match h with [] => b | x :: h' => last_schema (e_max_schema (s_env x)) h' end.

(** The step is a successful-looking grant from [d] to [p]: a grant_delegation
    naming [p], sent by a key of [p], carrying a valid signature of a key that
    controls [d] in state [st]. *)
Definition grant_step (cfg : MsaCfg) (st : MsaState) (x : MsaStep) (p d : N) (schemas : list N) : Prop :=
  exists who dkey proof pl,
    s_origin x = Signed who /\ s_call x = GrantDelegation dkey proof pl /\
    controls st who p /\ controls st dkey d /\ ap_msa pl = p /\ ap_schemas pl = schemas /\
    signed_by cfg proof dkey (enc_add_provider pl).

(** The fee-less calls whose success validation must guarantee. *)
Definition free_call (c : MsaCall) : Prop :=
  match c with
  | RevokeByDelegator _ | RevokeByProvider _ | DeletePublicKey _ | RetireMsa => True
  | _ => False
  end.

(** The same environment at another block. *)
Definition at_block (env : MsaEnv) (b : N) : MsaEnv :=
  {| e_block := b; e_max_schema := e_max_schema env; e_has_handle := e_has_handle env |}.

(** The delegation was active at some moment of block [b] of the history: the
    history can be cut so that the part before has only blocks up to [b], the
    part after only blocks from [b] on, and the check made at the cut passes. *)
Definition active_in_block (cfg : MsaCfg) (h : list MsaStep) (env : MsaEnv) (p d b : N) : Prop :=
  exists h1 h2, h = h1 ++ h2 /\
    Forall (fun x => e_block (s_env x) <= b) h1 /\
    Forall (fun x => b <= e_block (s_env x)) h2 /\
    delegation_ok (at_block env b) (msa_run cfg msa_genesis h1) p d.

(** The runtime's parameters (runtime/common/src/constants.rs:70-90) for a
    given signature scheme. *)
Definition runtime_cfg (verify : N -> N -> list N -> bool) : MsaCfg :=
  {| c_max_keys := 25; c_max_grants := 30; c_max_name := 16; c_window := 100;
     c_max_sigs := 50000; c_verify := verify |}.


(** The signatures a call carries, with the expiry of the payload they sign. *)
Definition carried (c : MsaCall) : list (N * N) :=
  match c with
  | CreateSponsored _ proof pl | GrantDelegation _ proof pl => [(proof, ap_exp pl)]
  | AddPublicKey _ oproof nproof pl => [(oproof, ak_exp pl); (nproof, ak_exp pl)]
  | _ => []
  end.

(** [s] is listed with a revocation block that does not exclude block [b]. *)
Definition listed_at (listing : res MsaErr (list (N * N))) (s b : N) : Prop :=
  exists l r, listing = Ok l /\ (s, r) ∈ l /\ (r = 0 \/ b <= r).

(** The step went through: admitted and dispatched without error. *)
Definition step_succeeds (cfg : MsaCfg) (st : MsaState) (x : MsaStep) : Prop :=
  (s_top x = true -> is_ok (msa_validate (s_env x) st (s_origin x) (s_call x)) = true) /\
  is_ok (msa_dispatch cfg (s_env x) st (s_origin x) (s_call x)) = true.
