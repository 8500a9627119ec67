(** Vocabulary of the runtime properties. *)
From Verif Require Import Prelude MsaModel MsaSpec CapModel CapSpec HModel ScModel FeeModel RtModel FeeSpec.

(** The calls at the leaves of a call tree: those that are not wrappers around
    others. *)
Fixpoint leaves (c : RtCall) : list RtCall :=
  match c with
  | RUtility _ l | RPayBatch l => concat (map leaves l)
  | RPay c | RProxy _ _ c | RMultisig1 _ c => leaves c
  | _ => [c]
  end.
(** Not a wrapper. *)
Definition plain (c : RtCall) : Prop :=
  match c with RUtility _ _ | RPayBatch _ | RPay _ | RProxy _ _ _ | RMultisig1 _ _ => False | _ => True end.

(** All calls of a tree. *)
Fixpoint subcalls (c : RtCall) : list RtCall :=
  c :: match c with
       | RUtility _ l | RPayBatch l => concat (map subcalls l)
       | RPay c | RProxy _ _ c | RMultisig1 _ c => subcalls c
       | _ => []
       end.

(** The call of a step, the passkey's included. *)
Definition call_of (x : RtStep) : option RtCall :=
  match x with STx t => Some (tx_call t) | SPasskey p => Some (pk_call p) | _ => None end.
Definition calls_of (x : RtStep) : list RtCall := match call_of x with Some c => leaves c | None => [] end.

(** Relay chain block numbers never decrease along the history. *)
Fixpoint relays_from (r : N) (h : list RtStep) : Prop :=
  match h with
  | [] => True
  | SBlock r' :: h' => r <= r' /\ relays_from r' h'
  | _ :: h' => relays_from r h'
  end.

(** The call moves tokens between accounts. *)
Definition moves_tokens (c : RtCall) : Prop :=
  match c with RBalances _ | RTime (VTransfer _ _) => True | _ => False end.

(** What the MSA can spend now: what remains, or what was issued if the epoch is
    new to it. *)
Definition spendable (st : CapState) (m : N) : N :=
  if last_replenished st m <? cs_epoch st then issued st m else remaining st m.

(** Calls that the batch rules block: batches and capacity payments in a batch,
    creating providers and schemas, and calls free of charge. *)
Definition blocked (c : RtCall) : Prop :=
  match c with
  | RUtility _ _ | RPay _ | RPayBatch _ => True
  | RMsa (CreateProvider _) | RSchemas (CreateSchema _ _ _) | RSchemas (CreateSchemaV2 _ _ _ _) | RSchemas (CreateSchemaV3 _ _ _ _ _) => True
  | RMsa (RevokeByDelegator _) | RMsa (DeletePublicKey _) | RMsa (RevokeByProvider _) | RMsa RetireMsa | RHandles RetireHandle => True
  | _ => False
  end.

(** The calls ran by the account, each on the result of the one before. *)
Fixpoint all_ran (cfg : RtCfg) (who : N) (l : list RtCall) (st st' : RtState) : Prop :=
  match l with
  | [] => st' = st
  | c :: l' => exists s1, rt_dispatch cfg c (signed who) st = Ok s1 /\ all_ran cfg who l' s1 st'
  end.

(** A multisig call somewhere in the tree. *)
Definition no_multisig (c : RtCall) : Prop := Forall (fun x => match x with RMultisig1 _ _ => False | _ => True end) (subcalls c).

(** What a capacity transaction of [n] bytes costs (C82_charge). *)
Definition capacity_fee (calls : list RtCall) (n : N) : N := 177812 + price (total_time calls) + 10000 * n.

(** The two states differ at most in nonces and in capacity. *)
Definition same_but_fee (s s' : RtState) : Prop := s' = up_cap_ (up_nonce_ s (rs_nonce s')) (rs_cap s').

(** No call of the history wraps others. *)
Definition all_plain (h : list RtStep) : Prop := Forall (fun x => match call_of x with Some c => plain c | None => True end) h.
