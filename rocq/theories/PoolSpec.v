(** Vocabulary of the properties of the transaction pool. *)
From Verif Require Import Prelude MsaModel HModel FeeModel RtModel PoolModel.

Definition sender (x : PoolTx) : N := match x with PSigned t => tx_who t | PPasskey p => pk_account p end.
Definition nonce_of (x : PoolTx) : N := match x with PSigned t => tx_nonce t | PPasskey p => pk_nonce p end.
Definition call_in (x : PoolTx) : RtCall := match x with PSigned t => tx_call t | PPasskey p => pk_call p end.
(** The same transaction with another nonce *)
Definition with_nonce (n : N) (x : PoolTx) : PoolTx :=
  match x with
  | PSigned t => PSigned {| tx_who := tx_who t; tx_nonce := n; tx_call := tx_call t; tx_len := tx_len t; tx_tip := tx_tip t |}
  | PPasskey p => PPasskey {| pk_public_key := pk_public_key p; pk_signature := pk_signature p; pk_account := pk_account p;
                              pk_nonce := n; pk_proof := pk_proof p; pk_call := pk_call p |}
  end.
(** The same transaction with another tip *)
Definition with_tip (tip : N) (t : Tx) : Tx :=
  {| tx_who := tx_who t; tx_nonce := tx_nonce t; tx_call := tx_call t; tx_len := tx_len t; tx_tip := tip |}.
(** Accounts have 32 bytes, nonces four. *)
Definition fits (x : PoolTx) : Prop := sender x < 2 ^ 256 /\ nonce_of x <= u32_max.

(** The kinds of free MSA calls *)
Inductive FreeKind := FRevokeByDelegator | FRevokeByProvider | FDeleteKey | FRetireMsa.
Definition free_kind (x : PoolTx) : option FreeKind :=
  match x with
  | PSigned t =>
      match tx_call t with
      | RMsa (RevokeByDelegator _) => Some FRevokeByDelegator
      | RMsa (RevokeByProvider _) => Some FRevokeByProvider
      | RMsa (DeletePublicKey _) => Some FDeleteKey
      | RMsa RetireMsa => Some FRetireMsa
      | _ => None
      end
  | PPasskey _ => None
  end.

(** A pool: transactions with the validity that the runtime gave them, in the order
    in which they can go into a block, and those that wait for others. *)
Record Entry := { e_tx : PoolTx; e_valid : Validity }.
Record Pool := { p_ready : list Entry; p_future : list Entry }.

(** What sc-transaction-pool (a dependency) guarantees. Every transaction was
    validated at the best block; what a ready transaction requires is provided by
    ready transactions before it; no two ready transactions provide the same tag;
    a future transaction requires something that no ready transaction provides. *)
Record pool_rules (cfg : RtCfg) (prio : RtCall -> N -> N -> N -> N) (st : RtState) (p : Pool) : Prop := {
  pr_validated : forall e, e ∈ p_ready p ++ p_future p -> pool_validate cfg prio st (e_tx e) = Ok (e_valid e);
  pr_fits : forall e, e ∈ p_ready p ++ p_future p -> fits (e_tx e);
  pr_order : forall pre e post tag, p_ready p = pre ++ e :: post -> tag ∈ v_requires (e_valid e) ->
             exists e', e' ∈ pre /\ tag ∈ v_provides (e_valid e');
  pr_unique : forall i j e e' tag, p_ready p !! i = Some e -> p_ready p !! j = Some e' ->
             tag ∈ v_provides (e_valid e) -> tag ∈ v_provides (e_valid e') -> i = j;
  pr_future : forall e, e ∈ p_future p -> exists tag, tag ∈ v_requires (e_valid e)
             /\ forall e', e' ∈ p_ready p -> tag ∉ v_provides (e_valid e')
}.

(** The account has a transaction with this nonce in the pool. *)
Definition pending (p : Pool) (a n : N) : Prop :=
  exists e, e ∈ p_ready p ++ p_future p /\ sender (e_tx e) = a /\ nonce_of (e_tx e) = n.
(** A nonce that some later transaction of the account waits for. *)
Definition missing (st : RtState) (p : Pool) (a n : N) : Prop :=
  nonce st a <= n /\ ~ pending p a n /\ exists m, n < m /\ pending p a m.
(** No two waiting transactions of the account have the same nonce. *)
Definition distinct_future (p : Pool) (a : N) : Prop :=
  forall i j e e', p_future p !! i = Some e -> p_future p !! j = Some e' ->
  sender (e_tx e) = a -> sender (e_tx e') = a -> nonce_of (e_tx e) = nonce_of (e_tx e') -> i = j.
(** The answer of the RPC for this pool *)
Definition missing_nonces (st : RtState) (p : Pool) (a : N) : list N :=
  get_missing_nonces (map (fun e => v_provides (e_valid e)) (p_ready p))
    (map (fun e => v_provides (e_valid e)) (p_future p)) a (nonce st a).
