(** Vocabulary of the fee properties. *)
From Verif Require Import Prelude MsaModel StModel HModel MgModel FeeModel RtModel.

(** The calls of the batch or the single call that a capacity transaction
    wraps. *)
Definition wraps (c : RtCall) (calls : list RtCall) : Prop :=
  (exists x, c = RPay x /\ calls = [x]) \/ c = RPayBatch calls.
(** The calls that may be paid for with capacity: adding a key, creating an
    account for a user, being delegated to, messages, the writes to stateful
    storage, claiming and changing a handle. *)
Definition payable (c : RtCall) : Prop :=
  match c with
  | RMsa (AddPublicKey _ _ _ _) | RMsa (CreateSponsored _ _ _) | RMsa (GrantDelegation _ _ _) => True
  | RMessages (AddIpfsMessage _ _ _) | RMessages (AddOnchainMessage _ _ _) => True
  | RStorage _ => True
  | RHandles (ClaimHandle _ _ _) | RHandles (ChangeHandle _ _ _) => True
  | _ => False
  end.
Definition eligible (calls : list RtCall) : Prop := Forall payable calls.
(** The total execution time by the stable weights. *)
Definition total_time (calls : list RtCall) : N :=
  foldr (fun c acc => w_time (default w_zero (get_stable_weight c)) + acc) 0 calls.
Definition total_proof (calls : list RtCall) : N :=
  foldr (fun c acc => w_proof (default w_zero (get_stable_weight c)) + acc) 0 calls.
(** The price of an execution time, capped at that of a full block:
    1686141 billionths of a unit each, rounded to the nearest. *)
Definition price (t : N) : N := (1686141 * N.min t 500000000000 + 499999999) / 1000000000.
