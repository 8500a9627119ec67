(** The tokens at the start of the main network. *)
From Verif Require Import Prelude MsaModel TrModel CapModel RtModel.

(** runtime/common/src/constants.rs:16, 45-46 *)
Definition DOLLARS : N := 10 ^ 8.
(** node/service/src/chain_spec/frequency.rs:234-385: what each of the accounts gets, in
    order. The accounts themselves are left open. *)
Definition mainnet_amounts : list N := map (fun n => n * DOLLARS)
  [ 49999700; 100; 100; 100; 399999700; 100; 100; 100; 19999700; 100; 100; 100;
    529988600; 200; 200; 200; 200; 200; 200; 200 ].
(** frequency.rs:417 with pallet_balances: the accounts must be different *)
Definition mainnet_balances (accounts : list N) : gmap N N := list_to_map (zip accounts mainnet_amounts).
(** frequency.rs:445-446: schemas and time release with their defaults (no vesting) *)
Definition mainnet_start (accounts : list N) : RtState := rt_genesis (mainnet_balances accounts) 1024.
