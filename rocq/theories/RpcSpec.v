(** Vocabulary for the answers of the node's RPC methods (C130-C132). *)
From Verif Require Import Prelude Scale Utf8 CommonTypes SigModel MsaModel HModel ScModel StModel MgModel FeeModel RtModel.
From Verif Require Import StSpec HSpec.

(** A block number that marks an end: 0 for none, otherwise the last block in
    which the thing was still valid. *)
Definition not_ended (r b : N) : Prop := r = 0 \/ b <= r.

(** In block [b], MSA [d] delegates to the provider [p]; with a schema: and
    grants it. *)
Definition grant_at (s : RtState) (d p b : N) (schema : option N) : Prop :=
  exists dg, ms_deleg (rs_msa s) !! (d, p) = Some dg /\ not_ended (dg_revoked dg) b
    /\ forall x, schema = Some x -> exists r, dg_perms dg !! x = Some r /\ not_ended r b.

(** The call claims a name with the base [bytes], or changes to it, for the MSA of
    the key [k]. *)
Inductive asks_for : HCall -> N -> list N -> Prop :=
| asks_claim k f p : asks_for (ClaimHandle k f p) k (hp_base p)
| asks_change k f p : asks_for (ChangeHandle k f p) k (hp_base p).

(** The name in the answer to handles_getHandleForMsa, as it is displayed, and
    the text that a client types for these bytes. *)
Definition full_name_of (r : HResponse) : list N := display (hr_base r) (hr_suffix r).
Definition typed_as (text : list N) (bytes : list N) : Prop := Forall scalar text /\ utf8 text = bytes.

(** A list of pages has an entry for the page with this content hash. *)
Definition listed (l : list (N * N * N * list N)) (page hash : N) : Prop := exists n data, (page, hash, n, data) ∈ l.
