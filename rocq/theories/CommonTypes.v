(** Types shared by several pallets: common/primitives/src/schema.rs. *)
From Verif Require Import Prelude.

(** common/primitives/src/schema.rs:21-29 *)
Inductive ModelType := AvroBinary | Parquet.

(** common/primitives/src/schema.rs:31-43 *)
Inductive PayloadLocation := OnChain | IPFS | Itemized | Paginated.

Global Instance model_type_eq_dec : EqDecision ModelType.
Proof. solve_decision. Defined.
Global Instance payload_location_eq_dec : EqDecision PayloadLocation.
Proof. solve_decision. Defined.

(** common/primitives/src/schema.rs:45-61: the set of settings, a bit set with
    two members *)
Record SchemaSettings := { set_append_only : bool; set_signature_required : bool }.

(** common/primitives/src/schema.rs:80-92 [SchemaInfoResponse], without the id *)
Record SchemaInfo := {
  si_model_type : ModelType;
  si_location : PayloadLocation;
  si_settings : SchemaSettings
}.
