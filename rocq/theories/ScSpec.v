(** Vocabulary for the schema properties. *)
From Verif Require Import Prelude CommonTypes ScModel.

(** ** Names *)
Definition lower (c : N) : N := if (65 <=? c) && (c <=? 90) then c + 32 else c.
Definition blank (c : N) : Prop := 9 <= c <= 13 \/ c = 32.
(** A word of a canonical name: lower case letters and inner hyphens. *)
Definition word (w : list N) : Prop :=
  Forall (fun c => 97 <= c <= 122 \/ c = 45) w /\ head w <> Some 45 /\ last w <> Some 45.
(** A canonical name. *)
Definition canonical (n : SchemaName) : Prop :=
  word (nm_namespace n) /\ 3 <= len (nm_namespace n) /\ word (nm_descriptor n) /\ 1 <= len (nm_descriptor n).
Definition full_name (n : SchemaName) : list N := nm_namespace n ++ [46] ++ nm_descriptor n.
(** [p] is [t] in any case, with blanks around it. *)
Definition spells (p t : list N) : Prop :=
  exists pre core post, p = pre ++ core ++ post /\ Forall blank pre /\ Forall blank post /\ map lower core = t.

(** ** What the events say *)
(** The ids announced as created, oldest first. *)
Definition created (st : ScState) : list N :=
  flat_map (fun e => match e with SchemaCreated _ id => [id] | _ => [] end) (sc_events st).
(** The ids announced under a name, oldest first. *)
Definition named (name : list N) (st : ScState) : list N :=
  flat_map (fun e => match e with SchemaNameCreated id nm => if bool_decide (nm = name) then [id] else [] | _ => [] end) (sc_events st).
(** The names announced for an id, oldest first. *)
Definition names_of (id : N) (st : ScState) : list (list N) :=
  flat_map (fun e => match e with SchemaNameCreated i nm => if i =? id then [nm] else [] | _ => [] end) (sc_events st).
(** The size limit announced last. *)
Definition announced_max (initial : N) (st : ScState) : N :=
  fold_left (fun cur e => match e with SchemaMaxSizeChanged n => n | _ => cur end) (sc_events st) initial.

(** ** What a call asks for *)
Record Request := {
  rq_model : list N; rq_type : ModelType; rq_location : PayloadLocation; rq_settings : list SchemaSetting; rq_name : option (list N)
}.
(** The schema a call creates, the key it is announced with, and whether the
    origin may use the call. *)
Definition creates (x : ScX) : option (Request * N * bool) :=
  let governed := match sx_origin x with ScRoot | ScCouncil => true | _ => false end in
  let signed := match sx_origin x with ScSigned _ => true | _ => false end in
  let signer := match sx_origin x with ScSigned who => who | _ => 0 end in
  match sx_call x with
  | CreateSchema m t l => Some ({| rq_model := m; rq_type := t; rq_location := l; rq_settings := []; rq_name := None |}, signer, signed)
  | CreateSchemaV2 m t l s => Some ({| rq_model := m; rq_type := t; rq_location := l; rq_settings := s; rq_name := None |}, signer, signed)
  | CreateSchemaV3 m t l s n => Some ({| rq_model := m; rq_type := t; rq_location := l; rq_settings := s; rq_name := n |}, signer, signed)
  | CreateSchemaViaGovernance k m t l s => Some ({| rq_model := m; rq_type := t; rq_location := l; rq_settings := s; rq_name := None |}, k, governed)
  | CreateSchemaViaGovernanceV2 k m t l s n => Some ({| rq_model := m; rq_type := t; rq_location := l; rq_settings := s; rq_name := n |}, k, governed)
  | _ => None
  end.

(** The name a payload stands for. *)
Definition means (p : list N) (n : SchemaName) : Prop := len p <= 32 /\ canonical n /\ spells p (full_name n).

(** A name may be given to one more schema. *)
Definition name_free (st : ScState) (n : SchemaName) : Prop := len (named (full_name n) st) < 254.

(** When a schema may be created. *)
Definition creatable (cfg : ScCfg) (st : ScState) (r : Request) : Prop :=
  sf_valid_model cfg (rq_type r) (rq_model r) = true
  /\ sf_min_bytes cfg <= len (rq_model r) <= sf_hard_max cfg /\ len (rq_model r) <= sc_max_bytes st
  /\ len (rq_settings r) <= sf_max_settings cfg
  /\ (AppendOnly ∈ rq_settings r -> rq_location r = Itemized)
  /\ len (created st) < 65535
  /\ (forall p, rq_name r = Some p -> exists n, means p n /\ name_free st n).

(** What a query answers for a created schema. *)
Definition response (r : Request) : SchemaResponse :=
  {| sr_model := rq_model r; sr_model_type := rq_type r; sr_location := rq_location r;
     sr_settings := (if bool_decide (AppendOnly ∈ rq_settings r) then [AppendOnly] else [])
                    ++ (if bool_decide (SignatureRequired ∈ rq_settings r) then [SignatureRequired] else []) |}.

(** The version list of a name: ids in order, versions from 1. *)
Definition versions (name : list N) (ids : list N) : list VersionResponse :=
  imap (fun i id => {| vr_name := name; vr_id := id; vr_version := N.of_nat i + 1 |}) ids.

(** The governance call a proposal asks the council for. *)
Definition proposed (who : N) (c : ScCall) : option ScCall :=
  match c with
  | ProposeToCreateSchema m t l s => Some (CreateSchemaViaGovernance who m t l s)
  | ProposeToCreateSchemaV2 m t l s n => Some (CreateSchemaViaGovernanceV2 who m t l s n)
  | ProposeToCreateSchemaName id n => Some (CreateSchemaNameViaGovernance id n)
  | _ => None
  end.
