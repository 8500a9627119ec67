(** Vocabulary for decisions of the council. *)
From Verif Require Import Prelude CommonTypes MsaModel ScModel RtModel CoModel.

(** The steps of a history, each with the state it met. *)
Fixpoint trace (cfg : RtCfg) (s : CoState) (h : list CoStep) : list (CoState * CoStep) :=
  match h with [] => [] | x :: h => (s, x) :: trace cfg (co_step cfg s x) h end.

(** Those whose last word on motion number [i] is [side], who were members ever since. *)
Definition word (cfg : RtCfg) (i : N) (side : bool) (acc : gset N) (e : CoState * CoStep) : gset N :=
  match e.2 with
  | KOp (OVote a c j b) =>
      if is_ok (co_apply cfg e.1 (OVote a c j b)) && (j =? i) then (if Bool.eqb b side then {[a]} ∪ acc else acc ∖ {[a]}) else acc
  | KOp (OSetMembers new p) => if is_ok (co_apply cfg e.1 (OSetMembers new p)) then acc ∩ list_to_set new else acc
  | _ => acc
  end.
Definition in_favour (cfg : RtCfg) (i : N) (s : CoState) (h : list CoStep) : gset N := fold_left (word cfg i true) (trace cfg s h) ∅.
Definition against (cfg : RtCfg) (i : N) (s : CoState) (h : list CoStep) : gset N := fold_left (word cfg i false) (trace cfg s h) ∅.

(** The step that made motion number [i], the block it was in, and the seats at the time. *)
Definition makes (cfg : RtCfg) (i : N) (acc : option (N * N * CoStep)) (e : CoState * CoStep) : option (N * N * CoStep) :=
  match acc with
  | Some r => Some r
  | None =>
      if (co_count (k_co e.1) =? i) && (co_count (k_co (co_step cfg e.1 e.2)) =? i + 1)
      then Some (rs_block (k_rt e.1), len (co_members (k_co e.1)), e.2) else None
  end.
Definition made (cfg : RtCfg) (i : N) (s : CoState) (h : list CoStep) : option (N * N * CoStep) := fold_left (makes cfg i) (trace cfg s h) None.

(** The call of governance that somebody's proposal asks for. *)
Definition for_council (who : N) (c : ScCall) : option ScCall :=
  match c with
  | ProposeToCreateSchema model mt loc settings => Some (CreateSchemaViaGovernance who model mt loc settings)
  | ProposeToCreateSchemaV2 model mt loc settings name => Some (CreateSchemaViaGovernanceV2 who model mt loc settings name)
  | ProposeToCreateSchemaName id name => Some (CreateSchemaNameViaGovernance id name)
  | _ => None
  end.
Definition asks (x : CoStep) (c : CoCall) : Prop :=
  match x with
  | KOp (OProposeProvider who name) => c = CoProvider who name
  | KOp (OProposeSchema who p) => exists g, for_council who p = Some g /\ c = CoSchemas g
  | KOp (OPropose who _ c') => c = c'
  | _ => False
  end.

(** How many have to be in favour: one for a provider, more than half for schemas. *)
Definition enough (c : CoCall) (n seats : N) : Prop :=
  match c with CoProvider _ _ => 1 <= n | CoSchemas _ => seats < 2 * n | CoOther _ => False end.
Definition governance_call (c : CoCall) : option GovCall :=
  match c with CoProvider k name => Some (GProvider k name) | CoSchemas c => Some (GSchemas false c) | CoOther _ => None end.

(** The votes with which a motion made in this way passes without further ado. *)
Definition passes_with (x : CoStep) (seats : N) : N :=
  match x with KOp (OProposeProvider _ _) => 1 | KOp (OProposeSchema _ _) => seats / 2 + 1 | KOp (OPropose _ t _) => t | _ => 0 end.

(** Providers, schemas and their names. *)
Definition registry (s : RtState) :=
  (ms_prov (rs_msa s), ScModel.sc_count (rs_sc s), sc_infos (rs_sc s), sc_models (rs_sc s), sc_names (rs_sc s)).

(** The council decides for [c], by step [x] after the history [h], with [n] of its
    members: a member alone, or those in favour of a motion for [c] that somebody
    made. After five days, if the prime member is in favour, all who are not against
    count as being in favour. *)
Definition decided (cfg : RtCfg) (s0 : CoState) (h : list CoStep) (x : CoStep) (c : CoCall) (n : N) : Prop :=
  let s := co_run cfg s0 h in
  let size_ X := N.of_nat (size (X : gset N)) in
  (exists who t, x = KOp (OPropose who t c) /\ t < 2 /\ who ∈ co_members (k_co s) /\ n = 1)
  \/ exists i b seats y,
       x = KOp (OClose c i) /\ made cfg i s0 h = Some (b, seats, y) /\ asks y c
       /\ (forall a, a ∈ in_favour cfg i s0 h -> a ∈ co_members (k_co s))
       /\ (n = size_ (in_favour cfg i s0 h)
           \/ b + 36000 <= rs_block (k_rt s) /\ (exists p, co_prime (k_co s) = Some p /\ p ∈ in_favour cfg i s0 h)
              /\ n + size_ (against cfg i s0 h) = len (co_members (k_co s))).

(** Motion number [i], for [c], is before the council. *)
Definition open_motion (s : CoState) (c : CoCall) (i : N) : Prop := exists v, motion (co_motions (k_co s)) c = Some v /\ v_index v = i.
