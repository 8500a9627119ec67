(** Vocabulary of C153: taking all suffixes of a name. *)
From Verif Require Import Prelude Scale Utf8 HModel HSpec.

(** A claim, then [n] changes to the same name, all with the same signed
    payload and as transactions of [who] in the same block. *)
Definition hog (n : nat) (env : HEnv) (who key proof : N) (p : HPayload) : list HX :=
  let tx c := {| hx_env := env; hx_top := true; hx_origin := Some who; hx_call := c |} in
  tx (ClaimHandle key proof p) :: repeat (tx (ChangeHandle key proof p)) n.

(** No call of [h] claims a name with the form [b], or changes to one. *)
Definition other_names (cfg : HCfg) (b : list N) (h : list HX) : Prop :=
  Forall (fun x => forall k f p s, claim_of (hx_call x) = Some (k, f, p) -> from_utf8 (hp_base p) = Some s -> budget cfg s <> b) h.
