(** Vocabulary for erasing one's data. *)
From Verif Require Import Prelude CommonTypes ScModel StModel StSpec RtModel.

(** The storage calls [cs], sent by the account [k] one after the other, are all accepted
    and lead from [s] to the result. *)
Fixpoint all_accepted (cfg : RtCfg) (k : N) (cs : list StCall) (s : RtState) : option RtState :=
  match cs with
  | [] => Some s
  | c :: cs => match rt_dispatch cfg (RStorage c) (signed k) s with Ok s1 => all_accepted cfg k cs s1 | Err _ => None end
  end.

(** The schema [x] is not one whose data can only be added to. *)
Definition append_only (s : RtState) (x : N) : Prop :=
  exists i, get_schema_info_by_id (rs_sc s) x = Some i /\ set_append_only (si_settings i) = true.
