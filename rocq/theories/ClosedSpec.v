(** Vocabulary for MSAs that have been left. *)
From Verif Require Import Prelude CommonTypes MsaModel StModel MgModel RtModel MsaSpec StSpec RtSpec RtMoreSpec.

(** The MSA [m] has existed; now no key controls it, it has no handle, and no delegation of
    it is in force. *)
Definition closed (s : RtState) (m : N) : Prop :=
  issued (rs_msa s) m /\ (forall k, ~ controls (rs_msa s) k m) /\ ~ has_handle s m
  /\ (forall p, ~ delegation_ok (env_msa s) (rs_msa s) p m).

(** From [s] to [s'], nothing is stored under [m] or taken away, and no message is
    posted by [m] or in its name. *)
Definition nothing_new (cfg : RtCfg) (s s' : RtState) (m : N) : Prop :=
  (forall l, loc_ok l -> loc_msa l = m -> read (r_st cfg) (rs_st s') l = read (r_st cfg) (rs_st s) l)
  /\ (forall k msg, mg_messages (rs_mg s') !! k = Some msg -> ms_provider msg = m \/ ms_source msg = Some m ->
      mg_messages (rs_mg s) !! k = Some msg).
