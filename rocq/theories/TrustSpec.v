(** Vocabulary for how keys come to an MSA. *)
From Verif Require Import Prelude CommonTypes MsaModel MsaSpec RtModel ConsentSpec.

Section trust.
Variable cfg : RtCfg.
Variable m : N.

(** The deed creates MSA [m] with key [k]: [k] does it, or signs that a provider may. *)
Definition founded (g : Deed) (k : N) : Prop :=
  m = ms_max (rs_msa (at_ g)) + 1
  /\ ((what g = RMsa Create /\ by_ g = k)
      \/ exists proof pl, what g = RMsa (CreateSponsored k proof pl) /\ signed_by (r_msa cfg) proof k (enc_add_provider pl)
           /\ controls (rs_msa (at_ g)) (by_ g) (ap_msa pl)).

(** The deed adds key [k] to MSA [m]: a key [okey] of the MSA, and [k] itself, signed
    that it be so. *)
Definition vouched (g : Deed) (okey k : N) : Prop :=
  exists oproof nproof pl,
    what g = RMsa (AddPublicKey okey oproof nproof pl) /\ ak_msa pl = m /\ ak_key pl = k
    /\ controls (rs_msa (at_ g)) okey m
    /\ signed_by (r_msa cfg) oproof okey (enc_add_key pl) /\ signed_by (r_msa cfg) nproof k (enc_add_key pl).

(** Among the deeds there is, in this order, the creation of the MSA and a chain of keys,
    each of which signed for the next, up to [k]. *)
Inductive trusted : list Deed -> N -> Prop :=
| by_founding before g after k : founded g k -> trusted (before ++ g :: after) k
| by_vouching before g after okey k : trusted before okey -> vouched g okey k -> trusted (before ++ g :: after) k.

(** [k] is the only key of the MSA. *)
Definition sole_key (s : RtState) (k : N) : Prop := forall k', controls (rs_msa s) k' m <-> k' = k.
End trust.
