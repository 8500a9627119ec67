(** Vocabulary of properties C111-C114 of the composed runtime. *)
From Verif Require Import Prelude Sums CommonTypes MsaModel MsaSpec CapModel CapSpec HModel StModel StSpec ScModel FeeModel RtModel RtSpec.

(** Account [a] sends nothing in this step. *)
Definition not_by (a : N) (x : RtStep) : Prop :=
  match x with
  | STx t => tx_who t <> a
  | SPasskey p => pk_account p <> a
  | _ => True
  end.

(** The account has appointed no proxy and is not the account of a multisig. *)
Definition alone (cfg : RtCfg) (s : RtState) (a : N) : Prop :=
  rs_proxies s !! a = None /\ forall w others, r_multi cfg w others <> a.

(** All that account [a] has staked or is unstaking, and with whom. *)
Definition same_stake (a : N) (s s' : CapState) : Prop :=
  active s' a = active s a /\ chunks s' a = chunks s a /\ CapSpec.frozen s' a = CapSpec.frozen s a
  /\ forall m, targeted s' a m = targeted s a m /\ targeted_capacity s' a m = targeted_capacity s a m.

(** All tokens there are. *)
Definition total_tokens (s : RtState) : N := msum (fun _ b => b) (rs_bal s).

(** The MSA has a handle, is controlled by some key. *)
Definition has_handle (s : RtState) (m : N) : Prop := is_Some (hs_name (rs_h s) !! m).
Definition has_key (s : RtState) (m : N) : Prop := exists k, controls (rs_msa s) k m.

(** The proxy types whose purpose is narrow. *)
Definition narrow (t : ProxyType) : Prop := t = PGovernance \/ t = PCancelProxy \/ t = PStaking.

(** No call in the step, at any depth, stakes or withdraws unstaked tokens. *)
Definition no_staking (x : RtStep) : Prop :=
  forall c, c ∈ calls_of x -> match c with RCapacity (KStake _ _) | RCapacity KWithdraw => False | _ => True end.

(** The schema is registered, with this location. *)
Definition schema_at (s : RtState) (id : N) (loc : PayloadLocation) : Prop :=
  exists i, get_schema_info_by_id (rs_sc s) id = Some i /\ si_location i = loc.
(** What is stored under an MSA and a schema. *)
Definition stored_at (cfg : RtCfg) (s : RtState) (l : Loc) : Prop :=
  exists p, read (r_st cfg) (rs_st s) l = Ok (Some p).
