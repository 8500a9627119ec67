(** Vocabulary for paying fees with tokens. *)
From Verif Require Import Prelude CapModel TrModel FeeModel RtModel.

(** [w] can pay the fee of the transaction without touching what is frozen, and stay alive. *)
Definition affordable (cfg : RtCfg) (s : RtState) (w : N) (c : RtCall) (n tip : N) : Prop :=
  r_token_fee cfg c n tip + N.max (frozen s w) (r_ed cfg) <= balance s w.

(** Only the calls that are meant to be free cost nothing. *)
Definition fees_charged (cfg : RtCfg) : Prop := forall c n tip, is_pays_no_call c = false -> 0 < r_token_fee cfg c n tip.

(** A new block, or something that [w] sends itself. *)
Definition own_step (w : N) (x : RtStep) : Prop :=
  match x with SBlock _ => True | STx t => tx_who t = w | SPasskey p => pk_account p = w | SGov _ => False end.
