(** Vocabulary for leaving: what somebody does to get rid of an MSA. *)
From Verif Require Import Prelude Sums MsaModel RtModel.

(** A new block, or a free transaction of account [k]. *)
Definition free_step (k relay : N) (x : RtStep) : Prop :=
  match x with
  | SBlock r => r = relay
  | STx t => tx_who t = k /\ is_pays_no_call (tx_call t) = true
  | _ => False
  end.
Definition new_blocks (h : list RtStep) : N := sumN (map (fun x => match x with SBlock _ => 1 | _ => 0 end) h).
Definition transactions (h : list RtStep) : N := sumN (map (fun x => match x with STx _ => 1 | _ => 0 end) h).

(** Calls that are marked as free cost nothing without a tip. *)
Definition free_is_free (fee : RtCall -> N -> N -> N) : Prop := forall c n, is_pays_no_call c = true -> fee c n 0 = 0.
