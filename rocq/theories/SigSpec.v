(** What the signature registry is supposed to do, stated on the history of
    accepted signatures only (no linked list, no pointer). *)
From Verif Require Import Prelude SigModel.

(** Blocks do not go backwards. *)
Definition blocks_nondecreasing (h : list SigEv) : Prop :=
  forall i j a b, (i <= j)%nat -> h !! i = Some a -> h !! j = Some b -> se_block a <= se_block b.

(** The signatures accepted so far, oldest first, with their expiry. The
    remembered ones are the last [maxsig] of them. *)
Definition remembered (maxsig : N) (acc : list (N * N)) : list (N * N) :=
  drop (length acc - N.to_nat maxsig) acc.

(** The intended decision: [None] means accept. The end of the acceptance
    window is block + window, in 32-bit arithmetic. *)
Definition spec_decide (maxsig window : N) (acc : list (N * N)) (ev : SigEv) : option SigErr :=
  if (se_block ev + window) mod 4294967296 <=? se_exp ev then Some ProofNotYetValid
  else if se_exp ev <=? se_block ev then Some ProofHasExpired
  else if bool_decide (se_sig ev ∈ (remembered maxsig acc).*1) then Some SignatureAlreadySubmitted
  else match remembered maxsig acc with
       | (_, oldest_exp) :: _ =>
           if (len (remembered maxsig acc) =? maxsig) && (se_block ev <=? oldest_exp)
           then Some SignatureRegistryLimitExceeded else None
       | [] => None
       end.

Fixpoint spec_run (maxsig window : N) (acc : list (N * N)) (h : list SigEv) : list (option SigErr) :=
  match h with
  | [] => []
  | ev :: h' =>
      match spec_decide maxsig window acc ev with
      | None => None :: spec_run maxsig window (acc ++ [(se_sig ev, se_exp ev)]) h'
      | Some e => Some e :: spec_run maxsig window acc h'
      end
  end.
