(** Vocabulary of the sealing properties. *)
From Verif Require Import Prelude SealModel.

(** At every turn of the loop the proposer finds room for at least one ready transaction. *)
Fixpoint makes_progress (mode : Mode) (st : Node) (h : list Happening) : Prop :=
  match h with
  | [] => True
  | x :: h' =>
      match x with
      | Turn _ pick => n_ready st <> [] -> exists t, t ∈ n_ready st /\ t ∈ pick
      | _ => True
      end /\ makes_progress mode (node_step mode st x) h'
  end.

Definition dropped (h : list Happening) (t : N) : Prop := exists ts, Gone ts ∈ h /\ t ∈ ts.
Definition imports (h : list Happening) : list N :=
  concat (map (fun x => match x with Imported t => [t] | _ => [] end) h).
(** How often clients asked for a block, how many transactions came, how often the timer
    ticked. *)
Definition asked (h : list Happening) : nat :=
  length (List.filter (fun x => match x with Rpc (SealNewBlock _ _ _) => true | _ => false end) h).
Definition ticks (h : list Happening) : nat := length (List.filter (fun x => match x with Tick => true | _ => false end) h).
(** No client asks for an empty block. *)
Definition none_asks_empty (h : list Happening) : Prop :=
  Forall (fun x => match x with Rpc (SealNewBlock true _ _) => False | _ => True end) h.
Definition sender_of (c : Cmd) : option N := match c with SealNewBlock _ _ s | FinalizeBlock _ s => s end.
