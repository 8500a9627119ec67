(** Vocabulary for what limits the number of transactions. *)
From Verif Require Import Prelude Sums MsaModel CapModel HModel FeeModel RtModel.
From Verif Require Import FeeSpec RtSpec.

(** The calls that a transaction pays for with capacity. *)
Definition pays_with_capacity (c : RtCall) : option (list RtCall) :=
  match c with RPay x => Some [x] | RPayBatch l => Some l | _ => None end.

(** The fees of the capacity transactions of the history that were included and
    whose signer's key belongs to MSA [m], in order. *)
Fixpoint capacity_fees (cfg : RtCfg) (m : N) (s : RtState) (h : list RtStep) : list N :=
  match h with
  | [] => []
  | x :: h' =>
      match x with
      | STx t =>
          match pays_with_capacity (tx_call t) with
          | Some calls =>
              if is_ok (tx_apply cfg s t) && bool_decide (ms_keys (rs_msa s) !! tx_who t = Some m)
              then [capacity_fee calls (tx_len t)] else []
          | None => []
          end
      | _ => []
      end ++ capacity_fees cfg m (rt_step cfg s x) h'
  end.

(** Encoded lengths are u32. *)
Definition lengths_ok (h : list RtStep) : Prop :=
  Forall (fun x => match x with STx t => tx_len t <= u32_max | _ => True end) h.

(** The entries of a map that satisfy [p], counted. *)
Definition count_if {K A} `{Countable K} (p : A -> bool) (m : gmap K A) : N :=
  msum (fun _ v => if p v then 1 else 0) m.
(** What free transactions undo: keys of MSAs, delegations that are not revoked
    and handles. *)
Definition things (s : RtState) : N :=
  count_if (fun _ => true) (ms_keys (rs_msa s)) + count_if (fun dg => dg_revoked dg =? 0) (ms_deleg (rs_msa s))
  + count_if (fun _ => true) (hs_name (rs_h s)).

(** How many free transactions of the history were included and succeeded. *)
Fixpoint free_successes (cfg : RtCfg) (s : RtState) (h : list RtStep) : N :=
  match h with
  | [] => 0
  | x :: h' =>
      match x with
      | STx t =>
          match tx_apply cfg s t with
          | Ok (_, None) => if is_pays_no_call (tx_call t) then 1 else 0
          | _ => 0
          end
      | _ => 0
      end + free_successes cfg (rt_step cfg s x) h'
  end.

(** The calls in the transactions of the history that are not free, those inside
    batches and other wrappers counted one by one. *)
Definition paid_calls (h : list RtStep) : list RtCall :=
  concat (map (fun x => match x with STx t => if is_pays_no_call (tx_call t) then [] else leaves (tx_call t) | _ => [] end) h).
