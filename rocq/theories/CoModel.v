(** The council as far as it makes providers and schemas:
    runtime/frequency/src/lib.rs:100-127 (CouncilProposalProvider), 497-500 and
    534-537 (the governance origins), 664-679 (the council's configuration),
    pallets/msa/src/lib.rs:862-907, pallets/schemas/src/lib.rs:338-656 (the calls
    that propose), on top of the runtime of RtModel.

    Simplifications. The council itself is pallet_collective of Substrate, which
    is not in the repository and is modelled here from its documentation: motions,
    votes, closing, the prime member. A motion is identified by the call it
    carries out, not by its hash. Lengths and weights given when closing are
    taken to be right. Motions for calls other than the governance calls of the MSA
    and schemas pallets ([CoOther]; also batches, scheduled calls and referenda)
    are voted on but change nothing here. Fees of these transactions are left out;
    a proposal submitted with a transaction of RtModel is the step [KOp] here. *)
From Verif Require Import Prelude CommonTypes MsaModel ScModel RtModel.

(** The calls a motion may carry out: create_provider_via_governance
    (msa/src/lib.rs:895), those of the schemas pallet, others. *)
Inductive CoCall := CoProvider (key : N) (name : list N) | CoSchemas (c : ScCall) | CoOther (n : N).
Global Instance sc_call_eq_dec : EqDecision ScCall.
Proof. solve_decision. Defined.
Global Instance co_call_eq_dec : EqDecision CoCall.
Proof. solve_decision. Defined.

Inductive CoErr :=
| CoNotMember | CoDuplicateProposal | CoProposalMissing | CoWrongIndex | CoDuplicateVote | CoTooManyProposals | CoTooEarly
| CoPrimeNotMember | CoPallet.

(** pallet_collective: [Votes], and the storage [Members], [Prime], [ProposalCount],
    and [Proposals], [ProposalOf], [Voting] in one list *)
Record Votes := { v_index : N; v_threshold : N; v_ayes : list N; v_nays : list N; v_end : N }.
Record Council := { co_members : list N; co_prime : option N; co_count : N; co_motions : list (CoCall * Votes) }.

(** The state of the chain with its council. *)
Record CoState := { k_rt : RtState; k_co : Council }.
Definition co_start (members : list N) (prime : option N) (rt : RtState) : CoState :=
  {| k_rt := rt; k_co := {| co_members := members; co_prime := prime; co_count := 0; co_motions := [] |} |}.

(** runtime/common/src/constants.rs:157 and 161, 5 * DAYS *)
Definition max_motions : N := 25.
Definition motion_duration : N := 36000.

Fixpoint motion (l : list (CoCall * Votes)) (c : CoCall) : option Votes :=
  match l with
  | [] => None
  | (c', v) :: r => if decide (c = c') then Some v else motion r c
  end.
Definition set_motion (l : list (CoCall * Votes)) (c : CoCall) (v : Votes) : list (CoCall * Votes) :=
  map (fun e => if decide (c = e.1) then (e.1, v) else e) l.
Definition remove_motion (l : list (CoCall * Votes)) (c : CoCall) : list (CoCall * Votes) :=
  List.filter (fun e => negb (bool_decide (c = e.1))) l.
Definition up_motions (co : Council) (l : list (CoCall * Votes)) : Council :=
  {| co_members := co_members co; co_prime := co_prime co; co_count := co_count co; co_motions := l |}.

(** pallet_collective: [do_propose_proposed] *)
Definition propose_motion (co : Council) (block threshold : N) (c : CoCall) : res CoErr Council :=
  match motion (co_motions co) c with
  | Some _ => Err CoDuplicateProposal
  | None =>
      ensure! len (co_motions co) <? max_motions else CoTooManyProposals in
      Ok {| co_members := co_members co; co_prime := co_prime co; co_count := co_count co + 1;
            co_motions := co_motions co ++ [(c, {| v_index := co_count co; v_threshold := threshold; v_ayes := []; v_nays := [];
                                                   v_end := block + motion_duration |})] |}
  end.

(** pallet_collective: [do_vote] *)
Definition cast (v : Votes) (who : N) (approve : bool) : res CoErr Votes :=
  let drop := List.filter (fun a => negb (a =? who)) in
  if approve then
    ensure! negb (bool_decide (who ∈ v_ayes v)) else CoDuplicateVote in
    Ok {| v_index := v_index v; v_threshold := v_threshold v; v_ayes := v_ayes v ++ [who]; v_nays := drop (v_nays v); v_end := v_end v |}
  else
    ensure! negb (bool_decide (who ∈ v_nays v)) else CoDuplicateVote in
    Ok {| v_index := v_index v; v_threshold := v_threshold v; v_ayes := drop (v_ayes v); v_nays := v_nays v ++ [who]; v_end := v_end v |}.

(** pallet_collective: [do_close] with PrimeDefaultVote (runtime/frequency/src/lib.rs:675):
    the number of votes with which the motion is carried out, if it is. *)
Definition tally (co : Council) (block : N) (v : Votes) : res CoErr (option N) :=
  let yes := len (v_ayes v) in
  let no := len (v_nays v) in
  let seats := len (co_members co) in
  if v_threshold v <=? yes then Ok (Some yes)
  else if seats - no <? v_threshold v then Ok None
  else
    ensure! v_end v <=? block else CoTooEarly in
    let prime := match co_prime co with Some p => bool_decide (p ∈ v_ayes v) | None => false end in
    let yes' := if prime then yes + (seats - (yes + no)) else yes in
    Ok (if v_threshold v <=? yes' then Some yes' else None).

(** pallet_collective: [change_members_sorted], called by [set_members]; those who
    leave lose their votes *)
Definition change_members (co : Council) (new : list N) (prime : option N) : Council :=
  let outgoing := List.filter (fun a => negb (bool_decide (a ∈ new))) (co_members co) in
  let stay := List.filter (fun a => negb (bool_decide (a ∈ outgoing))) in
  {| co_members := new; co_prime := prime; co_count := co_count co;
     co_motions := map (fun e => (e.1, {| v_index := v_index e.2; v_threshold := v_threshold e.2; v_ayes := stay (v_ayes e.2);
                                          v_nays := stay (v_nays e.2); v_end := v_end e.2 |})) (co_motions co) |}.

Section council.
Variable cfg : RtCfg.

(** Carried out with the origin [Members(n, seats)]: EnsureMembers<_, _, 1>
    (runtime/frequency/src/lib.rs:497-500) and EnsureProportionMoreThan<_, _, 1, 2>
    (534-537). A call that fails leaves no trace. *)
Definition carry_out (rt : RtState) (n seats : N) (c : CoCall) : RtState :=
  match c with
  | CoProvider k name => if 1 <=? n then rt_step cfg rt (SGov (GProvider k name)) else rt
  | CoSchemas c => if seats * 1 <? n * 2 then rt_step cfg rt (SGov (GSchemas false c)) else rt
  | CoOther _ => rt
  end.

Inductive CoOp :=
| OProposeProvider (who : N) (name : list N)
| OProposeSchema (who : N) (c : ScCall)
| OPropose (who threshold : N) (c : CoCall)
| OVote (who : N) (c : CoCall) (index : N) (approve : bool)
| OClose (c : CoCall) (index : N)
| ODisapprove (c : CoCall)
| OSetMembers (new : list N) (prime : option N).

Definition with_co (s : CoState) (co : Council) : CoState := {| k_rt := k_rt s; k_co := co |}.

Definition co_apply (s : CoState) (op : CoOp) : res CoErr CoState :=
  let co := k_co s in
  let rt := k_rt s in
  match op with
  | OProposeProvider who name => (* pallets/msa/src/lib.rs:862-882, threshold 1; runtime lib.rs:104-111 *)
      match msa_dispatch (r_msa cfg) (env_msa rt) (rs_msa rt) (Signed who) (ProposeToBeProvider name) with
      | Ok _ => let! co' := propose_motion co (rs_block rt) 1 (CoProvider who name) in Ok (with_co s co')
      | Err _ => Err CoPallet
      end
  | OProposeSchema who c => (* pallets/schemas/src/lib.rs:338-359, 440-466, 593-608; runtime lib.rs:113-120 *)
      match sc_dispatch (r_sc cfg) (rs_sc rt) (ScSigned who) true c with
      | Ok sc =>
          match c, last (sc_proposals sc) with
          | (ProposeToCreateSchema _ _ _ _ | ProposeToCreateSchemaV2 _ _ _ _ _ | ProposeToCreateSchemaName _ _), Some (_, c') =>
              let! co' := propose_motion co (rs_block rt) (len (co_members co) / 2 + 1) (CoSchemas c') in
              Ok {| k_rt := up_sc_ rt sc; k_co := co' |}
          | _, _ => Err CoPallet
          end
      | Err _ => Err CoPallet
      end
  | OPropose who threshold c => (* pallet_collective: propose *)
      ensure! bool_decide (who ∈ co_members co) else CoNotMember in
      if threshold <? 2 then (* do_propose_execute *)
        match motion (co_motions co) c with
        | Some _ => Err CoDuplicateProposal
        | None => Ok {| k_rt := carry_out rt 1 (len (co_members co)) c; k_co := co |}
        end
      else
        let! co' := propose_motion co (rs_block rt) threshold c in Ok (with_co s co')
  | OVote who c index approve => (* pallet_collective: vote *)
      ensure! bool_decide (who ∈ co_members co) else CoNotMember in
      match motion (co_motions co) c with
      | None => Err CoProposalMissing
      | Some v =>
          ensure! v_index v =? index else CoWrongIndex in
          let! v' := cast v who approve in
          Ok (with_co s (up_motions co (set_motion (co_motions co) c v')))
      end
  | OClose c index => (* pallet_collective: close, by any account *)
      match motion (co_motions co) c with
      | None => Err CoProposalMissing
      | Some v =>
          ensure! v_index v =? index else CoWrongIndex in
          let! r := tally co (rs_block rt) v in
          Ok {| k_rt := match r with Some n => carry_out rt n (len (co_members co)) c | None => rt end;
                k_co := up_motions co (remove_motion (co_motions co) c) |}
      end
  | ODisapprove c => (* pallet_collective: disapprove_proposal, by root *)
      Ok (with_co s (up_motions co (remove_motion (co_motions co) c)))
  | OSetMembers new prime => (* pallet_collective: set_members, by root (lib.rs:677) *)
      ensure! match prime with Some p => bool_decide (p ∈ new) | None => true end else CoPrimeNotMember in
      Ok (with_co s (change_members co new prime))
  end.

(** What happens: a block or transaction of the runtime, a call by root, or
    something that concerns the council. *)
Inductive CoStep := KRt (x : RtStep) | KRoot (c : GovCall) | KOp (op : CoOp).
Definition co_step (s : CoState) (x : CoStep) : CoState :=
  match x with
  | KRt (SGov _) => s
  | KRt x => {| k_rt := rt_step cfg (k_rt s) x; k_co := k_co s |}
  | KRoot c => {| k_rt := rt_step cfg (k_rt s) (SGov (match c with GSchemas _ c => GSchemas true c | c => c end)); k_co := k_co s |}
  | KOp op => match co_apply s op with Ok s' => s' | Err _ => s end
  end.
Definition co_run (s : CoState) (h : list CoStep) : CoState := fold_left co_step h s.
End council.
