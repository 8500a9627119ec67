(** The replay registry of the MSA pallet
    (pallets/msa/src/lib.rs:1380-1470, common/primitives/src/msa.rs:198-213). *)
From Verif Require Import Prelude.

(** A [MultiSignature], identified with a number (its bytes). *)
Notation Sig := N (only parsing).

Inductive SigErr :=
| ProofNotYetValid
| ProofHasExpired
| SignatureAlreadySubmitted
| SignatureRegistryLimitExceeded
| SignatureRegistryCorrupted.

(** common/primitives/src/msa.rs:198-213 [SignatureRegistryPointer] *)
Record SigPtr := {
  sp_newest : Sig;
  sp_newest_exp : N;
  sp_oldest : Sig;
  sp_count : N
}.

(** pallets/msa/src/lib.rs:207-236: [PayloadSignatureRegistryList] maps a
    signature to (its expiry block, the next newer signature);
    [PayloadSignatureRegistryPointer] is an optional value. *)
Record SigReg := {
  sr_list : gmap N (N * N);
  sr_ptr : option SigPtr
}.

Definition sig_empty : SigReg := {| sr_list := ∅; sr_ptr := None |}.

(** pallets/msa/src/lib.rs:1466-1469. Block numbers are u32; the addition is
    unchecked, and wraps in a release build. *)
Definition mortality_block_limit (window now : N) : N := wrap_add u32_max now window.

(** pallets/msa/src/lib.rs:1400-1461. [maxsig] is
    [MaxSignaturesStored::get().unwrap_or(0)]. [count + 1] cannot overflow
    because the count stays at most [maxsig] (a u32). *)
Definition enqueue_signature (maxsig : N) (reg : SigReg) (s exp now : N) : res SigErr SigReg :=
  let ptr := match sr_ptr reg with
             | Some p => p
             | None => {| sp_newest := s; sp_newest_exp := exp; sp_oldest := s; sp_count := 0 |}
             end in
  ensure! negb (negb (sp_count ptr =? 0) && (sp_newest ptr =? s)) else SignatureAlreadySubmitted in
  let full := sp_count ptr =? maxsig in
  let! (list1, oldest) :=
    (if full then
       match sr_list reg !! sp_oldest ptr with
       | None => Err SignatureRegistryCorrupted
       | Some (exp_old, next_oldest) =>
           ensure! exp_old <? now else SignatureRegistryLimitExceeded in
           Ok (delete (sp_oldest ptr) (sr_list reg), next_oldest)
       end
     else Ok (sr_list reg, sp_oldest ptr)) in
  let list2 := if sp_count ptr =? 0 then list1
               else <[sp_newest ptr := (sp_newest_exp ptr, s)]> list1 in
  Ok {| sr_list := list2;
        sr_ptr := Some {| sp_newest := s; sp_newest_exp := exp; sp_oldest := oldest;
                          sp_count := if full then sp_count ptr else sp_count ptr + 1 |} |}.

(** pallets/msa/src/lib.rs:1380-1397 *)
Definition register_signature (maxsig window : N) (reg : SigReg) (now s exp : N) : res SigErr SigReg :=
  ensure! exp <? mortality_block_limit window now else ProofNotYetValid in
  ensure! now <? exp else ProofHasExpired in
  match sr_list reg !! s with
  | Some _ => Err SignatureAlreadySubmitted
  | None => enqueue_signature maxsig reg s exp now
  end.

(** One submission of a signature at a block. *)
Record SigEv := { se_block : N; se_sig : N; se_exp : N }.

(** Running a history of submissions; a failed one changes nothing. The
    outcome of every submission is recorded ([None] = accepted). *)
Fixpoint sig_run (maxsig window : N) (reg : SigReg) (h : list SigEv) : SigReg * list (option SigErr) :=
  match h with
  | [] => (reg, [])
  | ev :: h' =>
      match register_signature maxsig window reg (se_block ev) (se_sig ev) (se_exp ev) with
      | Ok reg' => let '(r, os) := sig_run maxsig window reg' h' in (r, None :: os)
      | Err e => let '(r, os) := sig_run maxsig window reg h' in (r, Some e :: os)
      end
  end.
