(** Properties of the fees paid with capacity (pallets/frequency-tx-payment).
    [capacity_charge (map get_stable_weight calls) n] is what is deducted for a
    transaction of length [n] wrapping [calls]; [None]: it is rejected. *)
From Verif Require Import Prelude MsaModel MgModel FeeModel RtModel FeeSpec FeeProofs FeeFinal.

(** Example data. *)
Definition ex_message : RtCall := RMessages (AddOnchainMessage None 1 [1; 2; 3]).
Definition ex_ineligible : RtCall := RMsa RetireMsa.
(** Some weights for the calls themselves. *)
Definition ex_inner (_ : RtCall) : Weight := w_parts 100000000 1000.

(** ** C82: the fee is monotone and never zero *)
Theorem C82_monotone :
  forall n n' w w', n <= n' -> w_time w <= w_time w' -> compute_capacity_fee n w <= compute_capacity_fee n' w'.
Proof. exact fee_mono. Qed.
Print Assumptions C82_monotone.

Theorem C82_never_zero :
  forall n w, 177812 <= compute_capacity_fee n w.
Proof. exact fee_min. Qed.
Print Assumptions C82_never_zero.

(** What exactly is charged, and when nothing can be. *)
Theorem C82_charge :
  forall calls n fee, n <= u32_max ->
  capacity_charge (map get_stable_weight calls) n = Some fee
  <-> eligible calls /\ fee = 177812 + price (total_time calls) + 10000 * n.
Proof. exact charge_calls. Qed.
Print Assumptions C82_charge.

(** A call added to a batch never makes it cheaper. *)
Theorem C82_batch_grows :
  forall calls c w n fee, get_stable_weight c = Some w ->
  capacity_charge (map get_stable_weight calls) n = Some fee ->
  exists fee', capacity_charge (map get_stable_weight (calls ++ [c])) n = Some fee' /\ fee <= fee'.
Proof. intros calls c w n fee E. rewrite map_app. cbn [map]. rewrite E. apply batch_fee_grows. Qed.
Print Assumptions C82_batch_grows.

Example C82_nonvacuous :
  capacity_charge (map get_stable_weight [ex_message]) 200 = Some 2808545
  /\ capacity_charge (map get_stable_weight [ex_message; ex_message]) 200 = Some 3439278
  /\ capacity_charge (map get_stable_weight [ex_message; ex_ineligible]) 200 = None.
Proof. vm_compute. repeat split. Qed.

(** ** C83: the estimate and the charge *)
(** For a transaction that is not wrapped the RPC tells what the wrapped one would
    be charged at that length. Missing: for wrapped ones see below. *)
Theorem C83_bare_call_partial :
  forall inner c n fee, get_inner_calls c = [c] -> get_stable_weight c <> None -> n <= u32_max ->
  capacity_charge (map get_stable_weight [c]) n = Some fee -> rpc_fee inner c n = fee.
Proof.
  intros inner c n fee I E Hn. pose proof (stable_fits c) as [T P]. rewrite (charge_calls [c]) by done. intros [El ->].
  assert (W : dispatch_weight inner c = w_zero) by (destruct c; cbn in *; congruence).
  rewrite (estimate_lemma inner c [c]); rewrite ?W; cbn [w_time w_proof w_zero]; rewrite ?N.add_0_r; done.
Qed.
Print Assumptions C83_bare_call_partial.

(** For wrapped calls the estimate is never below the charge. Missing: it is not
    equal to the charge, see below. *)
Theorem C83_never_below_partial :
  forall inner c calls n fee, wraps c calls -> calls <> [] -> n <= u32_max ->
  total_time calls + w_time (dispatch_weight inner c) <= u64_max ->
  total_proof calls + w_proof (dispatch_weight inner c) <= u64_max ->
  capacity_charge (map get_stable_weight calls) n = Some fee -> fee <= rpc_fee inner c n.
Proof.
  intros inner c calls n fee W NE Hn Ht Hp. rewrite charge_calls by done. intros [El ->].
  rewrite (estimate_lemma inner c calls); auto using wraps_inner.
  pose proof (price_mono (total_time calls) (total_time calls + w_time (dispatch_weight inner c)) ltac:(lia)). lia.
Qed.
Print Assumptions C83_never_below_partial.

(** The estimate adds the weight of the dispatch to the stable weight, which the
    charge does not: for every wrapped transaction that fits into a block the RPC
    reports at least 258529 too much. *)
Theorem C83_estimate_refuted :
  forall inner c calls n fee, wraps c calls -> calls <> [] -> n <= u32_max ->
  total_time calls + w_time (dispatch_weight inner c) <= w_time max_block ->
  total_proof calls + w_proof (dispatch_weight inner c) <= u64_max ->
  capacity_charge (map get_stable_weight calls) n = Some fee -> fee + 258529 <= rpc_fee inner c n.
Proof.
  intros inner c calls n fee W NE Hn Ht Hp. rewrite charge_calls by done. intros [El ->].
  change (w_time max_block) with 500000000000 in Ht.
  rewrite (estimate_lemma inner c calls); auto using wraps_inner; [|unfold u64_max; lia].
  pose proof (price_gap _ _ (dispatch_time inner c calls W) Ht). lia.
Qed.
Print Assumptions C83_estimate_refuted.

(** An empty batch is charged but estimated at nothing; a batch with an ineligible
    call is estimated but rejected. *)
Theorem C83_empty_batch_refuted :
  forall inner n, n <= u32_max ->
  capacity_charge (map get_stable_weight []) n = Some (177812 + 10000 * n) /\ rpc_fee inner (RPayBatch []) n = 0.
Proof.
  intros inner n H. split; [|reflexivity]. rewrite charge_calls by done. split; [constructor|].
  change (price (total_time [])) with 0. lia.
Qed.
Print Assumptions C83_empty_batch_refuted.
Theorem C83_ineligible_refuted :
  capacity_charge (map get_stable_weight [ex_message; ex_ineligible]) 200 = None
  /\ rpc_fee ex_inner (RPayBatch [ex_message; ex_ineligible]) 200 = 3419190.
Proof. vm_compute. split; reflexivity. Qed.
Print Assumptions C83_ineligible_refuted.

Example C83_nonvacuous :
  wraps (RPay ex_message) [ex_message]
  /\ total_time [ex_message] + w_time (dispatch_weight ex_inner (RPay ex_message)) = 627394811
  /\ capacity_charge (map get_stable_weight [ex_message]) 200 = Some 2808545
  /\ rpc_fee ex_inner (RPay ex_message) 200 = 3235688
  /\ rpc_fee ex_inner ex_message 200 = 2808545.
Proof. split; [left; by exists ex_message|]. vm_compute. repeat split. Qed.
