(** What a transaction paid for with capacity costs:
    pallets/frequency-tx-payment/src/lib.rs and capacity_stable_weights.rs,
    runtime/common/src/fee.rs. *)
From Verif Require Import Prelude CapModel.

(** sp-weights [Weight] (a dependency): two u64. *)
Record Weight := { w_time : N; w_proof : N }.
Definition w_zero : Weight := {| w_time := 0; w_proof := 0 |}.
Definition w_add (a b : Weight) : Weight :=
  {| w_time := sat_add u64_max (w_time a) (w_time b); w_proof := sat_add u64_max (w_proof a) (w_proof b) |}.
Definition w_checked_add (a b : Weight) : option Weight :=
  match chk_add u64_max (w_time a) (w_time b), chk_add u64_max (w_proof a) (w_proof b) with
  | Some t, Some p => Some {| w_time := t; w_proof := p |}
  | _, _ => None
  end.
Definition w_mul (a : Weight) (n : N) : Weight :=
  {| w_time := sat_mul u64_max (w_time a) n; w_proof := sat_mul u64_max (w_proof a) n |}.
Definition w_min (a b : Weight) : Weight :=
  {| w_time := N.min (w_time a) (w_time b); w_proof := N.min (w_proof a) (w_proof b) |}.
Definition w_is_zero (a : Weight) : bool := (w_time a =? 0) && (w_proof a =? 0).
Definition w_parts (t p : N) : Weight := {| w_time := t; w_proof := p |}.

(** runtime/common/src/constants.rs:66-68 [MAXIMUM_BLOCK_WEIGHT]: half of 10^12,
    5 MiB *)
Definition max_block : Weight := w_parts 500000000000 5242880.
(** runtime/common/src/weights/extrinsic_weights.rs:55-56 *)
Definition extrinsic_base_weight : Weight := w_parts 59307000 0.
(** capacity_stable_weights.rs:34-35 *)
Definition capacity_base_weight : Weight := w_parts 105455000 0.
(** runtime/common/src/constants.rs:47 *)
Definition cents : N := 1000000.
(** runtime/common/src/constants.rs:237 [TransactionByteFee] *)
Definition byte_fee : N := 10000.

(** runtime/common/src/fee.rs:27-39: a polynomial of one term, the integer and
    the fractional part of the coefficient. *)
Definition coeff_integer : N := cents / (10 * w_time extrinsic_base_weight).
Definition coeff_frac : N :=
  perbill_from_rational (cents mod (10 * w_time extrinsic_base_weight)) (10 * w_time extrinsic_base_weight).
(** sp-weights [WeightToFeePolynomial::weight_to_fee]: only the time counts *)
Definition polynomial (w : Weight) : N :=
  sat_add u128_max (perbill_mul coeff_frac (w_time w)) (sat_mul u128_max coeff_integer (w_time w)).

(** lib.rs:311-316 *)
Definition weight_to_fee (w : Weight) : N := polynomial (w_min w max_block).
(** lib.rs:305-307; ConstantMultiplier saturates *)
Definition length_to_fee (n : N) : N := sat_mul u128_max n byte_fee.
(** lib.rs:252-260 *)
Definition compute_capacity_fee (n : N) (w : Weight) : N :=
  sat_add u128_max (sat_add u128_max (weight_to_fee capacity_base_weight) (weight_to_fee w)) (length_to_fee n).

(** capacity_stable_weights.rs: a constant part, a part per unit, and reads and
    writes of the database (frame_support RocksDbWeight: 25 and 100 us) *)
Definition stable (t p per n reads writes : N) : Weight :=
  w_add (w_add (w_add (w_parts t p) (w_mul (w_parts per 0) n)) (w_mul (w_parts 25000000 0) reads)) (w_mul (w_parts 100000000 0) writes).

(** [FeeDetails] with its [InclusionFee]: base, length and weight fee *)
Record FeeDetails := { fd_inclusion : option (N * N * N); fd_tip : N }.
(** pallet_transaction_payment [FeeDetails::final_fee] *)
Definition final_fee (d : FeeDetails) : N :=
  match fd_inclusion d with
  | Some (b, l, w) => sat_add u128_max (sat_add u128_max (sat_add u128_max b l) w) (fd_tip d)
  | None => fd_tip d
  end.
(** the sum of lib.rs:280-283, [None] counting as zero *)
Definition estimate_weight (ws : list (option Weight)) : Weight :=
  fold_left (fun acc w => w_add acc (default w_zero w)) ws w_zero.
(** lib.rs:270-303 [compute_capacity_fee_details]: [ws] are the stable weights of
    the inner calls, [dispatch] the weight that the runtime API passes
    (runtime/frequency/src/lib.rs:1399-1416) *)
Definition fee_details (ws : list (option Weight)) (dispatch : Weight) (n : N) : FeeDetails :=
  let sum := estimate_weight ws in
  if w_is_zero sum then {| fd_inclusion := None; fd_tip := 0 |}
  else match w_checked_add sum dispatch with
       | None => {| fd_inclusion := None; fd_tip := 0 |}
       | Some w => {| fd_inclusion := Some (weight_to_fee capacity_base_weight, length_to_fee n, weight_to_fee w); fd_tip := 0 |}
       end.

(** the loop of lib.rs:395-401 [withdraw_capacity_fee]: [None] if some call is
    not eligible *)
Fixpoint charge_weight (ws : list (option Weight)) (acc : Weight) : option Weight :=
  match ws with
  | [] => Some acc
  | Some w :: ws' => charge_weight ws' (w_add acc w)
  | None :: _ => None
  end.
(** what is deducted, lib.rs:389-408 *)
Definition capacity_charge (ws : list (option Weight)) (n : N) : option N :=
  match charge_weight ws w_zero with Some w => Some (compute_capacity_fee n w) | None => None end.
