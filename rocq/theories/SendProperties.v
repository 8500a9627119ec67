(** Property C155: tokens that are not held back can be sent, and no others. *)
From Verif Require Import Prelude Scale CommonTypes SigModel MsaModel CapModel TrModel HModel ScModel StModel MgModel FeeModel RtModel.
From Verif Require Import RtSpec RtProperties SendSpec SendProofs.
From Verif Require TrProperties.

(** A payment to somebody else is accepted and succeeds exactly if the sender can
    pay the amount and the fee from what neither staking nor vesting holds back,
    keeping the existential deposit, and the receiver then has at least the
    existential deposit and no more than the chain can count. *)
Theorem C155_exactly_if_usable :
  forall cfg s w to a n tip, w <> to ->
  (exists s', tx_apply cfg s (pay_tx s w to a n tip) = Ok (s', None)) <->
  r_token_fee cfg (pay_call to a) n tip + a + N.max (frozen s w) (r_ed cfg) <= balance s w
  /\ r_ed cfg <= balance s to + a <= u128_max.
Proof. exact send_lemma. Qed.
Print Assumptions C155_exactly_if_usable.

(** Then the sender pays the amount and the fee, the receiver gets the amount, and
    nobody else is touched; nothing more is held back, and nothing less. *)
Theorem C155_arrives :
  forall cfg s w to a n tip s', w <> to ->
  tx_apply cfg s (pay_tx s w to a n tip) = Ok (s', None) ->
  balance s' w + r_token_fee cfg (pay_call to a) n tip + a = balance s w /\ balance s' to = balance s to + a
  /\ (forall x, x <> w -> x <> to -> balance s' x = balance s x) /\ (forall x, frozen s' x = frozen s x).
Proof. exact sent_lemma. Qed.
Print Assumptions C155_arrives.

(** An account of which nothing is held back can send all that it has, down to the last
    token, less the fee. *)
Theorem C155_everything :
  forall cfg s w to n tip, w <> to ->
  let fee := r_token_fee cfg (all_call to) n tip in
  frozen s w = 0 -> fee + r_ed cfg <= balance s w -> r_ed cfg <= balance s to + (balance s w - fee) <= u128_max ->
  exists s', tx_apply cfg s (all_tx s w to n tip) = Ok (s', None)
    /\ balance s' w = 0 /\ balance s' to = balance s to + (balance s w - fee).
Proof. exact all_lemma. Qed.
Print Assumptions C155_everything.

(** 3 has 530 tokens, of which 30 vest. The fee is 5: it can send 495 of the others, and
    not 496. *)
Definition vested_st : RtState := rt_run demo demo_st [ send 1 4 (RTime (VTransfer 3 TrProperties.vest_s2)) ].
Definition sent_st (a : N) : option (N * N * option RtErr) :=
  match tx_apply demo vested_st (pay_tx vested_st 3 5 a 0 0) with Ok (s', e) => Some (balance s' 3, balance s' 5, e) | Err _ => None end.
Example C155_nonvacuous :
  (balance vested_st 3, frozen vested_st 3, balance vested_st 5) = (530, 30, 495)
  /\ r_token_fee demo (pay_call 5 495) 0 0 = 5
  /\ sent_st 495 = Some (30, 990, None) /\ sent_st 496 = Some (525, 495, Some XToken)
  /\ (exists s', tx_apply demo vested_st (pay_tx vested_st 3 5 495 0 0) = Ok (s', None)).
Proof.
  split; [vm_compute; reflexivity|]. split; [vm_compute; reflexivity|]. split; [vm_compute; reflexivity|]. split; [vm_compute; reflexivity|].
  apply C155_exactly_if_usable; [discriminate|]. vm_compute. repeat split; discriminate.
Qed.

Example C155_everything_nonvacuous :
  (balance demo_st 3, frozen demo_st 3, balance demo_st 5) = (500, 0, 495)
  /\ r_token_fee demo (all_call 5) 0 0 + r_ed demo <= balance demo_st 3
  /\ r_ed demo <= balance demo_st 5 + (balance demo_st 3 - r_token_fee demo (all_call 5) 0 0) <= u128_max
  /\ match tx_apply demo demo_st (all_tx demo_st 3 5 0 0) with Ok (s', None) => (balance s' 3, balance s' 5) = (0, 990) | _ => False end.
Proof. split; [vm_compute; reflexivity|]. split; [vm_compute; discriminate|]. split; [vm_compute; split; discriminate|]. vm_compute. reflexivity. Qed.
