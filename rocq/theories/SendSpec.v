(** Vocabulary of C155: a plain payment. *)
From Verif Require Import Prelude CapModel TrModel FeeModel RtModel.

(** [transfer_keep_alive] of [a] to [to], and a transaction of [w] with it, with
    the next nonce of [w], of length [n] and with tip [tip]. *)
Definition pay_call (to a : N) : RtCall := RBalances (TransferKeepAlive to a).
Definition pay_tx (s : RtState) (w to a n tip : N) : Tx :=
  {| tx_who := w; tx_nonce := nonce s w; tx_call := pay_call to a; tx_len := n; tx_tip := tip |}.

(** The same with [transfer_all] without keeping the account. *)
Definition all_call (to : N) : RtCall := RBalances (TransferAll to false).
Definition all_tx (s : RtState) (w to n tip : N) : Tx :=
  {| tx_who := w; tx_nonce := nonce s w; tx_call := all_call to; tx_len := n; tx_tip := tip |}.
