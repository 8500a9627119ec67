(** C137: the tokens of the main network. *)
From Verif Require Import Prelude Sums MsaModel TrModel CapModel RtModel RtSpec RtMoreSpec GenModel.
From Verif Require RtMoreProperties RtProperties.

Lemma msum_list (l : list (N * N)) : NoDup l.*1 -> msum (fun (_ : N) (b : N) => b) (list_to_map l : gmap N N) = sumN l.*2.
Proof.
  induction l as [|[k v] l IH]; [done|]. cbn. intros [Hk Hn]%NoDup_cons.
  rewrite msum_insert_new by (by apply not_elem_of_list_to_map). by rewrite IH.
Qed.

Lemma start_lemma accounts : NoDup accounts -> length accounts = 20%nat ->
  total_tokens (mainnet_start accounts) = 999990000 * DOLLARS.
Proof.
  intros Hn Hl. unfold total_tokens. cbn [mainnet_start rt_genesis rs_bal]. unfold mainnet_balances.
  rewrite msum_list by (rewrite fst_zip by (rewrite Hl; vm_compute; lia); done).
  rewrite snd_zip by (rewrite Hl; vm_compute; lia). vm_compute. reflexivity.
Qed.

(** From the genesis of the main network on, whatever happens, there are never more than
    999,990,000 tokens, in any account or together. *)
Theorem C137_supply_limited_partial :
  forall cfg accounts h,
    NoDup accounts -> length accounts = 20%nat ->
    let s := rt_run cfg (mainnet_start accounts) h in
    total_tokens s <= 999990000 * 10 ^ 8 /\ forall a, balance s a <= 999990000 * 10 ^ 8.
Proof.
  intros cfg accounts h Hn Hl s.
  assert (H : total_tokens s <= 999990000 * 10 ^ 8).
  { change (10 ^ 8) with DOLLARS. rewrite <- (start_lemma accounts) by done. apply RtMoreProperties.C112_no_tokens_created. }
  split; [exact H|]. intros a. unfold balance. destruct (rs_bal s !! a) as [b|] eqn:E; [|cbn; lia].
  etrans; [|exact H]. exact (msum_lookup_le (fun _ b => b) (rs_bal s) a b E).
Qed.
Print Assumptions C137_supply_limited_partial.

(** It does not start with the billion that the specification announces
    (frequency.rs:234): 10,000 tokens are missing. *)
Theorem C137_billion_refuted :
  forall accounts, NoDup accounts -> length accounts = 20%nat ->
  total_tokens (mainnet_start accounts) + 10000 * 10 ^ 8 = 1000000000 * 10 ^ 8.
Proof. intros accounts Hn Hl. rewrite (start_lemma accounts Hn Hl). vm_compute. reflexivity. Qed.
Print Assumptions C137_billion_refuted.

(** With accounts 1 to 20: the third signatory sends 40 tokens to the treasury. *)
Definition twenty : list N := map N.of_nat (seq 1 20).
Example C137_example :
  NoDup twenty /\ length twenty = 20%nat /\
  let s := rt_run RtProperties.demo_mainnet (mainnet_start twenty)
    [SBlock 1; STx {| tx_who := 4; tx_nonce := 0; tx_call := RBalances (TransferKeepAlive 13 (40 * DOLLARS)); tx_len := 100; tx_tip := 0 |}] in
  balance s 13 = 529988640 * DOLLARS /\ balance s 4 < 60 * DOLLARS.
Proof.
  split; [apply (bool_decide_unpack _); vm_compute; exact I|]. split; [reflexivity|]. vm_compute. split; reflexivity.
Qed.
