(** Properties C117-C123: the transaction pool, and what the node's own RPCs answer. *)
From Verif Require Import Prelude Scale Utf8 Utf8Proofs SigModel MsaModel HModel FeeModel RtModel PoolModel MsaSpec RtSpec PoolSpec PoolProofs RtProperties.

(** ** C117: the pool accepts a transaction exactly if a block would, were it the
    turn of its nonce; and it calls it ready exactly if a block would now. *)
Theorem C117_pool_accepts :
  forall cfg prio st x,
  (exists v, pool_validate cfg prio st x = Ok v) <->
  nonce st (sender x) <= nonce_of x /\ exists r, pool_apply cfg st (with_nonce (nonce st (sender x)) x) = Ok r.
Proof. exact pool_agrees_lemma. Qed.
Print Assumptions C117_pool_accepts.
Theorem C117_ready :
  forall cfg prio st x,
  (exists r, pool_apply cfg st x = Ok r) <-> exists v, pool_validate cfg prio st x = Ok v /\ v_requires v = [].
Proof. exact ready_iff_lemma. Qed.
Print Assumptions C117_ready.

Definition prio0 (c : RtCall) (n tip fee : N) : N := tip + fee.
Definition to6 (who n amount : N) : PoolTx := PSigned (tx_ who n (RBalances (TransferAllowDeath 6 amount))).
Definition by_passkey (who n proof : N) : PoolTx :=
  PPasskey {| pk_public_key := [2; 3]; pk_signature := []; pk_account := who; pk_nonce := n; pk_proof := proof; pk_call := RBalances (TransferAllowDeath 6 10) |}.
(** (accepted by the pool, number of required tags, accepted in a block) *)
Definition verdicts (x : PoolTx) : bool * nat * bool :=
  match pool_validate demo prio0 demo_st x with
  | Ok v => (true, length (v_requires v), is_ok (pool_apply demo demo_st x))
  | Err _ => (false, 0%nat, is_ok (pool_apply demo demo_st x))
  end.
(** Account 1 has the nonce 4, account 5 the nonce 1. *)
Example C117_nonvacuous :
  map verdicts [ to6 1 3 10; to6 1 4 10; to6 1 6 10; to6 9 0 10; by_passkey 5 1 5; by_passkey 5 1 6; by_passkey 5 2 1005;
    PSigned (tx_ 7 0 (RMsa (RevokeByDelegator 1))); PSigned (tx_ 7 0 (RMsa (RevokeByDelegator 3))); PSigned (tx_ 7 0 (RMsa RetireMsa));
    PSigned (tx_ 1 4 (RPay (RMsa Create))); PSigned (tx_ 5 1 (RPay (RMsa Create))) ]
  = [ (false, 0%nat, false); (true, 0%nat, true); (true, 1%nat, false); (false, 0%nat, false); (true, 0%nat, true); (false, 0%nat, false); (true, 1%nat, false);
      (true, 0%nat, true); (false, 0%nat, false); (false, 0%nat, false);
      (false, 0%nat, false); (false, 0%nat, false) ].
Proof. vm_compute. reflexivity. Qed.

(** ** C118: which transactions compete for a place in the pool *)
Theorem C118_conflicts :
  forall cfg prio s1 s2 x y v w, fits x -> fits y -> pool_validate cfg prio s1 x = Ok v -> pool_validate cfg prio s2 y = Ok w ->
  (exists tag, tag ∈ v_provides v /\ tag ∈ v_provides w) <->
  sender x = sender y /\ (nonce_of x = nonce_of y \/ exists k, free_kind x = Some k /\ free_kind y = Some k).
Proof. exact conflict_lemma. Qed.
Print Assumptions C118_conflicts.

(** A signed transaction and a passkey of one account with the same nonce compete.
    So do two key deletions with different nonces, but not a deletion and a
    revocation, nor two retirements of a handle. *)
Definition tags_of (s : RtState) (x : PoolTx) : list (list N) := match pool_validate demo prio0 s x with Ok v => v_provides v | Err _ => [] end.
Definition meet (s : RtState) (x y : PoolTx) : bool := existsb (fun t => bool_decide (t ∈ tags_of s y)) (tags_of s x).
Definition keys_st : RtState := rt_run demo demo_st
  [ send 1 4 (RMsa (AddPublicKey 7 1007 2008 {| ak_msa := 2; ak_exp := 50; ak_key := 8 |}));
    send 1 5 (RMsa (AddPublicKey 7 2007 3009 {| ak_msa := 2; ak_exp := 50; ak_key := 9 |})) ].
Definition delete7 (n k : N) : PoolTx := PSigned (tx_ 7 n (RMsa (DeletePublicKey k))).
Definition revoke7_ (n : N) : PoolTx := PSigned (tx_ 7 n (RMsa (RevokeByDelegator 1))).
Example C118_nonvacuous :
  meet keys_st (to6 5 3 10) (by_passkey 5 3 5) = true /\ meet keys_st (to6 5 3 10) (by_passkey 5 2 5) = false
  /\ meet keys_st (delete7 0 8) (delete7 1 9) = true /\ meet keys_st (delete7 0 8) (revoke7_ 1) = false
  /\ meet keys_st (delete7 0 8) (revoke7_ 0) = true /\ meet keys_st (delete7 0 8) (PSigned (tx_ 8 0 (RMsa (DeletePublicKey 9)))) = false
  /\ length (tags_of keys_st (delete7 0 8)) = 2%nat.
Proof. vm_compute. repeat split. Qed.

(** ** C119: the nonces that an account's waiting transactions wait for. What is
    listed is missing, in order and at most 1000 of them ... *)
Theorem C119_listed_partial :
  forall cfg prio st p a, pool_rules cfg prio st p -> a < 2 ^ 256 ->
  (forall n, pending p a n -> n + len (p_future p) <= u32_max) ->
  let l := missing_nonces st p a in
  StronglySorted N.lt l /\ (length l <= 1000)%nat /\ forall n, n ∈ l -> missing st p a n.
Proof. intros cfg prio st p a H Ha. eapply sound_lemma; done. Qed.
Print Assumptions C119_listed_partial.
(** ... and what is missing is listed, up to the limit, if no two waiting
    transactions of the account have the same nonce. *)
Theorem C119_missing_partial :
  forall cfg prio st p a, pool_rules cfg prio st p -> a < 2 ^ 256 -> distinct_future p a ->
  let l := missing_nonces st p a in
  StronglySorted N.lt l /\ (length l <= 1000)%nat /\ (forall n, n ∈ l -> missing st p a n)
  /\ forall n, missing st p a n -> n ∈ l \/ length l = 1000%nat /\ forall m, m ∈ l -> m < n.
Proof. intros cfg prio st p a H Ha. eapply complete_lemma; done. Qed.
Print Assumptions C119_missing_partial.

(** A pool: account 1, whose nonce is 4, has sent 4, 5, 8 and 10. *)
Definition entry (x : PoolTx) : Entry :=
  {| e_tx := x; e_valid := match pool_validate demo prio0 demo_st x with Ok v => v | Err _ => v_default end |}.
Definition gaps (l : list PoolTx) : Pool := {| p_ready := map entry [to6 1 4 10; to6 5 1 10; to6 1 5 10]; p_future := map entry l |}.
Lemma ready_tags :
  v_provides (e_valid (entry (to6 1 4 10))) = [nonce_tag 1 4] /\ v_provides (e_valid (entry (to6 5 1 10))) = [nonce_tag 5 1]
  /\ v_provides (e_valid (entry (to6 1 5 10))) = [nonce_tag 1 5] /\ v_requires (e_valid (entry (to6 1 4 10))) = []
  /\ v_requires (e_valid (entry (to6 5 1 10))) = [] /\ v_requires (e_valid (entry (to6 1 5 10))) = [nonce_tag 1 4].
Proof. vm_compute. repeat split. Qed.
Lemma small_tag a n b m : a < 100 -> b < 100 -> n < 1000 -> m < 1000 -> nonce_tag a n = nonce_tag b m -> a = b /\ n = m.
Proof. intros. assert (100 < 2 ^ 256) by (vm_compute; reflexivity). apply nonce_tag_inj; change u32_max with 4294967295; try lia; done. Qed.
Lemma three_rules cfg prio st e4 e1 e5 l : nonce st 1 = 4 ->
  v_provides (e_valid e4) = [nonce_tag 1 4] -> v_provides (e_valid e1) = [nonce_tag 5 1] -> v_provides (e_valid e5) = [nonce_tag 1 5] ->
  v_requires (e_valid e4) = [] -> v_requires (e_valid e1) = [] -> v_requires (e_valid e5) = [nonce_tag 1 4] ->
  (forall e, e ∈ [e4; e1; e5] -> pool_validate cfg prio st (e_tx e) = Ok (e_valid e) /\ fits (e_tx e)) ->
  (forall e, e ∈ l -> pool_validate cfg prio st (e_tx e) = Ok (e_valid e) /\ sender (e_tx e) = 1 /\ 6 < nonce_of (e_tx e) < 100) ->
  pool_rules cfg prio st {| p_ready := [e4; e1; e5]; p_future := l |}.
Proof.
  intros N4 P4 P1 P5 R4 R1 R5 Hr Hl. split; cbn [p_ready p_future].
  - intros e He. apply elem_of_app in He as [He|He]; [by apply Hr|by apply Hl].
  - intros e He. apply elem_of_app in He as [He|He]; [by apply Hr|]. destruct (Hl e He) as (_ & H2 & H3).
    split; [rewrite H2; vm_compute; reflexivity|]. change u32_max with 4294967295. lia.
  - intros pre e post tag E Ht. destruct pre as [|x1 pre]; [injection E as <- _; rewrite R4 in Ht; by apply elem_of_nil in Ht|].
    injection E as <- E. destruct pre as [|x2 pre]; [injection E as <- _; rewrite R1 in Ht; by apply elem_of_nil in Ht|].
    injection E as <- E. destruct pre as [|x3 pre]; [|injection E as <- E; by destruct pre]. injection E as <- _. exists e4. split; [by left|].
    by rewrite P4, <- R5.
  - intros i j e e' tag Hi Hj Ht Ht'.
    destruct i as [|[|[|i]]]; [injection Hi as <-|injection Hi as <-|injection Hi as <-|done];
      (destruct j as [|[|[|j]]]; [injection Hj as <-|injection Hj as <-|injection Hj as <-|done]); try done; exfalso;
      rewrite ?P1, ?P4, ?P5 in Ht; rewrite ?P1, ?P4, ?P5 in Ht'; apply elem_of_list_singleton in Ht as ->; apply elem_of_list_singleton in Ht'; apply small_tag in Ht'; lia.
  - intros e He. destruct (Hl e He) as (H1 & H2 & H3). apply valid_tags in H1 as (L & R & _). rewrite R, H2, N4.
    destruct (N.ltb_spec 4 (nonce_of (e_tx e))); [|lia]. exists (nonce_tag 1 (nonce_of (e_tx e) - 1)). split; [by left|].
    intros e' He' Ht. repeat (apply elem_of_cons in He' as [->|He']; [rewrite ?P1, ?P4, ?P5 in Ht; apply elem_of_list_singleton in Ht; apply small_tag in Ht; lia|]).
    by apply elem_of_nil in He'.
Qed.
Lemma entry_valid x : is_ok (pool_validate demo prio0 demo_st x) = true -> pool_validate demo prio0 demo_st (e_tx (entry x)) = Ok (e_valid (entry x)).
Proof. cbn [entry e_tx e_valid]. destruct (pool_validate demo prio0 demo_st x); [reflexivity|discriminate]. Qed.
Lemma gaps_rules l : Forall (fun x => is_ok (pool_validate demo prio0 demo_st x) = true /\ sender x = 1 /\ 6 < nonce_of x < 100) l ->
  pool_rules demo prio0 demo_st (gaps l).
Proof.
  intros Hl. rewrite Forall_forall in Hl. destruct ready_tags as (P4 & P1 & P5 & R4 & R1 & R5).
  apply three_rules; [vm_compute; reflexivity|exact P4|exact P1|exact P5|exact R4|exact R1|exact R5| |].
  - intros e He. repeat (apply elem_of_cons in He as [->|He]; [split; [apply entry_valid; vm_compute; reflexivity|split; vm_compute; [reflexivity|discriminate]]|]).
    apply elem_of_nil in He as [].
  - intros e He. apply elem_of_list_fmap in He as (x & -> & Hx). destruct (Hl x Hx) as (H1 & H2). split; [by apply entry_valid|exact H2].
Qed.
Example C119_nonvacuous :
  pool_rules demo prio0 demo_st (gaps [to6 1 10 1; to6 1 8 1]) /\ distinct_future (gaps [to6 1 10 1; to6 1 8 1]) 1
  /\ missing_nonces demo_st (gaps [to6 1 10 1; to6 1 8 1]) 1 = [6; 7; 9] /\ missing_nonces demo_st (gaps [to6 1 10 1; to6 1 8 1]) 5 = [].
Proof.
  split; [apply gaps_rules; repeat constructor; vm_compute; reflexivity|]. split; [|split; vm_compute; reflexivity].
  intros i j e e' Hi Hj _ _ E. cbn [gaps p_future map] in Hi, Hj. generalize dependent i. generalize dependent j.
  intros [|[|j]] Hj [|[|i]] Hi; try discriminate; try reflexivity; exfalso; injection Hi as <-; injection Hj as <-; vm_compute in E; discriminate.
Qed.

(** Missing, and false: waiting transactions with the same nonce are counted one by
    one. If 1 sends two transactions with the nonce 8 and one with 10, the answer
    leaves out 9, and after sending what the answer lists the last one still waits. *)
Theorem C119_duplicates_refuted :
  exists cfg prio st p a n, pool_rules cfg prio st p /\ a < 2 ^ 256 /\ missing st p a n /\
  (length (missing_nonces st p a) < 1000)%nat /\ n ∉ missing_nonces st p a.
Proof.
  exists demo, prio0, demo_st, (gaps [to6 1 8 1; to6 1 8 2; to6 1 10 1]), 1, 9.
  split; [apply gaps_rules; repeat constructor; vm_compute; reflexivity|]. split; [vm_compute; reflexivity|]. split.
  - split; [vm_compute; discriminate|]. split.
    + intros (e & He & _ & En). revert En. cbn [gaps p_ready p_future map app] in He.
      repeat (apply elem_of_cons in He as [->|He]; [vm_compute; discriminate|]). apply elem_of_nil in He as [].
    + exists 10. split; [lia|]. exists (entry (to6 1 10 1)). split; [|split; vm_compute; reflexivity]. cbn [gaps p_ready p_future map app]. do 5 right. by left.
  - split; [vm_compute; lia|]. replace (missing_nonces _ _ _) with [6; 7] by (vm_compute; reflexivity).
    intros H. apply elem_of_cons in H as [H|H]; [done|]. apply elem_of_list_singleton in H. done.
Qed.
Print Assumptions C119_duplicates_refuted.

(** ** C120: once a transaction is in a block, its sender's next one need not wait *)
Theorem C120_next_is_ready_partial :
  forall cfg s t s' r, nonce s (tx_who t) < u32_max -> is_pays_no_call (tx_call t) = false \/ 0 < balance s (tx_who t) ->
  tx_apply cfg s t = Ok (s', r) ->
  nonce s' (tx_who t) = tx_nonce t + 1 \/ nonce s' (tx_who t) = 0 /\ exists c, c ∈ leaves (tx_call t) /\ moves_tokens c.
Proof. exact successor_lemma. Qed.
Print Assumptions C120_next_is_ready_partial.
(** Missing, and false: whoever has no tokens cannot queue free transactions. The
    second waits for the first for ever. *)
Theorem C120_no_tokens_refuted :
  forall cfg s t s' r t2, exists_account s (tx_who t) = false -> is_pays_no_call (tx_call t) = true ->
  tx_apply cfg s t = Ok (s', r) -> tx_who t2 = tx_who t -> tx_nonce t2 = tx_nonce t + 1 ->
  nonce s' (tx_who t) = tx_nonce t /\ tx_apply cfg s' t2 = Err IFuture.
Proof. exact stuck_lemma. Qed.
Print Assumptions C120_no_tokens_refuted.

(** Key 7, without tokens, deletes key 8 and revokes a delegation. The pool accepts
    both, and the second is never included; account 5's second transfer is. *)
Example C120_nonvacuous :
  let t1 := tx_ 7 0 (RMsa (DeletePublicKey 8)) in let t2 := tx_ 7 1 (RMsa (RevokeByDelegator 1)) in
  let s := rt_step demo keys_st (STx t1) in
  exists_account keys_st 7 = false /\ is_ok (tx_apply demo keys_st t1) = true /\ is_ok (tx_validate demo prio0 keys_st t2) = true
  /\ is_ok (tx_validate demo prio0 s t2) = true /\ tx_apply demo s t2 = Err IFuture
  /\ is_ok (tx_apply demo (rt_step demo keys_st (send 5 1 (RMsa Create))) (tx_ 5 2 (RMsa Create))) = true.
Proof. vm_compute. repeat split. Qed.

(** ** C121: a tip offered with capacity is neither taken nor does it buy anything *)
Theorem C121_no_tip_with_capacity :
  forall cfg prio s t tip, (exists x, tx_call t = RPay x) \/ (exists l, tx_call t = RPayBatch l) ->
  tx_apply cfg s (with_tip tip t) = tx_apply cfg s t /\ tx_validate cfg prio s (with_tip tip t) = tx_validate cfg prio s t.
Proof. exact tip_lemma. Qed.
Print Assumptions C121_no_tip_with_capacity.
Definition granted7 : RtCall := RMsa (GrantDelegation 7 1007 {| ap_msa := 1; ap_schemas := []; ap_exp := 50 |}).
Definition priority_of (c : RtCall) (tip : N) : option N :=
  match tx_validate demo prio0 demo_st (with_tip tip (tx_ 1 4 c)) with Ok v => Some (v_priority v) | Err _ => None end.
Example C121_nonvacuous :
  is_ok (tx_apply demo demo_st (with_tip 50 (tx_ 1 4 (RPay granted7)))) = true
  /\ priority_of (RPay granted7) 50 = priority_of (RPay granted7) 0 /\ priority_of granted7 50 = Some 105 /\ priority_of granted7 0 = Some 5.
Proof. vm_compute. repeat split. Qed.

(** ** C122: the answer to a request for a block's events *)
Theorem C122_events :
  forall l, length (get_events l) = length l /\ forall i e, l !! i = Some e -> exists x, get_events l !! i = Some x
  /\ re_pallet x :: re_event x :: re_data x = enc_event e
  /\ forall n, re_phase x = Some n <-> er_phase e = ApplyExtrinsic n.
Proof.
  intros l. unfold get_events. split; [apply map_length|]. intros i e H. exists (rpc_event e). split; [by rewrite list_lookup_fmap, H|].
  split; [done|]. intros n. cbn [rpc_event re_phase]. destruct (er_phase e); split; congruence.
Qed.
Print Assumptions C122_events.
Example C122_nonvacuous :
  get_events [ {| er_phase := ApplyExtrinsic 5; er_pallet := 60; er_event := 7; er_fields := [42; 0] |};
               {| er_phase := Finalization; er_pallet := 60; er_event := 7; er_fields := [] |} ]
  = [ {| re_phase := Some 5; re_pallet := 60; re_event := 7; re_data := [42; 0] |};
      {| re_phase := None; re_pallet := 60; re_event := 7; re_data := [] |} ].
Proof. reflexivity. Qed.

(** ** C123: bytes in the JSON of the RPCs. Hexadecimal fields carry any bytes. *)
Theorem C123_hex :
  forall bs, Forall (fun b => b < 256) bs -> from_hex (as_hex bs) = Some bs /\ read_hex_field (write_hex_field (Some bs)) = Some (Some bs)
  /\ read_hex_field (write_hex_field None) = Some None.
Proof. intros bs H. split; [by apply hex_round|]. cbn [write_hex_field option_map read_hex_field]. by rewrite hex_round. Qed.
Print Assumptions C123_hex.
(** Text fields carry exactly the bytes that are UTF-8; others are an error. An
    optional text that is empty comes back as none. *)
Theorem C123_text :
  forall bs, (forall s, as_string bs = Some s -> of_string s = bs) /\ ((exists s, as_string bs = Some s) <-> exists s, Forall scalar s /\ utf8 s = bs)
  /\ forall s, write_string_field (Some bs) = Some s -> read_string_field s = match bs with [] => None | _ => Some bs end.
Proof.
  intros bs. split; [intros s H; by apply utf8_from in H as [_ ?]|]. split.
  - split; [intros [s H]; exists s; by apply utf8_from|intros (s & Hs & <-); exists s; by apply from_utf8_utf8].
  - intros s H. cbn [write_string_field] in H. destruct (from_utf8 bs) as [s'|] eqn:E; [|done]. injection H as <-.
    apply utf8_from in E as [_ E]. cbn [read_string_field]. rewrite E. by destruct bs.
Qed.
Print Assumptions C123_text.
Example C123_nonvacuous :
  as_hex [1; 2; 172; 255] = [48; 120; 48; 49; 48; 50; 97; 99; 102; 102] /\ from_hex [49; 65; 66] = Some [1; 171] /\ from_hex [48; 120; 103] = None
  /\ as_string [195; 40] = None /\ as_string [232; 149; 153; 73] = Some [34137; 73].
Proof. vm_compute. repeat split. Qed.
