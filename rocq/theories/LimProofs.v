(** Proofs about what limits the number of transactions. *)
From Verif Require Import Prelude CommonTypes Sums SigModel MsaModel CapModel TrModel StModel HModel ScModel MgModel FeeModel RtModel.
From Verif Require Import FeeSpec RtSpec CapSpec LimSpec RtProofs RtProj.
From Verif Require RtFinal RtFinal2 CapProofs MsaProofs MsaDelegProofs.

Section cap.
Variable cfg : RtCfg.
Variable m : N.

(** The log grows by entries with [n] spent by [m]. *)
Definition spends (n : N) (s s' : RtState) : Prop :=
  exists l, cs_log (rs_cap s') = cs_log (rs_cap s) ++ l /\ spent m l = n.

Lemma spends_cap s s' : rs_cap s' = rs_cap s -> spends 0 s s'.
Proof. intros E. exists []. by rewrite E, app_nil_r. Qed.
Lemma spends_log s s' : cs_log (rs_cap s') = cs_log (rs_cap s) -> spends 0 s s'.
Proof. intros E. exists []. by rewrite app_nil_r. Qed.
Lemma spends_trans a b s1 s2 s3 : spends a s1 s2 -> spends b s2 s3 -> spends (a + b) s1 s3.
Proof.
  intros (l & E & H) (l' & E' & H'). exists (l ++ l'). split; [rewrite E', E; by rewrite app_assoc|].
  unfold spent, log_sum in *. rewrite map_app, sumN_app. lia.
Qed.
Lemma spends0_trans s1 s2 s3 : spends 0 s1 s2 -> spends 0 s2 s3 -> spends 0 s1 s3.
Proof. exact (spends_trans 0 0 s1 s2 s3). Qed.

Lemma op_spends s op x : cap_apply (r_cap cfg) (cap_view s) op = Ok x ->
  match op with OpStake _ _ _ _ | OpUnstake _ _ _ | OpWithdraw _ | OpSetEpochLength _ _ => True | _ => False end ->
  spends 0 s (up_cap_ s x).
Proof.
  intros H Ho. apply CapProofs.apply_effect in H. destruct H; try done; eexists [_]; by split.
Qed.

Lemma leaf_spends c o s s' : plain c -> rt_dispatch cfg c o s = Ok s' -> spends 0 s s'.
Proof.
  intros Hp H. apply leaf_inv in H as [_ H]; [|done].
  destruct c; try done; try (destruct H as (x & _ & ->); by apply spends_cap).
  - destruct c; cbn [cap_dispatch] in H; try done; apply lift_ok in H as (x & H & E); injection E as <-.
    + by eapply (op_spends s (OpStake _ _ _ _)).
    + by eapply (op_spends s (OpUnstake _ _ _)).
    + by eapply (op_spends s (OpWithdraw _)).
  - apply spends_cap. destruct c; cbn [time_dispatch] in H; try done; apply lift_ok in H as (x & _ & E).
    + by injection E as <-.
    + destruct (sc_total s0) as [a|]; [|done]. destruct (token_transfer _ _ _ _ _ _) as [s1|] eqn:Et; [|done].
      injection E as <-. apply transfer_same in Et as [-> _]. done.
    + by injection E as <-.
  - apply spends_cap. apply bal_dispatch_same in H. exact (f_equal rs_cap H).
  - rewrite H. by apply spends_cap.
  - subst s'. by apply spends_cap.
Qed.

Lemma token_tx_spends s t s' r : pays_with_capacity (tx_call t) = None -> tx_apply cfg s t = Ok (s', r) -> spends 0 s s'.
Proof.
  intros Hn H. unfold tx_apply in H. destruct (check_nonce _ _ _ _) as [s1|] eqn:E1; [|done].
  destruct (withdraw_fee _ _ _ _ _ _) as [s2|] eqn:E2; [|done]. destruct (free_use _ _ _); [|done].
  injection H as H. apply spends0_trans with s1; [|apply spends0_trans with s2].
  - apply RtFinal.check_ok in E1 as [_ ->]. destruct (_ || _); by apply spends_cap.
  - assert (E3 : withdraw_token_fee cfg s1 (tx_who t) (tx_call t) (tx_len t) (tx_tip t) = Ok s2) by (by destruct (tx_call t)).
    unfold withdraw_token_fee in E3. destruct (_ =? 0); [injection E3 as <-; by apply spends_cap|].
    destruct (token_debit _ _ _ _ _) as [x|] eqn:Ed; [|done]. injection E3 as <-.
    apply debit_same in Ed as [-> _]. by apply spends_cap.
  - eapply (run_call_rel cfg (spends 0)); [by intros; apply spends_cap|exact spends0_trans| |exact H].
    intros c' o s3 s4 _ Hp. by apply leaf_spends.
Qed.

Lemma capacity_tx_spends s t s' r calls : pays_with_capacity (tx_call t) = Some calls -> tx_len t <= u32_max ->
  tx_apply cfg s t = Ok (s', r) ->
  spends (if bool_decide (ms_keys (rs_msa s) !! tx_who t = Some m) then capacity_fee calls (tx_len t) else 0) s s'.
Proof.
  intros Hc Hl H.
  assert (Hw : wraps (tx_call t) calls).
  { destruct (tx_call t); try done; injection Hc as <-; [left; eauto|by right]. }
  apply (RtFinal2.pay_ok _ _ _ _ _ Hw Hl) in H as (_ & He & _ & m' & y & Hm & Hy & Eo).
  symmetry in Eo. apply (RtFinal2.run_call_money _ _ _ _ _ _ _ Hw He) in Eo. unfold RtFinal2.money in Eo.
  injection Eo as E1 _ _ _ _ _.
  destruct (CapProofs.payment_lemma (r_cap cfg) (rs_cap s) m' (capacity_fee calls (tx_len t))) as [_ Hp].
  destruct (Hp y Hy) as (_ & _ & _ & _ & _ & Hlog & _).
  eexists [_]. rewrite E1. split; [exact Hlog|]. unfold spent, log_sum. cbn.
  unfold MsaSpec.controls in Hm. rewrite Hm.
  destruct (N.eqb_spec m' m) as [->|Hne].
  - rewrite bool_decide_true by done. lia.
  - rewrite bool_decide_false by congruence. done.
Qed.

Lemma fees_spent h : forall s, lengths_ok h -> spends (sumN (capacity_fees cfg m s h)) s (rt_run cfg s h).
Proof.
  induction h as [|x h IH]; intros s Hl; [by apply spends_cap|]. inversion Hl as [|? ? Hx Hh]; subst.
  change (rt_run cfg s (x :: h)) with (rt_run cfg (rt_step cfg s x) h). cbn [capacity_fees]. rewrite sumN_app.
  eapply spends_trans; [|by apply IH].
  destruct x as [r|t|p|c]; cbn [rt_step].
  - apply spends_log. cbn [next_block rs_cap]. unfold on_initialize. by destruct (_ <=? _).
  - destruct (pays_with_capacity (tx_call t)) as [calls|] eqn:Ec.
    + destruct (tx_apply cfg s t) as [[s' r]|] eqn:E; cbn [is_ok andb]; [|by apply spends_cap].
      pose proof (capacity_tx_spends _ _ _ _ _ Ec Hx E) as H. destruct (bool_decide _); [|exact H].
      cbn [sumN]. by rewrite N.add_0_r.
    + destruct (tx_apply cfg s t) as [[s' r]|] eqn:E; [by eapply token_tx_spends|by apply spends_cap].
  - destruct (passkey_apply _ _ _) as [[s' r]|] eqn:E; [|by apply spends_cap].
    unfold passkey_apply in E. destruct (negb _); [|done]. destruct (passkey_filter _); [|done]. destruct (r_verify _ _ _ _); [|done].
    destruct (check_nonce _ _ _ _) as [s1|] eqn:E1; [|done]. destruct (withdraw_token_fee _ _ _ _ _ _) as [s2|] eqn:E2; [|done].
    injection E as E. apply spends0_trans with s1; [|apply spends0_trans with s2].
    + apply RtFinal.check_ok in E1 as [_ ->]. destruct (_ || _); by apply spends_cap.
    + unfold withdraw_token_fee in E2. destruct (_ =? 0); [injection E2 as <-; by apply spends_cap|].
      destruct (token_debit _ _ _ _ _) as [x|] eqn:Ed; [|done]. injection E2 as <-.
      apply debit_same in Ed as [-> _]. by apply spends_cap.
    + eapply (run_call_rel cfg (spends 0)); [by intros; apply spends_cap|exact spends0_trans| |exact E].
      intros c' o s3 s4 _ Hp. by apply leaf_spends.
  - destruct (gov_apply _ _ _) as [s'|] eqn:E; [|by apply spends_cap].
    destruct c; cbn [gov_apply] in E; apply lift_ok in E as (x & H & E'); injection E' as <-; try (by apply spends_cap).
    by eapply (op_spends s (OpSetEpochLength true _)).
Qed.

Lemma fees_lower s h : Forall (fun f => 177812 <= f) (capacity_fees cfg m s h).
Proof.
  revert s. induction h as [|x h IH]; intros s; [constructor|]. cbn [capacity_fees]. apply Forall_app. split; [|apply IH].
  destruct x as [r|t|p|c]; try constructor. destruct (pays_with_capacity _); [|constructor].
  destruct (_ && _); constructor; [|constructor]. unfold capacity_fee. lia.
Qed.
Lemma sum_lower n l : Forall (fun f => n <= f) l -> n * len l <= sumN l.
Proof. unfold len. induction 1; cbn [sumN length]; [lia|]. lia. Qed.

Lemma throughput b mm v h1 h2 : relays_from 0 (h1 ++ h2) -> lengths_ok h2 ->
  let s := rt_run cfg (rt_start b mm v) h1 in
  let s' := rt_run cfg s h2 in
  cs_epoch (rs_cap s') = cs_epoch (rs_cap s) ->
  exists l, cs_log (rs_cap s') = cs_log (rs_cap s) ++ l
    /\ spent m l = sumN (capacity_fees cfg m s h2)
    /\ sumN (capacity_fees cfg m s h2) <= issued (rs_cap s) m + granted m l
    /\ 177812 * len (capacity_fees cfg m s h2) <= issued (rs_cap s) m + granted m l.
Proof.
  intros Hr Hl s s' He. destruct (fees_spent h2 s Hl) as (l & El & Hs). fold s' in El.
  assert (H1 : relays_from 0 h1 /\ relays_from (rs_relay s) h2).
  { split.
    - clear -Hr. revert Hr. generalize 0 as r. induction h1 as [|[] h1 IH]; cbn; intros r Hr; try done; try (by apply IH). destruct Hr. split; [done|by apply IH].
    - subst s. clear -Hr. assert (G : forall s0, relays_from (rs_relay s0) (h1 ++ h2) -> relays_from (rs_relay (rt_run cfg s0 h1)) h2).
      { clear. induction h1 as [|x h1 IH]; intros s0 H; [done|].
        change (rt_run cfg s0 (x :: h1)) with (rt_run cfg (rt_step cfg s0 x) h1). apply IH.
        destruct x as [r|t|p|c]; cbn [app relays_from] in H.
        - destruct H as [_ H]. exact H.
        - by rewrite (proj1 (step_relay cfg (STx t) s0 ltac:(done))).
        - by rewrite (proj1 (step_relay cfg (SPasskey p) s0 ltac:(done))).
        - by rewrite (proj1 (step_relay cfg (SGov c) s0 ltac:(done))). }
      apply G. exact Hr. }
  destruct H1 as [H1 H2].
  destruct (steps_cap cfg false _ _ (run_micro cfg h1 (rt_start b mm v) H1)) as (hc1 & Ec1 & _).
  destruct (steps_cap cfg false _ _ (run_micro cfg h2 s H2)) as (hc2 & Ec2 & Hn). fold s' in Ec2. fold s in Ec1.
  change (rs_cap (rt_start b mm v)) with cap_genesis in Ec1. rewrite Ec1 in Ec2. rewrite Ec2, Ec1 in He.
  destruct (CapProofs.spend_bound_lemma (r_cap cfg) hc1 hc2 m Hn He) as (l' & El' & Hb).
  rewrite <- Ec2, <- Ec1 in *. rewrite El in El'. apply app_inv_head in El' as <-.
  pose proof (sum_lower _ _ (fees_lower s h2)). exists l. split; [done|]. split; [done|]. split; lia.
Qed.
End cap.

Section count.
Context {K A : Type} `{Countable K}.
Implicit Types (p : A -> bool) (m : gmap K A).
Definition bit (b : bool) : N := if b then 1 else 0.
Lemma count_new p m k v : m !! k = None -> count_if p (<[k := v]> m) = count_if p m + bit (p v).
Proof. intros E. unfold count_if. rewrite msum_insert_new by done. unfold bit. lia. Qed.
Lemma count_over p m k v old : m !! k = Some old -> count_if p (<[k := v]> m) + bit (p old) = count_if p m + bit (p v).
Proof. intros E. exact (msum_insert (fun _ x => bit (p x)) m k v old E). Qed.
Lemma count_insert p m k v : count_if p (<[k := v]> m) <= count_if p m + 1.
Proof.
  destruct (m !! k) as [old|] eqn:E.
  - pose proof (count_over p m k v old E). destruct (p v), (p old); cbn in *; lia.
  - rewrite count_new by done. destruct (p v); cbn; lia.
Qed.
Lemma count_delete p m k v : m !! k = Some v -> count_if p (delete k m) + bit (p v) = count_if p m.
Proof. intros E. pose proof (msum_delete (fun _ x => bit (p x)) m k v E) as D. unfold count_if. unfold bit in *. lia. Qed.
Lemma count_delete_le p m k : count_if p (delete k m) <= count_if p m.
Proof.
  destruct (m !! k) as [old|] eqn:E; [|by rewrite delete_notin].
  pose proof (count_delete p m k old E). lia.
Qed.
End count.

Section free.
Variable cfg : RtCfg.
Notation all_keys := (count_if (fun _ => true)).
Notation actives := (count_if (fun dg => dg_revoked dg =? 0)).

Lemma things_same s s' : rs_msa s' = rs_msa s -> rs_h s' = rs_h s -> things s' = things s.
Proof. intros E1 E2. unfold things. by rewrite E1, E2. Qed.

Lemma keys_grow env st o c st' : msa_dispatch (r_msa cfg) env st o c = Ok st' -> all_keys (ms_keys st') <= all_keys (ms_keys st) + 1.
Proof.
  intros H. apply MsaProofs.dispatch_key_effect in H. destruct H; match goal with E : ms_keys st' = _ |- _ => rewrite E end.
  - lia.
  - apply count_insert.
  - apply count_insert.
  - etransitivity; [apply count_delete_le|lia].
Qed.
Lemma delegs_grow env st o c st' : msa_dispatch (r_msa cfg) env st o c = Ok st' -> actives (ms_deleg st') <= actives (ms_deleg st) + 1.
Proof.
  intros H. apply MsaDelegProofs.dispatch_deleg_effect in H.
  destruct H; match goal with E : ms_deleg st' = _ |- _ => rewrite E end; try apply count_insert. lia.
Qed.
Lemma claim_name st m p st' d : do_claim (r_h cfg) st m p = Ok (st', d) ->
  exists v, hs_name st !! m = None /\ hs_name st' = <[m := v]> (hs_name st).
Proof.
  unfold do_claim. intros H. destruct (hs_name st !! m); [done|]. 
  repeat match type of H with
  | context [match ?x with _ => _ end] => destruct x; try done
  end.
  injection H as <- <-. eauto.
Qed.
Lemma retire_name st m st' d : do_retire (r_h cfg) st m = Ok (st', d) ->
  exists v, hs_name st !! m = Some v /\ hs_name st' = delete m (hs_name st).
Proof.
  unfold do_retire. intros H. destruct (hs_name st !! m) as [[x e]|]; [|done].
  repeat match type of H with
  | context [match ?x with _ => _ end] => destruct x; try done
  end.
  injection H as <- <-. eauto.
Qed.
Lemma names_grow env st o c st' : h_dispatch (r_h cfg) env st o c = Ok st' -> all_keys (hs_name st') <= all_keys (hs_name st) + 1.
Proof.
  unfold h_dispatch. destruct o as [who|]; [|done]. intros H. destruct c as [k pr p| |k pr p].
  - unfold claim_handle in H. destruct (claim_checks _ _ _ _ _) as [m|]; [|done].
    destruct (do_claim _ _ _ _) as [[s1 d]|] eqn:E; [|done]. injection H as <-. apply claim_name in E as (v & _ & E).
    cbn. rewrite E. apply count_insert.
  - unfold retire_handle in H. destruct (he_msa_of _ _) as [m|]; [|done]. destruct (do_retire _ _ _) as [[s1 d]|] eqn:E; [|done].
    injection H as <-. apply retire_name in E as (v & _ & E). cbn. rewrite E. etransitivity; [apply count_delete_le|lia].
  - unfold change_handle in H. destruct (claim_checks _ _ _ _ _) as [m|]; [|done]. destruct (hs_name st !! m); [|done].
    destruct (do_retire _ _ _) as [[s1 d]|] eqn:E; [|done]. destruct (do_claim _ _ _ _) as [[s2 d']|] eqn:E'; [|done].
    injection H as <-. apply claim_name in E' as (v & _ & E'). apply retire_name in E as (v' & _ & E).
    cbn. rewrite E'. cbn. rewrite E. etransitivity; [apply count_insert|].
    pose proof (count_delete_le (fun _ => true) (hs_name st) m). lia.
Qed.

Lemma leaf_things c o s s' : plain c -> rt_dispatch cfg c o s = Ok s' -> things s' <= things s + 2.
Proof.
  intros Hp H. apply leaf_inv in H as [_ H]; [|done].
  assert (E0 : rs_msa s' = rs_msa s -> rs_h s' = rs_h s -> things s' <= things s + 2) by (intros; rewrite (things_same s s') by done; lia).
  destruct c; try done; try (destruct H as (x & _ & ->); by apply E0).
  - destruct H as (x & H & ->). unfold things. cbn. pose proof (keys_grow _ _ _ _ _ H). pose proof (delegs_grow _ _ _ _ _ H). lia.
  - destruct H as (x & H & ->). unfold things. cbn. pose proof (names_grow _ _ _ _ _ H). lia.
  - destruct c; cbn [cap_dispatch] in H; try done; apply lift_ok in H as (x & H & E); injection E as <-; by apply E0.
  - destruct c; cbn [time_dispatch] in H; try done; apply lift_ok in H as (x & _ & E).
    + injection E as <-. by apply E0.
    + destruct (sc_total s0) as [a|]; [|done]. destruct (token_transfer _ _ _ _ _ _) as [s1|] eqn:Et; [|done].
      injection E as <-. apply transfer_same in Et as [Et _]. apply E0; by rewrite Et.
    + injection E as <-. by apply E0.
  - apply bal_dispatch_same in H. apply E0; [exact (f_equal rs_msa H)|exact (f_equal rs_h H)].
  - apply E0; by rewrite H.
  - subst s'. by apply E0.
Qed.

Lemma len_app {A} (a b : list A) : len (a ++ b) = len a + len b.
Proof. unfold len. rewrite app_length. lia. Qed.

Lemma batch_things k (f : RtCall -> RtState -> res RtErr RtState) l :
  Forall (fun c => forall s s', f c s = Ok s' -> things s' <= things s + 2 * len (leaves c)) l ->
  forall s s', run_batch k f l s = Ok s' -> things s' <= things s + 2 * len (concat (map leaves l)).
Proof.
  induction 1 as [|c l Hc _ IH]; intros s s' H; cbn [run_batch map concat] in *; [injection H as <-; lia|].
  rewrite len_app. destruct (f c s) as [s1|] eqn:E.
  - apply Hc in E. apply IH in H. lia.
  - destruct k; [injection H as <-; lia|done|]. apply IH in H. lia.
Qed.
Lemma tree_things : forall c o s s', rt_dispatch cfg c o s = Ok s' -> things s' <= things s + 2 * len (leaves c).
Proof.
  induction c as [c Hl|k l IH|c IH|l IH|r f c IH|os c IH] using call_ind; intros o s s' H.
  - assert (E : leaves c = [c]) by (by destruct c). rewrite E. change (2 * len [c]) with 2. by eapply leaf_things.
  - cbn [rt_dispatch] in H. destruct (base_filter _ _ && _); [|done].
    cbn [leaves]. eapply batch_things; [|exact H]. eapply Forall_impl; [exact IH|]. intros c Hc ? ?. apply Hc.
  - cbn [rt_dispatch] in H. destruct (base_filter _ _ && _); [|done]. by apply IH in H.
  - cbn [rt_dispatch] in H. destruct (base_filter _ _ && _); [|done]. destruct (_ <=? _); [|done].
    cbn [leaves]. eapply batch_things; [|exact H]. eapply Forall_impl; [exact IH|]. intros c Hc ? ?. apply Hc.
  - cbn [rt_dispatch] in H. destruct (base_filter _ _ && _); [|done]. destruct (find_proxy _ _ _ _) as [t|]; [|done].
    destruct (rt_dispatch _ c _ s) as [s1|] eqn:E; injection H as <-; [by apply IH in E|lia].
  - cbn [rt_dispatch] in H. destruct (base_filter _ _ && _); [|done]. by apply IH in H.
Qed.

(** Everything but the call. *)
Lemma debit_parts s k w a s' : token_debit cfg s k w a = Some s' -> rs_msa s' = rs_msa s /\ rs_h s' = rs_h s /\ rs_block s' = rs_block s.
Proof. intros E. apply debit_same in E as [-> _]. done. Qed.
Lemma token_fee_parts s w c n tip s' : withdraw_token_fee cfg s w c n tip = Ok s' -> rs_msa s' = rs_msa s /\ rs_h s' = rs_h s /\ rs_block s' = rs_block s.
Proof.
  unfold withdraw_token_fee. destruct (_ =? 0); [by intros [= <-]|]. destruct (token_debit _ _ _ _ _) eqn:E; [|done].
  intros [= <-]. by eapply debit_parts.
Qed.
Lemma check_parts s w n b s' : check_nonce s w n b = Ok s' -> rs_msa s' = rs_msa s /\ rs_h s' = rs_h s /\ rs_block s' = rs_block s.
Proof. intros E. apply RtFinal.check_ok in E as [_ ->]. by destruct (_ || _). Qed.
Lemma tx_parts s t s' r : tx_apply cfg s t = Ok (s', r) -> exists s2, rs_msa s2 = rs_msa s /\ rs_h s2 = rs_h s /\ rs_block s2 = rs_block s
  /\ free_use s2 (tx_who t) (tx_call t) = Ok tt /\ run_call cfg (tx_call t) (signed (tx_who t)) s2 = (s', r).
Proof.
  unfold tx_apply. intros H. destruct (check_nonce _ _ _ _) as [s1|] eqn:E1; [|done].
  destruct (withdraw_fee _ _ _ _ _ _) as [s2|] eqn:E2; [|done]. destruct (free_use _ _ _) as [[]|] eqn:E3; [|done].
  apply check_parts in E1 as (A1 & A2 & A3). exists s2.
  assert (B : rs_msa s2 = rs_msa s1 /\ rs_h s2 = rs_h s1 /\ rs_block s2 = rs_block s1).
  { assert (C : forall l, withdraw_capacity_fee cfg s1 (tx_who t) l (tx_len t) = Ok s2 -> rs_msa s2 = rs_msa s1 /\ rs_h s2 = rs_h s1 /\ rs_block s2 = rs_block s1).
    { unfold withdraw_capacity_fee. intros l Hl. destruct (capacity_charge _ _); [|done]. destruct (_ <=? _); [|done].
      destruct (ms_keys _ !! _); [|done]. destruct (cap_spend _ _ _); [|done]. by injection Hl as <-. }
    unfold withdraw_fee in E2. destruct (tx_call t); try (by eapply token_fee_parts); by eapply C. }
  destruct B as (B1 & B2 & B3). rewrite B1, B2, B3. injection H as H. by rewrite A1, A2, A3, H.
Qed.

Lemma block_same_leaf c o s s' : plain c -> rt_dispatch cfg c o s = Ok s' -> rs_block s' = rs_block s.
Proof.
  intros Hp H. apply leaf_inv in H as [_ H]; [|done].
  destruct c; try done; try (by destruct H as (x & _ & ->)).
  - destruct c; cbn [cap_dispatch] in H; try done; apply lift_ok in H as (x & H & E); by injection E as <-.
  - destruct c; cbn [time_dispatch] in H; try done; apply lift_ok in H as (x & _ & E).
    + by injection E as <-.
    + destruct (sc_total s0) as [a|]; [|done]. destruct (token_transfer _ _ _ _ _ _) as [s1|] eqn:Et; [|done].
      injection E as <-. by apply transfer_same in Et as [-> _].
    + by injection E as <-.
  - destruct c; cbn [bal_dispatch] in H; by apply transfer_same in H as [-> _].
  - by rewrite H.
  - by subst s'.
Qed.

Lemma revoke_things st pid did env st' : 0 < e_block env -> revoke_provider env st pid did = Ok st' ->
  ms_keys st' = ms_keys st /\ actives (ms_deleg st') + 1 = actives (ms_deleg st).
Proof.
  intros Hb H. unfold revoke_provider in H. destruct (ms_deleg st !! _) as [d|] eqn:E; [|done].
  destruct (dg_revoked d =? 0) eqn:E0; [|done]. injection H as <-. split; [done|]. cbn.
  pose proof (count_over (fun dg => dg_revoked dg =? 0) _ _ {| dg_revoked := e_block env; dg_perms := dg_perms d |} _ E) as C.
  cbn in C. rewrite E0 in C. assert (F : e_block env =? 0 = false) by (apply N.eqb_neq; lia). rewrite F in C. cbn in C. lia.
Qed.
Lemma delete_things st m k st' : delete_key_for_msa st m k = Ok st' ->
  all_keys (ms_keys st') + 1 = all_keys (ms_keys st) /\ ms_deleg st' = ms_deleg st.
Proof.
  unfold delete_key_for_msa. intros H. destruct (ms_keys st !! k) as [x|] eqn:E; [|done]. injection H as <-. split; [|done]. cbn.
  exact (count_delete (fun _ => true) _ _ _ E).
Qed.

Lemma undo s t s' : 0 < rs_block s -> is_pays_no_call (tx_call t) = true -> tx_apply cfg s t = Ok (s', None) -> things s' + 1 = things s.
Proof.
  intros Hb Hf H. apply tx_parts in H as (s2 & A1 & A2 & A3 & Hu & Hr). rewrite <- (things_same s s2) by done. rewrite <- A3 in Hb. clear A1 A2 A3.
  unfold run_call in Hr. destruct (rt_dispatch _ _ _ _) as [s3|] eqn:E; [|done]. injection Hr as ->.
  assert (Hp : plain (tx_call t)) by (by destruct (tx_call t)). apply leaf_inv in E as [_ E]; [|done].
  destruct (tx_call t) as [c|c| | | | | | | | | | | | |]; try done.
  - destruct E as (x & E & ->). cbn [free_use] in Hu. destruct (msa_validate _ _ _ _) eqn:Hv; [|done]. clear Hu.
    unfold things. cbn [rs_msa rs_h up_msa_]. destruct c; try done; cbn [msa_dispatch msa_validate signed_ o_who signed] in *;
      [destruct (ms_keys (rs_msa s2) !! tx_who t); [|done]; apply (revoke_things (rs_msa s2)) in E as [-> E]; [lia|done]| | |].
    + destruct (ms_keys (rs_msa s2) !! tx_who t) as [m|] eqn:Ek; [|by unfold validate_key_delete in Hv; rewrite Ek in Hv; destruct (negb _)].
      destruct (delete_key_for_msa _ _ _) as [y|] eqn:Ed; [|done]. injection E as <-. apply delete_things in Ed as [Ed Ed']. cbn. rewrite Ed'. lia.
    + destruct (ms_keys (rs_msa s2) !! tx_who t); [|done]; apply (revoke_things (rs_msa s2)) in E as [-> E]; [lia|done].
    + destruct (ms_keys (rs_msa s2) !! tx_who t) as [m|] eqn:Ek; [|by unfold ensure_msa_can_retire in Hv; rewrite Ek in Hv].
      destruct (delete_key_for_msa _ _ _) as [y|] eqn:Ed; [|done]. injection E as <-. apply delete_things in Ed as [Ed Ed']. cbn. rewrite Ed'. lia.
  - destruct c; try done. destruct E as (x & E & ->). cbn [h_dispatch] in E. unfold retire_handle in E.
    destruct (he_msa_of _ _) as [m|]; [|done]. destruct (do_retire _ _ _) as [[s1 d]|] eqn:Ed; [|done].
    injection E as <-. apply retire_name in Ed as (v & Ev & Ed). unfold things. cbn. rewrite Ed.
    pose proof (count_delete (fun _ => true) _ _ _ Ev) as C. cbn in C. lia.
Qed.

Lemma step_block x s : rs_block s <= rs_block (rt_step cfg s x).
Proof.
  assert (R : forall c o st st' r, run_call cfg c o st = (st', r) -> rs_block st' = rs_block st).
  { intros c o st st' r H. symmetry. eapply (run_call_rel cfg (fun a b => rs_block a = rs_block b)); [done|by intros ??? -> ->| |exact H].
    intros c' o' a b _ Hp Hd. symmetry. by eapply block_same_leaf. }
  destruct x as [r|t|p|c]; cbn [rt_step].
  - cbn. lia.
  - destruct (tx_apply cfg s t) as [[s' r]|] eqn:E; [|lia]. apply tx_parts in E as (s2 & _ & _ & <- & _ & E). apply R in E. lia.
  - destruct (passkey_apply cfg s p) as [[s' r]|] eqn:E; [|lia].
    unfold passkey_apply in E. destruct (negb _); [|done]. destruct (passkey_filter _); [|done]. destruct (r_verify _ _ _ _); [|done].
    destruct (check_nonce _ _ _ _) as [s1|] eqn:E1; [|done]. destruct (withdraw_token_fee _ _ _ _ _ _) as [s2|] eqn:E2; [|done].
    apply check_parts in E1 as (_ & _ & E1). apply token_fee_parts in E2 as (_ & _ & E2). injection E as E. apply R in E. lia.
  - destruct (gov_apply cfg s c) as [s'|] eqn:E; [|lia].
    destruct c; cbn [gov_apply] in E; apply lift_ok in E as (x & _ & E'); injection E' as <-; cbn; lia.
Qed.

Definition free1 (s : RtState) (x : RtStep) : N :=
  match x with STx t => match tx_apply cfg s t with Ok (_, None) => if is_pays_no_call (tx_call t) then 1 else 0 | _ => 0 end | _ => 0 end.
Definition paid1 (x : RtStep) : list RtCall :=
  match x with STx t => if is_pays_no_call (tx_call t) then [] else leaves (tx_call t) | _ => [] end.

Lemma step_things x s : 0 < rs_block s -> free1 s x + things (rt_step cfg s x) <= things s + 2 * len (paid1 x).
Proof.
  intros Hb. destruct x as [r|t|p|c]; cbn [rt_step free1 paid1].
  - rewrite (things_same s (next_block s r)) by done. lia.
  - destruct (tx_apply cfg s t) as [[s' r]|] eqn:E; [|lia].
    destruct (is_pays_no_call (tx_call t)) eqn:Ef.
    + destruct r as [e|].
      * apply tx_parts in E as (s2 & A1 & A2 & _ & _ & E). unfold run_call in E. destruct (rt_dispatch _ _ _ _); [done|].
        injection E as <- _. rewrite (things_same s s2) by done. lia.
      * apply undo in E; [|done|done]. lia.
    + destruct (tx_parts _ _ _ _ E) as (s2 & A1 & A2 & _ & _ & Er). unfold run_call in Er.
      assert (things s' <= things s + 2 * len (leaves (tx_call t))); [|destruct r; lia].
      rewrite <- (things_same s s2) by done. destruct (rt_dispatch _ _ _ _) as [s3|] eqn:Ed; injection Er as <- _; [by eapply tree_things|lia].
  - destruct (passkey_apply cfg s p) as [[s' r]|] eqn:E; [|lia].
    unfold passkey_apply in E. destruct (negb _); [|done]. destruct (passkey_filter _) eqn:Ef; [|done]. destruct (r_verify _ _ _ _); [|done].
    destruct (check_nonce _ _ _ _) as [s1|] eqn:E1; [|done]. destruct (withdraw_token_fee _ _ _ _ _ _) as [s2|] eqn:E2; [|done].
    apply check_parts in E1 as (A1 & A2 & _). apply token_fee_parts in E2 as (B1 & B2 & _). injection E as E. unfold run_call in E.
    destruct (rt_dispatch _ _ _ _) as [s3|] eqn:Ed; injection E as <- _.
    + destruct (pk_call p) eqn:Ep; try done. apply leaf_inv in Ed as [_ Ed]; [|done]. apply bal_dispatch_same in Ed.
      rewrite (things_same s s3); [lia| |].
      * rewrite (f_equal rs_msa Ed : rs_msa s3 = rs_msa s2). congruence.
      * rewrite (f_equal rs_h Ed : rs_h s3 = rs_h s2). congruence.
    + rewrite (things_same s s2); [lia|congruence|congruence].
  - destruct (gov_apply cfg s c) as [s'|] eqn:E; [|lia].
    destruct c; cbn [gov_apply] in E; apply lift_ok in E as (x & H & E'); injection E' as <-;
      try (rewrite (things_same s) by done; lia).
    assert (D : ms_keys x = ms_keys (rs_msa s) /\ ms_deleg x = ms_deleg (rs_msa s)).
    { destruct (MsaProofs.dispatch_key_effect _ _ _ _ _ _ H) as [E|? [[? ?]|(? & ? & ? & ? & ?)]|? ? ? ? ? ?|? ? ? ?]; try done.
      destruct (MsaDelegProofs.dispatch_deleg_effect _ _ _ _ _ _ H); done. }
    unfold things. cbn. destruct D as [-> ->]. lia.
Qed.

Lemma advance h : forall s, 0 < rs_block s -> free_successes cfg s h + things (rt_run cfg s h) <= things s + 2 * len (paid_calls h).
Proof.
  induction h as [|x h IH]; intros s Hb; [cbn; lia|].
  change (rt_run cfg s (x :: h)) with (rt_run cfg (rt_step cfg s x) h).
  change (free_successes cfg s (x :: h)) with (free1 s x + free_successes cfg (rt_step cfg s x) h).
  change (paid_calls (x :: h)) with (paid1 x ++ paid_calls h). rewrite len_app.
  pose proof (step_things x s Hb). pose proof (step_block x s). specialize (IH (rt_step cfg s x) ltac:(lia)). lia.
Qed.

Lemma noop_run s t r : tx_apply cfg s t = Ok (s, r) -> forall n, rt_run cfg s (replicate n (STx t)) = s.
Proof.
  intros E. induction n as [|n IH]; [done|].
  change (rt_run cfg s (replicate (S n) (STx t))) with (rt_run cfg (rt_step cfg s (STx t)) (replicate n (STx t))).
  cbn [rt_step]. by rewrite E.
Qed.
End free.
