(** Lemmas for C155. *)
From Verif Require Import Prelude CapModel TrModel FeeModel RtModel SendSpec.

Section send.
Variable cfg : RtCfg.
Lemma debit_keep s w a s' : token_debit cfg s true w a = Some s' <->
  a + N.max (frozen s w) (r_ed cfg) <= balance s w /\ s' = up_bal_ s (<[w := balance s w - a]> (rs_bal s)).
Proof.
  unfold token_debit. destruct (N.ltb_spec (balance s w) a); [split; [done|lia]|].
  destruct (N.ltb_spec (balance s w - a) (frozen s w)); [split; [done|lia]|].
  destruct (N.ltb_spec (balance s w - a) (r_ed cfg)); cbn [orb]; [split; [done|lia]|].
  split; [intros [= <-]; split; [lia|done]|by intros [_ ->]].
Qed.
Lemma credit_iff s w a s' : token_credit cfg s w a = Some s' <->
  r_ed cfg <= balance s w + a <= u128_max /\ s' = up_bal_ s (<[w := balance s w + a]> (rs_bal s)).
Proof.
  unfold token_credit. destruct (N.ltb_spec (balance s w + a) (r_ed cfg)); [split; [done|lia]|].
  destruct (N.ltb_spec u128_max (balance s w + a)); [split; [done|lia]|].
  split; [intros [= <-]; split; [lia|done]|by intros [_ ->]].
Qed.
Lemma bal_up s w v x : balance (up_bal_ s (<[w := v]> (rs_bal s))) x = if w =? x then v else balance s x.
Proof.
  unfold balance; cbn. destruct (N.eqb_spec w x) as [->|H]; [by rewrite lookup_insert|by rewrite lookup_insert_ne].
Qed.
Lemma frozen_up s w v x : frozen (up_bal_ s (<[w := v]> (rs_bal s))) x = frozen s x.
Proof. done. Qed.
Lemma transfer_iff s w to a s' : w <> to -> token_transfer cfg s true w to a = Ok s' <->
  a + N.max (frozen s w) (r_ed cfg) <= balance s w /\ r_ed cfg <= balance s to + a <= u128_max
  /\ s' = up_bal_ s (<[to := balance s to + a]> (<[w := balance s w - a]> (rs_bal s))).
Proof.
  intros Hn. unfold token_transfer. destruct (N.eqb_spec w to) as [|_]; [done|].
  destruct (token_debit cfg s true w a) as [s1|] eqn:E1.
  - apply debit_keep in E1 as [H1 ->]. destruct (token_credit _ _ _ _) as [s2|] eqn:E2.
    + apply credit_iff in E2 as [H2 ->]. rewrite bal_up in H2 |- *. destruct (N.eqb_spec w to); [done|].
      split; [intros [= <-]; split; [done|split; [done|done]]|by intros (_ & _ & ->)].
    + split; [done|]. intros (_ & H2 & _).
      assert (C : token_credit cfg (up_bal_ s (<[w := balance s w - a]> (rs_bal s))) to a = Some (up_bal_ (up_bal_ s (<[w := balance s w - a]> (rs_bal s))) (<[to := balance (up_bal_ s (<[w := balance s w - a]> (rs_bal s))) to + a]> (rs_bal (up_bal_ s (<[w := balance s w - a]> (rs_bal s))))))).
      { apply credit_iff. split; [|done]. rewrite bal_up. destruct (N.eqb_spec w to); done. }
      by rewrite C in E2.
  - split; [done|]. intros (H1 & _). assert (C : token_debit cfg s true w a = Some (up_bal_ s (<[w := balance s w - a]> (rs_bal s)))) by (by apply debit_keep).
    by rewrite C in E1.
Qed.

Lemma send_lemma s w to a n tip : w <> to ->
  let fee := r_token_fee cfg (pay_call to a) n tip in
  (exists s', tx_apply cfg s (pay_tx s w to a n tip) = Ok (s', None)) <->
  fee + a + N.max (frozen s w) (r_ed cfg) <= balance s w /\ r_ed cfg <= balance s to + a <= u128_max.
Proof.
  intros Hn fee. unfold tx_apply, pay_tx. cbn [tx_who tx_nonce tx_call tx_len tx_tip]. unfold check_nonce. rewrite !N.leb_refl. cbn [pay_call is_pays_no_call negb orb].
  set (s1 := up_nonce_ _ _).
  change (withdraw_fee cfg s1 w (pay_call to a) n tip) with (withdraw_token_fee cfg s1 w (pay_call to a) n tip).
  assert (D : forall s2, run_call cfg (pay_call to a) (signed w) s2 =
     match token_transfer cfg s2 true w to a with Ok x => (x, None) | Err e => (s2, Some e) end).
  { intros s2. unfold run_call, pay_call. cbn [rt_dispatch base_filter is_create_call]. rewrite andb_false_r. cbn [negb andb].
    change (o_who (signed w)) with w. replace (o_filter (signed w) (RBalances (TransferKeepAlive to a))) with true by reflexivity. cbn. by destruct (token_transfer _ _ _ _ _ _). }
  assert (T : forall s2, (exists s', run_call cfg (pay_call to a) (signed w) s2 = (s', None)) <->
     a + N.max (frozen s2 w) (r_ed cfg) <= balance s2 w /\ r_ed cfg <= balance s2 to + a <= u128_max).
  { intros s2. rewrite D. split.
    - intros [s' H]. destruct (token_transfer _ _ _ _ _ _) as [x|] eqn:E; [|done]. apply transfer_iff in E as (? & ? & _); done.
    - intros [H1 H2]. assert (E := proj2 (transfer_iff s2 w to a _ Hn) (conj H1 (conj H2 eq_refl))). rewrite E. by eexists. }
  unfold withdraw_token_fee. fold fee. destruct (N.eqb_spec fee 0) as [F|F].
  - rewrite F. cbn [free_use pay_call]. specialize (T s1). change (balance s1) with (balance s) in T. change (frozen s1) with (frozen s) in T.
    rewrite N.add_0_l. rewrite <- T. split; intros [s' H]; exists s'; [by injection H|by rewrite <- H].
  - destruct (token_debit cfg s1 true w fee) as [s2|] eqn:E1.
    + apply debit_keep in E1 as [H1 ->]. cbn [free_use pay_call]. specialize (T (up_bal_ s1 (<[w := balance s1 w - fee]> (rs_bal s1)))).
      rewrite !bal_up, frozen_up in T. rewrite N.eqb_refl in T. destruct (N.eqb_spec w to); [done|].
      change (balance s1) with (balance s) in *. change (frozen s1) with (frozen s) in *.
      transitivity (a + N.max (frozen s w) (r_ed cfg) <= balance s w - fee /\ r_ed cfg <= balance s to + a <= u128_max); [|clearbody fee; clear -H1; split; intros [X Y]; (split; [lia|exact Y])].
      rewrite <- T. split; intros [s' H]; exists s'; [by injection H|by rewrite <- H].
    + split; [by intros [s' H]|]. intros [H1 _].
      assert (H2 : fee + N.max (frozen s1 w) (r_ed cfg) <= balance s1 w).
      { change (balance s1 w) with (balance s w). change (frozen s1 w) with (frozen s w). clearbody fee. clear -H1. lia. }
      assert (C := proj2 (debit_keep s1 w fee _) (conj H2 eq_refl)). by rewrite C in E1.
Qed.

Lemma sent_lemma s w to a n tip s' : w <> to ->
  tx_apply cfg s (pay_tx s w to a n tip) = Ok (s', None) ->
  balance s' w + r_token_fee cfg (pay_call to a) n tip + a = balance s w /\ balance s' to = balance s to + a
  /\ (forall x, x <> w -> x <> to -> balance s' x = balance s x) /\ (forall x, frozen s' x = frozen s x).
Proof.
  intros Hn H. pose proof (proj1 (send_lemma s w to a n tip Hn) (ex_intro _ s' H)) as [P1 P2]. revert P1. set (fee := r_token_fee cfg (pay_call to a) n tip) in *. intros P1.
  revert H. unfold tx_apply, pay_tx. cbn [tx_who tx_nonce tx_call tx_len tx_tip]. unfold check_nonce. rewrite !N.leb_refl. cbn [pay_call is_pays_no_call negb orb].
  set (s1 := up_nonce_ _ _).
  change (withdraw_fee cfg s1 w (pay_call to a) n tip) with (withdraw_token_fee cfg s1 w (pay_call to a) n tip).
  assert (W : forall s2, run_call cfg (pay_call to a) (signed w) s2 = (s', None) -> token_transfer cfg s2 true w to a = Ok s').
  { intros s2. unfold run_call, pay_call. cbn [rt_dispatch base_filter is_create_call]. rewrite andb_false_r. cbn [negb andb].
    change (o_who (signed w)) with w. replace (o_filter (signed w) (RBalances (TransferKeepAlive to a))) with true by reflexivity. cbn.
    destruct (token_transfer _ _ _ _ _ _); [by intros [= ->]|done]. }
  assert (Z : forall s2, run_call cfg (pay_call to a) (signed w) s2 = (s', None) -> balance s2 w + fee = balance s w -> (forall x, x <> w -> balance s2 x = balance s x) ->
     (forall x, frozen s2 x = frozen s x) ->
     balance s' w + fee + a = balance s w /\ balance s' to = balance s to + a
     /\ (forall x, x <> w -> x <> to -> balance s' x = balance s x) /\ (forall x, frozen s' x = frozen s x)).
  { intros s2 H B1 B2 B3. apply W in H. apply transfer_iff in H as (Q1 & Q2 & ->); [|done].
    assert (B : forall x, balance (up_bal_ s2 (<[to := balance s2 to + a]> (<[w := balance s2 w - a]> (rs_bal s2)))) x = if to =? x then balance s2 to + a else if w =? x then balance s2 w - a else balance s2 x).
    { intros x. unfold balance at 1; cbn. destruct (N.eqb_spec to x) as [->|H]; [by rewrite lookup_insert|rewrite lookup_insert_ne by done].
      destruct (N.eqb_spec w x) as [->|H']; [by rewrite lookup_insert|by rewrite lookup_insert_ne]. }
    rewrite !B, !N.eqb_refl. destruct (N.eqb_spec to w) as [|_]; [by subst|]. split; [lia|]. split; [rewrite B2; [done|congruence]|]. split.
    - intros x X1 X2. rewrite B. destruct (N.eqb_spec to x); [by subst|]. destruct (N.eqb_spec w x); [by subst|]. by apply B2.
    - intros x. exact (B3 x). }
  unfold withdraw_token_fee. fold fee. destruct (N.eqb_spec fee 0) as [F|F].
  - intros H. assert (H' : run_call cfg (pay_call to a) (signed w) s1 = (s', None)) by (cbn [free_use pay_call] in H; by injection H). apply (Z s1 H'); [rewrite F, N.add_0_r; done|done|done].
  - destruct (token_debit cfg s1 true w fee) as [s2|] eqn:E1; [|done]. apply debit_keep in E1 as [H1 ->]. cbn [free_use pay_call].
    change (balance s1) with (balance s) in *. intros H.
    assert (H' : run_call cfg (pay_call to a) (signed w) (up_bal_ s1 (<[w := balance s w - fee]> (rs_bal s1))) = (s', None)) by (cbn [free_use pay_call] in H; by injection H).
    apply (Z _ H').
    + rewrite bal_up, N.eqb_refl. lia.
    + intros x X. rewrite bal_up. destruct (N.eqb_spec w x); [by subst|done].
    + done.
Qed.

Lemma all_out s w to : w <> to -> frozen s w = 0 -> r_ed cfg <= balance s to + balance s w <= u128_max ->
  exists s', token_transfer cfg s false w to (reducible cfg s w false) = Ok s' /\ balance s' w = 0 /\ balance s' to = balance s to + balance s w.
Proof.
  intros Hn Hf Hc. assert (R : reducible cfg s w false = balance s w).
  { unfold reducible. rewrite Hf, N.eqb_refl. cbn [orb negb]. rewrite N.max_id. apply N.sub_0_r. }
  rewrite R. unfold token_transfer. destruct (N.eqb_spec w to) as [|_]; [done|].
  assert (D : exists s1, token_debit cfg s false w (balance s w) = Some s1 /\ balance s1 w = 0 /\ (forall x, x <> w -> balance s1 x = balance s x)).
  { unfold token_debit. rewrite N.ltb_irrefl, N.sub_diag, Hf. cbn [N.ltb N.compare N.eqb orb negb]. destruct (0 <? r_ed cfg).
    - eexists. split; [reflexivity|]. unfold balance; cbn. split; [by rewrite lookup_delete|]. intros x X. by rewrite lookup_delete_ne.
    - eexists. split; [reflexivity|]. split; [by rewrite bal_up, N.eqb_refl|]. intros x X. rewrite bal_up. destruct (N.eqb_spec w x); [by subst|done]. }
  destruct D as (s1 & -> & B1 & B2). assert (Bt : balance s1 to = balance s to) by (apply B2; congruence).
  rewrite <- Bt in Hc. assert (C := proj2 (credit_iff s1 to (balance s w) _) (conj Hc eq_refl)). rewrite C.
  eexists. split; [reflexivity|]. rewrite !bal_up, N.eqb_refl, Bt. destruct (N.eqb_spec to w); [by subst|]. done.
Qed.
Lemma all_lemma s w to n tip : w <> to ->
  let fee := r_token_fee cfg (all_call to) n tip in
  frozen s w = 0 -> fee + r_ed cfg <= balance s w -> r_ed cfg <= balance s to + (balance s w - fee) <= u128_max ->
  exists s', tx_apply cfg s (all_tx s w to n tip) = Ok (s', None) /\ balance s' w = 0 /\ balance s' to = balance s to + (balance s w - fee).
Proof.
  intros Hn fee Hf H1 H2. unfold tx_apply, all_tx. cbn [tx_who tx_nonce tx_call tx_len tx_tip]. unfold check_nonce. rewrite !N.leb_refl. cbn [all_call is_pays_no_call negb orb].
  set (s1 := up_nonce_ _ _).
  change (withdraw_fee cfg s1 w (all_call to) n tip) with (withdraw_token_fee cfg s1 w (all_call to) n tip).
  assert (D : forall s2, run_call cfg (all_call to) (signed w) s2 =
     match token_transfer cfg s2 false w to (reducible cfg s2 w false) with Ok x => (x, None) | Err e => (s2, Some e) end).
  { intros s2. unfold run_call, all_call. cbn [rt_dispatch base_filter is_create_call]. rewrite andb_false_r. cbn [negb andb].
    change (o_who (signed w)) with w. replace (o_filter (signed w) (RBalances (TransferAll to false))) with true by reflexivity. cbn. by destruct (token_transfer _ _ _ _ _ _). }
  assert (W : exists s2, withdraw_token_fee cfg s1 w (all_call to) n tip = Ok s2 /\ balance s2 w = balance s w - fee /\ balance s2 to = balance s to /\ frozen s2 w = 0).
  { unfold withdraw_token_fee. fold fee. destruct (N.eqb_spec fee 0) as [F|F].
    - exists s1. rewrite F, N.sub_0_r. done.
    - assert (G : fee + N.max (frozen s1 w) (r_ed cfg) <= balance s1 w).
      { change (balance s1 w) with (balance s w). change (frozen s1 w) with (frozen s w). clearbody fee. rewrite Hf. lia. }
      rewrite (proj2 (debit_keep s1 w fee _) (conj G eq_refl)). eexists. split; [reflexivity|]. rewrite !bal_up, N.eqb_refl, frozen_up.
      destruct (N.eqb_spec w to); [done|]. done. }
  destruct W as (s2 & -> & B1 & B2 & B3). cbn [free_use all_call].
  destruct (all_out s2 w to Hn B3) as (s' & E & R1 & R2); [rewrite B1, B2; exact H2|].
  exists s'. change (RBalances (TransferAll to false)) with (all_call to). rewrite D, E. split; [reflexivity|]. split; [exact R1|]. by rewrite R2, B1, B2.
Qed.
End send.
