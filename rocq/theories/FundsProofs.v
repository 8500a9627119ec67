(** Proof of property C151. *)
From Verif Require Import Prelude CommonTypes SigModel MsaModel CapModel CapSpec CapProofs TrModel StModel HModel ScModel MgModel FeeModel RtModel.
From Verif Require Import MsaSpec RtSpec RtProofs RtProj RtFinal2 FundsSpec.

Lemma unstake_all cfg st s t st' : 0 < active st s -> cap_apply cfg st (OpUnstake s t (active st s)) = Ok st' ->
  active st' s = 0 /\ unlocking st' s = unlocking st s + active st s.
Proof.
  intros Ha Hs. apply apply_effect in Hs.
  assert (cs_staking st !! s = Some (active st s)) as Es.
  { unfold active in *. destruct (cs_staking st !! s); cbn in *; [done|lia]. }
  inversion Hs; subst; clear Hs. rewrite Es in *.
  assert (a0 = active st s) as -> by congruence.
  assert (a' = 0 /\ actual = active st s) as [-> ->] by lia.
  split.
  - unfold active at 1; cbn. by rewrite N.eqb_refl, lookup_delete.
  - set (v := active st s). set (l := chunks st s). unfold unlocking at 1, chunks at 1; cbn.
    rewrite lookup_insert; cbn. rewrite values_app, values_cons. unfold unlocking. fold l. cbn. unfold values at 2; cbn. lia.
Qed.
Section funds.
Variable cfg : RtCfg.

(** ** What holds *)
Lemma pay_ok s w c n tip : (forall x, c <> RPay x) -> (forall l, c <> RPayBatch l) -> affordable cfg s w c n tip ->
  exists s1, (let! st1 := check_nonce s w (nonce s w) true in withdraw_fee cfg st1 w c n tip) = Ok s1
    /\ rs_cap s1 = rs_cap s.
Proof.
  unfold affordable, check_nonce. intros H1 H2 Ha. rewrite !N.leb_refl. cbn [orb].
  set (s1 := up_nonce_ _ _). assert (E : withdraw_fee cfg s1 w c n tip = withdraw_token_fee cfg s1 w c n tip).
  { destruct c; try done; [by edestruct H1|by edestruct H2]. }
  rewrite E. unfold withdraw_token_fee. destruct (N.eqb_spec (r_token_fee cfg c n tip) 0); [by eexists|].
  unfold token_debit. change (balance s1 w) with (balance s w). change (frozen s1 w) with (frozen s w).
  destruct (N.ltb_spec (balance s w) (r_token_fee cfg c n tip)); [lia|].
  destruct (N.ltb_spec (balance s w - r_token_fee cfg c n tip) (frozen s w)); [lia|].
  destruct (N.ltb_spec (balance s w - r_token_fee cfg c n tip) (r_ed cfg)); [lia|]. by eexists.
Qed.
Lemma cap_tx s w c n tip x : affordable cfg s w (RCapacity c) n tip ->
  (forall s1, rs_cap s1 = rs_cap s -> exists y, cap_dispatch cfg s1 w c = Ok (up_cap_ s1 y) /\ x y) ->
  exists s', tx_apply cfg s {| tx_who := w; tx_nonce := nonce s w; tx_call := RCapacity c; tx_len := n; tx_tip := tip |} = Ok (s', None) /\ x (rs_cap s').
Proof.
  intros Ha Hd. destruct (pay_ok s w (RCapacity c) n tip) as (s1 & E1 & E2); [done|done|done|].
  unfold tx_apply. cbn [tx_who tx_nonce tx_call tx_len tx_tip is_pays_no_call negb].
  destruct (check_nonce _ _ _ _) as [s0|]; [|done]. rewrite E1. cbn [free_use]. destruct (Hd s1 E2) as (y & E3 & Hy).
  unfold run_call. cbn [rt_dispatch]. cbn [base_filter is_create_call]. rewrite andb_false_r. cbn [negb andb].
  change (o_who (signed w)) with w.
  replace (o_filter (signed w) (RCapacity c)) with true by reflexivity. cbn. rewrite E3. eexists. split; [reflexivity|]. exact Hy.
Qed.
Lemma unstake_tx b mm v h w n tip : relays_from 0 h ->
  let s := rt_run cfg (rt_start b mm v) h in
  0 < active (rs_cap s) w -> len (chunks (rs_cap s) w) < k_max_chunks (r_cap cfg) ->
  exists p, let c := RCapacity (KUnstake p (active (rs_cap s) w)) in affordable cfg s w c n tip ->
  exists s', tx_apply cfg s {| tx_who := w; tx_nonce := nonce s w; tx_call := c; tx_len := n; tx_tip := tip |} = Ok (s', None)
    /\ active (rs_cap s') w = 0 /\ unlocking (rs_cap s') w = unlocking (rs_cap s) w + active (rs_cap s) w.
Proof.
  intros Hr s Ha Hc. destruct (RtFinal2.projection_lemma cfg b mm v h Hr) as (_ & _ & _ & _ & _ & (hc & Eh & _) & _). fold s in Eh.
  destruct (unstake_live_lemma (r_cap cfg) hc w) as (p & st' & Hu & _ & _); [by rewrite <- Eh|by rewrite <- Eh|]. rewrite <- Eh in Hu.
  exists p. intros c Hp. subst c.
  apply (cap_tx s w _ n tip (fun y => active y w = 0 /\ unlocking y w = unlocking (rs_cap s) w + active (rs_cap s) w) Hp).
  intros s1 E1. cbn [cap_dispatch].
  assert (HT : is_Some (cs_targets (rs_cap s) !! (w, p)) /\ is_Some (cs_cap (rs_cap s) !! p)).
  { apply (apply_effect (r_cap cfg)) in Hu. inversion Hu; subst; eauto. }
  destruct HT as [[tg HT1] HT2].
  destruct (unstake_ok (r_cap cfg) (cap_view s1) w p (active (rs_cap s) w) tg) as [y Hy].
  - done.
  - unfold active, cap_view. cbn. by rewrite E1.
  - unfold cap_view. cbn. by rewrite E1.
  - unfold cap_view. cbn. by rewrite E1.
  - unfold chunks, cap_view. cbn. rewrite E1. exact Hc.
  - cbn in Hy. rewrite Hy. cbn. exists y. split; [reflexivity|].
    assert (Ea : active (cap_view s1) w = active (rs_cap s) w) by (unfold active, cap_view; cbn; by rewrite E1).
    destruct (unstake_all (r_cap cfg) (cap_view s1) w p y) as [A B]; [by rewrite Ea|by rewrite Ea|].
    split; [exact A|]. rewrite B, Ea. f_equal. unfold unlocking, chunks, cap_view. cbn. by rewrite E1.
Qed.
Lemma withdraw_tx b mm v h w n tip k : relays_from 0 h ->
  let s := rt_run cfg (rt_start b mm v) h in
  k ∈ chunks (rs_cap s) w -> ck_thaw k <= cs_epoch (rs_cap s) ->
  let c := RCapacity KWithdraw in affordable cfg s w c n tip ->
  exists s', tx_apply cfg s {| tx_who := w; tx_nonce := nonce s w; tx_call := c; tx_len := n; tx_tip := tip |} = Ok (s', None)
    /\ forall k', k' ∈ chunks (rs_cap s') w -> cs_epoch (rs_cap s) < ck_thaw k'.
Proof.
  intros Hr s Hk Hth c Hp. subst c. destruct (RtFinal2.projection_lemma cfg b mm v h Hr) as (_ & _ & _ & _ & _ & (hc & Eh & _) & _). fold s in Eh.
  apply (cap_tx s w _ n tip (fun y => forall k', k' ∈ chunks y w -> cs_epoch (rs_cap s) < ck_thaw k') Hp).
  intros s1 E1. cbn [cap_dispatch]. set (hv := hc ++ [OpBalances (rs_bal s1)]).
  assert (Ev : cap_view s1 = cap_run (r_cap cfg) cap_genesis hv).
  { unfold hv, cap_run. rewrite fold_left_app. fold (cap_run (r_cap cfg) cap_genesis hc). rewrite <- Eh, <- E1. done. }
  destruct (withdraw_live_lemma (r_cap cfg) hv w k) as [y Hy].
  { rewrite <- Ev. unfold chunks, cap_view. cbn. rewrite E1. exact Hk. }
  { rewrite <- Ev. unfold cap_view. cbn. rewrite E1. exact Hth. }
  rewrite <- Ev in Hy. cbn in Hy. rewrite Hy. cbn. exists y. split; [reflexivity|].
  unfold withdraw_unstaked in Hy. destruct (cs_unlocks (cap_view s1) !! w) as [l|] eqn:El; [|done].
  unfold chunks_reap in Hy. destruct (negb _); [|done]. injection Hy as <-. intros k' Hk'. unfold chunks in Hk'. cbn in Hk'.
  rewrite E1 in Hk'. match type of Hk' with context [filter ?P l] => set (rest := filter P l) in * end.
  assert (k' ∈ rest) as Hin.
  { destruct rest; [rewrite lookup_delete in Hk'|rewrite lookup_insert in Hk']; exact Hk'. }
  unfold rest in Hin. apply elem_of_list_filter in Hin as [Hin _]. lia.
Qed.

(** ** What does not *)
Definition cut_off (w : N) (s : RtState) : Prop := ms_keys (rs_msa s) !! w = None /\ balance s w <= frozen s w.
Lemma debit_none s k w a : 0 < a -> balance s w <= frozen s w -> token_debit cfg s k w a = None.
Proof.
  intros Ha Hf. unfold token_debit. destruct (N.ltb_spec (balance s w) a); [done|]. destruct (N.ltb_spec (balance s w - a) (frozen s w)); [done|lia].
Qed.
Lemma check_frozen s w n p s1 : check_nonce s w n p = Ok s1 -> balance s1 w = balance s w /\ frozen s1 w = frozen s w /\ rs_msa s1 = rs_msa s /\ rs_h s1 = rs_h s.
Proof. unfold check_nonce. intros H. destruct (_ <=? n); [|done]. destruct (n <=? _); [|done]. destruct (_ || _); by injection H as <-. Qed.
Lemma free_refused s w c : is_pays_no_call c = true -> ms_keys (rs_msa s) !! w = None -> exists e, free_use s w c = Err e.
Proof.
  intros Hp Hk. destruct c as [c|c|c|c|c|c|c|c| | | | | | |]; try done; destruct c; try done; cbn [free_use msa_validate]; cbn in *;
    unfold ensure_msa_can_retire, validate_key_delete, MsaModel.ensure_valid_msa_key, extension_ok; cbn; rewrite ?Hk; eauto.
  destruct (negb _); eauto.
Qed.
Lemma own_refused w s x : fees_charged cfg -> cut_off w s -> own_step w x ->
  rt_step cfg s x = s \/ exists r, x = SBlock r.
Proof.
  intros Hf [Hk Hb] Ho. destruct x as [r|t|p|c]; cbn in Ho; [by right; eexists| | |done]; left; cbn [rt_step].
  - subst w. unfold tx_apply. destruct (check_nonce _ _ _ _) as [s1|] eqn:E1; [|done].
    apply check_frozen in E1 as (B1 & B2 & B3 & B4).
    assert (Hc : (is_pays_no_call (tx_call t) = false -> withdraw_fee cfg s1 (tx_who t) (tx_call t) (tx_len t) (tx_tip t) = Err IPayment
                 \/ exists e, withdraw_fee cfg s1 (tx_who t) (tx_call t) (tx_len t) (tx_tip t) = Err e)).
    { intros Hn. right.
      assert (C : forall l n, exists e, withdraw_capacity_fee cfg s1 (tx_who t) l n = Err e).
      { intros l n. unfold withdraw_capacity_fee. destruct (capacity_charge _ _); [|eauto]. destruct (_ <=? _); [|eauto]. rewrite B3, Hk. eauto. }
      assert (D : exists e, withdraw_token_fee cfg s1 (tx_who t) (tx_call t) (tx_len t) (tx_tip t) = Err e).
      { unfold withdraw_token_fee. specialize (Hf _ (tx_len t) (tx_tip t) Hn). destruct (N.eqb_spec (r_token_fee cfg (tx_call t) (tx_len t) (tx_tip t)) 0); [lia|].
        rewrite debit_none; [eauto|done|by rewrite B1, B2]. }
      destruct (tx_call t); cbn [withdraw_fee]; auto. }
    destruct (is_pays_no_call (tx_call t)) eqn:Ep.
    + destruct (withdraw_fee _ _ _ _ _ _) as [s2|] eqn:E2; [|done].
      assert (K2 : ms_keys (rs_msa s2) !! tx_who t = None).
      { assert (rs_msa s2 = rs_msa s1) as ->; [|by rewrite B3].
        assert (W : withdraw_token_fee cfg s1 (tx_who t) (tx_call t) (tx_len t) (tx_tip t) = Ok s2) by (by destruct (tx_call t)).
        unfold withdraw_token_fee in W. destruct (_ =? 0); [by injection W as <-|]. destruct (token_debit _ _ _ _ _) eqn:Et; [|done].
        injection W as <-. apply debit_same in Et as [-> _]. done. }
      destruct (free_refused s2 (tx_who t) (tx_call t) Ep K2) as [e ->]. done.
    + destruct (Hc eq_refl) as [->|[e ->]]; done.
  - subst w. unfold passkey_apply. destruct (negb _); [|done]. destruct (passkey_filter _) eqn:Ef; [|done].
    destruct (r_verify _ _ _ _); [|done]. destruct (check_nonce _ _ _ _) as [s1|] eqn:E1; [|done].
    apply check_frozen in E1 as (B1 & B2 & _). unfold withdraw_token_fee. assert (Hn : is_pays_no_call (pk_call p) = false) by (by destruct (pk_call p)).
    match goal with |- context [r_token_fee cfg ?c ?n ?t] => specialize (Hf c n t) end.
    match type of Hf with _ -> 0 < ?f => destruct (N.eqb_spec f 0) as [E|E]; [specialize (Hf Hn); lia|] end.
    rewrite debit_none; [done|by apply Hf|by rewrite B1, B2].
Qed.
Lemma locked_out w h : forall s, fees_charged cfg -> cut_off w s -> Forall (own_step w) h ->
  active (rs_cap (rt_run cfg s h)) w = active (rs_cap s) w /\ balance (rt_run cfg s h) w = balance s w /\ cut_off w (rt_run cfg s h).
Proof.
  induction h as [|x h IH]; intros s Hf Hc Ho; [done|]. inversion Ho as [|? ? Hx Hh]; subst.
  change (rt_run cfg s (x :: h)) with (rt_run cfg (rt_step cfg s x) h).
  destruct (own_refused w s x Hf Hc Hx) as [->|[r ->]]; [by apply IH|].
  assert (E : cut_off w (rt_step cfg s (SBlock r)) /\ active (rs_cap (rt_step cfg s (SBlock r))) w = active (rs_cap s) w
              /\ balance (rt_step cfg s (SBlock r)) w = balance s w).
  { destruct Hc as [Hk Hb]. cbn [rt_step]. unfold cut_off, active, balance, frozen in *. unfold next_block. cbn. unfold on_initialize. destruct (_ <=? _); cbn; done. }
  destruct E as (E1 & E2 & E3). destruct (IH _ Hf E1 Hh) as (A & B & C). rewrite A, B, E2, E3. done.
Qed.
End funds.
