(** Proofs of properties C111-C114. *)
From Verif Require Import Prelude Sums Scale CommonTypes SigModel MsaModel CapModel TrModel StModel HModel ScModel MgModel FeeModel RtModel.
From Verif Require Import MsaSpec CapSpec TrSpec FeeSpec RtSpec RtMoreSpec RtProofs RtProj RtFinal.
From Verif Require MsaProofs CapProofs.

Section rt.
Variable cfg : RtCfg.

(** ** C111: narrow proxies *)
Lemma governs_nothing t : t = PGovernance \/ t = PCancelProxy ->
  forall c o s s', (forall y, o_filter o y = true -> proxy_filter t y = true) -> rt_dispatch cfg c o s = Ok s' -> s' = s.
Proof.
  intros Ht. induction c as [c Hp|k l IH|c IH|l IH|r f c IH|os c IH] using call_ind; intros o s s' Ho H;
    pose proof (dispatch_filter _ _ _ _ _ H) as [_ Hf]; apply Ho in Hf.
  - pose proof (leaf_inv _ _ _ _ _ Hp H) as [_ Hi].
    destruct Ht as [-> | ->]; destruct c as [c|c|c|c|c|c|c|c| | | | | | |]; cbn in Hf; try done.
  - destruct Ht as [-> | ->]; [|by cbn in Hf].
    cbn [rt_dispatch] in H. destruct (base_filter _ _ && _); [|done].
    eapply (run_batch_same (fun a b => b = a)); [done|congruence| |exact H].
    intros c Hc a b Hab. eapply (proj1 (Forall_forall _ _) IH c Hc); [|exact Hab].
    intros y Hy. destruct k; cbn [add_filter o_filter] in Hy; [by apply Ho|apply andb_true_iff in Hy as [Hy _]; by apply Ho|by apply Ho].
  - by destruct Ht as [-> | ->].
  - by destruct Ht as [-> | ->].
  - by destruct Ht as [-> | ->].
  - by destruct Ht as [-> | ->].
Qed.

Lemma narrow_lemma real force c o s s' : rt_dispatch cfg (RProxy real force c) o s = Ok s' ->
  (forall t, (o_who o, t) ∈ default [] (rs_proxies s !! real) -> narrow t) ->
  s' = s \/ (o_who o, PStaking) ∈ default [] (rs_proxies s !! real) /\
    exists target amount x, c = RCapacity (KStake target amount) /\ s' = up_cap_ s x
    /\ cap_apply (r_cap cfg) (cap_view s) (OpStake (is_registered_provider (rs_msa s)) real target amount) = Ok x.
Proof.
  intros H Hn. cbn [rt_dispatch] in H. destruct (base_filter _ _ && _); [|done]. destruct (find_proxy _ _ _ _) as [t|] eqn:E; [|done].
  apply find_proxy_ok in E as [E1 _]. destruct (rt_dispatch _ c _ _) as [s1|] eqn:Ed; [|injection H as <-; by left]. injection H as ->.
  assert (Hf : forall y, o_filter (add_filter (signed real) (proxied t)) y = true -> proxy_filter t y = true).
  { intros y. cbn [add_filter o_filter signed]. apply proxied_filter. }
  destruct (Hn t E1) as [Ht|[Ht|Ht]]; [left; eapply (governs_nothing t); [by left|exact Hf|exact Ed]|
    left; eapply (governs_nothing t); [by right|exact Hf|exact Ed]|].
  subst t. pose proof (dispatch_filter _ _ _ _ _ Ed) as [_ Hc]. apply Hf in Hc.
  assert (Hp : plain c) by (by destruct c). pose proof (leaf_inv _ _ _ _ _ Hp Ed) as [_ Hi].
  destruct c as [c|c|c|c|c|c|c|c| | | | | | |]; try done; [|left; done].
  right. split; [done|]. destruct c as [target amount| | |]; try done.
  cbn [cap_dispatch o_who add_filter signed] in Hi. apply lift_ok in Hi as (x & Hx & Ex). injection Ex as <-.
  exists target, amount, x. done.
Qed.

(** ** C112: tokens *)
Lemma sum_insert (m : gmap N N) k v : msum (fun _ b => b) (<[k := v]> m) + default 0 (m !! k) = msum (fun _ b => b) m + v.
Proof.
  destruct (m !! k) as [o|] eqn:E; cbn.
  - by apply (msum_insert (fun _ b => b) m k v o).
  - rewrite msum_insert_new by done. unfold default, id. lia.
Qed.
Lemma sum_delete (m : gmap N N) k : msum (fun _ b => b) (delete k m) + default 0 (m !! k) = msum (fun _ b => b) m.
Proof.
  destruct (m !! k) as [o|] eqn:E; cbn.
  - rewrite (msum_delete (fun _ b => b) m k o E). unfold default, id. lia.
  - rewrite msum_delete_none by done. unfold default, id. lia.
Qed.
Lemma debit_total s k w a s' : token_debit cfg s k w a = Some s' -> total_tokens s' + a <= total_tokens s.
Proof.
  unfold token_debit. intros H. destruct (N.ltb_spec (balance s w) a); [done|]. destruct (_ <? RtModel.frozen _ _); [done|].
  unfold balance in *. destruct (_ <? r_ed cfg); [destruct (_ || _); [done|]|]; injection H as <-; unfold total_tokens; cbn [rs_bal up_nonce_ up_bal_].
  - pose proof (sum_delete (rs_bal s) w). lia.
  - pose proof (sum_insert (rs_bal s) w (default 0 (rs_bal s !! w) - a)). lia.
Qed.
Lemma credit_total s to a s' : token_credit cfg s to a = Some s' -> total_tokens s' = total_tokens s + a.
Proof.
  unfold token_credit. intros H. destruct (_ <? r_ed cfg); [done|]. destruct (_ <? _); [done|]. injection H as <-.
  unfold total_tokens, balance. cbn [rs_bal up_bal_]. pose proof (sum_insert (rs_bal s) to (default 0 (rs_bal s !! to) + a)). lia.
Qed.
Lemma transfer_total s k w to a s' : token_transfer cfg s k w to a = Ok s' -> total_tokens s' <= total_tokens s.
Proof.
  unfold token_transfer. intros H. destruct (_ =? _); [destruct (token_debit cfg s k w a), (token_credit cfg s to a); try done; by injection H as <-|].
  destruct (token_debit _ _ _ _ _) as [s1|] eqn:E1; [|done]. destruct (token_credit _ _ _ _) as [s2|] eqn:E2; [|done]. injection H as <-.
  apply debit_total in E1. apply credit_total in E2. lia.
Qed.

(** A call that is not a wrapper: balances, proxies and nonces of accounts other
    than its origin. *)
Lemma leaf_bal c o s s' : plain c -> rt_dispatch cfg c o s = Ok s' ->
  (rs_bal s' = rs_bal s /\ rs_nonce s' = rs_nonce s) \/ (exists k to a s1, token_transfer cfg s k (o_who o) to a = Ok s1 /\ rs_bal s' = rs_bal s1 /\ rs_nonce s' = rs_nonce s1).
Proof.
  intros Hp H. pose proof (leaf_inv _ _ _ _ _ Hp H) as [_ Hi]. destruct c as [c|c|c|c|c|c|c|c| | | | | | |]; try done; try (by left; destruct Hi as (x & _ & ->)).
  - left. destruct c; cbn [cap_dispatch] in Hi; try done; apply lift_ok in Hi as (x & _ & E); injection E as <-; done.
  - destruct c as [|to sch|w l|w]; cbn [time_dispatch] in Hi; try done; apply lift_ok in Hi as (x & _ & E); [by left; injection E as <-| |by left; injection E as <-].
    destruct (sc_total sch) as [a|]; [|done]. destruct (token_transfer _ _ _ _ _ _) as [s1|] eqn:Em; [|done]. injection E as <-.
    right. exists false, to, a, s1. done.
  - right. destruct c; cbn [bal_dispatch] in Hi; eauto 10.
  - left. by rewrite Hi.
  - left. by rewrite Hi.
Qed.
Lemma total_step x s : total_tokens (rt_step cfg s x) <= total_tokens s.
Proof.
  apply (step_rel cfg (fun a b => total_tokens b <= total_tokens a)); try done; try lia.
  - intros s0 k w a y H. apply debit_total in H. lia.
  - intros c o s0 s' _ Hp H. destruct (leaf_bal _ _ _ _ Hp H) as [[E _]|(k & to & a & s1 & Ht & E & _)]; unfold total_tokens; rewrite E; [done|].
    by apply transfer_total in Ht.
  - intros c s0 s' _ H. destruct c; cbn [gov_apply] in H; apply lift_ok in H as (y & H & E); injection E as <-; done.
Qed.
Lemma total_run h : forall s, total_tokens (rt_run cfg s h) <= total_tokens s.
Proof. induction h as [|x h IH]; intros s; [done|]. change (rt_run cfg s (x :: h)) with (rt_run cfg (rt_step cfg s x) h). pose proof (IH (rt_step cfg s x)). pose proof (total_step x s). lia. Qed.

(** ** C112: an account that is alone *)
Section own.
Variable a : N.
Hypothesis Hmulti : forall w others, r_multi cfg w others <> a.

Definition mine (s s' : RtState) : Prop :=
  rs_proxies s !! a = None ->
  rs_proxies s' !! a = None /\ balance s a <= balance s' a /\ nonce s' a = nonce s a /\ same_stake a (rs_cap s) (rs_cap s').
Lemma stake_refl_ s : same_stake a s s.
Proof. unfold same_stake. auto. Qed.
Lemma stake_trans_ x y z : same_stake a x y -> same_stake a y z -> same_stake a x z.
Proof.
  intros (A1 & A2 & A3 & A4) (B1 & B2 & B3 & B4). unfold same_stake. rewrite B1, B2, B3. repeat (split; [done|]).
  intros m. destruct (A4 m), (B4 m). split; congruence.
Qed.
Lemma mine_refl s : mine s s.
Proof. intros H. split; [done|]. split; [lia|]. split; [done|]. apply stake_refl_. Qed.
Lemma mine_trans x y z : mine x y -> mine y z -> mine x z.
Proof.
  intros A B H. destruct (A H) as (A1 & A2 & A3 & A4). destruct (B A1) as (B1 & B2 & B3 & B4).
  split; [done|]. split; [lia|]. split; [congruence|]. by eapply stake_trans_.
Qed.
Lemma mine_same s s' : rs_proxies s' = rs_proxies s -> rs_bal s' = rs_bal s -> rs_nonce s' = rs_nonce s -> rs_cap s' = rs_cap s -> mine s s'.
Proof.
  intros E1 E2 E3 E4 H. unfold balance, nonce. rewrite E1, E2, E3, E4. split; [done|]. split; [lia|]. split; [done|]. apply stake_refl_.
Qed.
Lemma cap_other st op st' : cap_apply (r_cap cfg) st op = Ok st' ->
  match op with OpStake _ s _ _ | OpUnstake s _ _ | OpWithdraw s => s <> a | _ => True end -> same_stake a st st'.
Proof.
  intros H Ho. apply CapProofs.apply_effect in H.
  destruct H; unfold same_stake, active, chunks, frozen, targeted, targeted_capacity; cbn.
  - rewrite !lookup_insert_ne by done. repeat (split; [done|]). intros m. by rewrite !lookup_insert_ne by congruence.
  - split; [destruct (_ =? 0); [by rewrite lookup_delete_ne|by rewrite lookup_insert_ne]|].
    split; [by rewrite lookup_insert_ne|]. split; [done|]. intros m.
    destruct (_ =? 0); [by rewrite !lookup_delete_ne by congruence|by rewrite !lookup_insert_ne by congruence].
  - split; [done|]. subst un fr. split; [destruct rest; [by rewrite lookup_delete_ne|by rewrite lookup_insert_ne]|].
    split; [destruct (_ =? 0); [by rewrite lookup_delete_ne|by rewrite lookup_insert_ne]|]. done.
  - done.
  - done.
  - done.
  - done.
  - unfold on_initialize. destruct (_ <=? _); done.
  - done.
Qed.
Lemma nonce_other s k w n s' : token_debit cfg s k w n = Some s' -> w <> a -> nonce s' a = nonce s a.
Proof. intros H Hw. unfold nonce. apply debit_same in H as [_ [-> | ->]]; [done|]. by rewrite lookup_delete_ne. Qed.
Lemma mine_debit s k w n s' : token_debit cfg s k w n = Some s' -> w <> a -> mine s s'.
Proof.
  intros H Hw Hp. pose proof (debit_other _ _ _ _ _ _ a H ltac:(congruence)) as E. pose proof (nonce_other _ _ _ _ _ H Hw) as En.
  apply debit_same in H as [Es _]. split; [by rewrite Es|]. split; [rewrite E; lia|]. split; [done|]. rewrite Es. apply stake_refl_.
Qed.
Lemma mine_transfer s k w to n s' : token_transfer cfg s k w to n = Ok s' -> w <> a ->
  balance s a <= balance s' a /\ nonce s' a = nonce s a.
Proof.
  intros H Hw. split; [by eapply transfer_other; [exact H|congruence]|]. unfold nonce.
  apply transfer_same in H as [_ [-> | ->]]; [done|]. by rewrite lookup_delete_ne.
Qed.
Lemma mine_leaf c o s s' : plain c -> rt_dispatch cfg c o s = Ok s' -> o_who o <> a -> mine s s'.
Proof.
  intros Hp H Ho Hn.
  assert (HB : balance s a <= balance s' a /\ nonce s' a = nonce s a).
  { destruct (leaf_bal _ _ _ _ Hp H) as [[E1 E2]|(k & to & n & s1 & Ht & E1 & E2)]; unfold balance, nonce; rewrite E1, E2; [split; [lia|done]|].
    by apply mine_transfer in Ht. }
  destruct HB as [HB1 HB2]. split; [|split; [done|split; [done|]]].
  - destruct c as [c|c|c|c|c|c|c|c| | | | |d t| |]; try done; pose proof (leaf_inv _ _ _ _ _ Hp H) as [_ Hi]; try (by destruct Hi as (x & _ & ->)).
    + destruct c; cbn [cap_dispatch] in Hi; try done; apply lift_ok in Hi as (x & _ & E); injection E as <-; done.
    + destruct c as [|to sch|w l|w]; cbn [time_dispatch] in Hi; try done; apply lift_ok in Hi as (x & _ & E); [by injection E as <-| |by injection E as <-].
      destruct (sc_total sch); [|done]. destruct (token_transfer _ _ _ _ _ _) as [s1|] eqn:Em; [|done]. injection E as <-. cbn. by apply transfer_same in Em as [-> _].
    + destruct c; cbn [bal_dispatch] in Hi; by apply transfer_same in Hi as [-> _].
    + cbn [rt_dispatch] in H. destruct (base_filter _ _ && _); [|done]. injection H as <-. cbn. by rewrite lookup_insert_ne.
    + by rewrite Hi.
  - pose proof (leaf_inv _ _ _ _ _ Hp H) as [_ Hi].
    destruct c as [c|c|c|c|c|c|c|c| | | | |d t| |]; try done; try (by destruct Hi as (x & _ & ->); apply stake_refl_).
    + destruct c as [t n|t n| |n]; cbn [cap_dispatch] in Hi; try done; apply lift_ok in Hi as (x & Hx & E); injection E as <-; cbn [up_cap_ rs_cap].
      * by apply (cap_other (cap_view s) (OpStake _ (o_who o) t n)) in Hx.
      * by apply (cap_other (cap_view s) (OpUnstake (o_who o) t n)) in Hx.
      * by apply (cap_other (cap_view s) (OpWithdraw (o_who o))) in Hx.
    + destruct c as [|to sch|w l|w]; cbn [time_dispatch] in Hi; try done; apply lift_ok in Hi as (x & _ & E); [injection E as <-; apply stake_refl_| |injection E as <-; apply stake_refl_].
      destruct (sc_total sch); [|done]. destruct (token_transfer _ _ _ _ _ _) as [s1|] eqn:Em; [|done]. injection E as <-. cbn. apply transfer_same in Em as [-> _]. apply stake_refl_.
    + destruct c; cbn [bal_dispatch] in Hi; apply transfer_same in Hi as [-> _]; apply stake_refl_.
    + rewrite Hi. apply stake_refl_.
    + rewrite Hi. apply stake_refl_.
Qed.
Lemma mine_dispatch : forall c o s s', rt_dispatch cfg c o s = Ok s' -> o_who o <> a -> mine s s'.
Proof.
  induction c as [c Hp|k l IH|c IH|l IH|r f c IH|os c IH] using call_ind; intros o s s' H Ho.
  - by eapply mine_leaf.
  - cbn [rt_dispatch] in H. destruct (base_filter _ _ && _); [|done].
    eapply (run_batch_same mine); [apply mine_refl|apply mine_trans| |exact H].
    intros c Hc x y Hxy. eapply (proj1 (Forall_forall _ _) IH c Hc); [exact Hxy|by destruct k].
  - cbn [rt_dispatch] in H. destruct (base_filter _ _ && _); [|done]. by eapply IH.
  - cbn [rt_dispatch] in H. destruct (base_filter _ _ && _); [|done]. destruct (_ <=? _); [|done].
    eapply (run_batch_same mine); [apply mine_refl|apply mine_trans| |exact H].
    intros c Hc x y Hxy. eapply (proj1 (Forall_forall _ _) IH c Hc); [exact Hxy|done].
  - cbn [rt_dispatch] in H. destruct (base_filter _ _ && _); [|done]. destruct (find_proxy _ _ _ _) as [t|] eqn:E; [|done].
    destruct (rt_dispatch _ c _ s) as [s1|] eqn:Ed; [|injection H as <-; apply mine_refl]. injection H as <-.
    intros Hn. apply find_proxy_ok in E as [E _]. eapply IH; [exact Ed| |exact Hn]. cbn. intros ->. rewrite Hn in E. inversion E.
  - cbn [rt_dispatch] in H. destruct (base_filter _ _ && _); [|done]. eapply IH; [exact H|]. apply Hmulti.
Qed.
Lemma mine_run_call c o s s' r : run_call cfg c o s = (s', r) -> o_who o <> a -> mine s s'.
Proof. unfold run_call. destruct (rt_dispatch _ _ _ _) eqn:E; intros [= <- _] Ho; [by eapply mine_dispatch|apply mine_refl]. Qed.
Lemma mine_check s w n p s1 : check_nonce s w n p = Ok s1 -> w <> a -> mine s s1.
Proof.
  intros H Hw. apply check_ok in H as [_ ->]. destruct (_ || _); [|apply mine_refl]. intros Hn. split; [done|]. split; [cbn; unfold balance; cbn; lia|].
  split; [unfold nonce; cbn; by rewrite lookup_insert_ne|apply stake_refl_].
Qed.
Lemma mine_token_fee s w c n tip s1 : withdraw_token_fee cfg s w c n tip = Ok s1 -> w <> a -> mine s s1.
Proof.
  unfold withdraw_token_fee. intros H Hw. destruct (_ =? 0); [injection H as <-; apply mine_refl|].
  destruct (token_debit _ _ _ _ _) eqn:E; [|done]. injection H as <-. by eapply mine_debit.
Qed.
Lemma mine_capacity_fee s w l n s1 : withdraw_capacity_fee cfg s w l n = Ok s1 -> mine s s1.
Proof.
  unfold withdraw_capacity_fee. intros H. destruct (capacity_charge _ _) as [fee|]; [|done]. destruct (_ <=? _); [|done].
  destruct (ms_keys _ !! _) as [m|]; [|done]. destruct (cap_spend _ _ _) as [x|] eqn:E; [|done]. injection H as <-.
  apply (cap_other (rs_cap s) (OpSpend m fee)) in E; [|done]. intros Hn. split; [done|]. split; [unfold balance; cbn; lia|]. split; [done|exact E].
Qed.
Lemma mine_step x s : not_by a x -> mine s (rt_step cfg s x).
Proof.
  intros Hx. destruct x as [r|t|p|c]; cbn [rt_step not_by] in *.
  - intros Hn. split; [done|]. split; [unfold balance; cbn; lia|]. split; [done|]. cbn.
    apply (cap_other (rs_cap s) (OpBlock (rs_block s + 1))); done.
  - unfold tx_apply. destruct (check_nonce _ _ _ _) as [s1|] eqn:E1; [|apply mine_refl].
    destruct (withdraw_fee _ _ _ _ _ _) as [s2|] eqn:E2; [|apply mine_refl]. destruct (free_use _ _ _); [|apply mine_refl].
    destruct (run_call _ _ _ _) as [s3 r] eqn:E3.
    eapply mine_trans; [by eapply mine_check|]. eapply mine_trans; [|by eapply mine_run_call].
    destruct (tx_call t); cbn [withdraw_fee] in E2; first [by eapply mine_token_fee|by eapply mine_capacity_fee].
  - unfold passkey_apply. destruct (negb _); [|apply mine_refl]. destruct (passkey_filter _); [|apply mine_refl]. destruct (r_verify _ _ _ _); [|apply mine_refl].
    destruct (check_nonce _ _ _ _) as [s1|] eqn:E1; [|apply mine_refl].
    destruct (withdraw_token_fee _ _ _ _ _ _) as [s2|] eqn:E2; [|apply mine_refl].
    destruct (run_call _ _ _ _) as [s3 r] eqn:E3.
    eapply mine_trans; [by eapply mine_check|]. eapply mine_trans; [by eapply mine_token_fee|by eapply mine_run_call].
  - destruct (gov_apply _ _ _) as [s1|] eqn:E; [|apply mine_refl].
    destruct c as [k n|root c|n|w l]; cbn [gov_apply] in E; apply lift_ok in E as (y & H & E); injection E as <-; try (by apply mine_same).
    apply (cap_other (cap_view s) (OpSetEpochLength true n)) in H; [|done].
    intros Hn. split; [done|]. split; [unfold balance; cbn; lia|]. split; [done|exact H].
Qed.
Lemma mine_run h : forall s, Forall (not_by a) h -> mine s (rt_run cfg s h).
Proof.
  induction h as [|x h IH]; intros s F; [apply mine_refl|]. inversion F; subst.
  eapply mine_trans; [by apply mine_step|]. by apply IH.
Qed.
End own.

Lemma alone_lemma s a h : alone cfg s a -> Forall (not_by a) h ->
  let s' := rt_run cfg s h in
  alone cfg s' a /\ balance s a <= balance s' a /\ nonce s' a = nonce s a /\ same_stake a (rs_cap s) (rs_cap s').
Proof.
  intros [Hp Hm] F. destruct (mine_run a Hm h s F Hp) as (H1 & H2 & H3 & H4). cbn.
  split; [by split|]. done.
Qed.

(** ** C115: staked tokens *)
Definition keeps_stake (s s' : RtState) : Prop := forall a,
  CapSpec.frozen (rs_cap s') a = CapSpec.frozen (rs_cap s) a /\ N.min (balance s a) (CapSpec.frozen (rs_cap s) a) <= balance s' a.
Lemma stake_same s s' : rs_cap s' = rs_cap s -> rs_bal s' = rs_bal s -> keeps_stake s s'.
Proof. intros E1 E2 a. unfold balance. rewrite E1, E2. split; [done|lia]. Qed.
Lemma debit_stake s k w n s' : token_debit cfg s k w n = Some s' -> keeps_stake s s'.
Proof.
  intros H a. destruct (decide (a = w)) as [->|Hw].
  - unfold token_debit in H. destruct (N.ltb_spec (balance s w) n); [done|]. destruct (N.ltb_spec (balance s w - n) (RtModel.frozen s w)); [done|].
    assert (CapSpec.frozen (rs_cap s) w <= RtModel.frozen s w) by (unfold RtModel.frozen, CapSpec.frozen; lia).
    destruct (_ <? r_ed cfg); [destruct (N.eqb_spec (RtModel.frozen s w) 0) as [E|]; rewrite ?orb_true_r in H; [destruct k; [done|]|done]|];
      injection H as <-; unfold balance; cbn [rs_cap rs_bal up_nonce_ up_bal_]; (split; [done|]).
    + lia.
    + rewrite lookup_insert. unfold balance, default, id in *. lia.
  - pose proof (debit_other _ _ _ _ _ _ a H Hw) as E. apply debit_same in H as [Es _]. rewrite E, Es. split; [done|]. cbn. lia.
Qed.
Lemma stake_trans_r x y z : keeps_stake x y -> keeps_stake y z -> keeps_stake x z.
Proof. intros A B a. destruct (A a) as [A1 A2], (B a) as [B1 B2]. rewrite A1 in *. split; [done|lia]. Qed.
Lemma transfer_stake s k w to n s' : token_transfer cfg s k w to n = Ok s' -> keeps_stake s s'.
Proof.
  unfold token_transfer. intros H. destruct (_ =? _); [destruct (token_debit cfg s k w n), (token_credit cfg s to n); try done; injection H as <-; by apply stake_same|].
  destruct (token_debit _ _ _ _ _) as [s1|] eqn:E1; [|done]. destruct (token_credit _ _ _ _) as [s2|] eqn:E2; [|done]. injection H as <-.
  eapply stake_trans_r; [by eapply debit_stake|]. intros a. pose proof (credit_ge _ _ _ _ _ a E2).
  unfold token_credit in E2. destruct (_ <? r_ed cfg); [done|]. destruct (_ <? _); [done|]. injection E2 as <-. cbn. split; [done|]. lia.
Qed.
Lemma stake_step x s : no_staking x -> keeps_stake s (rt_step cfg s x).
Proof.
  intros Hx. apply (step_rel cfg keeps_stake).
  - intros s0. by apply stake_same.
  - apply stake_trans_r.
  - intros. by apply stake_same.
  - intros s0 m f y H a. unfold balance. cbn. apply (CapProofs.apply_effect (r_cap cfg) _ (OpSpend m f)) in H. inversion H; subst. cbn. split; [done|]. lia.
  - intros s0 k w a y H. by eapply debit_stake.
  - intros c o s0 s' Hin Hp H. pose proof (leaf_inv _ _ _ _ _ Hp H) as [_ Hi]. specialize (Hx c Hin).
    destruct c as [c|c|c|c|c|c|c|c| | | | | | |]; try done; try (by destruct Hi as (y & _ & ->); apply stake_same).
    + destruct c as [t n|t n| |n]; cbn [cap_dispatch] in Hi; try done; apply lift_ok in Hi as (y & Hy & E); injection E as <-.
      apply (CapProofs.apply_effect (r_cap cfg) _ (OpUnstake (o_who o) t n)) in Hy. inversion Hy; subst. intros a. unfold balance, CapSpec.frozen. cbn. split; [done|]. lia.
    + destruct c as [|to sch|w l|w]; cbn [time_dispatch] in Hi; try done; apply lift_ok in Hi as (y & _ & E); [injection E as <-; by apply stake_same| |injection E as <-; by apply stake_same].
      destruct (sc_total sch); [|done]. destruct (token_transfer _ _ _ _ _ _) as [s1|] eqn:Em; [|done]. injection E as <-. apply transfer_stake in Em. exact Em.
    + destruct c; cbn [bal_dispatch] in Hi; by apply transfer_stake in Hi.
    + rewrite Hi. by apply stake_same.
    + rewrite Hi. by apply stake_same.
  - intros r s0 _ a. unfold balance, CapSpec.frozen. cbn. unfold on_initialize. split; [by destruct (_ <=? _)|]. lia.
  - intros c s0 s' _ H. destruct c as [k n|root c|n|w l]; cbn [gov_apply] in H; apply lift_ok in H as (y & H & E); injection E as <-; try (by apply stake_same).
    apply (CapProofs.apply_effect (r_cap cfg) _ (OpSetEpochLength true n)) in H. inversion H; subst. intros a. unfold balance, CapSpec.frozen. cbn. split; [done|]. lia.
Qed.
Lemma stake_run h : forall s, Forall no_staking h -> keeps_stake s (rt_run cfg s h).
Proof.
  induction h as [|x h IH]; intros s F; [by apply stake_same|]. inversion F; subst.
  eapply stake_trans_r; [by apply stake_step|]. by apply IH.
Qed.

(** ** C113: capacity goes to providers *)
Definition prov_ok (s : RtState) : Prop := forall m, is_Some (cs_cap (rs_cap s) !! m) -> is_registered_provider (rs_msa s) m = true.
Lemma cap_keys st op st' : cap_apply (r_cap cfg) st op = Ok st' -> forall m, is_Some (cs_cap st' !! m) ->
  is_Some (cs_cap st !! m) \/ match op with OpStake valid _ t _ => valid t = true /\ m = t | _ => False end.
Proof.
  intros H m. apply CapProofs.apply_effect in H. destruct H; cbn; try (by left).
  - destruct (decide (m = t)) as [->|]; [by right|]. rewrite lookup_insert_ne by done. by left.
  - destruct (decide (m = t)) as [->|]; [left; by eexists|]. rewrite lookup_insert_ne by done. by left.
  - destruct (decide (m = m0)) as [->|]; [left; by eexists|]. rewrite lookup_insert_ne by done. by left.
  - destruct (decide (m = m0)) as [->|]; [left; by eexists|]. rewrite lookup_insert_ne by done. by left.
  - unfold on_initialize. destruct (_ <=? _); by left.
Qed.
Lemma prov_msa s o c x : msa_dispatch (r_msa cfg) (env_msa s) (rs_msa s) o c = Ok x -> prov_ok s -> prov_ok (up_msa_ s x).
Proof.
  intros H P m Hm. specialize (P m Hm). unfold is_registered_provider in *. cbn.
  apply MsaProofs.dispatch_prov in H as [->|(m' & n & _ & -> & _)]; [done|].
  destruct (decide (m = m')) as [->|]; [by rewrite lookup_insert|by rewrite lookup_insert_ne].
Qed.
Lemma prov_cap s op x : cap_apply (r_cap cfg) (cap_view s) op = Ok x ->
  match op with OpStake valid _ _ _ => forall m, valid m = true -> is_registered_provider (rs_msa s) m = true | _ => True end ->
  prov_ok s -> prov_ok (up_cap_ s x).
Proof.
  intros H Hv P m Hm. cbn in *. destruct (cap_keys _ _ _ H m Hm) as [Hm'|Hop]; [by apply P|].
  destruct op; try done. destruct Hop as [H1 ->]. by apply Hv.
Qed.
Lemma prov_same s s' : rs_msa s' = rs_msa s -> rs_cap s' = rs_cap s -> prov_ok s -> prov_ok s'.
Proof. unfold prov_ok. intros -> ->. done. Qed.
Lemma prov_step x s : prov_ok s -> prov_ok (rt_step cfg s x).
Proof.
  apply (step_rel cfg (fun a b => prov_ok a -> prov_ok b)); try done.
  - eauto.
  - intros s0 m f y H P m' Hm'. cbn in *. destruct (cap_keys (rs_cap s0) (OpSpend m f) _ H m' Hm') as [?|[]]. by apply P.
  - intros s0 k w a y H. apply debit_same in H as [-> _]. done.
  - intros c o s0 s' _ Hp H. pose proof (leaf_inv _ _ _ _ _ Hp H) as [_ Hi].
    destruct c as [c|c|c|c|c|c|c|c| | | | | | |]; try done; try (by destruct Hi as (y & _ & ->); apply prov_same).
    + destruct Hi as (y & Hy & ->). by eapply prov_msa.
    + destruct c as [t n|t n| |n]; cbn [cap_dispatch] in Hi; try done; apply lift_ok in Hi as (y & Hy & E); injection E as <-.
      * by eapply (prov_cap s0 (OpStake (is_registered_provider (rs_msa s0)) (o_who o) t n)).
      * by eapply (prov_cap s0 (OpUnstake (o_who o) t n)).
      * by eapply (prov_cap s0 (OpWithdraw (o_who o))).
    + destruct c as [|to sch|w l|w]; cbn [time_dispatch] in Hi; try done; apply lift_ok in Hi as (y & _ & E); [injection E as <-; by apply prov_same| |injection E as <-; by apply prov_same].
      destruct (sc_total sch); [|done]. destruct (token_transfer _ _ _ _ _ _) as [s1|] eqn:Em; [|done]. injection E as <-. apply transfer_same in Em as [-> _]. by apply prov_same.
    + destruct c; cbn [bal_dispatch] in Hi; apply transfer_same in Hi as [-> _]; by apply prov_same.
    + rewrite Hi. by apply prov_same.
    + by rewrite Hi.
  - intros r s0 _ P m Hm. cbn in *. apply P.
    destruct (cap_keys (rs_cap s0) (OpBlock (rs_block s0 + 1)) _ eq_refl m Hm) as [?|[]]. done.
  - intros c s0 s' _ H. destruct c as [k n|root c|n|w l]; cbn [gov_apply] in H; apply lift_ok in H as (y & H & E); injection E as <-.
    + by eapply prov_msa.
    + by apply prov_same.
    + by eapply (prov_cap s0 (OpSetEpochLength true n)).
    + by apply prov_same.
Qed.
Lemma prov_run h : forall s, prov_ok s -> prov_ok (rt_run cfg s h).
Proof. induction h as [|x h IH]; intros s P; [done|]. by apply IH, prov_step. Qed.
Lemma provider_lemma b mm v h m : is_Some (cs_cap (rs_cap (rt_run cfg (rt_start b mm v) h)) !! m) ->
  is_registered_provider (rs_msa (rt_run cfg (rt_start b mm v) h)) m = true.
Proof. apply prov_run. intros m' [? H]. done. Qed.

(** ** C114: handles and keys *)
Definition handle_ok (s : RtState) : Prop := forall m, has_handle s m -> has_key s m.
Lemma claim_names st m p st' d : do_claim (r_h cfg) st m p = Ok (st', d) -> forall m', is_Some (hs_name st' !! m') -> is_Some (hs_name st !! m') \/ m' = m.
Proof.
  unfold do_claim. intros H m'. repeat (match type of H with
    | context [match ?x with _ => _ end] => destruct x
    end; try done). injection H as <- _. cbn [hs_name].
  destruct (decide (m' = m)) as [->|]; [by right|]. rewrite lookup_insert_ne by done. by left.
Qed.
Lemma retire_names st m st' d : do_retire (r_h cfg) st m = Ok (st', d) -> forall m', is_Some (hs_name st' !! m') -> is_Some (hs_name st !! m').
Proof.
  unfold do_retire. intros H m'. repeat (match type of H with
    | context [match ?x with _ => _ end] => destruct x
    end; try done). injection H as <- _. cbn [hs_name].
  intros [z Hz]. apply lookup_delete_Some in Hz as [_ Hz]. by eexists.
Qed.
Lemma checks_msa env k f p m : claim_checks (r_h cfg) env k f p = Ok m -> he_msa_of env k = Some m.
Proof.
  unfold claim_checks. intros H. destruct (he_msa_of env k); repeat (match type of H with
    | context [match ?x with _ => _ end] => destruct x
    end; try done). by injection H as ->.
Qed.
Lemma h_names env st o c st' : h_dispatch (r_h cfg) env st o c = Ok st' -> forall m, is_Some (hs_name st' !! m) ->
  is_Some (hs_name st !! m) \/ exists k, he_msa_of env k = Some m.
Proof.
  unfold h_dispatch. intros H m Hm. destruct o as [who|]; [|done]. destruct c as [k f p| |k f p].
  - unfold claim_handle in H. destruct (claim_checks _ _ _ _ _) as [m0|] eqn:Ec; [|done]. apply checks_msa in Ec.
    destruct (do_claim _ _ _ _) as [[s1 d]|] eqn:Ed; [|done]. injection H as <-.
    destruct (claim_names _ _ _ _ _ Ed m Hm) as [?| ->]; [by left|right; by exists k].
  - unfold retire_handle in H. destruct (he_msa_of env who) as [m0|]; [|done].
    destruct (do_retire _ _ _) as [[s1 d]|] eqn:Ed; [|done]. injection H as <-. left. by eapply retire_names.
  - unfold change_handle in H. destruct (claim_checks _ _ _ _ _) as [m0|] eqn:Ec; [|done]. apply checks_msa in Ec.
    destruct (hs_name st !! m0); [|done]. destruct (do_retire _ _ _) as [[s1 d]|] eqn:Er; [|done].
    destruct (do_claim _ _ _ _) as [[s2 d2]|] eqn:Ed; [|done]. injection H as <-.
    destruct (claim_names _ _ _ _ _ Ed m Hm) as [?| ->]; [left|right; by exists k]. by eapply retire_names.
Qed.
Lemma handle_micro s s' : micro cfg true s s' -> handle_ok s -> handle_ok s'.
Proof.
  intros H P. destruct H as [o c x Hv H|who c x Hv H|who c x H|who c x H|o ok c x H|op x _ H|m f x H|op x H|n b p|r H].
  1: { intros m Hm. specialize (P m Hm). destruct P as [k Hk]. specialize (Hv eq_refl).
    apply MsaProofs.dispatch_key_effect in H. unfold has_key, controls in *. cbn.
    destruct H as [E _ _ _|key _ E0 _ _ _ _ E _ _|? ? ? ? ? _ _ _ _ _ E0 _ _ _ E _ _|w m' key Ho Hw Hcall _ _ E _ _]; rewrite E.
    - by exists k.
    - exists k. rewrite lookup_insert_ne by congruence. done.
    - exists k. rewrite lookup_insert_ne by congruence. done.
    - subst o. destruct (msa_validate _ _ _ _) as [[]|] eqn:Ev; [|done].
      destruct (MsaProofs.validate_del _ _ _ _ key _ Ev Hw Hcall) as (Hkk & Hdel & Hr). unfold controls in *.
      destruct (decide (key = k)) as [->|]; [|exists k; by rewrite lookup_delete_ne].
      destruct Hcall as [->|[-> ->]].
      + exists w. rewrite lookup_delete_ne; [congruence|]. intros ->. by apply (Hdel eq_refl).
      + destruct (Hr eq_refl) as (_ & _ & _ & Hh). cbn [env_msa e_has_handle] in Hh. assert (m' = m) as -> by congruence.
        destruct Hm as [? Hm]. cbn in Hm. by rewrite Hm in Hh. }
  1: { intros m Hm. destruct (h_names _ _ _ _ _ H m Hm) as [Hm'|[k Hk]]; [by apply (P m Hm')|]. exists k. exact Hk. }
  all: exact P.
Qed.
Lemma handle_run h s : relays_from (rs_relay s) h -> all_plain h -> handle_ok s -> handle_ok (rt_run cfg s h).
Proof.
  intros Hr Hp. pose proof (run_micro_top cfg h s Hr Hp) as H. clear Hr; induction H as [|x y z H _ IH]; [done|]. intros P. apply IH. by eapply handle_micro.
Qed.
Lemma handle_lemma b mm v h m : relays_from 0 h -> all_plain h ->
  has_handle (rt_run cfg (rt_start b mm v) h) m -> has_key (rt_run cfg (rt_start b mm v) h) m.
Proof. intros Hr Hp. apply handle_run; [done|done|]. intros m' [? H]. done. Qed.
End rt.
