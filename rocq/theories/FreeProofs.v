(** Proof of property C154. *)
From Verif Require Import Prelude Sums Scale CommonTypes SigModel MsaModel CapModel TrModel StModel HModel ScModel MgModel FeeModel RtModel.
From Verif Require Import MsaSpec CapSpec TrSpec FeeSpec RtSpec RtMoreSpec RtProofs RtProj RtFinal RtFinal2 RtMore FreeSpec.
From Verif Require MsaProofs CapProofs TrProofs.

Section rt.
Variable cfg : RtCfg.
Variable a : N.
Hypothesis Hmulti : forall w others, r_multi cfg w others <> a.
Notation vested s := (vesting_frozen (rs_tr s) a).

(** What is held back grows at most as much as the balance. *)
Definition frees (s s' : RtState) : Prop :=
  rs_proxies s !! a = None -> kept cfg s ->
  rs_proxies s' !! a = None /\ kept cfg s' /\ CapSpec.frozen (rs_cap s') a = CapSpec.frozen (rs_cap s) a /\
  exists d, vested s' <= vested s + d /\ balance s a + d <= balance s' a.
Lemma frees_refl s : frees s s.
Proof. intros H K. split_and!; [done|done|done|]. exists 0. lia. Qed.
Lemma frees_trans x y z : frees x y -> frees y z -> frees x z.
Proof.
  intros A B H K. destruct (A H K) as (A1 & A2 & A3 & d & A4 & A5). destruct (B A1 A2) as (B1 & B2 & B3 & e & B4 & B5).
  split_and!; [done|done|congruence|]. exists (d + e). lia.
Qed.
Lemma frees_mine s s' : mine a s s' -> (kept cfg s -> kept cfg s') -> (kept cfg s -> vested s' <= vested s) -> frees s s'.
Proof.
  intros M K V H K0. destruct (M H) as (M1 & M2 & _ & (_ & _ & M4 & _)). split_and!; [done|by apply K|done|]. exists 0. specialize (V K0). lia.
Qed.
Lemma frees_still s s' : mine a s s' -> rs_tr s' = rs_tr s -> (kept cfg s -> kept cfg s') -> frees s s'.
Proof. intros M E K. apply frees_mine; [done|done|]. intros _. by rewrite E. Qed.

Lemma claim_less s w x : TrModel.do_claim (tr_view s) w (rs_relay s) = Ok x -> kept cfg s -> vesting_frozen x a <= vested s.
Proof.
  intros H [I B]. pose proof (view_inv cfg _ I) as I'.
  rewrite (TrProofs.claim_eq (r_tr cfg)) in H by apply I'. injection H as <-. unfold vesting_frozen at 1. cbn [tr_freeze]. rewrite TrProofs.put_freeze_eq.
  destruct (decide (a = w)) as [<-|]; [|done]. destruct (I a) as (_ & _ & Hs & _). exact Hs.
Qed.

Lemma frees_leaf c o s s' : plain c -> rt_dispatch cfg c o s = Ok s' -> o_who o <> a -> frees s s'.
Proof.
  intros Hp H Ho. pose proof (mine_leaf cfg a Hmulti c o s s' Hp H Ho) as M.
  pose proof (leaf_kept cfg c o s s' Hp H) as K. pose proof (leaf_inv _ _ _ _ _ Hp H) as [_ L].
  destruct c as [c|c|c|c|c|c|c|c| | | | | | |]; try done; try (by destruct L as (x & _ & ->); apply frees_still).
  - destruct c; cbn [cap_dispatch] in L; try done; apply lift_ok in L as (x & _ & E); injection E as <-; by apply frees_still.
  - destruct c as [|to sch|w l|w]; cbn [time_dispatch] in L; try done; apply lift_ok in L as (x & Hx & E).
    + injection E as <-. apply frees_mine; [done|done|]. by eapply claim_less.
    + destruct (match sc_total sch with Some a => _ | None => _ end) as [s1|] eqn:Em; [|done]. cbn [is_ok] in Hx. injection E as <-.
      intros Hn K0. destruct (M Hn) as (M1 & M2 & _ & (_ & _ & M4 & _)). split_and!; [done|by apply K|done|].
      destruct K0 as [I B]. pose proof (view_inv cfg _ I) as I'.
      apply TrProofs.transfer_ok in Hx as (Hv & _ & _ & _ & _ & _ & _ & Hf & _); [|apply I'].
      apply TrProofs.arithmetic_lemma with (t := 0) in Hv as (_ & _ & _ & _ & _ & Ht). rewrite Ht in Em.
      cbn [up_tr_ rs_tr]. change (balance (up_tr_ s1 x) a) with (balance s1 a) in *.
      unfold vesting_frozen at 1. rewrite Hf, TrProofs.put_freeze_eq. destruct (decide (a = to)) as [<-|Hne].
      * exists (total_of sch). destruct (I a) as (_ & _ & Hs & _). change (t_schedules (tr_view s) a) with (t_schedules (rs_tr s) a).
        split; [lia|]. unfold token_transfer in Em. destruct (N.eqb_spec (o_who o) a); [done|].
        destruct (token_debit cfg s false (o_who o) (total_of sch)) as [s2|] eqn:E1; [|done].
        destruct (token_credit cfg s2 a (total_of sch)) as [s3|] eqn:E2; [|done]. injection Em as <-.
        apply credit_bal in E2 as (E2 & _). rewrite E2, (debit_other _ _ _ _ _ _ a E1) by done. lia.
      * exists 0. split; [change (tr_freeze (tr_view s)) with (tr_freeze (rs_tr s)); unfold vesting_frozen; lia|lia].
    + injection E as <-. apply frees_mine; [done|done|]. by eapply claim_less.
  - assert (E : rs_tr s' = rs_tr s) by (destruct c; cbn [bal_dispatch] in L; by apply transfer_same in L as [-> _]). by apply frees_still.
  - by apply frees_still; [|rewrite L|].
  - by apply frees_still; [|rewrite L|].
Qed.
Lemma frees_dispatch : forall c o s s', rt_dispatch cfg c o s = Ok s' -> o_who o <> a -> frees s s'.
Proof.
  induction c as [c Hp|k l IH|c IH|l IH|r f c IH|os c IH] using call_ind; intros o s s' H Ho.
  - by eapply frees_leaf.
  - cbn [rt_dispatch] in H. destruct (base_filter _ _ && _); [|done].
    eapply (run_batch_same frees); [apply frees_refl|apply frees_trans| |exact H].
    intros c Hc x y Hxy. eapply (proj1 (Forall_forall _ _) IH c Hc); [exact Hxy|by destruct k].
  - cbn [rt_dispatch] in H. destruct (base_filter _ _ && _); [|done]. by eapply IH.
  - cbn [rt_dispatch] in H. destruct (base_filter _ _ && _); [|done]. destruct (_ <=? _); [|done].
    eapply (run_batch_same frees); [apply frees_refl|apply frees_trans| |exact H].
    intros c Hc x y Hxy. eapply (proj1 (Forall_forall _ _) IH c Hc); [exact Hxy|done].
  - cbn [rt_dispatch] in H. destruct (base_filter _ _ && _); [|done]. destruct (find_proxy _ _ _ _) as [t|] eqn:E; [|done].
    destruct (rt_dispatch _ c _ s) as [s1|] eqn:Ed; [|injection H as <-; apply frees_refl]. injection H as <-.
    intros Hn. apply find_proxy_ok in E as [E _]. eapply IH; [exact Ed| |exact Hn]. cbn. intros ->. rewrite Hn in E. inversion E.
  - cbn [rt_dispatch] in H. destruct (base_filter _ _ && _); [|done]. eapply IH; [exact H|]. apply Hmulti.
Qed.
Lemma frees_run_call c o s s' r : run_call cfg c o s = (s', r) -> o_who o <> a -> frees s s'.
Proof. unfold run_call. destruct (rt_dispatch _ _ _ _) eqn:E; intros [= <- _] Ho; [by eapply frees_dispatch|apply frees_refl]. Qed.
Lemma frees_check s w n p s1 : check_nonce s w n p = Ok s1 -> w <> a -> frees s s1.
Proof.
  intros H Hw. pose proof (mine_check cfg a Hmulti s w n p s1 H Hw) as M. apply check_ok in H as [_ ->].
  apply frees_still; [done|by destruct (_ || _)|by destruct (_ || _)].
Qed.
Lemma frees_token_fee s w c n tip s1 : withdraw_token_fee cfg s w c n tip = Ok s1 -> w <> a -> frees s s1.
Proof.
  intros H Hw. pose proof (mine_token_fee cfg a Hmulti s w c n tip s1 H Hw) as M. unfold withdraw_token_fee in H.
  destruct (_ =? 0); [injection H as <-; apply frees_refl|]. destruct (token_debit _ _ _ _ _) eqn:E; [|done]. injection H as <-.
  apply frees_still; [done|by apply debit_same in E as [-> _]|]. by eapply debit_kept.
Qed.
Lemma frees_capacity_fee s w l n s1 : withdraw_capacity_fee cfg s w l n = Ok s1 -> frees s s1.
Proof.
  intros H. pose proof (mine_capacity_fee cfg a Hmulti s w l n s1 H) as M. unfold withdraw_capacity_fee in H.
  destruct (capacity_charge _ _) as [fee|]; [|done]. destruct (_ <=? _); [|done].
  destruct (ms_keys _ !! _) as [m|]; [|done]. destruct (cap_spend _ _ _) as [x|]; [|done]. injection H as <-. by apply frees_still.
Qed.
Lemma frees_step x s : not_by a x -> not_rescheduled a x -> (forall r, x = SBlock r -> rs_relay s <= r) -> frees s (rt_step cfg s x).
Proof.
  intros Hx Hg Hrl. pose proof (mine_step cfg a Hmulti x s Hx) as M. pose proof (kept_step cfg x s Hrl) as K.
  destruct x as [r|t|p|c]; cbn [rt_step not_by not_rescheduled] in *.
  - by apply frees_still.
  - clear M K. unfold tx_apply. destruct (check_nonce _ _ _ _) as [s1|] eqn:E1; [|apply frees_refl].
    destruct (withdraw_fee _ _ _ _ _ _) as [s2|] eqn:E2; [|apply frees_refl]. destruct (free_use _ _ _); [|apply frees_refl].
    destruct (run_call _ _ _ _) as [s3 r] eqn:E3.
    eapply frees_trans; [by eapply frees_check|]. eapply frees_trans; [|by eapply frees_run_call].
    destruct (tx_call t); cbn [withdraw_fee] in E2; first [by eapply frees_token_fee|by eapply frees_capacity_fee].
  - clear M K. unfold passkey_apply. destruct (negb _); [|apply frees_refl]. destruct (passkey_filter _); [|apply frees_refl]. destruct (r_verify _ _ _ _); [|apply frees_refl].
    destruct (check_nonce _ _ _ _) as [s1|] eqn:E1; [|apply frees_refl].
    destruct (withdraw_token_fee _ _ _ _ _ _) as [s2|] eqn:E2; [|apply frees_refl].
    destruct (run_call _ _ _ _) as [s3 r] eqn:E3.
    eapply frees_trans; [by eapply frees_check|]. eapply frees_trans; [by eapply frees_token_fee|by eapply frees_run_call].
  - destruct (gov_apply _ _ _) as [s1|] eqn:E; [|apply frees_refl].
    destruct c as [k n|root c|n|w l]; cbn [gov_apply] in E; apply lift_ok in E as (y & H & E); injection E as <-; try (by apply frees_still).
    apply frees_mine; [done|done|]. intros _. cbn [up_tr_ rs_tr]. apply TrProofs.update_ok in H as (_ & _ & _ & _ & _ & Hf & _).
    unfold vesting_frozen at 1. rewrite Hf, TrProofs.put_freeze_eq, decide_False by congruence. done.
Qed.
Lemma frees_run h : forall s, relays_from (rs_relay s) h -> Forall (not_by a) h -> Forall (not_rescheduled a) h -> frees s (rt_run cfg s h).
Proof.
  induction h as [|x h IH]; intros s H F G; [apply frees_refl|]. inversion F; subst. inversion G; subst.
  change (rt_run cfg s (x :: h)) with (rt_run cfg (rt_step cfg s x) h).
  eapply frees_trans; [apply frees_step; [done|done|]; intros r E; subst x; exact (proj1 H)|]. apply IH; [|done|done].
  destruct x as [r|t|p|c]; [exact (proj2 H)|..]; match goal with |- relays_from (rs_relay (rt_step _ _ ?x)) _ => destruct (step_relay cfg x s) as [-> _]; [done|exact H] end.
Qed.
End rt.

Lemma relays_app_l : forall h1 t h2, relays_from t (h1 ++ h2) -> relays_from t h1.
Proof. induction h1 as [|x h1 IH]; intros t h2 H; [done|]. destruct x; cbn in *; try (by eapply IH). destruct H as [A B]. split; [done|]. by eapply IH. Qed.
Lemma relays_app_r cfg : forall h1 s h2, relays_from (rs_relay s) (h1 ++ h2) -> relays_from (rs_relay (rt_run cfg s h1)) h2.
Proof.
  induction h1 as [|x h1 IH]; intros s h2 H; [done|]. change (rt_run cfg s (x :: h1)) with (rt_run cfg (rt_step cfg s x) h1). apply IH.
  destruct x as [r|t|p|c]; [exact (proj2 H)|..]; match goal with |- relays_from (rs_relay (rt_step _ _ ?x)) _ => destruct (step_relay cfg x s) as [-> _]; [done|exact H] end.
Qed.

Lemma start_kept cfg b mm items v h : genesis_build (r_tr cfg) (tr_initial b) items = Ok v -> relays_from 0 h -> kept cfg (rt_run cfg (rt_start b mm v) h).
Proof.
  intros Hg Hh. apply kept_run; [done|]. split; [exact (TrProofs.reach_inv _ _ _ _ [] Hg I)|]. intros x.
  apply (genesis_frozen cfg) in Hg as [H E]; [|intros y; unfold vesting_frozen, tr_initial; cbn; rewrite lookup_empty; apply N.le_0_l].
  specialize (H x). unfold t_balance in H. rewrite E in H. exact H.
Qed.

Lemma usable_lemma cfg b mm items v h0 h a : genesis_build (r_tr cfg) (tr_initial b) items = Ok v -> relays_from 0 (h0 ++ h) ->
  let s := rt_run cfg (rt_start b mm v) h0 in
  alone cfg s a -> Forall (not_by a) h -> Forall (not_rescheduled a) h ->
  usable s a <= usable (rt_run cfg s h) a.
Proof.
  intros Hg Hh s [Hp Hm] F G. pose proof (start_kept cfg b mm items v h0 Hg (relays_app_l _ _ _ Hh)) as K.
  assert (R : relays_from (rs_relay s) h) by (apply (relays_app_r cfg h0 (rt_start b mm v)); exact Hh).
  destruct (frees_run cfg a Hm h s R F G Hp K) as (_ & _ & C & d & V & B).
  unfold usable, RtModel.frozen. unfold CapSpec.frozen, vesting_frozen in *. rewrite C. lia.
Qed.
