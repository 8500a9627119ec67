(** Proofs for SlotsProperties.v. *)
From Verif Require Import Prelude Sums TrModel TrSpec TrProofs SlotsSpec.

Section slots.
Context (cfg : TrCfg).

Lemma last_day_unreleased p t : t < u32_max -> unreleased (last_day p) t = p.
Proof.
  intros Ht. unfold unreleased, due_later, last_day; cbn [sc_per sc_start sc_count sc_period].
  change (seq 1 (N.to_nat 1)) with [1%nat]. change (N.of_nat 1) with 1. cbn [filter list_filter].
  destruct (decide _) as [_|Hn]; [cbn; lia|]. exfalso. apply Hn. unfold u32_max in *. lia.
Qed.

Lemma last_day_valid p : p <= u128_max -> valid_sched (last_day p).
Proof.
  intros Hp. unfold valid_sched, total_of, last_day; cbn [sc_per sc_start sc_count sc_period]. unfold u32_max in *. lia.
Qed.

Lemma live_rep k p t : 0 < p -> t < u32_max -> live t (repeat (last_day p) k) = repeat (last_day p) k.
Proof.
  intros Hp Ht. unfold live. induction k as [|k IH]; [done|]. cbn [repeat]. rewrite filter_cons, IH.
  rewrite last_day_unreleased by done. by destruct (decide _).
Qed.

Lemma sum_rep k p t : t < u32_max -> sum_unrel (repeat (last_day p) k) t = N.of_nat k * p.
Proof.
  intros Ht. unfold sum_unrel. induction k as [|k IH]; [done|]. cbn [repeat map sumN].
  rewrite last_day_unreleased by done. unfold sumN in *; cbn in *. rewrite IH. lia.
Qed.

Lemma len_rep k p : len (repeat (last_day p) k) = N.of_nat k.
Proof. unfold len. by rewrite repeat_length. Qed.

(** The transfer rule in an arbitrary state of the invariant. *)
Lemma accepts st now from to s :
  acc_ok cfg st now to -> valid_sched s -> t_min cfg <= total_of s -> total_of s <= t_balance st from ->
  sum_unrel (t_schedules st to) now + total_of s <= u128_max -> len (live now (t_schedules st to)) < t_max cfg ->
  exists st', t_call_transfer cfg st now true from to s = Ok st'.
Proof.
  intros Hacc Hv Hm Hb Hs Hl. unfold t_call_transfer, do_transfer.
  match goal with |- context [if to =? from then ?x else ?y] => assert (Hpre : (if to =? from then x else y) = Ok tt) end.
  { destruct (to =? from); [|done]. unfold sc_total, chk_mul. destruct Hv as (_ & _ & _ & Hv).
    change (sc_per s * sc_count s) with (total_of s) in *.
    destruct (N.leb_spec (total_of s) u128_max); [|lia]. by destruct (N.leb_spec (total_of s) (t_balance st from)); [|lia]. }
  rewrite Hpre. clear Hpre.
  destruct (proj2 (valid_iff cfg s) (conj Hv Hm)) as [total Hev]. rewrite Hev. apply valid_ok in Hev as (_ & -> & _).
  rewrite (prune_eq cfg) by done. unfold chk_add.
  destruct (N.leb_spec (sum_unrel (t_schedules st to) now + total_of s) u128_max); [|lia].
  unfold t_transfer. unfold t_balance at 1. cbn [tr_bal]. fold (t_balance st from).
  destruct (N.leb_spec (total_of s) (t_balance st from)); [|lia].
  destruct (N.eqb_spec from to) as [->|Hne]; cbn [tr_sched];
    match goal with |- context [t_schedules ?st3 to ++ [s]] =>
      assert (Hl3 : t_schedules st3 to = live now (t_schedules st to))
        by (unfold t_schedules at 1; cbn; by rewrite put_sched_eq, decide_True) end;
    rewrite !Hl3; destruct (N.ltb_spec (len (live now (t_schedules st to))) (t_max cfg)); try (by eexists); exfalso; lia.
Qed.

Lemma fill_run n now x a p : now < u32_max -> x <> a -> 0 < p -> t_min cfg <= p ->
  N.of_nat n <= t_max cfg -> N.of_nat n * p <= u128_max ->
  forall k st, (k <= n)%nat -> tr_inv cfg st now -> t_schedules st a = repeat (last_day p) (n - k) ->
  N.of_nat k * p + t_ed cfg <= t_balance st x ->
  let st' := tr_run cfg st (repeat (now, TTransfer true x a (last_day p)) k) in
  t_schedules st' a = repeat (last_day p) n /\ t_balance st' x = t_balance st x - N.of_nat k * p
  /\ tr_inv cfg st' now.
Proof.
  intros Ht Hne Hp Hm Hn Hu. induction k as [|k IH]; intros st Hk I Hs Hb; cbv zeta.
  - cbn [repeat tr_run fold_left]. rewrite Hs, Nat.sub_0_r. split; [done|]. split; [lia|done].
  - assert (Hkn : (N.of_nat (n - S k) + 1) * p <= N.of_nat n * p) by (apply N.mul_le_mono_r; lia).
    rewrite N.mul_add_distr_r, N.mul_1_l in Hkn.
    assert (Htot : total_of (last_day p) = p) by (unfold total_of, last_day; cbn; lia).
    assert (HSk : N.of_nat (S k) * p = N.of_nat k * p + p) by lia. rewrite HSk in *.
    assert (Hup : N.of_nat (n - S k) * p + p <= u128_max) by (etransitivity; [exact Hkn|exact Hu]).
    assert (Hpn : p <= u128_max) by (etransitivity; [|exact Hup]; apply N.le_add_l).
    destruct (accepts st now x a (last_day p)) as [st1 H1]; [apply I|by apply last_day_valid|by rewrite Htot| | | |].
    { rewrite Htot. lia. }
    { rewrite Htot, Hs, sum_rep by done. exact Hup. }
    { rewrite Hs, live_rep, len_rep by done. lia. }
    pose proof H1 as H2. apply transfer_ok in H2 as (_ & _ & _ & _ & _ & _ & Esc & _ & _ & _ & Ebal); [|apply I].
    specialize (Ebal Hne). rewrite Htot in Ebal.
    assert (I1 : tr_inv cfg st1 now) by (apply (tr_inv_apply cfg st now (TTransfer true x a (last_day p))); [exact I|exact H1]).
    assert (Hs1 : t_schedules st1 a = repeat (last_day p) (n - k)).
    { unfold t_schedules at 1. rewrite Esc, lookup_insert. cbn [default from_option id]. rewrite Hs, live_rep by done.
      replace (n - k)%nat with (S (n - S k)) by lia. cbn [repeat]. by rewrite repeat_cons. }
    assert (Hb1 : t_balance st1 x = t_balance st x - p).
    { unfold t_balance at 1. rewrite Ebal, lookup_insert_ne by done. rewrite lookup_insert. cbn [default from_option id].
      destruct (N.ltb_spec (t_balance st x - p) (t_ed cfg)); [lia|done]. }
    assert (Hstep : tr_run cfg st (repeat (now, TTransfer true x a (last_day p)) (S k))
      = tr_run cfg st1 (repeat (now, TTransfer true x a (last_day p)) k)).
    { cbn [repeat]. unfold tr_run; cbn [fold_left]. f_equal. unfold tr_step; cbn [fst snd tr_apply]. by rewrite H1. }
    rewrite Hstep. destruct (IH st1) as (A & B & C); [lia|done|done|rewrite Hb1; lia|].
    split; [exact A|]. split; [rewrite B, Hb1; lia|exact C].
Qed.

(** A full account stays full. *)
Lemma full_run a p l : 0 < p -> l = repeat (last_day p) (N.to_nat (t_max cfg)) ->
  forall h st t, tr_inv cfg st t -> times_from t h -> last_time t h < u32_max -> no_update a h ->
  t_schedules st a = l -> t_schedules (tr_run cfg st h) a = l.
Proof.
  intros Hp ->. induction h as [|[now c] h IH]; intros st t I Hti Hl Hnu Hs; [done|].
  cbn [times_from last_time fst] in *. destruct Hti as [Hle Hti]. inversion Hnu as [|? ? Hc Hnu']; subst. cbn [snd] in Hc.
  assert (Hmono : forall h t0, times_from t0 h -> t0 <= last_time t0 h).
  { clear. induction h as [|e h IH]; intros t0 H; cbn in *; [lia|]. destruct H as [H1 H2]. specialize (IH _ H2). lia. }
  pose proof (Hmono _ _ Hti) as Hnow. assert (Hlt : now < u32_max) by lia.
  assert (I' : tr_inv cfg st now) by (by apply (tr_inv_later cfg st t)).
  change (tr_run cfg st ((now, c) :: h)) with (tr_run cfg (tr_step cfg st (now, c)) h).
  apply (IH _ now); [by apply (tr_inv_step cfg st (now, c))|done|done|done|].
  unfold tr_step; cbn [fst snd]. destruct (tr_apply cfg st now c) as [st'|] eqn:E; [|done].
  destruct c as [signer who|allowed from to s|root who l|b]; cbn [tr_apply] in E.
  - destruct signer; [|done]. rewrite (claim_eq cfg) in E by apply I'. injection E as <-.
    unfold t_schedules at 1; cbn [tr_sched]. rewrite put_sched_eq. destruct (decide (a = who)) as [<-|]; [|done].
    by rewrite Hs, live_rep.
  - apply transfer_ok in E as (_ & _ & _ & _ & _ & Hlen & Esc & _); [|apply I'].
    unfold t_schedules at 1. rewrite Esc. destruct (decide (a = to)) as [<-|].
    + exfalso. rewrite Hs, live_rep, len_rep in Hlen by done. lia.
    + rewrite lookup_insert_ne by done. rewrite put_sched_eq, decide_False by done. done.
  - destruct root; [|done]. apply update_ok in E as (_ & _ & _ & _ & Esc & _).
    unfold t_schedules at 1. rewrite Esc, put_sched_eq, decide_False by done. done.
  - injection E as <-. done.
Qed.

Lemma times_app t h1 h2 : times_from t h1 -> times_from (last_time t h1) h2 -> times_from t (h1 ++ h2).
Proof. revert t. induction h1 as [|e h1 IH]; intros t A B; cbn in *; [done|]. destruct A. auto. Qed.

Lemma blocked b items st0 h a x p now :
  genesis_build cfg (tr_initial b) items = Ok st0 -> times_from 0 h -> last_time 0 h <= now -> now < u32_max ->
  t_schedules (tr_run cfg st0 h) a = [] -> x <> a -> 0 < p -> t_min cfg <= p -> t_max cfg * p <= u128_max ->
  t_max cfg * p + t_ed cfg <= t_balance (tr_run cfg st0 h) x ->
  t_balance (tr_run cfg st0 (h ++ fill (t_max cfg) now x a p)) x = t_balance (tr_run cfg st0 h) x - t_max cfg * p
  /\ forall h2 t allowed from s,
     times_from now h2 -> last_time now h2 <= t -> t < u32_max -> no_update a h2 ->
     exists e, tr_apply cfg (tr_run cfg st0 (h ++ fill (t_max cfg) now x a p ++ h2)) t (TTransfer allowed from a s) = Err e.
Proof.
  intros Hg Ht Hln Hnow Hs Hne Hp Hm Hu Hb.
  pose proof (reach_inv cfg b items st0 h Hg Ht) as I. apply (tr_inv_later cfg _ _ now Hln) in I.
  destruct (fill_run (N.to_nat (t_max cfg)) now x a p) with (k := N.to_nat (t_max cfg)) (st := tr_run cfg st0 h)
    as (A & B & C); try done; rewrite ?N2Nat.id, ?Nat.sub_diag; try done; try lia.
  fold (fill (t_max cfg) now x a p) in A, B, C. rewrite N2Nat.id in B.
  unfold tr_run in A, B, C. rewrite <- fold_left_app in A, B, C. fold (tr_run cfg st0 (h ++ fill (t_max cfg) now x a p)) in A, B, C.
  split; [exact B|]. intros h2 t allowed from s Hti Hl2 Hlt Hnu.
  assert (Hs2 : t_schedules (tr_run cfg st0 (h ++ fill (t_max cfg) now x a p ++ h2)) a = repeat (last_day p) (N.to_nat (t_max cfg))).
  { rewrite app_assoc. unfold tr_run. rewrite fold_left_app. fold (tr_run cfg st0 (h ++ fill (t_max cfg) now x a p)).
    eapply (full_run a p); [exact Hp|reflexivity|exact C|exact Hti|lia|exact Hnu|exact A]. }
  assert (I2 : tr_inv cfg (tr_run cfg st0 (h ++ fill (t_max cfg) now x a p ++ h2)) t).
  { rewrite app_assoc. unfold tr_run. rewrite fold_left_app. fold (tr_run cfg st0 (h ++ fill (t_max cfg) now x a p)).
    apply (tr_inv_later cfg _ _ t Hl2). by apply (tr_inv_run cfg). }
  cbn [tr_apply]. destruct (t_call_transfer _ _ _ _ _ _ _) as [st'|e] eqn:E; [|by exists e].
  exfalso. apply transfer_ok in E as (_ & _ & _ & _ & _ & Hlen & _); [|apply I2].
  rewrite Hs2, live_rep, len_rep in Hlen by done. lia.
Qed.

(** What others do elsewhere only frees slots. *)
Lemma alone_run a : forall h st t T, tr_inv cfg st t -> times_from t h -> last_time t h <= T -> leaves_alone a h ->
  len (live T (t_schedules (tr_run cfg st h) a)) <= len (live T (t_schedules st a))
  /\ sum_unrel (t_schedules (tr_run cfg st h) a) T <= sum_unrel (t_schedules st a) T.
Proof.
  induction h as [|[now c] h IH]; intros st t T I Hti Hl [Hnu Htr]; [cbn; lia|].
  cbn [times_from last_time fst] in *. destruct Hti as [Hle Hti].
  inversion Hnu as [|? ? Hc Hnu']; subst. inversion Htr as [|? ? Hd Htr']; subst. cbn [snd] in Hc, Hd.
  assert (I' : tr_inv cfg st now) by (by apply (tr_inv_later cfg st t)).
  change (tr_run cfg st ((now, c) :: h)) with (tr_run cfg (tr_step cfg st (now, c)) h).
  destruct (IH (tr_step cfg st (now, c)) now T) as [A B]; [by apply (tr_inv_step cfg st (now, c))|done|done|done|].
  assert (Hw : t_schedules (tr_step cfg st (now, c)) a = t_schedules st a
    \/ t_schedules (tr_step cfg st (now, c)) a = live now (t_schedules st a)).
  { unfold tr_step; cbn [fst snd]. destruct (tr_apply cfg st now c) as [st'|] eqn:E; [|by left].
    destruct c as [signer who|allowed from to s|root who l|b]; cbn [tr_apply] in E.
    - destruct signer; [|done]. rewrite (claim_eq cfg) in E by apply I'. injection E as <-.
      destruct (decide (a = who)) as [<-|]; [right|left]; unfold t_schedules at 1; cbn [tr_sched]; rewrite put_sched_eq;
        [by rewrite decide_True|by rewrite decide_False].
    - apply transfer_ok in E as (_ & _ & _ & _ & _ & Hlen & Esc & _); [|apply I'].
      left. unfold t_schedules at 1. rewrite Esc, lookup_insert_ne by done. rewrite put_sched_eq, decide_False by done. done.
    - destruct root; [|done]. apply update_ok in E as (_ & _ & _ & _ & Esc & _).
      left. unfold t_schedules at 1. rewrite Esc, put_sched_eq, decide_False by done. done.
    - injection E as <-. by left. }
  destruct Hw as [Hw|Hw]; rewrite Hw in A, B; [done|].
  assert (Hlv : forall l, len (live T (live now l)) <= len (live T l) /\ sum_unrel (live now l) T <= sum_unrel l T).
  { clear. intros l. unfold live, sum_unrel, len. induction l as [|s l [IH1 IH2]]; [cbn; lia|].
    rewrite !(filter_cons _ s l). destruct (decide (0 < unreleased s now)); [rewrite (filter_cons _ s)|];
      destruct (decide (0 < unreleased s T)); unfold sumN in *; cbn [length map foldr] in *; lia. }
  destruct (Hlv (t_schedules st a)). lia.
Qed.

Lemma undisturbed b items st0 h now h2 t from from' a s :
  genesis_build cfg (tr_initial b) items = Ok st0 -> times_from 0 h -> last_time 0 h <= now ->
  is_ok (tr_apply cfg (tr_run cfg st0 h) now (TTransfer true from a s)) = true ->
  times_from now h2 -> last_time now h2 <= t -> leaves_alone a h2 ->
  total_of s <= t_balance (tr_run cfg st0 (h ++ h2)) from' ->
  is_ok (tr_apply cfg (tr_run cfg st0 (h ++ h2)) t (TTransfer true from' a s)) = true.
Proof.
  intros Hg Ht Hln Hok Hti Hl2 Hal Hb.
  pose proof (reach_inv cfg b items st0 h Hg Ht) as I. apply (tr_inv_later cfg _ _ now Hln) in I.
  cbn [tr_apply] in Hok. destruct (t_call_transfer cfg (tr_run cfg st0 h) now true from a s) as [st'|] eqn:E; [|done].
  apply transfer_ok in E as (Hv & Hm & _ & _ & Hs & Hlen & _); [|apply I].
  unfold tr_run in *. rewrite fold_left_app in *. fold (tr_run cfg st0 h) in *.
  fold (tr_run cfg (tr_run cfg st0 h) h2) in *.
  destruct (alone_run a h2 (tr_run cfg st0 h) now t I Hti Hl2 Hal) as [A B].
  assert (Hnt : now <= t).
  { clear -Hti Hl2. revert now Hti Hl2. induction h2 as [|e h2 IH]; intros now H1 H2; cbn in *; [done|]. destruct H1 as [H1 H3].
    specialize (IH _ H3 H2). lia. }
  pose proof (sum_unrel_mono (t_schedules (tr_run cfg st0 h) a) now t Hnt).
  assert (len (live t (t_schedules (tr_run cfg st0 h) a)) <= len (live now (t_schedules (tr_run cfg st0 h) a))).
  { clear -Hnt. generalize (t_schedules (tr_run cfg st0 h) a). intros l. unfold live, len. induction l as [|s l IH]; [done|].
    rewrite !filter_cons. pose proof (unreleased_mono s now t Hnt).
    destruct (decide (0 < unreleased s t)), (decide (0 < unreleased s now)); cbn [length] in *; lia. }
  destruct (accepts (tr_run cfg (tr_run cfg st0 h) h2) t from' a s) as [st2 E2]; [|done|done|done|lia|lia|].
  - apply (tr_inv_later cfg _ _ t Hl2). by apply (tr_inv_run cfg).
  - cbn [tr_apply]. by rewrite E2.
Qed.

End slots.
