(** Proofs about the vesting model. *)
From Verif Require Import Prelude Sums TrModel TrSpec.

(** ** Arithmetic of one schedule *)
Lemma due_later_eq s t : 0 < sc_period s -> due_later s t = sc_count s - (t - sc_start s) / sc_period s.
Proof.
  intros Hp. unfold due_later.
  assert (H : forall n, N.of_nat (length (filter (fun i => t < sc_start s + N.of_nat i * sc_period s) (seq 1 n))) =
              N.of_nat n - (t - sc_start s) / sc_period s).
  { induction n as [|n IH]; [done|].
    rewrite seq_S, filter_app, app_length, Nat2N.inj_add, IH, filter_cons, filter_nil.
    set (full := (t - sc_start s) / sc_period s).
    assert (Hiff : t < sc_start s + N.of_nat (1 + n) * sc_period s <-> full < N.of_nat (1 + n)).
    { unfold full. pose proof (N.div_mod (t - sc_start s) (sc_period s) ltac:(lia)).
      pose proof (N.mod_lt (t - sc_start s) (sc_period s) ltac:(lia)).
      split; intros.
      - apply N.div_lt_upper_bound; [lia|]. lia.
      - assert (sc_period s * ((t - sc_start s) / sc_period s + 1) <= sc_period s * N.of_nat (1 + n)) by (apply N.mul_le_mono_l; lia). lia. }
    destruct (decide _) as [Hd|Hd]; cbn; rewrite Hiff in Hd; lia. }
  rewrite H. lia.
Qed.

Lemma due_later_le s t : due_later s t <= sc_count s.
Proof.
  unfold due_later.
  pose proof (filter_length (fun i => t < sc_start s + N.of_nat i * sc_period s) (seq 1 (N.to_nat (sc_count s)))) as H.
  rewrite seq_length in H. lia.
Qed.

Lemma unreleased_le s t : unreleased s t <= total_of s.
Proof. apply N.mul_le_mono_l, due_later_le. Qed.

Lemma due_later_mono s t t' : t <= t' -> due_later s t' <= due_later s t.
Proof.
  intros Ht. unfold due_later. induction (seq 1 _) as [|i l IH]; [done|].
  rewrite !filter_cons. repeat destruct (decide _); cbn; lia.
Qed.

Lemma unreleased_mono s t t' : t <= t' -> unreleased s t' <= unreleased s t.
Proof. intros. by apply N.mul_le_mono_l, due_later_mono. Qed.

Lemma sc_frozen_eq s t : valid_sched s -> sc_frozen s t = Some (unreleased s t).
Proof.
  intros (Hp & Hc & He & Ht). unfold sc_frozen. destruct (N.eqb_spec (sc_period s) 0); [lia|].
  unfold unreleased. rewrite due_later_eq by done. unfold chk_mul.
  destruct (N.leb_spec (sc_per s * (sc_count s - (t - sc_start s) / sc_period s)) u128_max); [done|].
  exfalso. pose proof (unreleased_le s t) as Hle. unfold unreleased in Hle. rewrite due_later_eq in Hle by done. lia.
Qed.

Lemma arithmetic_lemma s t :
  valid_sched s ->
  sc_frozen s t = Some (unreleased s t) /\
  (t < sc_start s + sc_period s -> unreleased s t = total_of s) /\
  (sc_start s + sc_period s * sc_count s <= t -> unreleased s t = 0) /\
  (forall t', t <= t' -> unreleased s t' <= unreleased s t) /\
  sc_end s = Some (sc_start s + sc_period s * sc_count s) /\ sc_total s = Some (total_of s).
Proof.
  intros Hv. split; [by apply sc_frozen_eq|]. destruct Hv as (Hp & Hc & He & Ht).
  split.
  { intros Hlt. unfold unreleased, total_of. rewrite due_later_eq by done.
    rewrite (N.div_small (t - sc_start s)) by lia. f_equal. lia. }
  split.
  { intros Hge. unfold unreleased. rewrite due_later_eq by done.
    assert (sc_count s <= (t - sc_start s) / sc_period s) by (apply N.div_le_lower_bound; lia).
    assert (sc_count s - (t - sc_start s) / sc_period s = 0) as -> by lia. lia. }
  split; [intros; by apply unreleased_mono|].
  split.
  - unfold sc_end, chk_mul, chk_add.
    destruct (N.leb_spec (sc_period s * sc_count s) u32_max); [|lia].
    destruct (N.leb_spec (sc_period s * sc_count s + sc_start s) u32_max); [|lia]. f_equal. lia.
  - unfold sc_total, chk_mul. fold (total_of s). destruct (N.leb_spec (total_of s) u128_max); [done|lia].
Qed.

(** ** Sums over lists of schedules *)
Definition sum_unrel (l : list Sched) (t : N) : N := sumN (map (fun s => unreleased s t) l).
Definition live (t : N) (l : list Sched) : list Sched := filter (fun s => 0 < unreleased s t) l.

Lemma sum_unrel_app l k t : sum_unrel (l ++ k) t = sum_unrel l t + sum_unrel k t.
Proof. unfold sum_unrel. by rewrite map_app, sumN_app. Qed.
Lemma sum_unrel_mono l t t' : t <= t' -> sum_unrel l t' <= sum_unrel l t.
Proof.
  intros Ht. unfold sum_unrel. induction l as [|s l IH]; cbn; [lia|]. pose proof (unreleased_mono s t t' Ht). lia.
Qed.
Lemma sum_unrel_live l t t' : t <= t' -> sum_unrel (live t l) t' = sum_unrel l t'.
Proof.
  intros Ht. unfold sum_unrel, live. induction l as [|s l IH]; [done|]. rewrite filter_cons.
  pose proof (unreleased_mono s t t' Ht). destruct (decide _); cbn; lia.
Qed.
Lemma live_live l t : live t (live t l) = live t l.
Proof. unfold live. rewrite list_filter_filter. apply list_filter_iff. intros; lia. Qed.
Lemma live_valid l t : Forall valid_sched l -> Forall valid_sched (live t l).
Proof. unfold live. induction 1; [constructor|]. rewrite filter_cons. destruct (decide _); [constructor|]; done. Qed.
Lemma live_len l t : len (live t l) <= len l.
Proof. unfold len, live. pose proof (filter_length (fun s => 0 < unreleased s t) l). lia. Qed.

Lemma retain_frozen_eq l t : Forall valid_sched l -> retain_frozen l t = Some (live t l).
Proof.
  induction 1 as [|s l Hs Hl IH]; [done|]. cbn [retain_frozen]. rewrite sc_frozen_eq, IH by done. unfold live.
  rewrite filter_cons. destruct (N.eqb_spec (unreleased s t) 0), (decide _); try lia; done.
Qed.

Lemma fold_frozen_eq l t acc :
  Forall valid_sched l -> acc + sum_unrel l t <= u128_max -> fold_frozen l t acc = Some (acc + sum_unrel l t).
Proof.
  intros Hl. revert acc. induction Hl as [|s l Hs Hl IH]; intros acc Ha; cbn [fold_frozen].
  - f_equal. unfold sum_unrel; cbn. lia.
  - rewrite sc_frozen_eq by done. unfold sum_unrel in *; cbn in *.
    assert (wrap_add u128_max acc (unreleased s t) = acc + unreleased s t) as ->.
    { unfold wrap_add. apply N.mod_small. lia. }
    rewrite IH by lia. f_equal. lia.
Qed.

Section tr.
Variable cfg : TrCfg.

Lemma valid_ok s total : ensure_valid_release_schedule cfg s = Ok total -> valid_sched s /\ total = total_of s /\ t_min cfg <= total.
Proof.
  unfold ensure_valid_release_schedule. intros H.
  destruct (N.eqb_spec (sc_period s) 0); [done|]. destruct (N.eqb_spec (sc_count s) 0); [done|]. cbn [negb] in H.
  destruct (sc_end s) eqn:Ee; [|done]. destruct (sc_total s) eqn:Et; [|done].
  destruct (N.leb_spec (t_min cfg) n2); [|done]. injection H as <-.
  unfold sc_end, sc_total, chk_mul, chk_add in *.
  destruct (N.leb_spec (sc_period s * sc_count s) u32_max); [|done].
  destruct (N.leb_spec (sc_period s * sc_count s + sc_start s) u32_max); [|done].
  fold (total_of s) in Et. destruct (N.leb_spec (total_of s) u128_max); [|done]. injection Et as <-.
  unfold valid_sched. repeat split; lia.
Qed.

Lemma fold_valid_ok l acc total :
  fold_valid cfg l acc = Ok total -> acc <= u128_max ->
  Forall valid_sched l /\ total = acc + sumN (map total_of l) /\ total <= u128_max.
Proof.
  revert acc. induction l as [|s l IH]; intros acc H Ha; cbn [fold_valid] in H.
  - injection H as <-. cbn. split; [constructor|]. split; [lia|done].
  - destruct (ensure_valid_release_schedule cfg s) as [amount|] eqn:E; [|done].
    apply valid_ok in E as (Hv & -> & _).
    unfold chk_add in H. destruct (N.leb_spec (acc + total_of s) u128_max); [|done].
    apply IH in H as (Hl & -> & Hb); [|done]. split; [by constructor|]. cbn. split; lia.
Qed.

Lemma sum_unrel_total l t : sum_unrel l t <= sumN (map total_of l).
Proof. unfold sum_unrel. induction l as [|s l IH]; cbn; [lia|]. pose proof (unreleased_le s t). lia. Qed.

(** ** What the calls do to a state whose schedules are valid *)
Definition acc_ok (st : TrState) (t a : N) : Prop :=
  Forall valid_sched (t_schedules st a) /\ len (t_schedules st a) <= t_max cfg /\
  sum_unrel (t_schedules st a) t <= vesting_frozen st a /\ vesting_frozen st a <= u128_max.
Definition tr_inv (st : TrState) (t : N) : Prop := forall a, acc_ok st t a.

Definition put_sched (m : gmap N (list Sched)) (a : N) (l : list Sched) :=
  match l with [] => delete a m | _ => <[a := l]> m end.
Definition put_freeze (m : gmap N N) (a x : N) := if x =? 0 then delete a m else <[a := x]> m.

Lemma put_sched_eq m a l b : default [] (put_sched m a l !! b) = if decide (b = a) then l else default [] (m !! b).
Proof.
  unfold put_sched. destruct (decide (b = a)) as [->|].
  - destruct l; [by rewrite lookup_delete|by rewrite lookup_insert].
  - destruct l; [by rewrite lookup_delete_ne|by rewrite lookup_insert_ne].
Qed.
Lemma put_freeze_eq m a x b : default 0 (put_freeze m a x !! b) = if decide (b = a) then x else default 0 (m !! b).
Proof.
  unfold put_freeze. destruct (decide (b = a)) as [->|].
  - destruct (N.eqb_spec x 0) as [->|]; [by rewrite lookup_delete|by rewrite lookup_insert].
  - destruct (N.eqb_spec x 0) as [->|]; [by rewrite lookup_delete_ne|by rewrite lookup_insert_ne].
Qed.

Lemma sched_mk st a l f b d c :
  t_schedules (Build_TrState (put_sched (tr_sched st) a l) f b d) c = if decide (c = a) then l else t_schedules st c.
Proof. unfold t_schedules at 1; cbn. apply put_sched_eq. Qed.
Lemma frozen_mk st a x m b d c :
  vesting_frozen (Build_TrState m (put_freeze (tr_freeze st) a x) b d) c = if decide (c = a) then x else vesting_frozen st c.
Proof. unfold vesting_frozen at 1; cbn. apply put_freeze_eq. Qed.

Lemma prune_eq st who now :
  acc_ok st now who ->
  prune_and_get_frozen_balance st who now =
  Ok ({| tr_sched := put_sched (tr_sched st) who (live now (t_schedules st who)); tr_freeze := tr_freeze st;
         tr_bal := tr_bal st; tr_added := tr_added st |}, sum_unrel (t_schedules st who) now).
Proof.
  intros (Hv & Hl & Hf & Hb). unfold prune_and_get_frozen_balance, prune_schedules_for.
  rewrite retain_frozen_eq by done.
  assert (Hfold : fold_frozen (live now (t_schedules st who)) now 0 = Some (sum_unrel (t_schedules st who) now)).
  { rewrite fold_frozen_eq; [|by apply live_valid|rewrite sum_unrel_live; lia].
    rewrite sum_unrel_live by done. f_equal. }
  destruct (live now (t_schedules st who)) eqn:E; rewrite Hfold; done.
Qed.

Lemma claim_eq st who now :
  acc_ok st now who ->
  do_claim st who now =
  Ok {| tr_sched := put_sched (tr_sched st) who (live now (t_schedules st who));
        tr_freeze := put_freeze (tr_freeze st) who (sum_unrel (t_schedules st who) now);
        tr_bal := tr_bal st; tr_added := tr_added st |}.
Proof.
  intros H. unfold do_claim. rewrite prune_eq by done. unfold put_freeze.
  destruct (sum_unrel (t_schedules st who) now =? 0) eqn:E; [done|].
  unfold t_set_freeze; cbn. by rewrite E.
Qed.

Lemma tr_inv_later st t t' : t <= t' -> tr_inv st t -> tr_inv st t'.
Proof.
  intros Ht I a. destruct (I a) as (Hv & Hl & Hf & Hb). split; [done|]. split; [done|]. split; [|done].
  pose proof (sum_unrel_mono (t_schedules st a) t t' Ht). lia.
Qed.

(** Result of a successful transfer. *)
Lemma transfer_ok st now allowed from to s st' :
  acc_ok st now to ->
  t_call_transfer cfg st now allowed from to s = Ok st' ->
  valid_sched s /\ t_min cfg <= total_of s /\ total_of s <= t_balance st from /\ allowed = true /\
  sum_unrel (t_schedules st to) now + total_of s <= u128_max /\
  len (live now (t_schedules st to)) < t_max cfg /\
  tr_sched st' = <[to := live now (t_schedules st to) ++ [s]]> (put_sched (tr_sched st) to (live now (t_schedules st to))) /\
  tr_freeze st' = put_freeze (tr_freeze st) to (sum_unrel (t_schedules st to) now + total_of s) /\
  tr_added st' = tr_added st ++ [(to, s)] /\
  (from = to -> tr_bal st' = tr_bal st) /\
  (from <> to -> tr_bal st' = <[to := t_balance st to + total_of s]>
      (<[from := if t_balance st from - total_of s <? t_ed cfg then 0 else t_balance st from - total_of s]> (tr_bal st))).
Proof.
  intros Hacc. unfold t_call_transfer, do_transfer. intros H.
  destruct (if to =? from then _ else _) as [u|]; [|done]. clear u.
  destruct (ensure_valid_release_schedule cfg s) as [amount|] eqn:E; [|done]. apply valid_ok in E as (Hv & -> & Hm).
  rewrite prune_eq in H by done. unfold chk_add in H.
  destruct (N.leb_spec (sum_unrel (t_schedules st to) now + total_of s) u128_max); [|done].
  unfold t_transfer in H. destruct allowed; [|done]. unfold t_balance in H; cbn in H.
  fold (t_balance st from) (t_balance st to) in H.
  destruct (N.leb_spec (total_of s) (t_balance st from)); [|done].
  destruct (N.eqb_spec from to) as [->|Hn].
  - match type of H with context [t_schedules ?st3 to ++ [s]] =>
      assert (Hl3 : t_schedules st3 to = live now (t_schedules st to))
        by (unfold t_schedules at 1; cbn; by rewrite put_sched_eq, decide_True) end.
    rewrite !Hl3 in H.
    destruct (N.ltb_spec (len (live now (t_schedules st to))) (t_max cfg)); [|done].
    injection H as <-; cbn.
    do 10 (split; [done|]); done.
  - match type of H with context [t_schedules ?st3 to ++ [s]] =>
      assert (Hl3 : t_schedules st3 to = live now (t_schedules st to))
        by (unfold t_schedules at 1; cbn; by rewrite put_sched_eq, decide_True) end.
    rewrite !Hl3 in H.
    destruct (N.ltb_spec (len (live now (t_schedules st to))) (t_max cfg)); [|done].
    injection H as <-; cbn.
    do 10 (split; [done|]); done.
Qed.

Lemma update_ok st who l st' :
  do_update_release_schedules cfg st who l = Ok st' ->
  Forall valid_sched l /\ len l <= t_max cfg /\ sumN (map total_of l) <= u128_max /\
  (l <> [] -> sumN (map total_of l) <= t_balance st who) /\
  tr_sched st' = put_sched (tr_sched st) who l /\
  tr_freeze st' = put_freeze (tr_freeze st) who (sumN (map total_of l)) /\
  tr_bal st' = tr_bal st /\ tr_added st' = tr_added st.
Proof.
  unfold do_update_release_schedules. intros H. destruct (N.leb_spec (len l) (t_max cfg)); [|done].
  destruct l as [|s l].
  - injection H as <-. cbn. split; [constructor|]. done.
  - destruct (fold_valid cfg (s :: l) 0) as [total|] eqn:E; [|done].
    apply fold_valid_ok in E as (Hv & -> & Hb); [|done]. rewrite N.add_0_l in *.
    destruct (N.leb_spec (sumN (map total_of (s :: l))) (t_balance st who)); [|done]. injection H as <-.
    cbn [tr_sched tr_freeze tr_bal tr_added t_set_sched t_set_freeze]. do 7 (split; [done|]). done.
Qed.

Lemma tr_inv_apply st now c st' :
  tr_inv st now -> tr_apply cfg st now c = Ok st' -> tr_inv st' now.
Proof.
  intros I H. destruct c as [signer who|allowed from to s|root who l|b]; cbn [tr_apply] in H.
  - destruct signer; [|done]. rewrite claim_eq in H by apply I. injection H as <-.
    intros a. destruct (I a) as (Hv & Hl & Hf & Hb). unfold acc_ok in *. rewrite sched_mk, frozen_mk.
    destruct (decide (a = who)) as [->|]; [|done].
    split; [by apply live_valid|]. pose proof (live_len (t_schedules st who) now).
    split; [lia|]. rewrite sum_unrel_live by done. lia.
  - destruct (transfer_ok _ _ _ _ _ _ _ (I to) H) as (Hv & Hm & Hbal & _ & Hs & Hlen & Esc & Efr & _).
    intros a. destruct (I a) as (Ha & Hl & Hf & Hb). unfold acc_ok, vesting_frozen, t_schedules in *.
    rewrite Esc, Efr, put_freeze_eq. destruct (decide (a = to)) as [->|].
    + rewrite lookup_insert. cbn [default from_option id].
      split; [apply Forall_app; split; [by apply live_valid|by constructor]|].
      split; [rewrite len_app; unfold len in *; cbn; lia|].
      rewrite sum_unrel_app, sum_unrel_live by done. unfold sum_unrel at 2; cbn.
      pose proof (unreleased_le s now). lia.
    + rewrite lookup_insert_ne by done. rewrite put_sched_eq, decide_False by done. done.
  - destruct root; [|done]. destruct (update_ok _ _ _ _ H) as (Hv & Hl & Hs & _ & Esc & Efr & _).
    intros a. destruct (I a) as (Ha & Hl' & Hf & Hb). unfold acc_ok, vesting_frozen, t_schedules in *.
    rewrite Esc, Efr, put_sched_eq, put_freeze_eq. destruct (decide (a = who)) as [->|]; [|done].
    do 2 (split; [done|]). pose proof (sum_unrel_total l now). lia.
  - injection H as <-. exact I.
Qed.

Lemma tr_inv_step st e : tr_inv st e.1 -> tr_inv (tr_step cfg st e) e.1.
Proof.
  intros I. unfold tr_step. destruct (tr_apply cfg st e.1 e.2) eqn:E; [|done]. by eapply tr_inv_apply.
Qed.

Lemma tr_inv_run st t h : tr_inv st t -> times_from t h -> tr_inv (tr_run cfg st h) (last_time t h).
Proof.
  revert st t. induction h as [|e h IH]; intros st t I Ht; [done|]. cbn in *. destruct Ht as [Hle Ht].
  apply IH; [|done]. apply tr_inv_step. by eapply tr_inv_later.
Qed.

Lemma genesis_inv_aux st items st' :
  tr_inv st 0 -> genesis_build cfg st items = Ok st' -> tr_inv st' 0.
Proof.
  revert st. induction items as [|[who s] items IH]; intros st I H; cbn [genesis_build] in H; [by injection H as <-|].
  destruct (N.leb_spec (len (t_schedules st who ++ [s])) (t_max cfg)); [|done].
  destruct (fold_valid cfg (t_schedules st who ++ [s]) 0) as [total|] eqn:E; [|done].
  apply fold_valid_ok in E as (Hv & -> & Hb); [|done]. rewrite N.add_0_l in *.
  destruct (N.leb_spec (sumN (map total_of (t_schedules st who ++ [s]))) (t_balance st who)); [|done].
  eapply IH; [|exact H]. intros a. destruct (I a) as (Ha & Hl' & Hf & Hb').
  set (l := t_schedules st who ++ [s]) in *.
  unfold acc_ok, vesting_frozen, t_schedules in *; cbn [tr_sched tr_freeze t_set_sched t_set_freeze] in *.
  change (if sumN (map total_of l) =? 0 then delete who (tr_freeze st) else <[who:=sumN (map total_of l)]> (tr_freeze st))
    with (put_freeze (tr_freeze st) who (sumN (map total_of l))).
  rewrite put_freeze_eq. destruct (decide (a = who)) as [->|].
  - rewrite lookup_insert. cbn [default from_option id]. do 2 (split; [done|]).
    pose proof (sum_unrel_total l 0). lia.
  - rewrite lookup_insert_ne by done. done.
Qed.

Lemma initial_inv b : tr_inv (tr_initial b) 0.
Proof.
  intros a. unfold acc_ok, vesting_frozen, t_schedules, tr_initial; cbn [tr_sched tr_freeze]. rewrite !lookup_empty.
  cbn [default from_option id]. split; [constructor|]. split; [unfold len; cbn [length]; lia|]. done.
Qed.

(** A chain: genesis, then a history. *)
Lemma reach_inv b items st0 h :
  genesis_build cfg (tr_initial b) items = Ok st0 -> times_from 0 h -> tr_inv (tr_run cfg st0 h) (last_time 0 h).
Proof. intros Hg Ht. apply tr_inv_run; [|done]. eapply genesis_inv_aux; [apply initial_inv|exact Hg]. Qed.

Lemma covers_lemma b items st0 h a t :
  genesis_build cfg (tr_initial b) items = Ok st0 -> times_from 0 h -> last_time 0 h <= t ->
  unreleased_of (tr_run cfg st0 h) a t <= vesting_frozen (tr_run cfg st0 h) a.
Proof. intros Hg Ht Hle. exact (proj1 (proj2 (proj2 (tr_inv_later _ _ _ Hle (reach_inv _ _ _ _ Hg Ht) a)))). Qed.

Lemma claim_lemma b items st0 h now x a :
  genesis_build cfg (tr_initial b) items = Ok st0 -> times_from 0 h -> last_time 0 h <= now ->
  let st := tr_run cfg st0 h in
  exists st', tr_apply cfg st now (TClaimFor (Some x) a) = Ok st' /\
    vesting_frozen st' a = unreleased_of st a now /\
    vesting_frozen st' a <= vesting_frozen st a /\
    unreleased_of st' a now = unreleased_of st a now /\
    t_schedules st' a = filter (fun s => 0 < unreleased s now) (t_schedules st a) /\
    (forall c, c <> a -> t_schedules st' c = t_schedules st c /\ vesting_frozen st' c = vesting_frozen st c) /\
    tr_bal st' = tr_bal st.
Proof.
  intros Hg Ht Hle st. pose proof (tr_inv_later _ _ _ Hle (reach_inv _ _ _ _ Hg Ht)) as I. fold st in I.
  destruct (I a) as (Hv & Hl & Hf & Hb).
  eexists. cbn [tr_apply]. rewrite claim_eq by apply I. split; [done|].
  unfold unreleased_of. rewrite sched_mk, frozen_mk, !decide_True by done.
  split; [done|]. split; [done|]. split; [by apply (sum_unrel_live (t_schedules st a) now now)|].
  split; [done|]. split; [|done]. intros c Hc. by rewrite sched_mk, frozen_mk, !decide_False.
Qed.

Lemma claim_idempotent_lemma b items st0 h now x y a st1 :
  genesis_build cfg (tr_initial b) items = Ok st0 -> times_from 0 h -> last_time 0 h <= now ->
  tr_apply cfg (tr_run cfg st0 h) now (TClaimFor (Some x) a) = Ok st1 ->
  tr_apply cfg st1 now (TClaimFor (Some y) a) = Ok st1.
Proof.
  intros Hg Ht Hle H. pose proof (tr_inv_later _ _ _ Hle (reach_inv _ _ _ _ Hg Ht)) as I.
  set (st := tr_run cfg st0 h) in *.
  pose proof (tr_inv_apply _ _ _ _ I H) as I1.
  cbn [tr_apply] in *. rewrite claim_eq in H by apply I. injection H as <-.
  rewrite claim_eq by apply I1. f_equal. rewrite sched_mk, decide_True by done. rewrite live_live. cbn [tr_sched tr_freeze tr_bal tr_added].
  f_equal.
  - destruct (live now (t_schedules st a)); cbn; [by rewrite delete_idemp|by rewrite insert_insert].
  - rewrite sum_unrel_live by done. unfold put_freeze. destruct (_ =? 0); [by rewrite delete_idemp|by rewrite insert_insert].
Qed.

Lemma no_panic_lemma b items st0 h now c :
  genesis_build cfg (tr_initial b) items = Ok st0 -> times_from 0 h -> last_time 0 h <= now ->
  tr_apply cfg (tr_run cfg st0 h) now c <> Err TPanic.
Proof.
  intros Hg Ht Hle. pose proof (tr_inv_later _ _ _ Hle (reach_inv _ _ _ _ Hg Ht)) as I.
  set (st := tr_run cfg st0 h) in *.
  assert (Hval : forall s, ensure_valid_release_schedule cfg s <> Err TPanic).
  { intros s. unfold ensure_valid_release_schedule. repeat case_match; congruence. }
  assert (Hfold : forall l acc, fold_valid cfg l acc <> Err TPanic).
  { induction l as [|s l IH]; intros acc; cbn [fold_valid]; [done|].
    destruct (ensure_valid_release_schedule cfg s) eqn:E; [|intros [= ->]; by apply (Hval s)]. destruct (chk_add _ _ _); [apply IH|done]. }
  destruct c as [signer who|allowed from to s|root who l|bb]; cbn [tr_apply].
  - destruct signer; [|done]. rewrite claim_eq by apply I. done.
  - unfold t_call_transfer, do_transfer, t_transfer.
    destruct (if to =? from then _ else _) eqn:E0.
    2: { intros [= ->]. destruct (to =? from); [|done]. destruct (sc_total s); [|done]. destruct (_ <=? _); done. }
    destruct (ensure_valid_release_schedule cfg s) eqn:E; [|intros [= ->]; by apply (Hval s)].
    rewrite prune_eq by apply I. repeat case_match; congruence.
  - destruct root; [|done]. unfold do_update_release_schedules. destruct (_ <=? _); [|done]. destruct l; [done|].
    destruct (fold_valid cfg (s :: l) 0) eqn:E; [|intros [= ->]; by eapply Hfold]. destruct (_ <=? _); done.
  - done.
Qed.

Lemma bounded_lemma b items st0 h a :
  genesis_build cfg (tr_initial b) items = Ok st0 -> times_from 0 h ->
  len (t_schedules (tr_run cfg st0 h) a) <= t_max cfg /\ Forall valid_sched (t_schedules (tr_run cfg st0 h) a).
Proof. intros Hg Ht. destruct (reach_inv _ _ _ _ Hg Ht a) as (? & ? & _). done. Qed.

Lemma transfer_lemma b items st0 h now allowed from to s st' :
  genesis_build cfg (tr_initial b) items = Ok st0 -> times_from 0 h -> last_time 0 h <= now ->
  let st := tr_run cfg st0 h in
  tr_apply cfg st now (TTransfer allowed from to s) = Ok st' ->
  valid_sched s /\ t_min cfg <= total_of s /\
  total_of s <= t_balance st from /\
  t_schedules st' to = filter (fun s => 0 < unreleased s now) (t_schedules st to) ++ [s] /\
  vesting_frozen st' to = unreleased_of st to now + total_of s /\
  (forall c, c <> to -> t_schedules st' c = t_schedules st c /\ vesting_frozen st' c = vesting_frozen st c) /\
  (from <> to ->
     t_balance st' to = t_balance st to + total_of s /\
     (t_balance st' from = t_balance st from - total_of s \/
      (t_balance st' from = 0 /\ t_balance st from - total_of s < t_ed cfg))) /\
  (from = to -> tr_bal st' = tr_bal st) /\
  (forall c, c <> to -> c <> from -> t_balance st' c = t_balance st c).
Proof.
  intros Hg Ht Hle st H. pose proof (tr_inv_later _ _ _ Hle (reach_inv _ _ _ _ Hg Ht)) as I. fold st in I.
  cbn [tr_apply] in H.
  destruct (transfer_ok _ _ _ _ _ _ _ (I to) H) as (Hv & Hm & Hbal & _ & Hs & Hlen & Esc & Efr & _ & Eb1 & Eb2).
  do 3 (split; [done|]). unfold t_schedules at 1 3, vesting_frozen. rewrite Esc, Efr.
  split; [by rewrite lookup_insert|]. split; [by rewrite put_freeze_eq, decide_True|].
  split. { intros c Hc. rewrite lookup_insert_ne by done. by rewrite put_sched_eq, put_freeze_eq, !decide_False. }
  split; [|split].
  - intros Hn. unfold t_balance at 1 3 5. rewrite (Eb2 Hn). rewrite lookup_insert. split; [done|].
    rewrite lookup_insert_ne by done. rewrite lookup_insert. cbn.
    destruct (N.ltb_spec (t_balance st from - total_of s) (t_ed cfg)); auto.
  - intros Hn. by rewrite Eb1.
  - intros c Hc1 Hc2. unfold t_balance at 1. destruct (decide (from = to)) as [E|E]; [by rewrite Eb1|]. rewrite Eb2 by done.
    by rewrite !lookup_insert_ne.
Qed.

(** ** Conservation *)
Definition added_all (items : list (N * Sched)) (st : TrState) (a : N) : list Sched :=
  added_to a items ++ added_to a (tr_added st).

Definition cons_inv (items : list (N * Sched)) (a : N) (st : TrState) (t : N) : Prop :=
  forall t', t <= t' -> sum_unrel (t_schedules st a) t' = sum_unrel (added_all items st a) t'.

Lemma cons_step items a st t e :
  match e.2 with TUpdate _ w _ => w <> a | _ => True end ->
  t <= e.1 -> tr_inv st e.1 -> cons_inv items a st t -> cons_inv items a (tr_step cfg st e) e.1.
Proof.
  intros Hup Hle I C. unfold tr_step. destruct (tr_apply cfg st e.1 e.2) as [st'|] eqn:H.
  2: { intros t' Ht'. apply C. lia. }
  destruct e as [now c]; cbn in *. intros t' Ht'. specialize (C t' ltac:(lia)).
  destruct c as [signer who|allowed from to s|root who l|bb]; cbn [tr_apply] in H.
  - destruct signer; [|done]. rewrite claim_eq in H by apply I. injection H as <-.
    unfold added_all in *. rewrite sched_mk. cbn [tr_added]. destruct (decide (a = who)) as [->|]; [|done].
    rewrite sum_unrel_live by done. done.
  - destruct (transfer_ok _ _ _ _ _ _ _ (I to) H) as (Hv & Hm & Hbal & _ & Hs & Hlen & Esc & Efr & Ead & _).
    unfold added_all, t_schedules, added_to in *. rewrite Esc, Ead.
    rewrite filter_app, map_app, filter_cons, filter_nil. cbn [fst].
    destruct (decide (to = a)) as [->|Hn].
    + rewrite lookup_insert. cbn [default from_option id]. rewrite !sum_unrel_app in *. rewrite sum_unrel_live by done.
      cbn [map snd]. unfold t_schedules. lia.
    + rewrite lookup_insert_ne by done. rewrite put_sched_eq, decide_False by done. by rewrite app_nil_r.
  - destruct root; [|done]. destruct (update_ok _ _ _ _ H) as (_ & _ & _ & _ & Esc & _ & _ & Ead).
    unfold added_all, t_schedules in *. rewrite Esc, Ead, put_sched_eq, decide_False by done. done.
  - injection H as <-. done.
Qed.

Lemma cons_run items a st t h :
  no_update a h -> times_from t h -> tr_inv st t -> cons_inv items a st t ->
  cons_inv items a (tr_run cfg st h) (last_time t h).
Proof.
  intros Hn. revert st t. induction Hn as [|e h He Hn IH]; intros st t Ht I C; [done|]. cbn in *. destruct Ht as [Hle Ht].
  pose proof (tr_inv_later _ _ _ Hle I) as I'. apply IH; [done|by apply tr_inv_step|]. by eapply cons_step.
Qed.

Lemma genesis_sched st items st' a :
  genesis_build cfg st items = Ok st' ->
  t_schedules st' a = t_schedules st a ++ added_to a items /\ tr_added st' = tr_added st.
Proof.
  revert st. induction items as [|[who s] items IH]; intros st H; cbn [genesis_build] in H.
  { injection H as <-. by rewrite app_nil_r. }
  repeat case_match; try done. apply IH in H as [-> ->]. split; [|done].
  unfold added_to. rewrite filter_cons. cbn [fst]. unfold t_schedules; cbn [tr_sched t_set_sched t_set_freeze].
  destruct (decide (who = a)) as [->|].
  - rewrite lookup_insert. cbn [default from_option id map snd]. by rewrite <- app_assoc.
  - by rewrite lookup_insert_ne.
Qed.

Lemma conservation_lemma b items st0 h now x a st' :
  genesis_build cfg (tr_initial b) items = Ok st0 -> times_from 0 h -> last_time 0 h <= now ->
  no_update a h ->
  tr_apply cfg (tr_run cfg st0 h) now (TClaimFor (Some x) a) = Ok st' ->
  let got := added_to a items ++ added_to a (tr_added st') in
  vesting_frozen st' a + sumN (map (fun s => released s now) got) = sumN (map total_of got).
Proof.
  intros Hg Ht Hle Hn H got.
  pose proof (genesis_inv_aux _ _ _ (initial_inv b) Hg) as I0.
  destruct (genesis_sched _ _ _ a Hg) as [Es Ea].
  assert (C0 : cons_inv items a st0 0).
  { intros t _. unfold added_all. rewrite Es, Ea. cbn. unfold t_schedules; cbn. rewrite app_nil_r. done. }
  pose proof (cons_run items a st0 0 h Hn Ht I0 C0) as C.
  destruct (claim_lemma _ _ _ _ _ x a Hg Ht Hle) as (st1 & H1 & Hf & _). rewrite H in H1. injection H1 as <-.
  rewrite Hf. change (unreleased_of (tr_run cfg st0 h) a now) with (sum_unrel (t_schedules (tr_run cfg st0 h) a) now). rewrite (C now Hle).
  assert (tr_added st' = tr_added (tr_run cfg st0 h)) as Ead.
  { cbn [tr_apply] in H. rewrite claim_eq in H by (apply (tr_inv_later _ _ _ Hle (reach_inv _ _ _ _ Hg Ht))). by injection H as <-. }
  unfold added_all. rewrite <- Ead. fold got. clear. unfold sum_unrel. induction got as [|s l IH]; [done|].
  cbn. unfold released at 1. pose proof (unreleased_le s now). lia.
Qed.

Lemma equal_after_claim_lemma b items st0 h now x a :
  genesis_build cfg (tr_initial b) items = Ok st0 -> times_from 0 h -> last_time 0 h <= now ->
  let st' := tr_run cfg st0 (h ++ [(now, TClaimFor (Some x) a)]) in
  vesting_frozen st' a = unreleased_of st' a now.
Proof.
  intros Hg Ht Hle. destruct (claim_lemma _ _ _ _ _ x a Hg Ht Hle) as (st' & H & E1 & _ & E2 & _).
  unfold tr_run in *. rewrite fold_left_app. cbn [fold_left]. unfold tr_step at 1 3. cbn [fst snd]. rewrite H. congruence.
Qed.

Lemma accepted_iff_lemma s :
  (exists total, ensure_valid_release_schedule cfg s = Ok total) <-> (valid_sched s /\ t_min cfg <= total_of s).
Proof.
  split.
  - intros (total & H). destruct (valid_ok _ _ H) as (? & -> & ?). done.
  - intros [Hv Hm]. destruct (arithmetic_lemma s 0 Hv) as (_ & _ & _ & _ & Ee & Et). destruct Hv as (Hp & Hc & _).
    exists (total_of s). unfold ensure_valid_release_schedule. rewrite Ee, Et.
    destruct (N.eqb_spec (sc_period s) 0); [lia|]. destruct (N.eqb_spec (sc_count s) 0); [lia|].
    destruct (N.leb_spec (t_min cfg) (total_of s)); [done|lia].
Qed.

Lemma refused_lemma st now c e : tr_apply cfg st now c = Err e -> tr_step cfg st (now, c) = st.
Proof. intros H. unfold tr_step. cbn [fst snd]. by rewrite H. Qed.

Lemma added_lemma b items st0 h now allowed from to s st' :
  genesis_build cfg (tr_initial b) items = Ok st0 -> times_from 0 h -> last_time 0 h <= now ->
  tr_apply cfg (tr_run cfg st0 h) now (TTransfer allowed from to s) = Ok st' ->
  tr_added st' = tr_added (tr_run cfg st0 h) ++ [(to, s)].
Proof.
  intros Hg Ht Hle H. pose proof (tr_inv_later _ _ _ Hle (reach_inv _ _ _ _ Hg Ht)) as I. cbn [tr_apply] in H.
  by destruct (transfer_ok _ _ _ _ _ _ _ (I to) H) as (_ & _ & _ & _ & _ & _ & _ & _ & ? & _).
Qed.

(** ** Root updates, and when a transfer is accepted *)
Lemma valid_iff s : (exists total, ensure_valid_release_schedule cfg s = Ok total) <-> valid_sched s /\ t_min cfg <= total_of s.
Proof. apply accepted_iff_lemma. Qed.

Lemma fold_valid_complete l : forall acc,
  Forall (fun s => valid_sched s /\ t_min cfg <= total_of s) l -> acc + sumN (map total_of l) <= u128_max ->
  fold_valid cfg l acc = Ok (acc + sumN (map total_of l)).
Proof.
  induction l as [|s l IH]; intros acc Hl Hb.
  - cbn. f_equal. cbn in Hb. lia.
  - inversion Hl as [|? ? Hs Hl']; subst. cbn [fold_valid].
    pose proof Hs as Hs'. apply valid_iff in Hs' as [total Ht]. rewrite Ht. apply valid_ok in Ht as (_ & -> & _).
    cbn [map] in *. change (sumN (total_of s :: map total_of l)) with (total_of s + sumN (map total_of l)) in *.
    unfold chk_add. replace (acc + total_of s <=? u128_max) with true by lia.
    rewrite IH; [f_equal; lia|done|lia].
Qed.

Lemma fold_valid_min l acc total :
  fold_valid cfg l acc = Ok total -> Forall (fun s => valid_sched s /\ t_min cfg <= total_of s) l.
Proof.
  revert acc. induction l as [|s l IH]; intros acc H; [constructor|]. cbn [fold_valid] in H.
  destruct (ensure_valid_release_schedule cfg s) as [amount|] eqn:E; [|done].
  apply valid_ok in E as (Hv & -> & Hm). destruct (chk_add _ _ _); [|done]. constructor; [done|]. by eapply IH.
Qed.

Lemma update_iff_lemma st now root who l :
  is_ok (tr_apply cfg st now (TUpdate root who l)) = true <->
  root = true /\ len l <= t_max cfg /\
  (l = [] \/ Forall (fun s => valid_sched s /\ t_min cfg <= total_of s) l /\
             sumN (map total_of l) <= u128_max /\ sumN (map total_of l) <= t_balance st who).
Proof.
  cbn [tr_apply]. destruct root; [|split; [done|by intros [? _]]].
  unfold do_update_release_schedules. destruct (N.leb_spec (len l) (t_max cfg)); [|split; [done|intros (_ & ? & _); lia]].
  destruct l as [|s l]; [split; [intros _; split; [done|]; split; [done|by left]|done]|].
  split.
  - intros Hok. split; [done|]. split; [done|]. right.
    destruct (fold_valid cfg (s :: l) 0) as [total|] eqn:E; [|done].
    pose proof E as E'. apply fold_valid_min in E'. apply fold_valid_ok in E as (_ & -> & Hb); [|done].
    rewrite N.add_0_l in *. destruct (N.leb_spec (sumN (map total_of (s :: l))) (t_balance st who)); [|done]. done.
  - intros (_ & _ & [?|(Hl & Hb & Hbal)]); [done|].
    rewrite fold_valid_complete by (rewrite ?N.add_0_l; done). rewrite N.add_0_l.
    destruct (N.leb_spec (sumN (map total_of (s :: l))) (t_balance st who)); [done|lia].
Qed.

Lemma update_effect_lemma st now root who l st' :
  tr_apply cfg st now (TUpdate root who l) = Ok st' ->
  t_schedules st' who = l /\ vesting_frozen st' who = sumN (map total_of l) /\ tr_bal st' = tr_bal st /\
  (forall c, c <> who -> t_schedules st' c = t_schedules st c /\ vesting_frozen st' c = vesting_frozen st c).
Proof.
  cbn [tr_apply]. destruct root; [|done]. intros H. apply update_ok in H as (_ & _ & _ & _ & Hs & Hf & Hb & _).
  unfold t_schedules, vesting_frozen. rewrite Hs, Hf.
  split; [by rewrite put_sched_eq, decide_True|]. split; [by rewrite put_freeze_eq, decide_True|]. split; [done|].
  intros c Hc. by rewrite put_sched_eq, put_freeze_eq, !decide_False.
Qed.

Lemma transfer_iff_lemma b items st0 h now allowed from to s :
  genesis_build cfg (tr_initial b) items = Ok st0 -> times_from 0 h -> last_time 0 h <= now ->
  let st := tr_run cfg st0 h in
  is_ok (tr_apply cfg st now (TTransfer allowed from to s)) = true <->
  valid_sched s /\ t_min cfg <= total_of s /\ allowed = true /\ total_of s <= t_balance st from /\
  unreleased_of st to now + total_of s <= u128_max /\
  len (filter (fun s => 0 < unreleased s now) (t_schedules st to)) < t_max cfg.
Proof.
  intros Hg Ht Hn st.
  assert (Hacc : acc_ok st now to).
  { pose proof (reach_inv b items st0 h Hg Ht) as I. by apply (tr_inv_later _ _ _ Hn I). }
  split.
  - cbn [tr_apply]. destruct (t_call_transfer cfg st now allowed from to s) as [st'|] eqn:E; [|done]. intros _.
    apply transfer_ok in E as (Hv & Hm & Hb & Ha & Hs & Hl & _); [|done]. done.
  - intros (Hv & Hm & -> & Hb & Hs & Hl). cbn [tr_apply]. unfold t_call_transfer, do_transfer.
    match goal with |- context [if to =? from then ?x else ?y] => assert (Hpre : (if to =? from then x else y) = Ok tt) end.
    { destruct (to =? from); [|done]. unfold sc_total, chk_mul. destruct Hv as (_ & _ & _ & Hv).
      change (sc_per s * sc_count s) with (total_of s) in *.
      destruct (N.leb_spec (total_of s) u128_max); [|lia]. by destruct (N.leb_spec (total_of s) (t_balance st from)); [|lia]. }
    rewrite Hpre. clear Hpre.
    destruct (proj2 (valid_iff s) (conj Hv Hm)) as [total Hev]. rewrite Hev. apply valid_ok in Hev as (_ & -> & _).
    rewrite prune_eq by done. unfold chk_add.
    change (unreleased_of st to now) with (sum_unrel (t_schedules st to) now) in Hs.
    destruct (N.leb_spec (sum_unrel (t_schedules st to) now + total_of s) u128_max); [|lia].
    unfold t_transfer. unfold t_balance at 1. cbn [tr_bal]. fold (t_balance st from).
    destruct (N.leb_spec (total_of s) (t_balance st from)); [|lia].
    destruct (N.eqb_spec from to) as [->|Hne]; cbn [tr_sched];
      match goal with |- context [t_schedules ?st3 to ++ [s]] =>
        assert (Hl3 : t_schedules st3 to = live now (t_schedules st to))
          by (unfold t_schedules at 1; cbn; by rewrite put_sched_eq, decide_True) end;
      rewrite !Hl3; destruct (N.ltb_spec (len (live now (t_schedules st to))) (t_max cfg)); [done|exfalso; unfold live in *; lia|done|exfalso; unfold live in *; lia].
Qed.

End tr.
