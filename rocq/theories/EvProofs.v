(** Proofs about the capacity and the vesting events. *)
From Verif Require Import Prelude Sums CapModel CapSpec CapProofs TrModel TrSpec TrProofs EvModel EvSpec.

(** ** Capacity *)
Section cap.
Context (cfg : CapCfg).
Notation run := (cap_run cfg cap_genesis).

Lemma active_snoc a l e : active_told a (l ++ [e]) =
  match e.2 with
  | Staked b _ n _ => if b =? a then active_told a l + n else active_told a l
  | UnStaked b _ n _ => if b =? a then active_told a l - n else active_told a l
  | _ => active_told a l
  end.
Proof. unfold active_told. by rewrite fold_left_app. Qed.

Lemma active_put (m : gmap N N) s x a : default 0 (<[s := x]> m !! a) = if s =? a then x else default 0 (m !! a).
Proof. destruct (N.eqb_spec s a) as [->|]; [by rewrite lookup_insert|by rewrite lookup_insert_ne]. Qed.
Lemma active_del (m : gmap N N) s a : default 0 (delete s m !! a) = if s =? a then 0 else default 0 (m !! a).
Proof. destruct (N.eqb_spec s a) as [->|]; [by rewrite lookup_delete|by rewrite lookup_delete_ne]. Qed.

Lemma active_lemma h a : active_told a (cs_log (run h)) = active (run h) a.
Proof.
  apply (run_ind cfg (fun st => active_told a (cs_log st) = active st a)); [done|].
  intros st op st' IH He. destruct He; unfold k_emit, k_set_epoch_len, k_set_cap, k_set_bal; cbn [cs_log]; try rewrite active_snoc; cbn [snd]; try done.
  - unfold active at 1. cbn [cs_staking]. rewrite active_put. rewrite IH. destruct (N.eqb_spec s a) as [->|]; done.
  - rewrite IH. unfold active at 3. cbn [cs_staking]. assert (Ha : active st s = a0) by (unfold active; by rewrite H1).
    destruct (N.eqb_spec a' 0) as [->|Hn].
    + rewrite active_del. destruct (N.eqb_spec s a) as [->|]; [|done]. rewrite Ha. lia.
    + rewrite active_put. destruct (N.eqb_spec s a) as [->|]; [|done]. rewrite Ha. lia.
  - destruct (oni st n) as [->| ->]; done.
Qed.

Lemma target_snoc a m l e : target_told a m (l ++ [e]) =
  let x := target_told a m l in
  match e.2 with
  | Staked b t n c => if (b =? a) && (t =? m) then (x.1 + n, x.2 + c) else x
  | UnStaked b t n c =>
      if (b =? a) && (t =? m) then (if x.1 <=? n then (0, 0) else (x.1 - n, x.2 - c)) else x
  | _ => x
  end.
Proof. unfold target_told. by rewrite fold_left_app. Qed.

Lemma target_put (g : gmap (N * N) Target) s t x a m :
  <[(s, t) := x]> g !! (a, m) = if (s =? a) && (t =? m) then Some x else g !! (a, m).
Proof.
  destruct (N.eqb_spec s a) as [->|]; [destruct (N.eqb_spec t m) as [->|]|]; cbn.
  - by rewrite lookup_insert.
  - by rewrite lookup_insert_ne by congruence.
  - by rewrite lookup_insert_ne by congruence.
Qed.
Lemma target_del (g : gmap (N * N) Target) s t a m :
  delete (s, t) g !! (a, m) = if (s =? a) && (t =? m) then None else g !! (a, m).
Proof.
  destruct (N.eqb_spec s a) as [->|]; [destruct (N.eqb_spec t m) as [->|]|]; cbn.
  - by rewrite lookup_delete.
  - by rewrite lookup_delete_ne by congruence.
  - by rewrite lookup_delete_ne by congruence.
Qed.

Lemma target_lemma h a m : target_told a m (cs_log (run h)) = (targeted (run h) a m, targeted_capacity (run h) a m).
Proof.
  apply (run_ind cfg (fun st => target_told a m (cs_log st) = (targeted st a m, targeted_capacity st a m))); [done|].
  intros st op st' IH He. destruct He; unfold k_emit, k_set_epoch_len, k_set_cap, k_set_bal; cbn [cs_log]; try rewrite target_snoc; cbn [snd]; cbn zeta; try done.
  - rewrite IH. unfold targeted, targeted_capacity. cbn [cs_targets fst snd]. rewrite !target_put.
    destruct (N.eqb_spec s a) as [->|]; [destruct (N.eqb_spec t m) as [->|]|]; done.
  - rewrite IH. unfold targeted, targeted_capacity. cbn [cs_targets fst snd].
    destruct (N.eqb_spec (tg_amount tg - actual) 0) as [Hz|Hz].
    + rewrite !target_del. destruct (N.eqb_spec s a) as [->|]; [destruct (N.eqb_spec t m) as [->|]|]; cbn [andb]; try done.
      rewrite H2. cbn [from_option id]. destruct (N.leb_spec (tg_amount tg) actual); [done|lia].
    + rewrite !target_put. destruct (N.eqb_spec s a) as [->|]; [destruct (N.eqb_spec t m) as [->|]|]; cbn [andb]; try done.
      rewrite H2. cbn [from_option id tg_amount tg_capacity]. destruct (N.leb_spec (tg_amount tg) actual); [lia|done].
  - destruct (oni st n) as [->| ->]; done.
Qed.

Definition acc_of (st : CapState) (m : N) : Account :=
  {| ac_tokens := tokens_at st m; ac_issued := issued st m; ac_left := remaining st m; ac_epoch := last_replenished st m |}.

Lemma acc_snoc m l e : provider_acc m (l ++ [e]) =
  let x := provider_acc m l in
  match e.2 with
  | Staked _ t n c =>
      if t =? m
      then {| ac_tokens := ac_tokens x + n; ac_issued := ac_issued x + c; ac_left := ac_left x + c; ac_epoch := ac_epoch x |}
      else x
  | UnStaked _ t n c =>
      if t =? m
      then {| ac_tokens := ac_tokens x - n; ac_issued := ac_issued x - c; ac_left := ac_left x - c; ac_epoch := ac_epoch x |}
      else x
  | CapacityWithdrawn p n =>
      if p =? m
      then {| ac_tokens := ac_tokens x; ac_issued := ac_issued x;
              ac_left := (if ac_epoch x <? e.1 then ac_issued x else ac_left x) - n;
              ac_epoch := N.max (ac_epoch x) e.1 |}
      else x
  | _ => x
  end.
Proof. unfold provider_acc. by rewrite fold_left_app. Qed.

Lemma cap_put (g : gmap N CapDetails) t x m : <[t := x]> g !! m = if t =? m then Some x else g !! m.
Proof. destruct (N.eqb_spec t m) as [->|]; [by rewrite lookup_insert|by rewrite lookup_insert_ne]. Qed.

Lemma acc_lemma h m : no_bare_replenish h -> provider_acc m (cs_log (run h)) = acc_of (run h) m.
Proof.
  intros Hn. apply (run_ind_in cfg _ (fun st => provider_acc m (cs_log st) = acc_of st m) h cap_genesis Hn); [done|].
  clear Hn. intros st op st' Hop IH He. destruct He; unfold k_emit, k_set_epoch_len, k_set_cap, k_set_bal; cbn [cs_log]; try rewrite acc_snoc; cbn [fst snd]; cbn zeta; try done.
  - rewrite IH. unfold acc_of, tokens_at, issued, remaining, last_replenished. cbn [cs_cap]. rewrite !cap_put.
    destruct (N.eqb_spec t m) as [->|]; done.
  - rewrite IH. unfold acc_of, tokens_at, issued, remaining, last_replenished. cbn [cs_cap ac_tokens ac_issued ac_left ac_epoch]. rewrite !cap_put.
    destruct (N.eqb_spec t m) as [->|]; [|done]. by rewrite H3.
  - rewrite IH. unfold acc_of, tokens_at, issued, remaining, last_replenished. cbn [cs_cap cs_epoch ac_tokens ac_issued ac_left ac_epoch]. rewrite !cap_put.
    destruct (N.eqb_spec m0 m) as [->|]; [|done]. rewrite H. cbn [from_option id cd_remaining cd_tokens cd_issued cd_last]. subst d'.
    destruct (N.ltb_spec (cd_last d) (cs_epoch st)); cbn [cd_replenish_all cd_remaining cd_last].
    + f_equal. lia.
    + f_equal. lia.
  - destruct (oni st n) as [->| ->]; done.
Qed.

Lemma unlocking_snoc w a l e : unlocking_told w a (l ++ [e]) =
  match e.2 with
  | UnStaked b _ n _ => if b =? a then unlocking_told w a l ++ [(n, N.min u32_max (e.1 + w))] else unlocking_told w a l
  | StakeWithdrawn b _ => if b =? a then filter (fun x => e.1 < x.2) (unlocking_told w a l) else unlocking_told w a l
  | _ => unlocking_told w a l
  end.
Proof. unfold unlocking_told. by rewrite fold_left_app. Qed.

Definition pair_of (c : Chunk) : N * N := (ck_value c, ck_thaw c).
Lemma pairs_filter t l : filter (fun x => t < x.2) (map pair_of l) = map pair_of (filter (fun c => t < ck_thaw c) l).
Proof. induction l as [|c l IH]; [done|]. cbn [map]. rewrite !filter_cons. cbn [pair_of snd]. destruct (decide _); cbn [map]; by rewrite IH. Qed.
Lemma chunks_put (g : gmap N (list Chunk)) s x a : default [] (<[s := x]> g !! a) = if s =? a then x else default [] (g !! a).
Proof. destruct (N.eqb_spec s a) as [->|]; [by rewrite lookup_insert|by rewrite lookup_insert_ne]. Qed.
Lemma chunks_del (g : gmap N (list Chunk)) s a : default [] (delete s g !! a) = if s =? a then [] else default [] (g !! a).
Proof. destruct (N.eqb_spec s a) as [->|]; [by rewrite lookup_delete|by rewrite lookup_delete_ne]. Qed.

Lemma unlocking_lemma h a : unlocking_told (k_thaw cfg) a (cs_log (run h)) = map pair_of (chunks (run h) a).
Proof.
  apply (run_ind cfg (fun st => unlocking_told (k_thaw cfg) a (cs_log st) = map pair_of (chunks st a))); [done|].
  intros st op st' IH He. destruct He; unfold k_emit, k_set_epoch_len, k_set_cap, k_set_bal; cbn [cs_log]; try rewrite unlocking_snoc; cbn [fst snd]; try done.
  - rewrite IH. unfold chunks at 3. cbn [cs_unlocks]. rewrite chunks_put. destruct (N.eqb_spec s a) as [->|]; [|done].
    by rewrite map_app.
  - rewrite IH, pairs_filter. unfold chunks at 3. cbn [cs_unlocks]. subst rest un.
    assert (Hc : s = a -> chunks st a = l) by (intros <-; unfold chunks; by rewrite H).
    destruct (filter (fun c => cs_epoch st < ck_thaw c) l) as [|c0 l0] eqn:El.
    + rewrite chunks_del. destruct (N.eqb_spec s a) as [Hs|]; [|done]. rewrite (Hc Hs), El. done.
    + rewrite chunks_put. destruct (N.eqb_spec s a) as [Hs|]; [|done]. rewrite (Hc Hs), El. done.
  - destruct (oni st n) as [->| ->]; done.
Qed.

Lemma length_lemma h : epoch_length_told (cs_log (run h)) = cs_epoch_len (run h).
Proof.
  apply (run_ind cfg (fun st => epoch_length_told (cs_log st) = cs_epoch_len st)); [done|].
  intros st op st' IH He. destruct He; unfold k_emit, k_set_epoch_len, k_set_cap, k_set_bal; cbn [cs_log cs_epoch_len];
    unfold epoch_length_told in *; try rewrite fold_left_app; cbn [fold_left snd]; try done.
  destruct (oni st n) as [->| ->]; done.
Qed.

Lemma frozen_told_lemma h a : frozen (run h) a =
  active_told a (cs_log (run h)) + sumN (map fst (unlocking_told (k_thaw cfg) a (cs_log (run h)))).
Proof.
  rewrite active_lemma, unlocking_lemma, frozen_lemma. unfold unlocking, values. by rewrite map_map.
Qed.
End cap.

(** ** Vesting *)
Section tr.
Context (cfg : TrCfg).

Lemma schedules_app l0 a e1 e2 : schedules_told l0 a (e1 ++ e2) = schedules_told (schedules_told l0 a e1) a e2.
Proof. unfold schedules_told. by rewrite fold_left_app. Qed.

Lemma claim_events st now x a : acc_ok cfg st now a ->
  tr_events cfg st now (TClaimFor (Some x) a) = [Claimed a (sum_unrel (t_schedules st a) now)].
Proof. intros H. unfold tr_events. cbn [tr_apply]. by rewrite (claim_eq cfg), (prune_eq cfg). Qed.

Lemma step_schedules st e a : tr_inv cfg st e.1 ->
  match e.2 with TUpdate _ w _ => w <> a | _ => True end ->
  t_schedules (tr_step cfg st e) a = schedules_told (t_schedules st a) a (map (pair e.1) (tr_events cfg st e.1 e.2)).
Proof.
  intros I Hno. destruct e as [now c]. cbn [fst snd] in *. unfold tr_step. cbn [fst snd].
  destruct (tr_apply cfg st now c) as [st'|] eqn:E.
  2:{ unfold tr_events. rewrite E. done. }
  destruct c as [signer who|allowed from to s|root who l|b].
  - destruct signer as [x|]; [|done]. rewrite claim_events by apply I. cbn [tr_apply] in E.
    rewrite (claim_eq cfg) in E by apply I. injection E as <-. rewrite sched_mk. cbn. unfold schedules_told. cbn.
    destruct (N.eqb_spec who a) as [->|]; [by rewrite decide_True|by rewrite decide_False].
  - unfold tr_events. rewrite E. cbn [tr_apply] in E. apply (transfer_ok cfg) in E as (_ & _ & _ & _ & _ & _ & Es & _); [|apply I].
    unfold t_schedules at 1. rewrite Es. unfold schedules_told. cbn. destruct (N.eqb_spec to a) as [->|Hne].
    + by rewrite lookup_insert.
    + rewrite lookup_insert_ne by done. rewrite put_sched_eq, decide_False by done. done.
  - unfold tr_events. rewrite E. cbn [tr_apply] in E. destruct root; [|done].
    apply (update_ok cfg) in E as (_ & _ & _ & _ & Es & _). unfold t_schedules at 1. rewrite Es.
    rewrite put_sched_eq, decide_False by done. done.
  - unfold tr_events. rewrite E. cbn [tr_apply] in E. injection E as <-. done.
Qed.

Lemma schedules_run st t h a : tr_inv cfg st t -> times_from t h -> no_update a h ->
  t_schedules (tr_run cfg st h) a = schedules_told (t_schedules st a) a (tr_history cfg st h).
Proof.
  revert st t. induction h as [|e h IH]; intros st t I Ht Hn; [done|]. cbn [tr_history times_from] in *.
  destruct Ht as [Hle Ht]. inversion Hn as [|? ? Hn1 Hn2]; subst.
  assert (I1 : tr_inv cfg st e.1) by (by eapply tr_inv_later).
  rewrite schedules_app, <- step_schedules by done.
  change (tr_run cfg st (e :: h)) with (tr_run cfg (tr_step cfg st e) h).
  apply (IH _ e.1); [by apply tr_inv_step|done|done].
Qed.

Lemma schedules_lemma b items st0 h a :
  genesis_build cfg (tr_initial b) items = Ok st0 -> times_from 0 h -> no_update a h ->
  t_schedules (tr_run cfg st0 h) a = schedules_told (t_schedules st0 a) a (tr_history cfg st0 h).
Proof.
  intros Hg Ht Hn. eapply schedules_run; [|done|done]. exact (reach_inv cfg b items st0 [] Hg I).
Qed.

Lemma claimed_lemma b items st0 h now x a :
  genesis_build cfg (tr_initial b) items = Ok st0 -> times_from 0 h -> last_time 0 h <= now ->
  let st := tr_run cfg st0 h in
  tr_events cfg st now (TClaimFor (Some x) a) = [Claimed a (unreleased_of st a now)]
  /\ vesting_frozen (tr_step cfg st (now, TClaimFor (Some x) a)) a = unreleased_of st a now.
Proof.
  intros Hg Ht Hle st. pose proof (tr_inv_later cfg _ _ _ Hle (reach_inv cfg _ _ _ _ Hg Ht)) as I. split.
  - apply claim_events. apply I.
  - destruct (claim_lemma cfg _ _ _ _ _ x a Hg Ht Hle) as (st' & H & E1 & _).
    unfold tr_step. cbn [fst snd]. subst st. by rewrite H.
Qed.

Lemma claims_repeat st now x a n : tr_inv cfg st now ->
  claimed_sum a (tr_history cfg st (repeat (now, TClaimFor (Some x) a) n)) = N.of_nat n * unreleased_of st a now.
Proof.
  revert st. induction n as [|n IH]; intros st I; [done|]. cbn [repeat tr_history fst snd].
  rewrite claim_events by apply I. unfold claimed_sum. rewrite map_app, sumN_app.
  change (sumN (map (fun e : N * TrEvent => match e.2 with Claimed b n => if b =? a then n else 0 | _ => 0 end)
            (tr_history cfg (tr_step cfg st (now, TClaimFor (Some x) a)) (repeat (now, TClaimFor (Some x) a) n))))
    with (claimed_sum a (tr_history cfg (tr_step cfg st (now, TClaimFor (Some x) a)) (repeat (now, TClaimFor (Some x) a) n))).
  rewrite IH by (apply tr_inv_step; apply I).
  assert (Hu : unreleased_of (tr_step cfg st (now, TClaimFor (Some x) a)) a now = unreleased_of st a now).
  { unfold tr_step. cbn [fst snd tr_apply]. rewrite (claim_eq cfg) by apply I. unfold unreleased_of.
    rewrite sched_mk, decide_True by done. by apply (sum_unrel_live (t_schedules st a) now now). }
  rewrite Hu. cbn [map snd]. rewrite N.eqb_refl. change (sum_unrel (t_schedules st a) now) with (unreleased_of st a now).
  cbn [sumN]. lia.
Qed.

Lemma claims_add_up_lemma b items st0 h now x a n :
  genesis_build cfg (tr_initial b) items = Ok st0 -> times_from 0 h -> last_time 0 h <= now ->
  claimed_sum a (tr_history cfg (tr_run cfg st0 h) (repeat (now, TClaimFor (Some x) a) n))
    = N.of_nat n * unreleased_of (tr_run cfg st0 h) a now.
Proof.
  intros Hg Ht Hle. apply claims_repeat. exact (tr_inv_later cfg _ _ _ Hle (reach_inv cfg _ _ _ _ Hg Ht)).
Qed.
End tr.
