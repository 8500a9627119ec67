(** Proofs about the lock-to-freeze migrations. *)
From Verif Require Import Prelude Sums CapModel CapSpec CapProofs TrModel TrSpec TrProofs MiModel MiSpec.

Definition room (max : N) (t : Tokens) (reason who : N) : Prop := freezes_of t who !! reason <> None \/ N.of_nat (size (freezes_of t who)) < max.
Definition set_or_del (f : gmap N N) (r a : N) : gmap N N := if a =? 0 then delete r f else <[r := a]> f.

Lemma locks_put t who f x : locks_of (put_freezes t who f) x = locks_of t x.
Proof. done. Qed.
Lemma freezes_put t who f x : freezes_of (put_freezes t who f) x = if decide (x = who) then f else freezes_of t x.
Proof. unfold freezes_of, put_freezes. cbn. destruct (decide (x = who)) as [->|Hn]; [by rewrite lookup_insert|by rewrite lookup_insert_ne]. Qed.

Lemma translate_other max r i t who a x : x <> who ->
  locks_of (translate_lock_to_freeze max r i t (who, a)) x = locks_of t x /\ freezes_of (translate_lock_to_freeze max r i t (who, a)) x = freezes_of t x.
Proof.
  intros Hx. unfold translate_lock_to_freeze. set (t' := default t _).
  assert (locks_of t' x = locks_of t x /\ freezes_of t' x = freezes_of t x) as [E1 E2].
  { assert (K : forall f, locks_of (put_freezes t who f) x = locks_of t x /\ freezes_of (put_freezes t who f) x = freezes_of t x) by (intros f; by rewrite freezes_put, decide_False).
    unfold t', tk_set_freeze. destruct (a =? 0); [apply K|]. destruct (freezes_of t who !! r); [apply K|]. destruct (_ <? max); [apply K|done]. }
  split; [|exact E2]. rewrite <- E1. unfold locks_of, tk_remove_lock. cbn. by rewrite lookup_insert_ne.
Qed.
Lemma translate_same max r i t who a : room max t r who ->
  locks_of (translate_lock_to_freeze max r i t (who, a)) who = delete i (locks_of t who)
  /\ freezes_of (translate_lock_to_freeze max r i t (who, a)) who = set_or_del (freezes_of t who) r a.
Proof.
  intros Hr. unfold translate_lock_to_freeze.
  assert (E : tk_set_freeze max t r who a = Some (put_freezes t who (set_or_del (freezes_of t who) r a))).
  { unfold tk_set_freeze, set_or_del. destruct (a =? 0); [done|]. destruct (freezes_of t who !! r) eqn:Ef; [done|].
    destruct Hr as [Hr|Hr]; [congruence|]. by rewrite (proj2 (N.ltb_lt _ _) Hr). }
  rewrite E. cbn [default]. split.
  - unfold locks_of at 1, tk_remove_lock. cbn. by rewrite lookup_insert.
  - change (freezes_of (put_freezes t who (set_or_del (freezes_of t who) r a)) who = set_or_del (freezes_of t who) r a). by rewrite freezes_put, decide_True.
Qed.

Lemma fold_out max r i l : forall t x, x ∉ l.*1 ->
  locks_of (fold_left (translate_lock_to_freeze max r i) l t) x = locks_of t x /\ freezes_of (fold_left (translate_lock_to_freeze max r i) l t) x = freezes_of t x.
Proof.
  induction l as [|[who a] l IH]; intros t x Hx; [done|]. cbn [fold_left]. rewrite fmap_cons in Hx. apply not_elem_of_cons in Hx as [H1 H2].
  destruct (IH (translate_lock_to_freeze max r i t (who, a)) x H2) as [-> ->]. by apply translate_other.
Qed.
Lemma fold_in max r i l : forall t x a, NoDup l.*1 -> (x, a) ∈ l -> room max t r x ->
  locks_of (fold_left (translate_lock_to_freeze max r i) l t) x = delete i (locks_of t x)
  /\ freezes_of (fold_left (translate_lock_to_freeze max r i) l t) x = set_or_del (freezes_of t x) r a.
Proof.
  induction l as [|[who b] l IH]; intros t x a Hn Hx Hr; [by apply elem_of_nil in Hx|]. cbn [fold_left]. rewrite fmap_cons in Hn. apply NoDup_cons in Hn as [H1 H2].
  apply elem_of_cons in Hx as [[= -> ->]|Hx].
  - destruct (fold_out max r i l (translate_lock_to_freeze max r i t (who, b)) who H1) as [-> ->]. by apply translate_same.
  - assert (Hne : x <> who). { intros ->. apply H1. apply elem_of_list_fmap. by exists (who, a). }
    destruct (translate_other max r i t who b x Hne) as [E1 E2].
    destruct (IH (translate_lock_to_freeze max r i t (who, b)) x a H2 Hx) as [-> ->]; [unfold room; by rewrite E2|]. by rewrite E1, E2.
Qed.

(** The accounts of a map, each with an amount. *)
Section accounts.
Context {A : Type} (m : gmap N A) (g : N -> A -> N).
Definition listing := map (fun '(who, x) => (who, g who x)) (map_to_list m).
Lemma listing_fst : listing.*1 = (map_to_list m).*1.
Proof. unfold listing. induction (map_to_list m) as [|[w x] l IH]; [done|]. rewrite !fmap_cons. cbn. by f_equal. Qed.
Lemma listing_nodup : NoDup listing.*1.
Proof. rewrite listing_fst. apply NoDup_fst_map_to_list. Qed.
Lemma listing_in who x : m !! who = Some x -> (who, g who x) ∈ listing.
Proof. intros H. apply elem_of_list_fmap. exists (who, x). split; [done|]. by apply elem_of_map_to_list. Qed.
Lemma listing_out who : m !! who = None -> who ∉ listing.*1.
Proof. rewrite listing_fst. intros H Hin. apply elem_of_list_fmap in Hin as ([w x] & -> & Hin). apply elem_of_map_to_list in Hin. cbn in H. congruence. Qed.
End accounts.

(** The greatest lock or freeze *)
Lemma greatest_insert m k a : m !! k = None -> greatest (<[k := a]> m) = N.max a (greatest m).
Proof. intros H. unfold greatest. rewrite map_fold_insert_L; [done| |done]. intros. lia. Qed.
Lemma greatest_delete m k a : m !! k = Some a -> N.max a (greatest (delete k m)) = greatest m.
Proof. intros H. rewrite <- (greatest_insert (delete k m) k a) by apply lookup_delete. by rewrite insert_delete. Qed.

Lemma known_room t reason who : known_freezes t -> reason = capacity_staking \/ reason = time_release_vesting -> room runtime_max_freezes t reason who.
Proof.
  intros Hk Hr. unfold room. destruct (freezes_of t who !! reason) eqn:E; [by left|]. right.
  set (other := if reason =? capacity_staking then time_release_vesting else capacity_staking).
  assert (H : dom (freezes_of t who) ⊆ ({[ other ]} : gset N)).
  { intros r Hr'. apply elem_of_singleton. apply elem_of_dom in Hr' as [x Hx]. assert (r <> reason) by congruence.
    assert (Hx' : freezes_of t who !! r <> None) by (by rewrite Hx).
    unfold other. destruct (Hk who r Hx') as [E1|E1], Hr as [E2|E2]; subst; cbn; done. }
  apply subseteq_size in H. rewrite size_singleton, size_dom in H. unfold runtime_max_freezes. lia.
Qed.

(** ** Capacity *)
Section cap.
Variable cfg : CapCfg.
Variable h : list CapOp.
Notation st := (cap_run cfg cap_genesis h).
Variable pre : CapMig.
Hypothesis Hpre : locked_stakes st pre.
Notation post := (migrate_to_v3 runtime_max_freezes pre).

Lemma cap_post_tokens : cm_tokens post = fold_left (translate_lock_to_freeze runtime_max_freezes capacity_staking staking_id)
  (listing (cm_ledger pre) (fun who active => sat_add u128_max active (get_unlocking_total_for pre who))) (cm_tokens pre).
Proof. destruct Hpre as (Hv & _). unfold migrate_to_v3. by rewrite (proj2 (N.leb_gt _ _) Hv). Qed.

Lemma cap_amount who a : cm_ledger pre !! who = Some a ->
  lock_of (cm_tokens pre) staking_id who = sat_add u128_max a (get_unlocking_total_for pre who).
Proof.
  destruct Hpre as (_ & E1 & E2 & E3). intros Ha. unfold lock_of. rewrite (proj1 (E3 who)). fold (frozen st who).
  destruct (tok_inv_run cfg h who) as (_ & _ & B2 & _). 
  assert (Ea : active st who = a) by (unfold active; by rewrite <- E1, Ha).
  unfold get_unlocking_total_for. rewrite E2, chunks_total_eq. fold (chunks st who). fold (unlocking st who). unfold sat_add. 
  rewrite frozen_lemma. lia.
Qed.

Lemma cap_replaced who : known_freezes (cm_tokens pre) -> 0 < active st who ->
  freeze_of (cm_tokens post) capacity_staking who = lock_of (cm_tokens pre) staking_id who
  /\ lock_of (cm_tokens pre) staking_id who = active st who + unlocking st who
  /\ lock_of (cm_tokens post) staking_id who = 0
  /\ tk_frozen (cm_tokens post) who = tk_frozen (cm_tokens pre) who
  /\ (forall id, id <> staking_id -> lock_of (cm_tokens post) id who = lock_of (cm_tokens pre) id who)
  /\ (forall r, r <> capacity_staking -> freeze_of (cm_tokens post) r who = freeze_of (cm_tokens pre) r who).
Proof.
  intros Hk Ha. unfold active in Ha. destruct (cs_staking st !! who) as [a|] eqn:El; [|cbn in Ha; lia]. cbn in Ha.
  assert (El' : cm_ledger pre !! who = Some a) by (destruct Hpre as (_ & -> & _); done).
  pose proof (cap_amount who a El') as Eam. set (am := sat_add _ _ _) in Eam.
  destruct (fold_in runtime_max_freezes capacity_staking staking_id (listing (cm_ledger pre) (fun who active => sat_add u128_max active (get_unlocking_total_for pre who)))
    (cm_tokens pre) who am (listing_nodup _ _) (listing_in _ (fun who active => sat_add u128_max active (get_unlocking_total_for pre who)) who a El')) as [F1 F2]; [apply known_room; [done|by left]|].
  rewrite <- cap_post_tokens in F1, F2.
  assert (Hpos : 0 < am). { unfold am, sat_add. assert (0 < u128_max) by (vm_compute; done). lia. }
  assert (F2' : freezes_of (cm_tokens post) who = <[capacity_staking := am]> (freezes_of (cm_tokens pre) who)).
  { rewrite F2. unfold set_or_del. by rewrite (proj2 (N.eqb_neq _ _)) by lia. }
  assert (Elock : lock_of (cm_tokens pre) staking_id who = active st who + unlocking st who).
  { unfold lock_of. destruct Hpre as (_ & _ & _ & E3). rewrite (proj1 (E3 who)). apply frozen_lemma. }
  assert (Elk : locks_of (cm_tokens pre) who !! staking_id = Some am).
  { unfold lock_of in Eam. destruct (locks_of (cm_tokens pre) who !! staking_id); cbn in Eam; [congruence|lia]. }
  repeat split.
  - unfold freeze_of. by rewrite F2', lookup_insert, Eam.
  - done.
  - unfold lock_of. by rewrite F1, lookup_delete.
  - unfold tk_frozen. rewrite F1, F2', greatest_insert; [|apply Hpre]. rewrite <- (greatest_delete _ _ _ Elk). lia.
  - intros id Hid. unfold lock_of. by rewrite F1, lookup_delete_ne.
  - intros r Hr. unfold freeze_of. by rewrite F2', lookup_insert_ne.
Qed.
Lemma cap_untouched who : active st who = 0 -> 
  (forall id, lock_of (cm_tokens post) id who = lock_of (cm_tokens pre) id who) /\ (forall r, freeze_of (cm_tokens post) r who = freeze_of (cm_tokens pre) r who).
Proof.
  intros Ha. assert (El : cm_ledger pre !! who = None).
  { destruct Hpre as (_ & -> & _). unfold active in Ha. destruct (tok_inv_run cfg h who) as (_ & _ & _ & Hpos & _). destruct (cs_staking st !! who) as [a|]; [|done].
    cbn in Ha. specialize (Hpos a eq_refl). lia. }
  destruct (fold_out runtime_max_freezes capacity_staking staking_id (listing (cm_ledger pre) (fun who active => sat_add u128_max active (get_unlocking_total_for pre who)))
    (cm_tokens pre) who (listing_out _ _ who El)) as [F1 F2]. rewrite <- cap_post_tokens in F1, F2.
  unfold lock_of, freeze_of. rewrite F1, F2. done.
Qed.
End cap.
Lemma cap_protected cfg h pre who : locked_stakes (cap_run cfg cap_genesis h) pre -> known_freezes (cm_tokens pre) ->
  tk_frozen (cm_tokens (migrate_to_v3 runtime_max_freezes pre)) who = tk_frozen (cm_tokens pre) who.
Proof.
  intros Hp Hk. destruct (N.eq_dec (active (cap_run cfg cap_genesis h) who) 0) as [E|E].
  - assert (El : cm_ledger pre !! who = None).
    { destruct Hp as (_ & -> & _). unfold active in E. destruct (tok_inv_run cfg h who) as (_ & _ & _ & Hpos & _). destruct (cs_staking _ !! who) as [a|]; [|done].
      cbn in E. specialize (Hpos a eq_refl). lia. }
    destruct (fold_out runtime_max_freezes capacity_staking staking_id (listing (cm_ledger pre) (fun who active => sat_add u128_max active (get_unlocking_total_for pre who)))
      (cm_tokens pre) who (listing_out _ _ who El)) as [F1 F2]. rewrite <- (cap_post_tokens _ _ _ Hp) in F1, F2. unfold tk_frozen. by rewrite F1, F2.
  - apply (cap_replaced cfg h pre Hp who Hk). lia.
Qed.
Lemma cap_again max st : migrate_to_v3 max (migrate_to_v3 max st) = migrate_to_v3 max st.
Proof. unfold migrate_to_v3 at 2 3. destruct (3 <=? cm_version st) eqn:E; [unfold migrate_to_v3; by rewrite E|done]. Qed.
Lemma cap_keeps max st : cm_ledger (migrate_to_v3 max st) = cm_ledger st /\ cm_unlocks (migrate_to_v3 max st) = cm_unlocks st.
Proof. unfold migrate_to_v3. by destruct (3 <=? cm_version st). Qed.

(** ** Time release *)
Lemma total_eq l : Forall valid_sched l -> calculate_total_scheduled_frozen l = N.min u128_max (sumN (map total_of l)).
Proof.
  intros F. unfold calculate_total_scheduled_frozen.
  assert (K : forall acc, acc <= u128_max -> fold_left (fun acc s => sat_add u128_max acc (default 0 (sc_total s))) l acc = N.min u128_max (acc + sumN (map total_of l))).
  { induction F as [|s l Hs F IH]; intros acc Hacc; cbn [fold_left map sumN]; [lia|].
    assert (sc_total s = Some (total_of s)) as -> by apply (proj2 (proj2 (proj2 (proj2 (proj2 (arithmetic_lemma s 0 Hs)))))). cbn [default].
    unfold id. rewrite IH; unfold sat_add; lia. }
  rewrite K; lia.
Qed.

Section tr.
Variable cfg : TrCfg.
Variables (b : gmap N N) (items : list (N * Sched)) (st0 : TrState) (h : list (N * TrCall)).
Hypothesis Hg : genesis_build cfg (tr_initial b) items = Ok st0.
Hypothesis Ht : times_from 0 h.
Notation st := (tr_run cfg st0 h).
Variable pre : TrMig.
Hypothesis Hpre : locked_schedules st pre.
Hypothesis Hk : known_freezes (tm_tokens pre).
Notation post := (tr_migrate_to_v2 runtime_max_freezes pre).
Notation ls := (listing (tm_sched pre) (fun _ l => calculate_total_scheduled_frozen l)).

Lemma tr_post_tokens : tm_tokens post = fold_left (translate_lock_to_freeze runtime_max_freezes time_release_vesting release_id) ls (tm_tokens pre).
Proof. destruct Hpre as (Hv & _). unfold tr_migrate_to_v2. by rewrite (proj2 (N.leb_gt _ _) Hv). Qed.

Lemma tr_frozen_eq who : freeze_of (tm_tokens post) time_release_vesting who = N.min u128_max (sumN (map total_of (t_schedules st who)))
  /\ (tr_sched st !! who <> None -> lock_of (tm_tokens post) release_id who = 0)
  /\ (forall id, id <> release_id -> lock_of (tm_tokens post) id who = lock_of (tm_tokens pre) id who)
  /\ (forall r, r <> time_release_vesting -> freeze_of (tm_tokens post) r who = freeze_of (tm_tokens pre) r who).
Proof.
  destruct Hpre as (Hv & Es & Hl). destruct (reach_inv cfg b items st0 h Hg Ht who) as (Hval & _). unfold t_schedules in *.
  destruct (tr_sched st !! who) as [l|] eqn:El.
  - assert (El' : tm_sched pre !! who = Some l) by congruence. unfold default, id in Hval |- *.
    destruct (fold_in runtime_max_freezes time_release_vesting release_id ls (tm_tokens pre) who _ (listing_nodup _ _) (listing_in _ (fun _ l => calculate_total_scheduled_frozen l) who l El')) as [F1 F2]; [apply known_room; [done|by right]|].
    rewrite <- tr_post_tokens in F1, F2. unfold freeze_of, lock_of. rewrite F1, F2. cbn beta. rewrite total_eq by done. repeat split.
    + unfold set_or_del. destruct (N.eqb_spec (N.min u128_max (sumN (map total_of l))) 0) as [E|E]; [by rewrite lookup_delete, E|by rewrite lookup_insert].
    + intros _. by rewrite lookup_delete.
    + intros id Hid. by rewrite lookup_delete_ne.
    + intros r Hr. unfold set_or_del. case_match; [by rewrite lookup_delete_ne|by rewrite lookup_insert_ne].
  - assert (El' : tm_sched pre !! who = None) by congruence. destruct (fold_out runtime_max_freezes time_release_vesting release_id ls (tm_tokens pre) who (listing_out _ _ who El')) as [F1 F2].
    rewrite <- tr_post_tokens in F1, F2. unfold freeze_of, lock_of. rewrite F1, F2. repeat split; [|done].
    rewrite (proj2 (Hl who)). cbn. lia.
Qed.
Lemma tr_covers who t : last_time 0 h <= t -> unreleased_of st who t <= freeze_of (tm_tokens post) time_release_vesting who.
Proof.
  intros Hle. destruct (tr_inv_later cfg _ _ _ Hle (reach_inv cfg b items st0 h Hg Ht) who) as (_ & _ & H1 & H2).
  rewrite (proj1 (tr_frozen_eq who)). pose proof (sum_unrel_total (t_schedules st who) t). unfold unreleased_of. fold (sum_unrel (t_schedules st who) t). lia.
Qed.
Lemma goes_on_inv st' : goes_on st post st' -> tr_sched st' = tr_sched st /\ tr_inv cfg st' (last_time 0 h).
Proof.
  intros (E1 & E2 & E3 & E4).
  assert (Esch : tr_sched st' = tr_sched st). { rewrite E1. destruct Hpre as (_ & <- & _). unfold tr_migrate_to_v2. by destruct (2 <=? tm_version pre). }
  split; [done|]. intros a. destruct (reach_inv cfg b items st0 h Hg Ht a) as (H1 & H2 & H3 & H4). unfold acc_ok, t_schedules in *. rewrite Esch. split; [done|]. split; [done|].
  rewrite E4. split; [apply tr_covers; lia|]. rewrite (proj1 (tr_frozen_eq a)). lia.
Qed.
Lemma tr_for_ever st' h' who t : goes_on st post st' -> times_from (last_time 0 h) h' -> last_time (last_time 0 h) h' <= t ->
  unreleased_of (tr_run cfg st' h') who t <= vesting_frozen (tr_run cfg st' h') who.
Proof.
  intros Hgo Ht' Hle. destruct (goes_on_inv _ Hgo) as [_ Hinv].
  pose proof (tr_inv_run cfg _ _ _ Hinv Ht') as HI. exact (proj1 (proj2 (proj2 (tr_inv_later cfg _ _ _ Hle HI who)))).
Qed.
Lemma tr_claims st' x who now : goes_on st post st' -> last_time 0 h <= now ->
  exists st'', tr_apply cfg st' now (TClaimFor (Some x) who) = Ok st'' /\ vesting_frozen st'' who = unreleased_of st who now.
Proof.
  intros Hgo Hle. destruct (goes_on_inv _ Hgo) as [Es Hinv]. pose proof (tr_inv_later cfg _ _ _ Hle Hinv) as I.
  eexists. cbn [tr_apply]. rewrite (claim_eq cfg) by apply I. split; [done|]. rewrite frozen_mk, decide_True by done. unfold unreleased_of, t_schedules, sum_unrel. by rewrite Es.
Qed.
End tr.
Lemma tr_again max st : tr_migrate_to_v2 max (tr_migrate_to_v2 max st) = tr_migrate_to_v2 max st.
Proof. unfold tr_migrate_to_v2 at 2 3. destruct (2 <=? tm_version st) eqn:E; [unfold tr_migrate_to_v2; by rewrite E|done]. Qed.
