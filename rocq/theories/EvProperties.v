(** Properties C133-C136: what follows from the events alone. The followers
    ([key_told], [delegation_told], [provider_acc], ...) are in EvSpec.v: each is a
    fold over the events that never looks at the state. *)
From Verif Require Import Prelude Sums Scale SigModel MsaModel MsaSpec MsaProperties
  CapModel CapSpec CapProofs CapProperties TrModel TrSpec TrProperties EvModel EvSpec EvMsaProofs EvProofs.

(** ** C133. Who controls what, who provides, and who delegates to whom; wrapped calls
    and failing calls included. *)
Theorem C133_keys_from_events :
  forall cfg h k m,
    controls (msa_run cfg msa_genesis h) k m <-> key_told k (msa_events cfg msa_genesis h) = Some m.
Proof. exact keys_lemma. Qed.
Print Assumptions C133_keys_from_events.

Theorem C133_providers_from_events :
  forall cfg h p,
    is_registered_provider (msa_run cfg msa_genesis h) p = true <->
    ProviderCreated p ∈ msa_events cfg msa_genesis h.
Proof. exact providers_lemma. Qed.
Print Assumptions C133_providers_from_events.

(** In a later block, a delegation is honoured iff the last event about it granted it. *)
Theorem C133_delegations_from_events :
  forall cfg h env p d,
    blocks_from 1 h -> last_block 1 h < e_block env ->
    delegation_ok env (msa_run cfg msa_genesis h) p d <->
    delegation_told p d (msa_events cfg msa_genesis h) = true.
Proof. exact delegations_lemma. Qed.
Print Assumptions C133_delegations_from_events.

(** A step with no event about the two changes nothing of what the delegation and the
    schema grants between them answer, now or later. *)
Theorem C133_nothing_silent :
  forall cfg st x p d,
    (forall e, e ∈ step_events cfg st x ->
       e <> DelegationGranted p d /\ e <> DelegationRevoked p d /\ e <> DelegationUpdated p d) ->
    forall env s,
      (delegation_ok env (msa_step cfg st x) p d <-> delegation_ok env st p d) /\
      (schema_ok env (msa_step cfg st x) p d s <-> schema_ok env st p d s) /\
      get_granted_schemas (msa_step cfg st x) d p = get_granted_schemas st d p.
Proof.
  intros cfg st x p d H. apply silent_lemma. intros e He. destruct (H e He) as (H1 & H2 & H3).
  unfold about. intros [|[|]]; contradiction.
Qed.
Print Assumptions C133_nothing_silent.

(** The toy history, then MSA 2 drops schema 4 from its grants and revokes. *)
Definition ev_h : list MsaStep := toy_history ++
  [ tx 20 (Signed 2) (RevokeSchemaPermissions 1 [4]); tx 21 (Signed 2) (RevokeByDelegator 1);
    tx 22 (Signed 2) (DeletePublicKey 3); tx 23 (Signed 9) (RevokeByDelegator 1) ].
Example C133_example :
  msa_events toy_cfg msa_genesis ev_h =
    [ MsaCreated 1 1; ProviderCreated 1; MsaCreated 2 2; PublicKeyAdded 2 3; DelegationGranted 1 2;
      MsaCreated 3 7; DelegationGranted 1 3; DelegationUpdated 1 2; DelegationRevoked 1 2; PublicKeyDeleted 3 ] /\
  map (fun k => key_told k (msa_events toy_cfg msa_genesis ev_h)) [1; 2; 3; 7] = [Some 1; Some 2; None; Some 3] /\
  delegation_told 1 2 (msa_events toy_cfg msa_genesis ev_h) = false /\
  delegation_told 1 3 (msa_events toy_cfg msa_genesis ev_h) = true /\
  blocks_from 1 ev_h /\ last_block 1 ev_h < 30.
Proof. vm_compute. repeat split; try reflexivity; discriminate. Qed.

(** ** C134. With every call a transaction of its own, an MSA was announced as retired
    iff it was issued and no key controls it. *)
Theorem C134_retired_means_retired_partial :
  forall cfg h m,
    all_top h ->
    (MsaRetired m ∈ msa_events cfg msa_genesis h <->
     MsaSpec.issued (msa_run cfg msa_genesis h) m /\ forall k, ~ controls (msa_run cfg msa_genesis h) k m).
Proof. exact retired_iff. Qed.
Print Assumptions C134_retired_means_retired_partial.

Example C134_example :
  let h := toy_history ++ [ tx 20 (Signed 7) (RevokeByDelegator 1); tx 21 (Signed 7) RetireMsa ] in
  all_top h /\ MsaRetired 3 ∈ msa_events toy_cfg msa_genesis h.
Proof.
  split; [repeat constructor|]. apply elem_of_list_In. vm_compute. repeat (try (left; reflexivity); right).
Qed.

(** Wrapped calls break both directions: an MSA with two keys is announced as retired
    and its other key still controls it; and a key deletes itself, leaving an MSA
    without keys that was never announced. *)
Definition wrapped (b : N) (o : Origin) (c : MsaCall) : MsaStep :=
  {| s_env := toy_env b; s_origin := o; s_call := c; s_top := false |}.
Theorem C134_announced_while_controlled_refuted :
  ~ (forall cfg h m, MsaRetired m ∈ msa_events cfg msa_genesis h ->
       forall k, ~ controls (msa_run cfg msa_genesis h) k m).
Proof.
  intros H. apply (H toy_cfg (toy_history ++ [wrapped 20 (Signed 2) RetireMsa]) 2) with (k := 3).
  - apply elem_of_list_In. vm_compute. repeat (try (left; reflexivity); right).
  - vm_compute. reflexivity.
Qed.
Print Assumptions C134_announced_while_controlled_refuted.

Theorem C134_unannounced_without_keys_refuted :
  ~ (forall cfg h m, MsaSpec.issued (msa_run cfg msa_genesis h) m ->
       (forall k, ~ controls (msa_run cfg msa_genesis h) k m) -> MsaRetired m ∈ msa_events cfg msa_genesis h).
Proof.
  intros H. specialize (H toy_cfg [wrapped 20 (Signed 2) Create; wrapped 20 (Signed 2) (DeletePublicKey 2)] 1).
  assert (Hi : MsaRetired 1 ∈ [MsaCreated 1 2; PublicKeyDeleted 2]).
  { replace [MsaCreated 1 2; PublicKeyDeleted 2] with
      (msa_events toy_cfg msa_genesis [wrapped 20 (Signed 2) Create; wrapped 20 (Signed 2) (DeletePublicKey 2)])
      by (vm_compute; reflexivity).
    apply H.
    - apply elem_of_list_In. vm_compute. left. reflexivity.
    - intros k Hk. apply keys_lemma in Hk.
      replace (msa_events toy_cfg msa_genesis [wrapped 20 (Signed 2) Create; wrapped 20 (Signed 2) (DeletePublicKey 2)])
        with [MsaCreated 1 2; PublicKeyDeleted 2] in Hk by (vm_compute; reflexivity).
      unfold key_told in Hk. cbn [fold_left] in Hk. destruct (2 =? k); discriminate. }
  rewrite !elem_of_cons, elem_of_nil in Hi. destruct Hi as [|[|[]]]; discriminate.
Qed.
Print Assumptions C134_unannounced_without_keys_refuted.

(** ** C135. The amount in [Claimed] is what the account still has frozen afterwards,
    which is what its schedules have not released. *)
Theorem C135_claimed_amount_partial :
  forall cfg b items st0 h now x a,
    genesis_build cfg (tr_initial b) items = Ok st0 -> times_from 0 h -> last_time 0 h <= now ->
    let st := tr_run cfg st0 h in
    tr_events cfg st now (TClaimFor (Some x) a) = [Claimed a (unreleased_of st a now)] /\
    vesting_frozen (tr_step cfg st (now, TClaimFor (Some x) a)) a = unreleased_of st a now.
Proof. exact claimed_lemma. Qed.
Print Assumptions C135_claimed_amount_partial.

(** It is not the amount that the claim releases. *)
Theorem C135_claimed_amount_refuted :
  ~ (forall cfg b items st0 h now x a n,
       genesis_build cfg (tr_initial b) items = Ok st0 -> times_from 0 h -> last_time 0 h <= now ->
       let st := tr_run cfg st0 h in
       Claimed a n ∈ tr_events cfg st now (TClaimFor (Some x) a) ->
       n = vesting_frozen st a - vesting_frozen (tr_step cfg st (now, TClaimFor (Some x) a)) a).
Proof.
  intros H.
  destruct (genesis_build vest_cfg (tr_initial vest_bal) vest_items) as [st0|] eqn:E; [|vm_compute in E; discriminate].
  specialize (H vest_cfg vest_bal vest_items st0 (take 1 vest_h) 12 9 1 32 E).
  assert (32 = 19); [|discriminate].
  replace 19 with (vesting_frozen (tr_run vest_cfg st0 (take 1 vest_h)) 1
     - vesting_frozen (tr_step vest_cfg (tr_run vest_cfg st0 (take 1 vest_h)) (12, TClaimFor (Some 9) 1)) 1).
  - apply H.
    + cbn. split; [discriminate|exact I].
    + cbn. discriminate.
    + assert (Es : Ok st0 = Ok (vest_run [])) by (rewrite <- E; vm_compute; reflexivity).
      injection Es as ->. apply elem_of_list_In. vm_compute. left. reflexivity.
  - assert (Es : Ok st0 = Ok (vest_run [])) by (rewrite <- E; vm_compute; reflexivity).
    injection Es as ->. vm_compute. reflexivity.
Qed.
Print Assumptions C135_claimed_amount_refuted.

(** Nor can the amounts be added up: claiming [n] times in the same block, which anyone
    may do for any account, reports [n] times the amount still frozen. *)
Theorem C135_claims_do_not_add_up :
  forall cfg b items st0 h now x a n,
    genesis_build cfg (tr_initial b) items = Ok st0 -> times_from 0 h -> last_time 0 h <= now ->
    claimed_sum a (tr_history cfg (tr_run cfg st0 h) (repeat (now, TClaimFor (Some x) a) n)) =
    N.of_nat n * unreleased_of (tr_run cfg st0 h) a now.
Proof. exact claims_add_up_lemma. Qed.
Print Assumptions C135_claims_do_not_add_up.

(** The schedules themselves follow from the genesis and the events, for accounts whose
    schedules root has not replaced (that event does not carry the new ones). *)
Theorem C135_schedules_from_events_partial :
  forall cfg b items st0 h a,
    genesis_build cfg (tr_initial b) items = Ok st0 -> times_from 0 h -> no_update a h ->
    t_schedules (tr_run cfg st0 h) a = schedules_told (t_schedules st0 a) a (tr_history cfg st0 h).
Proof. exact schedules_lemma. Qed.
Print Assumptions C135_schedules_from_events_partial.

(** The event of a root update does not say what the schedules are now. *)
Theorem C135_update_not_told_refuted :
  exists cfg st0 h1 h2,
    genesis_build cfg (tr_initial vest_bal) vest_items = Ok st0 /\ times_from 0 h1 /\ times_from 0 h2 /\
    tr_history cfg st0 h1 = tr_history cfg st0 h2 /\
    t_schedules (tr_run cfg st0 h1) 1 <> t_schedules (tr_run cfg st0 h2) 1.
Proof.
  exists vest_cfg, (vest_run []), [(5, TUpdate true 1 [vest_s2])], [(5, TUpdate true 1 [vest_s1])].
  split; [vm_compute; reflexivity|]. split; [cbn; split; [discriminate|exact I]|]. split; [cbn; split; [discriminate|exact I]|].
  split; [vm_compute; reflexivity|]. vm_compute. discriminate.
Qed.
Print Assumptions C135_update_not_told_refuted.

Example C135_example :
  let h := vest_h ++ [(31, TClaimFor (Some 9) 1)] in
  tr_history vest_cfg (vest_run []) h = [(5, ReleaseScheduleAdded 2 1 vest_s2); (12, Claimed 1 32); (31, Claimed 1 0)] /\
  schedules_told [vest_s1] 1 (tr_history vest_cfg (vest_run []) vest_h) = [vest_s1; vest_s2] /\
  schedules_told [vest_s1] 1 (tr_history vest_cfg (vest_run []) h) = [] /\ no_update 1 h.
Proof. split; [vm_compute; reflexivity|]. split; [vm_compute; reflexivity|]. split; [vm_compute; reflexivity|]. repeat constructor. Qed.

(** ** C136. Stakes, targets, unlocking amounts, freezes and the epoch length follow
    from the capacity events, each read with the epoch in which it was deposited. *)
Theorem C136_stakes_from_events :
  forall cfg h a m,
    let st := cap_run cfg cap_genesis h in
    active st a = active_told a (cs_log st) /\
    (targeted st a m, targeted_capacity st a m) = target_told a m (cs_log st) /\
    map (fun c => (ck_value c, ck_thaw c)) (chunks st a) = unlocking_told (k_thaw cfg) a (cs_log st) /\
    frozen st a = active_told a (cs_log st) + sumN (map fst (unlocking_told (k_thaw cfg) a (cs_log st))) /\
    cs_epoch_len st = epoch_length_told (cs_log st).
Proof.
  intros cfg h a m st. split; [symmetry; apply active_lemma|]. split; [symmetry; apply target_lemma|].
  split; [symmetry; apply unlocking_lemma|]. split; [apply frozen_told_lemma|symmetry; apply length_lemma].
Qed.
Print Assumptions C136_stakes_from_events.

(** So does everything about a provider's capacity, when it is replenished only by
    paying (as in the runtime). *)
Theorem C136_provider_from_events :
  forall cfg h m,
    no_bare_replenish h ->
    let st := cap_run cfg cap_genesis h in
    provider_acc m (cs_log st) =
    {| ac_tokens := tokens_at st m; ac_issued := CapSpec.issued st m;
       ac_left := remaining st m; ac_epoch := last_replenished st m |}.
Proof. exact acc_lemma. Qed.
Print Assumptions C136_provider_from_events.

Example C136_example :
  let h := take 10 demo_history in
  let l := cs_log (cap_run demo_cfg cap_genesis h) in
  (active_told 1 l, target_told 1 7 l, unlocking_told 3 1 l, epoch_length_told l, provider_acc 7 l) =
  (25, (25, 12), [(15, 4)], 2, {| ac_tokens := 85; ac_issued := 42; ac_left := 0; ac_epoch := 1 |}) /\
  no_bare_replenish h.
Proof. split; [vm_compute; reflexivity|repeat constructor]. Qed.
