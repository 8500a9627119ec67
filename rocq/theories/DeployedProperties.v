(** C129: the limits of the chain as it is deployed. The runtime with the
    parameters of its configuration; what stays open are the signature scheme,
    Blake2, the tables of Unicode, the numbers that are too large for a floating
    point number, the multibase codes other than base32, the fees, the accounts
    of multisigs and the votes of the council. *)
From Verif Require Import Prelude Scale Utf8 CommonTypes SigModel MsaModel CapModel TrModel HModel ScModel StModel MgModel FeeModel RtModel.
From Verif Require Import MsaSpec CapSpec TrSpec StSpec HSpec MgSpec RtSpec RtMoreSpec.
From Verif Require Import JsModel CidModel StPayloadProofs DeployedProofs.
From Verif Require MsaProofs MsaProperties CapProperties TrProperties StProperties HProperties ScProperties MgProperties JsSpec JsProperties RtProperties RtMoreProperties.

Record Open := {
  d_mainnet : bool;
  d_verify : N -> N -> list N -> bool;
  d_blake : list N -> list N;
  d_unicode : Unicode;
  d_float_ok : list N -> bool;
  d_multibase : N -> list N -> option (list N);
  d_fee : RtCall -> N -> N -> N;
  d_multi : N -> list N -> N;
  d_council : RtState -> N -> bool
}.

(** runtime/frequency/src/lib.rs:480-600, 1060-1150 with the values of
    runtime/common/src/constants.rs:43-48 (existential deposit), 120-126 (time
    release), 241 (length of a batch), and those of the pallets *)
Definition deployed (d : Open) : RtCfg :=
  {| r_mainnet := d_mainnet d; r_msa := runtime_cfg (d_verify d); r_sc := json_schemas (d_float_ok d);
     r_h := runtime_handles (d_unicode d) (d_verify d); r_st := st_runtime (d_blake d) (d_verify d);
     r_mg := ipfs_cfg (d_multibase d); r_cap := runtime_cap_cfg;
     r_tr := {| t_min := 0; t_max := 50; t_ed := 1000000 |}; r_ed := 1000000; r_max_batch := 10;
     r_token_fee := d_fee d; r_multi := d_multi d; r_verify := d_verify d; r_council := d_council d |}.

(** The state of the deployed chain after a history. The relay chain's block
    numbers do not decrease, and the vesting schedules at the start were
    accepted. *)
Record reached (d : Open) (s : RtState) (h : list RtStep) : Prop := {
  re_start : exists b mm items v, genesis_build (r_tr (deployed d)) (tr_initial b) items = Ok v
    /\ s = rt_run (deployed d) (rt_start b mm v) h;
  re_relay : relays_from 0 h
}.

(** The hypotheses of other theorems about the configuration hold for it. *)
Theorem C129_configuration :
  forall d, blake_ok (d_blake d) ->
  let c := deployed d in
  sizes_ok (r_st c) /\ hashes_ok (r_st c) /\ rng_ok (h_rng (r_h c)) /\ range_ok (r_h c) /\ g_max (r_mg c) <= u32_max
  /\ 2 <= c_max_sigs (r_msa c) /\ 1 <= c_max_keys (r_msa c).
Proof.
  intros d Hb c. split; [apply runtime_sizes|]. split; [by apply runtime_hashes|].
  split; [exact (proj1 HProperties.C50_runtime_generator)|]. split; [exact (proj2 HProperties.C50_runtime_generator _ _)|].
  split; [|split]; vm_compute; discriminate.
Qed.
Print Assumptions C129_configuration.

Theorem C129_identity :
  forall d s h, reached d s h ->
  (forall del prov dg, ms_deleg (rs_msa s) !! (del, prov) = Some dg ->
     N.of_nat (size (dg_perms dg)) <= 30 /\ (forall sch, is_Some (dg_perms dg !! sch) -> sch <= ScModel.sc_count (rs_sc s)))
  /\ (forall m name, ms_prov (rs_msa s) !! m = Some name -> len name <= 16)
  /\ (all_plain h -> forall m,
        (forall l, keys_listing (rs_msa s) m l -> len l <= 25)
        /\ (forall name, ms_prov (rs_msa s) !! m = Some name -> exists k, controls (rs_msa s) k m)).
Proof.
  intros d s h [(b & mm & items & v & _ & Hs) Hr].
  destruct (RtProperties.C109_projection (deployed d) b mm v h Hr) as ((hm & Hm & _ & _ & Hsch & Hlast & Htop) & _).
  rewrite <- Hs in Hm, Hlast. rewrite Hm. split; [|split].
  - intros del prov dg Hd. destruct (MsaProperties.C13_delegation_bounds _ _ _ _ _ Hsch Hd) as [H1 H2].
    split; [exact H1|]. intros sch Hx. specialize (H2 sch Hx). lia.
  - intros m name Hn. exact (proj2 (MsaProperties.C09_providers_stay_registered (r_msa (deployed d)) hm [] m name Hn)).
  - intros Hp m. specialize (Htop Hp). split.
    + intros l Hl. exact (proj2 (MsaProperties.C05_key_count_exact_partial _ _ _ _ Htop Hl)).
    + intros name Hn. exact (MsaProperties.C09_providers_are_controlled_partial _ _ _ _ Htop Hn).
Qed.
Print Assumptions C129_identity.

Theorem C129_schemas :
  forall d s h id r, reached d s h -> get_schema_by_id (rs_sc s) id = Some r ->
  8 <= len (sr_model r) <= 65500
  /\ (sr_model_type r = AvroBinary ->
      exists l, JsSpec.json_text (sr_model r) (JObj l) /\ JsSpec.held (JsSpec.in_range (d_float_ok d)) 127 (JObj l)).
Proof.
  intros d s h id r [(b & mm & items & v & _ & Hs) Hr] H.
  destruct (RtProperties.C109_projection (deployed d) b mm v h Hr) as (_ & (hs & Hsc) & _).
  rewrite <- Hs in Hsc. rewrite Hsc in H. split.
  - exact (proj1 (ScProperties.C74_every_schema _ _ _ _ _ H)).
  - exact (JsProperties.C125_registered _ _ _ _ _ H).
Qed.
Print Assumptions C129_schemas.

Theorem C129_handles :
  forall d s h m r, reached d s h -> get_handle_for_msa (r_h (deployed d)) (rs_h s) m = Some r ->
  10 <= hr_suffix r <= 99
  /\ exists t, from_utf8 (hr_base r) = Some t /\ 3 <= len t <= 20
       /\ parts (display (hr_base r) (hr_suffix r)) = Some (t, hr_suffix r).
Proof.
  intros d s h m r [(b & mm & items & v & _ & Hs) Hr] H.
  destruct (RtProperties.C109_projection (deployed d) b mm v h Hr) as (_ & _ & (hh & Hh & _) & _).
  rewrite <- Hs in Hh. rewrite Hh in H.
  destruct HProperties.C50_runtime_generator as [Hg Ho].
  destruct (HProperties.C51_own_name_has_own_parts (r_h (deployed d)) _ _ _ Hg (Ho _ _) H) as (t & Ht & _ & Hp & Hx & _).
  destruct (HProperties.C55_characters_partial (r_h (deployed d)) _ _ _ Hg (Ho _ _) H) as (t' & Ht' & Hlen & _).
  rewrite Ht in Ht'. injection Ht' as <-. split; [exact Hx|]. by exists t.
Qed.
Print Assumptions C129_handles.

Theorem C129_storage :
  forall d s h l, reached d s h -> blake_ok (d_blake d) -> loc_ok l ->
  exists cur, read (r_st (deployed d)) (rs_st s) l = Ok cur /\
    forall p, cur = Some p ->
      match l with
      | ItemLoc _ _ => len (pg_data p) <= 10260
      | PageLoc _ _ i => len (pg_data p) <= 1024 /\ i <= 32
      end
      /\ schema_at s (loc_schema l) (loc_kind l) /\ MsaSpec.issued (rs_msa s) (loc_msa l).
Proof.
  intros d s h l [(b & mm & items & v & _ & Hs) Hr] Hb Hl.
  destruct (C129_configuration d Hb) as (Hz & Hh & _ & _ & Hg & _).
  destruct (RtProperties.C109_projection (deployed d) b mm v h Hr) as (_ & _ & _ & (ht & Ht & He) & _).
  pose proof (RtMoreProperties.C116_pages (deployed d) b mm v h l Hz Hh Hg Hr Hl) as Hx.
  rewrite <- Hs in Ht, Hx. destruct (StProperties.C41_pages_within_limits _ ht l Hz Hh He Hl) as (cur & Hc & Hlim).
  unfold StProperties.st_after in Hc. rewrite <- Ht in Hc. exists cur. split; [exact Hc|]. intros p Hp. split.
  - destruct (Hlim p Hp) as [H1 H2]. destruct l; [exact H1|]. split; [exact H1|exact H2].
  - apply Hx. exists p. by rewrite Hc, Hp.
Qed.
Print Assumptions C129_storage.

Theorem C129_messages :
  forall d s h sch loc block, reached d s h ->
  len (get_messages (r_mg (deployed d)) (rs_mg s) sch loc block) <= 65536
  /\ forall r src, r ∈ get_messages (r_mg (deployed d)) (rs_mg s) sch loc block -> mr_source r = Some src ->
       exists pl, mr_payload r = Some pl /\ len pl <= 3072.
Proof.
  intros d s h sch loc block [(b & mm & items & v & _ & Hs) Hr].
  destruct (RtProperties.C109_projection (deployed d) b mm v h Hr) as (_ & _ & _ & _ & (hg & Hg & _) & _).
  assert (g_max (r_mg (deployed d)) <= u32_max) as Hm by (vm_compute; discriminate).
  rewrite <- Hs in Hg. rewrite Hg. split; [exact (MgProperties.C60_at_most_65536 _ hg sch loc block Hm)|].
  intros r src Hx Hsrc. destruct (MgProperties.C63_attribution _ hg sch loc block r Hm Hx) as (h1 & h2 & env & who & c & _ & _ & Hok & _ & _ & _ & Hp).
  destruct (Hp src Hsrc) as (bh & pl & -> & Hpl & _). exists pl. split; [exact Hpl|].
  apply (MgProperties.C105_accepted_iff _ env h1 (Signed who) _ Hm) in Hok.
  destruct Hok as (w & m & info & _ & _ & _ & _ & Hl & _). exact Hl.
Qed.
Print Assumptions C129_messages.

Theorem C129_capacity :
  forall d s h, reached d s h ->
  (forall a, len (CapSpec.chunks (rs_cap s) a) <= 4
     /\ (cs_staking (rs_cap s) !! a = None \/ 1000000 <= active (rs_cap s) a)
     /\ CapSpec.frozen (rs_cap s) a = active (rs_cap s) a + unlocking (rs_cap s) a)
  /\ (forall m, remaining (rs_cap s) m <= CapSpec.issued (rs_cap s) m
     /\ (is_Some (cs_cap (rs_cap s) !! m) -> is_registered_provider (rs_msa s) m = true)).
Proof.
  intros d s h [(b & mm & items & v & _ & Hs) Hr].
  destruct (RtProperties.C109_projection (deployed d) b mm v h Hr) as (_ & _ & _ & _ & _ & (hc & Hc & _) & _).
  pose proof (RtMoreProperties.C113_capacity_of_providers (deployed d) b mm v h) as Hp. cbn zeta in Hp. rewrite <- Hs in Hc, Hp.
  rewrite Hc in *. split; [intros a|intros m].
  - split; [exact (CapProperties.C23_unlocking_list_bounded _ hc a)|]. split; [|exact (CapProperties.C20_frozen_is_stake_plus_unlocking _ hc a)].
    destruct (CapProperties.C26_no_dust_stakes (r_cap (deployed d)) hc a) as [H|[H _]]; [by left|right; exact H].
  - split; [exact (CapProperties.C24_remaining_at_most_issued _ hc m)|]. exact (Hp m).
Qed.
Print Assumptions C129_capacity.

Theorem C129_vesting :
  forall d s h a, reached d s h ->
  len (t_schedules (rs_tr s) a) <= 50 /\ Forall valid_sched (t_schedules (rs_tr s) a)
  /\ forall t, rs_relay s <= t ->
       unreleased_of (rs_tr s) a t <= vesting_frozen (rs_tr s) a /\ vesting_frozen (rs_tr s) a <= balance s a.
Proof.
  intros d s h a [(b & mm & items & v & Hv & Hs) Hr].
  destruct (RtProperties.C109_projection (deployed d) b mm v h Hr) as (_ & _ & _ & _ & _ & _ & (hr & Hx & Ht & _)).
  pose proof (RtProperties.C110_vesting_tokens_stay (deployed d) b mm items v h a) as Hy. cbn zeta in Hy. rewrite <- Hs in Hx, Hy.
  destruct (TrProperties.C34_schedules_bounded (r_tr (deployed d)) b items v hr a Hv Ht) as [H1 H2]. rewrite <- Hx in H1, H2.
  split; [exact H1|]. split; [exact H2|]. intros t. exact (Hy t Hv Hr).
Qed.
Print Assumptions C129_vesting.

(** No account holds less than the existential deposit, or more than fits a
    balance, if none does at the start. *)
Theorem C129_accounts :
  forall d b mm v h a x, (forall a x, b !! a = Some x -> 1000000 <= x <= u128_max) ->
  rs_bal (rt_run (deployed d) (rt_start b mm v) h) !! a = Some x -> 1000000 <= x <= u128_max.
Proof. intros d b mm v h a x Hb. exact (no_dust_run (deployed d) h (rt_start b mm v) Hb a x). Qed.
Print Assumptions C129_accounts.

(** ** A history of the deployed chain. [1] holds 100 tokens of 10^8 and [5] one;
    the council makes key 1 a provider, who stakes, 5 creates MSA 2 and delegates schema 1
    to 1, claims a handle through 1, and stores a page; 1 posts a message. *)
Definition open_ex : Open :=
  {| d_mainnet := true; d_verify := fun f k _ => f mod 1000 =? k; d_blake := StProperties.pad 16;
     d_unicode := HProperties.toy_un; d_float_ok := fun _ => true; d_multibase := fun _ _ => None;
     d_fee := fun c _ tip => if is_pays_no_call c then 0 else 1000 + tip; d_multi := fun who _ => 1000 + who; d_council := fun _ _ => false |}.
Definition bal_ex : gmap N N := <[1 := 10000000000]> (<[5 := 100000000]> ∅).
(** {"a": 1} *)
Definition model_ex : list N := [123; 34; 97; 34; 58; 32; 49; 125].
Definition tx_ex (who n : N) (c : RtCall) : RtStep := STx {| tx_who := who; tx_nonce := n; tx_call := c; tx_len := 100; tx_tip := 0 |}.
Definition history_ex : list RtStep :=
  [ SBlock 5; tx_ex 1 0 (RMsa Create); SGov (GProvider 1 [80]); tx_ex 1 1 (RCapacity (KStake 1 1000000000));
    tx_ex 5 0 (RMsa Create);
    SGov (GSchemas true (CreateSchemaViaGovernance 1 model_ex AvroBinary OnChain []));
    SGov (GSchemas true (CreateSchemaViaGovernance 1 model_ex AvroBinary Paginated []));
    tx_ex 1 2 (RMsa (GrantDelegation 5 5 {| ap_msa := 1; ap_schemas := [1]; ap_exp := 50 |}));
    tx_ex 1 3 (RMessages (AddOnchainMessage None 1 [7; 7]));
    tx_ex 1 4 (RHandles (ClaimHandle 5 5 {| hp_base := HProperties.foo; hp_exp := 50 |}));
    tx_ex 5 1 (RStorage (UpsertPage 2 2 0 0 [8]));
    tx_ex 1 5 (RTime (VTransfer 5 {| TrModel.sc_start := 10; TrModel.sc_period := 5; TrModel.sc_count := 4; TrModel.sc_per := 1000000 |})) ].
Definition state_ex : RtState := rt_run (deployed open_ex) (rt_start bal_ex 65500 (tr_initial bal_ex)) history_ex.
Example C129_reached : blake_ok (d_blake open_ex) /\ reached open_ex state_ex history_ex /\ all_plain history_ex.
Proof.
  split; [destruct (StProperties.toy_ok (fun _ _ _ => true)) as (_ & (H1 & H2 & _) & _); split; [exact H1|exact H2]|].
  split; [|repeat constructor]. split; [|vm_compute; repeat split; discriminate].
  exists bal_ex, 65500, [], (tr_initial bal_ex). split; reflexivity.
Qed.
Definition observed_ex :=
  (map_to_list (ms_keys (rs_msa state_ex)), map_to_list (ms_prov (rs_msa state_ex)), map_to_list (rs_bal state_ex),
   (ScModel.sc_count (rs_sc state_ex), remaining (rs_cap state_ex) 1, len (t_schedules (rs_tr state_ex) 5))).
Example C129_observed :
  observed_ex = ([(1, 1); (5, 2)], [(1, [80])], [(1, 9995994000); (5, 103998000)], (2, 20000000, 1))
  /\ is_Some (ms_deleg (rs_msa state_ex) !! (2, 1))
  /\ read (r_st (deployed open_ex)) (rs_st state_ex) (PageLoc 2 2 0) = Ok (Some {| pg_nonce := 1; pg_data := [8] |})
  /\ map mr_payload (get_messages (r_mg (deployed open_ex)) (rs_mg state_ex) 1 OnChain 1) = [Some [7; 7]]
  /\ option_map hr_suffix (get_handle_for_msa (r_h (deployed open_ex)) (rs_h state_ex) 2) = Some 86.
Proof.
  split; [vm_compute; reflexivity|]. split; [vm_compute; eauto|]. split; [vm_compute; reflexivity|]. split; vm_compute; reflexivity.
Qed.

(** Without the condition that no call is wrapped, the limit on keys fails: key 1
    has 25 keys on its MSA; it deletes the key of MSA 2 in a batch, which lowers
    the count of its own MSA; then it adds a 26th key. *)
Definition add_key_ex (n k : N) : RtStep := tx_ex 1 n (RMsa (AddPublicKey 1 (1000 * n + 1) (1000 * n + k) {| ak_msa := 1; ak_exp := 50; ak_key := k |})).
Definition exceed_h : list RtStep :=
  [ SBlock 5; tx_ex 1 0 (RMsa Create); tx_ex 5 0 (RMsa Create) ]
  ++ map (fun i => add_key_ex i (100 + i)) (map N.of_nat (seq 1 24))
  ++ [ add_key_ex 25 125; tx_ex 1 26 (RUtility Batch [ROther PSystem; RMsa (DeletePublicKey 5)]); add_key_ex 27 125 ].
Theorem C129_wrapped_calls_exceed_key_limit :
  exists s h l, reached open_ex s h /\ keys_listing (rs_msa s) 1 l /\ len l = 26.
Proof.
  exists (rt_run (deployed open_ex) (rt_start bal_ex 65500 (tr_initial bal_ex)) exceed_h), exceed_h.
  eexists. split; [|split; [apply MsaProofs.keys_listing_exists|vm_compute; reflexivity]].
  split; [|vm_compute; repeat split; discriminate].
  exists bal_ex, 65500, [], (tr_initial bal_ex). split; reflexivity.
Qed.
Print Assumptions C129_wrapped_calls_exceed_key_limit.
