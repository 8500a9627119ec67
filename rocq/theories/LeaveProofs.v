(** Proofs about leaving. *)
From Verif Require Import Prelude CommonTypes Sums SigModel MsaModel CapModel TrModel StModel HModel ScModel MgModel FeeModel RtModel.
From Verif Require Import MsaSpec HSpec RtSpec LimSpec LeaveSpec RtProofs RtProj LimProofs.
From Verif Require RtFinal RtFinal2 RtMore MsaProofs MsaDelegProofs HProofs HFinal RpcProofs.

Section leave.
Variable cfg : RtCfg.
Hypothesis Hfee : free_is_free (r_token_fee cfg).
Variables k m : N.

Definition mine (s : RtState) (c : RtCall) : Tx := {| tx_who := k; tx_nonce := nonce s k; tx_call := c; tx_len := 0; tx_tip := 0 |}.

(** The part of the state that free transactions leave alone. *)
Definition still (s s' : RtState) : Prop :=
  rs_block s' = rs_block s /\ rs_relay s' = rs_relay s /\ rs_bal s' = rs_bal s /\ ms_prov (rs_msa s') = ms_prov (rs_msa s).

Lemma prefix s c : is_pays_no_call c = true -> exists n,
  check_nonce s k (nonce s k) (negb (is_pays_no_call c)) = Ok (up_nonce_ s n)
  /\ withdraw_fee cfg (up_nonce_ s n) k c 0 0 = Ok (up_nonce_ s n).
Proof.
  intros Hc. unfold check_nonce. rewrite N.leb_refl.
  assert (E : forall s1, withdraw_fee cfg s1 k c 0 0 = Ok s1).
  { intros s1. assert (E : withdraw_fee cfg s1 k c 0 0 = withdraw_token_fee cfg s1 k c 0 0) by (by destruct c).
    rewrite E. unfold withdraw_token_fee. by rewrite (Hfee c 0 Hc). }
  destruct (_ || _).
  - eexists. split; [reflexivity|]. apply E.
  - exists (rs_nonce s). split; [by destruct s|]. apply E.
Qed.

Lemma free_msa s c x : is_pays_no_call (RMsa c) = true ->
  msa_validate (env_msa s) (rs_msa s) (Signed k) c = Ok tt ->
  msa_dispatch (r_msa cfg) (env_msa s) (rs_msa s) (Signed k) c = Ok x ->
  exists s', tx_apply cfg s (mine s (RMsa c)) = Ok (s', None) /\ rs_msa s' = x /\ rs_h s' = rs_h s
    /\ rs_block s' = rs_block s /\ rs_relay s' = rs_relay s /\ rs_bal s' = rs_bal s.
Proof.
  intros Hc Hv Hd. destruct (prefix s _ Hc) as (n & E1 & E2). unfold tx_apply. cbn [mine tx_who tx_nonce tx_call tx_len tx_tip].
  rewrite E1, E2. set (s1 := up_nonce_ s n).
  assert (F : free_use s1 k (RMsa c) = Ok tt).
  { cbn [free_use]. change (env_msa s1) with (env_msa s). change (rs_msa s1) with (rs_msa s). by rewrite Hv. }
  rewrite F. unfold run_call.
  assert (D : rt_dispatch cfg (RMsa c) (signed k) s1 = Ok (up_msa_ s1 x)).
  { cbn [rt_dispatch]. assert (B : base_filter (r_mainnet cfg) (RMsa c) && o_filter (signed k) (RMsa c) = true).
    { cbn [base_filter o_filter signed]. destruct c; try done; cbn; by rewrite andb_false_r. }
    rewrite B. change (env_msa s1) with (env_msa s). change (rs_msa s1) with (rs_msa s). cbn [o_who signed]. by rewrite Hd. }
  rewrite D. eexists. split; [reflexivity|]. done.
Qed.

Lemma free_handle s e d x :
  ms_keys (rs_msa s) !! k = Some m -> hs_name (rs_h s) !! m = Some (d, e) -> e <= rs_block s ->
  retire_handle (r_h cfg) (env_h s) (rs_h s) k = Ok x ->
  exists s', tx_apply cfg s (mine s (RHandles RetireHandle)) = Ok (s', None) /\ rs_h s' = x /\ rs_msa s' = rs_msa s
    /\ rs_block s' = rs_block s /\ rs_relay s' = rs_relay s /\ rs_bal s' = rs_bal s.
Proof.
  intros Hk Hn He Hd. destruct (prefix s (RHandles RetireHandle) eq_refl) as (n & E1 & E2). unfold tx_apply. cbn [mine tx_who tx_nonce tx_call tx_len tx_tip].
  rewrite E1, E2. set (s1 := up_nonce_ s n).
  assert (F : free_use s1 k (RHandles RetireHandle) = Ok tt).
  { cbn [free_use extension_ok]. change (he_msa_of (env_h s1) k) with (ms_keys (rs_msa s) !! k). rewrite Hk.
    change (hs_name (rs_h s1)) with (hs_name (rs_h s)). rewrite Hn. change (he_block (env_h s1)) with (rs_block s).
    apply N.leb_le in He. by rewrite He. }
  rewrite F. unfold run_call.
  assert (D : rt_dispatch cfg (RHandles RetireHandle) (signed k) s1 = Ok (up_h_ s1 x)).
  { cbn [rt_dispatch]. assert (B : base_filter (r_mainnet cfg) (RHandles RetireHandle) && o_filter (signed k) (RHandles RetireHandle) = true).
    { cbn. by rewrite andb_false_r. }
    rewrite B. cbn [h_dispatch o_who signed]. change (env_h s1) with (env_h s). change (rs_h s1) with (rs_h s). by rewrite Hd. }
  rewrite D. eexists. split; [reflexivity|]. done.
Qed.

(** A stretch of new blocks and successful free transactions. *)
Record trip (s : RtState) (h : list RtStep) : Prop := {
  t_steps : Forall (free_step k (rs_relay s)) h;
  t_all : free_successes cfg s h = transactions h;
  t_bal : rs_bal (rt_run cfg s h) = rs_bal s;
  t_relay : rs_relay (rt_run cfg s h) = rs_relay s;
  t_block : rs_block (rt_run cfg s h) = rs_block s + new_blocks h;
  t_prov : ms_prov (rs_msa (rt_run cfg s h)) = ms_prov (rs_msa s);
  t_other : forall k' m', m' <> m -> ms_keys (rs_msa (rt_run cfg s h)) !! k' = Some m' <-> ms_keys (rs_msa s) !! k' = Some m';
  t_none : forall k', ms_keys (rs_msa s) !! k' <> Some m -> ms_keys (rs_msa (rt_run cfg s h)) !! k' <> Some m
}.
Lemma trip_nil s : trip s [].
Proof. split; try done; cbn; lia. Qed.
Lemma run_app s h1 h2 : rt_run cfg s (h1 ++ h2) = rt_run cfg (rt_run cfg s h1) h2.
Proof. unfold rt_run. by rewrite fold_left_app. Qed.
Lemma successes_app h1 : forall s h2, free_successes cfg s (h1 ++ h2) = free_successes cfg s h1 + free_successes cfg (rt_run cfg s h1) h2.
Proof.
  induction h1 as [|x h1 IH]; intros s h2; [done|]. cbn [app free_successes].
  change (rt_run cfg s (x :: h1)) with (rt_run cfg (rt_step cfg s x) h1). rewrite IH. lia.
Qed.
Lemma trip_app s h1 h2 : trip s h1 -> trip (rt_run cfg s h1) h2 -> trip s (h1 ++ h2).
Proof.
  intros [A1 A2 A3 A4 A5 A6 A7 A8] [B1 B2 B3 B4 B5 B6 B7 B8]. split; rewrite ?run_app.
  - apply Forall_app. split; [done|]. by rewrite A4 in B1.
  - rewrite successes_app, A2, B2. unfold transactions. by rewrite map_app, sumN_app.
  - congruence.
  - congruence.
  - rewrite B5, A5. unfold new_blocks. rewrite map_app, sumN_app. lia.
  - congruence.
  - intros k' m' Hm. rewrite B7 by done. by apply A7.
  - intros k' Hk'. apply B8, A8, Hk'.
Qed.
Lemma trip_tx s t s' : tx_who t = k -> is_pays_no_call (tx_call t) = true -> tx_apply cfg s t = Ok (s', None) -> still s s' ->
  (forall k' m', m' <> m -> ms_keys (rs_msa s') !! k' = Some m' <-> ms_keys (rs_msa s) !! k' = Some m') ->
  (forall k', ms_keys (rs_msa s) !! k' <> Some m -> ms_keys (rs_msa s') !! k' <> Some m) ->
  trip s [STx t] /\ rt_run cfg s [STx t] = s'.
Proof.
  intros Hw Hc H (S1 & S2 & S3 & S4) Ho Hn. assert (E : rt_run cfg s [STx t] = s') by (cbn; by rewrite H). split; [|done].
  split; rewrite ?E; try done.
  - by repeat constructor.
  - cbn [free_successes]. rewrite H, Hc. done.
  - cbn. rewrite S1. lia.
Qed.
Lemma trip_wait s n : trip s (replicate n (SBlock (rs_relay s)))
  /\ let s' := rt_run cfg s (replicate n (SBlock (rs_relay s))) in
     rs_msa s' = rs_msa s /\ rs_h s' = rs_h s /\ rs_block s' = rs_block s + N.of_nat n /\ new_blocks (replicate n (SBlock (rs_relay s))) = N.of_nat n.
Proof.
  induction n as [|n IH].
  - split; [apply trip_nil|]. cbn. split; [done|]. split; [done|]. split; [lia|done].
  - assert (T1 : trip s [SBlock (rs_relay s)]).
    { split; try done; cbn; try lia. by repeat constructor. }
    replace (replicate (S n) (SBlock (rs_relay s))) with (replicate n (SBlock (rs_relay s)) ++ [SBlock (rs_relay s)]).
    2: { clear. induction n as [|n IH]; [done|]. cbn [replicate app]. f_equal. exact IH. }
    destruct IH as (T & E1 & E2 & E3 & E4). set (h := replicate n _) in *. rewrite run_app. split.
    + apply trip_app; [done|]. pose proof (t_relay _ _ T) as Er. split; try done; cbn; try lia.
      rewrite Er. by repeat constructor.
    + cbn. split; [done|]. split; [done|]. split; [lia|].
      unfold new_blocks in *. rewrite map_app, sumN_app, E4. cbn. lia.
Qed.

(** ** Delegations *)
Definition dbit (kp : N * N) (dg : Delegation) : N := if (kp.1 =? m) && (dg_revoked dg =? 0) then 1 else 0.
Definition dcount (st : MsaState) : N := msum dbit (ms_deleg st).
Lemma revoke_all : forall n s, N.to_nat (dcount (rs_msa s)) = n -> 0 < rs_block s -> controls (rs_msa s) k m ->
  exists h, trip s h /\ new_blocks h = 0
    /\ dcount (rs_msa (rt_run cfg s h)) = 0 /\ ms_keys (rs_msa (rt_run cfg s h)) = ms_keys (rs_msa s) /\ rs_h (rt_run cfg s h) = rs_h s.
Proof.
  induction n as [|n IH]; intros s Hn Hb Hk.
  - exists []. split; [apply trip_nil|]. split; [done|]. split; [cbn; lia|done].
  - destruct (msum_pos dbit (ms_deleg (rs_msa s))) as ((d & p) & dg & Hd & Hp).
    { fold (dcount (rs_msa s)). lia. }
    unfold dbit in Hp. cbn in Hp. destruct (N.eqb_spec d m) as [->|]; [|cbn in Hp; lia]. destruct (N.eqb_spec (dg_revoked dg) 0) as [E0|]; [|cbn in Hp; lia].
    unfold controls in Hk.
    set (x := set_deleg (rs_msa s) (<[(m, p) := {| dg_revoked := rs_block s; dg_perms := dg_perms dg |}]> (ms_deleg (rs_msa s)))).
    destruct (free_msa s (RevokeByDelegator p) x) as (s' & H & Ex & Eh & Eb & Er & El); [done| | |].
    { cbn. rewrite Hk. unfold validate_revocation, ensure_valid_delegation. rewrite Hd. by rewrite E0. }
    { cbn. rewrite Hk. unfold revoke_provider. rewrite Hd, E0. done. }
    assert (Ek : ms_keys (rs_msa s') = ms_keys (rs_msa s)) by (by rewrite Ex).
    destruct (trip_tx s (mine s (RMsa (RevokeByDelegator p))) s' eq_refl eq_refl H) as [T E].
    { split; [done|]. split; [done|]. split; [done|]. by rewrite Ex. }
    { intros k' m' _. by rewrite Ek. }
    { intros k'. by rewrite Ek. }
    destruct (IH s') as (h & T' & Hb' & D & K & Hh).
    { rewrite Ex. unfold dcount, x. cbn [ms_deleg set_deleg].
      pose proof (msum_insert dbit (ms_deleg (rs_msa s)) (m, p)
        {| dg_revoked := rs_block s; dg_perms := dg_perms dg |} dg Hd) as C.
      assert (F1 : dbit (m, p) dg = 1) by (unfold dbit; cbn; by rewrite N.eqb_refl, E0).
      assert (F2 : dbit (m, p) {| dg_revoked := rs_block s; dg_perms := dg_perms dg |} = 0).
      { unfold dbit. cbn. rewrite N.eqb_refl. destruct (N.eqb_spec (rs_block s) 0); [lia|done]. }
      unfold dcount in Hn. lia. }
    { lia. }
    { unfold controls. by rewrite Ek. }
    exists ([STx (mine s (RMsa (RevokeByDelegator p)))] ++ h). rewrite run_app, E. split; [apply trip_app; [done|by rewrite E]|].
    split; [unfold new_blocks in *; rewrite map_app, sumN_app, Hb'; done|]. split; [done|]. split; congruence.
Qed.

(** ** Keys *)
Definition kbit (k' m' : N) : N := if (m' =? m) && negb (k' =? k) then 1 else 0.
Definition kcount (st : MsaState) : N := msum kbit (ms_keys st).
Lemma delete_all : forall n s, N.to_nat (kcount (rs_msa s)) = n -> controls (rs_msa s) k m ->
  exists h, trip s h /\ new_blocks h = 0
    /\ kcount (rs_msa (rt_run cfg s h)) = 0 /\ controls (rs_msa (rt_run cfg s h)) k m
    /\ ms_deleg (rs_msa (rt_run cfg s h)) = ms_deleg (rs_msa s) /\ rs_h (rt_run cfg s h) = rs_h s.
Proof.
  induction n as [|n IH]; intros s Hn Hk.
  - exists []. split; [apply trip_nil|]. split; [done|]. split; [cbn; lia|done].
  - destruct (msum_pos kbit (ms_keys (rs_msa s))) as (k' & m' & Hd & Hp).
    { fold (kcount (rs_msa s)). lia. }
    unfold kbit in Hp. destruct (N.eqb_spec m' m) as [->|]; [|cbn in Hp; lia]. destruct (N.eqb_spec k' k) as [|Hne]; [cbn in Hp; lia|].
    unfold controls in *.
    destruct (delete_key_for_msa (rs_msa s) m k') as [y|] eqn:Ey; [|unfold delete_key_for_msa in Ey; by rewrite Hd in Ey].
    assert (Fy : ms_keys y = delete k' (ms_keys (rs_msa s)) /\ ms_deleg y = ms_deleg (rs_msa s) /\ ms_prov y = ms_prov (rs_msa s)).
    { unfold delete_key_for_msa in Ey. rewrite Hd in Ey. by injection Ey as <-. }
    destruct Fy as (Fk & Fd & Fp).
    destruct (free_msa s (DeletePublicKey k') (add_log y (rs_block s) (EvKeyDeleted m k'))) as (s' & H & Ex & Eh & Eb & Er & El); [done| | |].
    { cbn. unfold validate_key_delete. destruct (N.eqb_spec k k') as [|_]; [congruence|]. cbn. rewrite Hk, Hd, N.eqb_refl. done. }
    { cbn. rewrite Hk, Ey. done. }
    assert (Ek : ms_keys (rs_msa s') = delete k' (ms_keys (rs_msa s))) by (by rewrite Ex).
    destruct (trip_tx s (mine s (RMsa (DeletePublicKey k'))) s' eq_refl eq_refl H) as [T E].
    { split; [done|]. split; [done|]. split; [done|]. by rewrite Ex. }
    { intros k2 m2 Hm2. rewrite Ek. destruct (decide (k2 = k')) as [->|]; [rewrite lookup_delete, Hd; split; congruence|by rewrite lookup_delete_ne]. }
    { intros k2 Hk2. rewrite Ek. destruct (decide (k2 = k')) as [->|]; [by rewrite lookup_delete|by rewrite lookup_delete_ne]. }
    destruct (IH s') as (h & T' & Hb' & D & K & Hde & Hh).
    { unfold kcount. rewrite Ek.
      pose proof (msum_delete kbit (ms_keys (rs_msa s)) k' m Hd) as C.
      assert (F1 : kbit k' m = 1) by (unfold kbit; rewrite N.eqb_refl; by destruct (N.eqb_spec k' k)).
      unfold kcount in Hn. lia. }
    { rewrite Ek. by rewrite lookup_delete_ne. }
    exists ([STx (mine s (RMsa (DeletePublicKey k')))] ++ h). rewrite run_app, E. split; [apply trip_app; [done|by rewrite E]|].
    split; [unfold new_blocks in *; rewrite map_app, sumN_app, Hb'; done|]. split; [done|]. split; [done|].
    split; [|congruence]. rewrite Hde, Ex. exact Fd.
Qed.

(** ** Histories *)
Lemma relays_app h1 : forall s h2, relays_from (rs_relay s) h1 -> relays_from (rs_relay (rt_run cfg s h1)) h2 -> relays_from (rs_relay s) (h1 ++ h2).
Proof.
  induction h1 as [|x h1 IH]; intros s h2 H1 H2; [done|].
  change (rt_run cfg s (x :: h1)) with (rt_run cfg (rt_step cfg s x) h1) in H2. cbn [app].
  destruct x as [r|t|p|c]; cbn [relays_from] in *.
  - destruct H1 as [H0 H1]. split; [done|]. exact (IH (next_block s r) h2 H1 H2).
  - rewrite <- (proj1 (step_relay cfg (STx t) s ltac:(done))) in *. by apply IH.
  - rewrite <- (proj1 (step_relay cfg (SPasskey p) s ltac:(done))) in *. by apply IH.
  - rewrite <- (proj1 (step_relay cfg (SGov c) s ltac:(done))) in *. by apply IH.
Qed.
Lemma trip_relays r h : Forall (free_step k r) h -> relays_from r h.
Proof. induction 1 as [|x h Hx _ IH]; [done|]. destruct x; cbn in *; try done. subst. split; [lia|done]. Qed.
Lemma trip_plain r h : Forall (free_step k r) h -> all_plain h.
Proof.
  intros H. eapply Forall_impl; [exact H|]. intros x Hx. destruct x as [| t| |]; cbn in *; try done.
  destruct Hx as [_ Hx]. by destruct (tx_call t).
Qed.

(** ** Handles *)
Hypothesis Hrng : rng_ok (h_rng (r_h cfg)).
Hypothesis Hrange : range_ok (r_h cfg).

Definition exps (b : N) (st : HState) : Prop := forall m d e, hs_name st !! m = Some (d, e) -> e < b + h_window (r_h cfg).
Lemma claim_exp st m0 p st' d : do_claim (r_h cfg) st m0 p = Ok (st', d) -> exists d', hs_name st' = <[m0 := (d', hp_exp p)]> (hs_name st).
Proof.
  unfold do_claim. intros H. repeat match type of H with
  | context [match ?x with _ => _ end] => destruct x; try done
  end. injection H as <- <-. eauto.
Qed.
Lemma checks_exp env kk f p m0 : claim_checks (r_h cfg) env kk f p = Ok m0 -> hp_exp p < he_block env + h_window (r_h cfg).
Proof.
  unfold claim_checks. intros H. destruct (verify_max_handle_byte_length _); [|done]. destruct (he_msa_of env kk); [|done].
  destruct (verify_signature_mortality _ _ _) eqn:E; [|done]. clear H. unfold verify_signature_mortality in E.
  destruct (N.ltb_spec (hp_exp p) (wrap_add u32_max (he_block env) (h_window (r_h cfg)))) as [L|]; [|done].
  unfold wrap_add in L. pose proof (N.mod_le (he_block env + h_window (r_h cfg)) (u32_max + 1) ltac:(done)). lia.
Qed.
Lemma exps_step b st x : he_block (hx_env x) <= b -> exps b st -> exps b (h_step (r_h cfg) st x).
Proof.
  intros Hb P. unfold h_step. destruct (h_apply _ _ _) as [st'|] eqn:E; [|done]. apply HProofs.apply_dispatch in E.
  unfold h_dispatch in E. destruct (hx_origin x) as [who|]; [|done]. destruct (hx_call x) as [kk f p| |kk f p].
  - unfold claim_handle in E. destruct (claim_checks _ _ _ _ _) as [m0|] eqn:Ec; [|done]. apply checks_exp in Ec.
    destruct (do_claim _ _ _ _) as [[s1 d]|] eqn:Ed; [|done]. injection E as <-. apply claim_exp in Ed as (d' & Ed).
    intros m1 d1 e1 H. cbn in H. rewrite Ed in H. apply lookup_insert_Some in H as [[_ [= _ <-]]|[_ H]]; [lia|by eapply P].
  - unfold retire_handle in E. destruct (he_msa_of _ _) as [m0|]; [|done].
    destruct (do_retire _ _ _) as [[s1 d]|] eqn:Er; [|done]. injection E as <-. apply retire_name in Er as (v & _ & Er).
    intros m1 d1 e1 H. cbn in H. rewrite Er in H. apply lookup_delete_Some in H as [_ H]. by eapply P.
  - unfold change_handle in E. destruct (claim_checks _ _ _ _ _) as [m0|] eqn:Ec; [|done]. apply checks_exp in Ec.
    destruct (hs_name st !! m0); [|done]. destruct (do_retire _ _ _) as [[s1 d]|] eqn:Er; [|done].
    destruct (do_claim _ _ _ _) as [[s2 d2]|] eqn:Ed; [|done]. injection E as <-.
    apply claim_exp in Ed as (d' & Ed). apply retire_name in Er as (v & _ & Er).
    intros m1 d1 e1 H. cbn in H. rewrite Ed in H. apply lookup_insert_Some in H as [[_ [= _ <-]]|[_ H]]; [lia|].
    cbn in H. rewrite Er in H. apply lookup_delete_Some in H as [_ H]. by eapply P.
Qed.
Lemma exps_run b hh : forall st, Forall (fun x => he_block (hx_env x) <= b) hh -> exps b st -> exps b (h_run (r_h cfg) st hh).
Proof.
  unfold h_run. induction hh as [|x hh IH]; intros st F P; [done|]. inversion F; subst. cbn. apply IH; [done|]. by apply exps_step.
Qed.

Lemma leave_lemma b mm v h : relays_from 0 h -> all_plain h -> 1 <= h_window (r_h cfg) ->
  let s := rt_run cfg (rt_start b mm v) h in
  0 < rs_block s -> controls (rs_msa s) k m -> ms_prov (rs_msa s) !! m = None ->
  exists h', trip s h' /\ new_blocks h' <= h_window (r_h cfg) /\ (forall k', ~ controls (rs_msa (rt_run cfg s h')) k' m)
    /\ hs_name (rs_h (rt_run cfg s h')) !! m = None.
Proof.
  intros Hr Hp Hw s Hb Hk Hnp.
  assert (Hist : forall h', trip s h' -> relays_from 0 (h ++ h') /\ all_plain (h ++ h') /\ rt_run cfg s h' = rt_run cfg (rt_start b mm v) (h ++ h')).
  { intros h' T. split; [|split].
    - exact (relays_app h (rt_start b mm v) h' Hr (trip_relays _ _ (t_steps _ _ T))).
    - apply Forall_app. split; [exact Hp|]. exact (trip_plain _ _ (t_steps _ _ T)).
    - by rewrite run_app. }
  (* delegations *)
  destruct (revoke_all _ s eq_refl Hb Hk) as (h1 & T1 & B1 & D1 & K1 & N1). set (s1 := rt_run cfg s h1) in *.
  destruct (Hist _ T1) as (Hr1 & _ & Es1). fold s1 in Es1.
  assert (P1 : MsaDelegProofs.past_inv (rs_block s1) (rs_msa s1)) by (rewrite Es1; by apply RpcProofs.ends_past).
  assert (X1 : exps (rs_block s1) (rs_h s1)).
  { destruct (RtFinal2.projection_lemma cfg b mm v (h ++ h1) Hr1) as (_ & _ & (hh & Hh & Hhb & _) & _). rewrite <- Es1 in Hh, Hhb.
    rewrite Hh. apply exps_run; [done|]. intros ? ? ? H. done. }
  (* wait *)
  set (wait := match hs_name (rs_h s1) !! m with Some (_, e) => N.max 1 (e - rs_block s1) | None => 1 end).
  assert (Hwait : 1 <= wait <= h_window (r_h cfg)).
  { unfold wait. destruct (hs_name (rs_h s1) !! m) as [[d e]|] eqn:E; [|lia]. apply X1 in E. lia. }
  destruct (trip_wait s1 (N.to_nat wait)) as (T2 & M2 & N2 & Bl2 & Nb2). set (h2 := replicate _ _) in *. set (s2 := rt_run cfg s1 h2) in *.
  rewrite N2Nat.id in Bl2, Nb2.
  pose proof (trip_app _ _ _ T1 T2) as T12. destruct (Hist _ T12) as (Hr2 & _ & Es2). rewrite run_app in Es2. fold s1 s2 in Es2.
  assert (K2 : controls (rs_msa s2) k m) by (unfold controls in *; by rewrite M2, K1).
  (* handle *)
  assert (H3 : exists h3, trip s2 h3 /\ new_blocks h3 = 0 /\ rs_msa (rt_run cfg s2 h3) = rs_msa s2 /\ hs_name (rs_h (rt_run cfg s2 h3)) !! m = None).
  { destruct (hs_name (rs_h s2) !! m) as [[d e]|] eqn:En; [|exists []; split; [apply trip_nil|done]].
    assert (I : HProofs.hinv (r_h cfg) (rs_h s2)).
    { destruct (RtFinal2.projection_lemma cfg b mm v _ Hr2) as (_ & _ & (hh & Hh & _) & _). rewrite <- Es2 in Hh. rewrite Hh. by apply HProofs.run_inv. }
    assert (He : e <= rs_block s2).
    { rewrite N2 in En. unfold wait in Bl2. rewrite En in Bl2. lia. }
    assert (Ok : is_ok (h_dispatch (r_h cfg) (env_h s2) (rs_h s2) (Some k) RetireHandle) = true).
    { apply HFinal.dispatch_retire_iff; [done..|]. exists k, m. split; [done|]. split; [exact K2|]. rewrite HFinal.get_handle_none by done. congruence. }
    cbn [h_dispatch] in Ok. destruct (retire_handle _ _ _ _) as [x|] eqn:Ex; [|done].
    destruct (free_handle s2 e d x K2 En He Ex) as (s3 & H & Eh & Em & Eb & Er & El).
    destruct (trip_tx s2 (mine s2 (RHandles RetireHandle)) s3 eq_refl eq_refl H) as [T E].
    { split; [done|]. split; [done|]. split; [done|]. by rewrite Em. }
    { intros k' m' _. by rewrite Em. }
    { intros k'. by rewrite Em. }
    exists [STx (mine s2 (RHandles RetireHandle))]. rewrite E. split; [done|]. split; [done|]. split; [done|]. rewrite Eh.
    unfold retire_handle in Ex. change (he_msa_of (env_h s2) k) with (ms_keys (rs_msa s2) !! k) in Ex. unfold controls in K2. rewrite K2 in Ex.
    destruct (do_retire _ _ _) as [[y dd]|] eqn:Ed; [|done]. injection Ex as <-. apply retire_name in Ed as (? & _ & Ed). cbn. rewrite Ed. apply lookup_delete. }
  destruct H3 as (h3 & T3 & B3 & M3 & N3). set (s3 := rt_run cfg s2 h3) in *.
  (* keys *)
  destruct (delete_all _ s3 eq_refl ltac:(unfold controls in *; by rewrite M3)) as (h4 & T4 & B4 & C4 & K4 & D4 & N4). set (s4 := rt_run cfg s3 h4) in *.
  assert (T14 : trip s ((h1 ++ h2) ++ h3 ++ h4)).
  { apply trip_app; [exact T12|]. rewrite run_app. fold s1 s2. by apply trip_app. }
  destruct (Hist _ T14) as (Hr4 & Hp4 & Es4). rewrite run_app in Es4. rewrite (run_app s) in Es4. fold s1 s2 in Es4. rewrite run_app in Es4. fold s3 s4 in Es4.
  (* retire *)
  assert (Only : forall k', ms_keys (rs_msa s4) !! k' = Some m -> k' = k).
  { intros k' Hk'. destruct (decide (k' = k)) as [|Hne]; [done|].
    pose proof (msum_lookup_le kbit _ _ _ Hk') as L. fold (kcount (rs_msa s4)) in L.
    rewrite C4 in L. unfold kbit in L. rewrite N.eqb_refl in L. destruct (N.eqb_spec k' k); [done|]. cbn in L. lia. }
  assert (Cnt : key_count (rs_msa s4) m = 1).
  { destruct (RtFinal2.projection_lemma cfg b mm v _ Hr4) as ((hm & Hm & _ & _ & _ & _ & Htop) & _). rewrite <- Es4 in Hm. rewrite Hm.
    rewrite (proj1 (MsaProofs.count_inv_run (r_msa cfg) hm (Htop Hp4) m)). rewrite <- Hm.
    assert (Ek : MsaProofs.kmap (ms_keys (rs_msa s4)) m = {[k := m]}).
    { apply map_eq. intros k'. unfold MsaProofs.kmap. destruct (decide (k' = k)) as [->|Hne].
      - rewrite lookup_singleton. apply map_filter_lookup_Some. by split.
      - rewrite lookup_singleton_ne by done. apply map_filter_lookup_None. right. intros m' Hm' E. cbn in E. subst. by apply Only in Hm'. }
    rewrite Ek. by rewrite map_size_singleton. }
  assert (Bl4 : rs_block s1 < rs_block s4).
  { pose proof (t_block _ _ T3) as E3. pose proof (t_block _ _ T4) as E4. fold s3 in E3. fold s4 in E4. lia. }
  assert (Dg : ms_deleg (rs_msa s4) = ms_deleg (rs_msa s1)) by (rewrite D4, M3, M2; done).
  assert (Act : has_active_delegations (env_msa s4) (rs_msa s4) m = false).
  { unfold has_active_delegations. apply not_true_iff_false. rewrite existsb_exists. intros (((d & p) & dg) & Hin & Hx).
    apply elem_of_list_In, elem_of_map_to_list in Hin. cbn in Hx. apply andb_true_iff in Hx as [Hx1 Hx2]. apply N.eqb_eq in Hx1 as ->.
    unfold ensure_valid_delegation in Hx2. rewrite Hin in Hx2. rewrite Dg in Hin.
    destruct (N.eqb_spec (dg_revoked dg) 0) as [E0|E0].
    - pose proof (msum_lookup_le dbit _ _ _ Hin) as L.
      fold (dcount (rs_msa s1)) in L. rewrite D1 in L. unfold dbit in L. cbn in L. rewrite N.eqb_refl, E0 in L. change (0 =? 0) with true in L. cbn in L. lia.
    - destruct (P1 _ _ Hin) as [L _]. cbn in Hx2. destruct (N.leb_spec (rs_block s4) (dg_revoked dg)); [lia|done]. }
  unfold controls in K4.
  destruct (delete_key_for_msa (rs_msa s4) m k) as [y|] eqn:Ey; [|unfold delete_key_for_msa in Ey; by rewrite K4 in Ey].
  assert (Fy : ms_keys y = delete k (ms_keys (rs_msa s4)) /\ ms_prov y = ms_prov (rs_msa s4)).
  { unfold delete_key_for_msa in Ey. rewrite K4 in Ey. by injection Ey as <-. }
  destruct Fy as (Fk & Fp).
  destruct (free_msa s4 RetireMsa (add_log y (rs_block s4) (EvKeyDeleted m k))) as (s5 & H5 & Ex & Eh & Eb & Er & El); [done| | |].
  { cbn [msa_validate]. unfold ensure_msa_can_retire. rewrite K4.
    assert (Pv : is_registered_provider (rs_msa s4) m = false).
    { unfold is_registered_provider. pose proof (t_prov _ _ T14) as E. rewrite run_app in E. rewrite (run_app s) in E. fold s1 s2 in E. rewrite run_app in E. fold s3 s4 in E.
      rewrite E, Hnp. done. }
    rewrite Pv. change (e_has_handle (env_msa s4) m) with (match hs_name (rs_h s4) !! m with Some _ => true | None => false end).
    rewrite N4, N3, Cnt, Act. done. }
  { cbn [msa_dispatch signed_]. rewrite K4, Ey. done. }
  assert (Ek : ms_keys (rs_msa s5) = delete k (ms_keys (rs_msa s4))) by (by rewrite Ex).
  destruct (trip_tx s4 (mine s4 (RMsa RetireMsa)) s5 eq_refl eq_refl H5) as [T5 E5].
  { split; [done|]. split; [done|]. split; [done|]. by rewrite Ex. }
  { intros k2 m2 Hm2. rewrite Ek. destruct (decide (k2 = k)) as [->|]; [rewrite lookup_delete, K4; split; congruence|by rewrite lookup_delete_ne]. }
  { intros k2 Hk2. rewrite Ek. destruct (decide (k2 = k)) as [->|]; [by rewrite lookup_delete|by rewrite lookup_delete_ne]. }
  set (h5 := [STx (mine s4 (RMsa RetireMsa))]) in *.
  assert (E4 : rt_run cfg s ((h1 ++ h2) ++ h3 ++ h4) = s4) by (rewrite run_app, (run_app s), run_app; done).
  exists (((h1 ++ h2) ++ h3 ++ h4) ++ h5). rewrite (run_app s), E4, E5. split; [apply trip_app; [done|by rewrite E4]|].
  split; [|split].
  - unfold new_blocks in *. rewrite !map_app, !sumN_app, B1, Nb2, B3, B4. cbn. lia.
  - intros k' Hk'. unfold controls in Hk'. rewrite Ek in Hk'. apply lookup_delete_Some in Hk' as [Hne Hk']. apply Only in Hk'. congruence.
  - rewrite Eh, N4. exact N3.
Qed.
End leave.

(** ** Locked in: a count that is one too high stays so. *)
Section locked.
Variable cfg : RtCfg.
Variable m : N.

Definition locked (st : MsaState) : Prop :=
  m <= ms_max st /\ (1 <= size (MsaProofs.kmap (ms_keys st) m))%nat
  /\ key_count st m = N.of_nat (size (MsaProofs.kmap (ms_keys st) m)) + 1 /\ key_count st m <= u8_max.

Lemma two_keys (ks : gmap N N) k1 k2 : ks !! k1 = Some m -> ks !! k2 = Some m -> k1 <> k2 -> (2 <= size (MsaProofs.kmap ks m))%nat.
Proof.
  intros H1 H2 Hne. rewrite (MsaProofs.kmap_delete_eq ks k1 m H1).
  assert (H3 : delete k1 ks !! k2 = Some m) by (by rewrite lookup_delete_ne).
  rewrite (MsaProofs.kmap_delete_eq _ k2 m H3). lia.
Qed.

Lemma locked_step env st o call st' :
  locked st -> msa_validate env st o call = Ok tt -> msa_dispatch (r_msa cfg) env st o call = Ok st' -> locked st'.
Proof.
  intros (Hm & Hs & Hc & L8) Hv Hd. apply MsaProofs.dispatch_key_effect in Hd. unfold locked, key_count in *. destruct Hd.
  - rewrite H, H0, H1. done.
  - rewrite H5, H6, H2. rewrite lookup_insert_ne by lia. rewrite MsaProofs.kmap_insert_ne by (done || lia). split; [lia|done].
  - rewrite H8, H9, H5. destruct (decide (ak_msa p = m)) as [E|Hne].
    + rewrite E in *. rewrite lookup_insert. cbn [from_option id]. rewrite MsaProofs.kmap_insert_eq by done. unfold key_count in *. repeat split; lia.
    + rewrite lookup_insert_ne by done. rewrite MsaProofs.kmap_insert_ne by done. done.
  - subst o. destruct (MsaProofs.validate_del _ _ _ _ _ _ Hv H0 H1) as (Hk & Hdel & Hret). unfold controls in Hk, H0.
    rewrite H3, H4, H5. destruct (decide (m0 = m)) as [->|Hne].
    + assert (Hw : who <> key).
      { destruct H1 as [->|[-> ->]]; [by apply Hdel|]. destruct (Hret eq_refl) as (E & _). unfold key_count in E. lia. }
      pose proof (two_keys _ _ _ H0 Hk Hw) as L. pose proof (MsaProofs.kmap_delete_eq _ _ _ Hk) as E.
      destruct (ms_count st !! m) as [c|] eqn:Ec; cbn [from_option id] in *; [|lia].
      destruct (N.eqb_spec c 1); [lia|]. rewrite lookup_insert. cbn [from_option id]. unfold wrap_add.
      assert (W : (c + 255) mod (u8_max + 1) = c - 1).
      { unfold u8_max in *. replace (c + 255) with (c - 1 + 1 * (255 + 1)) by lia. rewrite N.mod_add by lia. apply N.mod_small. lia. }
      rewrite W. repeat split; lia.
    + rewrite (MsaProofs.kmap_delete_ne _ _ _ _ Hk Hne).
      assert (E : (match ms_count st !! m0 with Some c => if c =? 1 then delete m0 (ms_count st) else <[m0:=wrap_add u8_max c 255]> (ms_count st) | None => ms_count st end) !! m = ms_count st !! m).
      { destruct (ms_count st !! m0) as [c|]; [|done]. destruct (c =? 1); [by rewrite lookup_delete_ne|by rewrite lookup_insert_ne]. }
      rewrite E. done.
Qed.

Lemma locked_run s h : relays_from (rs_relay s) h -> all_plain h -> locked (rs_msa s) -> locked (rs_msa (rt_run cfg s h)).
Proof.
  intros Hr Hp. pose proof (run_micro_top cfg h s Hr Hp) as H. clear Hr Hp. induction H as [|x y z H _ IH]; [done|]. intros P. apply IH.
  destruct H as [o c w Hv H| | | | | | | | |]; try exact P.
  specialize (Hv eq_refl). destruct (msa_validate _ _ _ _) as [[]|] eqn:Ev; [|done]. eapply locked_step; eauto.
Qed.

Lemma locked_key st : locked st -> exists k, controls st k m.
Proof.
  intros (_ & Hs & _). destruct (map_choose (MsaProofs.kmap (ms_keys st) m)) as (k & v & E).
  { intros E. rewrite E, map_size_empty in Hs. lia. }
  apply map_filter_lookup_Some in E as [E Ev]. cbn in Ev. exists k. unfold controls. congruence.
Qed.

(** A listing of the keys that is one shorter than the stored count locks the MSA. *)
Lemma locked_listing st l : m <= ms_max st -> keys_listing st m l -> l <> [] -> key_count st m = len l + 1 -> key_count st m <= u8_max -> locked st.
Proof.
  intros Hm Hl Hn Hc H8. pose proof (MsaProofs.keys_listing_unique _ _ _ _ Hl (MsaProofs.keys_listing_exists st m)) as E.
  rewrite fmap_length in E. change (length l = size (MsaProofs.kmap (ms_keys st) m)) in E. unfold len in Hc. unfold locked. rewrite <- E. destruct l; [done|]. cbn [length] in *. repeat split; (done || lia).
Qed.

Lemma locked_in_lemma s l h :
  m <= ms_max (rs_msa s) -> keys_listing (rs_msa s) m l -> l <> [] -> key_count (rs_msa s) m = len l + 1 -> key_count (rs_msa s) m <= u8_max ->
  relays_from (rs_relay s) h -> all_plain h -> exists k, controls (rs_msa (rt_run cfg s h)) k m.
Proof. intros H1 H2 H3 H4 H5 H6 H7. apply locked_key, locked_run; [done|done|]. by eapply locked_listing. Qed.
End locked.
