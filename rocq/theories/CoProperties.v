(** C142, C143: what the council decides. *)
From Verif Require Import Prelude CommonTypes MsaModel TrModel ScModel RtModel CoModel CoSpec CoProofs DeployedProperties.

(** ** C142. On the main network providers, schemas and schema names are added by
    root or by the council. With how many of the council: [enough], [decided]. What
    is added is what was proposed. *)
Theorem C142_council_decides :
  forall cfg members prime rt h x, r_mainnet cfg = true ->
    let s0 := co_start members prime rt in
    let s := co_run cfg s0 h in
    let s' := co_step cfg s x in
    registry (k_rt s') <> registry (k_rt s) ->
    (exists c, x = KRoot c)
    \/ exists c n g, decided cfg s0 h x c n /\ enough c n (len (co_members (k_co s))) /\ governance_call c = Some g
         /\ k_rt s' = rt_step cfg (k_rt s) (SGov g).
Proof. exact registry_lemma. Qed.
Print Assumptions C142_council_decides.

(** A council of five, 11 to 15, with 11 as the prime member. Key 5 asks to be a
    provider and for a schema. *)
Definition council_ex : CoState := co_start [11; 12; 13; 14; 15] (Some 11) (rt_run (deployed open_ex) (rt_start bal_ex 65500 (tr_initial bal_ex)) [SBlock 5; tx_ex 5 0 (RMsa Create)]).
Definition schema_ex : ScCall := ProposeToCreateSchema model_ex AvroBinary OnChain [].
Definition schema_motion : CoCall := CoSchemas (CreateSchemaViaGovernance 5 model_ex AvroBinary OnChain []).
Definition provider_motion : CoCall := CoProvider 5 [80].
Definition ask_ex : list CoStep := [KOp (OProposeProvider 5 [80]); KOp (OProposeSchema 5 schema_ex)].
Definition seen_ex (h : list CoStep) :=
  let s := co_run (deployed open_ex) council_ex h in
  (map_to_list (ms_prov (rs_msa (k_rt s))), ScModel.sc_count (rs_sc (k_rt s)), len (co_motions (k_co s))).

(** One vote makes the provider, against those of the four others. Two of five do
    not make the schema, three do. *)
Definition one_vote : list CoStep := map (fun a => KOp (OVote a provider_motion 0 (a =? 15))) [11; 12; 13; 14; 15].
Definition two_votes : list CoStep := map (fun a => KOp (OVote a schema_motion 1 true)) [12; 13].
Example C142_instance :
  seen_ex (ask_ex ++ one_vote) = ([], 0, 2)
  /\ seen_ex (ask_ex ++ one_vote ++ [KOp (OClose provider_motion 0)]) = ([(1, [80])], 0, 1)
  /\ seen_ex (ask_ex ++ two_votes ++ [KOp (OClose schema_motion 1)]) = ([], 0, 2)
  /\ seen_ex (ask_ex ++ two_votes ++ [KOp (OVote 14 schema_motion 1 true); KOp (OClose schema_motion 1)]) = ([], 1, 1).
Proof. vm_compute. repeat split; reflexivity. Qed.

(** The rule about the prime member, at work: 11 alone is in favour of the schema, and
    after five days it is made. *)
Definition prime_h : list CoStep := ask_ex ++ [KOp (OVote 11 schema_motion 1 true)].
Lemma prime_obs :
  let s := co_run (deployed open_ex) council_ex prime_h in
  motion (co_motions (k_co s)) schema_motion = Some {| v_index := 1; v_threshold := 3; v_ayes := [11]; v_nays := []; v_end := 36001 |}
  /\ co_prime (k_co s) = Some 11 /\ len (co_members (k_co s)) = 5 /\ rs_block (k_rt s) = 1
  /\ ScModel.sc_count (match sc_dispatch (r_sc (deployed open_ex)) (rs_sc (k_rt s)) ScCouncil false (CreateSchemaViaGovernance 5 model_ex AvroBinary OnChain []) with
       | Ok x => x | Err _ => rs_sc (k_rt s) end) = 1.
Proof. vm_compute. repeat split; reflexivity. Qed.
Theorem C142_prime_alone :
  exists h, let s0 := council_ex in
    let s := co_run (deployed open_ex) s0 h in
    let s' := co_step (deployed open_ex) s (KOp (OClose schema_motion 1)) in
    in_favour (deployed open_ex) 1 s0 h = {[11]} /\ co_members (k_co s) = [11; 12; 13; 14; 15] /\ ScModel.sc_count (rs_sc (k_rt s')) = 1.
Proof.
  exists (prime_h ++ replicate (N.to_nat 36000) (KRt (SBlock 5))). cbv zeta. destruct prime_obs as (O1 & O2 & O3 & O4 & O5).
  pose proof (fun n => prime_alone (deployed open_ex) n [11; 12; 13; 14; 15] (Some 11) (k_rt council_ex) prime_h
    (CreateSchemaViaGovernance 5 model_ex AvroBinary OnChain [])
    {| v_index := 1; v_threshold := 3; v_ayes := [11]; v_nays := []; v_end := 36001 |} 11) as P.
  specialize (P (N.to_nat 36000)). rewrite N2Nat.id in P. revert P. generalize (N.to_nat 36000). intros n P. cbv zeta in P. change (co_start [11; 12; 13; 14; 15] (Some 11) (k_rt council_ex)) with council_ex in P.
  specialize (P O1 O2 eq_refl eq_refl). rewrite O3, O4 in P. cbn [v_end v_threshold v_index] in P.
  destruct P as (P1 & P2 & P3); [vm_compute; discriminate|split; vm_compute; discriminate|reflexivity|].
  split; [exact P1|]. split; [rewrite P2; vm_compute; reflexivity|]. change (CoSchemas (CreateSchemaViaGovernance 5 model_ex AvroBinary OnChain [])) with schema_motion in P3.
  rewrite P3. exact O5.
Qed.
Print Assumptions C142_prime_alone.

(** ** C143. A proposal to become a provider is carried out once anyone closes it and
    a member is in favour; the proposal of a schema or of a name, once more than half
    are, if the council is as large as when it was made. *)
Theorem C143_provider_partial :
  forall cfg members prime rt h i b seats who name,
    let s0 := co_start members prime rt in
    let s := co_run cfg s0 h in
    open_motion s (CoProvider who name) i -> made cfg i s0 h = Some (b, seats, KOp (OProposeProvider who name)) ->
    in_favour cfg i s0 h <> ∅ ->
    exists s', co_apply cfg s (OClose (CoProvider who name) i) = Ok s' /\ k_rt s' = rt_step cfg (k_rt s) (SGov (GProvider who name))
      /\ ~ open_motion s' (CoProvider who name) i.
Proof. exact close_provider. Qed.
Print Assumptions C143_provider_partial.

Theorem C143_schema_partial :
  forall cfg members prime rt h i b who q g,
    let s0 := co_start members prime rt in
    let s := co_run cfg s0 h in
    let seats := len (co_members (k_co s)) in
    for_council who q = Some g -> open_motion s (CoSchemas g) i -> made cfg i s0 h = Some (b, seats, KOp (OProposeSchema who q)) ->
    seats < 2 * N.of_nat (size (in_favour cfg i s0 h)) ->
    exists s', co_apply cfg s (OClose (CoSchemas g) i) = Ok s' /\ k_rt s' = rt_step cfg (k_rt s) (SGov (GSchemas false g))
      /\ ~ open_motion s' (CoSchemas g) i.
Proof. exact close_schema. Qed.
Print Assumptions C143_schema_partial.

Definition three_votes : list CoStep := ask_ex ++ two_votes ++ [KOp (OVote 14 schema_motion 1 true)].
Example C143_instance :
  for_council 5 schema_ex = Some (CreateSchemaViaGovernance 5 model_ex AvroBinary OnChain [])
  /\ open_motion (co_run (deployed open_ex) council_ex three_votes) schema_motion 1
  /\ made (deployed open_ex) 1 council_ex three_votes = Some (1, 5, KOp (OProposeSchema 5 schema_ex))
  /\ elements (in_favour (deployed open_ex) 1 council_ex three_votes) = [13; 12; 14]
  /\ made (deployed open_ex) 0 council_ex three_votes = Some (1, 5, KOp (OProposeProvider 5 [80]))
  /\ open_motion (co_run (deployed open_ex) council_ex (ask_ex ++ one_vote)) provider_motion 0
  /\ elements (in_favour (deployed open_ex) 0 council_ex (ask_ex ++ one_vote)) = [15].
Proof.
  split; [reflexivity|]. split; [eexists; split; vm_compute; reflexivity|]. split; [vm_compute; reflexivity|].
  split; [vm_compute; reflexivity|]. split; [vm_compute; reflexivity|]. split; [eexists; split; vm_compute; reflexivity|]. vm_compute; reflexivity.
Qed.

(** Not if the council grew meanwhile. Three members, two in favour; two members
    join. Anyone can now end the matter, although nobody is against and the five days
    are not over: the schema is not made, and the others have no chance to vote. *)
Definition grown_h : list CoStep :=
  [KOp (OSetMembers [11; 12; 13] None)] ++ ask_ex ++ two_votes ++ [KOp (OSetMembers [11; 12; 13; 14; 15] None)].
Theorem C143_closed_too_early_refuted :
  exists cfg members prime rt h i b seats who q g,
    let s0 := co_start members prime rt in
    let s := co_run cfg s0 h in
    let s' := co_step cfg s (KOp (OClose (CoSchemas g) i)) in
    for_council who q = Some g /\ open_motion s (CoSchemas g) i /\ made cfg i s0 h = Some (b, seats, KOp (OProposeSchema who q))
    /\ against cfg i s0 h = ∅ /\ rs_block (k_rt s) < b + 36000
    /\ motion (co_motions (k_co s')) (CoSchemas g) = None /\ registry (k_rt s') = registry (k_rt s).
Proof.
  exists (deployed open_ex), [11; 12; 13; 14; 15], (Some 11), (k_rt council_ex), grown_h, 1, 1, 3, 5, schema_ex, (CreateSchemaViaGovernance 5 model_ex AvroBinary OnChain []).
  cbv zeta. split; [reflexivity|]. split; [eexists; split; vm_compute; reflexivity|]. split; [vm_compute; reflexivity|].
  split; [apply leibniz_equiv, size_empty_iff; vm_compute; reflexivity|]. split; [vm_compute; reflexivity|]. split; vm_compute; reflexivity.
Qed.
Print Assumptions C143_closed_too_early_refuted.

(** At most 25 motions are open. *)
Theorem C143_motions_bounded :
  forall cfg members prime rt h, len (co_motions (k_co (co_run cfg (co_start members prime rt) h))) <= 25.
Proof. exact motions_bound. Qed.
Print Assumptions C143_motions_bounded.

(** So one key can crowd out all others, and the council itself: with 25 proposals
    under different names. *)
Definition crowd_h : list CoStep := map (fun n => KOp (OProposeProvider 5 [N.of_nat n])) (seq 0 25).
Theorem C143_crowded_out_refuted :
  exists cfg members prime rt h,
    let s := co_run cfg (co_start members prime rt) h in
    Forall (fun x => exists name, x = KOp (OProposeProvider 5 name)) h
    /\ (forall who q, is_ok (co_apply cfg s (OProposeSchema who q)) = false)
    /\ (forall who t c, 2 <= t -> is_ok (co_apply cfg s (OPropose who t c)) = false)
    /\ (forall who name, is_ok (co_apply cfg s (OProposeProvider who name)) = false).
Proof.
  exists (deployed open_ex), [11; 12; 13; 14; 15], (Some 11), (k_rt council_ex), crowd_h.
  assert (L : len (co_motions (k_co (co_run (deployed open_ex) (co_start [11; 12; 13; 14; 15] (Some 11) (k_rt council_ex)) crowd_h))) = 25) by (vm_compute; reflexivity).
  cbv zeta. generalize dependent (co_run (deployed open_ex) (co_start [11; 12; 13; 14; 15] (Some 11) (k_rt council_ex)) crowd_h). intros s L.
  assert (P : forall b t c, is_ok (propose_motion (k_co s) b t c) = false).
  { intros b t c. unfold propose_motion. destruct (motion _ _); [done|]. rewrite L. done. }
  split; [|split; [|split]].
  - unfold crowd_h. apply Forall_forall. intros x Hx. apply elem_of_list_fmap in Hx as (n & -> & _). eauto.
  - intros who q. unfold co_apply. destruct (sc_dispatch _ _ _ _ _) as [sc|]; [|done].
    specialize (P (rs_block (k_rt s)) (len (co_members (k_co s)) / 2 + 1)).
    destruct q; try done; (destruct (last _) as [[w c]|]; [|done]); specialize (P (CoSchemas c)); by destruct (propose_motion _ _ _ _).
  - intros who t c Ht. unfold co_apply. destruct (bool_decide _); [|done]. destruct (N.ltb_spec t 2); [lia|].
    specialize (P (rs_block (k_rt s)) t c). by destruct (propose_motion _ _ _ _).
  - intros who name. unfold co_apply. destruct (msa_dispatch _ _ _ _ _); [|done].
    specialize (P (rs_block (k_rt s)) 1 (CoProvider who name)). by destruct (propose_motion _ _ _ _).
Qed.
Print Assumptions C143_crowded_out_refuted.
