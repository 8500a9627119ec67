(** Property C144: nothing is published or stored in the name of an MSA without its
    consent. *)
From Verif Require Import Prelude CommonTypes SigModel MsaModel CapModel TrModel StModel HModel ScModel MgModel FeeModel RtModel.
From Verif Require Import MsaSpec StSpec RtSpec ConsentSpec ConsentProofs RtProperties.
From Verif Require MgSpec RtMoreProperties StProperties.

(** ** C144. Every message was posted by a call that took effect in its block, by a key
    of its provider. If it is in the name of another MSA, then this MSA had earlier signed
    a grant of its schema to the provider, and the grant was in force. *)
Theorem C144_messages :
  forall cfg b mm v h k sch i m, g_max (r_mg cfg) <= u32_max -> relays_from 0 h ->
  let s0 := rt_start b mm v in
  mg_messages (rs_mg (rt_run cfg s0 h)) !! (k, sch, i) = Some m ->
  exists before w after c, all_deeds cfg s0 h = before ++ w :: after
    /\ what w = RMessages c /\ MgSpec.call_schema c = sch /\ rs_block (at_ w) = k
    /\ controls (rs_msa (at_ w)) (by_ w) (ms_provider m)
    /\ forall d, ms_source m = Some d -> d = ms_provider m \/ with_permission cfg before w (ms_provider m) d sch.
Proof. exact consent_messages. Qed.
Print Assumptions C144_messages.

(** Whatever step changes what is stored at a location of an MSA: the change comes from a
    storage call on this location, which was sent by a key of the MSA, or carries a signature
    by one, or was sent by a key of a provider to which the MSA had earlier signed a grant of
    the schema that is still in force. *)
Theorem C144_pages :
  forall cfg b mm v h x l, sizes_ok (r_st cfg) -> hashes_ok (r_st cfg) -> g_max (r_mg cfg) <= u32_max ->
  relays_from 0 (h ++ [x]) -> loc_ok l ->
  let s0 := rt_start b mm v in
  let s := rt_run cfg s0 h in
  read (r_st cfg) (rs_st (rt_step cfg s x)) l <> read (r_st cfg) (rs_st s) l ->
  exists before w after c rq, step_deeds cfg s x = before ++ w :: after
    /\ what w = RStorage c /\ request (env_st (at_ w)) c = Some rq /\ rq_loc rq = l
    /\ (controls (rs_msa (at_ w)) (by_ w) (loc_msa l)
        \/ owner_signed (r_st cfg) (env_st (at_ w)) c (loc_msa l)
        \/ exists p, with_permission cfg (all_deeds cfg s0 h ++ before) w p (loc_msa l) (loc_schema l)).
Proof. exact consent_pages. Qed.
Print Assumptions C144_pages.

(** A deed is a call that took effect: in the state it met it is accepted. *)
Theorem C144_deeds_accepted :
  forall cfg b mm v h w, relays_from 0 h -> w ∈ all_deeds cfg (rt_start b mm v) h ->
  exists o s1, o_who o = by_ w /\ rt_dispatch cfg (what w) o (at_ w) = Ok s1.
Proof. exact consent_deeds. Qed.
Print Assumptions C144_deeds_accepted.

(** Provider 1 sponsors MSA 2, whose key 7 grants schema 1; key 5 creates MSA 3 and grants
    schema 2. In a batch the provider posts a message for MSA 2 and stores a page for MSA 3.
    Its attempts the other way round are refused. *)
Definition granted_h : list RtStep :=
  [ SBlock 5; send 1 0 (RMsa Create); send 1 1 (RMsa (CreateProvider [80]));
    SGov (GSchemas true (CreateSchemaViaGovernance 1 RtMoreProperties.model8 AvroBinary OnChain []));
    SGov (GSchemas true (CreateSchemaViaGovernance 1 RtMoreProperties.model8 AvroBinary Paginated []));
    send 1 2 (RMsa (CreateSponsored 7 7 {| ap_msa := 1; ap_schemas := [1]; ap_exp := 50 |}));
    send 5 0 (RMsa Create);
    send 1 3 (RMsa (GrantDelegation 5 5 {| ap_msa := 1; ap_schemas := [2]; ap_exp := 50 |}));
    send 1 4 (RMessages (AddOnchainMessage (Some 3) 1 [6])); send 1 5 (RStorage (UpsertPage 2 2 0 0 [6])) ].
Definition used_x : RtStep :=
  send 1 6 (RUtility Batch [RMessages (AddOnchainMessage (Some 2) 1 [7]); RStorage (UpsertPage 3 2 0 0 [9])]).
Lemma granted_run :
  let s := rt_run demo demo_start granted_h in
  map_to_list (mg_messages (rs_mg s)) = []
  /\ map_to_list (mg_messages (rs_mg (rt_step demo s used_x))) = [(1, 1, 0, {| ms_payload := [7]; ms_provider := 1; ms_source := Some 2 |})]
  /\ read (r_st demo) (rs_st s) (PageLoc 3 2 0) = read (r_st demo) (rs_st demo_start) (PageLoc 3 2 0)
  /\ read (r_st demo) (rs_st (rt_step demo s used_x)) (PageLoc 2 2 0) = read (r_st demo) (rs_st demo_start) (PageLoc 2 2 0)
  /\ map what (all_deeds demo demo_start granted_h) =
       [RMsa Create; RMsa (CreateProvider [80]); RMsa (CreateSponsored 7 7 {| ap_msa := 1; ap_schemas := [1]; ap_exp := 50 |});
        RMsa Create; RMsa (GrantDelegation 5 5 {| ap_msa := 1; ap_schemas := [2]; ap_exp := 50 |})]
  /\ map what (step_deeds demo s used_x) = [RMessages (AddOnchainMessage (Some 2) 1 [7]); RStorage (UpsertPage 3 2 0 0 [9])]
  /\ map by_ (step_deeds demo s used_x) = [1; 1].
Proof. vm_compute. repeat split; reflexivity. Qed.
Lemma granted_change :
  let s := rt_run demo demo_start granted_h in
  read (r_st demo) (rs_st (rt_step demo s used_x)) (PageLoc 3 2 0) <> read (r_st demo) (rs_st s) (PageLoc 3 2 0).
Proof. vm_compute. discriminate. Qed.
Example C144_nonvacuous :
  sizes_ok (r_st demo) /\ hashes_ok (r_st demo) /\ g_max (r_mg demo) <= u32_max /\ relays_from 0 (granted_h ++ [used_x]) /\ loc_ok (PageLoc 3 2 0)
  /\ demo_start = rt_start demo_bal 65500 (tr_initial demo_bal).
Proof.
  destruct (StProperties.toy_ok (fun s k _ => s mod 1000 =? k)) as (H1 & H2 & _).
  split; [exact H1|]. split; [exact H2|]. split; [vm_compute; discriminate|]. split; [vm_compute; repeat split; discriminate|].
  split; [|reflexivity]. vm_compute. repeat split; try reflexivity; discriminate.
Qed.
