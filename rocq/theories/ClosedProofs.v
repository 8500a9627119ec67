(** Proof of property C145. *)
From Verif Require Import Prelude CommonTypes SigModel MsaModel CapModel TrModel StModel HModel ScModel MgModel FeeModel RtModel.
From Verif Require Import MsaSpec StSpec RtSpec RtMoreSpec RtProofs RtProj RtMore RtRefs ClosedSpec.
From Verif Require MsaProofs MsaDelegProofs StProofs MgProofs MgSpec.

Section closed.
Variable cfg : RtCfg.
Hypothesis Hsz : sizes_ok (r_st cfg).
Hypothesis Hha : hashes_ok (r_st cfg).
Hypothesis Hmg : g_max (r_mg cfg) <= u32_max.
Variables (b : gmap N N) (mm : N) (v : TrState).
Notation s0 := (rt_start b mm v).
Notation steps := (rtc (micro cfg false)).

Lemma ended s p m : ~ delegation_ok (env_msa s) (rs_msa s) p m <->
  forall dg, ms_deleg (rs_msa s) !! (m, p) = Some dg -> 0 < dg_revoked dg < rs_block s.
Proof.
  rewrite MsaDelegProofs.delegation_ok_iff. cbn [env_msa e_block]. split.
  - intros H dg Hd. destruct (decide (0 < dg_revoked dg < rs_block s)) as [|Hn]; [done|]. exfalso. apply H. exists dg. split; [done|]. lia.
  - intros H (dg & Hd & Hc). specialize (H dg Hd). lia.
Qed.
Lemma no_grant s m p i : closed s m -> ~ schema_ok (env_msa s) (rs_msa s) p m i.
Proof.
  intros (_ & _ & _ & H) Hs. apply (H p). apply MsaDelegProofs.schema_ok_iff in Hs as (dg & r & H1 & _ & H2 & _).
  apply MsaDelegProofs.delegation_ok_iff. by exists dg.
Qed.

Lemma closed_micro s s' m : steps s0 s -> micro cfg false s s' -> closed s m -> closed s' m /\ nothing_new cfg s s' m.
Proof.
  intros Hs H C. pose proof C as (C1 & C2 & C3 & C4).
  assert (Q : nothing_new cfg s s m) by (by split).
  destruct H as [o c x Hv H|who c x Hv H|who c x H|who c x H|o ok c x H|op x _ H|m0 f x H|op x H|n b0 p|r H]; try (split; [exact C|exact Q]).
  - split; [|exact Q]. split; [cbn; by eapply (issued_step cfg Hmg b mm v)|]. split; [|split; [exact C3|]].
    + intros k Hk. cbn [up_msa_ rs_msa] in Hk.
      destruct (MsaProofs.attach_lemma _ _ _ _ _ _ _ _ H Hk (C2 k)) as [[Hm _]|(w & okey & op & np & p & _ & _ & _ & _ & Ho & _)]; [|by apply (C2 okey)].
      destruct (reach_msa cfg b mm v s Hs) as [h E]. rewrite E in C1, Hm. apply MsaProofs.issued_le in C1. lia.
    + intros p. apply ended. intros dg Hd. cbn [up_msa_ rs_msa rs_block] in *. pose proof (proj1 (ended s p m) (C4 p)) as CC.
      assert (Hle : m <= ms_max (rs_msa s)).
      { destruct (reach_msa cfg b mm v s Hs) as [h E]. rewrite E in C1 |- *. apply MsaProofs.issued_le in C1. lia. }
      apply MsaDelegProofs.dispatch_deleg_effect in H.
      destruct H as [E|w key proof pl perms Ho -> Hc Hreg Hk Hsig Hv0 Hpm Hsiz E|w dkey proof d0 pl perms Ho -> Hc Hreg Hk Hne Hsig Hv0 Hup Hsiz E
        |w p0 d0 dg0 Ho Hw Hdg Hz E|w p0 d0 ids dg0 perms Ho -> Hc Hdg Hv0 Hdom Hpm E]; rewrite E in Hd.
      * by apply CC.
      * apply lookup_insert_Some in Hd as [[[= Em _] _]|[_ Hd]]; [lia|by apply CC].
      * apply lookup_insert_Some in Hd as [[[= -> _] _]|[_ Hd]]; [by destruct (C2 dkey)|by apply CC].
      * apply lookup_insert_Some in Hd as [[[= -> ->] _]|[_ Hd]]; [|by apply CC]. specialize (CC dg0 Hdg). lia.
      * apply lookup_insert_Some in Hd as [[[= -> ->] _]|[_ Hd]]; [by destruct (C2 w)|by apply CC].
  - split; [|exact Q]. split; [done|]. split; [done|]. split; [|done]. intros Hh.
    destruct (h_names cfg _ _ _ _ _ H m Hh) as [?|[k Hk]]; [done|by apply (C2 k)].
  - split; [exact C|]. split; [|by intros]. intros l Hl Hm.
    apply StProofs.dispatch_reads in H as (rq & cur & new & Hrq & Hlo & _ & Ha & _ & _ & _ & _ & Ho); try done;
      [|by apply (reach_st cfg Hsz Hha b mm v)|by apply (env_st_ok cfg b mm v)].
    destruct (decide (l = rq_loc rq)) as [->|Hne]; [exfalso|cbn [up_st_ rs_st]; by apply Ho].
    unfold StProofs.allowed in Ha. rewrite Hm in Ha. destruct (signature_of c).
    + destruct Ha as (_ & (k & sg & bs & ex & _ & Hc & _) & _). by apply (C2 k).
    + destruct Ha as (w & caller & _ & Hc & [Eq|Hg] & _); [subst caller; by apply (C2 w)|]. by eapply no_grant.
  - split; [exact C|]. split; [done|]. apply MgProofs.dispatch_ok in H as (w & m1 & [= <-] & -> & Hst & (w' & m' & info & [= <-] & Hc & Hi & Hk)); [|done].
    cbn [env_mg gv_msa gv_env] in *.
    assert (Hb : mg_block (rs_mg s) = rs_block s) by (by apply (steps_mg cfg false s0 s Hs)).
    intros k msg Hm Hin. cbn [up_mg_ rs_mg MgProofs.posted mg_messages] in Hm.
    destruct (decide (k = (mg_block (rs_mg s), MgSpec.call_schema c, mg_index (rs_mg s)))) as [->|Hne].
    + exfalso. rewrite lookup_insert in Hm. injection Hm as <-. specialize (Hst 0 0) as [Hp Hs2]. cbn in Hp, Hs2.
      assert (m' = ms_provider m1) as -> by (unfold controls in *; congruence).
      destruct Hin as [Hin|Hin]; [rewrite Hin in Hc; by apply (C2 who)|].
      destruct c as [sch cid l|bh sch pl]; cbn in Hs2; [destruct Hs2; congruence|]. destruct Hs2 as [_ Hs2].
      rewrite Hs2 in Hin. injection Hin as Hin. destruct bh as [d|]; cbn in Hin; [|rewrite Hin in Hc; by apply (C2 who)].
      subst d. destruct Hk as (_ & _ & Hg). specialize (Hg m eq_refl). rewrite Hb in Hg. by eapply (no_grant s).
    + by rewrite lookup_insert_ne in Hm.
  - split; [|exact Q]. split; [done|]. split; [done|]. split; [done|]. intros p. apply ended. intros dg Hd. cbn [next_block rs_msa rs_block] in *.
    pose proof (proj1 (ended s p m) (C4 p) dg Hd). lia.
Qed.
Lemma closed_steps s s' m : steps s s' -> steps s0 s -> closed s m -> closed s' m /\ nothing_new cfg s s' m.
Proof.
  induction 1 as [s|x y z H _ IH]; intros Hs C; [split; [done|by split]|].
  destruct (closed_micro x y m Hs H C) as [C' [N1 N2]]. destruct IH as [C2 [N3 N4]]; [by eapply rtc_r|done|].
  split; [done|]. split.
  - intros l Hl Hm. rewrite N3 by done. by apply N1.
  - intros k msg Hk Hin. apply N2; [|done]. by apply N4.
Qed.
Lemma closed_lemma h1 h2 m : relays_from 0 (h1 ++ h2) -> closed (rt_run cfg s0 h1) m ->
  closed (rt_run cfg s0 (h1 ++ h2)) m /\ nothing_new cfg (rt_run cfg s0 h1) (rt_run cfg s0 (h1 ++ h2)) m.
Proof.
  intros Hr C. assert (H1 : relays_from 0 h1).
  { clear -Hr. revert Hr. generalize 0. induction h1 as [|[] h IH]; cbn; intros r; [done|intros [? ?]; split; [done|by apply IH]|apply IH..]. }
  assert (H2 : relays_from (rs_relay (rt_run cfg s0 h1)) h2).
  { revert Hr. change 0 with (rs_relay s0). generalize s0. clear C H1. induction h1 as [|x h IH]; intros s Hr; [done|]. apply (IH (rt_step cfg s x)).
    destruct x as [r|t|p|c]; cbn [relays_from app] in Hr.
    - by destruct Hr.
    - by rewrite (proj1 (step_relay cfg (STx t) s ltac:(done))).
    - by rewrite (proj1 (step_relay cfg (SPasskey p) s ltac:(done))).
    - by rewrite (proj1 (step_relay cfg (SGov c) s ltac:(done))). }
  unfold rt_run at 1 3. rewrite fold_left_app. apply closed_steps; [apply (run_micro cfg); exact H2|apply (run_micro cfg); exact H1|done].
Qed.

(** Retiring by a transaction of its own closes the MSA, if it was under one key. *)
Lemma retire_closes h t m : let s := rt_run cfg s0 h in
  relays_from 0 h -> tx_call t = RMsa RetireMsa -> controls (rs_msa s) (tx_who t) m ->
  let s' := rt_step cfg s (STx t) in (forall k, ~ controls (rs_msa s') k m) -> closed s' m.
Proof.
  intros s Hr Ht Hc s' Hn.
  assert (Hs : steps s0 s) by (apply (run_micro cfg); exact Hr).
  split.
  { assert (Hs' : steps s0 s') by (etrans; [exact Hs|]; by apply (step_micro cfg)).
    destruct (reach_msa cfg b mm v s' Hs') as [hm E]. rewrite E. apply MsaProofs.issued_le.
    pose proof (controls_issued cfg b mm v s _ m Hs Hc) as Hi. destruct (reach_msa cfg b mm v s Hs) as [hs Es]. rewrite Es in Hi. apply MsaProofs.issued_le in Hi.
    rewrite <- Es in Hi. rewrite <- E.
    assert (Hx : steps s s') by (by apply (step_micro cfg)). apply steps_msa in Hx as (hh & Ex & _). rewrite Ex.
    enough (ms_max (rs_msa s) <= ms_max (msa_run (r_msa cfg) (rs_msa s) hh)) by lia.
    apply (MsaProofs.msa_run_ind (r_msa cfg) (fun z => ms_max (rs_msa s) <= ms_max z)); [lia|]. intros env st0 o0 call st1 Hl Hd1. apply MsaDelegProofs.max_mono_step in Hd1. lia. }
  split; [exact Hn|].
  unfold s' in *. clear s'. revert Hn. cbn [rt_step]. unfold tx_apply. rewrite Ht.
  destruct (check_nonce _ _ _ _) as [s1|] eqn:E1; [|intros Hn; by destruct (Hn _ Hc)].
  destruct (withdraw_fee _ _ _ _ _ _) as [s2|] eqn:E2; [|intros Hn; by destruct (Hn _ Hc)].
  assert (Q : rs_msa s2 = rs_msa s /\ rs_h s2 = rs_h s /\ rs_block s2 = rs_block s).
  { assert (rs_msa s1 = rs_msa s /\ rs_h s1 = rs_h s /\ rs_block s1 = rs_block s) as (A1 & A2 & A3).
    { eapply (check_rel (fun a b => rs_msa b = rs_msa a /\ rs_h b = rs_h a /\ rs_block b = rs_block a)); eauto. }
    rewrite <- A1, <- A2, <- A3. clear -E2.
    eapply (fee_rel cfg (fun a b => rs_msa b = rs_msa a /\ rs_h b = rs_h a /\ rs_block b = rs_block a)); eauto.
    intros s0 k w a x Hd. by apply debit_same in Hd as [-> _]. }
  destruct Q as (Q1 & Q2 & Q3). cbn [free_use].
  destruct (msa_validate _ _ _ _) as [[]|] eqn:Ev; [|intros Hn; by destruct (Hn _ Hc)].
  unfold run_call. destruct (rt_dispatch _ _ _ _) as [s3|] eqn:Ed; [|intros Hn; destruct (Hn (tx_who t)); cbn [fst]; by rewrite Q1].
  intros Hn. apply leaf_inv in Ed as [_ (x & Hd & ->)]; [|done]. cbn [o_who signed] in Hd.
  cbn [msa_validate] in Ev. unfold ensure_msa_can_retire in Ev. rewrite Q1 in Ev. unfold controls in Hc. rewrite Hc in Ev.
  destruct (negb (is_registered_provider _ _)); [|done]. destruct (e_has_handle _ _) eqn:Eh; [done|]. cbn [negb] in Ev.
  destruct (key_count _ _ =? 1); [|done]. destruct (has_active_delegations _ _ _) eqn:Ea; [done|].
  split.
  - cbn [env_msa e_has_handle] in Eh. intros [z Hz]. cbn [fst up_msa_ rs_h] in Hz. rewrite Hz in Eh. done.
  - intros p. apply MsaDelegProofs.dispatch_deleg_effect in Hd as Hd'.
    assert (E : ms_deleg x = ms_deleg (rs_msa s)).
    { destruct Hd' as [E| |  |w p0 d0 dg0 Ho [[? _]|[? _]]|]; try done. by rewrite E, Q1. }
    intros Hok. unfold delegation_ok, ensure_valid_delegation in Hok. cbn [fst up_msa_ rs_msa env_msa e_block rs_block] in Hok. rewrite E in Hok.
    destruct (ms_deleg (rs_msa s) !! (m, p)) as [dg|] eqn:El; [|done].
    enough (Ht2 : has_active_delegations (env_msa s2) (rs_msa s) m = true) by congruence.
    unfold has_active_delegations. apply existsb_exists. exists ((m, p), dg). split.
    + apply elem_of_list_In. by apply elem_of_map_to_list.
    + cbn [fst snd]. rewrite N.eqb_refl. unfold ensure_valid_delegation. rewrite El. exact Hok.
Qed.
End closed.
