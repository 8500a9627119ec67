(** Proof of property C116. *)
From Verif Require Import Prelude Sums Scale CommonTypes SigModel MsaModel CapModel TrModel StModel HModel ScModel MgModel FeeModel RtModel.
From Verif Require Import MsaSpec CapSpec TrSpec StSpec FeeSpec RtSpec RtMoreSpec RtProofs RtProj.
From Verif Require MsaProofs MsaDelegProofs StProofs StPayloadProofs MgProofs MgSpec ScFinal.

Section refs.
Variable cfg : RtCfg.
Hypothesis Hsz : sizes_ok (r_st cfg).
Hypothesis Hha : hashes_ok (r_st cfg).
Hypothesis Hmg : g_max (r_mg cfg) <= u32_max.
Variables (b : gmap N N) (mm : N) (v : TrState).
Notation s0 := (rt_start b mm v).

Definition msg_ok (s : RtState) (sch : N) (m : Message) : Prop :=
  MsaSpec.issued (rs_msa s) (ms_provider m) /\
  match ms_source m with
  | Some d => schema_at s sch OnChain /\ MsaSpec.issued (rs_msa s) d
  | None => schema_at s sch IPFS
  end.
Definition refs (s : RtState) : Prop :=
  (forall l, loc_ok l -> stored_at cfg s l -> schema_at s (loc_schema l) (loc_kind l) /\ MsaSpec.issued (rs_msa s) (loc_msa l))
  /\ (forall k m, mg_messages (rs_mg s) !! k = Some m -> msg_ok s k.1.2 m).

Lemma reach_msa s : rtc (micro cfg false) s0 s -> exists h, rs_msa s = msa_run (r_msa cfg) msa_genesis h.
Proof. intros H. apply steps_msa in H as (h & E & _). by exists h. Qed.
Lemma reach_sc s : rtc (micro cfg false) s0 s -> ScFinal.sinv (r_sc cfg) mm (rs_sc s).
Proof. intros H. apply steps_sc in H as [_ [h E]]. rewrite E. apply ScFinal.srun_inv. Qed.
Lemma reach_st s : rtc (micro cfg false) s0 s -> StProofs.st_inv (r_st cfg) (rs_st s).
Proof.
  intros H. destruct (steps_st _ _ _ _ H) as (h & E & F); [by exists []|]. rewrite E. by apply StProofs.run_inv.
Qed.
Lemma controls_issued s k m : rtc (micro cfg false) s0 s -> controls (rs_msa s) k m -> MsaSpec.issued (rs_msa s) m.
Proof. intros H Hc. destruct (reach_msa s H) as [h E]. rewrite E in *. by apply MsaProofs.ids_inv_run in Hc. Qed.
Lemma grantor_issued env s p d i : rtc (micro cfg false) s0 s -> schema_ok env (rs_msa s) p d i -> MsaSpec.issued (rs_msa s) d.
Proof.
  intros H Hc. destruct (reach_msa s H) as [h E]. rewrite E in *. apply MsaDelegProofs.schema_ok_iff in Hc as (dg & r & Hd & _).
  apply (proj2 (MsaDelegProofs.deleg_ids_inv_run (r_msa cfg) h)) in Hd. by apply MsaProofs.issued_le.
Qed.
Lemma issued_step s o c x m : rtc (micro cfg false) s0 s -> msa_dispatch (r_msa cfg) (env_msa s) (rs_msa s) o c = Ok x ->
  MsaSpec.issued (rs_msa s) m -> MsaSpec.issued x m.
Proof.
  intros H Hd. destruct (reach_msa s H) as [h E].
  assert (Hs : rtc (micro cfg false) s0 (up_msa_ s x)) by (eapply rtc_r; [exact H|]; by eapply MMsa).
  destruct (reach_msa _ Hs) as [h' E']. cbn in E'. pose proof (MsaDelegProofs.max_mono_step _ _ _ _ _ _ Hd) as Hle.
  rewrite E in *. rewrite E' in *. rewrite !MsaProofs.issued_le. lia.
Qed.
Lemma schema_step s o ok c x id i : rtc (micro cfg false) s0 s -> sc_dispatch (r_sc cfg) (rs_sc s) o ok c = Ok x ->
  get_schema_info_by_id (rs_sc s) id = Some i -> get_schema_info_by_id x id = Some i.
Proof.
  intros H Hd Hi. unfold get_schema_info_by_id in *. destruct (sc_infos (rs_sc s) !! id) as [info|] eqn:Ei; [|done].
  destruct (ScFinal.step_keeps (r_sc cfg) mm (rs_sc s) {| sx_origin := o; sx_council_ok := ok; sx_call := c |} id) as [E _];
    [by apply reach_sc|by eexists|]. unfold sc_step, sc_apply in E. cbn in E. rewrite Hd in E. by rewrite E, Ei.
Qed.
Lemma env_st_ok s : rtc (micro cfg false) s0 s -> env_ok (env_st s).
Proof. intros H. destruct (reach_msa s H) as [h E]. by eapply StPayloadProofs.reachable_env_ok. Qed.

Lemma refs_micro s s' : rtc (micro cfg false) s0 s -> micro cfg false s s' -> refs s -> refs s'.
Proof.
  intros Hs H [P Q]. destruct H as [o c x Hv H|who c x Hv H|who c x H|who c x H|o ok c x H|op x _ H|m f x H|op x H|n b0 p|r H]; try exact (conj P Q).
  - assert (M : forall m, MsaSpec.issued (rs_msa s) m -> MsaSpec.issued x m) by (intros m; by eapply issued_step).
    split.
    + intros l Hl Hst. destruct (P l Hl Hst) as [P1 P2]. split; [exact P1|by apply M].
    + intros k m Hm. destruct (Q k m Hm) as [Q1 Q2]. split; [by apply M|]. destruct (ms_source m); [|exact Q2]. destruct Q2 as [Q2 Q3]. split; [exact Q2|by apply M].
  - split; [|exact Q].
    apply StProofs.dispatch_reads in H as (rq & cur & new & Hrq & Hl & _ & Ha & Hr & _ & Hb & Hn & Ho); try done; [|by apply reach_st|by apply env_st_ok].
    intros l Hlo Hst. destruct (decide (l = rq_loc rq)) as [->|Hne].
    + unfold StProofs.allowed in Ha. destruct (signature_of c).
      * destruct Ha as (_ & (k & sg & by_ & ex & _ & Hc & _) & (i & Hi & Hloc & _)). split; [by exists i|by eapply (controls_issued s)].
      * destruct Ha as (w & caller & _ & Hc & Hg & (i & Hi & Hloc & _)). split; [by exists i|].
        destruct Hg as [->|Hg]; [by eapply (controls_issued s)|by eapply (grantor_issued _ s)].
    + apply P; [done|]. destruct Hst as [p Hp]. exists p. cbn [up_st_ rs_st] in Hp. by rewrite Ho in Hp.
  - split; [exact P|]. apply MgProofs.dispatch_ok in H as (w & m & [= <-] & -> & Hst & (w' & m' & info & [= <-] & Hc & Hi & Hk)); [|done].
    intros k m1 Hm1. cbn [up_mg_ rs_mg MgProofs.posted mg_messages] in Hm1. destruct (decide (k = (mg_block (rs_mg s), MgSpec.call_schema c, mg_index (rs_mg s)))) as [->|Hne].
    + rewrite lookup_insert in Hm1. injection Hm1 as <-. specialize (Hst 0 0) as [Hp Hs2]. cbn in *.
      split; [by eapply (controls_issued s)|]. destruct c as [sch cid l|bh sch pl]; cbn in *.
      * destruct Hs2 as [-> _]. exists info. by destruct Hk.
      * destruct Hs2 as [_ ->]. destruct Hk as (Hloc & _ & Hg). split; [by exists info|]. destruct bh as [d|]; cbn; [|by eapply (controls_issued s)].
        eapply (grantor_issued _ s); [done|]. by apply Hg.
    + rewrite lookup_insert_ne in Hm1 by done. by apply (Q k m1).
  - assert (M : forall id loc, schema_at s id loc -> schema_at (up_sc_ s x) id loc).
    { intros id loc (i & Hi & Hl). exists i. split; [|done]. by eapply schema_step. }
    split.
    + intros l Hl Hst. destruct (P l Hl Hst) as [P1 P2]. split; [by apply M|done].
    + intros k m Hm. destruct (Q k m Hm) as [Q1 Q2]. split; [done|]. destruct (ms_source m); [|by apply M]. destruct Q2 as [Q2 Q3]. split; [by apply M|done].
Qed.
Lemma refs_run s : rtc (micro cfg false) s0 s -> refs s.
Proof.
  apply (rtc_ind_r (fun z => refs z) s0).
  - split.
    + intros l _ [p Hp]. exfalso. change (rs_st s0) with st_genesis in Hp. clear -Hp. destruct l; cbn in Hp; discriminate.
    + intros k m Hm. cbn in Hm. by rewrite lookup_empty in Hm.
  - intros y z H1 H2. by apply refs_micro.
Qed.
End refs.

Lemma pages_lemma cfg b mm v h l : sizes_ok (r_st cfg) -> hashes_ok (r_st cfg) -> g_max (r_mg cfg) <= u32_max -> relays_from 0 h -> loc_ok l ->
  let s := rt_run cfg (rt_start b mm v) h in stored_at cfg s l -> schema_at s (loc_schema l) (loc_kind l) /\ MsaSpec.issued (rs_msa s) (loc_msa l).
Proof. intros H1 H2 H3 Hr Hl s. apply (refs_run cfg H1 H2 H3 b mm v); [|done]. apply run_micro. exact Hr. Qed.
Lemma messages_lemma cfg b mm v h k sch i m : sizes_ok (r_st cfg) -> hashes_ok (r_st cfg) -> g_max (r_mg cfg) <= u32_max -> relays_from 0 h ->
  let s := rt_run cfg (rt_start b mm v) h in mg_messages (rs_mg s) !! (k, sch, i) = Some m ->
  MsaSpec.issued (rs_msa s) (ms_provider m) /\
  match ms_source m with
  | Some d => schema_at s sch OnChain /\ MsaSpec.issued (rs_msa s) d
  | None => schema_at s sch IPFS
  end.
Proof.
  intros H1 H2 H3 Hr s Hm. apply (proj2 (refs_run cfg H1 H2 H3 b mm v s (run_micro cfg h (rt_start b mm v) Hr)) _ _ Hm).
Qed.
