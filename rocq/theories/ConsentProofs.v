(** Proof of property C144. *)
From Verif Require Import Prelude CommonTypes SigModel MsaModel CapModel TrModel StModel HModel ScModel MgModel FeeModel RtModel.
From Verif Require Import MsaSpec StSpec RtSpec RtProofs RtProj RtRefs ConsentSpec.
From Verif Require MsaProofs MsaDelegProofs StProofs StPayloadProofs MgProofs MgSpec.

Section consent.
Variable cfg : RtCfg.
Notation steps := (rtc (micro cfg false)).

(** Steps that do not concern us. *)
Definition quiet (s s' : RtState) : Prop :=
  steps s s' /\ ms_deleg (rs_msa s') = ms_deleg (rs_msa s) /\ mg_messages (rs_mg s') = mg_messages (rs_mg s) /\ rs_st s' = rs_st s
  /\ ms_keys (rs_msa s') = ms_keys (rs_msa s) /\ ms_max (rs_msa s') = ms_max (rs_msa s).
Lemma quiet_refl s : quiet s s. Proof. done. Qed.
Lemma quiet_trans a b c : quiet a b -> quiet b c -> quiet a c.
Proof. intros (A1 & A2 & A3 & A4 & A5 & A6) (B1 & B2 & B3 & B4 & B5 & B6). split; [by etrans|]. repeat split; congruence. Qed.
Lemma quiet_nonce s n : quiet s (up_nonce_ s n).
Proof. split; [apply steps_nonce|done]. Qed.
Lemma quiet_spend s m f x : cap_spend (rs_cap s) m f = Ok x -> quiet s (up_cap_ s x).
Proof. intros H. split; [by eapply steps_spend|done]. Qed.
Lemma quiet_debit s k w a x : token_debit cfg s k w a = Some x -> quiet s x.
Proof. intros H. split; [by eapply steps_debit|]. apply debit_same in H as [-> _]. done. Qed.

(** A way from one state to another, with the deeds on it. *)
Inductive walk : RtState -> list Deed -> RtState -> Prop :=
| walk_nil s : walk s [] s
| walk_quiet s s1 ds s' : quiet s s1 -> walk s1 ds s' -> walk s ds s'
| walk_deed s c o s1 ds s' : plain c -> rt_dispatch cfg c o s = Ok s1 -> walk s1 ds s' ->
    walk s ({| at_ := s; by_ := o_who o; what := c |} :: ds) s'.
Lemma walk_app a ds b ds' c : walk a ds b -> walk b ds' c -> walk a (ds ++ ds') c.
Proof.
  induction 1 as [s|s s1 ds s' H _ IH|s c0 o s1 ds s' H1 H2 _ IH]; intros Hw; [done|..].
  - eapply walk_quiet; [exact H|by apply IH].
  - cbn. eapply walk_deed; [done|exact H2|by apply IH].
Qed.
Lemma walk_only_quiet a b : quiet a b -> walk a [] b.
Proof. intros H. eapply walk_quiet; [exact H|constructor]. Qed.

Lemma batch_walk k f g l : Forall (fun c => forall st st', f c st = Ok st' -> walk st (g c st) st') l ->
  forall st st', run_batch k f l st = Ok st' -> walk st (batch_deeds k f g l st) st'.
Proof.
  induction 1 as [|c l Hc _ IH]; cbn; intros st st' H; [injection H as <-; constructor|].
  destruct (f c st) as [s1|e] eqn:E.
  - eapply walk_app; [by apply Hc|by apply IH].
  - destruct k; [injection H as <-; constructor|done|by apply IH].
Qed.

Lemma deeds_walk : forall c o st st', rt_dispatch cfg c o st = Ok st' -> walk st (deeds cfg c o st) st'.
Proof.
  induction c as [c Hl|k l IH|c IH|l IH|r f c IH|os c IH] using call_ind; intros o st st' H.
  - assert (deeds cfg c o st = [{| at_ := st; by_ := o_who o; what := c |}]) as ->.
    { destruct c; try done; cbn [deeds]; by rewrite H. }
    eapply walk_deed; [done|exact H|constructor].
  - cbn [deeds]. rewrite H. cbn [rt_dispatch] in H. destruct (base_filter _ _ && _); [|done].
    apply batch_walk; [|exact H]. eapply Forall_impl; [exact IH|]. cbn. intros c Hc s s' Hs. by apply Hc.
  - cbn [deeds]. rewrite H. cbn [rt_dispatch] in H. destruct (base_filter _ _ && _); [|done]. by apply IH.
  - cbn [deeds]. rewrite H. cbn [rt_dispatch] in H. destruct (base_filter _ _ && _); [|done]. destruct (_ <=? _); [|done].
    apply batch_walk; [|exact H]. eapply Forall_impl; [exact IH|]. cbn. intros c Hc s s' Hs. by apply Hc.
  - cbn [deeds]. rewrite H. cbn [rt_dispatch] in H. destruct (base_filter _ _ && _); [|done]. destruct (find_proxy _ _ _ _) as [t|]; [|done].
    destruct (rt_dispatch cfg c _ st) as [s1|] eqn:E.
    + injection H as <-. by apply IH.
    + injection H as <-. assert (deeds cfg c (add_filter (signed r) (proxied t)) st = []) as ->; [|constructor].
      destruct c; cbn [deeds]; by rewrite E.
  - cbn [deeds]. rewrite H. cbn [rt_dispatch] in H. destruct (base_filter _ _ && _); [|done]. by apply IH.
Qed.
Lemma deeds_fail c o st e : rt_dispatch cfg c o st = Err e -> deeds cfg c o st = [].
Proof. intros E. destruct c; cbn [deeds]; by rewrite E. Qed.

Lemma leaf_quiet_bal c o s s' : passkey_filter c = true -> rt_dispatch cfg c o s = Ok s' -> quiet s s'.
Proof.
  intros Hf H. assert (plain c) by (by destruct c). split; [by eapply leaf_steps|].
  apply leaf_inv in H as [_ H]; [|done]. destruct c as [| | | | | | |c| | | | | | |]; try done.
  destruct c; cbn [bal_dispatch] in H; apply transfer_same in H as [-> _]; done.
Qed.
Lemma step_walk x s : (forall r, x = SBlock r -> rs_relay s <= r) -> walk s (step_deeds cfg s x) (rt_step cfg s x).
Proof.
  intros Hr. destruct x as [r|t|p|c]; cbn [step_deeds rt_step].
  - apply walk_only_quiet. split; [apply rtc_once; apply MBlock; by apply Hr|done].
  - unfold tx_apply. destruct (check_nonce _ _ _ _) as [s1|] eqn:E1; [|constructor].
    destruct (withdraw_fee _ _ _ _ _ _) as [s2|] eqn:E2; [|constructor]. destruct (free_use _ _ _); [|constructor].
    assert (Q : quiet s s2).
    { eapply quiet_trans; [eapply (check_rel quiet); eauto using quiet_refl, quiet_nonce|].
      eapply (fee_rel cfg quiet); eauto using quiet_refl, quiet_spend, quiet_debit. }
    unfold run_call. destruct (rt_dispatch _ _ _ _) as [s3|] eqn:E4.
    + eapply walk_quiet; [exact Q|]. by apply deeds_walk.
    + rewrite (deeds_fail _ _ _ _ E4). by apply walk_only_quiet.
  - apply walk_only_quiet. unfold passkey_apply. destruct (negb _); [|done]. destruct (passkey_filter _) eqn:Ef; [|done].
    destruct (r_verify _ _ _ _); [|done]. destruct (check_nonce _ _ _ _) as [s1|] eqn:E1; [|done].
    destruct (withdraw_token_fee _ _ _ _ _ _) as [s2|] eqn:E2; [|done].
    assert (Q : quiet s s2).
    { eapply quiet_trans; [eapply (check_rel quiet); eauto using quiet_refl, quiet_nonce|].
      eapply (token_fee_rel cfg quiet); eauto using quiet_refl, quiet_debit. }
    unfold run_call. destruct (rt_dispatch _ _ _ _) as [s3|] eqn:E4; [|done].
    eapply quiet_trans; [exact Q|]. by eapply leaf_quiet_bal.
  - apply walk_only_quiet. destruct (gov_apply cfg s c) as [s1|] eqn:E; [|done]. split; [by eapply gov_steps|].
    destruct c; cbn [gov_apply] in E; apply lift_ok in E as (y & H & E); injection E as <-; try done.
    cbn [up_msa_ rs_msa]. pose proof (MsaProofs.dispatch_key_effect _ _ _ _ _ _ H) as K. apply MsaDelegProofs.dispatch_deleg_effect in H.
    split; [by destruct H|]. split; [done|]. split; [done|].
    destruct K as [|? [[? _]|(? & ? & ? & ? & _)]| |]; done.
Qed.
Lemma all_walk h : forall s, relays_from (rs_relay s) h -> walk s (all_deeds cfg s h) (rt_run cfg s h).
Proof.
  induction h as [|x h IH]; intros s Hr; [constructor|]. cbn [all_deeds]. change (rt_run cfg s (x :: h)) with (rt_run cfg (rt_step cfg s x) h).
  assert (Hx : (forall r, x = SBlock r -> rs_relay s <= r) /\ relays_from (rs_relay (rt_step cfg s x)) h).
  { destruct x as [r|t|p|c]; cbn [relays_from] in Hr.
    - destruct Hr. split; [by intros ? [= <-]|done].
    - split; [done|]. by rewrite (proj1 (step_relay cfg (STx t) s ltac:(done))).
    - split; [done|]. by rewrite (proj1 (step_relay cfg (SPasskey p) s ltac:(done))).
    - split; [done|]. by rewrite (proj1 (step_relay cfg (SGov c) s ltac:(done))). }
  destruct Hx as [H1 H2]. eapply walk_app; [by apply step_walk|by apply IH].
Qed.
Lemma all_deeds_app h1 h2 : forall s, all_deeds cfg s (h1 ++ h2) = all_deeds cfg s h1 ++ all_deeds cfg (rt_run cfg s h1) h2.
Proof. induction h1 as [|x h IH]; intros s; [done|]. cbn [app all_deeds]. rewrite IH. by rewrite app_assoc. Qed.

(** ** What is true after the deeds [ds] *)
Section inv.
Hypothesis Hsz : sizes_ok (r_st cfg).
Hypothesis Hha : hashes_ok (r_st cfg).
Hypothesis Hmg : g_max (r_mg cfg) <= u32_max.
Variables (b : gmap N N) (mm : N) (v : TrState).
Notation s0 := (rt_start b mm v).

Definition grants_ok (ds : list Deed) (s : RtState) : Prop :=
  forall d p dg i r, ms_deleg (rs_msa s) !! (d, p) = Some dg -> dg_perms dg !! i = Some r -> exists g, g ∈ ds /\ consent cfg g d p i.
Definition posted_ok (ds : list Deed) (s : RtState) : Prop :=
  forall k sch i m, mg_messages (rs_mg s) !! (k, sch, i) = Some m ->
  exists before w after c, ds = before ++ w :: after /\ what w = RMessages c /\ MgSpec.call_schema c = sch /\ rs_block (at_ w) = k
    /\ controls (rs_msa (at_ w)) (by_ w) (ms_provider m)
    /\ forall d, ms_source m = Some d -> d = ms_provider m \/ with_permission cfg before w (ms_provider m) d sch.
Definition inv (ds : list Deed) (s : RtState) : Prop := steps s0 s /\ grants_ok ds s /\ posted_ok ds s.

Lemma grants_more ds ds' s : grants_ok ds s -> grants_ok (ds ++ ds') s.
Proof. intros H d p dg i r H1 H2. destruct (H d p dg i r H1 H2) as (g & Hg & Hc). exists g. split; [|done]. apply elem_of_app. by left. Qed.
Lemma posted_more ds ds' s : posted_ok ds s -> posted_ok (ds ++ ds') s.
Proof.
  intros H k sch i m Hm. destruct (H k sch i m Hm) as (bf & w & af & c & -> & H1). exists bf, w, (af ++ ds'), c.
  split; [by rewrite <- app_assoc|done].
Qed.
Lemma permitted_now ds s o c p d i : grants_ok ds s -> controls (rs_msa s) o p -> schema_ok (env_msa s) (rs_msa s) p d i ->
  with_permission cfg ds {| at_ := s; by_ := o; what := c |} p d i.
Proof.
  intros HG Hc Hs. split; [done|]. split; [done|]. apply MsaDelegProofs.schema_ok_iff in Hs as (dg & r & H1 & H2 & _). by eapply HG.
Qed.

Lemma inv_quiet ds s s' : inv ds s -> quiet s s' -> inv ds s'.
Proof.
  intros (H1 & H2 & H3) (Q1 & Q2 & Q3 & _). split; [by etrans|]. split.
  - intros d p dg i r. rewrite Q2. apply H2.
  - intros k sch i m. rewrite Q3. apply H3.
Qed.
Lemma inv_deed ds s c o s' : plain c -> rt_dispatch cfg c o s = Ok s' -> inv ds s -> inv (ds ++ [{| at_ := s; by_ := o_who o; what := c |}]) s'.
Proof.
  intros Hp H (I1 & I2 & I3). split; [etrans; [exact I1|by eapply leaf_steps]|].
  set (w := {| at_ := s; by_ := o_who o; what := c |}).
  pose proof (leaf_inv _ _ _ _ _ Hp H) as [_ L].
  assert (same : ms_deleg (rs_msa s') = ms_deleg (rs_msa s) -> mg_messages (rs_mg s') = mg_messages (rs_mg s) ->
     grants_ok (ds ++ [w]) s' /\ posted_ok (ds ++ [w]) s').
  { intros E1 E2. split.
    - intros d p dg i r. rewrite E1. by apply (grants_more ds [w] s).
    - intros k sch i m. rewrite E2. by apply (posted_more ds [w] s). }
  destruct c as [c|c|c|c|c|c|c|c| | | | | | |]; try done; cbn beta iota in L.
  - destruct L as (x & Hd & ->). split.
    2:{ intros k sch i m. exact (posted_more ds [w] s I3 k sch i m). }
    intros d p dg i r. cbn [up_msa_ rs_msa]. intros H1 H2. apply MsaDelegProofs.dispatch_deleg_effect in Hd.
    assert (old : forall dg0 r0, ms_deleg (rs_msa s) !! (d, p) = Some dg0 -> dg_perms dg0 !! i = Some r0 -> exists g, g ∈ ds ++ [w] /\ consent cfg g d p i).
    { intros dg0 r0 A B. exact (grants_more ds [w] s I2 d p dg0 i r0 A B). }
    assert (Hw : w ∈ ds ++ [w]) by (apply elem_of_app; right; by left).
    destruct Hd as [E|who key proof pl perms Ho -> Hc Hreg Hk Hsig Hv Hpm Hsiz E|who dkey proof d0 pl perms Ho -> Hc Hreg Hk Hne Hsig Hv Hup Hsiz E
      |who p0 d0 dg0 Ho _ Hdg _ E|who p0 d0 ids dg0 perms Ho -> Hc Hdg Hv Hdom Hpm E]; rewrite E in H1.
    + by eapply old.
    + apply lookup_insert_Some in H1 as [[[= <- <-] <-]|[_ H1]]; [|by eapply old]. cbn in H2. rewrite Hpm in H2. destruct (decide _) as [Hi|]; [|done].
      injection Ho as <-. exists w. split; [done|]. exists key, proof, pl. do 4 (split; [done|]). right. done.
    + apply lookup_insert_Some in H1 as [[[= <- <-] <-]|[_ H1]]; [|by eapply old]. cbn in H2. rewrite Hup in H2. destruct (decide _) as [Hi|Hi].
      * injection Ho as <-. exists w. split; [done|]. exists dkey, proof, pl. do 4 (split; [done|]). left. done.
      * assert (O : exists r0, dg_perms (default dg_default (ms_deleg (rs_msa s) !! (d0, ap_msa pl))) !! i = Some r0).
        { destruct (decide _) as [Hz|Hz]; [by exists 0|by exists r]. }
        destruct O as [r0 O]. destruct (ms_deleg (rs_msa s) !! (d0, ap_msa pl)) as [dg0|] eqn:Eo; cbn in O; [by eapply old|by rewrite lookup_empty in O].
    + apply lookup_insert_Some in H1 as [[[= <- <-] <-]|[_ H1]]; by eapply old.
    + apply lookup_insert_Some in H1 as [[[= <- <-] <-]|[_ H1]]; [|by eapply old]. cbn in H2. rewrite Hpm in H2.
      destruct (decide _) as [Hi|Hi]; [|by eapply old].
      assert (is_Some (dg_perms dg0 !! i)) as [r0 Hr0]; [|by eapply old].
      apply elem_of_dom. rewrite <- Hdom. apply elem_of_dom. exists (e_block (env_msa s)). rewrite Hpm. by rewrite decide_True.
  - destruct L as (x & Hd & ->). by apply same.
  - destruct L as (x & Hd & ->). by apply same.
  - destruct L as (x & Hd & ->). split; [exact (grants_more ds [w] s I2)|].
    apply MgProofs.dispatch_ok in Hd as (wh & m & [= <-] & -> & Hst & (w' & m' & info & [= <-] & Hc & Hi & Hk)); [|done].
    intros k sch i m1 Hm1. cbn [up_mg_ rs_mg MgProofs.posted mg_messages] in Hm1. cbn [env_mg gv_msa gv_env] in *.
    assert (Hb : mg_block (rs_mg s) = rs_block s) by (by apply (steps_mg cfg false s0 s I1)).
    destruct (decide ((k, sch, i) = (mg_block (rs_mg s), MgSpec.call_schema c, mg_index (rs_mg s)))) as [E|Hne].
    + rewrite E in Hm1. rewrite lookup_insert in Hm1. injection Hm1 as <-. injection E as -> -> ->. specialize (Hst 0 0) as [Hpr Hs2]. cbn in Hpr, Hs2.
      exists ds, w, [], c. split; [done|]. split; [done|]. split; [done|]. split; [done|]. split; [done|].
      intros d Hd. destruct c as [sch0 cid l0|bh sch0 pl]; cbn in Hs2.
      * destruct Hs2 as [Hs2 _]. congruence.
      * destruct Hs2 as [_ Hs2]. rewrite Hs2 in Hd. injection Hd as Hd. destruct bh as [d'|]; cbn in Hd; [|by left].
        subst d'. right. destruct Hk as (_ & _ & Hg). specialize (Hg d eq_refl).
        assert (m' = ms_provider m) as -> by (unfold controls in *; congruence).
        apply permitted_now; [done|done|]. rewrite Hb in Hg. exact Hg.
    + rewrite lookup_insert_ne in Hm1 by done. exact (posted_more ds [w] s I3 k sch i m1 Hm1).
  - destruct L as (x & Hd & ->). by apply same.
  - destruct c; cbn [cap_dispatch] in L; [| | |done]; apply lift_ok in L as (x & _ & E); injection E as <-; by apply same.
  - destruct c as [|to sch|wh l|wh]; cbn [time_dispatch] in L; [| |done|].
    + apply lift_ok in L as (x & _ & E); injection E as <-; by apply same.
    + apply lift_ok in L as (x & _ & E). destruct (match sc_total sch with Some a => _ | None => _ end) as [s1|] eqn:Em; [|done]. injection E as <-.
      destruct (sc_total sch) as [a|]; [|done]. apply same; by apply transfer_same in Em as [-> _].
    + apply lift_ok in L as (x & _ & E); injection E as <-; by apply same.
  - destruct c; cbn [bal_dispatch] in L; (apply same; by apply transfer_same in L as [-> _]).
  - apply same; by rewrite L.
  - subst. by apply same.
Qed.
Lemma inv_walk s ds s' : walk s ds s' -> forall ds0, inv ds0 s -> inv (ds0 ++ ds) s'.
Proof.
  induction 1 as [s|s s1 ds s' H _ IH|s c o s1 ds s' H1 H2 _ IH]; intros ds0 I.
  - by rewrite app_nil_r.
  - apply IH. by eapply inv_quiet.
  - specialize (IH (ds0 ++ [{| at_ := s; by_ := o_who o; what := c |}])). rewrite <- app_assoc in IH. apply IH. by apply inv_deed.
Qed.
Lemma inv_start : inv [] s0.
Proof.
  split; [done|]. split.
  - intros d p dg i r H. cbn in H. by rewrite lookup_empty in H.
  - intros k sch i m H. cbn in H. by rewrite lookup_empty in H.
Qed.
Lemma inv_run h : relays_from 0 h -> inv (all_deeds cfg s0 h) (rt_run cfg s0 h).
Proof. intros Hr. apply (inv_walk _ _ _ (all_walk h s0 Hr) [] inv_start). Qed.

(** ** Pages *)
Lemma page_walk l s ds s' : loc_ok l -> walk s ds s' -> forall ds0, inv ds0 s ->
  read (r_st cfg) (rs_st s') l = read (r_st cfg) (rs_st s) l
  \/ exists before w after c rq, ds = before ++ w :: after /\ what w = RStorage c /\ request (env_st (at_ w)) c = Some rq /\ rq_loc rq = l
     /\ (controls (rs_msa (at_ w)) (by_ w) (loc_msa l) \/ owner_signed (r_st cfg) (env_st (at_ w)) c (loc_msa l)
         \/ exists p, with_permission cfg (ds0 ++ before) w p (loc_msa l) (loc_schema l)).
Proof.
  intros Hl. induction 1 as [s|s s1 ds s' H _ IH|s c o s1 ds s' H1 H2 Hw IH]; intros ds0 I.
  - by left.
  - destruct (IH ds0 (inv_quiet _ _ _ I H)) as [E|E]; [|by right]. left. rewrite E. destruct H as (_ & _ & _ & -> & _). done.
  - set (w := {| at_ := s; by_ := o_who o; what := c |}) in *.
    destruct (IH (ds0 ++ [w]) (inv_deed _ _ _ _ _ H1 H2 I)) as [E|(bf & w1 & af & c1 & rq & -> & E)].
    2:{ right. exists (w :: bf), w1, af, c1, rq. split; [done|]. by rewrite <- app_assoc in E. }
    rewrite E. clear E IH Hw. destruct I as (I1 & I2 & I3). pose proof (leaf_inv _ _ _ _ _ H1 H2) as [_ L].
    assert (D : (exists c1 x, c = RStorage c1 /\ st_dispatch (r_st cfg) (env_st s) (rs_st s) (Signed (o_who o)) c1 = Ok x /\ s1 = up_st_ s x) \/ rs_st s1 = rs_st s).
    { destruct c as [c|c|c|c|c|c|c|c| | | | | | |]; try done; cbn beta iota in L.
      - right. by destruct L as (x & _ & ->).
      - right. by destruct L as (x & _ & ->).
      - left. destruct L as (x & Hd & ->). by exists c, x.
      - right. by destruct L as (x & _ & ->).
      - right. by destruct L as (x & _ & ->).
      - right. destruct c; cbn [cap_dispatch] in L; [| | |done]; apply lift_ok in L as (x & _ & E); injection E as <-; done.
      - right. destruct c as [|to sch|wh l0|wh]; cbn [time_dispatch] in L; [| |done|].
        + apply lift_ok in L as (x & _ & E); injection E as <-; done.
        + apply lift_ok in L as (x & _ & E). destruct (match sc_total sch with Some a => _ | None => _ end) as [s2|] eqn:Em; [|done]. injection E as <-.
          destruct (sc_total sch) as [a|]; [|done]. apply transfer_same in Em as [-> _]. done.
        + apply lift_ok in L as (x & _ & E); injection E as <-; done.
      - right. destruct c; cbn [bal_dispatch] in L; apply transfer_same in L as [-> _]; done.
      - right. by rewrite L.
      - right. by subst. }
    destruct D as [(c1 & x & -> & Hd & ->)| -> ]; [|by left].
    apply StProofs.dispatch_reads in Hd as (rq & cur & new & Hrq & Hlo & _ & Ha & _ & _ & _ & _ & Ho); try done;
      [|by apply (reach_st cfg Hsz Hha b mm v)|by apply (env_st_ok cfg b mm v)].
    destruct (decide (l = rq_loc rq)) as [->|Hne]; [|left; cbn [up_st_ rs_st]; by apply Ho].
    right. exists [], w, ds, c1, rq. split; [done|]. split; [done|]. split; [done|]. split; [done|].
    unfold StProofs.allowed in Ha. destruct (signature_of c1).
    + destruct Ha as (_ & Ha & _). right. by left.
    + destruct Ha as (wh & caller & [= <-] & Hc & [Eq|Hg] & _); [left; by rewrite <- Eq|]. right. right. exists caller.
      rewrite app_nil_r. by apply permitted_now.
Qed.
End inv.

Lemma walk_ok s ds s' : walk s ds s' -> forall w, w ∈ ds -> exists o s1, o_who o = by_ w /\ rt_dispatch cfg (what w) o (at_ w) = Ok s1.
Proof.
  induction 1 as [s|s s1 ds s' H _ IH|s c o s1 ds s' H1 H2 Hw IH]; intros w Hin; [by apply elem_of_nil in Hin|by apply IH|].
  apply elem_of_cons in Hin as [->|Hin]; [|by apply IH]. by exists o, s1.
Qed.
End consent.

Lemma relays_app r h1 h2 : relays_from r (h1 ++ h2) -> relays_from r h1.
Proof. revert r. induction h1 as [|[] h IH]; cbn; intros r; [done|intros [? ?]; split; [done|by apply IH]|apply IH..]. Qed.
Lemma relays_run cfg h : forall s h2, relays_from (rs_relay s) (h ++ h2) -> relays_from (rs_relay (rt_run cfg s h)) h2.
Proof.
  induction h as [|x h IH]; intros s h2 Hr; [done|]. apply (IH (rt_step cfg s x)). destruct x as [r|t|p|c]; cbn [relays_from app] in Hr.
  - by destruct Hr.
  - by rewrite (proj1 (step_relay cfg (STx t) s ltac:(done))).
  - by rewrite (proj1 (step_relay cfg (SPasskey p) s ltac:(done))).
  - by rewrite (proj1 (step_relay cfg (SGov c) s ltac:(done))).
Qed.

Lemma consent_messages cfg b mm v h k sch i m : g_max (r_mg cfg) <= u32_max -> relays_from 0 h ->
  let s0 := rt_start b mm v in
  mg_messages (rs_mg (rt_run cfg s0 h)) !! (k, sch, i) = Some m ->
  exists before w after c, all_deeds cfg s0 h = before ++ w :: after /\ what w = RMessages c /\ MgSpec.call_schema c = sch /\ rs_block (at_ w) = k
    /\ controls (rs_msa (at_ w)) (by_ w) (ms_provider m)
    /\ forall d, ms_source m = Some d -> d = ms_provider m \/ with_permission cfg before w (ms_provider m) d sch.
Proof. intros Hm Hr s0. apply (inv_run cfg Hm b mm v h Hr). Qed.

Lemma consent_pages cfg b mm v h x l : sizes_ok (r_st cfg) -> hashes_ok (r_st cfg) -> g_max (r_mg cfg) <= u32_max -> relays_from 0 (h ++ [x]) -> loc_ok l ->
  let s0 := rt_start b mm v in
  let s := rt_run cfg s0 h in
  read (r_st cfg) (rs_st (rt_step cfg s x)) l <> read (r_st cfg) (rs_st s) l ->
  exists before w after c rq, step_deeds cfg s x = before ++ w :: after /\ what w = RStorage c /\ request (env_st (at_ w)) c = Some rq /\ rq_loc rq = l
    /\ (controls (rs_msa (at_ w)) (by_ w) (loc_msa l) \/ owner_signed (r_st cfg) (env_st (at_ w)) c (loc_msa l)
        \/ exists p, with_permission cfg (all_deeds cfg s0 h ++ before) w p (loc_msa l) (loc_schema l)).
Proof.
  intros H1 H2 H3 Hr Hl s0 s Hne. pose proof (inv_run cfg H3 b mm v h (relays_app _ _ _ Hr)) as I.
  assert (Hx : forall r, x = SBlock r -> rs_relay s <= r).
  { intros r ->. pose proof (relays_run cfg h s0 [SBlock r] Hr) as Hc. cbn in Hc. by destruct Hc. }
  destruct (page_walk cfg H1 H2 H3 b mm v l s _ _ Hl (step_walk cfg x s Hx) _ I) as [E|E]; [done|exact E].
Qed.
Lemma consent_deeds cfg b mm v h w : relays_from 0 h -> w ∈ all_deeds cfg (rt_start b mm v) h ->
  exists o s1, o_who o = by_ w /\ rt_dispatch cfg (what w) o (at_ w) = Ok s1.
Proof. intros Hr. apply (walk_ok cfg _ _ _ (all_walk cfg h (rt_start b mm v) Hr)). Qed.
