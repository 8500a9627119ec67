(** Proofs about the off-chain key index. *)
From Verif Require Import Prelude SigModel MsaModel MsaSpec MsaProofs OcModel OcSpec.

(** ** Key events decide a bit per MSA and key *)
Definition ev_key (e : KeyEvent) : N := match e with EvMsaCreated _ k | EvKeyAdded _ k | EvKeyDeleted _ k => k end.
Definition is_add (e : KeyEvent) : bool := match e with EvKeyDeleted _ _ => false | _ => true end.
Definition aboutb (m k : N) (e : KeyEvent) : bool := (ev_msa e =? m) && (ev_key e =? k).
Definition after (evs : list KeyEvent) (m k : N) (p : bool) : bool := fold_left (fun p e => if aboutb m k e then is_add e else p) evs p.
Definition touched (evs : list KeyEvent) (m k : N) : bool := existsb (aboutb m k) evs.

Lemma aboutb_spec m k e : aboutb m k e = true <-> ev_about m k e.
Proof. unfold aboutb. rewrite andb_true_iff, !N.eqb_eq. by destruct e. Qed.
Lemma after_app a b m k p : after (a ++ b) m k p = after b m k (after a m k p).
Proof. unfold after. by rewrite fold_left_app. Qed.
Lemma after_untouched evs m k : forall p, touched evs m k = false -> after evs m k p = p.
Proof. induction evs as [|e evs IH]; intros p H; [done|]. cbn in H. apply orb_false_iff in H as [H1 H2]. cbn. rewrite H1. by apply IH. Qed.
Lemma after_touched evs m k : forall p q, touched evs m k = true -> after evs m k p = after evs m k q.
Proof.
  induction evs as [|e evs IH]; intros p q H; [done|]. cbn in H. cbn. destruct (aboutb m k e); [done|]. by apply IH.
Qed.
Lemma touched_app a b m k : touched (a ++ b) m k = touched a m k || touched b m k.
Proof. unfold touched. by rewrite existsb_app. Qed.
Lemma touched_spec evs m k : touched evs m k = true <-> exists e, e ∈ evs /\ ev_about m k e.
Proof.
  unfold touched. rewrite existsb_exists. split; intros (e & H1 & H2); exists e; rewrite <- ?aboutb_spec, ?elem_of_list_In in *; rewrite ?aboutb_spec in *; done.
Qed.

(** ** One list of the index *)
Lemma process_in m k evs : forall keys, Forall (fun e => ev_msa e = m) evs ->
  k ∈ fold_left process_key_event evs keys <-> after evs m k (bool_decide (k ∈ keys)) = true.
Proof.
  induction evs as [|e evs IH]; intros keys F; cbn.
  - by rewrite bool_decide_eq_true.
  - apply Forall_cons in F as [E F]. rewrite IH; [|done]. unfold aboutb. rewrite E, N.eqb_refl. cbn.
    replace (bool_decide (k ∈ process_key_event keys e)) with (if ev_key e =? k then is_add e else bool_decide (k ∈ keys)); [done|].
    destruct e as [m' k'|m' k'|m' k']; cbn [ev_key is_add process_key_event]; destruct (N.eqb_spec k' k) as [->|Hk].
    + symmetry. apply bool_decide_eq_true. destruct (decide _); [done|]. set_solver.
    + apply bool_decide_ext. destruct (decide _); [done|]. set_solver.
    + symmetry. apply bool_decide_eq_true. destruct (decide _); [done|]. set_solver.
    + apply bool_decide_ext. destruct (decide _); [done|]. set_solver.
    + symmetry. apply bool_decide_eq_false. rewrite elem_of_list_filter. tauto.
    + apply bool_decide_ext. rewrite elem_of_list_filter. split; [|tauto]. intros ?. split; [|done]. congruence.
Qed.
Lemma process_nodup evs : forall keys, NoDup keys -> NoDup (fold_left process_key_event evs keys).
Proof.
  induction evs as [|e evs IH]; intros keys H; [done|]. cbn. apply IH. destruct e; cbn [process_key_event]; try (by apply NoDup_filter);
    (destruct (decide _); [done|]; apply NoDup_app; split; [done|]; split; [set_solver|apply NoDup_singleton]).
Qed.

(** ** Grouping by MSA *)
Fixpoint assoc (l : list (N * list KeyEvent)) (m : N) : list KeyEvent :=
  match l with [] => [] | (m', es) :: l' => if m =? m' then es else assoc l' m end.
Lemma push_fst m e l m' : m' ∈ (btree_push m e l).*1 <-> m' = m \/ m' ∈ l.*1.
Proof.
  induction l as [|[m0 es] l IH]; cbn; [set_solver|]. destruct (N.eqb_spec m m0) as [->|]; [set_solver|].
  destruct (m <? m0); cbn; set_solver.
Qed.
Lemma push_sorted m e l : StronglySorted N.lt l.*1 -> StronglySorted N.lt (btree_push m e l).*1.
Proof.
  induction l as [|[m0 es] l IH]; cbn; intros H; [by repeat constructor|]. inversion H as [|? ? H1 H2]; subst.
  destruct (N.eqb_spec m m0) as [->|Hm]; [done|]. destruct (N.ltb_spec m m0) as [Hlt|Hge]; cbn.
  - constructor; [done|]. constructor; [done|]. eapply Forall_impl; [exact H2|]. cbn. lia.
  - constructor; [by apply IH|]. apply Forall_forall. intros x Hx. apply push_fst in Hx as [->|Hx]; [lia|]. rewrite Forall_forall in H2. by apply H2.
Qed.
Lemma push_assoc m e l m' : StronglySorted N.lt l.*1 -> assoc (btree_push m e l) m' = if m' =? m then assoc l m ++ [e] else assoc l m'.
Proof.
  induction l as [|[m0 es] l IH]; cbn; intros H.
  - by destruct (m' =? m).
  - inversion H as [|? ? H1 H2]; subst. destruct (N.eqb_spec m m0) as [->|Hm]; cbn.
    + by destruct (m' =? m0).
    + destruct (N.ltb_spec m m0) as [Hlt|Hge]; cbn.
      * destruct (N.eqb_spec m' m) as [E'|Hm']; [|done]. subst m'.
        destruct (assoc l m) as [|a b] eqn:E; [done|]. exfalso.
        clear -H2 E Hlt. induction l as [|[m1 es'] l IH]; [done|]. cbn in E. apply Forall_cons in H2 as [H2 H3]. cbn in H2.
        destruct (N.eqb_spec m m1); [lia|]. by apply IH.
      * destruct (N.eqb_spec m' m0) as [E'|H0]; [subst m'; destruct (N.eqb_spec m0 m); [lia|done]|]. by apply IH.
Qed.
Lemma groups_ok evs : StronglySorted N.lt (events_by_msa_id evs).*1 /\ forall m, assoc (events_by_msa_id evs) m = filter (fun e => ev_msa e = m) evs.
Proof.
  unfold events_by_msa_id. induction evs as [|e evs [IH1 IH2]] using rev_ind; [by split; [constructor|]|].
  rewrite fold_left_app. cbn. split; [by apply push_sorted|]. intros m. rewrite push_assoc by done. rewrite filter_app.
  destruct (N.eqb_spec m (ev_msa e)) as [->|Hm].
  - by rewrite IH2, filter_cons_True, filter_nil.
  - rewrite filter_cons_False by congruence. by rewrite filter_nil, app_nil_r.
Qed.
Lemma groups_in evs m es : (m, es) ∈ events_by_msa_id evs -> es = filter (fun e => ev_msa e = m) evs.
Proof.
  destruct (groups_ok evs) as [H1 H2]. rewrite <- H2. clear H2. generalize dependent (events_by_msa_id evs). clear evs.
  induction l as [|[m0 es0] l IH]; intros H Hin; [by apply elem_of_nil in Hin|]. cbn in *. inversion H as [|? ? Ha Hb]; subst.
  apply elem_of_cons in Hin as [[= -> ->]|Hin]; [by rewrite N.eqb_refl|].
  assert (m0 < m). { rewrite Forall_forall in Hb. apply Hb. apply elem_of_list_fmap. by exists (m, es). }
  destruct (N.eqb_spec m m0); [lia|]. by apply IH.
Qed.

(** ** The chain's log of key events *)
Definition lg_ok (st : MsaState) : Prop := forall m k, controls st k m <-> after (ms_log st).*2 m k false = true.
Section chain.
Context (cfg : MsaCfg).
Lemma lg_genesis : lg_ok msa_genesis.
Proof. intros m k. unfold controls. cbn. by rewrite lookup_empty. Qed.

Lemma after_snoc st b e m k : after ((ms_log st) ++ [(b, e)]).*2 m k false = if aboutb m k e then is_add e else after (ms_log st).*2 m k false.
Proof. rewrite fmap_app, after_app. done. Qed.

Lemma step_log st x : deletes_on_top x -> lg_ok st ->
  let st' := msa_step cfg st x in
  lg_ok st' /\ (ms_log st' = ms_log st \/ exists e, ms_log st' = ms_log st ++ [(e_block (s_env x), e)]).
Proof.
  intros Hx H st'.
  assert (K : st' = st \/ msa_dispatch cfg (s_env x) st (s_origin x) (s_call x) = Ok st' /\
            (s_top x = true -> exists u, msa_validate (s_env x) st (s_origin x) (s_call x) = Ok u)).
  { unfold st', msa_step, msa_tx, msa_call. destruct (s_top x).
    - destruct (msa_validate _ _ _ _) as [u|] eqn:Ev; [|by left]. destruct (msa_dispatch _ _ _ _ _) eqn:Ed; [|by left]. right. split; [done|]. eauto.
    - destruct (msa_dispatch _ _ _ _ _) eqn:Ed; [|by left]. right. by split. }
  destruct K as [->|[Hd Hv]]; [by split; [|left]|]. clearbody st'.
  apply dispatch_key_effect in Hd. destruct Hd as [E1 _ _ E2|key _ Hn _ _ _ _ E1 _ E2|who ok op np p _ _ _ _ _ Hn _ _ _ E1 _ E2|who m key Eo Hc Hcall [m' Hk] _ E1 _ E2].
  - split; [|by left]. intros m k. unfold controls. rewrite E1, E2. apply H.
  - split; [|right; eauto]. intros m k. unfold controls. rewrite E1, E2, after_snoc. cbn [is_add]. unfold aboutb. cbn [ev_msa ev_key].
    specialize (H m k). unfold controls in H. destruct (N.eqb_spec key k) as [->|Hk].
    + rewrite lookup_insert. destruct (N.eqb_spec (ms_max st + 1) m) as [->|Hm]; cbn [andb]; [done|]. rewrite <- H. rewrite Hn. split; congruence.
    + rewrite lookup_insert_ne by done. rewrite andb_false_r. exact H.
  - split; [|right; eauto]. intros m k. unfold controls. rewrite E1, E2, after_snoc. cbn [is_add]. unfold aboutb. cbn [ev_msa ev_key].
    specialize (H m k). unfold controls in H. destruct (N.eqb_spec (ak_key p) k) as [<-|Hk].
    + rewrite lookup_insert. destruct (N.eqb_spec (ak_msa p) m) as [->|Hm]; cbn [andb]; [done|]. rewrite <- H. rewrite Hn. split; congruence.
    + rewrite lookup_insert_ne by done. rewrite andb_false_r. exact H.
  - assert (m' = m) as ->.
    { destruct Hcall as [Ec|[Ec ->]]; [|unfold controls in Hc; congruence].
      destruct Hx as [Ht|Hx]; [|by destruct (Hx key)]. destruct (Hv Ht) as [u Hu]. rewrite Ec, Eo in Hu. cbn [msa_validate] in Hu.
      unfold validate_key_delete in Hu. unfold controls in Hc. rewrite Hk in Hu.
      destruct (negb (who =? key)); [|done]. rewrite Hc in Hu. destruct (N.eqb_spec m m'); [done|done]. }
    split; [|right; eauto]. intros m0 k. unfold controls. rewrite E1, E2, after_snoc. cbn [is_add]. unfold aboutb. cbn [ev_msa ev_key].
    specialize (H m0 k). unfold controls in H. destruct (N.eqb_spec key k) as [->|Hkk].
    + rewrite lookup_delete. destruct (N.eqb_spec m m0) as [->|Hm]; cbn [andb]; [done|]. rewrite <- H, Hk. split; congruence.
    + rewrite lookup_delete_ne by done. rewrite andb_false_r. exact H.
Qed.
End chain.

(** ** A block's events in the database *)
Section block.
Context (cfg : MsaCfg).
Definition block_inv (b : N) (st0 : MsaState) (db0 : OcDb) (n : nat) (acc : MsaState * (N * OcDb)) : Prop :=
  let '(st, (c, db)) := acc in
  lg_ok st /\ exists new, ms_log st = ms_log st0 ++ ((fun e => (b, e)) <$> new) /\ c = len new /\ (length new <= n)%nat
  /\ oc_counts db = match new with [] => oc_counts db0 | _ => <[b := len new]> (oc_counts db0) end
  /\ (forall i e, new !! i = Some e -> oc_events db !! (b, N.of_nat i + 1) = Some e)
  /\ (forall b' i, b' <> b -> oc_events db !! (b', i) = oc_events db0 !! (b', i))
  /\ oc_keys db = oc_keys db0 /\ oc_initial db = oc_initial db0 /\ oc_last db = oc_last db0.

Lemma exec_tx_inv b st0 db0 n acc x : deletes_on_top x -> N.of_nat (S n) <= u16_max -> block_inv b st0 db0 n acc -> block_inv b st0 db0 (S n) (exec_tx cfg b acc x).
Proof.
  destruct acc as [st [c db]]. intros Hx Hn (Hl & new & E1 & -> & Hlen & E2 & E3 & E4 & E5).
  destruct (step_log cfg st (in_block b x) Hx Hl) as [Hl' Hlog]. cbn zeta in Hlog. unfold exec_tx.
  destruct Hlog as [Hlog|[e Hlog]].
  - replace (drop _ _) with ([] : list (N * KeyEvent)) by (rewrite Hlog; symmetry; apply drop_all). cbn [fmap list_fmap fold_left].
    split; [done|]. exists new. rewrite Hlog. by repeat (split; [done || lia|]).
  - replace (drop _ _) with [(b, e)] by (rewrite Hlog; symmetry; apply drop_app). cbn [fmap list_fmap fold_left snd offchain_index_event].
    assert (Hs : sat_add u16_max (len new) 1 = len (new ++ [e])).
    { unfold sat_add, len. rewrite app_length. cbn [length]. lia. }
    split; [done|]. exists (new ++ [e]). rewrite Hs. split; [|split; [done|split; [|split; [|split; [|split]]]]].
    + rewrite Hlog, E1, fmap_app, app_assoc. done.
    + rewrite app_length. cbn. lia.
    + cbn [up_counts oc_counts up_events]. rewrite E2. destruct new as [|e0 new]; cbn [app]; [done|]. by rewrite insert_insert.
    + cbn [up_counts oc_events up_events]. intros i e' Hi. destruct (decide (i = length new)) as [->|Hi'].
      * rewrite lookup_app_r, Nat.sub_diag in Hi by lia. injection Hi as <-. unfold len. rewrite app_length. cbn [length].
        replace (N.of_nat (length new) + 1) with (N.of_nat (length new + 1)) by lia. by rewrite lookup_insert.
      * assert (i < length new)%nat. { apply lookup_lt_Some in Hi. rewrite app_length in Hi. cbn in Hi. lia. }
        rewrite lookup_app_l in Hi by done. rewrite lookup_insert_ne; [by apply E3|]. unfold len. rewrite app_length. cbn [length]. intros [=]. lia.
    + cbn [up_counts oc_events up_events]. intros b' i Hb. rewrite lookup_insert_ne; [by apply E4|]. congruence.
    + exact E5.
Qed.
Lemma exec_block_inv b st0 db0 txs : Forall deletes_on_top txs -> len txs <= u16_max -> lg_ok st0 ->
  block_inv b st0 db0 (length txs) (fold_left (exec_tx cfg b) txs (st0, (0, db0))).
Proof.
  intros F Hlen Hl. induction txs as [|x txs IH] using rev_ind.
  - cbn. split; [done|]. exists []. cbn. rewrite app_nil_r. by repeat (split; [done|]).
  - apply Forall_app in F as [F1 F2]. inversion F2; subst. rewrite fold_left_app. cbn [fold_left]. unfold len in Hlen. rewrite app_length in *. cbn [length] in *.
    replace (length txs + 1)%nat with (S (length txs)) by lia. apply exec_tx_inv; [done|lia|]. apply IH; [done|]. unfold len. lia.
Qed.
End block.

(** ** Reading a block's events *)
Lemma omap_seq {A} (f : N -> option A) (l : list A) : forall a c, (forall i, (i < length l)%nat -> f (a + N.of_nat i) = if (i <? c)%nat then None else l !! i) ->
  omap f ((fun i => a + N.of_nat i) <$> seq 0 (length l)) = drop c l.
Proof.
  induction l as [|x l IH]; intros a c H; [by destruct c|]. cbn [length seq].
  assert (E : (fun i => a + N.of_nat i) <$> seq 1 (length l) = (fun i => (a + 1) + N.of_nat i) <$> seq 0 (length l)).
  { rewrite <- seq_shift, <- list_fmap_compose. apply list_fmap_ext. intros i. cbn. lia. }
  rewrite fmap_cons, E.
  pose proof (H 0%nat ltac:(cbn; lia)) as H0.
  assert (IH' : omap f ((fun i => (a + 1) + N.of_nat i) <$> seq 0 (length l)) = drop (pred c) l).
  { apply IH. intros i Hi. specialize (H (S i) ltac:(cbn; lia)). replace (a + 1 + N.of_nat i) with (a + N.of_nat (S i)) by lia. rewrite H.
    cbn [lookup list_lookup]. destruct c as [|c]; [done|]. cbn [pred]. done. }
  destruct c as [|c]; cbn in H0 |- *; rewrite H0; [f_equal|]; exact IH'.
Qed.
Lemma seqN_len n : seqN 1 (N.of_nat n) = (fun i => 1 + N.of_nat i) <$> seq 0 n.
Proof. unfold seqN. by rewrite Nat2N.id. Qed.
