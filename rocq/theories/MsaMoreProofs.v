(** More proofs about the MSA pallet: signatures at the level of calls,
    retirement, targets of delegations, listing of grants, availability. *)
From Verif Require Import Prelude Scale SigModel SigSpec SigProofs MsaModel MsaSpec MsaProofs MsaDelegProofs.

Section proofs.
Context (cfg : MsaCfg).

(** ** Signatures of calls *)
Definition evs (x : MsaStep) : list SigEv :=
  map (fun p : N * N => {| se_block := e_block (s_env x); se_sig := p.1; se_exp := p.2 |}) (carried (s_call x)).

Lemma sig_run_app maxsig window h2 : forall h1 reg,
  (sig_run maxsig window reg (h1 ++ h2)).1 = (sig_run maxsig window (sig_run maxsig window reg h1).1 h2).1 /\
  (sig_run maxsig window reg (h1 ++ h2)).2 =
  (sig_run maxsig window reg h1).2 ++ (sig_run maxsig window (sig_run maxsig window reg h1).1 h2).2.
Proof.
  induction h1 as [|x h1 IH]; intros reg; [done|]. cbn [app sig_run].
  destruct (register_signature _ _ _ _ _ _) as [reg'|e].
  - specialize (IH reg'). destruct (sig_run maxsig window reg' (h1 ++ h2)), (sig_run maxsig window reg' h1).
    cbn in *. destruct IH as [-> ->]. done.
  - specialize (IH reg). destruct (sig_run maxsig window reg (h1 ++ h2)), (sig_run maxsig window reg h1).
    cbn in *. destruct IH as [-> ->]. done.
Qed.

Definition all_none (l : list (option SigErr)) : Prop := Forall (fun o => o = None) l.

Lemma register_run env st s e st' :
  msa_register_signature cfg env st s e = Ok st' ->
  exists r, st' = set_sigs st r /\
    sig_run (c_max_sigs cfg) (c_window cfg) (ms_sigs st) [{| se_block := e_block env; se_sig := s; se_exp := e |}] = (r, [None]).
Proof.
  unfold msa_register_signature. destruct (register_signature _ _ _ _ _ _) as [r|] eqn:E; [|discriminate].
  intros H; inv_ok. exists r. split; [done|]. cbn. by rewrite E.
Qed.

Lemma dispatch_sigs env st o call st' top :
  msa_dispatch cfg env st o call = Ok st' ->
  let x := {| s_env := env; s_origin := o; s_call := call; s_top := top |} in
  (sig_run (c_max_sigs cfg) (c_window cfg) (ms_sigs st) (evs x)).1 = ms_sigs st' /\
  all_none (sig_run (c_max_sigs cfg) (c_window cfg) (ms_sigs st) (evs x)).2.
Proof.
  intros H x. unfold evs, x. cbn [s_env s_call]. clear x.
  assert (Hn : forall r, (sig_run (c_max_sigs cfg) (c_window cfg) r []).1 = r /\ all_none (sig_run (c_max_sigs cfg) (c_window cfg) r []).2)
    by (intros; split; [done|constructor]).
  destruct call; cbn [carried map]; cbn in H; unfold signed_ in H.
  - unfold create_account, add_key, get_next_msa_id in H. split_all H; apply Hn.
  - destruct o as [who|]; [|discriminate].
    destruct (verify_signature cfg proof delegator_key _) eqn:Ev; [|discriminate].
    destruct (msa_register_signature cfg env st proof _) as [st1|] eqn:Er; [|discriminate].
    apply register_run in Er as (r & -> & Er). cbn [fst snd]. rewrite Er.
    split; [|repeat constructor]. cbn [fst].
    unfold ensure_valid_msa_key, create_account, add_key, get_next_msa_id, add_provider in H. split_all H; done.
  - unfold ensure_valid_msa_key, create_provider_for in H. split_all H; apply Hn.
  - destruct o as [who|]; [|discriminate].
    destruct (verify_signature cfg proof delegator_key _) eqn:Ev; [|discriminate].
    destruct (msa_register_signature cfg env st proof _) as [st1|] eqn:Er; [|discriminate].
    apply register_run in Er as (r & -> & Er). cbn [fst snd]. rewrite Er.
    split; [|repeat constructor]. cbn [fst].
    destruct (ensure_valid_registered_provider _ _ _) as [[p d]|]; [|discriminate].
    unfold upsert_schema_permissions in H. split_all H; done.
  - unfold revoke_provider in H. split_all H; apply Hn.
  - destruct o as [who|]; [|discriminate].
    destruct (verify_signature cfg owner_proof _ _) eqn:E1; [|discriminate].
    destruct (verify_signature cfg new_key_proof _ _) eqn:E2; [|discriminate].
    destruct (msa_register_signature cfg env st owner_proof _) as [st1|] eqn:Er; [|discriminate].
    apply register_run in Er as (r & -> & Er).
    destruct (msa_register_signature cfg env _ new_key_proof _) as [st2|] eqn:Er2; [|discriminate].
    apply register_run in Er2 as (r2 & -> & Er2). cbn [fst snd].
    change [?a; ?b] with ([a] ++ [b]).
    destruct (sig_run_app (c_max_sigs cfg) (c_window cfg) [{| se_block := e_block env; se_sig := new_key_proof; se_exp := ak_exp payload |}]
                [{| se_block := e_block env; se_sig := owner_proof; se_exp := ak_exp payload |}] (ms_sigs st)) as [-> ->].
    rewrite Er. cbn [fst snd]. cbn [ms_sigs set_sigs] in Er2. rewrite Er2. cbn [fst snd].
    split; [|repeat constructor].
    unfold ensure_msa_owner, ensure_valid_msa_key, add_key in H. split_all H; done.
  - unfold delete_key_for_msa in H. split_all H; apply Hn.
  - unfold revoke_provider in H. split_all H; apply Hn.
  - unfold ensure_valid_msa_key, revoke_permissions_for_schemas in H. split_all H; apply Hn.
  - unfold delete_key_for_msa in H. split_all H; apply Hn.
  - unfold ensure_valid_msa_key in H. split_all H; apply Hn.
  - unfold ensure_valid_msa_key, create_provider_for in H. split_all H; apply Hn.
Qed.

(** The submissions of the steps that went through. *)
Fixpoint ev_run (st : MsaState) (h : list MsaStep) : list SigEv :=
  match h with
  | [] => []
  | x :: h' =>
      (if decide (step_succeeds cfg st x) then evs x else []) ++ ev_run (msa_step cfg st x) h'
  end.

Lemma step_ok st x : step_succeeds cfg st x ->
  exists st', msa_dispatch cfg (s_env x) st (s_origin x) (s_call x) = Ok st' /\ msa_step cfg st x = st'.
Proof.
  intros [H1 H2]. unfold msa_step, msa_tx, msa_call.
  destruct (msa_dispatch _ _ _ _ _) as [st'|]; [|done]. exists st'. split; [done|].
  destruct (s_top x); [|done]. specialize (H1 eq_refl).
  destruct (msa_validate _ _ _ _); done.
Qed.

Lemma step_fail st x : ~ step_succeeds cfg st x -> msa_step cfg st x = st.
Proof.
  intros H. unfold step_succeeds, msa_step, msa_tx, msa_call in *.
  destruct (msa_dispatch _ _ _ _ _) as [st'|]; [|by destruct (s_top x), (msa_validate _ _ _ _)].
  destruct (s_top x); [|exfalso; apply H; done].
  destruct (msa_validate _ _ _ _); [|done]. exfalso. apply H. done.
Qed.

Lemma ev_run_ok h : forall st,
  (sig_run (c_max_sigs cfg) (c_window cfg) (ms_sigs st) (ev_run st h)).1 = ms_sigs (msa_run cfg st h) /\
  all_none (sig_run (c_max_sigs cfg) (c_window cfg) (ms_sigs st) (ev_run st h)).2.
Proof.
  induction h as [|x h IH]; intros st; [split; [done|constructor]|].
  cbn [ev_run msa_run].
  destruct (sig_run_app (c_max_sigs cfg) (c_window cfg) (ev_run (msa_step cfg st x) h)
              (if decide (step_succeeds cfg st x) then evs x else []) (ms_sigs st)) as [-> ->].
  destruct (decide (step_succeeds cfg st x)) as [Hs|Hs].
  - destruct (step_ok _ _ Hs) as (st' & Hd & ->). destruct x as [env o c t]. cbn in Hd.
    apply (dispatch_sigs _ _ _ _ _ t) in Hd as [H1 H2]. cbn [s_env s_origin s_call] in *. rewrite H1.
    destruct (IH st') as [H3 H4]. split; [done|]. by apply Forall_app.
  - rewrite (step_fail _ _ Hs). cbn [sig_run fst snd app]. apply IH.
Qed.

Lemma evs_blocks x e : e ∈ evs x -> se_block e = e_block (s_env x).
Proof.
  unfold evs. intros H. apply elem_of_list_fmap in H as (p & -> & _). done.
Qed.

(** sorted block lists *)
Fixpoint sev_from (b : N) (l : list SigEv) : Prop :=
  match l with [] => True | e :: l' => b <= se_block e /\ sev_from (se_block e) l' end.

Lemma sev_from_le b b' l : b' <= b -> sev_from b l -> sev_from b' l.
Proof. destruct l; cbn; [done|]. intros ? []. split; [lia|done]. Qed.

Lemma sev_from_const b l l' : (forall e, e ∈ l -> se_block e = b) -> sev_from b l' -> sev_from b (l ++ l').
Proof.
  induction l as [|x l IH]; intros H H'; [done|]. cbn.
  rewrite (H x) by left. split; [lia|]. apply IH; [|done]. intros e He. apply H. by right.
Qed.

Lemma sev_from_in l : forall b e, sev_from b l -> e ∈ l -> b <= se_block e.
Proof.
  induction l as [|x l IH]; intros b e H He; [by apply elem_of_nil in He|].
  destruct H as [H1 H2]. apply elem_of_cons in He as [->|He]; [done|]. apply (IH _ e) in H2; [lia|done].
Qed.

Lemma sev_from_nondecr l : forall b, sev_from b l -> blocks_nondecreasing l.
Proof.
  induction l as [|x l IH]; intros b H i j a c Hij Hi Hj; [by destruct i|].
  destruct H as [H1 H2]. destruct i as [|i], j as [|j]; try lia.
  - cbn in *. simplify_eq. lia.
  - cbn in *. simplify_eq. apply (sev_from_in l); [done|]. by eapply elem_of_list_lookup_2.
  - cbn in *. apply (IH _ H2 i j); [lia|done|done].
Qed.

Lemma ev_run_from h l : forall b st,
  blocks_from b h -> sev_from (last_block b h) l -> sev_from b (ev_run st h ++ l).
Proof.
  induction h as [|x h IH]; intros b st Hb Hl; [done|].
  destruct Hb as [H1 H2]. cbn [ev_run]. rewrite <- app_assoc.
  apply (sev_from_le (e_block (s_env x))); [done|].
  apply sev_from_const; [|by apply IH].
  intros e He. destruct (decide _); [|by apply elem_of_nil in He]. by apply evs_blocks.
Qed.

Lemma call_replay_lemma h1 x h2 y s e e' :
  2 <= c_max_sigs cfg -> blocks_from 0 (h1 ++ x :: h2 ++ [y]) ->
  step_succeeds cfg (msa_run cfg msa_genesis h1) x ->
  (s, e) ∈ carried (s_call x) -> (s, e') ∈ carried (s_call y) -> e' <= e ->
  ~ step_succeeds cfg (msa_run cfg msa_genesis (h1 ++ x :: h2)) y.
Proof.
  intros Hm Hb Hx Hcx Hcy He Hy.
  pose proof (ev_run_ok (h1 ++ x :: h2 ++ [y]) msa_genesis) as [_ Hall].
  assert (Hev : exists l1 a l2 b l3, ev_run msa_genesis (h1 ++ x :: h2 ++ [y]) = l1 ++ a :: l2 ++ b :: l3 /\
    se_sig a = s /\ se_exp a = e /\ se_sig b = s /\ se_exp b = e').
  { assert (Happ : forall h st h', ev_run st (h ++ h') = ev_run st h ++ ev_run (msa_run cfg st h) h').
    { induction h as [|z h IH]; intros st h'; [done|]. cbn. rewrite IH. by rewrite app_assoc. }
    rewrite Happ. cbn [ev_run]. rewrite decide_True by done. rewrite Happ. cbn [ev_run].
    replace (msa_run cfg (msa_step cfg (msa_run cfg msa_genesis h1) x) h2) with (msa_run cfg msa_genesis (h1 ++ x :: h2))
      by (by rewrite msa_run_app).
    rewrite decide_True by done.
    assert (H1 : {| se_block := e_block (s_env x); se_sig := s; se_exp := e |} ∈ evs x).
    { unfold evs. apply elem_of_list_fmap. exists (s, e). done. }
    assert (H2 : {| se_block := e_block (s_env y); se_sig := s; se_exp := e' |} ∈ evs y).
    { unfold evs. apply elem_of_list_fmap. exists (s, e'). done. }
    apply elem_of_list_split in H1 as (a1 & a2 & ->). apply elem_of_list_split in H2 as (b1 & b2 & ->).
    set (g1 := ev_run _ h1). set (g2 := ev_run _ h2).
    exists (g1 ++ a1), {| se_block := e_block (s_env x); se_sig := s; se_exp := e |}, (a2 ++ g2 ++ b1),
      {| se_block := e_block (s_env y); se_sig := s; se_exp := e' |}, (b2 ++ []). split.
    { rewrite <- !app_assoc. cbn [app]. rewrite <- ?app_assoc. reflexivity. }
    done. }
  destruct Hev as (l1 & a & l2 & b & l3 & Hev & Ha & Hae & Hbs & Hbe).
  assert (Hs : blocks_nondecreasing (ev_run msa_genesis (h1 ++ x :: h2 ++ [y]))).
  { rewrite <- (app_nil_r (ev_run _ _)). eapply sev_from_nondecr. by apply (ev_run_from _ [] 0). }
  rewrite Hev in Hs, Hall.
  assert (Hi : (l1 ++ a :: l2 ++ b :: l3) !! length l1 = Some a) by (by apply list_lookup_middle).
  assert (Hj : (l1 ++ a :: l2 ++ b :: l3) !! length (l1 ++ a :: l2) = Some b).
  { change (a :: l2 ++ b :: l3) with ((a :: l2) ++ b :: l3). rewrite app_assoc. by apply list_lookup_middle. }
  assert (Hlen : forall r h, length (sig_run (c_max_sigs cfg) (c_window cfg) r h).2 = length h).
  { intros r h; revert r; induction h as [|z h IH]; intros r; [done|]. cbn.
    destruct (register_signature _ _ _ _ _ _) as [r'|]; [specialize (IH r')|specialize (IH r)];
    destruct (sig_run _ _ _ h); cbn in *; by rewrite IH. }
  assert (Hi0 : (sig_run (c_max_sigs cfg) (c_window cfg) sig_empty (l1 ++ a :: l2 ++ b :: l3)).2 !! length l1 = Some None).
  { destruct ((sig_run _ _ _ _).2 !! length l1) as [o|] eqn:E.
    - f_equal. by apply (Forall_lookup_1 _ _ _ _ Hall E).
    - exfalso. apply lookup_ge_None in E. rewrite Hlen in E. rewrite app_length in E. cbn in E. lia. }
  destruct (no_replay_lemma (c_max_sigs cfg) (c_window cfg) _ (length l1) (length (l1 ++ a :: l2)) a b Hm Hs) as [err Herr]; try done.
  { rewrite app_length. cbn. lia. }
  { congruence. }
  { lia. }
  by apply (Forall_lookup_1 _ _ _ _ Hall) in Herr.
Qed.

(** ** Retirement *)
Lemma has_active_iff env st m :
  has_active_delegations env st m = true <-> exists p, delegation_ok env st p m.
Proof.
  unfold has_active_delegations. rewrite existsb_exists. split.
  - intros ([[d p] dg] & Hin & H). cbn in H. apply andb_true_iff in H as [H1 H2].
    apply N.eqb_eq in H1 as ->. exists p. done.
  - intros (p & Hp). pose proof Hp as Hp'. apply delegation_ok_iff in Hp' as (dg & Hl & _).
    exists ((m, p), dg). split; [by apply elem_of_list_In, elem_of_map_to_list|].
    cbn. rewrite N.eqb_refl. done.
Qed.

Lemma retire_lemma env st who :
  let x := {| s_env := env; s_origin := Signed who; s_call := RetireMsa; s_top := true |} in
  step_succeeds cfg st x <->
  exists m, controls st who m /\ ms_prov st !! m = None /\ e_has_handle env m = false /\
    key_count st m = 1 /\ (forall p, ~ delegation_ok env st p m).
Proof.
  cbn. unfold step_succeeds, controls. cbn [s_top s_env s_origin s_call msa_validate].
  unfold ensure_msa_can_retire, is_registered_provider. split.
  - intros [H _]. specialize (H eq_refl).
    destruct (ms_keys st !! who) as [m|] eqn:Ek; [|done]. exists m.
    destruct (ms_prov st !! m) eqn:Ep; [done|]. cbn [negb] in H.
    destruct (e_has_handle env m) eqn:Eh; [done|]. cbn [negb] in H.
    destruct (key_count st m =? 1) eqn:Ec; [|done].
    destruct (has_active_delegations env st m) eqn:Ea; [done|].
    repeat split; try done; [lia|]. intros p Hp.
    assert (has_active_delegations env st m = true) by (apply has_active_iff; by exists p). congruence.
  - intros (m & Hk & Hp & Hh & Hc & Ha). split.
    + intros _. rewrite Hk, Hp, Hh. cbn [negb]. replace (key_count st m =? 1) with true by lia.
      destruct (has_active_delegations env st m) eqn:E; [|done].
      apply has_active_iff in E as (p & H). by apply Ha in H.
    + cbn. rewrite Hk. unfold delete_key_for_msa. rewrite Hk. done.
Qed.

Lemma retire_sole_key_lemma h env who :
  all_top h ->
  let st := msa_run cfg msa_genesis h in
  step_succeeds cfg st {| s_env := env; s_origin := Signed who; s_call := RetireMsa; s_top := true |} <->
  exists m, controls st who m /\ ms_prov st !! m = None /\ e_has_handle env m = false /\
    (forall k, controls st k m -> k = who) /\ (forall p, ~ delegation_ok env st p m).
Proof.
  intros Ht st.
  assert (Hcnt : forall m, controls st who m -> key_count st m = 1 <-> (forall k, controls st k m -> k = who)).
  { intros m Hw. pose proof (keys_listing_exists st m) as Hl. set (l := _.*1) in Hl.
    destruct (key_count_lemma cfg h m l Ht Hl) as [Hc _]. fold st in Hc. rewrite Hc.
    destruct Hl as [Hnd Hl]. split.
    - intros H1 k Hk. apply Hl in Hk. apply Hl in Hw. unfold len in H1.
      destruct l as [|a [|b l]]; cbn in H1; [lia| |lia].
      apply elem_of_list_singleton in Hk, Hw. congruence.
    - intros H. apply Hl in Hw. unfold len. destruct l as [|a [|b l]]; [by apply elem_of_nil in Hw|done|].
      exfalso. apply NoDup_cons in Hnd as [Hn _]. apply Hn.
      rewrite (H a) by (apply Hl; left). rewrite (H b) by (apply Hl; right; left). left. }
  rewrite retire_lemma. split; intros (m & H1 & H2 & H3 & H4 & H5); exists m; repeat split; try done;
    by apply (Hcnt m H1).
Qed.

(** ** Delegations only to registered providers, never to oneself *)
Lemma prov_mono env st o call st' m :
  msa_dispatch cfg env st o call = Ok st' -> is_Some (ms_prov st !! m) -> is_Some (ms_prov st' !! m).
Proof.
  intros H Hm. apply dispatch_prov in H as [->|(m' & n & Hn & -> & _)]; [done|].
  apply lookup_insert_is_Some. destruct (decide (m' = m)); auto.
Qed.

Definition target_inv (st : MsaState) : Prop :=
  forall d p dg, ms_deleg st !! (d, p) = Some dg -> d <> p /\ is_Some (ms_prov st !! p).

Lemma target_inv_step env st o call st' :
  ids_inv st -> target_inv st -> msa_dispatch cfg env st o call = Ok st' -> target_inv st'.
Proof.
  intros Hids Hinv H d p dg Hl. pose proof H as Hd. apply dispatch_deleg_effect in Hd.
  assert (Hold : forall d p dg, ms_deleg st !! (d, p) = Some dg -> d <> p /\ is_Some (ms_prov st' !! p)).
  { intros d' p' dg' Hl'. apply Hinv in Hl' as [? ?]. split; [done|]. by eapply prov_mono. }
  destruct Hd.
  - rewrite H0 in Hl. by eapply Hold.
  - rewrite H9 in Hl. apply lookup_insert_Some in Hl as [[[= <- <-] <-]|[_ Hl]]; [|by eapply Hold].
    split.
    + intros Heq. destruct Hids as (_ & Hids).
      match goal with Hc : controls st who (ap_msa pl) |- _ => apply (proj2 Hids) in Hc; apply (proj1 Hids) in Hc end. lia.
    + eapply prov_mono; [done|]. unfold is_registered_provider in *. destruct (ms_prov st !! ap_msa pl); done.
  - rewrite H10 in Hl. apply lookup_insert_Some in Hl as [[[= <- <-] <-]|[_ Hl]]; [|by eapply Hold].
    split; [done|]. eapply prov_mono; [done|]. unfold is_registered_provider in *. destruct (ms_prov st !! ap_msa pl); done.
  - rewrite H4 in Hl. apply lookup_insert_Some in Hl as [[[= <- <-] <-]|[_ Hl]]; by eapply Hold.
  - rewrite H7 in Hl. apply lookup_insert_Some in Hl as [[[= <- <-] <-]|[_ Hl]]; by eapply Hold.
Qed.

Lemma target_lemma h d p dg :
  ms_deleg (msa_run cfg msa_genesis h) !! (d, p) = Some dg ->
  d <> p /\ is_Some (ms_prov (msa_run cfg msa_genesis h) !! p).
Proof.
  intros Hl. assert (ids_inv (msa_run cfg msa_genesis h) /\ target_inv (msa_run cfg msa_genesis h)) as [_ H].
  { apply msa_run_ind.
    - split; [apply ids_inv_genesis|]. intros ??? H. cbn in H. by rewrite lookup_empty in H.
    - intros. destruct_and?. split; [by eapply ids_inv_step|by eapply target_inv_step]. }
  by eapply H.
Qed.

(** ** The listing agrees with the check *)
Lemma listing_lemma env st p d s b :
  b <= e_block env ->
  is_ok (ensure_valid_schema_grant env st p d s b) = true <-> listed_at (get_granted_schemas st d p) s b.
Proof.
  intros Hb. unfold ensure_valid_schema_grant, ensure_valid_delegation, get_granted_schemas, listed_at.
  destruct (ms_deleg st !! (d, p)) as [dg|]; [|split; [done|by intros (? & ? & ? & _)]].
  replace (b <=? e_block env) with true by lia.
  set (f := fun '(id, r) => _).
  assert (Hf : forall i r, f (i, r) = (i, if (0 <? dg_revoked dg) && ((dg_revoked dg <? r) || (r =? 0)) then dg_revoked dg else r)).
  { intros i r. unfold f. destruct (_ && _); done. }
  clearbody f.
  case_bool_decide as Hempty.
  { split; [|by intros (? & ? & ? & _)].
    destruct (dg_revoked dg =? 0), (b <=? dg_revoked dg); cbn; rewrite ?Hempty, ?lookup_empty; done. }
  assert (Hin : forall r', (s, r') ∈ map f (map_to_list (dg_perms dg)) <->
     exists r, dg_perms dg !! s = Some r /\ r' = (if (0 <? dg_revoked dg) && ((dg_revoked dg <? r) || (r =? 0)) then dg_revoked dg else r)).
  { intros r'. rewrite elem_of_list_fmap. split.
    - intros ([i r] & Heq & Hin). rewrite Hf in Heq. injection Heq as -> ->.
      exists r. split; [by apply elem_of_map_to_list|done].
    - intros (r & Hl & ->). exists (s, r). rewrite Hf. split; [done|by apply elem_of_map_to_list]. }
  split.
  - intros H. destruct (dg_perms dg !! s) as [r|] eqn:Es.
    2:{ destruct (dg_revoked dg =? 0), (b <=? dg_revoked dg); cbn in H; rewrite ?Es in H; done. }
    exists (map f (map_to_list (dg_perms dg))), (if (0 <? dg_revoked dg) && ((dg_revoked dg <? r) || (r =? 0)) then dg_revoked dg else r).
    split; [done|]. split; [apply Hin; by exists r|].
    destruct (dg_revoked dg =? 0) eqn:E0; [|destruct (b <=? dg_revoked dg) eqn:E1; [|done]];
      rewrite Es in H; (destruct (r =? 0) eqn:E2; [|destruct (b <=? r) eqn:E3; [|done]]);
      destruct (_ && _) eqn:E4; lia.
  - intros (l & r' & Hl & Hi & Hr'). injection Hl as <-. apply Hin in Hi as (r & Es & ->).
    destruct (dg_revoked dg =? 0) eqn:E0; [|destruct (b <=? dg_revoked dg) eqn:E1];
      rewrite ?Es; (destruct (r =? 0) eqn:E2; [|destruct (b <=? r) eqn:E3]); cbn; try done; exfalso;
      destruct (_ && _) eqn:E4; lia.
Qed.

(** ** Revocation of schemas *)
Lemma schema_revocation_lemma env st who p ids st' env' d0 p0 s :
  1 <= e_block env -> e_block env < e_block env' ->
  msa_dispatch cfg env st (Signed who) (RevokeSchemaPermissions p ids) = Ok st' ->
  exists d, controls st who d /\
  (schema_ok env' st' p0 d0 s <-> schema_ok env' st p0 d0 s /\ ~ (d0 = d /\ p0 = p /\ s ∈ ids)).
Proof.
  intros Hb Hlt H. cbn in H. unfold ensure_valid_msa_key in H.
  destruct (ms_keys st !! who) as [d|] eqn:Ek; [|discriminate]. exists d. split; [done|].
  unfold revoke_permissions_for_schemas in H.
  destruct (ms_deleg st !! (d, p)) as [dg|] eqn:Ed; [|discriminate].
  destruct (ensure_all_schema_ids_are_valid cfg env ids) eqn:Ev; [|discriminate].
  destruct (try_get_mut_schemas dg ids (e_block env)) as [d'|] eqn:Eg; [|discriminate]. inv_ok.
  apply try_get_mut_schemas_ok in Eg as (Hr & _ & Hd & Hk).
  rewrite !schema_ok_iff. cbn [ms_deleg set_deleg].
  destruct (decide ((d0, p0) = (d, p))) as [[= -> ->]|Hne].
  - rewrite lookup_insert. split.
    + intros (dg1 & r & [= <-] & Hp & H1 & H2). rewrite Hk in Hp. rewrite Hr in H1.
      destruct (decide (s ∈ ids)); [injection Hp as <-; lia|].
      split; [exists dg, r; done|]. by intros (_ & _ & ?).
    + intros [(dg1 & r & Hl & Hp & H1 & H2) Hn]. rewrite Ed in Hl. injection Hl as <-.
      exists d', r. split; [done|]. rewrite Hk, Hr. rewrite decide_False; [done|]. intros ?. by apply Hn.
  - rewrite lookup_insert_ne by done. split; [|by intros [? _]].
    intros H. split; [done|]. intros (-> & -> & _). done.
Qed.

(** ** Availability *)
Lemma create_lemma env st who top :
  1 <= c_max_keys cfg ->
  (forall m, ms_max st < m -> ms_count st !! m = None) ->
  ms_max st < u64_max -> ms_keys st !! who = None ->
  let x := {| s_env := env; s_origin := Signed who; s_call := Create; s_top := top |} in
  step_succeeds cfg st x /\ controls (msa_step cfg st x) who (ms_max st + 1).
Proof.
  intros Hc Hcnt Hmax Hk x.
  assert (Hd : exists st', msa_dispatch cfg env st (Signed who) Create = Ok st' /\ controls st' who (ms_max st + 1)).
  { cbn. unfold create_account, get_next_msa_id, chk_add.
    replace (ms_max st + 1 <=? u64_max) with true by lia.
    unfold add_key. rewrite Hk. unfold key_count. rewrite Hcnt by lia. cbn [default].
    change (chk_add u8_max 0 1) with (Some 1). cbn [option_map].
    replace (1 <=? c_max_keys cfg) with true by lia.
    eexists. split; [reflexivity|]. unfold controls. cbn. by rewrite lookup_insert. }
  destruct Hd as (st' & Hd & Hst).
  assert (Hs : step_succeeds cfg st x).
  { split; [done|]. cbn [s_env s_origin s_call x]. by rewrite Hd. }
  split; [done|]. destruct (step_ok _ _ Hs) as (st2 & Hd2 & ->). cbn [s_env s_origin s_call x] in Hd2. congruence.
Qed.

Definition count_ids (st : MsaState) : Prop := forall m, is_Some (ms_count st !! m) -> m <= ms_max st.

Lemma count_ids_step env st o call st' :
  ids_inv st -> count_ids st -> msa_dispatch cfg env st o call = Ok st' -> count_ids st'.
Proof.
  intros Hids Hc H. apply dispatch_key_effect in H. unfold count_ids in *. destruct H.
  - rewrite H0, H1. done.
  - rewrite H2, H6. intros m Hm. apply lookup_insert_is_Some in Hm as [<-|[_ Hm]]; [lia|]. apply Hc in Hm. lia.
  - rewrite H5, H9. intros m Hm. apply lookup_insert_is_Some in Hm as [<-|[_ Hm]]; [|by apply Hc].
    apply (proj2 (proj2 Hids)) in H3. apply (proj1 (proj2 Hids)) in H3. lia.
  - rewrite H3, H5. intros m' Hm. destruct (ms_count st !! m) as [c|] eqn:E; [|by apply Hc].
    destruct (c =? 1).
    + apply lookup_delete_is_Some in Hm as [_ Hm]. by apply Hc.
    + apply lookup_insert_is_Some in Hm as [<-|[_ Hm]]; apply Hc; by rewrite ?E.
Qed.

Lemma create_available_lemma h env who top :
  1 <= c_max_keys cfg ->
  let st := msa_run cfg msa_genesis h in
  ms_max st < u64_max -> (forall m, ~ controls st who m) ->
  let x := {| s_env := env; s_origin := Signed who; s_call := Create; s_top := top |} in
  step_succeeds cfg st x /\ controls (msa_step cfg st x) who (ms_max st + 1).
Proof.
  intros Hk st Hmax Hn x. apply create_lemma; [done| |done|].
  - assert (ids_inv st /\ count_ids st) as [_ Hc].
    { apply msa_run_ind.
      - split; [apply ids_inv_genesis|]. intros m [c H]. cbn in H. by rewrite lookup_empty in H.
      - intros. destruct_and?. split; [by eapply ids_inv_step|by eapply count_ids_step]. }
    intros m Hm. apply eq_None_not_Some. intros H. apply Hc in H. lia.
  - apply eq_None_not_Some. intros [m H]. by apply (Hn m).
Qed.

Lemma revoke_available_lemma h env d p key :
  blocks_from 1 h -> last_block 1 h <= e_block env ->
  let st := msa_run cfg msa_genesis h in
  (controls st key d ->
   let x := {| s_env := env; s_origin := Signed key; s_call := RevokeByDelegator p; s_top := true |} in
   delegation_ok env st p d -> (forall dg, ms_deleg st !! (d, p) = Some dg -> dg_revoked dg <> e_block env) ->
   step_succeeds cfg st x) /\
  (controls st key p ->
   let x := {| s_env := env; s_origin := Signed key; s_call := RevokeByProvider d; s_top := true |} in
   delegation_ok env st p d -> (forall dg, ms_deleg st !! (d, p) = Some dg -> dg_revoked dg <> e_block env) ->
   step_succeeds cfg st x).
Proof.
  intros Hb Hlast st. pose proof (past_inv_run cfg h Hb) as Hpast. fold st in Hpast.
  split; intros Hk x Ha Hne; unfold x, step_succeeds; cbn [s_top s_env s_origin s_call msa_validate];
    unfold controls in Hk; cbn [msa_dispatch signed_]; rewrite Hk.
  all: pose proof Ha as Ha'; apply delegation_ok_iff in Ha' as (dg & Hl & Hr).
  all: (split; [intros _; unfold validate_revocation; unfold delegation_ok in Ha; destruct (ensure_valid_delegation _ _ _ _ _); done|]).
  all: unfold revoke_provider; rewrite Hl.
  all: replace (dg_revoked dg =? 0) with true; [done|].
  all: specialize (Hne _ Hl); apply Hpast in Hl as [? _]; lia.
Qed.

End proofs.

(** ** What a signature over an MSA payload binds *)
Definition add_key_in_range (p : AddKeyData) : Prop :=
  ak_msa p < 2 ^ 64 /\ ak_exp p < 2 ^ 32 /\ ak_key p < 2 ^ 256.
Definition add_provider_in_range (p : AddProvider) : Prop :=
  ap_msa p < 2 ^ 64 /\ ap_exp p < 2 ^ 32 /\ Forall (fun s => s < 2 ^ 16) (ap_schemas p).

Lemma add_key_bytes_lemma p q :
  add_key_in_range p -> add_key_in_range q ->
  wrap_binary_data (enc_add_key p) = wrap_binary_data (enc_add_key q) -> p = q.
Proof.
  intros (Hp1 & Hp2 & Hp3) (Hq1 & Hq2 & Hq3) H. apply wrap_inj in H. unfold enc_add_key in H.
  apply le_bytes_app_inj in H as [H1 H]; [|done..].
  apply le_bytes_app_inj in H as [H2 H]; [|done..].
  apply le_bytes_inj in H; [|done..]. destruct p, q; cbn in *; congruence.
Qed.

Lemma add_provider_bytes_lemma p q :
  add_provider_in_range p -> add_provider_in_range q ->
  wrap_binary_data (enc_add_provider p) = wrap_binary_data (enc_add_provider q) -> p = q.
Proof.
  intros (Hp1 & Hp2 & Hp3) (Hq1 & Hq2 & Hq3) H. apply wrap_inj in H. unfold enc_add_provider in H.
  apply le_bytes_app_inj in H as [H1 H]; [|done..].
  apply enc_u16s_app_inj in H as [H2 H]; [|done..].
  apply le_bytes_inj in H; [|done..]. destruct p, q; cbn in *; congruence.
Qed.

Lemma concat_u16_length l : length (concat (map enc_u16 l)) = (2 * length l)%nat.
Proof.
  induction l as [|x l IH]; [done|]. cbn [map concat]. rewrite app_length, IH.
  unfold enc_u16. rewrite le_bytes_length. cbn. lia.
Qed.

Lemma add_key_not_provider_lemma p q :
  wrap_binary_data (enc_add_key p) <> wrap_binary_data (enc_add_provider q).
Proof.
  intros H. apply wrap_inj in H. apply (f_equal length) in H.
  unfold enc_add_key, enc_add_provider, enc_u16s in H. rewrite !app_length in H.
  unfold enc_u64, enc_u32, enc_account in H. rewrite !le_bytes_length, concat_u16_length in H.
  unfold compact in H.
  destruct (len (ap_schemas q) <? 64) eqn:E1; [cbn in H; lia|].
  unfold len in E1. lia.
Qed.
