(** The lemmas behind HProperties.v. *)
From Verif Require Import Prelude Scale XxHash Utf8 Utf8Proofs HConfusables HModel HSpec HProofs.

Section final.
Variable cfg : HCfg.
Hypothesis (Hr : rng_ok (h_rng cfg)) (Hm : range_ok cfg).
Notation hinv := (hinv cfg).
Notation run h := (h_run cfg h_genesis h).

Lemma checks_ok env k f p m :
  claim_checks cfg env k f p = Ok m <->
  (len (hp_base p) <= 32 /\ he_msa_of env k = Some m
   /\ he_block env < hp_exp p < wrap_add u32_max (he_block env) (h_window cfg)
   /\ h_verify cfg f k (wrap_binary_data (enc_handle p)) = true).
Proof.
  unfold claim_checks, verify_max_handle_byte_length, HANDLE_BYTES_MAX, verify_signature_mortality, verify_signed_payload.
  destruct (_ <=? 32) eqn:E1.
  2:{ split; [done|]. intros (H & _). lia. }
  destruct (he_msa_of env k) as [m'|].
  2:{ split; [done|]. by intros (_ & H & _). }
  destruct (hp_exp p <? _) eqn:E2.
  2:{ split; [done|]. intros (_ & _ & H & _). lia. }
  destruct (_ <? hp_exp p) eqn:E3.
  2:{ split; [done|]. intros (_ & _ & H & _). lia. }
  destruct (h_verify _ _ _ _).
  2:{ split; [done|]. by intros (_ & _ & _ & H). }
  split.
  - intros H. injection H as ->. split; [lia|]. split; [done|]. split; [lia|done].
  - intros (_ & H & _). by injection H as ->.
Qed.

Lemma do_claim_iff st m p : hinv st -> len (hp_base p) <= 32 ->
  is_ok (do_claim cfg st m p) = true <->
  exists s, hs_name st !! m = None /\ acceptable cfg (hp_base p) s
    /\ (used cfg (budget cfg s) (claimed st) < range_size (h_min cfg) (h_max cfg))%nat.
Proof.
  intros I Hl. split.
  - destruct (do_claim cfg st m p) as [[st' d]|] eqn:E; [|done]. intros _.
    apply do_claim_ok in E as (s & i & x & Hn & Ha & Hi & Hx & _); [|done..].
    rewrite next_index_eq in Hi by done. injection Hi as <-. rewrite Nat2N.id in Hx.
    exists s. split; [done|]. split; [done|]. apply lookup_lt_Some in Hx. by rewrite (seq_len cfg Hr Hm) in Hx.
  - intros (s & Hn & Ha & Hu). rewrite <- (seq_len cfg Hr Hm s) in Hu.
    destruct (lookup_lt_is_Some_2 _ _ Hu) as [x Hx].
    assert (E : do_claim cfg st m p = Ok (claim_result cfg st m s (hp_exp p) x (N.of_nat (used cfg (budget cfg s) (claimed st))), display (hp_base p) x)); [|by rewrite E].
    apply do_claim_ok; try done. exists s, (N.of_nat (used cfg (budget cfg s) (claimed st))), x.
    rewrite next_index_eq by done. rewrite Nat2N.id. done.
Qed.

(** ** Queries *)
Lemma get_handle_some st m r : hinv st ->
  get_handle_for_msa cfg st m = Some r <->
  exists d e s x, hs_name st !! m = Some (d, e) /\ parts d = Some (s, x)
    /\ r = {| hr_base := utf8 s; hr_canonical := budget cfg s; hr_suffix := x |}.
Proof.
  intros I. unfold get_handle_for_msa. destruct (hs_name st !! m) as [[d e]|] eqn:En.
  2:{ split; [done|]. intros (? & ? & ? & ? & ? & _). done. }
  destruct (name_wf cfg Hm _ _ _ _ I En) as (base & s & x & _ & _ & Hp). unfold parts in *.
  destruct (from_utf8 d) as [u|] eqn:Eu; [|done]. rewrite Hp, canonical_base_eq. cbn [snd]. split.
  - intros H. injection H as <-. exists d, e, s, x. rewrite Eu. done.
  - intros (d' & e' & s' & x' & H & Hp' & ->). injection H as <- <-. rewrite Eu, Hp in Hp'. by injection Hp' as <- <-.
Qed.
Lemma get_handle_none st m : hinv st -> get_handle_for_msa cfg st m = None <-> hs_name st !! m = None.
Proof.
  intros I. destruct (hs_name st !! m) as [[d e]|] eqn:En.
  - split; [|done]. intros H. destruct (name_wf cfg Hm _ _ _ _ I En) as (base & s & x & _ & _ & Hp).
    assert (get_handle_for_msa cfg st m = Some {| hr_base := utf8 s; hr_canonical := budget cfg s; hr_suffix := x |}); [|congruence].
    apply get_handle_some; [done|]. eauto 10.
  - unfold get_handle_for_msa. rewrite En. done.
Qed.
Lemma get_msa_eq st d : get_msa_id_for_handle cfg st d =
  match split_display_name (match from_utf8 d with Some s => s | None => [] end) with
  | None => None
  | Some (b, x) => hs_owner st !! (budget cfg b, x)
  end.
Proof. reflexivity. Qed.
Lemma get_msa_parts st d s x : parts d = Some (s, x) -> get_msa_id_for_handle cfg st d = hs_owner st !! (budget cfg s, x).
Proof. unfold parts. rewrite get_msa_eq. destruct (from_utf8 d); [|done]. by intros ->. Qed.
Lemma get_msa_some st d m : get_msa_id_for_handle cfg st d = Some m ->
  exists s x, parts d = Some (s, x) /\ hs_owner st !! (budget cfg s, x) = Some m.
Proof.
  rewrite get_msa_eq. unfold parts. destruct (from_utf8 d) as [u|].
  - destruct (split_display_name u) as [[b x]|]; [|done]. intros H. by exists b, x.
  - done.
Qed.

(** ** Calls *)
Lemma dispatch_claim_iff env st o k f p : hinv st ->
  is_ok (h_dispatch cfg env st o (ClaimHandle k f p)) = true <->
  (exists who, o = Some who) /\ exists m s, claim_allowed cfg env st k f p m s /\ get_handle_for_msa cfg st m = None.
Proof.
  intros I. unfold h_dispatch. destruct o as [who|].
  2:{ split; [done|]. by intros [[? ?] _]. }
  unfold claim_handle. split.
  - destruct (claim_checks cfg env k f p) as [m|] eqn:Ec; [|done]. intros H. split; [by eexists|].
    apply checks_ok in Ec as (H1 & H2 & H3 & H4).
    assert (Hok : is_ok (do_claim cfg st m p) = true) by (by destruct (do_claim cfg st m p) as [[]|]).
    apply do_claim_iff in Hok as (s & Hn & Ha & Hu); [|done..].
    exists m, s. split; [done|]. by apply get_handle_none.
  - intros (_ & m & s & (H1 & H2 & H3 & H4 & H5 & H6) & Hn).
    rewrite (proj2 (checks_ok env k f p m)) by done.
    assert (Hok : is_ok (do_claim cfg st m p) = true).
    { apply do_claim_iff; [done..|]. exists s. split; [|done]. by apply get_handle_none. }
    by destruct (do_claim cfg st m p) as [[]|].
Qed.

Lemma retire_then st m d e s x : hinv st -> hs_name st !! m = Some (d, e) -> parts d = Some (s, x) ->
  do_retire cfg st m = Ok (retire_result cfg st m s x, d).
Proof. intros I Hn Hp. apply do_retire_ok; [done..|]. eauto 10. Qed.

Lemma change_form st m p : hinv st -> len (hp_base p) <= 32 -> hs_name st !! m <> None ->
  exists st1 d, do_retire cfg st m = Ok (st1, d) /\ hinv (emit st1 (HandleRetired m d))
    /\ claimed (emit st1 (HandleRetired m d)) = claimed st
    /\ hs_name (emit st1 (HandleRetired m d)) = delete m (hs_name st).
Proof.
  intros I Hl Hn. destruct (hs_name st !! m) as [[d e]|] eqn:En; [|done].
  destruct (name_wf cfg Hm _ _ _ _ I En) as (base & s & x & _ & _ & Hp).
  exists (retire_result cfg st m s x), d.
  assert (Hret := retire_then _ _ _ _ _ _ I En Hp). split; [done|].
  split; [eapply retire_inv; [done..|exact Hret]|]. split; [by rewrite claimed_emit_retired|done].
Qed.

Lemma dispatch_change_iff env st o k f p : hinv st ->
  is_ok (h_dispatch cfg env st o (ChangeHandle k f p)) = true <->
  (exists who, o = Some who) /\ exists m s, claim_allowed cfg env st k f p m s /\ get_handle_for_msa cfg st m <> None.
Proof.
  intros I. unfold h_dispatch. destruct o as [who|].
  2:{ split; [done|]. by intros [[? ?] _]. }
  unfold change_handle. split.
  - destruct (claim_checks cfg env k f p) as [m|] eqn:Ec; [|done]. intros H. split; [by eexists|].
    apply checks_ok in Ec as (H1 & H2 & H3 & H4).
    destruct (hs_name st !! m) eqn:En; [|done].
    destruct (change_form st m p) as (st1 & d & Hret & I1 & Hcl & Hnm); [done|done|by rewrite En|].
    rewrite Hret in H.
    assert (Hok : is_ok (do_claim cfg (emit st1 (HandleRetired m d)) m p) = true) by (by destruct (do_claim _ _ m p) as [[]|]).
    apply do_claim_iff in Hok as (s & _ & Ha & Hu); [|done..]. rewrite Hcl in Hu.
    exists m, s. split; [done|]. intros Hg. apply get_handle_none in Hg; [|done]. congruence.
  - intros (_ & m & s & (H1 & H2 & H3 & H4 & H5 & H6) & Hn).
    rewrite (proj2 (checks_ok env k f p m)) by done.
    assert (Hn' : hs_name st !! m <> None) by (by rewrite <- get_handle_none).
    destruct (change_form st m p) as (st1 & d & Hret & I1 & Hcl & Hnm); [done|done|done|].
    destruct (hs_name st !! m); [|done]. rewrite Hret.
    assert (Hok : is_ok (do_claim cfg (emit st1 (HandleRetired m d)) m p) = true).
    { apply do_claim_iff; [done..|]. exists s. rewrite Hnm, Hcl. split; [apply lookup_delete|done]. }
    by destruct (do_claim _ _ m p) as [[]|].
Qed.

Lemma dispatch_retire_iff env st o : hinv st ->
  is_ok (h_dispatch cfg env st o RetireHandle) = true <->
  exists who m, o = Some who /\ he_msa_of env who = Some m /\ get_handle_for_msa cfg st m <> None.
Proof.
  intros I. unfold h_dispatch. destruct o as [who|].
  2:{ split; [done|]. by intros (? & ? & ? & _). }
  unfold retire_handle. destruct (he_msa_of env who) as [m|] eqn:Em.
  2:{ split; [done|]. intros (? & ? & H & H' & _). congruence. }
  destruct (hs_name st !! m) as [[d e]|] eqn:En.
  - destruct (name_wf cfg Hm _ _ _ _ I En) as (base & s & x & _ & _ & Hp).
    rewrite (retire_then _ _ _ _ _ _ I En Hp). split; [|done]. intros _. exists who, m.
    split; [done|]. split; [done|]. rewrite get_handle_none by done. congruence.
  - unfold do_retire. rewrite En. split; [done|]. intros (who' & m' & H1 & H2 & H3).
    rewrite get_handle_none in H3 by done. congruence.
Qed.

(** what an accepted call does to the names *)
Lemma dispatch_names env st o c st' : hinv st -> h_dispatch cfg env st o c = Ok st' ->
  exists m,
    match c with
    | RetireHandle => (exists who, o = Some who /\ he_msa_of env who = Some m)
        /\ (exists d e, hs_name st !! m = Some (d, e) /\ hs_events st' = hs_events st ++ [HandleRetired m d]
                        /\ hs_name st' = delete m (hs_name st))
    | ClaimHandle k f p => he_msa_of env k = Some m /\ exists s x,
        claim_allowed cfg env st k f p m s /\ sequence cfg s !! used cfg (budget cfg s) (claimed st) = Some x
        /\ hs_events st' = hs_events st ++ [HandleClaimed m (display (hp_base p) x)]
        /\ hs_name st' = <[m := (display (hp_base p) x, hp_exp p)]> (hs_name st)
    | ChangeHandle k f p => he_msa_of env k = Some m /\ exists s x d e,
        claim_allowed cfg env st k f p m s /\ sequence cfg s !! used cfg (budget cfg s) (claimed st) = Some x
        /\ hs_name st !! m = Some (d, e)
        /\ hs_events st' = hs_events st ++ [HandleRetired m d; HandleClaimed m (display (hp_base p) x)]
        /\ hs_name st' = <[m := (display (hp_base p) x, hp_exp p)]> (hs_name st)
    end.
Proof.
  intros I H. unfold h_dispatch in H. destruct o as [who|]; [|done].
  assert (Hclaim : forall st0 m p st1 d, hinv st0 -> len (hp_base p) <= 32 -> do_claim cfg st0 m p = Ok (st1, d) ->
    exists s x, acceptable cfg (hp_base p) s /\ sequence cfg s !! used cfg (budget cfg s) (claimed st0) = Some x
      /\ d = display (hp_base p) x /\ hs_events st1 = hs_events st0
      /\ hs_name st1 = <[m := (display (hp_base p) x, hp_exp p)]> (hs_name st0)).
  { intros st0 m p st1 d I0 Hl E.
    apply do_claim_ok in E as (s & i & x & Hn & Ha & Hi & Hx & -> & ->); [|done..].
    rewrite next_index_eq in Hi by done. injection Hi as <-. rewrite Nat2N.id in Hx.
    exists s, x. split; [done|]. split; [done|]. split; [done|]. split; [done|].
    destruct (acceptable_scalar cfg _ _ Ha) as (_ & Hu & _). cbn [claim_result hs_name]. by rewrite Hu. }
  destruct c as [k f p| |k f p].
  - unfold claim_handle in H. destruct (claim_checks cfg env k f p) as [m|] eqn:Ec; [|done].
    apply checks_ok in Ec as (H1 & H2 & H3 & H4).
    destruct (do_claim cfg st m p) as [[st1 d]|] eqn:Ed; [|done]. injection H as <-.
    apply Hclaim in Ed as (s & x & Ha & Hx & -> & Hev & Hnm); [|done..].
    exists m. split; [done|]. exists s, x. split.
    { split; [done|]. split; [done|]. split; [done|]. split; [done|]. split; [done|].
      apply lookup_lt_Some in Hx. by rewrite (seq_len cfg Hr Hm) in Hx. }
    split; [done|]. cbn [emit hs_events hs_name]. by rewrite Hev, Hnm.
  - unfold retire_handle in H. destruct (he_msa_of env who) as [m|] eqn:Em; [|done].
    destruct (do_retire cfg st m) as [[st1 d]|] eqn:Ed; [|done]. injection H as <-.
    apply do_retire_ok in Ed as (e & s & x & Hn & Hp & ->); [|done..].
    exists m. split; [by exists who|]. exists d, e. done.
  - unfold change_handle in H. destruct (claim_checks cfg env k f p) as [m|] eqn:Ec; [|done].
    apply checks_ok in Ec as (H1 & H2 & H3 & H4).
    destruct (hs_name st !! m) as [[d0 e0]|] eqn:En; [|done].
    destruct (change_form st m p) as (st1 & d & Hret & I1 & Hcl & Hnm); [done|done|by rewrite En|].
    rewrite Hret in H.
    assert (d = d0 /\ hs_events st1 = hs_events st) as [-> Hev1].
    { apply do_retire_ok in Hret as (e & s & x & Hn & Hp & ->); [|done..]. split; [congruence|done]. }
    destruct (do_claim cfg _ m p) as [[st2 d']|] eqn:Ed'; [|done]. injection H as <-.
    apply Hclaim in Ed' as (s & x & Ha & Hx & -> & Hev & Hnm'); [|done..]. rewrite Hcl in Hx.
    exists m. split; [done|]. exists s, x, d0, e0. split.
    { split; [done|]. split; [done|]. split; [done|]. split; [done|]. split; [done|].
      apply lookup_lt_Some in Hx. by rewrite (seq_len cfg Hr Hm) in Hx. }
    split; [done|]. split; [done|].
    change (hs_events (emit st2 (HandleClaimed m (display (hp_base p) x)))) with (hs_events st2 ++ [HandleClaimed m (display (hp_base p) x)]).
    change (hs_name (emit st2 (HandleClaimed m (display (hp_base p) x)))) with (hs_name st2).
    rewrite Hev, Hnm', Hnm. split; [|by rewrite insert_delete_insert].
    change (hs_events (emit st1 (HandleRetired m d0))) with (hs_events st1 ++ [HandleRetired m d0]).
    rewrite Hev1, <- app_assoc. done.
Qed.

Lemma apply_acts st x st' m : hinv st -> h_apply cfg st x = Ok st' -> acts_on x <> Some m -> hs_name st' !! m = hs_name st !! m.
Proof.
  intros I H Hne. apply apply_dispatch in H. destruct (dispatch_names _ _ _ _ _ I H) as (m' & Hc). unfold acts_on in Hne.
  destruct (hx_call x) as [k f p| |k f p].
  - destruct Hc as (Hk & s & x0 & _ & _ & _ & ->). rewrite lookup_insert_ne; [done|congruence].
  - destruct Hc as ((who & Ho & Hk) & d & e & _ & _ & ->). rewrite Ho in Hne. rewrite lookup_delete_ne; [done|congruence].
  - destruct Hc as (Hk & s & x0 & d & e & _ & _ & _ & _ & ->). rewrite lookup_insert_ne; [done|congruence].
Qed.
Lemma step_acts st x m : hinv st -> acts_on x <> Some m -> hs_name (h_step cfg st x) !! m = hs_name st !! m.
Proof. intros I Hne. unfold h_step. destruct (h_apply cfg st x) eqn:E; [|done]. by eapply apply_acts. Qed.
Lemma run_acts h : forall st m, hinv st -> Forall (fun x => acts_on x <> Some m) h -> hs_name (h_run cfg st h) !! m = hs_name st !! m.
Proof.
  unfold h_run. induction h as [|x h IH]; intros st m I H; [done|]. inversion H; subst. cbn.
  rewrite IH; [by apply step_acts|by apply step_inv|done].
Qed.

(** ** C51 *)
Lemma lookup_sound_lemma h d m s x : get_msa_id_for_handle cfg (run h) d = Some m -> parts d = Some (s, x) ->
  exists r, get_handle_for_msa cfg (run h) m = Some r /\ hr_canonical r = budget cfg s /\ hr_suffix r = x.
Proof.
  intros H Hp. pose proof (run_inv cfg Hr Hm h) as I.
  apply get_msa_some in H as (s' & x' & Hp' & Ho). rewrite Hp in Hp'. injection Hp' as <- <-.
  destruct (inv_sound _ _ I _ _ _ Ho) as (d' & e & s' & Hn & Hp' & Hb).
  eexists. split; [apply get_handle_some; [done|]; eauto 10|]. done.
Qed.
Lemma lookup_parts h d m : get_msa_id_for_handle cfg (run h) d = Some m -> exists s x, parts d = Some (s, x).
Proof. intros H. apply get_msa_some in H as (s & x & H & _). eauto. Qed.

Lemma handle_facts st m r : hinv st -> get_handle_for_msa cfg st m = Some r ->
  exists s base e, from_utf8 (hr_base r) = Some s /\ acceptable cfg base s /\ hr_canonical r = budget cfg s
    /\ h_min cfg <= hr_suffix r <= h_max cfg /\ parts (display (hr_base r) (hr_suffix r)) = Some (s, hr_suffix r)
    /\ hs_name st !! m = Some (display (hr_base r) (hr_suffix r), e).
Proof.
  intros I H. apply get_handle_some in H as (d & e & s & x & Hn & Hp & ->); [|done].
  destruct (name_wf cfg Hm _ _ _ _ I Hn) as (base & s' & x' & (Hd & Hsc & Hdot & Hx) & Ha & Hp').
  assert (s' = s /\ x' = x) as [-> ->] by (by split; congruence).
  exists s, base, e. cbn [hr_base hr_canonical hr_suffix]. split; [by apply from_utf8_utf8|]. split; [done|]. split; [done|]. split; [done|].
  change (parts (display (utf8 s) x) = Some (s, x) /\ hs_name st !! m = Some (display (utf8 s) x, e)).
  rewrite <- Hd. done.
Qed.

Lemma long_canonical s base : acceptable cfg base s -> (budget cfg s = [] <-> long_form cfg s).
Proof.
  intros Ha. unfold budget, long_form. destruct (_ <=? 32) eqn:E; split; intros H; try lia; try done.
  apply utf8_nil in H. destruct Ha as (_ & _ & _ & _ & Hl & _). rewrite H, len_nil in Hl. lia.
Qed.

Lemma lookup_complete_lemma h d m r s x : get_handle_for_msa cfg (run h) m = Some r -> hr_canonical r <> [] ->
  parts d = Some (s, x) -> budget cfg s = hr_canonical r -> x = hr_suffix r ->
  get_msa_id_for_handle cfg (run h) d = Some m.
Proof.
  intros H Hne Hp Hb ->. pose proof (run_inv cfg Hr Hm h) as I.
  destruct (handle_facts _ _ _ I H) as (s' & base & e & Hf & Ha & Hc & Hx & Hp' & Hn).
  rewrite (get_msa_parts _ _ _ _ Hp), Hb, Hc.
  eapply (inv_complete _ _ I); [exact Hn|done|].
  destruct (N.leb_spec (len (utf8 (form cfg s'))) 32) as [|Hl]; [done|].
  exfalso. apply Hne. rewrite Hc. by eapply long_canonical.
Qed.

Lemma unique_lemma h m m' r r' : get_handle_for_msa cfg (run h) m = Some r -> get_handle_for_msa cfg (run h) m' = Some r' ->
  hr_canonical r <> [] -> hr_canonical r = hr_canonical r' -> hr_suffix r = hr_suffix r' -> m = m'.
Proof.
  intros H H' Hne Hc Hx. pose proof (run_inv cfg Hr Hm h) as I.
  destruct (handle_facts _ _ _ I H') as (s & base & e & Hf & Ha & Hc' & Hx' & Hp & Hn).
  pose proof (lookup_complete_lemma h _ m' r' _ _ H' ltac:(congruence) Hp (eq_sym Hc') eq_refl) as H1.
  pose proof (lookup_complete_lemma h _ m r _ _ H Hne Hp ltac:(congruence) ltac:(congruence)) as H2. congruence.
Qed.

Lemma announced_lemma h m :
  announced m (hs_events (run h)) =
  match get_handle_for_msa cfg (run h) m with Some r => Some (display (hr_base r) (hr_suffix r)) | None => None end.
Proof.
  pose proof (run_inv cfg Hr Hm h) as I. rewrite <- (inv_announced _ _ I).
  destruct (get_handle_for_msa cfg (run h) m) as [r|] eqn:E.
  - destruct (handle_facts _ _ _ I E) as (s & base & e & _ & _ & _ & _ & _ & Hn). by rewrite Hn.
  - apply get_handle_none in E; [|done]. by rewrite E.
Qed.

Lemma isolated_lemma h x m : acts_on x <> Some m ->
  get_handle_for_msa cfg (run (h ++ [x])) m = get_handle_for_msa cfg (run h) m.
Proof.
  intros H. pose proof (run_inv cfg Hr Hm h) as I. rewrite run_app. cbn.
  unfold get_handle_for_msa. by rewrite step_acts.
Qed.

(** ** C53 *)
Lemma never_twice_lemma h l1 m d l2 m' d' l3 s x s' x' :
  claimed (run h) = l1 ++ (m, d) :: l2 ++ (m', d') :: l3 ->
  parts d = Some (s, x) -> parts d' = Some (s', x') -> form cfg s = form cfg s' -> x <> x'.
Proof.
  intros E Hp Hp' Hf ->. pose proof (run_inv cfg Hr Hm h) as I.
  destruct (inv_seq _ _ I _ _ _ _ E) as (b1 & s1 & x1 & Hd & _ & Hx).
  apply (wf_parts cfg) in Hd; [|done]. assert (s1 = s /\ x1 = x') as [-> ->] by (by split; congruence).
  assert (E' : claimed (run h) = (l1 ++ (m, d) :: l2) ++ (m', d') :: l3) by (rewrite E, <- app_assoc; done).
  destruct (inv_seq _ _ I _ _ _ _ E') as (b2 & s2 & x2 & Hd' & _ & Hx').
  apply (wf_parts cfg) in Hd'; [|done]. assert (s2 = s' /\ x2 = x') as [-> ->] by (by split; congruence).
  rewrite <- (seq_form cfg s s') in Hx' by (by rewrite Hf).
  assert (Hb : budget cfg s' = budget cfg s) by (unfold budget; by rewrite Hf). rewrite Hb in Hx'.
  pose proof (NoDup_lookup _ _ _ _ (seq_nodup cfg Hr Hm s) Hx Hx') as Heq.
  pose proof (used_split cfg (budget cfg s) l1 m d l2 s x' Hp eq_refl). lia.
Qed.
Lemma claimed_parts h m d : (m, d) ∈ claimed (run h) -> exists s x, parts d = Some (s, x) /\ h_min cfg <= x <= h_max cfg.
Proof.
  intros H. destruct (claimed_wf cfg Hm _ _ _ (run_inv cfg Hr Hm h) H) as (base & s & x & (_ & _ & _ & Hx) & _ & Hp). eauto.
Qed.
Lemma displays_nodup_lemma h : NoDup (map snd (claimed (run h))).
Proof.
  assert (H : forall l l', claimed (run h) = l ++ l' -> NoDup (map snd l')).
  { intros l l'. revert l. induction l' as [|[m d] l' IH]; intros l E; [constructor|]. cbn. constructor.
    - intros Hin. apply elem_of_list_In, in_map_iff in Hin as ([m' d'] & Hd & Hin). cbn in Hd. subst d'.
      apply elem_of_list_In, elem_of_list_split in Hin as (l2 & l3 & ->).
      destruct (claimed_parts h m d) as (s & x & Hp & _).
      { rewrite E. apply elem_of_app. right. by left. }
      by eapply (never_twice_lemma h l m d l2 m' d l3 s x s x).
    - apply (IH (l ++ [(m, d)])). rewrite E, <- app_assoc. done. }
  by apply (H []).
Qed.
Lemma claimed_short_budget h l1 m d l2 m' d' l3 s x s' x' :
  claimed (run h) = l1 ++ (m, d) :: l2 ++ (m', d') :: l3 ->
  parts d = Some (s, x) -> parts d' = Some (s', x') -> budget cfg s = budget cfg s' -> budget cfg s <> [] -> x <> x'.
Proof.
  intros E Hp Hp' Hb Hne ->. pose proof (run_inv cfg Hr Hm h) as I.
  destruct (inv_seq _ _ I _ _ _ _ E) as (b1 & s1 & x1 & Hd & _ & Hx).
  apply (wf_parts cfg) in Hd; [|done]. assert (s1 = s /\ x1 = x') as [-> ->] by (by split; congruence).
  assert (E' : claimed (run h) = (l1 ++ (m, d) :: l2) ++ (m', d') :: l3) by (rewrite E, <- app_assoc; done).
  destruct (inv_seq _ _ I _ _ _ _ E') as (b2 & s2 & x2 & Hd' & _ & Hx').
  apply (wf_parts cfg) in Hd'; [|done]. assert (s2 = s' /\ x2 = x') as [-> ->] by (by split; congruence).
  assert (Hu : utf8 (form cfg s) = utf8 (form cfg s')).
  { unfold budget in *. destruct (_ <=? 32) in Hb, Hne; [|done].
    destruct (_ <=? 32) in Hb; [done|]. by rewrite Hb in Hne. }
  rewrite <- (seq_form cfg s s') in Hx' by done. rewrite <- Hb in Hx'.
  pose proof (NoDup_lookup _ _ _ _ (seq_nodup cfg Hr Hm s) Hx Hx') as Heq.
  pose proof (used_split cfg (budget cfg s) l1 m d l2 s x' Hp eq_refl). lia.
Qed.

(** ** C52 *)
Lemma exhausted_lemma h env o k f p m s : (exists who, o = Some who) ->
  len (hp_base p) <= 32 -> he_msa_of env k = Some m ->
  he_block env < hp_exp p < wrap_add u32_max (he_block env) (h_window cfg) ->
  h_verify cfg f k (wrap_binary_data (enc_handle p)) = true ->
  acceptable cfg (hp_base p) s -> get_handle_for_msa cfg (run h) m = None ->
  used cfg (budget cfg s) (claimed (run h)) = range_size (h_min cfg) (h_max cfg) ->
  h_dispatch cfg env (run h) o (ClaimHandle k f p) = Err HSuffixesExhausted.
Proof.
  intros [who ->] H1 H2 H3 H4 Ha Hn Hu. pose proof (run_inv cfg Hr Hm h) as I. cbn [h_dispatch]. unfold claim_handle.
  rewrite (proj2 (checks_ok env k f p m)) by done. apply get_handle_none in Hn; [|done].
  unfold do_claim. rewrite Hn.
  pose proof Ha as Ha'. apply acceptable_iff in Ha' as (E1 & E2 & E3). rewrite E1, canonical_base_eq, E2, E3.
  rewrite next_index_eq by done. unfold generate_suffix. fold (sequence cfg s).
  rewrite Nat2N.id, lookup_ge_None_2; [done|]. rewrite (seq_len cfg Hr Hm). lia.
Qed.
Lemma budget_bound_lemma h b : (used cfg b (claimed (run h)) <= range_size (h_min cfg) (h_max cfg))%nat.
Proof. apply used_bound; try done. by apply run_inv. Qed.

(** ** Effect of an accepted claim *)
Lemma claimed_run st st' l : hs_events st' = hs_events st ++ l ->
  claimed st' = claimed st ++ flat_map (fun e => match e with HandleClaimed m d => [(m, d)] | _ => [] end) l.
Proof. intros H. unfold claimed. by rewrite H, flat_map_app. Qed.

Lemma claim_effect_lemma h x k f p st' : h_apply cfg (run h) x = Ok st' -> claim_of (hx_call x) = Some (k, f, p) ->
  exists m s y, acts_on x = Some m /\ from_utf8 (hp_base p) = Some s
    /\ head (get_next_suffixes cfg (run h) (hp_base p) 1) = Some y
    /\ get_handle_for_msa cfg st' m = Some {| hr_base := hp_base p; hr_canonical := budget cfg s; hr_suffix := y |}
    /\ claimed st' = claimed (run h) ++ [(m, display (hp_base p) y)]
    /\ (budget cfg s <> [] -> get_msa_id_for_handle cfg st' (display (hp_base p) y) = Some m).
Proof.
  intros H Hc. pose proof (run_inv cfg Hr Hm h) as I. assert (I' : hinv st').
  { apply apply_dispatch in H. eapply dispatch_inv; [..|exact H]; done. }
  apply apply_dispatch in H. destruct (dispatch_names _ _ _ _ _ I H) as (m & Hd). unfold acts_on.
  assert (Hmain : he_msa_of (hx_env x) k = Some m /\ exists s y, claim_allowed cfg (hx_env x) (run h) k f p m s
      /\ sequence cfg s !! used cfg (budget cfg s) (claimed (run h)) = Some y
      /\ claimed st' = claimed (run h) ++ [(m, display (hp_base p) y)]
      /\ hs_name st' !! m = Some (display (hp_base p) y, hp_exp p)).
  { destruct (hx_call x) as [k' f' p'| |k' f' p']; [|done|]; injection Hc as -> -> ->.
    - destruct Hd as (Hk & s & y & Hal & Hy & Hev & Hnm). split; [done|]. exists s, y.
      split; [done|]. split; [done|]. rewrite Hnm, lookup_insert. split; [|done].
      by rewrite (claimed_run _ _ _ Hev).
    - destruct Hd as (Hk & s & y & d & e & Hal & Hy & _ & Hev & Hnm). split; [done|]. exists s, y.
      split; [done|]. split; [done|]. rewrite Hnm, lookup_insert. split; [|done].
      by rewrite (claimed_run _ _ _ Hev). }
  clear Hd. destruct Hmain as (Hk & s & y & (_ & _ & _ & _ & Ha & _) & Hy & Hcl & Hn).
  destruct (acceptable_scalar cfg _ _ Ha) as (Hsc & Hu & Hdot).
  assert (Hp : parts (display (hp_base p) y) = Some (s, y)).
  { rewrite <- Hu. apply parts_display; [done|done|]. pose proof (seq_elem cfg Hr Hm _ _ _ Hy). destruct Hm. lia. }
  assert (Hg : get_handle_for_msa cfg st' m = Some {| hr_base := hp_base p; hr_canonical := budget cfg s; hr_suffix := y |}).
  { apply get_handle_some; [done|]. exists (display (hp_base p) y), (hp_exp p), s, y. by rewrite Hu. }
  exists m, s, y. split.
  { by destruct (hx_call x) as [k' f' p'| |k' f' p']; [|done|]; injection Hc as -> -> ->. }
  split; [by destruct Ha|]. split.
  { unfold get_next_suffixes. rewrite (proj1 Ha), canonical_base_eq, next_index_eq by done. fold (sequence cfg s).
    rewrite Nat2N.id. rewrite (drop_S _ _ _ Hy). done. }
  split; [done|]. split; [done|]. intros Hne. rewrite (get_msa_parts _ _ _ _ Hp).
  eapply (inv_complete _ _ I'); [exact Hn|exact Hp|].
  destruct (N.leb_spec (len (utf8 (form cfg s))) 32) as [|Hl]; [done|]. exfalso. apply Hne. by eapply long_canonical.
Qed.

(** ** C54 *)
Lemma name_after st x st' k f p m : hinv st -> h_apply cfg st x = Ok st' -> claim_of (hx_call x) = Some (k, f, p) ->
  acts_on x = Some m -> exists d, hs_name st' !! m = Some (d, hp_exp p) /\ he_block (hx_env x) < hp_exp p.
Proof.
  intros I H Hc Hact. apply apply_dispatch in H. destruct (dispatch_names _ _ _ _ _ I H) as (m' & Hd). unfold acts_on in Hact.
  destruct (hx_call x) as [k' f' p'| |k' f' p']; [|done|]; injection Hc as -> -> ->.
  - destruct Hd as (Hk & s & y & (_ & _ & Hb & _) & _ & _ & ->). assert (m' = m) as -> by congruence.
    rewrite lookup_insert. eexists. split; [done|lia].
  - destruct Hd as (Hk & s & y & d & e & (_ & _ & Hb & _) & _ & _ & _ & ->). assert (m' = m) as -> by congruence.
    rewrite lookup_insert. eexists. split; [done|lia].
Qed.
Lemma top_retire_iff st y m d e : hinv st -> hx_top y = true -> hx_call y = RetireHandle -> acts_on y = Some m ->
  hs_name st !! m = Some (d, e) -> is_ok (h_apply cfg st y) = true <-> e <= he_block (hx_env y).
Proof.
  intros I Ht Hc Ha Hn. unfold h_apply, acts_on in *. rewrite Ht. rewrite Hc in *. destruct (hx_origin y) as [who|]; [|done].
  cbn [extension_ok]. rewrite Ha, Hn. destruct (e <=? _) eqn:E.
  - split; [intros _; lia|]. intros _. apply dispatch_retire_iff; [done|]. exists who, m. split; [done|]. split; [done|].
    rewrite get_handle_none by done. congruence.
  - split; [done|]. intros H. lia.
Qed.
Lemma no_early_lemma h1 x k f p st1 h2 y m :
  h_apply cfg (run h1) x = Ok st1 -> claim_of (hx_call x) = Some (k, f, p) -> acts_on x = Some m ->
  Forall (fun z => acts_on z <> Some m) h2 ->
  hx_top y = true -> hx_call y = RetireHandle -> acts_on y = Some m ->
  is_ok (h_apply cfg (run (h1 ++ x :: h2)) y) = true <-> hp_exp p <= he_block (hx_env y).
Proof.
  intros H Hc Ha Hh Ht Hy Hay. pose proof (run_inv cfg Hr Hm h1) as I.
  destruct (name_after _ _ _ _ _ _ _ I H Hc Ha) as (d & Hn & _).
  eapply top_retire_iff; [by apply run_inv|done|done|done|].
  rewrite run_app. cbn. unfold h_step at 2. rewrite H. fold (h_run cfg st1 h2). rewrite run_acts; [exact Hn| |done].
  apply apply_dispatch in H. eapply dispatch_inv; [..|exact H]; done.
Qed.

(** ** C57 *)
Lemma authorised_lemma h x m : get_handle_for_msa cfg (run (h ++ [x])) m <> get_handle_for_msa cfg (run h) m ->
  acts_on x = Some m /\
  match hx_call x with
  | ClaimHandle k f p | ChangeHandle k f p =>
      he_msa_of (hx_env x) k = Some m /\ h_verify cfg f k (wrap_binary_data (enc_handle p)) = true
      /\ he_block (hx_env x) < hp_exp p
  | RetireHandle => exists who, hx_origin x = Some who /\ he_msa_of (hx_env x) who = Some m
  end.
Proof.
  intros Hne. pose proof (run_inv cfg Hr Hm h) as I.
  assert (Ha : acts_on x = Some m).
  { destruct (decide (acts_on x = Some m)); [done|]. by rewrite isolated_lemma in Hne. }
  split; [done|]. rewrite run_app in Hne. cbn in Hne. unfold h_step in Hne.
  destruct (h_apply cfg (run h) x) as [st'|] eqn:E; [|done]. apply apply_dispatch in E.
  destruct (dispatch_names _ _ _ _ _ I E) as (m' & Hd). unfold acts_on in Ha.
  destruct (hx_call x) as [k f p| |k f p].
  - destruct Hd as (Hk & s & y & (_ & _ & Hb & Hv & _) & _). split; [done|]. split; [done|lia].
  - destruct (hx_origin x) as [who|]; [|done]. by exists who.
  - destruct Hd as (Hk & s & y & d & e & (_ & _ & Hb & Hv & _) & _). split; [done|]. split; [done|lia].
Qed.

(** ** C58 *)
Lemma no_replay_from st h b : hinv st -> forall m d e,
  hs_name st !! m = Some (d, e) \/ e <= b ->
  Forall (fun z => hx_top z = true /\ b <= he_block (hx_env z) /\ forall k f p, hx_call z <> ChangeHandle k f p) h ->
  StronglySorted (fun a c => he_block (hx_env a) <= he_block (hx_env c)) h ->
  (exists d, hs_name (h_run cfg st h) !! m = Some (d, e)) \/ e <= match last h with Some z => he_block (hx_env z) | None => b end.
Proof.
  revert st b. induction h as [|x h IH]; intros st b I m d e H Hf Hs.
  { cbn. destruct H; [left; eauto|by right]. }
  inversion Hf as [|? ? (Ht & Hb & Hnc) Hf']; subst. inversion Hs as [|? ? Hs' Hall]; subst.
  assert (Hlast : match last (x :: h) with Some z => he_block (hx_env z) | None => b end
               = match last h with Some z => he_block (hx_env z) | None => he_block (hx_env x) end).
  { rewrite last_cons. by destruct (last h). }
  rewrite Hlast. change (h_run cfg st (x :: h)) with (h_run cfg (h_step cfg st x) h).
  assert (Hf'' : Forall (fun z => hx_top z = true /\ he_block (hx_env x) <= he_block (hx_env z) /\ forall k f p, hx_call z <> ChangeHandle k f p) h).
  { rewrite Forall_forall in *. intros z Hz. destruct (Hf' z Hz) as (? & ? & ?). split; [done|]. split; [by apply Hall|done]. }
  destruct H as [H|H].
  2:{ apply (IH (h_step cfg st x) (he_block (hx_env x)) ltac:(by apply step_inv) m d e); [right; lia|done|done]. }
  assert (Hcase : (exists d', hs_name (h_step cfg st x) !! m = Some (d', e)) \/ e <= he_block (hx_env x)).
  { destruct (decide (acts_on x = Some m)) as [Ha|Ha].
    2:{ left. exists d. by rewrite step_acts. }
    unfold h_step. destruct (h_apply cfg st x) as [st'|] eqn:E; [|left; eauto].
    destruct (hx_call x) as [k f p| |k f p] eqn:Ec.
    - exfalso. apply apply_dispatch in E. rewrite Ec in E.
      assert (Hok : is_ok (h_dispatch cfg (hx_env x) st (hx_origin x) (ClaimHandle k f p)) = true) by (by rewrite E).
      apply dispatch_claim_iff in Hok as (_ & m' & s & (_ & Hk & _) & Hg); [|done].
      unfold acts_on in Ha. rewrite Ec in Ha. assert (m' = m) as -> by congruence.
      apply get_handle_none in Hg; [|done]. congruence.
    - right. eapply top_retire_iff; [exact I|done|done|exact Ha|exact H|by rewrite E].
    - by destruct (Hnc k f p). }
  destruct Hcase as [[d' Hd']|He].
  - eapply (IH _ (he_block (hx_env x))); [by apply step_inv|by left|done|done].
  - apply (IH (h_step cfg st x) (he_block (hx_env x)) ltac:(by apply step_inv) m d e); [by right|done|done].
Qed.

Lemma no_replay_lemma h1 x k f p st1 h2 y f' m :
  h_apply cfg (run h1) x = Ok st1 -> hx_call x = ClaimHandle k f p -> acts_on x = Some m ->
  StronglySorted (fun a c => he_block (hx_env a) <= he_block (hx_env c)) (x :: h2 ++ [y]) ->
  Forall (fun z => hx_top z = true /\ forall k f p, hx_call z <> ChangeHandle k f p) h2 ->
  hx_call y = ClaimHandle k f' p -> acts_on y = Some m ->
  is_ok (h_apply cfg (run (h1 ++ x :: h2)) y) = false.
Proof.
  intros H Hc Ha Hs Hf Hy Hay. pose proof (run_inv cfg Hr Hm h1) as I.
  destruct (name_after _ _ _ k f p _ I H ltac:(by rewrite Hc) Ha) as (d & Hn & _).
  assert (I1 : hinv st1) by (apply apply_dispatch in H; eapply dispatch_inv; [..|exact H]; done).
  inversion Hs as [|? ? Hs' Hall]; subst.
  assert (Hmid : StronglySorted (fun a c => he_block (hx_env a) <= he_block (hx_env c)) h2
            /\ Forall (fun z => he_block (hx_env z) <= he_block (hx_env y)) h2).
  { clear -Hs'. induction h2 as [|z h2 IH]; [split; constructor|]. cbn in Hs'. inversion Hs' as [|? ? Hs Hall]; subst.
    apply IH in Hs as [? ?]. apply Forall_app in Hall as [? Hlast]. split; [by constructor|].
    constructor; [by inversion Hlast|done]. }
  destruct Hmid as [Hsm Hle]. apply Forall_app in Hall as [Hge Hy2]. inversion Hy2 as [|? ? Hxy _]; subst.
  destruct (is_ok _) eqn:E; [exfalso|done].
  destruct (h_apply cfg (run (h1 ++ x :: h2)) y) as [st'|] eqn:Ey; [|done].
  apply apply_dispatch in Ey. rewrite Hy in Ey.
  assert (Hok : is_ok (h_dispatch cfg (hx_env y) (run (h1 ++ x :: h2)) (hx_origin y) (ClaimHandle k f' p)) = true) by (by rewrite Ey).
  apply dispatch_claim_iff in Hok as (_ & m' & s & (_ & Hk & Hb & _) & Hg); [|by apply run_inv].
  unfold acts_on in Hay. rewrite Hy in Hay. assert (m' = m) as -> by congruence.
  apply get_handle_none in Hg; [|by apply run_inv].
  rewrite run_app in Hg. cbn in Hg. unfold h_step in Hg at 2. rewrite H in Hg. fold (h_run cfg st1 h2) in Hg.
  destruct (no_replay_from st1 h2 (he_block (hx_env x)) I1 m d (hp_exp p)) as [[d' Hd']|He]; [by left| |done| |].
  - rewrite Forall_forall in *. intros z Hz. destruct (Hf z Hz) as [? ?]. split; [done|]. split; [by apply Hge|done].
  - congruence.
  - destruct (last h2) as [z|] eqn:El; [|lia]. apply last_Some in El as [l ->].
    rewrite Forall_forall in Hle. specialize (Hle z ltac:(apply elem_of_app; right; by left)). lia.
Qed.

(** ** C59 *)
Lemma next_suffixes_lemma h base s n : from_utf8 base = Some s ->
  get_next_suffixes cfg (run h) base n = take (N.to_nat n) (drop (used cfg (budget cfg s) (claimed (run h))) (sequence cfg s)).
Proof.
  intros Hs. unfold get_next_suffixes. rewrite Hs, canonical_base_eq, next_index_eq by (try done; by apply run_inv).
  rewrite Nat2N.id. done.
Qed.
Lemma next_length_lemma h base s n : from_utf8 base = Some s ->
  len (get_next_suffixes cfg (run h) base n) =
  N.min n (h_max cfg + 1 - h_min cfg - N.of_nat (used cfg (budget cfg s) (claimed (run h)))).
Proof.
  intros Hs. rewrite (next_suffixes_lemma _ _ _ _ Hs). unfold len. rewrite take_length, drop_length, (seq_len cfg Hr Hm).
  unfold range_size. lia.
Qed.
Lemma next_fresh_lemma h base s n y : from_utf8 base = Some s -> y ∈ get_next_suffixes cfg (run h) base n ->
  h_min cfg <= y <= h_max cfg /\
  forall m d s' x', (m, d) ∈ claimed (run h) -> parts d = Some (s', x') -> form cfg s' = form cfg s -> x' <> y.
Proof.
  intros Hs Hy. pose proof (run_inv cfg Hr Hm h) as I. rewrite (next_suffixes_lemma _ _ _ _ Hs) in Hy.
  apply elem_of_take in Hy as (i & Hi & _). rewrite lookup_drop in Hi.
  split; [by eapply seq_elem|]. intros m d s' x' Hin Hp Hf ->.
  apply elem_of_list_split in Hin as (l1 & l2 & E).
  destruct (inv_seq _ _ I _ _ _ _ E) as (b1 & s1 & x1 & Hd & _ & Hx).
  apply (wf_parts cfg) in Hd; [|done]. assert (s1 = s' /\ x1 = y) as [-> ->] by (by split; congruence).
  rewrite (seq_form cfg s' s) in Hx by (by rewrite Hf).
  assert (Hb : budget cfg s' = budget cfg s) by (unfold budget; by rewrite Hf). rewrite Hb in Hx.
  pose proof (NoDup_lookup _ _ _ _ (seq_nodup cfg Hr Hm s) Hi Hx) as Heq.
  pose proof (used_split cfg (budget cfg s) l1 m d l2 s' y Hp Hb) as Hlt. rewrite <- E in Hlt. lia.
Qed.
Lemma next_nodup_lemma h base s n : from_utf8 base = Some s -> NoDup (get_next_suffixes cfg (run h) base n).
Proof.
  intros Hs. rewrite (next_suffixes_lemma _ _ _ _ Hs). pose proof (seq_nodup cfg Hr Hm s) as H.
  rewrite <- (take_drop (used cfg (budget cfg s) (claimed (run h))) (sequence cfg s)) in H.
  apply NoDup_app in H as (_ & _ & H).
  rewrite <- (take_drop (N.to_nat n) (drop _ (sequence cfg s))) in H. by apply NoDup_app in H as (H & _ & _).
Qed.
Lemma next_shift_lemma h x k f p st' n s : h_apply cfg (run h) x = Ok st' -> claim_of (hx_call x) = Some (k, f, p) ->
  from_utf8 (hp_base p) = Some s ->
  exists m y, claimed st' = claimed (run h) ++ [(m, display (hp_base p) y)]
    /\ get_next_suffixes cfg (run h) (hp_base p) (n + 1) = y :: get_next_suffixes cfg st' (hp_base p) n.
Proof.
  intros H Hc Hs. destruct (claim_effect_lemma h x k f p st' H Hc) as (m & s' & y & _ & Hs' & Hh & Hg & Hcl & _).
  rewrite Hs in Hs'. injection Hs' as <-. exists m, y. split; [done|].
  assert (E : st' = run (h ++ [x])) by (rewrite run_app; cbn; unfold h_step; by rewrite H).
  assert (I : hinv st') by (rewrite E; by apply run_inv).
  destruct (handle_facts _ _ _ I Hg) as (s1 & b & e & Hs1 & _ & _ & _ & Hp & _). cbn in Hs1, Hp.
  rewrite Hs in Hs1. injection Hs1 as <-.
  rewrite (next_suffixes_lemma h _ s _ Hs) in Hh. rewrite (next_suffixes_lemma h _ s _ Hs). rewrite E, (next_suffixes_lemma _ _ s _ Hs), <- E, Hcl, used_app, (used_one _ _ _ _ _ _ Hp).
  rewrite bool_decide_eq_true_2 by done.
  rewrite Nat.add_1_r.
  set (u := used cfg (budget cfg s) (claimed (run h))) in *.
  destruct (sequence cfg s !! u) as [z|] eqn:Ez.
  - rewrite (drop_S _ _ _ Ez) in *. cbn in Hh. injection Hh as ->.
    replace (N.to_nat (n + 1)) with (S (N.to_nat n)) by lia. done.
  - apply lookup_ge_None in Ez. rewrite drop_ge in Hh by done. done.
Qed.
Lemma not_claimed h env o k f p s : from_utf8 (hp_base p) = Some s -> form cfg s = [] ->
  is_ok (h_dispatch cfg env (run h) o (ClaimHandle k f p)) = false.
Proof.
  intros Hs Hf. apply Is_true_false. intros H. apply Is_true_true in H.
  apply dispatch_claim_iff in H; [|by apply run_inv].
  destruct H as (_ & m & s' & (_ & _ & _ & _ & (Hs' & _ & _ & _ & Hl & _) & _) & _).
  rewrite Hs in Hs'. injection Hs' as <-. rewrite Hf, len_nil in Hl. lia.
Qed.
Lemma validate_lemma base s : acceptable cfg base s -> validate_handle cfg base = true.
Proof.
  intros Ha. apply acceptable_iff in Ha as (H1 & H2 & _). unfold validate_handle. rewrite H1, canonical_base_eq. cbn [fst]. by rewrite H2.
Qed.
Lemma validate_iff base : validate_handle cfg base = true <->
  exists s, from_utf8 base = Some s /\ 3 <= len s <= 20 /\ s ∉ reserved_words
    /\ Forall (fun c => c ∉ blocked_characters) s /\ Forall (fun c => allowed_char c = true) (form cfg s).
Proof.
  unfold validate_handle, validate_base_handle, HANDLE_CHARS_MIN, HANDLE_CHARS_MAX. destruct (from_utf8 base) as [s|].
  2:{ split; [done|]. by intros (s & H & _). }
  assert (Hb : contains_blocked_characters s = false <-> Forall (fun c => c ∉ blocked_characters) s).
  { unfold contains_blocked_characters. rewrite Forall_forall. split.
    - intros H c Hc Hin. assert (existsb (fun c => bool_decide (c ∈ blocked_characters)) s = true); [|congruence].
      apply existsb_exists. exists c. split; [by apply elem_of_list_In|]. by apply bool_decide_eq_true.
    - intros H. destruct (existsb _ s) eqn:E; [|done]. apply existsb_exists in E as (c & Hc & Hb).
      apply bool_decide_eq_true in Hb. by apply H in Hb; [|apply elem_of_list_In]. }
  assert (Hs : is_ok (validate_supported (form cfg s)) = true <-> Forall (fun c => allowed_char c = true) (form cfg s)).
  { unfold validate_supported, consists_of_supported. rewrite Forall_forall. split.
    - destruct (forallb _ _) eqn:E; [|done]. intros _ c Hc. rewrite forallb_forall in E. apply E. by apply elem_of_list_In.
    - intros H. replace (forallb allowed_char (form cfg s)) with true; [done|]. symmetry. apply forallb_forall.
      intros c Hc. apply H. by apply elem_of_list_In. }
  unfold is_reserved_handle. split.
  - destruct (_ && _) eqn:E1; [|done]. destruct (bool_decide (s ∈ reserved_words)) eqn:E2; [done|].
    apply bool_decide_eq_false in E2. cbn [negb]. destruct (contains_blocked_characters s); [done|]. cbn [negb].
    rewrite canonical_base_eq. cbn [fst]. intros H. exists s. split; [done|]. split; [lia|]. split; [done|].
    split; [by apply Hb|by apply Hs].
  - intros (s' & H & H1 & H2 & H3 & H4). injection H as <-. replace (_ && _) with true by lia.
    rewrite bool_decide_eq_false_2 by done. cbn [negb]. rewrite (proj2 Hb H3). cbn [negb]. rewrite canonical_base_eq. cbn [fst].
    by apply Hs.
Qed.
End final.

(** ** Payload bytes *)
Lemma handle_payload_inj p q : Forall (fun b => b < 256) (hp_base p) -> Forall (fun b => b < 256) (hp_base q) ->
  len (hp_base p) <= 32 -> len (hp_base q) <= 32 -> hp_exp p <= u32_max -> hp_exp q <= u32_max ->
  wrap_binary_data (enc_handle p) = wrap_binary_data (enc_handle q) -> p = q.
Proof.
  intros _ _ Hp Hq Hep Heq H. unfold wrap_binary_data in H. apply app_inv_head in H. apply app_inv_tail in H.
  unfold enc_handle, enc_bytes, compact in H.
  rewrite (proj2 (N.ltb_lt (len (hp_base p)) 64)) in H by lia. rewrite (proj2 (N.ltb_lt (len (hp_base q)) 64)) in H by lia.
  cbn [app] in H. injection H as Hl H.
  assert (Hlen : length (hp_base p) = length (hp_base q)) by (unfold len in *; lia).
  apply app_inj_1 in H as [Hb He]; [|done].
  unfold u32_max in *.
  apply (f_equal le_val) in He. unfold enc_u32 in He. rewrite !le_val_bytes in He by (change (256 ^ N.of_nat 4) with 4294967296; lia).
  destruct p, q; cbn in *; congruence.
Qed.

Lemma allowed_in_range c : allowed_char c = true -> c < 65536 -> exists lo hi, (lo, hi) ∈ allowed_ranges /\ lo <= c <= hi.
Proof.
  unfold allowed_char. intros H Hc. rewrite N.mod_small in H by done. apply existsb_exists in H as ((lo & hi) & Hin & H).
  exists lo, hi. split; [by apply elem_of_list_In|]. cbn in H. lia.
Qed.

(** ** Display handles *)
Lemma build_split_lemma s x d : Forall scalar s -> 46 ∉ s -> x <= u16_max -> build_full_display_handle s x = Ok d ->
  exists u, from_utf8 d = Some u /\ split_display_name u = Some (s, x).
Proof.
  intros Hs Hd Hx H. unfold build_full_display_handle in H. destruct (_ <=? _); [|done]. injection H as <-.
  exists (s ++ [46] ++ digits x). split; [by apply from_display|by apply split_display].
Qed.
Lemma digits_len x : x <= u16_max -> len (digits x) <= 5.
Proof. intros H. destruct (digits_spec x H) as (_ & _ & H'). unfold len. lia. Qed.
Lemma build_total_lemma s x : len (utf8 s) <= 32 -> x <= u16_max -> build_full_display_handle s x = Ok (display (utf8 s) x).
Proof.
  intros H Hx. unfold build_full_display_handle, HANDLE_BYTES_MAX, SUFFIX_MAX_DIGITS. pose proof (digits_len x Hx).
  replace (_ <=? _) with true; [done|]. symmetry. apply N.leb_le. rewrite !len_app. change (len [HANDLE_DELIMITER]) with 1. lia.
Qed.
