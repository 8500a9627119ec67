(** Proofs for HogProperties.v. *)
From Verif Require Import Prelude Scale Utf8 HModel HSpec HProofs HFinal HProperties HogSpec.

Section hog.
Context (cfg : HCfg) (Hr : rng_ok (h_rng cfg)) (Hm : range_ok cfg).
Local Notation run h := (h_run cfg h_genesis h).
Local Notation cnt b h := (used cfg b (claimed (run h))).
Local Notation total := (N.to_nat (h_max cfg + 1 - h_min cfg)).

Lemma run_snoc h x : run (h ++ [x]) = h_step cfg (run h) x.
Proof. unfold h_run. by rewrite fold_left_app. Qed.

Lemma apply_ok h x st' : h_apply cfg (run h) x = Ok st' -> h_dispatch cfg (hx_env x) (run h) (hx_origin x) (hx_call x) = Ok st'.
Proof.
  unfold h_apply. destruct (hx_top x), (hx_origin x); try done. by destruct (extension_ok _ _ _ _).
Qed.

Lemma took h x k f p st' b : h_apply cfg (run h) x = Ok st' -> claim_of (hx_call x) = Some (k, f, p) ->
  exists m s, he_msa_of (hx_env x) k = Some m /\ from_utf8 (hp_base p) = Some s
    /\ get_handle_for_msa cfg (run (h ++ [x])) m <> None
    /\ cnt b (h ++ [x]) = (cnt b h + if bool_decide (budget cfg s = b) then 1 else 0)%nat.
Proof.
  intros H Hc. assert (Hst : run (h ++ [x]) = st') by (rewrite run_snoc; unfold h_step; by rewrite H).
  destruct (C51_claim_gives_handle cfg h x k f p st' Hr Hm H Hc) as (m & s & y & Ha & Hu & _ & Hg & Hcl & _).
  rewrite <- Hst in Hg, Hcl.
  destruct (C51_own_name_has_own_parts cfg _ m _ Hr Hm Hg) as (s' & Hu' & _ & Hp & _). cbn [hr_base hr_suffix] in Hu', Hp.
  assert (s' = s) as -> by congruence.
  exists m, s. split; [|split; [done|split; [by rewrite Hg|]]].
  - unfold acts_on in Ha. destruct (hx_call x); cbn in Hc; by simplify_eq.
  - rewrite Hcl, used_app, (used_one cfg b m _ s y) by exact Hp. done.
Qed.

Lemma retire_used h x st' b : h_apply cfg (run h) x = Ok st' -> hx_call x = RetireHandle -> cnt b (h ++ [x]) = cnt b h.
Proof.
  intros H Hc. rewrite run_snoc. unfold h_step. rewrite H. apply apply_ok in H. rewrite Hc in H. cbn [h_dispatch] in H.
  destruct (hx_origin x) as [who|]; [|done]. cbn [h_dispatch] in H. unfold retire_handle in H.
  destruct (he_msa_of (hx_env x) who) as [m|]; [|done].
  destruct (do_retire cfg (run h) m) as [[st1 d]|] eqn:E; [|done]. cbn in H. injection H as <-.
  apply (do_retire_ok cfg Hm _ _ _ _ (run_inv cfg Hr Hm h)) in E as (e & s & y & Hn & Hp & ->).
  rewrite claimed_emit_retired. done.
Qed.

Lemma step_cases h x b : cnt b (h ++ [x]) = cnt b h
  \/ exists k f p s, claim_of (hx_call x) = Some (k, f, p) /\ from_utf8 (hp_base p) = Some s /\ budget cfg s = b
     /\ cnt b (h ++ [x]) = S (cnt b h).
Proof.
  destruct (h_apply cfg (run h) x) as [st'|] eqn:E.
  2:{ left. rewrite run_snoc. unfold h_step. by rewrite E. }
  destruct (claim_of (hx_call x)) as [[[k f] p]|] eqn:Ec.
  - destruct (took h x k f p st' b E Ec) as (m & s & _ & Hs & _ & Hc). case_bool_decide.
    + right. exists k, f, p, s. split_and!; [done..|]. lia.
    + left. lia.
  - left. eapply retire_used; [exact E|]. by destruct (hx_call x).
Qed.

Lemma cnt_mono h h2 b : (cnt b h <= cnt b (h ++ h2))%nat.
Proof.
  induction h2 as [|x h2 IH] using rev_ind; [by rewrite app_nil_r|]. rewrite app_assoc.
  destruct (step_cases (h ++ h2) x b) as [->|(k & f & p & s & _ & _ & _ & ->)]; lia.
Qed.

Lemma full_refused h x k f p s : (total <= cnt (budget cfg s) h)%nat ->
  claim_of (hx_call x) = Some (k, f, p) -> forall s', from_utf8 (hp_base p) = Some s' -> budget cfg s' = budget cfg s ->
  exists e, h_apply cfg (run h) x = Err e.
Proof.
  intros Hf Hc s' Hs' Hb. destruct (h_apply cfg (run h) x) as [st'|e] eqn:E; [|by exists e]. exfalso.
  apply apply_ok in E.
  assert (exists m t, claim_allowed cfg (hx_env x) (run h) k f p m t) as (m & t & Ha).
  { destruct (hx_call x) as [k0 f0 p0| |k0 f0 p0]; cbn in Hc; simplify_eq.
    - destruct (proj1 (C52_claim_accepted_iff cfg h (hx_env x) (hx_origin x) k f p Hr Hm)) as (_ & m & t & Ha & _); [by rewrite E|].
      by exists m, t.
    - destruct (proj1 (C52_change_accepted_iff cfg h (hx_env x) (hx_origin x) k f p Hr Hm)) as (_ & m & t & Ha & _); [by rewrite E|].
      by exists m, t. }
  destruct Ha as (_ & _ & _ & _ & (Ht & _) & Hlt). assert (t = s') as -> by congruence. rewrite Hb in Hlt. lia.
Qed.

Lemma hog_fills h env who k f p m s :
  len (hp_base p) <= 32 -> he_msa_of env k = Some m ->
  he_block env < hp_exp p < wrap_add u32_max (he_block env) (h_window cfg) ->
  h_verify cfg f k (wrap_binary_data (enc_handle p)) = true -> acceptable cfg (hp_base p) s ->
  forall n, (total <= cnt (budget cfg s) (h ++ hog n env who k f p))%nat
    \/ ((n <= cnt (budget cfg s) (h ++ hog n env who k f p))%nat /\ get_handle_for_msa cfg (run (h ++ hog n env who k f p)) m <> None).
Proof.
  intros Hl Hk Hb Hv Ha. assert (Hs : from_utf8 (hp_base p) = Some s) by apply Ha.
  assert (Hok : forall h', (cnt (budget cfg s) h' < total)%nat -> claim_allowed cfg env (run h') k f p m s) by (intros; done).
  induction n as [|n IH].
  - unfold hog. cbn [repeat]. set (x := {| hx_env := env; hx_top := true; hx_origin := Some who; hx_call := ClaimHandle k f p |}).
    destruct (decide (total <= cnt (budget cfg s) h)%nat) as [Hd|Hd].
    { left. pose proof (cnt_mono h [x] (budget cfg s)). lia. }
    right. split; [lia|]. destruct (get_handle_for_msa cfg (run h) m) as [r|] eqn:Eg.
    + destruct (h_apply cfg (run h) x) as [st'|] eqn:E.
      * destruct (took h x k f p st' (budget cfg s) E eq_refl) as (m' & s' & Hm' & _ & Hg & _). cbn [hx_env x] in Hm'.
        by assert (m' = m) as -> by congruence.
      * rewrite run_snoc. unfold h_step. rewrite E. by rewrite Eg.
    + assert (Hacc : is_ok (h_dispatch cfg env (run h) (Some who) (ClaimHandle k f p)) = true).
      { apply (C52_claim_accepted_iff cfg h env (Some who) k f p Hr Hm). split; [by exists who|]. exists m, s. split; [|done].
        apply Hok. lia. }
      destruct (h_dispatch cfg env (run h) (Some who) (ClaimHandle k f p)) as [st'|] eqn:E; [|done].
      destruct (took h x k f p st' (budget cfg s)) as (m' & s' & Hm' & _ & Hg & _); [|done|].
      { unfold h_apply; cbn [hx_top hx_origin hx_env hx_call x extension_ok]. exact E. }
      cbn [hx_env x] in Hm'. by assert (m' = m) as -> by congruence.
  - set (x := {| hx_env := env; hx_top := true; hx_origin := Some who; hx_call := ChangeHandle k f p |}).
    assert (Heq : h ++ hog (S n) env who k f p = (h ++ hog n env who k f p) ++ [x]).
    { unfold hog. rewrite <- app_assoc. f_equal. cbn [app]. f_equal. fold x. cbn [repeat]. apply repeat_cons. }
    rewrite Heq. set (h' := h ++ hog n env who k f p) in *.
    destruct (decide (total <= cnt (budget cfg s) h')%nat) as [Hd|Hd].
    { left. pose proof (cnt_mono h' [x] (budget cfg s)). lia. }
    destruct IH as [IH|[IH1 IH2]]; [done|].
    assert (Hacc : is_ok (h_dispatch cfg env (run h') (Some who) (ChangeHandle k f p)) = true).
    { apply (C52_change_accepted_iff cfg h' env (Some who) k f p Hr Hm). split; [by exists who|]. exists m, s. split; [|done].
      apply Hok. lia. }
    destruct (h_dispatch cfg env (run h') (Some who) (ChangeHandle k f p)) as [st'|] eqn:E; [|done].
    destruct (took h' x k f p st' (budget cfg s)) as (m' & s' & Hm' & Hs' & Hg & Hc); [|done|].
    { unfold h_apply; cbn [hx_top hx_origin hx_env hx_call x extension_ok]. exact E. }
    cbn [hx_env x] in Hm'. assert (m' = m) as -> by congruence. assert (s' = s) as -> by congruence.
    rewrite bool_decide_eq_true_2 in Hc by done. right. split; [lia|done].
Qed.

Lemma hogged h env who k f p m s h2 x k' f' p' s' :
  len (hp_base p) <= 32 -> he_msa_of env k = Some m ->
  he_block env < hp_exp p < wrap_add u32_max (he_block env) (h_window cfg) ->
  h_verify cfg f k (wrap_binary_data (enc_handle p)) = true -> acceptable cfg (hp_base p) s ->
  claim_of (hx_call x) = Some (k', f', p') -> from_utf8 (hp_base p') = Some s' -> budget cfg s' = budget cfg s ->
  exists e, h_apply cfg (run (h ++ hog total env who k f p ++ h2)) x = Err e.
Proof.
  intros Hl Hk Hb Hv Ha Hc Hs' Hbud. rewrite app_assoc.
  eapply full_refused; [|exact Hc|exact Hs'|exact Hbud].
  pose proof (cnt_mono (h ++ hog total env who k f p) h2 (budget cfg s)).
  destruct (hog_fills h env who k f p m s Hl Hk Hb Hv Ha total) as [?|[? _]]; lia.
Qed.

Lemma others_free h h2 b : other_names cfg b h2 -> cnt b (h ++ h2) = cnt b h.
Proof.
  induction h2 as [|x h2 IH] using rev_ind; intros Ho; [by rewrite app_nil_r|].
  apply Forall_app in Ho as [Ho1 Ho2]. inversion Ho2 as [|? ? Hx _]; subst. rewrite app_assoc, <- IH by done.
  destruct (step_cases (h ++ h2) x b) as [->|(k & f & p & s & Hc & Hs & Hb & _)]; [done|]. by destruct (Hx _ _ _ _ Hc Hs).
Qed.

Lemma still_free h h2 env env' o o' k f p k' f' p' m s s' :
  is_ok (h_dispatch cfg env (run h) o (ClaimHandle k f p)) = true -> from_utf8 (hp_base p) = Some s ->
  other_names cfg (budget cfg s) h2 ->
  (exists who, o' = Some who) -> len (hp_base p') <= 32 -> he_msa_of env' k' = Some m ->
  he_block env' < hp_exp p' < wrap_add u32_max (he_block env') (h_window cfg) ->
  h_verify cfg f' k' (wrap_binary_data (enc_handle p')) = true -> acceptable cfg (hp_base p') s' ->
  budget cfg s' = budget cfg s -> get_handle_for_msa cfg (run (h ++ h2)) m = None ->
  is_ok (h_dispatch cfg env' (run (h ++ h2)) o' (ClaimHandle k' f' p')) = true.
Proof.
  intros Hok Hs Ho Ho' Hl Hk Hb Hv Ha Hbud Hg.
  apply (C52_claim_accepted_iff cfg h env o k f p Hr Hm) in Hok as (_ & m0 & t & (_ & _ & _ & _ & (Ht & _) & Hlt) & _).
  assert (t = s) as -> by congruence.
  apply (C52_claim_accepted_iff cfg (h ++ h2) env' o' k' f' p' Hr Hm). split; [done|]. exists m, s'. split; [|done].
  unfold claim_allowed. rewrite Hbud, others_free by done. done.
Qed.
End hog.
