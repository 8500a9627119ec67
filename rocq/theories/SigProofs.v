(** Proofs about the signature registry. *)
From Verif Require Import Prelude SigModel SigSpec.

(** The linked list that represents a queue (oldest first). *)
Fixpoint links (q : list (N * N)) : list (N * (N * N)) :=
  match q with
  | x :: ((y :: _) as q') => (x.1, (x.2, y.1)) :: links q'
  | _ => []
  end.

Lemma links_fst q : (links q).*1 = take (length q - 1) q.*1.
Proof.
  induction q as [|x q IH]; [done|].
  destruct q as [|y q]; [done|].
  change (links (x :: y :: q)) with ((x.1, (x.2, y.1)) :: links (y :: q)).
  rewrite fmap_cons, IH. cbn. f_equal. by rewrite Nat.sub_0_r.
Qed.

Lemma links_snoc2 q a b : links ((q ++ [a]) ++ [b]) = links (q ++ [a]) ++ [(a.1, (a.2, b.1))].
Proof.
  induction q as [|x q IH]; [done|].
  destruct q as [|y q]; [done|].
  change (((x :: y :: q) ++ [a]) ++ [b]) with (x :: y :: ((q ++ [a]) ++ [b])).
  change ((x :: y :: q) ++ [a]) with (x :: y :: (q ++ [a])).
  cbn [links]. cbn [links app] in IH. rewrite IH. done.
Qed.

Lemma links_in q s : s ∈ (links q).*1 -> s ∈ q.*1.
Proof.
  rewrite links_fst. intros H. eapply elem_of_submseteq; [done|].
  apply sublist_submseteq, sublist_take.
Qed.

Lemma links_nodup q : NoDup (q.*1) -> NoDup ((links q).*1).
Proof.
  intros H. rewrite links_fst.
  rewrite <- (take_drop (length q - 1) (q.*1)) in H. by apply NoDup_app in H as [? _].
Qed.

Lemma links_all q a s : s ∈ (q ++ [a]).*1 -> s ∈ (links (q ++ [a])).*1 \/ s = a.1.
Proof.
  rewrite links_fst, fmap_app, app_length. cbn.
  replace (length q + 1 - 1)%nat with (length (q.*1)) by (rewrite fmap_length; lia).
  rewrite take_app. rewrite elem_of_app, elem_of_list_singleton. tauto.
Qed.

Lemma links_last_notin q a : NoDup ((q ++ [a]).*1) -> a.1 ∉ (links (q ++ [a])).*1.
Proof.
  intros Hnd. rewrite links_fst, fmap_app, app_length in *. cbn.
  replace (length q + 1 - 1)%nat with (length (q.*1)) by (rewrite fmap_length; lia).
  rewrite take_app. apply NoDup_app in Hnd as (_ & H & _).
  intros Hin. apply (H _ Hin). cbn. left.
Qed.

(** The storage represents the queue [q]. *)
Definition rep (maxsig : N) (reg : SigReg) (q : list (N * N)) : Prop :=
  NoDup (q.*1) /\ len q <= maxsig /\
  sr_list reg = list_to_map (links q) /\
  match q with
  | [] => sr_ptr reg = None
  | x :: _ => exists l, last q = Some l /\
      sr_ptr reg = Some {| sp_newest := l.1; sp_newest_exp := l.2; sp_oldest := x.1; sp_count := len q |}
  end.

Lemma rep_empty maxsig : rep maxsig sig_empty [].
Proof. split; [apply NoDup_nil_2|]. split; [unfold len; cbn; lia|]. done. Qed.

Lemma list_to_map_snoc_new (l : list (N * (N * N))) k v :
  NoDup (l.*1) -> k ∉ l.*1 ->
  (list_to_map (l ++ [(k, v)]) : gmap N (N * N)) = <[k := v]> (list_to_map l).
Proof.
  intros Hnd Hk.
  rewrite <- (list_to_map_cons l k v).
  apply list_to_map_proper.
  - rewrite fmap_app. apply NoDup_app. split; [done|]. split; [|cbn; apply NoDup_singleton].
    intros x Hx. cbn. rewrite elem_of_list_singleton. by intros ->.
  - by rewrite Permutation_app_comm.
Qed.

(** Membership test of [register_signature] + the pointer test. *)
Lemma rep_mem maxsig reg q s :
  rep maxsig reg q ->
  (is_Some (sr_list reg !! s) \/ (exists p, sr_ptr reg = Some p /\ sp_newest p = s)) <-> s ∈ q.*1.
Proof.
  intros (Hnd & Hlen & Hl & Hp). split.
  - intros [[v Hv]|[p [Hp' <-]]].
    + rewrite Hl in Hv. apply elem_of_list_to_map_2 in Hv.
      apply links_in. apply elem_of_list_fmap. by exists (s, v).
    + destruct q as [|x q']; [congruence|]. destruct Hp as (l & Hlast & Hp).
      rewrite Hp in Hp'. injection Hp' as <-. cbn [sp_newest].
      apply last_Some in Hlast as [l' Hl'].
      rewrite Hl', fmap_app. apply elem_of_app. right. left.
  - intros Hs. destruct q as [|x q' _] using rev_ind; [inversion Hs|].
    apply links_all in Hs as [Hs| ->].
    + left. rewrite Hl. apply elem_of_list_fmap in Hs as [[k v] [-> Hkv]]. exists v.
      apply elem_of_list_to_map_1; [|done]. by apply links_nodup.
    + right. destruct (q' ++ [x]) as [|y r] eqn:E; [by destruct q'|].
      destruct Hp as (l & Hlast & Hp). rewrite <- E, last_snoc in Hlast.
      injection Hlast as ->. eexists; split; [done|]. done.
Qed.

Lemma enqueue_spec maxsig reg q s exp now :
  2 <= maxsig -> rep maxsig reg q -> s ∉ q.*1 ->
  match q with
  | (o, oe) :: q' =>
      if len q =? maxsig then
        if oe <? now then exists reg', enqueue_signature maxsig reg s exp now = Ok reg' /\
                             rep maxsig reg' (q' ++ [(s, exp)])
        else enqueue_signature maxsig reg s exp now = Err SignatureRegistryLimitExceeded
      else exists reg', enqueue_signature maxsig reg s exp now = Ok reg' /\
                   rep maxsig reg' (q ++ [(s, exp)])
  | [] => exists reg', enqueue_signature maxsig reg s exp now = Ok reg' /\
                   rep maxsig reg' [(s, exp)]
  end.
Proof.
  intros Hm (Hnd & Hlen & Hl & Hp) Hs.
  destruct q as [|[o oe] q'].
  { unfold enqueue_signature. rewrite Hp. cbn.
    replace (0 =? maxsig) with false by (symmetry; apply N.eqb_neq; lia).
    eexists; split; [reflexivity|].
    repeat split; cbn.
    - apply NoDup_singleton.
    - change (len [(s, exp)]) with 1. lia.
    - done.
    - exists (s, exp). split; done. }
  destruct Hp as ([ls le] & Hlast & Hp).
  assert (Hq : exists r, (o, oe) :: q' = r ++ [(ls, le)]) by (by apply last_Some).
  destruct Hq as [r Hr].
  unfold enqueue_signature. rewrite Hp. cbn [sp_count sp_newest sp_newest_exp sp_oldest fst snd].
  assert (Hc0 : (len ((o, oe) :: q') =? 0) = false).
  { apply N.eqb_neq. rewrite len_cons. lia. }
  rewrite Hc0. cbn [negb andb].
  assert (Hne : (ls =? s) = false).
  { apply N.eqb_neq. intros ->. apply Hs. rewrite Hr, fmap_app. apply elem_of_app. right. left. }
  rewrite Hne. cbn [negb].
  assert (Hsl : forall x, x ∈ (links ((o, oe) :: q')).*1 -> x <> s).
  { intros x Hx ->. apply Hs. by apply links_in. }
  (* inserting the newest into the list *)
  assert (Hins : <[ls := (le, s)]> (sr_list reg) = list_to_map (links (((o, oe) :: q') ++ [(s, exp)]))).
  { rewrite Hr, links_snoc2, Hl, Hr. cbn [fst snd].
    rewrite list_to_map_snoc_new; [done| |].
    - apply links_nodup. by rewrite <- Hr.
    - apply (links_last_notin r (ls, le)). by rewrite <- Hr. }
  assert (Hnd2 : NoDup ((((o, oe) :: q') ++ [(s, exp)]).*1)).
  { rewrite fmap_app. apply NoDup_app. split; [done|]. split; [|apply NoDup_singleton].
    intros x Hx. cbn. rewrite elem_of_list_singleton. by intros ->. }
  destruct (len ((o, oe) :: q') =? maxsig) eqn:Hfull.
  - (* full *)
    destruct q' as [|[o2 oe2] q''].
    { exfalso. apply N.eqb_eq in Hfull. change (len [(o, oe)]) with 1 in Hfull. lia. }
    assert (Hlk : sr_list reg !! o = Some (oe, o2)).
    { rewrite Hl. cbn [links fst snd]. rewrite list_to_map_cons. apply lookup_insert. }
    rewrite Hlk.
    destruct (oe <? now) eqn:Hexp; [|done].
    eexists; split; [reflexivity|].
    assert (Hno : o ∉ (((o2, oe2) :: q'') ++ [(s, exp)]).*1).
    { cbn in Hnd2. by inversion Hnd2. }
    assert (Hlso : ls <> o).
    { intros ->. rewrite Hr in Hnd. destruct r as [|z r]; [discriminate|].
      cbn in Hr. injection Hr as <- Hr. cbn in Hnd. inversion Hnd as [|? ? H1 H2]. apply H1.
      rewrite fmap_app. apply elem_of_app; right; left. }
    repeat split.
    + cbn in Hnd2 |- *. by inversion Hnd2.
    + rewrite len_app. apply N.eqb_eq in Hfull. rewrite len_cons in Hfull.
      change (len [(s, exp)]) with 1. lia.
    + cbn [sr_list]. rewrite <- delete_insert_ne by done. rewrite Hins.
      change (((o, oe) :: (o2, oe2) :: q'') ++ [(s, exp)]) with
        ((o, oe) :: (o2, oe2) :: (q'' ++ [(s, exp)])).
      cbn [links fst snd]. rewrite list_to_map_cons.
      rewrite delete_insert; [done|].
      apply not_elem_of_list_to_map_1. intros Hin. apply Hno.
      by apply (links_in ((o2, oe2) :: q'' ++ [(s, exp)])).
    + cbn [sr_ptr]. change (((o2, oe2) :: q'') ++ [(s, exp)]) with ((o2, oe2) :: (q'' ++ [(s, exp)])).
      exists (s, exp). split.
      * change ((o2, oe2) :: (q'' ++ [(s, exp)])) with (((o2, oe2) :: q'') ++ [(s, exp)]).
        by rewrite last_snoc.
      * do 2 f_equal. rewrite !len_cons, len_app. change (len [(s, exp)]) with 1. lia.
  - eexists; split; [reflexivity|].
    apply N.eqb_neq in Hfull.
    repeat split.
    + done.
    + rewrite len_app. change (len [(s, exp)]) with 1. lia.
    + done.
    + exists (s, exp). split; [by rewrite last_snoc|].
      cbn [sr_ptr]. do 2 f_equal. rewrite len_app. done.
Qed.

Lemma remembered_len maxsig acc : len (remembered maxsig acc) = N.min (len acc) maxsig.
Proof. unfold remembered, len. rewrite drop_length. lia. Qed.

(** One step of the implementation takes the specified decision, and keeps
    the representation of the remembered suffix. *)
Lemma register_refines maxsig window reg acc ev :
  2 <= maxsig -> rep maxsig reg (remembered maxsig acc) ->
  match spec_decide maxsig window acc ev with
  | None => exists reg', register_signature maxsig window reg (se_block ev) (se_sig ev) (se_exp ev) = Ok reg'
              /\ rep maxsig reg' (remembered maxsig (acc ++ [(se_sig ev, se_exp ev)]))
  | Some e => register_signature maxsig window reg (se_block ev) (se_sig ev) (se_exp ev) = Err e
  end.
Proof.
  intros Hm Hrep. unfold spec_decide, register_signature.
  unfold mortality_block_limit, wrap_add. change (u32_max + 1) with 4294967296.
  rewrite !(N.ltb_antisym _ (se_exp ev)), (N.ltb_antisym (se_exp ev) (se_block ev)).
  destruct (_ <=? se_exp ev) eqn:E1; cbn [negb]; [done|].
  destruct (se_exp ev <=? _) eqn:E2; cbn [negb]; [done|].
  case_bool_decide as Hin.
  { apply (rep_mem _ _ _ _ Hrep) in Hin.
    destruct (sr_list reg !! se_sig ev) eqn:Hlk; [done|].
    destruct Hin as [[? ?]|[p [Hp Hpn]]]; [congruence|].
    unfold enqueue_signature. rewrite Hp.
    destruct (remembered maxsig acc) as [|x q] eqn:Eq.
    { destruct Hrep as (_ & _ & _ & Hptr). congruence. }
    destruct Hrep as (_ & _ & _ & (l & _ & Hptr)). rewrite Hp in Hptr. injection Hptr as ->. cbn in *.
    rewrite Hpn, N.eqb_refl.
    replace (len (x :: q) =? 0) with false; [done|].
    symmetry; apply N.eqb_neq; rewrite len_cons; lia. }
  assert (Hlk : sr_list reg !! se_sig ev = None).
  { apply eq_None_not_Some. intros H. apply Hin. apply (rep_mem _ _ _ _ Hrep). by left. }
  rewrite Hlk.
  pose proof (enqueue_spec maxsig reg _ (se_sig ev) (se_exp ev) (se_block ev) Hm Hrep Hin) as He.
  pose proof (remembered_len maxsig acc) as Hrl.
  destruct (remembered maxsig acc) as [|[o oe] q] eqn:Eq.
  - destruct He as (reg' & He & Hr'). exists reg'. split; [done|].
    assert (acc = []) as ->.
    { destruct acc as [|? ?]; [done|]. change (len []) with 0 in Hrl. rewrite len_cons in Hrl. lia. }
    cbn [app]. unfold remembered.
    replace (length _ - _)%nat with 0%nat by (cbn; lia). rewrite drop_0. done.
  - destruct (len ((o, oe) :: q) =? maxsig) eqn:Hfull; cbn [andb].
    + destruct (oe <? se_block ev) eqn:Hexp.
      * replace (se_block ev <=? oe) with false by lia.
        destruct He as (reg' & He & Hr'). exists reg'. split; [done|].
        replace (remembered maxsig (acc ++ [(se_sig ev, se_exp ev)])) with (q ++ [(se_sig ev, se_exp ev)]); [done|].
        unfold remembered in Eq |- *. rewrite app_length. cbn [length].
        apply N.eqb_eq in Hfull.
        assert (maxsig <= len acc) by lia.
        unfold len in *.
        replace (length acc + 1 - N.to_nat maxsig)%nat with (S (length acc - N.to_nat maxsig))%nat by lia.
        rewrite drop_app_le by lia. f_equal.
        rewrite <- Nat.add_1_r, <- drop_drop, Eq. done.
      * replace (se_block ev <=? oe) with true by lia. done.
    + destruct He as (reg' & He & Hr'). exists reg'. split; [done|].
      replace (remembered maxsig (acc ++ [(se_sig ev, se_exp ev)]))
        with (((o, oe) :: q) ++ [(se_sig ev, se_exp ev)]); [done|].
      rewrite <- Eq. unfold remembered. rewrite app_length. cbn [length].
      apply N.eqb_neq in Hfull. unfold len in *.
      replace (length acc + 1 - N.to_nat maxsig)%nat with 0%nat by lia.
      replace (length acc - N.to_nat maxsig)%nat with 0%nat by lia.
      by rewrite !drop_0.
Qed.

Lemma sig_run_refines_gen maxsig window h : forall reg acc,
  2 <= maxsig -> rep maxsig reg (remembered maxsig acc) ->
  (sig_run maxsig window reg h).2 = spec_run maxsig window acc h.
Proof.
  induction h as [|ev h IH]; intros reg acc Hm Hrep; [done|].
  cbn [sig_run spec_run].
  pose proof (register_refines maxsig window reg acc ev Hm Hrep) as Hs.
  destruct (spec_decide maxsig window acc ev) as [e|].
  - rewrite Hs. specialize (IH reg acc Hm Hrep).
    destruct (sig_run maxsig window reg h). cbn in *. by rewrite IH.
  - destruct Hs as (reg' & -> & Hrep'). specialize (IH reg' _ Hm Hrep').
    destruct (sig_run maxsig window reg' h). cbn in *. by rewrite IH.
Qed.

Lemma sig_run_refines_lemma maxsig window h :
  2 <= maxsig -> (sig_run maxsig window sig_empty h).2 = spec_run maxsig window [] h.
Proof. intros Hm. apply sig_run_refines_gen; [done|]. apply rep_empty. Qed.

(** Accepted signatures so far stay remembered while unexpired: for every
    prefix of the history. *)
Definition accepted (h : list SigEv) (os : list (option SigErr)) : list (N * N) :=
  omap (fun p => match p.2 with None => Some (se_sig p.1, se_exp p.1) | Some _ => None end) (zip h os).

(** [acc_covered]: signatures no longer remembered have expired before block b. *)
Definition covered (maxsig b : N) (acc : list (N * N)) : Prop :=
  forall s e, (s, e) ∈ take (length acc - N.to_nat maxsig) acc -> e < b.

Lemma covered_mono maxsig b b' acc : covered maxsig b acc -> b <= b' -> covered maxsig b' acc.
Proof. intros H Hb s e Hin. specialize (H s e Hin). lia. Qed.

Lemma spec_step_covered maxsig window acc ev :
  2 <= maxsig -> covered maxsig (se_block ev) acc ->
  spec_decide maxsig window acc ev = None ->
  covered maxsig (se_block ev) (acc ++ [(se_sig ev, se_exp ev)]).
Proof.
  intros Hm Hc Hd s e. rewrite app_length. cbn [length].
  destruct (decide (length acc < N.to_nat maxsig)%nat) as [Hlt|Hge].
  { replace (length acc + 1 - N.to_nat maxsig)%nat with 0%nat by lia. cbn. intros H; inversion H. }
  unfold spec_decide in Hd.
  repeat (match type of Hd with (if ?b then _ else _) = _ => destruct b eqn:?; [discriminate|] end).
  replace (length acc + 1 - N.to_nat maxsig)%nat with (S (length acc - N.to_nat maxsig)) by lia.
  rewrite take_app_le by lia.
  assert (Hlen : len (remembered maxsig acc) = maxsig).
  { rewrite remembered_len. unfold len. lia. }
  destruct (remembered maxsig acc) as [|[o oe] q] eqn:Eq.
  { change (len []) with 0 in Hlen. lia. }
  rewrite Hlen, N.eqb_refl in Hd. cbn [andb] in Hd.
  destruct (se_block ev <=? oe) eqn:Hoe; [discriminate|].
  unfold remembered in Eq.
  assert (Hlk : acc !! (length acc - N.to_nat maxsig)%nat = Some (o, oe)).
  { rewrite <- (Nat.add_0_r (length acc - _)), <- lookup_drop, Eq. done. }
  rewrite (take_S_r _ _ _ Hlk). rewrite elem_of_app, elem_of_list_singleton.
  intros [Hin|Heq]; [by apply (Hc s e)|]. injection Heq as -> ->. lia.
Qed.

Lemma spec_no_replay maxsig window h : forall acc b0,
  2 <= maxsig -> covered maxsig b0 acc ->
  (forall j x, h !! j = Some x -> b0 <= se_block x) -> blocks_nondecreasing h ->
  forall j ev s e, (s, e) ∈ acc -> h !! j = Some ev -> se_sig ev = s -> se_exp ev <= e ->
  exists err, spec_run maxsig window acc h !! j = Some (Some err).
Proof.
  induction h as [|ev h IH]; intros acc b0 Hm Hc Hb0 Hmono j ev' s e Hin Hj Hs He; [done|].
  assert (Hc' : covered maxsig (se_block ev) acc).
  { eapply covered_mono; [done|]. apply (Hb0 0%nat). done. }
  assert (Hmono' : blocks_nondecreasing h).
  { intros i k a b Hik Hi Hk. apply (Hmono (S i) (S k)); [lia|done|done]. }
  assert (Hb' : forall k x, h !! k = Some x -> se_block ev <= se_block x).
  { intros k x Hk. apply (Hmono 0%nat (S k)); [lia|done|done]. }
  cbn [spec_run].
  destruct (spec_decide maxsig window acc ev) as [err|] eqn:Hd.
  - destruct j as [|j]; cbn in Hj.
    + injection Hj as ->. cbn. by exists err.
    + cbn. eapply (IH acc (se_block ev)); eauto.
  - destruct j as [|j]; cbn in Hj.
    + injection Hj as ->. exfalso.
      unfold spec_decide in Hd.
      destruct (_ <=? se_exp ev'); [discriminate|].
      destruct (se_exp ev' <=? se_block ev') eqn:Hlt; [discriminate|].
      case_bool_decide as Hrem; [discriminate|].
      rewrite <- (take_drop (length acc - N.to_nat maxsig) acc) in Hin.
      apply elem_of_app in Hin as [Hin|Hin].
      * apply Hc' in Hin. lia.
      * apply Hrem. unfold remembered. apply elem_of_list_fmap. exists (s, e). done.
    + cbn. eapply (IH _ (se_block ev)); eauto.
      * by apply (spec_step_covered maxsig window).
      * apply elem_of_app. by left.
Qed.

Lemma spec_replay_lemma maxsig window h : forall acc b0,
  2 <= maxsig -> covered maxsig b0 acc ->
  (forall j x, h !! j = Some x -> b0 <= se_block x) -> blocks_nondecreasing h ->
  forall i j a b, (i < j)%nat -> h !! i = Some a -> h !! j = Some b ->
  spec_run maxsig window acc h !! i = Some None ->
  se_sig b = se_sig a -> se_exp b <= se_exp a ->
  exists err, spec_run maxsig window acc h !! j = Some (Some err).
Proof.
  induction h as [|ev h IH]; intros acc b0 Hm Hc Hb0 Hmono i j a b Hij Hi Hj Hout Hs He; [done|].
  assert (Hc' : covered maxsig (se_block ev) acc).
  { eapply covered_mono; [done|]. apply (Hb0 0%nat). done. }
  assert (Hmono' : blocks_nondecreasing h).
  { intros i' k x y Hik Hi' Hk. apply (Hmono (S i') (S k)); [lia|done|done]. }
  assert (Hb' : forall k x, h !! k = Some x -> se_block ev <= se_block x).
  { intros k x Hk. apply (Hmono 0%nat (S k)); [lia|done|done]. }
  destruct j as [|j]; [lia|]. cbn in Hj.
  cbn [spec_run] in *.
  destruct (spec_decide maxsig window acc ev) as [err|] eqn:Hd.
  - destruct i as [|i]; cbn in *; [discriminate|].
    apply (IH acc (se_block ev) Hm Hc' Hb' Hmono' i j a b); try done. lia.
  - assert (Hc2 := spec_step_covered maxsig window acc ev Hm Hc' Hd).
    destruct i as [|i]; cbn in *.
    + injection Hi as ->.
      eapply (spec_no_replay maxsig window h _ (se_block a)); eauto.
      apply elem_of_app. right. left.
    + apply (IH _ (se_block ev) Hm Hc2 Hb' Hmono' i j a b); try done. lia.
Qed.

Lemma no_replay_lemma maxsig window h i j a b :
  2 <= maxsig -> blocks_nondecreasing h -> (i < j)%nat ->
  h !! i = Some a -> h !! j = Some b ->
  (sig_run maxsig window sig_empty h).2 !! i = Some None ->
  se_sig b = se_sig a -> se_exp b <= se_exp a ->
  exists err, (sig_run maxsig window sig_empty h).2 !! j = Some (Some err).
Proof.
  intros Hm Hmono Hij Hi Hj Hout Hs He. rewrite sig_run_refines_lemma in * by done.
  apply (spec_replay_lemma maxsig window h [] 0) with (i := i) (a := a) (b := b); try done.
  - intros s e H; inversion H.
  - intros; lia.
Qed.

Lemma spec_run_never_corrupted maxsig window h : forall acc,
  Some SignatureRegistryCorrupted ∉ spec_run maxsig window acc h.
Proof.
  induction h as [|ev h IH]; intros acc; cbn; [apply not_elem_of_nil|].
  destruct (spec_decide maxsig window acc ev) as [err|] eqn:Hd.
  - apply not_elem_of_cons. split; [|apply IH].
    intros Heq. injection Heq as <-. unfold spec_decide in Hd.
    repeat case_match; discriminate.
  - apply not_elem_of_cons. split; [done|apply IH].
Qed.

Lemma never_corrupted_lemma maxsig window h :
  2 <= maxsig -> Some SignatureRegistryCorrupted ∉ (sig_run maxsig window sig_empty h).2.
Proof. intros Hm. rewrite sig_run_refines_lemma by done. apply spec_run_never_corrupted. Qed.

Lemma sig_run_rep maxsig window h : forall reg acc,
  2 <= maxsig -> rep maxsig reg (remembered maxsig acc) ->
  exists acc', rep maxsig (sig_run maxsig window reg h).1 (remembered maxsig acc').
Proof.
  induction h as [|ev h IH]; intros reg acc Hm Hrep; [by exists acc|].
  cbn [sig_run].
  pose proof (register_refines maxsig window reg acc ev Hm Hrep) as Hs.
  destruct (spec_decide maxsig window acc ev) as [e|].
  - rewrite Hs. specialize (IH reg acc Hm Hrep). destruct (sig_run maxsig window reg h). done.
  - destruct Hs as (reg' & -> & Hrep'). specialize (IH reg' _ Hm Hrep').
    destruct (sig_run maxsig window reg' h). done.
Qed.

Lemma links_length q : length (links q) = (length q - 1)%nat.
Proof.
  rewrite <- (fmap_length fst), links_fst, take_length, fmap_length. lia.
Qed.

Lemma size_bound_lemma maxsig window h :
  2 <= maxsig ->
  N.of_nat (size (sr_list (sig_run maxsig window sig_empty h).1)) < maxsig /\
  (forall p, sr_ptr (sig_run maxsig window sig_empty h).1 = Some p -> sp_count p <= maxsig).
Proof.
  intros Hm. destruct (sig_run_rep maxsig window h sig_empty [] Hm (rep_empty _)) as [acc' (Hnd & Hlen & Hl & Hp)].
  split.
  - rewrite Hl. unfold size, map_size.
    rewrite map_to_list_to_map by (by apply links_nodup).
    rewrite links_length. unfold len in Hlen. lia.
  - intros p Hpe. destruct (remembered maxsig acc'); [congruence|].
    destruct Hp as (l' & _ & Hp). rewrite Hp in Hpe. injection Hpe as <-. done.
Qed.

Lemma window_lemma maxsig window reg now s exp reg' :
  now + window <= u32_max ->
  register_signature maxsig window reg now s exp = Ok reg' -> now < exp < now + window.
Proof.
  unfold register_signature, mortality_block_limit, wrap_add. intros Hw H. split_matches H.
  rewrite N.mod_small in * by lia. lia.
Qed.

Lemma window_errors_lemma maxsig window reg now s exp :
  now + window <= u32_max ->
  (register_signature maxsig window reg now s exp = Err ProofNotYetValid <-> now + window <= exp) /\
  (register_signature maxsig window reg now s exp = Err ProofHasExpired <-> exp <= now /\ exp < now + window).
Proof.
  unfold register_signature, mortality_block_limit, wrap_add, enqueue_signature. intros Hw.
  rewrite N.mod_small by lia.
  destruct (exp <? now + window) eqn:E1; [|split; split; intros; try done; try lia].
  destruct (now <? exp) eqn:E2; [|split; split; intros; try done; try lia].
  split; (split; [intros H; exfalso; repeat case_match; simplify_eq|intros; lia]).
Qed.

(** Where the limit error can come from: [maxsig] accepted signatures, the
    oldest of which has not expired yet. *)
Lemma spec_limit_lemma maxsig window h : forall acc j ev,
  2 <= maxsig -> h !! j = Some ev ->
  spec_run maxsig window acc h !! j = Some (Some SignatureRegistryLimitExceeded) ->
  let acc' := acc ++ accepted (take j h) (spec_run maxsig window acc (take j h)) in
  maxsig <= len acc' /\
  exists s e, acc' !! (length acc' - N.to_nat maxsig)%nat = Some (s, e) /\ se_block ev <= e.
Proof.
  induction h as [|x h IH]; intros acc j ev Hm Hj Hout; [done|].
  destruct j as [|j].
  - cbn in Hj. injection Hj as ->. cbn [take spec_run accepted zip]. cbn. rewrite app_nil_r.
    cbn in Hout. destruct (spec_decide maxsig window acc ev) as [err|] eqn:Hd; [|done].
    cbn in Hout. injection Hout as ->. unfold spec_decide in Hd.
    repeat (match type of Hd with (if ?b then _ else _) = _ => destruct b eqn:?; [discriminate|] end).
    destruct (remembered maxsig acc) as [|[o oe] q] eqn:Eq; [discriminate|].
    destruct (len ((o, oe) :: q) =? maxsig) eqn:Hl; [|discriminate]. cbn [andb] in Hd.
    destruct (se_block ev <=? oe) eqn:Hoe; [|discriminate].
    rewrite <- Eq, remembered_len in Hl. split; [lia|].
    exists o, oe. split; [|lia]. unfold remembered in Eq.
    rewrite <- (Nat.add_0_r (length acc - _)), <- lookup_drop, Eq. done.
  - cbn in Hj. cbn [take spec_run] in *.
    destruct (spec_decide maxsig window acc x) as [err|] eqn:Hd.
    + cbn in Hout. cbn [accepted zip omap list_omap]. cbn. apply (IH acc j ev Hm Hj Hout).
    + cbn in Hout. specialize (IH _ j ev Hm Hj Hout). cbn in IH |- *.
      rewrite <- app_assoc in IH. exact IH.
Qed.

Lemma sig_run_take maxsig window h j : forall reg,
  (sig_run maxsig window reg (take j h)).2 = take j (sig_run maxsig window reg h).2.
Proof.
  revert j. induction h as [|x h IH]; intros j reg; [by destruct j|].
  destruct j as [|j]; [done|]. cbn [take sig_run].
  destruct (register_signature _ _ _ _ _ _) as [reg'|e].
  - specialize (IH j reg'). destruct (sig_run maxsig window reg' (take j h)), (sig_run maxsig window reg' h).
    cbn in *. by rewrite IH.
  - specialize (IH j reg). destruct (sig_run maxsig window reg (take j h)), (sig_run maxsig window reg h).
    cbn in *. by rewrite IH.
Qed.

Lemma limit_lemma maxsig window h j ev :
  2 <= maxsig -> h !! j = Some ev ->
  (sig_run maxsig window sig_empty h).2 !! j = Some (Some SignatureRegistryLimitExceeded) ->
  let acc := accepted (take j h) (take j (sig_run maxsig window sig_empty h).2) in
  maxsig <= len acc /\
  exists s e, acc !! (length acc - N.to_nat maxsig)%nat = Some (s, e) /\ se_block ev <= e.
Proof.
  intros Hm Hj Hout. rewrite <- sig_run_take. rewrite sig_run_refines_lemma in Hout by done.
  rewrite sig_run_refines_lemma by done.
  apply (spec_limit_lemma maxsig window h []); done.
Qed.
